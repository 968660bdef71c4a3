(* EntryModel.v -- sample entries, the sample description box, the calls on
   sample description handles, and data references. *)
From Verif Require Import Base AtomModel BoxModel KidsModel TextModel.

(* ------------------------------------------------------------------ *)
(* Boxes at the end of an entry                                        *)

Definition box_at {T} (c : codec T) (dflt : T) : rd (atom T) := fun s =>
  (* MP4ParseAtom and bytesRead += atom->size *)
  do ar <- snd (parse_top T (c_leaf c) (c_ty c) (fun _ => dflt) (inp s));
  Ok (fst (fst ar), mkR (snd ar) (w32 (rdn s + snd (fst ar)))).
(* GETATOM_LIST, MP4Impl.h:221-243: a tail of less than eight bytes is left in
   the stream; the recursion is bounded by the input *)
Fixpoint exts_loop {T} (c : codec T) (dflt : T) (fuel : nat) (size : N) (acc : list (atom T)) : rd (list (atom T)) := fun s =>
  if rdn s <? size then
    if size - rdn s <? 8 then Ok (acc, mkR (inp s) size)
    else match fuel with
    | O => Err OutOfFuel
    | S f =>
        do ar <- box_at c dflt s;
        let a := fst ar in
        exts_loop c dflt f size (if is_free (atype T (c_ty c) a) then acc else acc ++ [a]) (snd ar)
    end
  else Ok (acc, s).
Definition exts_rd {T} (c : codec T) (dflt : T) (h : hdr) : rd (list (atom T)) := fun s =>
  exts_loop c dflt (length (inp s) + 1) (h_size h) [] s.

(* ------------------------------------------------------------------ *)
(* The fixed fields                                                    *)

(* VisualSampleEntryAtom.c; the three fields read and written one after the
   other in the source are in the same order here *)
Record vfix := mkV { v_res : list N; v_dri : N; v_res2 : list N; v_w : N; v_h : N; v_r4 : N; v_r5 : N; v_r6 : N; v_r7 : N;
  v_nlen : N; v_name : list N; v_r8 : N; v_r9 : N }.
(* serialize, VisualSampleEntryAtom.c:46-61 *)
Definition vfix_w (f : vfix) : wr :=
  putl (v_res f) ;; put16 (v_dri f) ;; putl (v_res2 f) ;; put16 (v_w f) ;; put16 (v_h f) ;;
  put32 (v_r4 f) ;; put32 (v_r5 f) ;; put32 (v_r6 f) ;; put16 (v_r7 f) ;; put8 (v_nlen f) ;; putl (v_name f) ;;
  put16 (v_r8 f) ;; put16 (v_r9 f).
(* createFromInputStream, VisualSampleEntryAtom.c:94-107 *)
Definition vfix_rd : rd vfix :=
  let* a := take 6 in let* d := get16 in let* b := take 16 in let* w := get16 in let* h := get16 in
  let* r4 := get32 in let* r5 := get32 in let* r6 := get32 in let* r7 := get16 in let* nl := get8 in let* nm := take 31 in
  let* r8 := get16 in let* r9 := get16 in rret (mkV a d b w h r4 r5 r6 r7 nl nm r8 r9).
(* MP4CreateVisualSampleEntryAtom, VisualSampleEntryAtom.c:117-150; the last
   field is -1, of which 16 bits are written *)
Definition vfix_new (dri : N) : vfix :=
  mkV (repeat 0 6) dri (repeat 0 16) 320 240 4718592 4718592 0 1 0 (repeat 0 31) 24 65535.

(* AudioSampleEntryAtom.c *)
Record afix := mkA { a_res : list N; a_dri : N; a_res2 : list N; a_r3 : N; a_r4 : N; a_r5 : N; a_ts : N; a_r6 : N }.
(* serialize, AudioSampleEntryAtom.c:48-56 *)
Definition afix_w (f : afix) : wr :=
  putl (a_res f) ;; put16 (a_dri f) ;; putl (a_res2 f) ;; put16 (a_r3 f) ;; put16 (a_r4 f) ;; put32 (a_r5 f) ;;
  put16 (a_ts f) ;; put16 (a_r6 f).
(* createFromInputStream, AudioSampleEntryAtom.c:91-98 *)
Definition afix_rd : rd afix :=
  let* a := take 6 in let* d := get16 in let* b := take 8 in let* r3 := get16 in let* r4 := get16 in let* r5 := get32 in
  let* ts := get16 in let* r6 := get16 in rret (mkA a d b r3 r4 r5 ts r6).
(* MP4CreateAudioSampleEntryAtom, AudioSampleEntryAtom.c:140-165, with the
   time scale set as in ISOSampleDescriptions.c:480-484 *)
Definition afix_new (dri timescale : N) : afix :=
  mkA (repeat 0 6) dri (repeat 0 8) 2 16 0 (if timescale <=? 65535 then timescale else 0) 0.
(* the loop over the boxes of an audio entry, AudioSampleEntryAtom.c:101-133:
   the error of MP4ParseAtom is not looked at before the size of the box,
   which is NULL then. A box that ends after the entry makes an entry whose
   version ([v1]: reserved2[1] == 1) is 1 read four numbers in place of the box
   and go on. *)
Fixpoint audio_loop {T} (c : codec T) (dflt : T) (fuel : nat) (size : N) (v1 : bool) (acc : list (atom T)) : rd (list (atom T)) := fun s =>
  if rdn s <? size then
    match fuel with
    | O => Err OutOfFuel
    | S f =>
        match box_at c dflt s with
        | Ok (a, s1) =>
            if (size <? rdn s1) && v1 then
              do qs <- (let* _ := get32 in let* _ := get32 in let* _ := get32 in get32) s;
              audio_loop c dflt f size v1 acc (snd qs)
            else audio_loop c dflt f size v1 (if is_free (atype T (c_ty c) a) then acc else acc ++ [a]) s1
        | _ => UB
        end
    end
  else Ok (acc, s).
Definition version1 (f : afix) : bool := nth 1 (a_res2 f) 0 =? 1.
Definition audio_exts {T} (c : codec T) (dflt : T) (h : hdr) (v1 : bool) : rd (list (atom T)) := fun s =>
  audio_loop c dflt (length (inp s) + 1) (h_size h) v1 [] s.

(* ------------------------------------------------------------------ *)
(* Entries                                                             *)

(* Generic and MPEG entries, visual and audio entries, with their extension
   boxes; the six kinds with a parser of their own (metx, mett, resv, mebx,
   enca, encv) are taken from a codec [O]. *)
Inductive ent (T O : Type) :=
| EGen (ty : N) (res : list N) (dri : N) (data : list N) (exts : list (atom T))
| EMpeg (ty : N) (res : list N) (dri : N) (exts : list (atom T))
| EVis (ty : N) (f : vfix) (exts : list (atom T))
| EAud (ty : N) (f : afix) (exts : list (atom T))
| EOther (o : O).
Arguments EGen {T O}. Arguments EMpeg {T O}. Arguments EVis {T O}. Arguments EAud {T O}. Arguments EOther {T O}.

(* MP4SampleEntryProtos, ISOSampleDescriptions.c:48-86, with the constructors
   MP4CreateAtom chooses, MP4Atoms.c:256-277 *)
Definition mpeg_types : list N := [fourcc 109 112 52 115].
Definition visual_types : list N :=
  [fourcc 109 112 52 118; fourcc 115 50 54 51; fourcc 97 118 99 49; fourcc 104 118 99 49;
   fourcc 118 118 105 49; fourcc 118 118 99 49; fourcc 118 118 115 49].
Definition audio_types : list N :=
  [fourcc 109 112 52 97; fourcc 115 97 109 114; fourcc 115 97 119 98; fourcc 115 97 119 112].
Definition among (ty : N) (l : list N) : bool := existsb (N.eqb ty) l.

Section Entries.
Context {T O : Type} (c : codec T) (dflt : T) (o : codec O).
Notation ent := (ent T O).

Definition ent_ty (e : ent) : N :=
  match e with EGen ty _ _ _ _ => ty | EMpeg ty _ _ _ => ty | EVis ty _ _ => ty | EAud ty _ _ => ty | EOther x => c_ty o x end.
(* the field dataReferenceIndex; [odri] for the other kinds *)
Definition ent_dri (odri : O -> N) (e : ent) : N :=
  match e with EGen _ _ d _ _ => d | EMpeg _ _ d _ => d | EVis _ f _ => v_dri f | EAud _ f _ => a_dri f | EOther x => odri x end.
(* calculateSize: GenericSampleEntryAtom.c:73-87, MPEGSampleEntryAtom.c:64-77,
   VisualSampleEntryAtom.c:70-83, AudioSampleEntryAtom.c:66-79 *)
Definition ent_size (e : ent) : N :=
  match e with
  | EGen _ _ _ d l => boxes_size c (w32 (8 + (8 + len d))) l
  | EMpeg _ _ _ l => boxes_size c (8 + 8) l
  | EVis _ _ l => boxes_size c (8 + 78) l
  | EAud _ _ l => boxes_size c (8 + 28) l
  | EOther x => c_size o x
  end.
(* serialize: GenericSampleEntryAtom.c:53-71, MPEGSampleEntryAtom.c:46-62,
   VisualSampleEntryAtom.c:37-68, AudioSampleEntryAtom.c:38-64 *)
Definition ent_w (e : ent) : wr :=
  match e with
  | EGen _ r d b l => putl r ;; put16 d ;; putl b ;; boxes_w c l
  | EMpeg _ r d l => putl r ;; put16 d ;; boxes_w c l
  | EVis _ f l => vfix_w f ;; boxes_w c l
  | EAud _ f l => afix_w f ;; boxes_w c l
  | EOther x => c_w o x
  end.
(* createFromInputStream: GenericSampleEntryAtom.c:89-115,
   MPEGSampleEntryAtom.c:79-98 *)
Definition gen_rd (h : hdr) : rd ent :=
  let* r := take 6 in let* d := get16 in let* br := getrdn in
  let* b := take (N.to_nat (sub32 (h_size h) br)) in
  rret (EGen (h_type h) r d b []).
Definition mpeg_rd (h : hdr) : rd ent :=
  let* r := take 6 in let* d := get16 in let* l := exts_rd c dflt h in rret (EMpeg (h_type h) r d l).
(* VisualSampleEntryAtom.c:85-114, AudioSampleEntryAtom.c:81-138 *)
Definition vis_rd (h : hdr) : rd ent :=
  let* f := vfix_rd in let* l := exts_rd c dflt h in rret (EVis (h_type h) f l).
Definition aud_rd (h : hdr) : rd ent :=
  let* f := afix_rd in let* l := audio_exts c dflt h (version1 f) in rret (EAud (h_type h) f l).
(* the parser MP4ParseAtomUsingProtoList takes; [vis] when the default is the
   visual entry (ISOSampleDescriptions.c:364, 418), else the generic one *)
Definition ent_rd (vis : bool) (h : hdr) : rd ent :=
  if among (h_type h) mpeg_types then mpeg_rd h
  else if among (h_type h) visual_types then vis_rd h
  else if among (h_type h) audio_types then aud_rd h
  else if c_known o (h_type h) then rmap EOther (c_rd o h)
  else if vis then vis_rd h else gen_rd h.
(* MP4ParseAtomUsingProtoList with the list of sample entries,
   MP4Atoms.c:768-904: header, contents, skipping of what was not read *)
Definition entry_at (vis : bool) : rd ent := fun s =>
  do hs <- parse_hdr (mkR (inp s) 0);
  let h := fst hs in
  do es <- ent_rd vis h (mkR (inp (snd hs)) (h_read h));
  let r := inp (snd es) in
  Ok (fst es, mkR (skip_tail (skip_count h (len (inp s) - len r)) r) (w32 (rdn s + h_size h))).
(* calculateSize and serialize of one entry *)
Definition entry_w (e : ent) : res (list N) :=
  wrun (ent_size e) (write_base (ent_size e) 0 (ent_ty e) ;; ent_w e).

(* ------------------------------------------------------------------ *)
(* stsd                                                                *)

Record stsd := mkStsd { sd_ver : N; sd_flags : N; sd_ents : list ent }.
(* serialize 64-83, calculateSize 85-99, createFromInputStream 124-158 of
   SampleDescriptionAtom.c *)
Definition stsd_size (a : stsd) : N := fold_left (fun n e => w32 (n + ent_size e)) (sd_ents a) 16.
Definition stsd_w (a : stsd) : wr :=
  put8 (sd_ver a) ;; put24 (sd_flags a) ;; put32 (len (sd_ents a)) ;;
  wmap (fun e => embed (ent_size e) (entry_w e)) (sd_ents a).
Definition stsd_rd (h : hdr) : rd stsd :=
  let* vf := get_full in
  let* n := get32 in
  let* l := rrep (N.to_nat n) (entry_at false) in
  let* br := getrdn in
  if br =? h_size h then rret (mkStsd (fst vf) (snd vf) l) else rerr MP4BadDataErr.
Definition stsd_codec : codec stsd := mkCodec (N.eqb T_stsd) (fun _ => T_stsd) stsd_size stsd_w stsd_rd.
(* getEntry, SampleDescriptionAtom.c:108-122 *)
Definition stsd_get (a : stsd) (k : N) : res ent :=
  if (k =? 0) || (len (sd_ents a) <? k) then Err MP4BadParamErr
  else match nth_error (sd_ents a) (N.to_nat (k - 1)) with Some e => Ok e | None => UB end.

(* ------------------------------------------------------------------ *)
(* Sample description handles, ISOSampleDescriptions.c                 *)

(* sampleEntryHToAtomPtr, ISOSampleDescriptions.c:88-110: the handle is the
   whole stream *)
Definition of_handle (vis : bool) (b : list N) : res ent := do es <- entry_at vis (mkR b 0); Ok (fst es).
(* ISONewGeneralSampleDescription, ISOSampleDescriptions.c:453-514, and the
   entry of MP4NewSampleDescription, 147-270 (an esds box as extension):
   visual, audio and other tracks *)
Inductive track_kind := VisualTrack | AudioTrack (timescale : N) | OtherTrack.
Definition new_entry (k : track_kind) (dri ty : N) (ext : list (atom T)) : ent :=
  match k with
  | VisualTrack => EVis ty (vfix_new dri) ext
  | AudioTrack ts => EAud ty (afix_new dri ts) ext
  | OtherTrack => EMpeg ty (repeat 0 6) dri ext
  end.
(* ISOSetSampleDescriptionDimensions, 359-377: the entry is taken for a visual
   one whatever it is *)
Definition set_dims (b : list N) (w h : N) : res (list N) :=
  do e <- of_handle true b;
  match e with
  | EVis ty f l => entry_w (EVis ty (mkV (v_res f) (v_dri f) (v_res2 f) w h (v_r4 f) (v_r5 f) (v_r6 f) (v_r7 f)
                                       (v_nlen f) (v_name f) (v_r8 f) (v_r9 f)) l)
  | _ => UB
  end.
(* ISOGetSampleDescriptionDimensions, 412-435; restricted entries (resv) are
   among the other kinds and not modelled *)
Definition get_dims (b : list N) : res (N * N) :=
  do e <- of_handle true b; match e with EVis _ f _ => Ok (v_w f, v_h f) | _ => UB end.
(* ISOGetSampleDescriptionType, 437-451 *)
Definition get_type (b : list N) : res N := do e <- of_handle false b; Ok (ent_ty e).
(* ISOAddAtomToSampleDescription, 517-538; [oadd] for the other kinds *)
Definition add_ext (oadd : O -> atom T -> O) (b : list N) (x : atom T) : res (list N) :=
  do e <- of_handle false b;
  entry_w (match e with
           | EGen ty r d b l => EGen ty r d b (l ++ [x])
           | EMpeg ty r d l => EMpeg ty r d (l ++ [x])
           | EVis ty f l => EVis ty f (l ++ [x])
           | EAud ty f l => EAud ty f (l ++ [x])
           | EOther z => EOther (oadd z x)
           end).
(* ISOGetAtomFromSampleDescription, 540-554, with MP4GetListEntryAtom,
   MP4Atoms.c:710-738: the first box of the type *)
Definition get_ext (oexts : O -> list (atom T)) (b : list N) (ty : N) : res (atom T) :=
  do e <- of_handle false b;
  match find (fun x => atype T (c_ty c) x =? ty)
          (match e with EGen _ _ _ _ l => l | EMpeg _ _ _ l => l | EVis _ _ l => l | EAud _ _ l => l | EOther z => oexts z end) with
  | Some x => Ok x
  | None => Err MP4NotFoundErr
  end.

(* setSampleEntry SampleTableAtom.c:163-180 with the parsing of the handle,
   MediaInformationAtom.c:393-421, 488-512 *)
Definition describe (a : stsd) (b : list N) : res stsd :=
  do e <- of_handle false b; Ok (mkStsd (sd_ver a) (sd_flags a) (sd_ents a ++ [e])).
(* MP4GetMediaSampleDescription, MP4Media.c:719-776 *)
Definition description (odri : O -> N) (a : stsd) (k : N) : res (list N * N) :=
  do e <- stsd_get a k; do b <- entry_w e; Ok (b, ent_dri odri e).
End Entries.
Arguments mkStsd {T O}. Arguments sd_ver {T O}. Arguments sd_flags {T O}. Arguments sd_ents {T O}.

(* ------------------------------------------------------------------ *)
(* Data references                                                     *)

(* DataReferenceAtom.c: any boxes, normally url and urn *)
Record dref (T : Type) := mkDref { dr_ver : N; dr_flags : N; dr_kids : list (atom T) }.
Arguments mkDref {T}. Arguments dr_ver {T}. Arguments dr_flags {T}. Arguments dr_kids {T}.
(* serialize 128-148, calculateSize 150-166, createFromInputStream 181-209;
   IMPLEMENT_NEW_ADDATOM adds free boxes as well *)
Definition dref_size {T} (c : codec T) (a : dref T) : N := boxes_size c 16 (dr_kids a).
Definition dref_w {T} (c : codec T) (a : dref T) : wr :=
  put8 (dr_ver a) ;; put24 (dr_flags a) ;; put32 (len (dr_kids a)) ;; boxes_w c (dr_kids a).
Definition dref_rd {T} (c : codec T) (dflt : T) (h : hdr) : rd (dref T) :=
  let* vf := get_full in
  let* n := get32 in
  let* l := rrep (N.to_nat n) (box_at c dflt) in
  let* br := getrdn in
  if br =? h_size h then rret (mkDref (fst vf) (snd vf) l) else rerr MP4BadDataErr.
Definition dref_codec {T} (c : codec T) (dflt : T) : codec (dref T) :=
  mkCodec (N.eqb T_dref) (fun _ => T_dref) (dref_size c) (dref_w c) (dref_rd c dflt).
(* getEntry, DataReferenceAtom.c:54-70 *)
Definition dref_get {T} (a : dref T) (k : N) : res (atom T) :=
  if (k <? 1) || (len (dr_kids a) <? k) then Err MP4BadParamErr
  else match nth_error (dr_kids a) (N.to_nat (k - 1)) with Some e => Ok e | None => UB end.

(* the two kinds of entries *)
Definition entry_codec : codec (durl + durn) := csum url_codec urn_codec.
(* MP4AddMediaDataReference, MP4Media.c:1156-1244: no handle, a url handle, a
   url and a urn handle; the entry number comes back *)
Inductive dspec := Here | Url (url : list N) | Urn (url urn : list N).
Definition dref_add (a : dref (durl + durn)) (d : dspec) : dref (durl + durn) * N :=
  let x := match d with
           | Here => inl (mkUrl T_url 0 1 None)
           | Url u => inl (mkUrl T_url 0 0 (Some u))
           | Urn u n => inr (mkUrn 0 0 (Some u) n None)
           end in
  let l := dr_kids a ++ [ALeaf _ x] in
  (mkDref (dr_ver a) (dr_flags a) l, len l).
(* MP4GetMediaDataReference, MP4Media.c:1247-1349: type, flags and contents of
   referenceH; [href], [hurn] say which handles the caller passes. Of a urn
   entry with urnH the first nameLength bytes of the location are copied, into
   referenceH. nameLength is set by the parser and by
   MP4AddMediaDataReference only. A box of another kind is printed as its type
   and version and flags, which only full boxes have: not modelled, UB. *)
Definition dref_describe (a : dref (durl + durn)) (k : N) (href hurn : bool) : res (N * N * option (list N)) :=
  if k =? 0 then Err MP4BadParamErr else
  do e <- dref_get a k;
  match e with
  | ALeaf _ (inl u) =>
      if negb (href || hurn) then Ok (ul_ty u, ul_flags u, None)
      else if ul_ty u =? T_url then
        Ok (ul_ty u, ul_flags u, if href then Some (match ul_loc u with Some b => b | None => [] end) else None)
      else Err MP4InvalidMediaErr
  | ALeaf _ (inr u) =>
      let loc := match un_loc u with Some b => b | None => [] end in
      if hurn then
        if href then
          (let n := match un_read u with Some b => len b | None => len (un_name u) end in
           if len loc <? n then UB else Ok (T_urn, un_flags u, Some (firstn (N.to_nat n) loc)))
        else UB
      else Ok (T_urn, un_flags u, if href then Some loc else None)
  | _ => if href || hurn then Err MP4InvalidMediaErr else UB
  end.

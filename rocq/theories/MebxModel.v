(* MebxModel.v -- metadata sample descriptions: boxed metadata with its key
   table (mebx), XML and text metadata (metx, mett); and the 3GPP audio and
   video descriptions. *)
From Verif Require Import Base AtomModel BoxModel KidsModel TextModel EntryModel SmallModel.

(* ------------------------------------------------------------------ *)
(* What a key box holds                                                *)

Definition T_keyd := fourcc 107 101 121 100.
Definition T_loca := fourcc 108 111 99 97.
Definition T_setu := fourcc 115 101 116 117.
Definition T_keys := fourcc 107 101 121 115.
Definition T_mebx := fourcc 109 101 98 120.
Definition NS_me4c := fourcc 109 101 52 99.   (* MP4Movies.h:88-89 *)
Definition NS_uiso := fourcc 117 105 115 111.
Definition four_only (ns : N) : bool := (ns =? NS_me4c) || (ns =? NS_uiso).

(* MetadataKeyDeclarationBox.c: serialize 39-71, calculateSize 73-94,
   createFromInputStream 96-126. The value handle always exists (MP4NewHandle,
   149). *)
Record keyd := mkKeyd { kd_ns : N; kd_val : list N }.
Definition keyd_w (a : keyd) : wr :=
  put32 (kd_ns a) ;; (if negb (len (kd_val a) =? 4) && four_only (kd_ns a) then werr MP4BadDataErr else putl (kd_val a)).
Definition rest_of (h : hdr) : rd (list N) :=   (* size and bytesRead as long: no wrap *)
  let* br := getrdn in
  if h_size h <? br then rerr MP4BadDataErr else take (N.to_nat (h_size h - br)).
Definition keyd_rd (h : hdr) : rd keyd := let* ns := get32 in let* v := rest_of h in rret (mkKeyd ns v).
Definition keyd_codec : codec keyd :=
  mkCodec (N.eqb T_keyd) (fun _ => T_keyd) (fun a => w32 (8 + 4 + len (kd_val a))) keyd_w keyd_rd.
(* MetadataLocaleBox.c: serialize 35-52 (strlen of a null pointer when the box
   had no contents), calculateSize 54-71 (an empty string is not counted),
   createFromInputStream 73-98 *)
Definition loca_w (a : option (list N)) : wr := match a with Some b => put_str b | None => wub end.
Definition loca_size (a : option (list N)) : N :=
  match a with Some b => if 0 <? slen b then w32 (8 + slen b + 1) else 8 | None => 8 end.
Definition loca_rd (h : hdr) : rd (option (list N)) :=
  let* b := rest_of h in rret (match b with [] => None | _ => Some b end).
Definition loca_codec : codec (option (list N)) := mkCodec (N.eqb T_loca) (fun _ => T_loca) loca_size loca_w loca_rd.
(* MetadataSetupBox.c: serialize 39-62, calculateSize 64-84,
   createFromInputStream 86-114 *)
Definition setu_codec : codec (list N) := mkCodec (N.eqb T_setu) (fun _ => T_setu) (fun b => w32 (8 + len b)) putl rest_of.

(* while(bytesRead < size) { MP4ParseAtom; bytesRead += atom->size; free space
   is dropped, else addAtom }, then bytesRead must be size: MetadataKeyBox.c:
   103-116, BoxedMetadataSampleEntry.c:96-111. The recursion is bounded by the
   input. *)
Fixpoint held_loop {T} (c : codec T) (dflt : T) (add : list (atom T) -> atom T -> res (list (atom T)))
    (fuel : nat) (size : N) (acc : list (atom T)) : rd (list (atom T)) := fun s =>
  if rdn s <? size then
    match fuel with
    | O => Err OutOfFuel
    | S f =>
        do ar <- box_at c dflt s;
        if is_free (atype T (c_ty c) (fst ar)) then held_loop c dflt add f size acc (snd ar)
        else do acc' <- add acc (fst ar); held_loop c dflt add f size acc' (snd ar)
    end
  else if rdn s =? size then Ok (acc, s) else Err MP4BadDataErr.
Definition held_rd {T} (c : codec T) (dflt : T) add (h : hdr) : rd (list (atom T)) := fun s =>
  held_loop c dflt add (length (inp s) + 1) (h_size h) [] s.
(* addAtom of a box which takes at most one box of each of the types [once] *)
Definition add_once {T} (c : codec T) (once : list N) (e : Z) (acc : list (atom T)) (a : atom T) : res (list (atom T)) :=
  let ty := atype T (c_ty c) in
  if among (ty a) once && existsb (fun k => ty k =? ty a) acc then Err e else Ok (acc ++ [a]).

Section Mebx.
(* [x]: all other boxes with their own parser *)
Context {X : Type} (x : codec X) (dx : X).

Definition kkid : Type := keyd + (option (list N) + (list N + X)).
Definition kkid_codec : codec kkid := csum keyd_codec (csum loca_codec (csum setu_codec x)).
Definition kdflt : kkid := inr (inr (inr dx)).
(* MetadataKeyBox.c: the type of the box is the local key id *)
Record mkey := mkKey { ky_id : N; ky_kids : list (atom kkid) }.
(* addAtom, MetadataKeyBox.c:34-61 *)
Definition key_add : list (atom kkid) -> atom kkid -> res (list (atom kkid)) :=
  add_once kkid_codec [T_keyd; T_loca; T_setu] MP4BadDataErr.
(* calculateSize 79-92, serialize 63-77, createFromInputStream 94-121 *)
Definition key_size (k : mkey) : N := boxes_size kkid_codec 8 (ky_kids k).
Definition key_w (k : mkey) : res (list N) :=
  wrun (key_size k) (write_base (key_size k) 0 (ky_id k) ;; boxes_w kkid_codec (ky_kids k)).
Definition key_rd (h : hdr) : rd mkey := rmap (mkKey (h_type h)) (held_rd kkid_codec kdflt key_add h).
(* MP4ParseAtomUsingProtoList with the key box as default for every type,
   MetadataKeyTableBox.c:165, 174: the key, its announced size, what follows *)
Definition key_at (i : list N) : res (mkey * N * list N) :=
  do hs <- parse_hdr (mkR i 0);
  let h := fst hs in
  do ks <- key_rd h (mkR (inp (snd hs)) (h_read h));
  let r := inp (snd ks) in
  Ok (fst ks, h_size h, skip_tail (skip_count h (len i - len r)) r).
(* the QuickTime form, MetadataKeyTableBox.c:179-199: nothing of it is kept *)
Definition qt_keys : rd unit :=
  let* _ := get32 in
  let* n := get32 in
  let* _ := rrep (N.to_nat n) (let* sz := get32 in let* _ := get32 in take (N.to_nat (sub32 sz 8))) in
  rret tt.
(* createFromInputStream, MetadataKeyTableBox.c:154-211, with
   addMetaDataKeyBox 67-79 *)
Fixpoint keys_loop (fuel : nat) (size : N) (acc : list mkey) : rd (list mkey) := fun s =>
  if rdn s <? size then
    match fuel with
    | O => Err OutOfFuel
    | S f =>
        do kr <- key_at (inp s);
        let k := fst (fst kr) in
        let br := w32 (rdn s + snd (fst kr)) in
        if size <? br then do q <- qt_keys s; keys_loop f size acc (snd q)
        else if existsb (fun k' => ky_id k' =? ky_id k) acc then Err MP4BadParamErr
        else keys_loop f size (acc ++ [k]) (mkR (snd kr) br)
    end
  else if rdn s =? size then Ok (acc, s) else Err MP4BadDataErr.
Definition keys_rd (h : hdr) : rd (list mkey) := fun s => keys_loop (length (inp s) + 1) (h_size h) [] s.
(* calculateSize 121-152, serialize 81-119 *)
Definition keys_size (l : list mkey) : N := fold_left (fun n k => w32 (n + key_size k)) l 8.
Definition keys_codec : codec (list mkey) :=
  mkCodec (N.eqb T_keys) (fun _ => T_keys) keys_size (wmap (fun k => embed (key_size k) (key_w k))) keys_rd.

(* ------------------------------------------------------------------ *)
(* mebx: BoxedMetadataSampleEntry.c                                    *)

Definition mkid_codec : codec (list mkey + X) := csum keys_codec x.
Record mebx := mkMebx { mx_res : list N; mx_dri : N; mx_kids : list (atom (list mkey + X)) }.
(* addAtom 66-82 *)
Definition mebx_box : list (atom (list mkey + X)) -> atom (list mkey + X) -> res (list (atom (list mkey + X))) :=
  add_once mkid_codec [T_keys] MP4BadParamErr.
(* calculateSize 52-64, serialize 33-50, createFromInputStream 84-116 *)
Definition mebx_w (m : mebx) : wr := putl (mx_res m) ;; put16 (mx_dri m) ;; boxes_w mkid_codec (mx_kids m).
Definition mebx_rd (h : hdr) : rd mebx :=
  let* r := take 6 in let* d := get16 in let* l := held_rd mkid_codec (inr dx) mebx_box h in rret (mkMebx r d l).
Definition mebx_codec : codec mebx :=
  mkCodec (N.eqb T_mebx) (fun _ => T_mebx) (fun m => boxes_size mkid_codec (8 + 8) (mx_kids m)) mebx_w mebx_rd.
(* the pointer keyTable *)
Fixpoint table_in (l : list (atom (list mkey + X))) : option (list mkey) :=
  match l with ALeaf _ (inl t) :: _ => Some t | _ :: r => table_in r | [] => None end.
Fixpoint put_table (l : list (atom (list mkey + X))) (t : list mkey) : list (atom (list mkey + X)) :=
  match l with ALeaf _ (inl _) :: r => ALeaf _ (inl t) :: r | a :: r => a :: put_table r t | [] => [] end.
(* the pointers keyDeclarationBox, localeBox, setupBox *)
Definition keyd_of (k : mkey) : option keyd :=
  match find (fun a => match a with ALeaf _ (inl _) => true | _ => false end) (ky_kids k) with Some (ALeaf _ (inl d)) => Some d | _ => None end.
Definition loca_of (k : mkey) : option (option (list N)) :=
  match find (fun a => match a with ALeaf _ (inr (inl _)) => true | _ => false end) (ky_kids k) with Some (ALeaf _ (inr (inl d))) => Some d | _ => None end.
Definition setu_of (k : mkey) : option (list N) :=
  match find (fun a => match a with ALeaf _ (inr (inr (inl _))) => true | _ => false end) (ky_kids k) with
  | Some (ALeaf _ (inr (inr (inl d)))) => Some d | _ => None end.

(* ISONewMebxSampleDescription, ISOSampleDescriptions.c:1675-1697 *)
Definition mebx_new (dri : N) : mebx := mkMebx (repeat 0 6) dri [ALeaf _ (inl [])].
(* (u32)MP4_FOUR_CHAR_CODE of four chars, linux/MP4OSMacros.h:67: char is
   signed, and shifting a negative number to the left keeps its low bits *)
Definition sext (b : N) : N := if b <? 128 then b else 4294967040 + b.
Definition char_code (a b c d : N) : N :=
  N.lor (N.lor (w32 (sext a * 16777216)) (w32 (sext b * 65536))) (N.lor (w32 (sext c * 256)) (sext d)).
(* the search for an unused id, ISOSampleDescriptions.c:1715-1727: a new key
   box, the key box last looked at, or none; n runs at most past the ids in
   the table *)
Inductive found := Fresh (n : N) | Taken (n : N) | Nothing.
Fixpoint search (fuel : nat) (t : list mkey) (n : N) (last : found) : found :=
  if n <? 4294967295 then
    if existsb (fun k => ky_id k =? n) t then
      match fuel with O => Taken n | S f => search f t (n + 1) (Taken n) end
    else Fresh n
  else last.
(* ISOSampleDescriptions.c:1730-1759; a value shorter than four bytes is read
   past its end *)
Definition key_value (want ns : N) (v : option (list N)) : res (list N) :=
  match v with
  | None => if four_only ns then Ok (be32 want) else Err MP4BadParamErr
  | Some b =>
      if four_only ns then
        match b with
        | b0 :: b1 :: b2 :: b3 :: r =>
            if negb (want =? char_code b0 b1 b2 b3) || negb (len b =? 4) then Err MP4BadParamErr else Ok b
        | _ => UB
        end
      else Ok b
  end.
(* MP4CreateMetadataKeyDeclarationBox, MetadataKeyDeclarationBox.c:128-170 *)
Definition new_keyd (ns : N) (v : list N) : res keyd :=
  if (negb (len v =? 4) && four_only ns) || (len v =? 0) then Err MP4BadParamErr else Ok (mkKeyd ns v).
(* MP4CreateMetadataSetupBox, MetadataSetupBox.c:116-150 *)
Definition new_setu (b : list N) : res (list N) := if len b =? 0 then Err MP4BadParamErr else Ok b.
(* ISOAddMebxMetadataToSampleEntry, ISOSampleDescriptions.c:1699-1788: the id
   and the entry. [loc] is the C string without its zero (MP4CreateMetadata-
   LocaleBox, MetadataLocaleBox.c:100-131). When a box is refused nothing is
   added to the table. (The id is stored even then.) *)
Definition mebx_add (m : mebx) (want ns : N) (v loc setup : option (list N)) : res (N * mebx) :=
  match table_in (mx_kids m) with
  | None => Err MP4BadDataErr
  | Some t =>
      let f := search (length t) t want Nothing in
      match f with
      | Nothing => Err MP4BadDataErr
      | _ =>
          do val <- key_value want ns v;
          do d <- new_keyd ns val;
          let kids0 := match f with Taken n => match find (fun k => ky_id k =? n) t with Some k => ky_kids k | None => [] end | _ => [] end in
          do k1 <- key_add kids0 (ALeaf kkid (inl d));
          do k2 <- (match loc with Some s => key_add k1 (ALeaf kkid (inr (inl (Some (s ++ [0]))))) | None => Ok k1 end);
          do k3 <- (match setup with
                    | Some b => if ns =? NS_uiso then Err MP4BadParamErr else do s <- new_setu b; key_add k2 (ALeaf kkid (inr (inr (inl s))))
                    | None => Ok k2 end);
          match f with
          | Fresh n => Ok (n, mkMebx (mx_res m) (mx_dri m) (put_table (mx_kids m) (t ++ [mkKey n k3])))
          (* a key box without declaration, which no call makes, would get one;
             addMetaDataKeyBox refuses it then and nobody looks *)
          | Taken n => Ok (n, mkMebx (mx_res m) (mx_dri m)
                (put_table (mx_kids m) (map (fun k => if ky_id k =? n then mkKey n k3 else k) t)))
          | Nothing => Err MP4BadDataErr
          end
      end
  end.
End Mebx.
Arguments mkKey {X}. Arguments ky_id {X}. Arguments ky_kids {X}. Arguments mkMebx {X}. Arguments mx_res {X}. Arguments mx_dri {X}. Arguments mx_kids {X}.
Arguments search {X}. Arguments table_in {X}. Arguments put_table {X}. Arguments keyd_of {X}. Arguments loca_of {X}. Arguments setu_of {X}.
Arguments kdflt {X}. Arguments mebx_new {X}.

(* ------------------------------------------------------------------ *)
(* metx, mett                                                          *)

Definition T_metx := fourcc 109 101 116 120.
Definition T_mett := fourcc 109 101 116 116.
(* readstring, XMLMetaSampleEntry.c:140-168, TextMetaSampleEntry.c:127-155: a
   buffer of 1024 bytes on the stack; the end of the box is not looked at *)
Fixpoint gets (room : nat) : rd (list N) :=
  let* b := get8 in
  match room with
  | O => rub
  | S k => if b =? 0 then rret [0] else let* r := gets k in rret (b :: r)
  end.
Definition readstring : rd (list N) := gets (N.to_nat 1024).
Definition str_if (h : hdr) : rd (option (list N)) :=
  let* br := getrdn in if br <? h_size h then rmap Some readstring else rret None.
Definition ostr_w (b : option (list N)) : wr := match b with Some s => put_str s | None => put8 0 end.
Definition ostr_len (b : option (list N)) : N := match b with Some s => slen s | None => 0 end.

(* XMLMetaSampleEntry.c: serialize 61-111, calculateSize 113-131,
   createFromInputStream 170-209: without a third string the second is
   forgotten (202-203) *)
Record metx (T : Type) := mkMetx { mt_res : list N; mt_dri : N; mt_enc : option (list N); mt_ns : option (list N); mt_loc : option (list N);
  mt_exts : list (atom T) }.
Arguments mkMetx {T}. Arguments mt_res {T}. Arguments mt_dri {T}. Arguments mt_enc {T}. Arguments mt_ns {T}. Arguments mt_loc {T}. Arguments mt_exts {T}.
(* TextMetaSampleEntry.c: serialize 57-98, calculateSize 100-118,
   createFromInputStream 157-190 *)
Record mett (T : Type) := mkMett { me_res : list N; me_dri : N; me_enc : option (list N); me_mime : option (list N); me_exts : list (atom T) }.
Arguments mkMett {T}. Arguments me_res {T}. Arguments me_dri {T}. Arguments me_enc {T}. Arguments me_mime {T}. Arguments me_exts {T}.
Section Meta.
Context {T : Type} (c : codec T) (dflt : T).
Definition metx_w (a : metx T) : wr :=
  putl (mt_res a) ;; put16 (mt_dri a) ;; ostr_w (mt_enc a) ;; ostr_w (mt_ns a) ;; ostr_w (mt_loc a) ;; boxes_w c (mt_exts a).
Definition metx_size (a : metx T) : N :=
  boxes_size c (w32 (8 + (8 + 3) + ostr_len (mt_enc a) + ostr_len (mt_ns a) + ostr_len (mt_loc a))) (mt_exts a).
Definition metx_rd (h : hdr) : rd (metx T) :=
  let* r := take 6 in let* d := get16 in
  let* a := str_if h in let* b := str_if h in let* l := str_if h in
  let* k := exts_rd c dflt h in
  rret (mkMetx r d a (match l with Some _ => b | None => None end) l k).
Definition metx_codec : codec (metx T) := mkCodec (N.eqb T_metx) (fun _ => T_metx) metx_size metx_w metx_rd.
Definition mett_w (a : mett T) : wr :=
  putl (me_res a) ;; put16 (me_dri a) ;; ostr_w (me_enc a) ;; ostr_w (me_mime a) ;; boxes_w c (me_exts a).
Definition mett_size (a : mett T) : N := boxes_size c (w32 (8 + (8 + 2) + ostr_len (me_enc a) + ostr_len (me_mime a))) (me_exts a).
Definition mett_rd (h : hdr) : rd (mett T) :=
  let* r := take 6 in let* d := get16 in
  let* a := str_if h in let* b := str_if h in
  let* k := exts_rd c dflt h in
  rret (mkMett r d a b k).
Definition mett_codec : codec (mett T) := mkCodec (N.eqb T_mett) (fun _ => T_mett) mett_size mett_w mett_rd.
(* ISONewXMLMetaDataSampleDescription, ISOSampleDescriptions.c:586-638, and
   ISONewTextMetaDataSampleDescription, 640-684; the strings without their
   zeros *)
Definition terminate (s : option (list N)) : option (list N) := option_map (fun b => b ++ [0]) s.
Definition metx_new (dri : N) (enc ns loc : option (list N)) : metx T :=
  mkMetx (repeat 0 6) dri (terminate enc) (terminate ns) (terminate loc) [].
Definition mett_new (dri : N) (enc mime : option (list N)) : mett T := mkMett (repeat 0 6) dri (terminate enc) (terminate mime) [].
End Meta.

(* ------------------------------------------------------------------ *)
(* The entries with a parser of their own, as the argument [o] of
   EntryModel.v                                                        *)

Section Entries.
Context {T : Type} (c : codec T) (dflt : T).
Definition mentry : Type := metx T + (mett T + mebx (X:=T)).
Definition mentry_codec : codec mentry := csum (metx_codec c dflt) (csum (mett_codec c dflt) (mebx_codec c dflt)).
Definition mentry_dri (e : mentry) : N :=
  match e with inl a => mt_dri a | inr (inl a) => me_dri a | inr (inr a) => mx_dri a end.
(* ISOGetMebxHandle, ISOSampleDescriptions.c:1790-1799 *)
Definition mebx_handle (m : mebx) : res (list N) := entry_w c mentry_codec (EOther (inr (inr m))).
(* the handle as an entry, and its key table; another kind of entry is taken
   for one *)
Definition table_of (b : list N) : res (list (mkey (X:=T))) :=
  do e <- of_handle c dflt mentry_codec false b;
  match e with
  | EOther (inr (inr m)) => match table_in (mx_kids m) with Some t => Ok t | None => Err MP4BadDataErr end
  | _ => UB
  end.
(* ISOGetMebxMetadataCount, 1801-1816 *)
Definition mebx_count (b : list N) : res N := do t <- table_of b; Ok (len t).
(* ISOGetMebxMetadataConfig, 1818-1866, all outputs asked for: id, namespace,
   value, locale string (the buffer), setup; the last two are left alone when
   there is none *)
Definition mebx_config (b : list N) (k : N) : res (N * N * list N * option (option (list N)) * option (list N)) :=
  do t <- table_of b;
  match nthN t k with
  | None => Err MP4BadParamErr
  | Some key =>
      match keyd_of key with
      | None => UB
      | Some d => Ok (ky_id key, kd_ns d, kd_val d, loca_of key, setu_of key)
      end
  end.
End Entries.

(* ------------------------------------------------------------------ *)
(* 3GPP descriptions                                                   *)

Definition T_s263 := fourcc 115 50 54 51.
Definition T_samr := fourcc 115 97 109 114.
Definition T_sawb := fourcc 115 97 119 98.
Definition T_sawp := fourcc 115 97 119 112.
Section Tgpp.
Context {X O : Type} (x : codec X) (dx : X) (o : codec O).
(* damr, dawp and d263 boxes, and all others *)
Definition tkid : Type := damr + (dawp + (d263 X + X)).
Definition tkid_codec : codec tkid := csum damr_codec (csum dawp_codec (csum (d263_codec x dx) x)).
(* the media time scale goes into a u32 of which 16 bits are written *)
Definition amr_fix (dri ts : N) : afix := mkA (repeat 0 6) dri (repeat 0 8) 2 16 0 ts 0.
(* ISONewH263SampleDescription, ISOSampleDescriptions.c:686-727 *)
Definition new_h263 (k : track_kind) (dri vendor ver level profile : N) : res (list N) :=
  match k with
  | VisualTrack => entry_w tkid_codec o (EVis T_s263 (vfix_new dri) [ALeaf tkid (inr (inr (inl (mkD263 vendor ver level profile []))))])
  | _ => Err MP4BadParamErr
  end.
(* ISONewAMRSampleDescription, 729-782 *)
Definition new_amr (k : track_kind) (dri : N) (wb : bool) (vendor ver modes period frames : N) : res (list N) :=
  match k with
  | AudioTrack ts => entry_w tkid_codec o
      (EAud (if wb then T_sawb else T_samr) (amr_fix dri ts) [ALeaf tkid (inl (mkDamr vendor ver modes period frames))])
  | _ => Err MP4BadParamErr
  end.
(* ISONewAMRWPSampleDescription, 784-833 *)
Definition new_amrwp (k : track_kind) (dri vendor ver : N) : res (list N) :=
  match k with
  | AudioTrack ts => entry_w tkid_codec o (EAud T_sawp (amr_fix dri ts) [ALeaf tkid (inr (inl (mkDawp vendor ver)))])
  | _ => Err MP4BadParamErr
  end.
End Tgpp.

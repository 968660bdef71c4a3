(* EsdModel.v -- MPEG-4 sample descriptions: making them, changing the elementary
   stream descriptor inside, and asking a media for its decoder. *)
From Verif Require Import Base AtomModel BoxModel KidsModel TextModel HeaderModel DescModel EntryModel.

Section Esd.
(* other boxes in sample entries, and the other kinds of sample entries with
   their list of boxes *)
Context {X O : Type} (x : codec X) (dx : X) (o : codec O) (oexts : O -> list (atom (dbox + (btrt + X)))) (oset : O -> list (atom (dbox + (btrt + X))) -> O).
Definition mext : Type := dbox + (btrt + X).
Definition mcodec : codec mext := csum esds_codec (csum btrt_codec x).
Definition mdflt : mext := inr (inr dx).
Notation ent := (ent mext O).

(* ExtensionAtomList *)
Definition mexts (e : ent) : list (atom mext) :=
  match e with EGen _ _ _ _ l => l | EMpeg _ _ _ l => l | EVis _ _ l => l | EAud _ _ l => l | EOther z => oexts z end.
Definition set_mexts (e : ent) (l : list (atom mext)) : ent :=
  match e with
  | EGen ty r d b _ => EGen ty r d b l
  | EMpeg ty r d _ => EMpeg ty r d l
  | EVis ty f _ => EVis ty f l
  | EAud ty f _ => EAud ty f l
  | EOther z => EOther (oset z l)
  end.
(* MP4GetListEntryAtom with MP4ESDAtomType, MP4Atoms.c:710-738: the boxes
   before it, the box, the boxes after it *)
Fixpoint esd_find (l : list (atom mext)) : option (list (atom mext) * atom mext * list (atom mext)) :=
  match l with
  | [] => None
  | a :: r => if atype mext (c_ty mcodec) a =? 1702061171 then Some ([], a, r)
              else match esd_find r with Some (p, b, q) => Some (a :: p, b, q) | None => None end
  end.

(* MP4NewSampleDescriptionWithOCRAssociation, ISOSampleDescriptions.c:140-272:
   the elementary stream descriptor. The tag of the decoder specific info is
   not looked at. *)
Definition sl_mp4 : slc := mkSlc 2 0 0 0 0 0 1 0 0 0 0 0 0 0 0 0 0 0 0 0 0.
Definition esd_new (oti st buf mx av : N) (info : option desc) : desc :=
  Desc (HES 0 0 0 0 []) [(0, Desc (HDec oti st 0 buf mx av) (match info with Some d => [(0, d)] | None => [] end)); (1, Desc (HSL sl_mp4) [])].
(* the types the constructors set: VisualSampleEntryAtom.c:125,
   AudioSampleEntryAtom.c:148, MPEGSampleEntryAtom.c:109 *)
Definition mp4_type (k : track_kind) : N :=
  match k with VisualTrack => fourcc 109 112 52 118 | AudioTrack _ => fourcc 109 112 52 97 | OtherTrack => fourcc 109 112 52 115 end.
(* ... and the handle. The error is that of taking the esds box out of the
   list again (263): not found before it was added, none after. [Ok None]: no
   error, but the handle was not written. With a clock reference a track
   reference is added as well (MP4AddTrackReferenceWithID). *)
Definition mp4_new (k : track_kind) (dri oti st buf mx av : N) (info : option (list N)) : res (option (list N)) :=
  match (match info with None => Ok None | Some b => do ds <- desc_read (mkR b 0); Ok (Some (fst ds)) end) with
  | Ok i =>
      match entry_w mcodec o (new_entry k dri (mp4_type k) [ALeaf _ (inl (mkDbox 0 0 (Some (esd_new oti st buf mx av i))))]) with
      | Ok b => Ok (Some b)
      | Err _ => Ok None
      | UB => UB
      end
  | Err _ => Err MP4NotFoundErr
  | UB => UB
  end.
(* the descriptor of an esds box as an ES descriptor: another one is used as
   if it were one *)
Definition as_es (b : atom mext) : res (N * N * N * N * N * N * list N * list (N * desc)) :=
  match b with
  | ALeaf _ (inl (mkDbox v f (Some (Desc (HES id dep prio ocr url) ks)))) => Ok (v, f, id, dep, prio, ocr, url, ks)
  | ALeaf _ (inl (mkDbox v f None)) => Err MP4InvalidMediaErr
  | _ => UB
  end.
(* MP4SetSampleDescriptionPriority, ISOSampleDescriptions.c:275-305 *)
Definition set_priority (h : list N) (p : N) : res (list N) :=
  do e <- of_handle mcodec mdflt o false h;
  match esd_find (mexts e) with
  | None => Err MP4BadParamErr
  | Some (pre, b, post) =>
      do d <- as_es b;
      let '(v, f, id, dep, prio, ocr, url, ks) := d in
      entry_w mcodec o (set_mexts e (pre ++ ALeaf _ (inl (mkDbox v f (Some (Desc (HES id dep p ocr url) ks)))) :: post))
  end.
(* MP4AddDescToSampleDescription, ISOSampleDescriptions.c:308-357 *)
Definition add_esd_desc (h bytes : list N) : res (list N) :=
  do e <- of_handle mcodec mdflt o false h;
  match esd_find (mexts e) with
  | None => Err MP4BadParamErr
  | Some (pre, b, post) =>
      do d <- as_es b;
      let '(v, f, id, dep, prio, ocr, url, ks) := d in
      do n <- desc_read (mkR bytes 0);
      do ks' <- desc_add (HES id dep prio ocr url) ks (fst n);
      entry_w mcodec o (set_mexts e (pre ++ ALeaf _ (inl (mkDbox v f (Some (Desc (HES id dep prio ocr url) ks')))) :: post))
  end.
(* ISOSetSampleDescriptionType, ISOSampleDescriptions.c:379-410; the other
   kinds of entries keep their type elsewhere and are left out. An esds box is
   freed (396) and then looked for in the list (397, MP4Atoms.c:753), which
   reads the type of the freed box. *)
Definition set_ty (e : ent) (ty : N) : res ent :=
  match e with
  | EGen _ r d b l => Ok (EGen ty r d b l)
  | EMpeg _ r d l => Ok (EMpeg ty r d l)
  | EVis _ f l => Ok (EVis ty f l)
  | EAud _ f l => Ok (EAud ty f l)
  | EOther _ => UB
  end.
Definition set_type (h : list N) (ty : N) : res (list N) :=
  do e <- of_handle mcodec mdflt o false h;
  do e' <- set_ty e ty;
  if N.lor (N.land ty 4294967040) 32 =? 1836069920 then entry_w mcodec o e'
  else match esd_find (mexts e) with
       | None => Err MP4NotFoundErr
       | Some _ => UB
       end.
(* ISOAddBitrateToSampleDescription, ISOSampleDescriptions.c:556-584 *)
Definition add_bitrate (h : list N) (is_3gpp buf mx av : N) : res (list N) :=
  do e <- of_handle mcodec mdflt o false h;
  entry_w mcodec o (set_mexts e (mexts e ++ [ALeaf _ (inr (inl (mkBtrt (negb (is_3gpp =? 0)) buf mx av)))])).

(* ------------------------------------------------------------------ *)
(* asking a media                                                       *)

(* MP4GetMediaESD, MP4Media.c:778-837: the esds box of a description *)
Definition media_esds (a : stsd (T := mext) (O := O)) (k : N) : res (atom mext) :=
  do e <- stsd_get a k;
  match esd_find (mexts e) with None => Err MP4InvalidMediaErr | Some (_, b, _) => Ok b end.
(* MP4GetMediaDecoderConfig, MP4Media.c:839-913: the bytes; the slot of the
   decoder configuration is member 0 *)
Definition decoder_config (a : stsd (T := mext) (O := O)) (k : N) : res (list N) :=
  do b <- media_esds a k;
  do d <- as_es b;
  match find (fun z => fst z =? 0) (snd d) with
  | Some (_, c) => dwrite c
  | None => Ok []
  end.
(* the tag and the length before the contents, MP4Media.c:1009-1021: [k]
   bytes were skipped, [r] is what follows them in the handle *)
Fixpoint skip_len (size k : N) (r : list N) : res (list N) :=
  match r with
  | [] => UB
  | b :: r' => if b <? 128 then Ok r' else if k + 1 =? size then Err MP4InvalidMediaErr else skip_len size (k + 1) r'
  end.
(* MP4GetMediaDecoderInformation, MP4Media.c:926-1048: object type, stream
   type, buffer size, upstream, rates, specific info; without configuration
   nothing is set ([None]), without specific info its handle is left as it is *)
Definition decoder_info (a : stsd (T := mext) (O := O)) (k : N) : res (option (list N * option (list N))) :=
  do b <- media_esds a k;
  do d <- as_es b;
  match find (fun z => fst z =? 0) (snd d) with
  | None => Ok None
  | Some (_, Desc (HDec oti st up buf mx av) ks) =>
      match find (fun z => fst z =? 0) ks with
      | None => Ok (Some ([oti; st; buf; up; mx; av], None))
      | Some (_, i) =>
          do bs <- dwrite i;
          match bs with
          | [] => Ok (Some ([oti; st; buf; up; mx; av], Some []))
          | _ :: r => do s <- skip_len (len bs) 1 r; Ok (Some ([oti; st; buf; up; mx; av], Some s))
          end
      end
  | Some _ => UB
  end.
End Esd.

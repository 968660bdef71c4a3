(* CryptModel.v -- protected sample entries (enca, encv) with the ISMA calls on
   them, and restricted video entries (resv) with theirs. *)
From Verif Require Import Base AtomModel BoxModel KidsModel TextModel HeaderModel EntryModel SmallModel MebxModel MboxModel ParamModel.

Definition T_enca := fourcc 101 110 99 97.
Definition T_encv := fourcc 101 110 99 118.
Definition T_iAEC := fourcc 105 65 69 67.

(* ------------------------------------------------------------------ *)
(* Protected entries: EncVisualSampleEntryAtom.c, EncAudioSampleEntryAtom.c *)

Section Enc.
(* [z]: all boxes but those of protection *)
Context {Z : Type} (z : codec Z) (dz : Z).
(* the boxes in a schi, those of ISMA among them *)
Definition info : Type := ikms + (isfm + (N + Z)).
Definition info_codec : codec info := csum ikms_codec (csum isfm_codec (csum islt_codec z)).
Definition sec := sinf (X:=info).
(* the boxes in an entry *)
Definition ekid : Type := sec + info.
Definition ekid_codec : codec ekid := ipro_kid info_codec.
Definition edflt : ekid := inr (inr (inr (inr dz))).

(* MP4EncVisualSampleEntryAtom, MP4EncAudioSampleEntryAtom: the type is that
   of the file *)
Record enc := mkEnc { en_ty : N; en_fix : vfix + afix; en_exts : list (atom ekid); en_sinf : option sec }.
Definition sec_box (s : option sec) : list (atom ekid) := match s with Some s => [ALeaf ekid (inl s)] | None => [] end.
(* calculateSize, EncVisualSampleEntryAtom.c:84-99, EncAudioSampleEntryAtom.c:
   79-94 *)
Definition enc_size (e : enc) : N :=
  boxes_size ekid_codec (boxes_size ekid_codec (8 + match en_fix e with inl _ => 78 | inr _ => 28 end) (sec_box (en_sinf e))) (en_exts e).
(* serialize, EncVisualSampleEntryAtom.c:52-82, EncAudioSampleEntryAtom.c:
   53-77: the fields are those of the unprotected entries *)
Definition enc_w (e : enc) : wr :=
  match en_fix e with inl f => vfix_w f | inr f => afix_w f end ;; boxes_w ekid_codec (en_exts e) ;; boxes_w ekid_codec (sec_box (en_sinf e)).
(* addAtom, EncVisualSampleEntryAtom.c:101-116, EncAudioSampleEntryAtom.c:
   96-111: the last sinf is kept *)
Fixpoint sort_sec (exts : list (atom ekid)) (s : option sec) (l : list (atom ekid)) : list (atom ekid) * option sec :=
  match l with
  | [] => (exts, s)
  | ALeaf _ (inl s') :: r => sort_sec exts (Some s') r
  | a :: r => sort_sec (exts ++ [a]) s r
  end.
(* createFromInputStream, EncVisualSampleEntryAtom.c:118-163,
   EncAudioSampleEntryAtom.c:113-150; [vis]: which of them *)
Definition enc_rd (vis : bool) (h : hdr) : rd enc :=
  let* f := if vis then rmap inl vfix_rd else rmap inr afix_rd in
  let* l := held_rd ekid_codec edflt (add_once ekid_codec [] MP4BadDataErr) h in
  let es := sort_sec [] None l in
  rret (mkEnc (h_type h) f (fst es) (snd es)).
Definition enc_codec : codec enc :=
  mkCodec (fun ty => (ty =? T_encv) || (ty =? T_enca)) en_ty enc_size enc_w (fun h => enc_rd (h_type h =? T_encv) h).
Definition enc_dri (e : enc) : N := match en_fix e with inl f => v_dri f | inr f => a_dri f end.

(* transform, EncAudioSampleEntryAtom.c:152-207, for both: a sinf that is
   there is dropped. The type is enc_type of the constructor. *)
Definition transform (e : enc) (ty ver : N) (url : option (list N)) : enc :=
  mkEnc (match en_fix e with inl _ => T_encv | inr _ => T_enca end) (en_fix e) (en_exts e)
    (Some (mkSinf (Some (mkFrma (en_ty e))) (Some (mkSchm 0 0 ty ver url)) (Some []))).
(* addSchemeInfoAtom, 244-273 *)
Definition add_info (e : enc) (a : atom (sub (X:=info))) : res enc :=
  match en_sinf e with
  | None => Err MP4BadParamErr
  | Some s => match sf_schi s with
              | None => Err MP4BadDataErr
              | Some l => Ok (mkEnc (en_ty e) (en_fix e) (en_exts e) (Some (mkSinf (sf_frma s) (sf_schm s) (Some (l ++ [a])))))
              end
  end.
(* getScheme, 328-368, without the address *)
Definition scheme_of (e : enc) : res (N * N) :=
  match en_sinf e with
  | None => Err MP4BadParamErr
  | Some s => match sf_schm s with None => Err MP4BadDataErr | Some m => Ok (sm_type m, sm_version m) end
  end.
(* getSchemeInfoAtom, 275-326: a box that is not there is NULL and no error *)
Definition info_of (e : enc) (ty : N) : res (option (atom (sub (X:=info)))) :=
  match en_sinf e with
  | None => Err MP4BadParamErr
  | Some s => match sf_schi s with
              | None => Err MP4BadDataErr
              | Some l => Ok (find (fun a => atype sub (c_ty (sub_codec info_codec)) a =? ty) l)
              end
  end.
(* untransform, 209-242 *)
Definition untransform (e : enc) : res enc :=
  match en_sinf e with
  | None => Err MP4BadParamErr
  | Some s => match sf_frma s with None => Err MP4BadDataErr | Some f => Ok (mkEnc (fo_format f) (en_fix e) (en_exts e) None) end
  end.
(* calculateSize, MP4SetHandleSize, serialize *)
Definition enc_handle (e : enc) : res (list N) :=
  wrun (enc_size e) (write_base (enc_size e) 0 (en_ty e) ;; enc_w e).

(* "http://www.isma.tv" with its zero *)
Definition isma_url : list N := [104; 116; 116; 112; 58; 47; 47; 119; 119; 119; 46; 105; 115; 109; 97; 46; 116; 118; 0].
(* ISMATransformSampleEntrySalt, ISMASecurity.c:44-149; without the salt
   (35-42) it is 0. The handle is parsed as a protected entry whatever its type
   is. [kms]: the address without its zero. *)
Definition parse_enc (vis : bool) (b : list N) : res enc :=
  do hs <- parse_hdr (mkR b 0);
  let h := fst hs in
  do es <- enc_rd vis h (mkR (inp (snd hs)) (h_read h));
  Ok (fst es).
Definition protect (k : track_kind) (b : list N) (selective klen ivlen : N) (kms : option (list N)) (salt : N) : res (list N) :=
  do e <- match k with VisualTrack => parse_enc true b | AudioTrack _ => parse_enc false b | OtherTrack => Err MP4NotImplementedErr end;
  let e1 := transform e T_iAEC 1 (Some isma_url) in
  do e2 <- add_info e1 (ALeaf _ (inr (inr (inl (mkIkms 0 0 (terminate kms))))));
  do e3 <- add_info e2 (ALeaf _ (inr (inr (inr (inl (mkIsfm 0 0 selective klen ivlen))))));
  do e4 <- if salt =? 0 then Ok e3 else add_info e3 (ALeaf _ (inr (inr (inr (inr (inl salt))))));
  enc_handle e4.

(* ISMAUnTransformSampleEntrySalt, ISMASecurity.c:160-251, with all pointers
   given: selective encryption, lengths, address, salt; the handle. A string
   is copied up to its zero. *)
Record terms := mkTerms { te_selective : N; te_klen : N; te_ivlen : N; te_kms : list N; te_salt : N }.
Definition copied (b : option (list N)) : res (list N) :=
  match b with None => UB | Some b => if terminated b then Ok (firstn (N.to_nat (slen b)) b) else UB end.
Definition unprotect (b : list N) : res (terms * list N) :=
  do ar <- box_at (csum enc_codec ekid_codec) (inr edflt) (mkR b 0);
  match fst ar with
  | ALeaf _ (inl e) =>
      do sc <- scheme_of e;
      if negb ((fst sc =? T_iAEC) && (snd sc =? 1)) then Err MP4NotImplementedErr else
      do km <- info_of e T_iKMS;
      do url <- match km with Some (ALeaf _ (inr (inr (inl k)))) => copied (km_url k) | _ => UB end;
      do sl <- info_of e T_iSLT;
      do salt <- match sl with Some (ALeaf _ (inr (inr (inr (inr (inl s)))))) => Ok s | Some _ => UB | None => Ok 0 end;
      do fm <- info_of e T_iSFM;
      match fm with
      | Some (ALeaf _ (inr (inr (inr (inl f))))) =>
          do e' <- untransform e;
          do out <- enc_handle e';
          Ok (mkTerms (if_selective f) (if_klen f) (if_ivlen f) url salt, out)
      | _ => UB
      end
  | _ => Err MP4NotImplementedErr
  end.
End Enc.
Arguments mkEnc {Z}. Arguments en_ty {Z}. Arguments en_fix {Z}. Arguments en_exts {Z}. Arguments en_sinf {Z}.

(* ------------------------------------------------------------------ *)
(* Restricted video: RestrictedVideoSampleEntry.c, RestrictedSchemeInfoAtom.c *)

Section Resv.
(* [x]: all boxes but frma and schm. A rinf is a container of AtomModel.v,
   which takes one frma, schm and schi (RestrictedSchemeInfoAtom.c) *)
Context {X : Type} (x : codec X) (dx : X).
Notation sub := (sub (X:=X)). Notation subc := (sub_codec x). Notation subd := (inr (inr dx) : sub).
(* MP4RestrictedVideoSampleEntryAtom *)
Record resv := mkResv { rv_fix : vfix; rv_exts : list (atom sub) }.
(* serialize 54-87, calculateSize 89-104, createFromInputStream 120-152 of
   RestrictedVideoSampleEntry.c *)
Definition resv_w (r : resv) : wr := vfix_w (rv_fix r) ;; boxes_w subc (rv_exts r).
Definition resv_rd (h : hdr) : rd resv :=
  let* f := vfix_rd in
  let* l := exts_rd subc subd h in
  let* br := getrdn in
  if br =? h_size h then rret (mkResv f l) else rerr MP4BadDataErr.
Definition resv_codec : codec resv :=
  mkCodec (N.eqb T_resv) (fun _ => T_resv) (fun r => boxes_size subc (8 + 78) (rv_exts r)) resv_w resv_rd.
Definition resv_dri (r : resv) : N := v_dri (rv_fix r).

(* getRinf, 354-378: the first rinf; and the pointers kept by
   RestrictedSchemeInfoAtom.c:118-142 *)
Fixpoint boxes_in (ty : N) (l : list (atom sub)) : option (list (atom sub)) :=
  match l with [] => None | ABoxes _ t k :: q => if t =? ty then Some k else boxes_in ty q | _ :: q => boxes_in ty q end.
Fixpoint frma_in (l : list (atom sub)) : option frma := match l with [] => None | ALeaf _ (inl f) :: _ => Some f | _ :: q => frma_in q end.
Fixpoint schm_in (l : list (atom sub)) : option schm := match l with [] => None | ALeaf _ (inr (inl m)) :: _ => Some m | _ :: q => schm_in q end.

(* sampleEntryHToAtomPtr and the test of the type in the calls below *)
Definition restricted (b : list N) : res resv :=
  do e <- of_handle subc subd resv_codec true b;
  match e with EOther r => Ok r | _ => Err MP4BadParamErr end.
(* the pointer is not set when there is no rinf, and its use then is
   undefined *)
Definition rinf_of (b : list N) : res (list (atom sub)) :=
  do r <- restricted b; match boxes_in T_rinf (rv_exts r) with Some l => Ok l | None => UB end.
(* ISOGetRESVOriginalFormat, ISOSampleDescriptions.c:1394-1424 *)
Definition get_format (b : list N) : res N :=
  do l <- rinf_of b; match frma_in l with Some f => Ok (fo_format f) | None => Err MP4BadParamErr end.
(* ISOGetRESVSchemeType, 1426-1443, with getScheme, RestrictedVideoSampleEntry.c:
   380-421; [url]: the address is asked for *)
Definition get_scheme (b : list N) (url : bool) : res (N * N * option (list N)) :=
  do l <- rinf_of b;
  match schm_in l with
  | None => Err MP4BadDataErr
  | Some m => if url then do u <- copied (sm_url m); Ok (sm_type m, sm_version m, Some u) else Ok (sm_type m, sm_version m, None)
  end.
(* ISOGetRESVSchemeInfoAtom, 1445-1468, with getSchemeInfoAtom,
   RestrictedVideoSampleEntry.c:300-352: a box that is not there is NULL and no
   error, and is serialised *)
Definition get_info (b : list N) (ty : N) : res (list N) :=
  do l <- rinf_of b;
  match boxes_in T_schi l with
  | None => Err MP4BadDataErr
  | Some k => match find (fun a => atype sub (c_ty subc) a =? ty) k with
              | Some a => wrun (kid_size subc a) (boxes_w subc [a])
              | None => UB
              end
  end.
(* ISOGetSampleDescriptionDimensions, 412-435, of a restricted entry *)
Definition resv_dims (b : list N) : res (N * N) := do r <- restricted b; Ok (v_w (rv_fix r), v_h (rv_fix r)).
End Resv.
Arguments mkResv {X}. Arguments rv_fix {X}. Arguments rv_exts {X}.

(* The calls on the parameter sets of a restricted entry: [y] are all boxes
   but those of protection and the configurations of ParamModel.v. *)
Section Sets.
Context {Y : Type} (y : codec Y).
Notation X := (avcc + (hvcc + (vvcc + (vvnc + Y))))%type.
Notation subc := (sub_codec (pcodec y)). Notation sub := (sub (X:=X)).
Definition conf_of (l : list (atom sub)) (ty : N) : option (atom sub) := find (fun a => atype sub (c_ty subc) a =? ty) l.
Definition resv_entry : list N -> res (resv (X:=X)) := restricted (pcodec y) pdflt.
(* ISOGetRESVSampleDescriptionPS, ISOSampleDescriptions.c:1299-1329 *)
Definition resv_ps (b : list N) (wh index : N) : res (list N) :=
  do r <- resv_entry b;
  match conf_of (rv_exts r) T_hvcC with
  | Some (ALeaf _ (inr (inr (inr (inl a))))) => hvcc_get a wh index
  | Some _ => UB
  | None => match conf_of (rv_exts r) T_avcC with
            | Some (ALeaf _ (inr (inr (inl a)))) => avcc_get a wh index
            | Some _ => UB
            | None => Err MP4BadDataErr
            end
  end.
(* ISOGetNALUnitLength, ISOSampleDescriptions.c:1331-1391, of a restricted
   entry *)
Definition resv_nal_length (b : list N) : res N :=
  do r <- resv_entry b;
  match conf_of (rv_exts r) T_vvnC with
  | Some (ALeaf _ (inr (inr (inr (inr (inr (inl a))))))) => Ok (vn_len1 a + 1)
  | Some _ => UB
  | None =>
      match conf_of (rv_exts r) T_hvcC with
      | Some (ALeaf _ (inr (inr (inr (inl a))))) => Ok (hc_len1 a + 1)
      | Some _ => UB
      | None =>
          match conf_of (rv_exts r) T_avcC with
          | Some (ALeaf _ (inr (inr (inl a)))) => Ok (ac_len a)
          | Some _ => UB
          | None => match conf_of (rv_exts r) T_vvcC with
                    | Some (ALeaf _ (inr (inr (inr (inr (inl a)))))) => Ok (vc_len1 a + 1)
                    | Some _ => UB
                    | None => Err MP4BadDataErr
                    end
          end
      end
  end.
End Sets.

(* CryptProps.v -- ISMA protection of descriptions (C71); restricted video (C72). *)
From Verif Require Import Base Codec BitLemmas AtomModel AtomSpec AtomProofs BoxModel BoxSpec BoxProofs Reads IndexProofs KidsModel KidsProofs TextModel TextSpec TextProofs TextProps
  EntryModel EntrySpec EntryProofs EntryProps HeaderModel HeaderSpec HeaderProofs SmallModel SmallSpec SmallProofs SmallProps MebxModel MebxSpec MebxProofs MebxProps
  MboxModel MboxSpec MboxProofs ParamModel ParamSpec ParamProofs ParamHandle CryptModel CryptSpec CryptProofs.

(* ------------------------------------------------------------------ *)
(* C71                                                                 *)

Definition suits (k : track_kind) (f : vfix + afix) : Prop :=
  match k, f with VisualTrack, inl _ => True | AudioTrack _, inr _ => True | _, _ => False end.

Section Isma.
Context {Z : Type} (z : codec Z) (dz : Z) (y : layout Z).
Hypothesis F : faithful z y.
Hypothesis A : secret_apart z.
Notation enc := (enc (Z:=Z)).
Lemma parse_is ty f kids s : fix_ok f -> ty < 4294967296 -> ty <> code "uuid" ->
  Forall (fun q => kid_ok (ekid_codec z) (ekid_layout z y) q /\ ~ is_sinf z q) kids -> kid_view (ekid_layout z y) kids = kids ->
  Forall (kid_ok (ekid_codec z) (ekid_layout z y)) (sinf_list s) ->
  let b := box ty (l_body (enc_layout z y) (mkEnc ty f kids s)) in len b < 4294967296 ->
  parse_enc z dz (match f with inl _ => true | inr _ => false end) b = Ok (mkEnc ty f kids (option_map (l_view (sinf_layout (info_codec z) (info_layout y))) s)).
Proof.
  intros Hf Ht Hu Kn V Hs b. unfold b. rewrite len_box. intros L0. set (e0 := mkEnc ty f kids s : enc) in *. unfold parse_enc.
  replace (box ty (l_body (enc_layout z y) e0)) with (box ty (l_body (enc_layout z y) e0) ++ []) by apply app_nil_r.
  rewrite parse_hdr_box by assumption. cbn [bind fst snd h_read inp]. change (match f with inl _ => true | inr _ => false end) with (match en_fix e0 with inl _ => true | inr _ => false end).
  rewrite (enc_reads z dz y F A _ ty e0 Hf eq_refl Kn Hs L0 []). cbn [bind fst]. unfold e0. cbn [en_fix en_exts en_sinf option_map]. rewrite V. reflexivity.
Qed.
Lemma protect_is k b ty f kids s sel kl il kms salt : suits k f -> fix_ok f -> ty < 4294967296 ->
  Forall (kid_ok (ekid_codec z) (ekid_layout z y)) kids ->
  sel < 256 -> kl < 256 -> il < 256 -> text_or_none kms -> salt < 18446744073709551616 ->
  parse_enc z dz (match f with inl _ => true | inr _ => false end) b = Ok (mkEnc ty f kids s) ->
  len (isma z y ty f kids sel kl il kms salt) < 4294967296 ->
  protect z dz k b sel kl il kms salt = Ok (isma z y ty f kids sel kl il kms salt).
Proof.
  intros Hk Hf Ht K H1 H2 H3 H4 H5 P Hp. set (e4 := mkEnc (secret_type f) f kids (Some (isma_sec ty sel kl il kms salt)) : enc).
  assert (B4 : box (secret_type f) (l_body (enc_layout z y) e4) = isma z y ty f kids sel kl il kms salt) by (unfold isma, e4; rewrite isma_body by assumption; reflexivity).
  assert (O4 : Forall (kid_ok (ekid_codec z) (ekid_layout z y)) (sinf_list (en_sinf e4))) by (apply isma_sec_ok; assumption).
  unfold protect. replace (match k with VisualTrack => _ | AudioTrack _ => _ | OtherTrack => _ end) with (Ok (mkEnc ty f kids s) : res enc)
    by (destruct k, f; try contradiction; rewrite <- P; reflexivity).
  cbn [bind]. unfold transform, add_info. cbn [en_sinf en_ty en_fix en_exts sf_schi sf_frma sf_schm bind app].
  assert (W : enc_handle z e4 = Ok (isma z y ty f kids sel kl il kms salt)) by (rewrite <- B4; apply (enc_handle_is z dz y F A e4 Hf K O4); change (en_ty e4) with (secret_type f); rewrite B4; exact Hp). rewrite <- W.
  unfold e4, isma_sec, isma_schi. destruct (salt =? 0); destruct f; reflexivity.
Qed.
Lemma unprotect_box (e : enc) : l_ok (enc_layout z y) e -> len (box (en_ty e) (l_body (enc_layout z y) e)) < 4294967296 ->
  box_at (csum (enc_codec z dz) (ekid_codec z)) (inr (edflt dz)) (mkR (box (en_ty e) (l_body (enc_layout z y) e)) 0) =
  Ok (ALeaf _ (inl (l_view (enc_layout z y) e)), mkR [] (w32 (0 + len (box (en_ty e) (l_body (enc_layout z y) e))))).
Proof.
  intros He Hl. pose proof (box_at_reads _ _ (inr (edflt dz)) (box_faithful z dz y F A) (ALeaf _ (inl e)) 0) as R.
  assert (E : kid_enc (csum (enc_codec z dz) (ekid_codec z)) (lsum (enc_layout z y) (ekid_layout z y)) (ALeaf _ (inl e)) = box (en_ty e) (l_body (enc_layout z y) e)) by reflexivity.
  rewrite E in R. specialize (R He Hl []). rewrite app_nil_r in R. exact R.
Qed.
Lemma clear_shorter t1 t2 f kids sel kl il kms salt : len (clear z y t1 f kids) <= len (isma z y t2 f kids sel kl il kms salt).
Proof. unfold clear, isma. rewrite !len_box, !len_app. lia. Qed.
End Isma.

(* a visual or audio description of any type, with any boxes but sinf: what
   the call that protects it returns; unprotecting gives back the parameters
   and the description, byte for byte; the protected one, attached to a
   track, comes back, also after the file is saved and read *)
Theorem C71_isma : forall Z (z : codec Z) dz y, faithful z y -> secret_apart z ->
  forall k ty f kids selective klen ivlen kms salt,
  suits k f -> fix_ok f -> ty < 4294967296 -> ty <> code "uuid" ->
  Forall (settled (ekid_codec z) (ekid_layout z y)) kids -> Forall (fun q => ~ is_sinf z q) kids ->
  selective < 256 -> klen < 256 -> ivlen < 256 -> text_or_none kms -> salt < 18446744073709551616 ->
  let p := isma z y ty f kids selective klen ivlen kms salt in len p < 4294967296 ->
  protect z dz k (clear z y ty f kids) selective klen ivlen kms salt = Ok p /\
  unprotect z dz p = Ok (mkTerms selective klen ivlen (match kms with Some s => s | None => [] end) salt, clear z y ty f kids) /\
  kept_with (ekid_codec z) (edflt dz) (enc_codec z dz) enc_dri p (fix_dri f).
Proof.
  intros Z z dz y F A k ty f kids sel kl il kms salt Hk Hf Ht Hu Hs Hn H1 H2 H3 H4 H5 p Hp.
  destruct (settled_view _ _ kids Hs) as [V K].
  assert (Kn : Forall (fun q => kid_ok (ekid_codec z) (ekid_layout z y) q /\ ~ is_sinf z q) kids).
  { apply Forall_forall. intros q I. rewrite Forall_forall in K, Hn. split; [apply K, I|apply Hn, I]. }
  set (e0 := mkEnc ty f kids None : enc (Z:=Z)).
  set (e4 := mkEnc (secret_type f) f kids (Some (isma_sec ty sel kl il kms salt)) : enc (Z:=Z)).
  set (e5 := mkEnc (secret_type f) f kids (Some (isma_read ty sel kl il kms salt)) : enc (Z:=Z)).
  assert (B4 : box (secret_type f) (l_body (enc_layout z y) e4) = p) by (unfold p, isma, e4; rewrite isma_body by assumption; reflexivity).
  assert (B5 : box (secret_type f) (l_body (enc_layout z y) e5) = p) by (unfold p, isma, e5; rewrite isma_read_body by assumption; reflexivity).
  assert (B0 : box ty (l_body (enc_layout z y) e0) = clear z y ty f kids).
  { unfold clear, e0. cbn [enc_layout l_body en_fix en_exts en_sinf sinf_list]. unfold kids_bytes at 2. cbn [flat_map]. rewrite app_nil_r. reflexivity. }
  assert (L0 : len (clear z y ty f kids) < 4294967296).
  { eapply N.le_lt_trans; [apply clear_shorter|exact Hp]. }
  assert (O4 : Forall (kid_ok (ekid_codec z) (ekid_layout z y)) (sinf_list (en_sinf e4))) by (apply isma_sec_ok; assumption).
  assert (O5 : Forall (kid_ok (ekid_codec z) (ekid_layout z y)) (sinf_list (en_sinf e5))) by (apply isma_view_ok; assumption).
  assert (L4 : 8 + len (l_body (enc_layout z y) e4) < 4294967296) by (rewrite <- B4, len_box in Hp; exact Hp).
  assert (OK4 : l_ok (enc_layout z y) e4) by (split; [reflexivity|]; auto).
  assert (OK5 : l_ok (enc_layout z y) e5) by (split; [reflexivity|]; auto).
  assert (V4 : l_view (enc_layout z y) e4 = e5).
  { unfold e4, e5. cbn [enc_layout l_view en_ty en_fix en_exts en_sinf option_map]. rewrite V, isma_view. reflexivity. }
  split; [|split].
  - pose proof (parse_is z dz y F A ty f kids None Hf Ht Hu Kn V (Forall_nil _)) as P. cbv zeta in P. fold e0 in P. rewrite B0 in P. specialize (P L0).
    exact (protect_is z dz y F A k _ ty f kids _ sel kl il kms salt Hk Hf Ht K H1 H2 H3 H4 H5 P Hp).
  - unfold unprotect.
    pose proof (unprotect_box z dz y F A e4 OK4) as R. change (en_ty e4) with (secret_type f) in R. rewrite B4 in R. rewrite (R Hp). cbn [bind fst]. rewrite V4.
    unfold scheme_of, info_of, untransform. cbn [e5 en_sinf isma_read sf_schm sf_schi sf_frma bind sm_type sm_version fst snd].
    change (negb ((T_iAEC =? T_iAEC) && (1 =? 1))) with false. cbn match.
    assert (Q1 : find (fun a => atype _ (c_ty (sub_codec (info_codec z))) a =? T_iKMS) (isma_schi sel kl il (Some (match kms with Some s => s | None => [] end)) salt) =
      Some (ALeaf (sub (X:=info (Z:=Z))) (inr (inr (inl (mkIkms 0 0 (Some (cstr (match kms with Some s => s | None => [] end))))))))) by (destruct (salt =? 0); reflexivity).
    assert (Q2 : find (fun a => atype _ (c_ty (sub_codec (info_codec z))) a =? T_iSFM) (isma_schi sel kl il (Some (match kms with Some s => s | None => [] end)) salt) =
      Some (ALeaf (sub (X:=info (Z:=Z))) (inr (inr (inr (inl (mkIsfm 0 0 sel kl il))))))) by (destruct (salt =? 0); reflexivity).
    assert (Q3 : find (fun a => atype _ (c_ty (sub_codec (info_codec z))) a =? T_iSLT) (isma_schi sel kl il (Some (match kms with Some s => s | None => [] end)) salt) =
      if salt =? 0 then None else Some (ALeaf (sub (X:=info (Z:=Z))) (inr (inr (inr (inr (inl salt))))))) by (unfold isma_schi; destruct (salt =? 0); reflexivity).
    rewrite Q1, Q2, Q3. cbn [bind km_url].
    rewrite copied_cstr by (destruct kms; [exact H4|constructor]). cbn [bind fo_format if_selective if_klen if_ivlen].
    assert (S : (do s0 <- match (if salt =? 0 then None else Some (ALeaf (sub (X:=info (Z:=Z))) (inr (inr (inr (inr (inl salt))))))) with
        | Some (ALeaf _ (inr (inr (inr (inr (inl s)))))) => Ok s | Some _ => UB | None => Ok 0 end; Ok s0) = Ok salt).
    { destruct (N.eqb_spec salt 0) as [->|]; reflexivity. }
    rewrite <- B0. pose proof (enc_handle_is z dz y F A e0 Hf K (Forall_nil _)) as W. change (en_ty e0) with ty in W. rewrite B0 in W. specialize (W L0).
    destruct (N.eqb_spec salt 0) as [->|]; cbn [bind en_fix en_exts]; unfold e0 in W; change (en_fix e5) with f; change (en_exts e5) with kids; rewrite W, B0; reflexivity.
  - destruct (kept_is (ekid_codec z) (ekid_layout z y) (edflt dz) (enc_codec z dz) (enc_layout z y) enc_dri (ekid_faithful z y F A)
      (enc_faithful z dz y F A) (enc_dri_is z y) (EOther e4) p (fix_dri f)) as (_ & _ & Q).
    + assert (G : forall e, l_ok (enc_layout z y) e -> en_ty e = secret_type f -> entry_ok (ekid_codec z) (ekid_layout z y) (enc_codec z dz) (enc_layout z y) (EOther e)).
      { intros e He Ee. unfold entry_ok. cbn [entry_type]. change (l_ty (enc_layout z y) e) with (en_ty e). rewrite Ee. destruct f; (split; [reflexivity|]; split; [discriminate|]; split; [exact He|]; repeat split). }
      split; [apply G; [exact OK4|reflexivity]|]. cbn [entry_view]. rewrite V4. split; [apply G; [exact OK5|reflexivity]|].
      unfold entry_bytes. cbn [entry_type entry_body]. change (l_ty (enc_layout z y) e5) with (secret_type f). change (l_ty (enc_layout z y) e4) with (secret_type f). rewrite B4, B5. reflexivity.
    + unfold entry_bytes. cbn [entry_type entry_body]. exact B4.
    + cbn [ent_dri]. unfold enc_dri, fix_dri, e4. cbn [en_fix]. reflexivity.
    + exact Hp.
    + exact Q.
Qed.
Print Assumptions C71_isma.

(* beside C71: a protected audio description *)
Definition a_sound : afix := mkA [0;0;0;0;0;0] 1 (repeat 0 8) 2 16 0 44100 0.
Definition a_rate : atom (ekid (Z:=btrt)) := ALeaf _ (inr (inr (inr (inr (mkBtrt false 0 128000 96000))))).
Example C71_ex : faithful btrt_codec btrt_layout /\ secret_apart btrt_codec /\ suits (AudioTrack 44100) (inr a_sound) /\ fix_ok (inr a_sound) /\
  Forall (settled (ekid_codec btrt_codec) (ekid_layout btrt_codec btrt_layout)) [a_rate] /\ Forall (fun q => ~ is_sinf btrt_codec q) [a_rate] /\
  len (isma btrt_codec btrt_layout (code "mp4a") (inr a_sound) [a_rate] 1 4 8 (Some [107; 109]) 77) = 169.
Proof.
  split; [apply exact_faithful, btrt_exact|]. split; [repeat constructor|]. split; [exact I|]. split; [repeat split|]. split; [|split].
  - constructor; [|constructor]. split; [|split; reflexivity]. unfold kid_ok. cbn [wf a_rate ekid_layout ipro_kid_layout info_layout lsum l_ok]. repeat split.
  - constructor; [discriminate|constructor].
  - vm_compute. reflexivity.
Qed.

(* other tracks *)
Theorem C71_other_tracks : forall Z (z : codec Z) dz b selective klen ivlen kms salt,
  protect z dz OtherTrack b selective klen ivlen kms salt = Err MP4NotImplementedErr.
Proof. reflexivity. Qed.
Print Assumptions C71_other_tracks.

(* what is not protected by ISMA is not unprotected: other boxes, entries
   without protection, other schemes, parts missing *)
Theorem C71_not_isma : forall Z (z : codec Z) dz y, faithful z y -> secret_apart z ->
  (let c := csum (enc_codec z dz) (ekid_codec z) in let l := lsum (enc_layout z y) (ekid_layout z y) in
   forall q, kid_ok c l q -> (forall e, q <> ALeaf _ (inl e)) -> len (kid_enc c l q) < 4294967296 ->
     unprotect z dz (kid_enc c l q) = Err MP4NotImplementedErr) /\
  (forall e, l_ok (enc_layout z y) e -> let b := box (en_ty e) (l_body (enc_layout z y) e) in len b < 4294967296 ->
     match en_sinf e with
     | None => unprotect z dz b = Err MP4BadParamErr
     | Some s => match sf_schm s with
                 | None => unprotect z dz b = Err MP4BadDataErr
                 | Some m => sm_type m <> code "iAEC" \/ sm_version m <> 1 -> unprotect z dz b = Err MP4NotImplementedErr
                 end
     end).
Proof.
  intros Z z dz y F A. split.
  - intros c l q Hq D Hl. unfold unprotect. pose proof (box_at_reads c l (inr (edflt dz)) (box_faithful z dz y F A) q 0 Hq Hl []) as R. rewrite app_nil_r in R.
    fold c. rewrite R. cbn [bind fst]. destruct q as [t u d|t d|[e|t]|t k]; try reflexivity. destruct (D e eq_refl).
  - intros e He b Hl. pose proof (unprotect_box z dz y F A e He Hl) as R. unfold unprotect, b. rewrite R. cbn [bind fst]. unfold scheme_of. cbn [enc_layout l_view en_sinf].
    destruct (en_sinf e) as [s|]; [|reflexivity]. cbn [option_map sinf_layout l_view sf_schm]. destruct (sf_schm s) as [m|]; [|reflexivity].
    cbn [option_map bind schm_layout l_view sm_type sm_version fst snd]. intros D.
    assert (E : (sm_type m =? T_iAEC) && (sm_version m =? 1) = false).
    { destruct (N.eqb_spec (sm_type m) T_iAEC) as [E|]; [|reflexivity]. destruct (N.eqb_spec (sm_version m) 1) as [E'|]; [|reflexivity]. exfalso. destruct D as [D|D]; [apply D, E|apply D, E']. }
    rewrite E. reflexivity.
Qed.
Print Assumptions C71_not_isma.

(* ------------------------------------------------------------------ *)
(* C71 in the code                                                     *)

(* protecting a protected description forgets the first protection: its
   parameters and the original type cannot be found again *)
Theorem C71_twice_refuted : forall Z (z : codec Z) dz y, faithful z y -> secret_apart z ->
  forall k ty f kids s1 k1 i1 u1 salt1 s2 k2 i2 u2 salt2,
  suits k f -> fix_ok f -> ty < 4294967296 -> ty <> code "uuid" ->
  Forall (settled (ekid_codec z) (ekid_layout z y)) kids -> Forall (fun q => ~ is_sinf z q) kids ->
  s1 < 256 -> k1 < 256 -> i1 < 256 -> text_or_none u1 -> salt1 < 18446744073709551616 ->
  s2 < 256 -> k2 < 256 -> i2 < 256 -> text_or_none u2 -> salt2 < 18446744073709551616 ->
  len (isma z y ty f kids s1 k1 i1 u1 salt1) < 4294967296 ->
  let p := isma z y (secret_type f) f kids s2 k2 i2 u2 salt2 in len p < 4294967296 ->
  exists q, protect z dz k (clear z y ty f kids) s1 k1 i1 u1 salt1 = Ok q /\ protect z dz k q s2 k2 i2 u2 salt2 = Ok p /\
    unprotect z dz p = Ok (mkTerms s2 k2 i2 (match u2 with Some s => s | None => [] end) salt2, clear z y (secret_type f) f kids) /\
    unprotect z dz (clear z y (secret_type f) f kids) = Err MP4BadParamErr.
Proof.
  intros Z z dz y F A k ty f kids s1 k1 i1 u1 salt1 s2 k2 i2 u2 salt2 Hk Hf Ht Hu Hs Hn A1 A2 A3 A4 A5 D1 D2 D3 D4 D5 L1 p L2.
  destruct (C71_isma Z z dz y F A k ty f kids s1 k1 i1 u1 salt1 Hk Hf Ht Hu Hs Hn A1 A2 A3 A4 A5 L1) as (P1 & _ & _).
  assert (T : secret_type f < 4294967296 /\ secret_type f <> code "uuid") by (destruct f; split; (reflexivity || discriminate)). destruct T as [T1 T2].
  destruct (C71_isma Z z dz y F A k (secret_type f) f kids s2 k2 i2 u2 salt2 Hk Hf T1 T2 Hs Hn D1 D2 D3 D4 D5 L2) as (_ & P2 & _).
  destruct (settled_view _ _ kids Hs) as [V K].
  assert (Kn : Forall (fun q => kid_ok (ekid_codec z) (ekid_layout z y) q /\ ~ is_sinf z q) kids).
  { apply Forall_forall. intros q I. rewrite Forall_forall in K, Hn. split; [apply K, I|apply Hn, I]. }
  exists (isma z y ty f kids s1 k1 i1 u1 salt1). split; [exact P1|]. split; [|split; [exact P2|]].
  - pose proof (parse_is z dz y F A (secret_type f) f kids (Some (isma_sec ty s1 k1 i1 u1 salt1)) Hf T1 T2 Kn V (isma_sec_ok z y ty s1 k1 i1 u1 salt1 Ht A1 A2 A3 A4 A5)) as P.
    cbv zeta in P. rewrite isma_body in P by assumption. specialize (P L1).
    exact (protect_is z dz y F A k _ (secret_type f) f kids _ s2 k2 i2 u2 salt2 Hk Hf T1 K D1 D2 D3 D4 D5 P L2).
  - set (e0 := mkEnc (secret_type f) f kids None : enc (Z:=Z)).
    assert (B0 : box (secret_type f) (l_body (enc_layout z y) e0) = clear z y (secret_type f) f kids).
    { unfold clear, e0. cbn [enc_layout l_body en_fix en_exts en_sinf sinf_list]. unfold kids_bytes at 2. cbn [flat_map]. rewrite app_nil_r. reflexivity. }
    assert (OK : l_ok (enc_layout z y) e0) by (split; [reflexivity|]; split; [exact Hf|]; split; [exact Kn|constructor]).
    pose proof (proj2 (C71_not_isma Z z dz y F A) e0 OK) as N. cbv zeta in N. change (en_ty e0) with (secret_type f) in N. rewrite B0 in N. apply N.
    eapply N.le_lt_trans; [apply clear_shorter|exact L1].
Qed.
Print Assumptions C71_twice_refuted.

(* a protection of the scheme without the address or the sample format *)
Theorem C71_incomplete_refuted : forall Z (z : codec Z) dz y, faithful z y -> secret_apart z ->
  forall e s m l, l_ok (enc_layout z y) e -> let b := box (en_ty e) (l_body (enc_layout z y) e) in len b < 4294967296 ->
  en_sinf e = Some s -> sf_schm s = Some m -> sf_schi s = Some l -> sm_type m = code "iAEC" -> sm_version m = 1 ->
  Forall (settled (sub_codec (info_codec z)) (sub_layout (info_layout y))) l ->
  Forall (fun q => atype _ (c_ty (sub_codec (info_codec z))) q <> code "iKMS") l -> unprotect z dz b = UB.
Proof.
  intros Z z dz y F A e s m l He b Hl E1 E2 E3 E4 E5 Hs Hn. pose proof (unprotect_box z dz y F A e He Hl) as R. unfold unprotect, b. rewrite R. cbn [bind fst].
  unfold scheme_of, info_of. cbn [enc_layout l_view en_sinf]. rewrite E1. cbn [option_map sinf_layout l_view sf_schm sf_schi]. rewrite E2, E3.
  cbn [option_map bind schm_layout l_view sm_type sm_version fst snd]. rewrite E4, E5. change (negb ((code "iAEC" =? T_iAEC) && (1 =? 1))) with false. cbn match.
  destruct (settled_view _ _ l Hs) as [V _]. rewrite V.
  replace (find _ l) with (None : option (atom (sub (X:=info (Z:=Z))))); [reflexivity|]. symmetry. clear -Hn.
  induction Hn as [|q l Hq _ IH]; [reflexivity|]. cbn [find]. destruct (N.eqb_spec (atype _ (c_ty (sub_codec (info_codec z))) q) T_iKMS) as [D|]; [destruct (Hq D)|exact IH].
Qed.
Print Assumptions C71_incomplete_refuted.
Definition half (l : list (atom (sub (X:=info (Z:=btrt))))) : enc (Z:=btrt) :=
  mkEnc (code "enca") (inr a_sound) [] (Some (mkSinf (Some (mkFrma (code "mp4a"))) (Some (mkSchm 0 0 (code "iAEC") 1 None)) (Some l))).
Example C71_incomplete_ex : l_ok (enc_layout btrt_codec btrt_layout) (half []) /\ len (l_body (enc_layout btrt_codec btrt_layout) (half [])) = 76.
Proof.
  split; [|vm_compute; reflexivity]. split; [reflexivity|]. split; [repeat split|]. split; [constructor|]. constructor; [|constructor].
  unfold kid_ok. cbn [wf ekid_layout ipro_kid_layout lsum l_ok sinf_layout half]. unfold sinf_boxes. cbn [sf_frma sf_schm sf_schi app].
  constructor; [reflexivity|]. constructor; [repeat split|]. constructor; [|constructor]. unfold kid_ok. cbn [wf]. split; [reflexivity|]. split; [exact I|]. split; [exact I|intros D; discriminate D].
Qed.
(* without the sample format; and with an address of no bytes, not even a zero *)
Theorem C71_parts_refuted :
  unprotect btrt_codec bdx (box (code "enca") (l_body (enc_layout btrt_codec btrt_layout) (half [ALeaf _ (inr (inr (inl (mkIkms 0 0 (Some [0])))))]))) = UB /\
  unprotect btrt_codec bdx (box (code "enca") (afix_bytes a_sound ++ box (code "sinf") (box (code "frma") (be32 (code "mp4a")) ++
    box (code "schm") (full 0 0 ++ be32 (code "iAEC") ++ be32 1) ++ box (code "schi") (box (code "iKMS") (full 0 0) ++ box (code "iSFM") (full 0 0 ++ [1; 1; 1]))))) = UB.
Proof. split; vm_compute; reflexivity. Qed.
Print Assumptions C71_parts_refuted.

(* ------------------------------------------------------------------ *)
(* C72                                                                 *)

(* a restricted video description with any boxes: attached to a track it
   comes back, also after the file is saved and read; its dimensions, the
   original format, the scheme and its boxes are those it holds; what is
   missing is an error *)
Theorem C72_restricted : forall X (x : codec X) dx y, faithful x y -> MboxSpec.apart x ->
  forall f kids, vfix_ok f -> Forall (settled (sub_codec x) (sub_layout y)) kids ->
  let b := resv_bytes x y f kids in len b < 4294967296 ->
  kept_with (sub_codec x) (inr (inr dx)) (resv_codec x dx) resv_dri b (v_dri f) /\
  resv_dims x dx b = Ok (v_w f, v_h f) /\
  forall l, first_of x kids (ABoxes _ (code "rinf") l) ->
    (forall fo, first_of x l (ALeaf _ (inl fo)) -> get_format x dx b = Ok (fo_format fo)) /\
    (none_of x l (code "frma") -> get_format x dx b = Err MP4BadParamErr) /\
    (forall m, first_of x l (ALeaf _ (inr (inl m))) ->
       get_scheme x dx b false = Ok (sm_type m, sm_version m, None) /\
       forall s, text s -> sm_url m = Some (cstr s) -> get_scheme x dx b true = Ok (sm_type m, sm_version m, Some s)) /\
    (none_of x l (code "schm") -> forall u, get_scheme x dx b u = Err MP4BadDataErr) /\
    (forall k q, first_of x l (ABoxes _ (code "schi") k) -> first_of x k q -> get_info x dx b (kid_type x q) = Ok (kid_enc (sub_codec x) (sub_layout y) q)) /\
    (none_of x l (code "schi") -> forall ty, get_info x dx b ty = Err MP4BadDataErr).
Proof.
  intros X x dx y F A f kids Hf Hs b Hl. pose proof (restricted_is x dx y F A f kids Hf Hs Hl) as R. fold b in R. split; [|split].
  - destruct (settled_view _ _ kids Hs) as [V K].
    destruct (kept_is (sub_codec x) (sub_layout y) (inr (inr dx)) (resv_codec x dx) (resv_layout x y) resv_dri (sub_faithful x y F A)
      (resv_faithful x dx y F A) (resv_dri_is x y) (EOther (mkResv f kids)) b (v_dri f)) as (_ & _ & Q); [|reflexivity|reflexivity|exact Hl|exact Q].
    apply lasting_settled; [exact (resv_faithful x dx y F A)| |cbn [resv_layout l_view rv_fix rv_exts]; rewrite V; reflexivity].
    split; [reflexivity|]. split; [discriminate|]. split; [split; [exact Hf|exact K]|]. repeat split.
  - unfold resv_dims. rewrite R. reflexivity.
  - intros l Hr. pose proof (boxes_in_first x _ _ _ Hr) as Br. change (code "rinf") with T_rinf in Br.
    assert (RI : rinf_of x dx b = Ok l) by (unfold rinf_of; rewrite R; cbn [bind rv_exts]; rewrite Br; reflexivity).
    unfold get_format, get_scheme, get_info. rewrite RI. cbn [bind].
    split; [|split; [|split; [|split; [|split]]]].
    + intros fo Hfo. rewrite (frma_first x _ _ Hfo). reflexivity.
    + intros Hfo. rewrite (frma_none x _ Hfo). reflexivity.
    + intros m Hm. rewrite (schm_first x _ _ Hm). split; [reflexivity|]. intros s Ht E. rewrite E, (copied_cstr s Ht). reflexivity.
    + intros Hm u. rewrite (schm_none x _ Hm). reflexivity.
    + intros k q Hk Hq. pose proof (boxes_in_first x _ _ _ Hk) as Bk. change (code "schi") with T_schi in Bk. rewrite Bk, (find_first x _ _ Hq).
      assert (Kq : kid_ok (sub_codec x) (sub_layout y) q /\ len (kid_enc (sub_codec x) (sub_layout y) q) < 4294967296).
      { assert (M : forall l' q', first_of x l' q' -> In q' l') by (intros l' q' (a' & b' & -> & _); apply in_elt).
        apply M in Hr, Hk, Hq. rewrite Forall_forall in Hs. destruct (Hs _ Hr) as (K0 & _).
        destruct (kid_inside _ _ _ _ _ K0 Hk) as [K1 E1]. destruct (kid_inside _ _ _ _ _ K1 Hq) as [K2 E2]. split; [exact K2|].
        pose proof (len_in (kid_enc (sub_codec x) (sub_layout y)) _ _ Hr) as E0. unfold b, resv_bytes in Hl. rewrite len_box, len_app in Hl. unfold kids_bytes in Hl. lia. }
      apply (kid_written x dx y F A); apply Kq.
    + intros Hk ty. pose proof (boxes_in_none x _ _ Hk) as Bk. change (code "schi") with T_schi in Bk. rewrite Bk. reflexivity.
Qed.
Print Assumptions C72_restricted.

(* other descriptions are refused *)
Theorem C72_not_restricted : forall X (x : codec X) dx y, faithful x y -> MboxSpec.apart x ->
  forall e, lasting (sub_codec x) (sub_layout y) (resv_codec x dx) (resv_layout x y) e ->
  (forall r, e <> EOther r) -> is_mpeg (entry_type (resv_layout x y) e) || is_visual (entry_type (resv_layout x y) e) || is_audio (entry_type (resv_layout x y) e) = true ->
  let b := entry_bytes (sub_codec x) (sub_layout y) (resv_layout x y) e in len b < 4294967296 ->
  get_format x dx b = Err MP4BadParamErr /\ (forall u, get_scheme x dx b u = Err MP4BadParamErr) /\ (forall ty, get_info x dx b ty = Err MP4BadParamErr).
Proof.
  intros X x dx y F A e (OK & OV & _) D T b Hl. pose proof Hl as Hl'. unfold b, entry_bytes in Hl'. rewrite len_box in Hl'.
  assert (R : restricted x dx b = Err MP4BadParamErr).
  { unfold restricted, b, entry_bytes. rewrite own_handle; [|apply OK|apply OK|exact Hl'|].
    - pose proof (of_handle_is (sub_codec x) (sub_layout y) (inr (inr dx) : sub (X:=X)) (resv_codec x dx) (resv_layout x y) (sub_faithful x y F A) (resv_faithful x dx y F A) e OK Hl') as E. unfold entry_bytes in E.
      match type of E with ?l = _ => change (bind l (fun e' => match e' with EOther r => Ok r | _ => Err MP4BadParamErr end) = Err MP4BadParamErr) end. rewrite E.
      cbn [bind]. destruct e as [ty r d q l|ty r d l|ty f l|ty f l|r]; cbn [entry_view]; try reflexivity.
      + destruct (is_mpeg ty); reflexivity.
      + destruct (is_visual ty); reflexivity.
      + destruct (is_audio ty); reflexivity.
      + destruct (D r eq_refl).
    - apply orb_true_iff in T. destruct T as [T|T]; [apply orb_true_iff in T; tauto|tauto]. }
  unfold get_format, get_scheme, get_info, rinf_of. rewrite R. repeat split.
Qed.
Print Assumptions C72_not_restricted.

(* beside C72: a restricted description *)
Definition a_rinf : atom (sub (X:=btrt)) := ABoxes _ (code "rinf") [ALeaf _ (inl (mkFrma (code "hvc1"))); ALeaf _ (inr (inl (mkSchm 0 1 (code "stvi") 5 (Some (cstr [104; 116])))));
  ABoxes _ (code "schi") [ALeaf _ (inr (inr (mkBtrt false 0 128000 96000)))]].
Example C72_ex : faithful btrt_codec btrt_layout /\ MboxSpec.apart btrt_codec /\ vfix_ok (vfix_new 1) /\
  Forall (settled (sub_codec btrt_codec) (sub_layout btrt_layout)) [a_rinf] /\ first_of btrt_codec [a_rinf] a_rinf /\
  len (resv_bytes btrt_codec btrt_layout (vfix_new 1) [a_rinf]) = 157 /\
  get_scheme btrt_codec bdx (resv_bytes btrt_codec btrt_layout (vfix_new 1) [a_rinf]) true = Ok (code "stvi", 5, Some [104; 116]).
Proof.
  split; [apply exact_faithful, btrt_exact|]. split; [repeat constructor|]. split; [repeat split|]. split; [|split; [|split]].
  - constructor; [|constructor]. split; [|split; reflexivity]. unfold kid_ok, a_rinf. cbn [wf sub_layout lsum l_ok]. split; [reflexivity|]. split; [|split].
    + split; [reflexivity|]. split; [repeat split; exists [104; 116]; split; [repeat constructor|reflexivity]|]. split; [|exact I].
      split; [reflexivity|]. split; [repeat split|]. split; [|intros D; discriminate D]. cbn [filter map free_box negb atype singles_ok]. split; [|exact I]. intros g [].
    + cbn [filter map free_box negb atype]. change (single (code "rinf")) with (single (code "rinf")). cbn [singles_ok]. repeat split; intros g Hg; vm_compute in Hg; intuition (subst; try discriminate; repeat constructor).
    + intros D; discriminate D.
  - exists [], []. split; [reflexivity|constructor].
  - vm_compute. reflexivity.
  - vm_compute. reflexivity.
Qed.

(* ------------------------------------------------------------------ *)
(* the parameter sets of a restricted description                      *)
Section Sets.
Context {Y O : Type} (c : codec Y) (y : layout Y) (o : codec O) (yo : layout O).
Hypothesis F : faithful c y.
Hypothesis D : disjoint c y.
Hypothesis FO : faithful o yo.
Notation T := (avcc + (hvcc + (vvcc + (vvnc + Y))))%type.
Lemma alone ty f (t : T) : is_visual ty = true -> vfix_ok f -> l_ok (playout y) t -> l_view (playout y) t = t -> 94 + len (l_body (playout y) t) < 4294967296 ->
  forall vis types, existsb (N.eqb ty) types = true ->
  entry_of c o vis types (box ty (vfix_bytes f ++ box (c_ty (pcodec c) t) (l_body (playout y) t))) = Ok (ty, f, [ALeaf T t]).
Proof.
  intros H1 Hf Ha Hv Hl vis types E.
  assert (V : vis_ok c y ty f [ALeaf T t]) by (apply vis_first; try assumption; [constructor|]; change (len (kids_bytes (pcodec c) (playout y) [])) with 0; lia).
  rewrite <- (vis_entry c y o yo F D FO vis types ty f _ V E). unfold vis_bytes, entry_bytes. cbn [entry_type entry_body]. unfold kids_bytes. cbn [flat_map]. rewrite app_nil_r. reflexivity.
Qed.
Lemma papart : MboxSpec.apart c -> MboxSpec.apart (pcodec c).
Proof.
  unfold MboxSpec.apart. intros H. repeat (apply Forall_cons_iff in H; destruct H as [? H]).
  repeat constructor; unfold pcodec; cbn [csum c_known]; rewrite ?orb_false_iff; repeat split; assumption || reflexivity.
Qed.
End Sets.

(* the sets found in a restricted description are those found in an
   unrestricted one with the same configuration; HEVC comes first *)
Theorem C72_sets : forall Y O (c : codec Y) y (o : codec O) yo, faithful c y -> disjoint c y -> MboxSpec.apart c -> faithful o yo ->
  forall f kids, vfix_ok f -> Forall (settled (sub_codec (pcodec c)) (sub_layout (playout y))) kids ->
  let b := resv_bytes (pcodec c) (playout y) f kids in len b < 4294967296 ->
  (forall a wh i, first_of (pcodec c) kids (ALeaf _ (inr (inr (inr (inl a))))) ->
     resv_ps c b wh i = get_hevc_ps c o (box (code "hvc1") (vfix_bytes f ++ box (code "hvcC") (l_body hvcc_layout a))) wh i) /\
  (forall a wh i, none_of (pcodec c) kids (code "hvcC") -> first_of (pcodec c) kids (ALeaf _ (inr (inr (inl a)))) ->
     resv_ps c b wh i = get_vc_ps c o (box (code "avc1") (vfix_bytes f ++ box (code "avcC") (l_body avcc_layout a))) wh i) /\
  (none_of (pcodec c) kids (code "hvcC") -> none_of (pcodec c) kids (code "avcC") -> forall wh i, resv_ps c b wh i = Err MP4BadDataErr).
Proof.
  intros Y O c y o yo F D A FO f kids Hf Hs b Hl. pose proof (pcodec_faithful c y F D) as FP. pose proof (papart c A) as AP.
  pose proof (restricted_is (pcodec c) pdflt (playout y) FP AP f kids Hf Hs Hl) as R. fold b in R.
  assert (E : resv_entry c b = Ok (mkResv f kids)) by exact R.
  assert (L : forall t : avcc + (hvcc + (vvcc + (vvnc + Y))), first_of (pcodec c) kids (ALeaf _ (inr (inr t))) ->
    l_ok (playout y) t /\ l_view (playout y) t = t /\ 94 + len (l_body (playout y) t) < 4294967296).
  { intros t (u & w & -> & _). pose proof (in_elt (ALeaf (sub (X:=avcc + (hvcc + (vvcc + (vvnc + Y))))) (inr (inr t))) u w) as I.
    rewrite Forall_forall in Hs. destruct (Hs _ I) as (K1 & _ & K3). split; [exact K1|]. cbn [strip sub_layout lsum l_view] in K3. split; [injection K3; auto|].
    pose proof (len_in (kid_enc (sub_codec (pcodec c)) (sub_layout (playout y))) _ _ I) as LI. unfold b, resv_bytes in Hl. rewrite len_box, len_app, (vfix_len f Hf) in Hl.
    match type of Hl with 8 + (78 + ?k) < _ => assert (LJ : len (box (c_ty (pcodec c) t) (l_body (playout y) t)) <= k) by exact LI end. rewrite len_box in LJ. lia. }
  unfold resv_ps. rewrite E. cbn [bind rv_exts]. unfold conf_of. split; [|split].
  - intros a wh i Ha. destruct (L _ Ha) as (L1 & L2 & L3). pose proof (find_first (pcodec c) _ _ Ha) as Q. change (kid_type (pcodec c) (ALeaf _ (inr (inr (inr (inl a)))))) with T_hvcC in Q. rewrite Q.
    unfold get_hevc_ps. change (box (code "hvcC") (l_body hvcc_layout a)) with (box (c_ty (pcodec c) (inr (inl a))) (l_body (playout y) (inr (inl a)))).
    rewrite (alone c y o yo F D FO (code "hvc1") f (inr (inl a)) eq_refl Hf L1 L2 L3) by reflexivity. reflexivity.
  - intros a wh i Hn Ha. destruct (L _ Ha) as (L1 & L2 & L3). pose proof (find_none (pcodec c) _ _ Hn) as Q0. change (code "hvcC") with T_hvcC in Q0. rewrite Q0.
    pose proof (find_first (pcodec c) _ _ Ha) as Q. change (kid_type (pcodec c) (ALeaf _ (inr (inr (inl a))))) with T_avcC in Q. rewrite Q.
    unfold get_vc_ps. change (box (code "avcC") (l_body avcc_layout a)) with (box (c_ty (pcodec c) (inl a)) (l_body (playout y) (inl a))).
    rewrite (alone c y o yo F D FO (code "avc1") f (inl a) eq_refl Hf L1 L2 L3) by reflexivity. reflexivity.
  - intros Hn Hn' wh i. pose proof (find_none (pcodec c) _ _ Hn) as Q0. change (code "hvcC") with T_hvcC in Q0. rewrite Q0.
    pose proof (find_none (pcodec c) _ _ Hn') as Q1. change (code "avcC") with T_avcC in Q1. rewrite Q1. reflexivity.
Qed.
Print Assumptions C72_sets.

(* the length of the length fields, in the order vvnC, hvcC, avcC, vvcC *)
Theorem C72_nal_length : forall Y (c : codec Y) y, faithful c y -> disjoint c y -> MboxSpec.apart c ->
  forall f kids, vfix_ok f -> Forall (settled (sub_codec (pcodec c)) (sub_layout (playout y))) kids ->
  let b := resv_bytes (pcodec c) (playout y) f kids in len b < 4294967296 ->
  let none ty := none_of (pcodec c) kids ty in
  (forall a, first_of (pcodec c) kids (ALeaf _ (inr (inr (inr (inr (inr (inl a))))))) -> resv_nal_length c b = Ok (vn_len1 a + 1)) /\
  (forall a, none (code "vvnC") -> first_of (pcodec c) kids (ALeaf _ (inr (inr (inr (inl a))))) -> resv_nal_length c b = Ok (hc_len1 a + 1)) /\
  (forall a, none (code "vvnC") -> none (code "hvcC") -> first_of (pcodec c) kids (ALeaf _ (inr (inr (inl a)))) -> resv_nal_length c b = Ok (ac_len a)) /\
  (forall a, none (code "vvnC") -> none (code "hvcC") -> none (code "avcC") -> first_of (pcodec c) kids (ALeaf _ (inr (inr (inr (inr (inl a)))))) -> resv_nal_length c b = Ok (vc_len1 a + 1)) /\
  (none (code "vvnC") -> none (code "hvcC") -> none (code "avcC") -> none (code "vvcC") -> resv_nal_length c b = Err MP4BadDataErr).
Proof.
  intros Y c y F D A f kids Hf Hs b Hl none. pose proof (pcodec_faithful c y F D) as FP. pose proof (papart c A) as AP.
  pose proof (restricted_is (pcodec c) pdflt (playout y) FP AP f kids Hf Hs Hl) as R. fold b in R.
  assert (E : resv_entry c b = Ok (mkResv f kids)) by exact R.
  unfold resv_nal_length. rewrite E. cbn [bind rv_exts]. unfold conf_of.
  assert (NF : forall s, none s -> find (fun a => atype _ (c_ty (sub_codec (pcodec c))) a =? s) kids = None) by (intros s; apply find_none).
  split; [|split; [|split; [|split]]].
  - intros a Ha. pose proof (find_first (pcodec c) _ _ Ha) as Q. change (kid_type (pcodec c) _) with T_vvnC in Q. rewrite Q. reflexivity.
  - intros a N1 Ha. pose proof (find_first (pcodec c) _ _ Ha) as Q. change (kid_type (pcodec c) _) with T_hvcC in Q. apply NF in N1. change (code "vvnC") with T_vvnC in N1. rewrite N1, Q. reflexivity.
  - intros a N1 N2 Ha. pose proof (find_first (pcodec c) _ _ Ha) as Q. change (kid_type (pcodec c) _) with T_avcC in Q. apply NF in N1, N2. change (code "vvnC") with T_vvnC in N1. change (code "hvcC") with T_hvcC in N2. rewrite N1, N2, Q. reflexivity.
  - intros a N1 N2 N3 Ha. pose proof (find_first (pcodec c) _ _ Ha) as Q. change (kid_type (pcodec c) _) with T_vvcC in Q. apply NF in N1, N2, N3.
    change (code "vvnC") with T_vvnC in N1. change (code "hvcC") with T_hvcC in N2. change (code "avcC") with T_avcC in N3. rewrite N1, N2, N3, Q. reflexivity.
  - intros N1 N2 N3 N4. apply NF in N1, N2, N3, N4.
    change (code "vvnC") with T_vvnC in N1. change (code "hvcC") with T_hvcC in N2. change (code "avcC") with T_avcC in N3. change (code "vvcC") with T_vvcC in N4. rewrite N1, N2, N3, N4. reflexivity.
Qed.
Print Assumptions C72_nal_length.

(* ------------------------------------------------------------------ *)
(* C72 in the code                                                     *)

(* a restricted description without a rinf; a scheme without address whose
   address is asked for; a box that is not in the schi: undefined *)
Theorem C72_missing_refuted : forall X (x : codec X) dx y, faithful x y -> MboxSpec.apart x ->
  forall f kids, vfix_ok f -> Forall (settled (sub_codec x) (sub_layout y)) kids ->
  let b := resv_bytes x y f kids in len b < 4294967296 ->
  (none_of x kids (code "rinf") -> get_format x dx b = UB /\ (forall u, get_scheme x dx b u = UB) /\ forall ty, get_info x dx b ty = UB) /\
  forall l, first_of x kids (ABoxes _ (code "rinf") l) ->
    (forall m, first_of x l (ALeaf _ (inr (inl m))) -> sm_url m = None -> get_scheme x dx b true = UB) /\
    (forall k ty, first_of x l (ABoxes _ (code "schi") k) -> none_of x k ty -> get_info x dx b ty = UB).
Proof.
  intros X x dx y F A f kids Hf Hs b Hl. pose proof (restricted_is x dx y F A f kids Hf Hs Hl) as R. fold b in R. split.
  - intros Hn. pose proof (boxes_in_none x _ _ Hn) as Br. change (code "rinf") with T_rinf in Br.
    assert (RI : rinf_of x dx b = UB) by (unfold rinf_of; rewrite R; cbn [bind rv_exts]; rewrite Br; reflexivity).
    unfold get_format, get_scheme, get_info. rewrite RI. repeat split.
  - intros l Hr. pose proof (boxes_in_first x _ _ _ Hr) as Br. change (code "rinf") with T_rinf in Br.
    assert (RI : rinf_of x dx b = Ok l) by (unfold rinf_of; rewrite R; cbn [bind rv_exts]; rewrite Br; reflexivity).
    unfold get_scheme, get_info. rewrite RI. cbn [bind]. split.
    + intros m Hm E. rewrite (schm_first x _ _ Hm), E. reflexivity.
    + intros k ty Hk Hq. pose proof (boxes_in_first x _ _ _ Hk) as Bk. change (code "schi") with T_schi in Bk. rewrite Bk, (find_none x _ _ Hq). reflexivity.
Qed.
Print Assumptions C72_missing_refuted.

(* beside C72_sets and C72_nal_length: an H.264 configuration *)
Definition a_conf : avcc := mkAvcc 66 0 30 true 4 [[103; 66; 0; 30]] [[104; 9]] 0 0 0 [].
Definition a_conf_box : atom (sub (X:=avcc + (hvcc + (vvcc + (vvnc + Empty_set))))) := ALeaf _ (inr (inr (inl a_conf))).
Lemma none_apart : MboxSpec.apart no_codec. Proof. repeat constructor. Qed.
Example C72_sets_ex : faithful no_codec no_layout /\ disjoint no_codec no_layout /\ MboxSpec.apart no_codec /\
  Forall (settled (sub_codec (pcodec no_codec)) (sub_layout (playout no_layout))) [a_conf_box] /\
  first_of (pcodec no_codec) [a_conf_box] a_conf_box /\ none_of (pcodec no_codec) [a_conf_box] (code "hvcC") /\
  resv_ps no_codec (resv_bytes (pcodec no_codec) (playout no_layout) (vfix_new 1) [a_conf_box]) 2 1 = Ok [104; 9] /\
  resv_nal_length no_codec (resv_bytes (pcodec no_codec) (playout no_layout) (vfix_new 1) [a_conf_box]) = Ok 4.
Proof.
  split; [apply none_faithful|]. split; [intros []|]. split; [exact none_apart|]. split; [|split; [|split; [|split]]].
  - constructor; [|constructor]. split; [|split; reflexivity]. unfold kid_ok, a_conf_box. cbn [wf sub_layout playout lsum l_ok]. unfold playout. cbn [lsum l_ok].
    cbn [avcc_layout l_ok a_conf ac_prof ac_compat ac_level ac_len ac_sps ac_pps ac_chroma ac_luma ac_cdepth ac_ext].
    repeat split; try lia; try (repeat constructor; fail). all: discriminate.
  - exists [], []. split; [reflexivity|constructor].
  - constructor; [discriminate|constructor].
  - vm_compute. reflexivity.
  - vm_compute. reflexivity.
Qed.

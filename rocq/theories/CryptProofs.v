(* CryptProofs.v -- protected and restricted sample entries. *)
From Verif Require Import Base Codec BitLemmas AtomModel AtomSpec AtomProofs BoxModel BoxSpec BoxProofs Reads IndexProofs KidsModel KidsProofs TextModel TextSpec TextProofs TextProps
  EntryModel EntrySpec EntryProofs EntryProps HeaderModel HeaderSpec HeaderProofs SmallModel SmallSpec SmallProofs SmallProps MebxModel MebxSpec MebxProofs MebxProps
  MboxModel MboxSpec MboxProofs CryptModel CryptSpec.

Lemma fix_len f : fix_ok f -> len (fix_bytes f) = match f with inl _ => 78 | inr _ => 28 end.
Proof. destruct f as [f|f]; [apply vfix_len|apply afix_len]. Qed.
Lemma fix_writes f : writes (match f with inl f => vfix_w f | inr f => afix_w f end) (fix_bytes f).
Proof. destruct f as [f|f]; [apply vfix_writes|apply afix_writes]. Qed.
Lemma fix_reads n f : fix_ok f -> n < 4294967296 ->
  reads n (if match f with inl _ => true | inr _ => false end then rmap inl vfix_rd else rmap inr afix_rd) (fix_bytes f) f.
Proof. intros H Hn. destruct f as [f|f]; apply reads_rmap; [apply vfix_reads|apply afix_reads]; assumption. Qed.
Lemma kids_app {T} (c : codec T) y a b : kids_bytes c y (a ++ b) = kids_bytes c y a ++ kids_bytes c y b.
Proof. unfold kids_bytes. apply flat_map_app. Qed.

Section Enc.
Context {Z : Type} (z : codec Z) (dz : Z) (y : layout Z).
Hypothesis F : faithful z y.
Hypothesis A : secret_apart z.
Notation info := (info (Z:=Z)). Notation ekid := (ekid (Z:=Z)). Notation enc := (enc (Z:=Z)).
Notation ic := (info_codec z). Notation iy := (info_layout y). Notation ec := (ekid_codec z). Notation ey := (ekid_layout z y).

Lemma secret_in ty t : In ty [code "pitm"; code "iinf"; code "infe"; code "ipro"; code "sinf"; code "frma"; code "schm"; code "grpl";
   code "iKMS"; code "iSFM"; code "iSLT"; code "encv"; code "enca"] -> l_ok y t -> (ty =? c_ty z t) = false.
Proof.
  intros I H. destruct (N.eqb_spec ty (c_ty z t)) as [->|]; [|reflexivity]. unfold secret_apart in A. rewrite Forall_forall in A. specialize (A _ I).
  rewrite (proj1 (proj2 (proj1 F t H))) in A. discriminate.
Qed.
Lemma info_faithful : faithful ic iy.
Proof.
  apply faithful_sum; [apply exact_faithful, ikms_exact|apply faithful_sum; [apply exact_faithful, isfm_exact|apply faithful_sum; [apply exact_faithful, islt_exact|exact F|]|]|].
  - intros t Ht. exact (secret_in (code "iSLT") t ltac:(cbn; tauto) Ht).
  - intros [t|t] Ht; [reflexivity|]. exact (secret_in (code "iSFM") t ltac:(cbn; tauto) Ht).
  - intros [t|[t|t]] Ht; [reflexivity|reflexivity|]. exact (secret_in (code "iKMS") t ltac:(cbn; tauto) Ht).
Qed.
Lemma info_apart : MboxSpec.apart ic.
Proof.
  pose proof A as H. unfold secret_apart in H. unfold MboxSpec.apart.
  repeat (apply Forall_cons_iff in H; destruct H as [? H]). repeat constructor; cbn [info_codec csum c_known]; rewrite ?orb_false_iff; repeat split; assumption || reflexivity.
Qed.
Lemma ekid_faithful : faithful ec ey.
Proof. apply ipro_kid_faithful; [exact info_faithful|exact info_apart]. Qed.
Notation sy := (sinf_layout ic iy).

Lemma enc_bytes_w (e : enc) : fix_ok (en_fix e) -> Forall (kid_ok ec ey) (en_exts e) -> Forall (kid_ok ec ey) (sinf_list (en_sinf e)) ->
  8 + len (l_body (enc_layout z y) e) < 4294967296 ->
  enc_size z e = 8 + len (l_body (enc_layout z y) e) /\ writes (enc_w z e) (l_body (enc_layout z y) e).
Proof.
  intros H1 H2 H3. cbn [enc_layout l_body]. rewrite !len_app, (fix_len _ H1). intros Hl.
  assert (Es : sec_box (en_sinf e) = sinf_list (en_sinf e)) by reflexivity. unfold enc_size, enc_w. rewrite Es. unfold kids_bytes in *.
  assert (S : match en_fix e with inl _ => 78 | inr _ => 28 end <= 78) by (destruct (en_fix e); lia). split.
  - rewrite (boxes_size_ok ec ey (edflt dz) ekid_faithful (sinf_list (en_sinf e)) H3) by lia.
    rewrite (boxes_size_ok ec ey (edflt dz) ekid_faithful (en_exts e) H2) by lia. lia.
  - apply writes_seq; [apply fix_writes|]. apply writes_seq; apply (boxes_writes ec ey (edflt dz) ekid_faithful); assumption || lia.
Qed.
Lemma enc_handle_is (e : enc) : fix_ok (en_fix e) -> Forall (kid_ok ec ey) (en_exts e) -> Forall (kid_ok ec ey) (sinf_list (en_sinf e)) ->
  len (box (en_ty e) (l_body (enc_layout z y) e)) < 4294967296 -> enc_handle z e = Ok (box (en_ty e) (l_body (enc_layout z y) e)).
Proof.
  intros H1 H2 H3. rewrite len_box. intros Hl. destruct (enc_bytes_w e H1 H2 H3 Hl) as [E W]. unfold enc_handle. rewrite E. unfold box.
  apply writes_run; [|lens; lia|exact Hl]. rewrite app_assoc. apply writes_seq; [apply writes_base; lia|exact W].
Qed.

Lemma lone_nil {T} (c : codec T) l : lone c [] l.
Proof. unfold lone. induction (map (atype T (c_ty c)) l) as [|a r IH]; [constructor|exact IH]. Qed.
Lemma sort_plain l : forall acc s, Forall (fun k => kid_ok ec ey k /\ ~ is_sinf z k) l -> sort_sec acc s (kid_view ey l) = (acc ++ kid_view ey l, s).
Proof.
  unfold kid_view. induction l as [|k l IH]; intros acc s H; [cbn; rewrite app_nil_r; reflexivity|]. inversion_clear H as [|? ? [K1 K2] Hr].
  cbn [map filter]. destruct (negb (free_box ekid (strip ekid (l_view ey) k))); [|apply IH, Hr].
  destruct k as [ty u d|ty d|t|ty kids]; cbn [strip]; cbn [sort_sec].
  all: try (rewrite IH by exact Hr; rewrite <- app_assoc; reflexivity).
  destruct t as [t|t]; [exfalso; apply K2; reflexivity|]. cbn [ekid_layout ipro_kid_layout lsum l_view]. rewrite IH by exact Hr. rewrite <- app_assoc. reflexivity.
Qed.
Lemma sort_app a b acc s : sort_sec acc s (a ++ b) = sort_sec (Z:=Z) (fst (sort_sec acc s a)) (snd (sort_sec acc s a)) b.
Proof.
  revert acc s. induction a as [|k a IH]; intros acc s; [reflexivity|]. destruct k as [ty u d|ty d|[t|t]|ty kids]; cbn [app sort_sec]; apply IH.
Qed.
Lemma enc_reads vis ty (e : enc) : fix_ok (en_fix e) -> vis = (match en_fix e with inl _ => true | inr _ => false end) ->
  Forall (fun k => kid_ok ec ey k /\ ~ is_sinf z k) (en_exts e) -> Forall (kid_ok ec ey) (sinf_list (en_sinf e)) ->
  8 + len (l_body (enc_layout z y) e) < 4294967296 ->
  reads 8 (enc_rd z dz vis (mkH (8 + len (l_body (enc_layout z y) e)) 0 ty [] 8)) (l_body (enc_layout z y) e)
    (mkEnc ty (en_fix e) (kid_view ey (en_exts e)) (option_map (l_view sy) (en_sinf e))).
Proof.
  intros H1 -> H2 H3. cbn [enc_layout l_body]. rewrite !len_app, (fix_len _ H1). intros Hl. unfold enc_rd.
  rewrite <- kids_app in *. rnext; [apply fix_reads; [exact H1|lia]|]. rewrite (fix_len _ H1).
  rewrite w32_small by (destruct (en_fix e); lia).
  assert (K : Forall (kid_ok ec ey) (en_exts e ++ sinf_list (en_sinf e))).
  { apply Forall_app. split; [|exact H3]. eapply Forall_impl; [|exact H2]. intros k [K _]. exact K. }
  rnext; [apply (held_reads ec ey (edflt dz) ekid_faithful); [exact K|apply lone_nil|cbn [h_size]; rewrite kids_app, len_app; lia|cbn [h_size]; lia]|].
  apply reads_ret; [apply w32_lt|]. cbn [h_type].
  assert (V : kid_view ey (en_exts e ++ sinf_list (en_sinf e)) = kid_view ey (en_exts e) ++ sinf_list (option_map (l_view sy) (en_sinf e))).
  { unfold kid_view. rewrite map_app, filter_app. f_equal. destruct (en_sinf e) as [s|]; reflexivity. }
  rewrite V, sort_app, (sort_plain _ _ _ H2). cbn [fst snd app]. destruct (en_sinf e) as [s|]; reflexivity.
Qed.
Lemma enc_faithful : faithful (enc_codec z dz) (enc_layout z y).
Proof.
  split.
  - intros e (H & _). split; [|split; [|split; reflexivity]]; cbn [enc_codec c_ty c_known]; rewrite H; destruct (en_fix e) as [f|f]; cbn [secret_type]; plain.
  - intros e (H0 & H1 & H2 & H3) Hl. change (c_ty (enc_codec z dz) e) with (en_ty e).
    assert (K : Forall (kid_ok ec ey) (en_exts e)) by (eapply Forall_impl; [|exact H2]; intros k [K _]; exact K).
    destruct (enc_bytes_w e H1 K H3 Hl) as [E W]. split; [exact E|]. split; [exact W|].
    cbn [enc_codec c_rd]. cbn [h_type]. cbn [enc_layout l_view]. apply enc_reads; try assumption.
    rewrite H0. destruct (en_fix e); reflexivity.
Qed.

(* ISMA *)
Notation sub := (sub (X:=info)).
Definition isma_schi (selective klen ivlen : N) (kms : option (list N)) (salt : N) : list (atom sub) :=
  [ALeaf sub (inr (inr (inl (mkIkms 0 0 (terminate kms))))); ALeaf sub (inr (inr (inr (inl (mkIsfm 0 0 selective klen ivlen)))))] ++
  (if salt =? 0 then [] else [ALeaf sub (inr (inr (inr (inr (inl salt)))))]).
Definition isma_sec (ty selective klen ivlen : N) (kms : option (list N)) (salt : N) : sec (Z:=Z) :=
  mkSinf (Some (mkFrma ty)) (Some (mkSchm 0 0 T_iAEC 1 (Some isma_url))) (Some (isma_schi selective klen ivlen kms salt)).
Definition text_or_none (s : option (list N)) : Prop := match s with Some s => text s | None => True end.
Lemma site_text : text isma_site. Proof. repeat constructor. Qed.
Lemma term_ok kms : text_or_none kms -> match terminate kms with Some b => exists s, text s /\ b = cstr s | None => True end.
Proof. destruct kms as [s|]; [|intros _; exact I]. intros H. exists s. split; [exact H|reflexivity]. Qed.
Lemma isma_sec_ok ty sel kl il kms salt : ty < 4294967296 -> sel < 256 -> kl < 256 -> il < 256 -> text_or_none kms -> salt < 18446744073709551616 ->
  Forall (kid_ok ec ey) (sinf_list (Some (isma_sec ty sel kl il kms salt))).
Proof.
  intros H1 H2 H3 H4 H5 H6. constructor; [|constructor]. unfold kid_ok. cbn [wf ekid_layout ipro_kid_layout lsum l_ok sinf_layout].
  unfold sinf_boxes. cbn [isma_sec sf_frma sf_schm sf_schi app].
  constructor; [exact H1|]. constructor.
  - unfold kid_ok. cbn [wf sub_layout lsum l_ok schm_layout sm_ver sm_type sm_version sm_url]. repeat split; try reflexivity. exists isma_site. split; [exact site_text|reflexivity].
  - constructor; [|constructor]. unfold kid_ok. cbn [wf]. split; [reflexivity|]. unfold isma_schi. cbn [app].
    assert (K : l_ok ikms_layout (mkIkms 0 0 (terminate kms))) by (split; [split; reflexivity|exact (term_ok kms H5)]).
    assert (S : l_ok isfm_layout (mkIsfm 0 0 sel kl il)) by (repeat split; assumption).
    split; [|split; [|intros D; discriminate D]].
    + destruct (salt =? 0); cbn [wf sub_layout info_layout lsum l_ok]; auto.
    + cbn [filter]. destruct (salt =? 0); cbn [free_box negb map atype]; cbn [singles_ok]; repeat split; intros g [].
Qed.
Lemma isma_body ty f kids sel kl il kms salt : sel < 256 -> kl < 256 -> il < 256 ->
  l_body (enc_layout z y) (mkEnc (secret_type f) f kids (Some (isma_sec ty sel kl il kms salt))) =
  fix_bytes f ++ kids_bytes ec ey kids ++ isma_sinf ty sel kl il kms salt.
Proof.
  intros H2 H3 H4. cbn [enc_layout l_body en_fix en_exts en_sinf sinf_list]. f_equal. f_equal. unfold kids_bytes, isma_sinf. cbn [flat_map]. rewrite app_nil_r.
  unfold kid_enc at 1. cbn [AtomSpec.enc]. change (c_ty ec (inl (isma_sec ty sel kl il kms salt))) with (code "sinf"). f_equal.
  cbn [ekid_layout ipro_kid_layout lsum l_body sinf_layout]. unfold sinf_boxes. cbn [isma_sec sf_frma sf_schm sf_schi app flat_map]. rewrite app_nil_r.
  f_equal. f_equal. unfold kid_enc. cbn [AtomSpec.enc]. f_equal. unfold isma_schi. cbn [app].
  assert (K : l_body ikms_layout (mkIkms 0 0 (terminate kms)) = full 0 0 ++ cstr (match kms with Some s => s | None => [] end)) by (destruct kms; reflexivity).
  assert (S : l_body isfm_layout (mkIsfm 0 0 sel kl il) = full 0 0 ++ [sel; kl; il]).
  { cbn [isfm_layout l_body if_ver if_flags if_selective if_klen if_ivlen]. unfold be8, w8. rewrite !N.mod_small by assumption. reflexivity. }
  rewrite <- K, <- S. destruct (salt =? 0); cbn [flat_map]; rewrite ?app_nil_r; reflexivity.
Qed.
Lemma box_faithful : faithful (csum (enc_codec z dz) ec) (lsum (enc_layout z y) ey).
Proof.
  apply faithful_sum; [exact enc_faithful|exact ekid_faithful|].
  intros [t|[t|[t|[t|t]]]] Ht; try reflexivity. cbn [ekid_codec ipro_kid info_codec csum c_ty enc_codec c_known].
  rewrite (N.eqb_sym _ T_encv), (N.eqb_sym _ T_enca). apply orb_false_iff.
  split; [exact (secret_in (code "encv") t ltac:(cbn; tauto) Ht)|exact (secret_in (code "enca") t ltac:(cbn; tauto) Ht)].
Qed.
Lemma enc_dri_is (e : enc) : l_ok (enc_layout z y) e -> enc_dri e = dri_at (box (l_ty (enc_layout z y) e) (l_body (enc_layout z y) e)).
Proof.
  intros (_ & H & _). cbn [enc_layout l_ty l_body]. unfold enc_dri. destruct (en_fix e) as [f|f]; cbn [fix_bytes].
  - unfold vfix_bytes. rewrite <- !app_assoc. rewrite dri_box by apply H. reflexivity.
  - unfold afix_bytes. rewrite <- !app_assoc. rewrite dri_box by apply H. reflexivity.
Qed.
Lemma copied_cstr s : text s -> copied (Some (cstr s)) = Ok s.
Proof.
  intros H. unfold copied. rewrite terminated_str, (slen_cstr s H). unfold cstr, len. rewrite Nat2N.id, firstn_app, Nat.sub_diag, firstn_all. cbn [firstn]. rewrite app_nil_r. reflexivity.
Qed.
Definition isma_read (ty selective klen ivlen : N) (kms : option (list N)) (salt : N) : sec (Z:=Z) :=
  mkSinf (Some (mkFrma ty)) (Some (mkSchm 0 1 T_iAEC 1 (Some isma_url)))
    (Some (isma_schi selective klen ivlen (Some (match kms with Some s => s | None => [] end)) salt)).
Lemma isma_view ty sel kl il kms salt : l_view sy (isma_sec ty sel kl il kms salt) = isma_read ty sel kl il kms salt.
Proof. unfold isma_sec, isma_read, isma_schi. destruct kms; destruct (salt =? 0); reflexivity. Qed.
Lemma isma_view_ok ty sel kl il kms salt : ty < 4294967296 -> sel < 256 -> kl < 256 -> il < 256 -> text_or_none kms -> salt < 18446744073709551616 ->
  Forall (kid_ok ec ey) (sinf_list (Some (isma_read ty sel kl il kms salt))).
Proof.
  intros H1 H2 H3 H4 H5 H6. assert (T : text_or_none (Some (match kms with Some s => s | None => [] end))) by (destruct kms; [exact H5|constructor]).
  pose proof (isma_sec_ok ty sel kl il _ salt H1 H2 H3 H4 T H6) as P. inversion_clear P as [|? ? Q _]. constructor; [|constructor].
  unfold kid_ok in *. cbn [wf ekid_layout ipro_kid_layout lsum l_ok sinf_layout] in *. unfold sinf_boxes in *. cbn [isma_sec isma_read sf_frma sf_schm sf_schi app] in *.
  inversion_clear Q as [|? ? Q1 Q']. inversion_clear Q' as [|? ? Q2 Q3]. constructor; [exact Q1|]. constructor; [|exact Q3].
  exact Q2.
Qed.
Lemma isma_read_body ty f kids sel kl il kms salt : sel < 256 -> kl < 256 -> il < 256 ->
  l_body (enc_layout z y) (mkEnc (secret_type f) f kids (Some (isma_read ty sel kl il kms salt))) =
  fix_bytes f ++ kids_bytes ec ey kids ++ isma_sinf ty sel kl il kms salt.
Proof.
  intros H2 H3 H4. pose proof (isma_body ty f kids sel kl il (Some (match kms with Some s => s | None => [] end)) salt H2 H3 H4) as E.
  etransitivity; [|exact E]. reflexivity.
Qed.
End Enc.

Lemma len_in {T} (g : atom T -> list N) l k : In k l -> len (g k) <= len (flat_map g l).
Proof. intros I. apply in_split in I. destruct I as (a & b & ->). rewrite flat_map_app, len_app. cbn [flat_map]. rewrite len_app. lia. Qed.
Lemma kid_inside {T} (c : codec T) y ty l k : kid_ok c y (ABoxes T ty l) -> In k l -> kid_ok c y k /\ len (kid_enc c y k) <= len (kid_enc c y (ABoxes T ty l)).
Proof.
  intros H I. split.
  - unfold kid_ok in *. cbn [wf] in H. destruct H as (_ & H & _). induction l as [|q l IH]; [destruct I|]. destruct H as [Hq Hl]. destruct I as [->|I]; [exact Hq|exact (IH Hl I)].
  - change (kid_enc c y (ABoxes T ty l)) with (box ty (flat_map (kid_enc c y) l)). rewrite len_box. pose proof (len_in (kid_enc c y) l k I). lia.
Qed.
Section Resv.
Context {X : Type} (x : codec X) (dx : X) (y : layout X).
Hypothesis F : faithful x y.
Hypothesis A : MboxSpec.apart x.
Notation sub := (sub (X:=X)). Notation subc := (sub_codec x). Notation suby := (sub_layout y). Notation resv := (resv (X:=X)).
Notation subd := (inr (inr dx) : sub).
Let FS : faithful subc suby := sub_faithful x y F A.
Lemma resv_faithful : faithful (resv_codec x dx) (resv_layout x y).
Proof.
  split; [intros t _; plain|]. intros [f l] (H1 & H2) Hl.
  cbn [resv_codec resv_layout c_size c_w c_rd c_ty l_body l_view l_ok rv_fix rv_exts] in *. revert Hl. rewrite len_app, (vfix_len f H1). intros Hl. unfold kids_bytes in *.
  split; [rewrite (boxes_size_ok subc suby subd FS) by (try exact H2; lia); lia|].
  split; [unfold resv_w; cbn [rv_fix rv_exts]; apply writes_seq; [apply vfix_writes|]; apply (boxes_writes subc suby subd FS); [exact H2|lia]|].
  unfold resv_rd. rnext; [apply vfix_reads; [exact H1|lia]|]. rewrite (vfix_len f H1). change (w32 (8 + 78)) with 86.
  rnext; [apply (exts_reads subc suby subd FS); [exact H2|cbn [h_size]; lia|cbn [h_size]; lia]|].
  rewrite w32_small by lia. eapply reads_bind_nil; [intros s Es; unfold getrdn; rewrite Es; reflexivity|].
  cbn [h_size]. replace (_ =? _) with true by (symmetry; apply N.eqb_eq; lia). apply reads_ret; [lia|reflexivity].
Qed.
Lemma resv_dri_is (r : resv) : l_ok (resv_layout x y) r -> resv_dri r = dri_at (box (l_ty (resv_layout x y) r) (l_body (resv_layout x y) r)).
Proof.
  intros (H & _). cbn [resv_layout l_ty l_body]. unfold resv_dri, vfix_bytes. rewrite <- !app_assoc. rewrite dri_box by apply H. reflexivity.
Qed.
Lemma own_handle T O (c : codec T) dflt (o : codec O) ty body : ty < 4294967296 -> ty <> code "uuid" -> 8 + len body < 4294967296 ->
  is_mpeg ty = true \/ is_visual ty = true \/ is_audio ty = true \/ c_known o ty = true ->
  of_handle c dflt o true (box ty body) = of_handle c dflt o false (box ty body).
Proof.
  intros H1 H2 Hl G. unfold of_handle, entry_at. cbn [inp rdn]. replace (box ty body) with (box ty body ++ []) by apply app_nil_r. rewrite parse_hdr_box by assumption.
  cbn [bind fst snd h_read inp]. unfold ent_rd. cbn [h_type]. rewrite types_mpeg, types_visual, types_audio.
  destruct (is_mpeg ty); [reflexivity|]. destruct (is_visual ty); [reflexivity|]. destruct (is_audio ty); [reflexivity|]. destruct (c_known o ty); [reflexivity|].
  destruct G as [G|[G|[G|G]]]; discriminate G.
Qed.
Lemma restricted_is f l : vfix_ok f -> Forall (settled subc suby) l -> len (resv_bytes x y f l) < 4294967296 ->
  restricted x dx (resv_bytes x y f l) = Ok (mkResv f l).
Proof.
  intros Hf Hs Hl. destruct (settled_view _ _ l Hs) as [V K]. unfold restricted.
  pose proof Hl as Hl'. unfold resv_bytes in Hl'. rewrite len_box in Hl'.
  assert (OK : entry_ok subc suby (resv_codec x dx) (resv_layout x y) (EOther (mkResv f l))).
  { split; [reflexivity|]. split; [discriminate|]. split; [split; [exact Hf|exact K]|]. repeat split. }
  unfold resv_bytes. rewrite own_handle; [|reflexivity|discriminate|exact Hl'|right; right; right; reflexivity].
  pose proof (of_handle_is subc suby subd (resv_codec x dx) (resv_layout x y) FS resv_faithful _ OK Hl') as E.
  transitivity (do e <- of_handle subc subd (resv_codec x dx) false (entry_bytes subc suby (resv_layout x y) (EOther (mkResv f l)));
    match e with EOther r => Ok r | _ => Err MP4BadParamErr end); [reflexivity|]. rewrite E.
  cbn [bind entry_view resv_layout l_view rv_fix rv_exts]. rewrite V. reflexivity.
Qed.
Lemma boxes_in_first ty l k : first_of x l (ABoxes sub ty k) -> boxes_in ty l = Some k.
Proof.
  intros (a & b & -> & Ha). induction Ha as [|q a Hq _ IH]; cbn [app boxes_in]; [rewrite N.eqb_refl; reflexivity|].
  destruct q as [t u d|t d|t|t ks]; try exact IH. change (t <> ty) in Hq. rewrite (proj2 (N.eqb_neq _ _) Hq). exact IH.
Qed.
Lemma boxes_in_none ty l : none_of x l ty -> boxes_in ty l = None.
Proof.
  induction 1 as [|q a Hq _ IH]; [reflexivity|]. cbn [boxes_in]. destruct q as [t u d|t d|t|t ks]; try exact IH. change (t <> ty) in Hq. rewrite (proj2 (N.eqb_neq _ _) Hq). exact IH.
Qed.
Lemma frma_first l f : first_of x l (ALeaf sub (inl f)) -> frma_in l = Some f.
Proof.
  intros (a & b & -> & Ha). induction Ha as [|q a Hq _ IH]; cbn [app frma_in]; [reflexivity|]. destruct q as [t u d|t d|[t|t]|t ks]; try exact IH. destruct (Hq eq_refl).
Qed.
Lemma frma_none l : none_of x l (code "frma") -> frma_in l = None.
Proof. induction 1 as [|q a Hq _ IH]; [reflexivity|]. cbn [frma_in]. destruct q as [t u d|t d|[t|t]|t ks]; try exact IH. destruct (Hq eq_refl). Qed.
Lemma schm_first l m : first_of x l (ALeaf sub (inr (inl m))) -> schm_in l = Some m.
Proof.
  intros (a & b & -> & Ha). induction Ha as [|q a Hq _ IH]; cbn [app schm_in]; [reflexivity|]. destruct q as [t u d|t d|[t|[t|t]]|t ks]; try exact IH. destruct (Hq eq_refl).
Qed.
Lemma schm_none l : none_of x l (code "schm") -> schm_in l = None.
Proof. induction 1 as [|q a Hq _ IH]; [reflexivity|]. cbn [schm_in]. destruct q as [t u d|t d|[t|[t|t]]|t ks]; try exact IH. destruct (Hq eq_refl). Qed.
Lemma find_first l q : first_of x l q -> find (fun a => atype sub (c_ty subc) a =? kid_type x q) l = Some q.
Proof.
  intros (a & b & -> & Ha). induction Ha as [|p a Hp _ IH]; cbn [app find]; [unfold kid_type; rewrite N.eqb_refl; reflexivity|].
  change (atype sub (c_ty subc) p) with (kid_type x p). rewrite (proj2 (N.eqb_neq _ _) Hp). exact IH.
Qed.
Lemma find_none l ty : none_of x l ty -> find (fun a => atype sub (c_ty subc) a =? ty) l = None.
Proof. induction 1 as [|p a Hp _ IH]; [reflexivity|]. cbn [find]. change (atype sub (c_ty subc) p) with (kid_type x p). rewrite (proj2 (N.eqb_neq _ _) Hp). exact IH. Qed.
Lemma kid_written q : kid_ok subc suby q -> len (kid_enc subc suby q) < 4294967296 ->
  wrun (kid_size subc q) (boxes_w subc [q]) = Ok (kid_enc subc suby q).
Proof.
  intros K Hl. pose proof (boxes_writes subc suby subd FS [q] (Forall_cons _ K (Forall_nil _))) as W. cbn [flat_map] in W. rewrite app_nil_r in W.
  pose proof (faithful_codec subc suby FS) as [K1 K2 K3 K4].
  destruct (write_enc sub (c_leaf subc) (c_ty subc) (c_size subc) (c_w subc) (fun _ => subd) (l_body suby) (l_view suby) (c_known subc) (l_ok suby) K1 K2 K3 K4 q K Hl) as [E _].
  unfold kid_size. rewrite E. apply writes_run; [apply W; exact Hl|apply N.le_refl|exact Hl].
Qed.
End Resv.

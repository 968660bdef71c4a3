(* EsdProps.v -- C76: MPEG-4 sample descriptions. *)
From Verif Require Import Base Codec AtomModel AtomSpec AtomProofs AtomProps BoxModel BoxSpec BoxProofs Reads KidsModel KidsProofs TextModel TextSpec TextProofs HeaderModel HeaderSpec HeaderProofs DescModel DescSpec DescProofs BitLemmas ParamProofs OdSpec OdProofs EntryModel EntrySpec EntryProofs EntryProps EsdModel EsdSpec.
From Coq Require Import Permutation.

Local Ltac Zify.zify_post_hook ::= Z.div_mod_to_equations.

Section Esd.
Context {X O : Type} (x : codec X) (y : layout X) (dx : X) (o : codec O) (yo : layout O).
Context (oexts : O -> list (atom (dbox + (btrt + X)))) (oset : O -> list (atom (dbox + (btrt + X))) -> O).
Hypothesis FX : faithful x y.
Hypothesis OX : others x y.
Hypothesis FO : faithful o yo.
Notation c := (mcodec x).
Notation ly := (mlayout y).
Notation ent := (ent (dbox + (btrt + X)) O).

Lemma mcodec_faithful : faithful c ly.
Proof.
  assert (N1 : forall t, l_ok y t -> forall k, In k [code "esds"; code "btrt"; code "bitr"] -> (k =? c_ty x t) = false).
  { intros t Ht k I. apply N.eqb_neq. intros ->. apply (OX t Ht I). }
  apply faithful_sum; [apply exact_faithful, esds_exact| |].
  - apply faithful_sum; [apply exact_faithful, btrt_exact|exact FX|]. intros t Ht. cbn [c_known btrt_codec].
    pose proof (N1 t Ht (code "btrt") ltac:(cbn; tauto)) as A. pose proof (N1 t Ht (code "bitr") ltac:(cbn; tauto)) as B.
    change (code "btrt") with 1651798644 in A. change (code "bitr") with 1651078258 in B. rewrite N.eqb_sym in A, B. rewrite ?A, ?B. reflexivity.
  - intros [t|t] Ht; cbn [csum c_ty c_known esds_codec btrt_codec].
    + unfold btrt_type. destruct (bt_3gpp t); reflexivity.
    + exact (N1 t Ht (code "esds") ltac:(cbn; tauto)).
Qed.
Lemma mexts_is e : own e -> mexts oexts e = boxes_in e.
Proof. destruct e; cbn; intros H; try contradiction H; reflexivity. Qed.
Lemma set_is e l : own e -> set_mexts oset e l = reboxed e l.
Proof. destruct e; cbn; intros H; try contradiction H; reflexivity. Qed.
Lemma reboxed_own (e : ent) l : own e -> own (reboxed e l).
Proof. destruct e; cbn; intros H; exact H. Qed.
Lemma reboxed_ok e l : own e -> entry_ok c ly o yo e -> Forall (kid_ok c ly) l -> entry_ok c ly o yo (reboxed e l).
Proof.
  intros H (A & B & C) F. destruct e; try contradiction H; (split; [exact A|split; [exact B|]]); cbn [reboxed]; tauto.
Qed.
Lemma reboxed_len e l : own e -> len (entry_bytes c ly yo (reboxed e l)) + len (kids_bytes c ly (boxes_in e)) = len (entry_bytes c ly yo e) + len (kids_bytes c ly l).
Proof. intros H. rewrite !len_entry. destruct e; try contradiction H; cbn [reboxed boxes_in entry_body]; lens; lia. Qed.
Lemma view_own e : own e -> Forall (settled c ly) (boxes_in e) -> entry_view c ly yo e = e.
Proof. intros H S. destruct (settled_view c ly _ S) as [V _]. destruct e; try contradiction H; cbn [entry_view own boxes_in] in *; rewrite H, V; reflexivity. Qed.
Lemma handle_is e : own e -> entry_ok c ly o yo e -> Forall (settled c ly) (boxes_in e) -> len (entry_bytes c ly yo e) < 4294967296 ->
  of_handle c (mdflt dx) o false (entry_bytes c ly yo e) = Ok e.
Proof.
  intros H E S L. rewrite (of_handle_is c ly (mdflt dx) o yo mcodec_faithful FO e E) by (rewrite len_entry in L; exact L). rewrite view_own by assumption. reflexivity.
Qed.
Lemma handle_w e : entry_ok c ly o yo e -> len (entry_bytes c ly yo e) < 4294967296 -> entry_w c o e = Ok (entry_bytes c ly yo e).
Proof. intros E L. apply (entry_w_is c ly (mdflt dx) o yo mcodec_faithful FO e E). rewrite len_entry in L. exact L. Qed.
Lemma find_is pre v f d post : no_esds x pre -> esd_find x (pre ++ esds_box v f d :: post) = Some (pre, esds_box v f d, post).
Proof.
  intros N. induction N as [|a pre A N IH]; [reflexivity|]. cbn [app esd_find]. destruct (N.eqb_spec (atype (mext (X:=X)) (c_ty c) a) 1702061171) as [E|_]; [contradiction (A E)|].
  rewrite IH. reflexivity.
Qed.
Lemma find_none l : no_esds x l -> esd_find x l = None.
Proof.
  intros N. induction N as [|a pre A N IH]; [reflexivity|]. cbn [esd_find]. destruct (N.eqb_spec (atype (mext (X:=X)) (c_ty c) a) 1702061171) as [E|_]; [contradiction (A E)|].
  rewrite IH. reflexivity.
Qed.
Lemma esds_kid v f d : kid_ok c ly (esds_box v f d) <-> full_ok v f /\ DescSpec.wf d.
Proof. unfold kid_ok, esds_box. cbn. tauto. Qed.
End Esd.

(* ------------------------------------------------------------------ *)
(* new descriptions                                                     *)

Lemma info_wf i : len i < 200000000 -> DescSpec.wf (info_desc i).
Proof. intros L. constructor; [cbn; split; [lia|reflexivity]|reflexivity|constructor|]. cbn [body fields sorted order flat_map]. rewrite app_nil_r. lia. Qed.
Lemma info_still i : still (info_desc i).
Proof. constructor; [reflexivity|reflexivity|constructor]. Qed.
Lemma config_wf p : dp_ok p -> DescSpec.wf (dp_config p).
Proof.
  intros (_ & A & B & C & D & E & F). unfold dp_config. destruct (dp_info p) as [i|].
  - pose proof (info_wf i F) as W. constructor; [cbn; lia|right; eexists; split; reflexivity|(constructor; [exact W|constructor])|].
    cbn [body]. rewrite len_app. unfold sorted. cbn [order flat_map filter fst]. change (0 =? 0) with true. cbn match. rewrite app_nil_r. cbn [flat_map snd]. rewrite app_nil_r, len_enc.
    cbn [body info_desc fields sorted order flat_map]. rewrite app_nil_r. lens. lia.
  - constructor; [cbn; lia|left; reflexivity|constructor|]. cbn [body fields sorted order flat_map filter]. lens. lia.
Qed.
Lemma config_len p : dp_ok p -> len (DescSpec.enc (dp_config p)) < 200000100.
Proof.
  intros (_ & A & B & C & D & E & F). rewrite len_enc. unfold dp_config. destruct (dp_info p) as [i|].
  - cbn [body]. rewrite len_app. unfold sorted. cbn [order flat_map filter fst]. change (0 =? 0) with true. cbn match. rewrite app_nil_r. cbn [flat_map snd]. rewrite app_nil_r, len_enc.
    cbn [body info_desc fields sorted order flat_map]. rewrite app_nil_r. lens. lia.
  - cbn [body fields sorted order flat_map filter]. lens. lia.
Qed.
Lemma config_still p : still (dp_config p).
Proof.
  unfold dp_config. destruct (dp_info p) as [i|].
  - constructor; [reflexivity|reflexivity|]. constructor; [split; [apply info_still|reflexivity]|constructor].
  - constructor; [reflexivity|reflexivity|constructor].
Qed.
Definition sl0 : desc := Desc (HSL (mkSlc 2 0 0 0 0 0 1 0 0 0 0 0 0 0 0 0 0 0 0 0 0)) [].
Lemma sl0_wf : DescSpec.wf sl0.
Proof. constructor; [split; [discriminate|left; split; reflexivity]|reflexivity|constructor|reflexivity]. Qed.
Lemma esd_body_len p : dp_ok p -> len (body (dp_esd p)) < 200001000.
Proof.
  intros H. pose proof (config_len p H) as L. unfold dp_esd. cbn [body]. fold sl0.
  change (sorted (HES 0 0 0 0 []) [(0, dp_config p); (1, sl0)]) with [(0, dp_config p); (1, sl0)]. cbn [flat_map snd]. rewrite app_nil_r, !len_app.
  change (len (DescSpec.enc sl0)) with 6. change (len (fields (HES 0 0 0 0 []))) with 3. lia.
Qed.
Lemma esd_wf p : dp_ok p -> DescSpec.wf (dp_esd p).
Proof.
  intros H. constructor; [cbn; repeat split; lia| | |pose proof (esd_body_len p H); unfold dp_esd in *; lia].
  - split; [repeat constructor|]. unfold dp_config. repeat constructor.
  - constructor; [apply config_wf, H|]. constructor; [apply sl0_wf|constructor].
Qed.
Lemma esd_still p : still (dp_esd p).
Proof.
  constructor; [reflexivity|reflexivity|]. constructor; [split; [apply config_still|reflexivity]|]. constructor; [|constructor]. split; [|reflexivity]. constructor; [reflexivity|reflexivity|constructor].
Qed.
Lemma esds_settled {X} (x : codec X) (y : layout X) v f d : full_ok v f -> DescSpec.wf d -> view d = d -> settled (mcodec x) (mlayout y) (esds_box v f d).
Proof.
  intros F W V. split; [apply esds_kid; split; assumption|]. split; [reflexivity|]. unfold esds_box. cbn. rewrite V. reflexivity.
Qed.

Lemma skip_ok i : len i < 200000000 -> skip_len (len (DescSpec.enc (info_desc i))) 1 (len4 (len i) ++ i) = Ok i.
Proof.
  intros L. rewrite len_enc. cbn [body info_desc fields sorted order flat_map]. rewrite app_nil_r. unfold len4.
  cbn [app skip_len].
  repeat match goal with |- context [if ?a <? 128 then _ else _] => first [replace (a <? 128) with false by (symmetry; apply N.ltb_ge; lia) | replace (a <? 128) with true by (symmetry; apply N.ltb_lt; lia)]; cbn match end.
  repeat match goal with |- context [if ?a =? ?b then _ else _] => replace (a =? b) with false by (symmetry; apply N.eqb_neq; lia); cbn match end.
  reflexivity.
Qed.
Lemma skip_eq i : len i < 200000000 ->
  match DescSpec.enc (info_desc i) with
  | [] => Ok (Some ([] : list N))
  | _ :: r => do s <- skip_len (len (DescSpec.enc (info_desc i))) 1 r; Ok (Some s)
  end = Ok (Some i).
Proof.
  intros L. pose proof (skip_ok i L) as S.
  assert (E : DescSpec.enc (info_desc i) = 5 :: len4 (len i) ++ i) by (rewrite enc_body; cbn [info_desc body fields sorted order flat_map]; rewrite app_nil_r; reflexivity).
  rewrite E in *. rewrite S. reflexivity.
Qed.
Lemma dp_type_is p : mp4_type (dp_kind p) = dp_type p.
Proof. unfold dp_type. destruct (dp_kind p); reflexivity. Qed.
Section New.
Context {X O : Type} (x : codec X) (y : layout X) (dx : X) (o : codec O) (yo : layout O).
Hypothesis FX : faithful x y.
Hypothesis OX : others x y.
Hypothesis FO : faithful o yo.
Lemma dp_own p : own (dp_entry (X:=X) (O:=O) p).
Proof. unfold dp_entry, dp_type. destruct (dp_kind p); reflexivity. Qed.
Lemma dp_boxes p : boxes_in (dp_entry (X:=X) (O:=O) p) = [esds_box 0 0 (dp_esd p)].
Proof. unfold dp_entry. destruct (dp_kind p); reflexivity. Qed.
Lemma dp_settled p : dp_ok p -> Forall (settled (mcodec x) (mlayout y)) [esds_box 0 0 (dp_esd p)].
Proof. intros H. constructor; [|constructor]. apply esds_settled; [split; reflexivity|apply esd_wf, H|apply still_view, esd_still]. Qed.
Lemma dp_lasting p : dp_ok p -> lasting (mcodec x) (mlayout y) o yo (dp_entry p).
Proof.
  intros H. unfold dp_entry. apply C55_new_descriptions; [exact FO|unfold dp_type; destruct (dp_kind p); reflexivity|unfold dp_type; destruct (dp_kind p); discriminate|apply H|apply dp_settled, H|].
  right. unfold dp_type. destruct (dp_kind p); reflexivity.
Qed.
Lemma dp_len p : dp_ok p -> len (entry_bytes (mcodec x) (mlayout y) yo (dp_entry p)) < 300000000.
Proof.
  intros H. pose proof (esd_body_len p H) as L. pose proof (dp_lasting p H) as ((_ & _ & E) & _).
  assert (K : len (kids_bytes (mcodec x) (mlayout y) [esds_box 0 0 (dp_esd p)]) = 17 + len (body (dp_esd p))).
  { unfold kids_bytes. cbn [flat_map]. rewrite app_nil_r. change (kid_enc (mcodec x) (mlayout y) (esds_box 0 0 (dp_esd p))) with (box (code "esds") (full 0 0 ++ DescSpec.enc (dp_esd p))). rewrite len_box, len_app, len_enc. unfold full. lens. lia. }
  rewrite len_entry. unfold dp_entry in *. destruct (dp_kind p); cbn [new_entry entry_body] in *; lens; rewrite K.
  - destruct E as (_ & E & _). rewrite (vfix_len _ E). lia.
  - destruct E as (_ & E & _). rewrite (afix_len _ E). lia.
  - destruct E as (_ & E & _). rewrite E. lia.
Qed.
End New.

(* C76: a new description is an entry of its kind with the elementary stream
   descriptor of what was given *)
Theorem C76_new : forall X O (x : codec X) (y : layout X) (dx : X) (o : codec O) (yo : layout O), faithful x y -> others x y -> faithful o yo ->
  forall p, dp_ok p ->
  mp4_new x o (dp_kind p) (dp_dri p) (dp_oti p) (dp_st p) (dp_buf p) (dp_max p) (dp_avg p) (option_map (fun i => DescSpec.enc (info_desc i)) (dp_info p)) =
    Ok (Some (entry_bytes (mcodec x) (mlayout y) yo (dp_entry p))) /\
  lasting (mcodec x) (mlayout y) o yo (dp_entry p) /\ len (entry_bytes (mcodec x) (mlayout y) yo (dp_entry p)) < 300000000.
Proof.
  intros X O x y dx o yo FX OX FO p H. pose proof (dp_lasting x y o yo FO p H) as La. pose proof (dp_len x y o yo FO p H) as Le.
  split; [|split; assumption]. unfold mp4_new.
  assert (I : match option_map (fun i => DescSpec.enc (info_desc i)) (dp_info p) with None => Ok None | Some b => do ds <- desc_read (mkR b 0); Ok (Some (fst ds)) end = Ok (option_map info_desc (dp_info p))).
  { pose proof H as (_ & _ & _ & _ & _ & _ & Hi). destruct (dp_info p) as [i|]; [|reflexivity]. cbn [option_map].
    pose proof (proj1 (desc_read_ok _ 0 (info_wf i Hi)) []) as R. rewrite app_nil_r in R. rewrite R. reflexivity. }
  rewrite I, dp_type_is.
  assert (E : esd_new (dp_oti p) (dp_st p) (dp_buf p) (dp_max p) (dp_avg p) (option_map info_desc (dp_info p)) = dp_esd p) by (unfold esd_new, dp_esd, dp_config; destruct (dp_info p); reflexivity).
  rewrite E. change (new_entry (dp_kind p) (dp_dri p) (dp_type p) [ALeaf _ (inl (mkDbox 0 0 (Some (dp_esd p))))]) with (dp_entry (X:=X) (O:=O) p).
  rewrite (handle_w x y dx o yo FX OX FO (dp_entry p)); [reflexivity|apply La|lia].
Qed.
Print Assumptions C76_new.

(* attached to a track, one after the other, each answers with what it was
   made from, and so it does after saving and opening the file *)
Theorem C76_track : forall X O (x : codec X) (y : layout X) (dx : X) (o : codec O) (yo : layout O) oexts, faithful x y -> others x y -> faithful o yo ->
  forall ps hs, Forall dp_ok ps ->
  Forall2 (fun p h => mp4_new x o (dp_kind p) (dp_dri p) (dp_oti p) (dp_st p) (dp_buf p) (dp_max p) (dp_avg p) (option_map (fun i => DescSpec.enc (info_desc i)) (dp_info p)) = Ok (Some h)) ps hs ->
  exists a, attach (mcodec x) (mdflt dx) o hs = Ok a /\
    (forall k, decoder_info x oexts a k = do p <- kth_of ps k; Ok (Some (dp_answer p))) /\
    (forall k, decoder_config x oexts a k = do p <- kth_of ps k; Ok (DescSpec.enc (dp_config p))) /\
    (forall k, media_esds x oexts a k = do p <- kth_of ps k; Ok (esds_box 0 0 (dp_esd p))) /\
    (16 + fold_right N.add 0 (map len hs) < 4294967296 ->
     exists bs, write_box (stsd_codec (mcodec x) (mdflt dx) o) a = Ok bs /\
       forall d rest, read_box (stsd_codec (mcodec x) (mdflt dx) o) d (bs ++ rest) = Ok ((ALeaf _ a, len bs), rest)).
Proof.
  intros X O x y dx o yo oexts FX OX FO ps hs H F2.
  assert (HS : hs = map (entry_bytes (mcodec x) (mlayout y) yo) (map dp_entry ps)).
  { clear - FX OX FO H F2 dx. induction F2 as [|p h ps hs E F2 IH]; [reflexivity|]. inversion H as [|? ? Hp H']; subst. cbn [map]. f_equal; [|apply IH, H'].
    destruct (C76_new X O x y dx o yo FX OX FO p Hp) as [N _]. rewrite N in E. injection E as E. symmetry. exact E. }
  pose proof (mcodec_faithful x y FX OX) as FM.
  assert (L : Forall (lasting (mcodec x) (mlayout y) o yo) (map dp_entry ps)).
  { rewrite Forall_map. eapply Forall_impl; [|exact H]. intros p Hp. apply (dp_lasting x y o yo FO p Hp). }
  assert (LE : Forall (fun h => len h < 4294967296) hs).
  { rewrite HS, map_map, Forall_map. eapply Forall_impl; [|exact H]. intros p Hp. cbn beta. pose proof (dp_len x y o yo FO p Hp). lia. }
  destruct (C55_descriptions _ _ (mcodec x) (mlayout y) (mdflt dx) o yo (fun z => dri_at (box (l_ty yo z) (l_body yo z))) FM FO (fun z _ => eq_refl) (map dp_entry ps) hs L HS LE) as (a & A1 & _ & A3).
  assert (AE : a = mkStsd 0 0 (map dp_entry ps)).
  { pose proof (attach_is (mcodec x) (mlayout y) (mdflt dx) o yo FM FO (map dp_entry ps)) as AT. rewrite <- HS, A1 in AT.
    assert (AV : map (entry_view (mcodec x) (mlayout y) yo) (map dp_entry ps) = map dp_entry ps).
    { rewrite map_map. apply map_ext_in. intros p I. rewrite Forall_forall in H. apply (view_own x y yo); [apply dp_own|rewrite dp_boxes; apply dp_settled; apply H, I]. }
    unfold after in AT. rewrite AV in AT. assert (Q : Ok a = Ok (mkStsd 0 0 (map dp_entry ps))); [apply AT|congruence].
    - eapply Forall_impl; [|exact L]. intros e Z. apply Z.
    - intros e I. apply in_map_iff in I. destruct I as (p & <- & I). rewrite Forall_forall in H. pose proof (dp_len x y o yo FO p (H p I)). lia. }
  assert (ME : forall k, media_esds x oexts a k = do p <- kth_of ps k; Ok (esds_box 0 0 (dp_esd p))).
  { intros k. unfold media_esds, stsd_get, kth_of. rewrite AE. cbn [sd_ents]. destruct (N.eqb_spec k 0); [reflexivity|]. cbn [orb]. unfold nthN.
    rewrite nth_error_map. destruct (nth_error ps (N.to_nat (k - 1))) as [p|] eqn:E; cbn [option_map].
    - assert (LT : (N.to_nat (k - 1) < length ps)%nat) by (apply nth_error_Some; congruence).
      destruct (N.ltb_spec (len (map (dp_entry (X:=X) (O:=O)) ps)) k); [unfold len in *; rewrite map_length in *; lia|]. cbn [bind].
      rewrite (mexts_is oexts) by apply dp_own. rewrite dp_boxes. reflexivity.
    - apply nth_error_None in E. destruct (N.ltb_spec (len (map (dp_entry (X:=X) (O:=O)) ps)) k); [reflexivity|unfold len in *; rewrite map_length in *; lia]. }
  exists a. split; [exact A1|]. split; [|split; [|split; [exact ME|exact A3]]].
  - intros k. unfold decoder_info. rewrite ME. unfold kth_of, nthN. destruct (k =? 0); [reflexivity|]. destruct (nth_error ps (N.to_nat (k - 1))) as [p|] eqn:E; [|reflexivity]. cbn [bind].
    apply nth_error_In in E. rewrite Forall_forall in H. specialize (H p E). unfold esds_box, dp_esd, dp_answer, dp_config. cbn [as_es bind snd find fst]. change (0 =? 0) with true. cbn match.
    destruct H as (_ & _ & _ & _ & _ & _ & Hi). destruct (dp_info p) as [i|]; [|reflexivity]. cbn [find fst]. change (0 =? 0) with true. cbn match.
    rewrite (dwrite_ok _ (info_wf i Hi)). cbn [bind]. pose proof (skip_eq i Hi) as S. destruct (DescSpec.enc (info_desc i)) as [|b r]; [injection S as <-; reflexivity|]. destruct (skip_len (len (b :: r)) 1 r) as [s| |]; try discriminate S. injection S as ->. reflexivity.
  - intros k. unfold decoder_config. rewrite ME. unfold kth_of, nthN. destruct (k =? 0); [reflexivity|]. destruct (nth_error ps (N.to_nat (k - 1))) as [p|] eqn:E; [|reflexivity]. cbn [bind].
    apply nth_error_In in E. rewrite Forall_forall in H. specialize (H p E). unfold esds_box, dp_esd. cbn [as_es bind snd find fst]. change (0 =? 0) with true. cbn match. apply (dwrite_ok _ (config_wf p H)).
Qed.
Print Assumptions C76_track.

(* ------------------------------------------------------------------ *)
(* changing the elementary stream descriptor of a handle                *)

Section Change.
Context {X O : Type} (x : codec X) (y : layout X) (dx : X) (o : codec O) (yo : layout O).
Context (oexts : O -> list (atom (dbox + (btrt + X)))) (oset : O -> list (atom (dbox + (btrt + X))) -> O).
Hypothesis FX : faithful x y.
Hypothesis OX : others x y.
Hypothesis FO : faithful o yo.
Notation c := (mcodec x).
Notation ly := (mlayout y).

Lemma boxes_reboxed (e : ent (mext (X:=X)) O) l : own e -> boxes_in (reboxed e l) = l.
Proof. destruct e; cbn; intros H; try contradiction H; reflexivity. Qed.
Lemma own_kids e : own e -> entry_ok c ly o yo e -> Forall (kid_ok c ly) (boxes_in e).
Proof. intros H (_ & _ & K). destruct e; try contradiction H; cbn [boxes_in]; tauto. Qed.
Lemma holds_esd e pre v f d post : holds x y o yo e pre v f d post -> full_ok v f /\ DescSpec.wf d.
Proof.
  intros (W & E & B & _). pose proof (own_kids e W E) as K. rewrite B in K. apply Forall_app in K. destruct K as [_ K]. inversion K; subst. apply (esds_kid x y). assumption.
Qed.
Lemma holds_settled e pre v f d post : holds x y o yo e pre v f d post -> Forall (settled c ly) (boxes_in e).
Proof.
  intros H. pose proof (holds_esd _ _ _ _ _ _ H) as [F W]. destruct H as (_ & _ & B & _ & S & P). rewrite B. apply Forall_app in P. destruct P as [P1 P2].
  apply Forall_app. split; [exact P1|]. constructor; [|exact P2]. apply esds_settled; [exact F|exact W|apply still_view, S].
Qed.
Lemma holds_read e pre v f d post : holds x y o yo e pre v f d post -> len (entry_bytes c ly yo e) < 4294967296 ->
  of_handle c (mdflt dx) o false (entry_bytes c ly yo e) = Ok e /\ esd_find x (mexts oexts e) = Some (pre, esds_box v f d, post).
Proof.
  intros H L. pose proof (holds_settled _ _ _ _ _ _ H) as S. destruct H as (W & E & B & N & _). split.
  - apply (handle_is x y dx o yo FX OX FO); assumption.
  - rewrite (mexts_is oexts) by exact W. rewrite B. apply find_is, N.
Qed.
Lemma holds_with e pre v f d post d' : holds x y o yo e pre v f d post -> DescSpec.wf d' -> still d' ->
  holds x y o yo (with_esd e pre v f d' post) pre v f d' post /\ set_mexts oset e (pre ++ esds_box v f d' :: post) = with_esd e pre v f d' post.
Proof.
  intros H W' S'. pose proof (holds_esd _ _ _ _ _ _ H) as [F _]. destruct H as (W & E & B & N & S & P). unfold with_esd. split.
  - split; [apply reboxed_own, W|]. split; [|split; [apply boxes_reboxed, W|split; [exact N|split; [exact S'|exact P]]]].
    apply reboxed_ok; [exact W|exact E|]. pose proof (own_kids e W E) as K. rewrite B in K. apply Forall_app in K. destruct K as [K1 K2]. inversion K2; subst.
    apply Forall_app. split; [exact K1|]. constructor; [apply (esds_kid x y); split; assumption|assumption].
  - apply set_is, W.
Qed.
Lemma kids_len l : len (kids_bytes c ly l) = fold_right N.add 0 (map (fun k => len (kid_enc c ly k)) l).
Proof. unfold kids_bytes. induction l as [|k l IH]; [reflexivity|]. cbn [flat_map map fold_right]. rewrite len_app, IH. reflexivity. Qed.
Lemma esds_enc v f d : len (kid_enc c ly (esds_box v f d)) = 17 + len (body d).
Proof.
  change (kid_enc c ly (esds_box v f d)) with (box (code "esds") (full v f ++ DescSpec.enc d)). rewrite len_box, len_app, len_enc. unfold full. lens. lia.
Qed.
Lemma with_len e pre v f d post d' : holds x y o yo e pre v f d post ->
  len (entry_bytes c ly yo (with_esd e pre v f d' post)) + len (body d) = len (entry_bytes c ly yo e) + len (body d').
Proof.
  intros (W & _ & B & _). assert (R : len (entry_bytes c ly yo (reboxed e (pre ++ esds_box v f d' :: post))) + len (kids_bytes c ly (boxes_in e)) = len (entry_bytes c ly yo e) + len (kids_bytes c ly (pre ++ esds_box v f d' :: post))) by (apply reboxed_len; first [exact oset|exact W]). fold (with_esd e pre v f d' post) in R. rewrite B in R.
  rewrite !kids_len, !map_app in R. cbn [map] in R. assert (A : forall a b r, fold_right N.add 0 (a ++ b :: r) = fold_right N.add 0 a + b + fold_right N.add 0 r).
  { intros a b r. induction a as [|z a IH]; cbn [app fold_right]; lia. }
  rewrite !A, !esds_enc in R. lia.
Qed.
Lemma with_enc e pre v f a b post : own e -> DescSpec.enc a = DescSpec.enc b -> entry_bytes c ly yo (with_esd e pre v f a post) = entry_bytes c ly yo (with_esd e pre v f b post).
Proof.
  intros W E. assert (K : kids_bytes c ly (pre ++ esds_box v f a :: post) = kids_bytes c ly (pre ++ esds_box v f b :: post)).
  { unfold kids_bytes. rewrite !flat_map_app. cbn [flat_map]. change (kid_enc c ly (esds_box v f a)) with (box (code "esds") (full v f ++ DescSpec.enc a)). change (kid_enc c ly (esds_box v f b)) with (box (code "esds") (full v f ++ DescSpec.enc b)). rewrite E. reflexivity. }
  unfold entry_bytes, with_esd. destruct e; try contradiction W; cbn [reboxed entry_type entry_body]; rewrite K; reflexivity.
Qed.
Lemma with_ok e pre v f d post a : holds x y o yo e pre v f d post -> DescSpec.wf a -> entry_ok c ly o yo (with_esd e pre v f a post).
Proof.
  intros H W'. pose proof (holds_esd _ _ _ _ _ _ H) as [F _]. destruct H as (W & E & B & N & S & P).
  apply reboxed_ok; [exact W|exact E|]. pose proof (own_kids e W E) as K. rewrite B in K. apply Forall_app in K. destruct K as [K1 K2]. inversion K2; subst.
  apply Forall_app. split; [exact K1|]. constructor; [apply (esds_kid x y); split; assumption|assumption].
Qed.
End Change.

Lemma sorted_cons {A} (k : N * A) ks os : NoDup os -> In (fst k) os ->
  Permutation (flat_map (fun m => filter (fun z => fst z =? m) (k :: ks)) os) (k :: flat_map (fun m => filter (fun z => fst z =? m) ks) os).
Proof.
  induction os as [|m os IH]; intros ND I; [contradiction I|]. inversion ND as [|? ? NI ND']; subst. cbn [flat_map filter]. destruct (N.eqb_spec (fst k) m) as [E|E].
  - cbn [app]. apply perm_skip, Permutation_app_head. assert (Q : forall l, ~ In (fst k) l -> flat_map (fun m => if fst k =? m then k :: filter (fun z => fst z =? m) ks else filter (fun z => fst z =? m) ks) l = flat_map (fun m => filter (fun z => fst z =? m) ks) l).
    { intros l. induction l as [|n l IHl]; intros NJ; cbn [flat_map]; [reflexivity|]. rewrite IHl by (intros J; apply NJ; right; exact J).
      destruct (N.eqb_spec (fst k) n) as [Z|Z]; [exfalso; apply NJ; left; symmetry; exact Z|reflexivity]. }
    rewrite Q by (rewrite E; exact NI). reflexivity.
  - destruct I as [I|I]; [congruence|]. rewrite Permutation_middle. apply Permutation_app_head. apply IH; assumption.
Qed.
Lemma sorted_perm {A} id dep prio ocr url (ks : list (N * A)) : Forall (fun k => fst k < 8) ks -> Permutation (sorted (HES id dep prio ocr url) ks) ks.
Proof.
  intros F. induction F as [|k ks L F IH]; [reflexivity|]. unfold sorted in *. cbn [order] in *. rewrite sorted_cons.
  - apply perm_skip, IH.
  - repeat constructor; cbn [In]; intuition discriminate.
  - cbn [In]. lia.
Qed.
Lemma Permutation_filter {A} (p : A -> bool) l l' : Permutation l l' -> Permutation (filter p l) (filter p l').
Proof.
  induction 1 as [|z l l' P IH|a b l|l l' l'' P IH Q IH']; cbn [filter]; [constructor|destruct (p z); [apply perm_skip|]; exact IH| |etransitivity; eassumption].
  destruct (p a), (p b); try reflexivity. apply perm_swap.
Qed.
Lemma flat_len_perm (l l' : list (N * desc)) : Permutation l l' -> len (flat_map (fun k => DescSpec.enc (snd k)) l) = len (flat_map (fun k => DescSpec.enc (snd k)) l').
Proof. intros P. unfold len. rewrite (Permutation_length (Permutation_flat_map (fun k => DescSpec.enc (snd k)) P)). reflexivity. Qed.

(* the priority is changed and nothing else *)
Theorem C76_priority : forall X O (x : codec X) (y : layout X) (dx : X) (o : codec O) (yo : layout O) oexts oset, faithful x y -> others x y -> faithful o yo ->
  forall e pre v f id dep prio ocr url ks post p, holds x y o yo e pre v f (Desc (HES id dep prio ocr url) ks) post ->
  len (entry_bytes (mcodec x) (mlayout y) yo e) < 4294967296 -> p < 32 ->
  let e' := with_esd e pre v f (Desc (HES id dep p ocr url) ks) post in
  set_priority x dx o oexts oset (entry_bytes (mcodec x) (mlayout y) yo e) p = Ok (entry_bytes (mcodec x) (mlayout y) yo e') /\
  holds x y o yo e' pre v f (Desc (HES id dep p ocr url) ks) post /\
  len (entry_bytes (mcodec x) (mlayout y) yo e') = len (entry_bytes (mcodec x) (mlayout y) yo e).
Proof.
  intros X O x y dx o yo oexts oset FX OX FO e pre v f id dep prio ocr url ks post p H L P. cbv zeta.
  destruct (holds_read x y dx o yo oexts FX OX FO _ _ _ _ _ _ H L) as [R1 R2]. destruct (holds_esd x y o yo _ _ _ _ _ _ H) as [F W].
  assert (BL : len (body (Desc (HES id dep p ocr url) ks)) = len (body (Desc (HES id dep prio ocr url) ks))).
  { cbn [body]. rewrite !len_app. change (sorted (HES id dep p ocr url) ks) with (sorted (HES id dep prio ocr url) ks). f_equal. }
  assert (W' : DescSpec.wf (Desc (HES id dep p ocr url) ks)).
  { apply wf_inv in W. destruct W as (W1 & W2 & W3 & W4). constructor; [cbn [head_ok] in *; tauto|exact W2|exact W3|rewrite BL; exact W4]. }
  assert (S' : still (Desc (HES id dep p ocr url) ks)).
  { destruct H as (_ & _ & _ & _ & S & _). apply still_inv in S. destruct S as (_ & S2 & S3). constructor; [reflexivity|exact S2|exact S3]. }
  destruct (holds_with x y o yo oset _ _ _ _ _ _ _ H W' S') as [H' SE]. pose proof (with_len x y o yo oset _ _ _ _ _ _ (Desc (HES id dep p ocr url) ks) H) as WL. rewrite BL in WL.
  split; [|split; [exact H'|lia]]. unfold set_priority. rewrite R1. cbn [bind]. rewrite R2. cbn [esds_box as_es bind]. 
  transitivity (entry_w (mcodec x) o (set_mexts oset e (pre ++ esds_box v f (Desc (HES id dep p ocr url) ks) :: post))); [reflexivity|]. rewrite SE. apply (handle_w x y dx o yo FX OX FO); [apply H'|lia].
Qed.
Print Assumptions C76_priority.

(* a descriptor that is added stands after the others of its member; a second
   one of a kind there is only one of is refused *)
Theorem C76_add_descriptor : forall X O (x : codec X) (y : layout X) (dx : X) (o : codec O) (yo : layout O) oexts oset, faithful x y -> others x y -> faithful o yo ->
  forall e pre v f id dep prio ocr url ks post d, holds x y o yo e pre v f (Desc (HES id dep prio ocr url) ks) post ->
  len (entry_bytes (mcodec x) (mlayout y) yo e) < 4294967296 -> DescSpec.wf d -> still d -> ~ 74 <= dtag d <= 95 ->
  let h := HES id dep prio ocr url in
  let d' := Desc h (sorted h (ks ++ [(es_home (dtag d), d)])) in
  let e' := with_esd e pre v f d' post in
  ((In (dtag d) only_one /\ exists k, In k ks /\ dtag (snd k) = dtag d) ->
     add_esd_desc x dx o oexts oset (entry_bytes (mcodec x) (mlayout y) yo e) (DescSpec.enc d) = Err MP4InvalidMediaErr) /\
  (~ (In (dtag d) only_one /\ exists k, In k ks /\ dtag (snd k) = dtag d) ->
     len (body d') < 268435456 -> len (entry_bytes (mcodec x) (mlayout y) yo e) + len (DescSpec.enc d) < 4294967296 ->
     add_esd_desc x dx o oexts oset (entry_bytes (mcodec x) (mlayout y) yo e) (DescSpec.enc d) = Ok (entry_bytes (mcodec x) (mlayout y) yo e') /\
     holds x y o yo e' pre v f d' post /\
     len (entry_bytes (mcodec x) (mlayout y) yo e') = len (entry_bytes (mcodec x) (mlayout y) yo e) + len (DescSpec.enc d)).
Proof.
  intros X O x y dx o yo oexts oset FX OX FO e pre v f id dep prio ocr url ks post d H L Wd Sd Td. cbv zeta.
  destruct (holds_read x y dx o yo oexts FX OX FO _ _ _ _ _ _ H L) as [R1 R2]. destruct (holds_esd x y o yo _ _ _ _ _ _ H) as [F W].
  set (h := HES id dep prio ocr url) in *. set (d' := Desc h (sorted h (ks ++ [(es_home (dtag d), d)]))).
  pose proof (proj1 (desc_read_ok _ 0 Wd) []) as R. rewrite app_nil_r, (still_view d Sd) in R.
  assert (BT : between 74 95 (dtag d) = false) by (unfold between; lia).
  assert (S : still (Desc h ks)) by apply H. apply still_inv in S. destruct S as (_ & S2 & S3).
  assert (XB : existsb (fun k => fst k =? es_home (dtag d)) ks = true -> single (es_home (dtag d)) = true -> In (dtag d) only_one /\ exists k, In k ks /\ dtag (snd k) = dtag d).
  { intros E SG. apply existsb_exists in E. destruct E as (k & I & E). apply N.eqb_eq in E. rewrite Forall_forall in S3. destruct (S3 k I) as [_ Hk]. cbn [home h] in Hk. rewrite E in Hk.
    pose proof (es_single (dtag d) _ SG eq_refl) as A. pose proof (es_single (dtag (snd k)) _ SG (eq_sym Hk)) as B.
    cbn [In] in A, B. unfold only_one. cbn [In]. split; [|exists k; split; [exact I|]]; intuition congruence. }
  assert (XC : In (dtag d) only_one /\ (exists k, In k ks /\ dtag (snd k) = dtag d) -> single (es_home (dtag d)) && existsb (fun k => fst k =? es_home (dtag d)) ks = true).
  { intros [I (k & K & E)]. apply andb_true_intro. split; [cbn [only_one In] in I; destruct I as [<-|[<-|[<-|[<-|[]]]]]; reflexivity|].
    apply existsb_exists. exists k. split; [exact K|]. apply N.eqb_eq. rewrite Forall_forall in S3. destruct (S3 k K) as [_ Hk]. cbn [home h] in Hk. rewrite Hk, E. reflexivity. }
  split.
  - intros D. unfold add_esd_desc. rewrite R1. cbn [bind]. rewrite R2. cbn [esds_box as_es bind]. fold h. unfold h at 1. cbn [as_es bind]. rewrite R. cbn [bind fst]. cbn [desc_add]. rewrite BT, es_member_home. unfold es_put. rewrite (XC D). reflexivity.
  - intros D B LT. assert (E : single (es_home (dtag d)) && existsb (fun k => fst k =? es_home (dtag d)) ks = false).
    { destruct (single (es_home (dtag d))) eqn:A; [|reflexivity]. destruct (existsb (fun k => fst k =? es_home (dtag d)) ks) eqn:A'; [|reflexivity]. exfalso. apply D, XB; [reflexivity|reflexivity]. }
    assert (FK : Forall (fun k => still (snd k) /\ fst k = home h (dtag (snd k))) (ks ++ [(es_home (dtag d), d)])).
    { apply Forall_app. split; [exact S3|]. constructor; [split; [exact Sd|reflexivity]|constructor]. }
    assert (S' : still d').
    { constructor; [reflexivity|apply sorted_idem|]. rewrite Forall_forall in *. intros k I. apply FK. apply (sorted_in h), I. }
    assert (F8 : Forall (fun k => fst k < 8) (ks ++ [(es_home (dtag d), d)])).
    { rewrite Forall_forall in *. intros k I. destruct (FK k I) as [_ Hk]. rewrite Hk. cbn [home h]. rewrite <- es_member_home. unfold es_member. repeat match goal with |- (if ?b then _ else _) < _ => destruct b end; reflexivity. }
    pose proof (sorted_perm id dep prio ocr url _ F8) as PM. fold h in PM.
    apply wf_inv in W. destruct W as (W1 & W2 & W3 & W4).
    assert (WK : Forall (fun k => DescSpec.wf (snd k)) (ks ++ [(es_home (dtag d), d)])) by (apply Forall_app; split; [exact W3|constructor; [exact Wd|constructor]]).
    assert (W' : DescSpec.wf d').
    { constructor; [exact W1| | |exact B].
      - destruct W2 as [K1 K2]. split.
        + rewrite Forall_forall in *. intros k I. apply F8, (sorted_in h), I.
        + assert (FC : forall t, In t only_one -> (count t (sorted h (ks ++ [(es_home (dtag d), d)])) <= 1)%nat).
          { intros t It. assert (P : count t (sorted h (ks ++ [(es_home (dtag d), d)])) = count t (ks ++ [(es_home (dtag d), d)])).
            { unfold count. apply Permutation_length, Permutation_filter, PM. }
            rewrite P. unfold count. rewrite filter_app, app_length. cbn [filter snd]. rewrite Forall_forall in K2. specialize (K2 t It). unfold count in K2.
            destruct (N.eqb_spec (dtag d) t) as [Z|Z]; [|cbn [length]; rewrite Nat.add_0_r; exact K2].
            assert (N0 : filter (fun k => dtag (snd k) =? t) ks = []).
            { destruct (filter (fun k => dtag (snd k) =? t) ks) as [|k r] eqn:Q; [reflexivity|]. exfalso. apply D. split; [rewrite Z; exact It|]. exists k.
              assert (I : In k (filter (fun k => dtag (snd k) =? t) ks)) by (rewrite Q; left; reflexivity). apply filter_In in I. destruct I as [I J]. apply N.eqb_eq in J. split; [exact I|congruence]. }
            rewrite N0. cbn [length]. constructor. }
          apply Forall_forall. exact FC.
      - rewrite Forall_forall in *. intros k I. apply WK. apply (sorted_in h), I. }
    assert (BL : len (body d') = len (body (Desc h ks)) + len (DescSpec.enc d)).
    { unfold d'. cbn [body]. rewrite !len_app, sorted_idem, (flat_len_perm _ _ PM), S2, flat_map_app, len_app. cbn [flat_map snd]. rewrite app_nil_r. lia. }
    destruct (holds_with x y o yo oset _ _ _ _ _ _ _ H W' S') as [H' SE]. pose proof (with_len x y o yo oset _ _ _ _ _ _ d' H) as WL. rewrite BL in WL.
    split; [|split; [exact H'|lia]]. unfold add_esd_desc. rewrite R1. cbn [bind]. rewrite R2. unfold h at 1. cbn [esds_box as_es bind]. rewrite R. cbn [bind fst desc_add].
    rewrite BT, es_member_home. unfold es_put. rewrite E. cbn [bind]. fold h.
    assert (EE : DescSpec.enc (Desc h (ks ++ [(es_home (dtag d), d)])) = DescSpec.enc d').
    { rewrite !enc_body. unfold d'. cbn [dtag body]. rewrite sorted_idem. reflexivity. }
    assert (Wu : DescSpec.wf (Desc h (ks ++ [(es_home (dtag d), d)]))).
    { constructor; [exact W1| |exact WK|].
      - destruct W2 as [K1 K2]. split; [exact F8|]. apply wf_inv in W'. destruct W' as (_ & [_ C] & _). rewrite Forall_forall in *. intros t It. specialize (C t It). unfold count in *.
        rewrite (Permutation_length (Permutation_filter _ _ _ PM)) in C. exact C.
      - pose proof (len_enc (Desc h (ks ++ [(es_home (dtag d), d)]))) as Q. rewrite EE, len_enc in Q. lia. }
    transitivity (entry_w (mcodec x) o (set_mexts oset e (pre ++ esds_box v f (Desc h (ks ++ [(es_home (dtag d), d)])) :: post))); [reflexivity|].
    rewrite (set_is oset) by apply H. fold (with_esd e pre v f (Desc h (ks ++ [(es_home (dtag d), d)])) post).
    rewrite <- (with_enc x y yo e pre v f _ d' post (proj1 H) EE). apply (handle_w x y dx o yo FX OX FO); [apply (with_ok x y o yo _ _ _ _ _ _ _ H Wu)|].
    rewrite (with_enc x y yo e pre v f _ d' post (proj1 H) EE). lia.
Qed.
Print Assumptions C76_add_descriptor.

(* ------------------------------------------------------------------ *)
(* the type and the bit rates                                           *)

Lemma mp4_mask ty : ty < 4294967296 -> (N.lor (N.land ty 4294967040) 32 =? 1836069920) = (ty / 256 =? 7172148).
Proof.
  intros L. change 4294967040 with (N.shiftl (N.ones 24) 8). rewrite land_shiftl, BitLemmas.land_mod, shiftr_div. change (2 ^ 8) with 256. rewrite (N.mod_small (ty / 256)) by (change (2 ^ 24) with 16777216; lia).
  rewrite (BitLemmas.lor_add 8 _ 32) by reflexivity. change (2 ^ 8) with 256. lia.
Qed.
(* the type of a description becomes another one of mp4; everything else of it
   stays *)
Theorem C76_type : forall X O (x : codec X) (y : layout X) (dx : X) (o : codec O) (yo : layout O) oexts, faithful x y -> others x y -> faithful o yo ->
  forall e ty, own e -> entry_ok (mcodec x) (mlayout y) o yo e -> Forall (settled (mcodec x) (mlayout y)) (boxes_in e) ->
  entry_ok (mcodec x) (mlayout y) o yo (retyped e ty) -> len (entry_bytes (mcodec x) (mlayout y) yo e) < 4294967296 -> is_mp4 ty ->
  set_type x dx o oexts (entry_bytes (mcodec x) (mlayout y) yo e) ty = Ok (entry_bytes (mcodec x) (mlayout y) yo (retyped e ty)) /\
  len (entry_bytes (mcodec x) (mlayout y) yo (retyped e ty)) = len (entry_bytes (mcodec x) (mlayout y) yo e).
Proof.
  intros X O x y dx o yo oexts FX OX FO e ty W E S E' L (z & Z & ->).
  assert (LL : len (entry_bytes (mcodec x) (mlayout y) yo (retyped e (1836069888 + z))) = len (entry_bytes (mcodec x) (mlayout y) yo e)).
  { rewrite !len_entry. destruct e; reflexivity. }
  split; [|exact LL]. unfold set_type. rewrite (handle_is x y dx o yo FX OX FO e W E S L). cbn [bind].
  assert (T : set_ty e (1836069888 + z) = Ok (retyped e (1836069888 + z))) by (destruct e; try contradiction W; reflexivity). rewrite T. cbn [bind].
  rewrite mp4_mask by lia. replace ((1836069888 + z) / 256 =? 7172148) with true by lia. apply (handle_w x y dx o yo FX OX FO); [exact E'|lia].
Qed.
Print Assumptions C76_type.

(* bit rates are added in a box of their own, behind the others; the box of
   3GPP has no buffer size *)
Theorem C76_bitrate : forall X O (x : codec X) (y : layout X) (dx : X) (o : codec O) (yo : layout O) oexts oset, faithful x y -> others x y -> faithful o yo ->
  forall e g buf mx av, own e -> entry_ok (mcodec x) (mlayout y) o yo e -> Forall (settled (mcodec x) (mlayout y)) (boxes_in e) ->
  buf < 4294967296 -> mx < 4294967296 -> av < 4294967296 -> len (entry_bytes (mcodec x) (mlayout y) yo e) + 20 < 4294967296 ->
  let b := ALeaf _ (inr (inl (mkBtrt (negb (g =? 0)) (if g =? 0 then buf else 0) mx av))) in
  let e' := reboxed e (boxes_in e ++ [b]) in
  add_bitrate x dx o oexts oset (entry_bytes (mcodec x) (mlayout y) yo e) g buf mx av = Ok (entry_bytes (mcodec x) (mlayout y) yo e') /\
  own e' /\ entry_ok (mcodec x) (mlayout y) o yo e' /\ Forall (settled (mcodec x) (mlayout y)) (boxes_in e') /\
  kid_enc (mcodec x) (mlayout y) b = (if g =? 0 then box (code "btrt") (be32 buf ++ be32 mx ++ be32 av) else box (code "bitr") (be32 av ++ be32 mx)) /\
  len (entry_bytes (mcodec x) (mlayout y) yo e') = len (entry_bytes (mcodec x) (mlayout y) yo e) + (if g =? 0 then 20 else 16).
Proof.
  intros X O x y dx o yo oexts oset FX OX FO e g buf mx av W E S Hb Hm Ha L. cbv zeta.
  set (b := ALeaf _ (inr (inl (mkBtrt (negb (g =? 0)) (if g =? 0 then buf else 0) mx av)))).
  assert (KB : kid_enc (mcodec x) (mlayout y) b = (if g =? 0 then box (code "btrt") (be32 buf ++ be32 mx ++ be32 av) else box (code "bitr") (be32 av ++ be32 mx))) by (unfold b; destruct (g =? 0); reflexivity).
  assert (SB : settled (mcodec x) (mlayout y) b).
  { split; [|split; reflexivity]. unfold kid_ok, b. destruct (g =? 0); cbn; repeat split; try lia; try discriminate. }
  assert (S' : Forall (settled (mcodec x) (mlayout y)) (boxes_in e ++ [b])) by (apply Forall_app; split; [exact S|constructor; [exact SB|constructor]]).
  assert (E' : entry_ok (mcodec x) (mlayout y) o yo (reboxed e (boxes_in e ++ [b]))).
  { apply reboxed_ok; [exact W|exact E|]. eapply Forall_impl; [|exact S']. intros k Z. apply Z. }
  assert (LL : len (entry_bytes (mcodec x) (mlayout y) yo (reboxed e (boxes_in e ++ [b]))) = len (entry_bytes (mcodec x) (mlayout y) yo e) + (if g =? 0 then 20 else 16)).
  { assert (K : len (kids_bytes (mcodec x) (mlayout y) (boxes_in e ++ [b])) = len (kids_bytes (mcodec x) (mlayout y) (boxes_in e)) + (if g =? 0 then 20 else 16)).
    { unfold kids_bytes. rewrite flat_map_app, len_app. cbn [flat_map]. rewrite app_nil_r, KB. f_equal. destruct (g =? 0); reflexivity. }
    assert (R : len (entry_bytes (mcodec x) (mlayout y) yo (reboxed e (boxes_in e ++ [b]))) + len (kids_bytes (mcodec x) (mlayout y) (boxes_in e)) = len (entry_bytes (mcodec x) (mlayout y) yo e) + len (kids_bytes (mcodec x) (mlayout y) (boxes_in e ++ [b]))) by (apply reboxed_len; first [exact oset|exact W]).
    lia. }
  split; [|split; [apply reboxed_own, W|split; [exact E'|split; [rewrite boxes_reboxed by exact W; exact S'|split; [exact KB|exact LL]]]]].
  unfold add_bitrate. rewrite (handle_is x y dx o yo FX OX FO e W E S) by lia. cbn [bind]. rewrite (mexts_is oexts) by exact W.
  transitivity (entry_w (mcodec x) o (reboxed e (boxes_in e ++ [b]))).
  - rewrite (set_is oset) by exact W. unfold b. destruct (g =? 0); [reflexivity|]. cbn [negb].
    set (b1 := ALeaf _ (inr (inl (mkBtrt true buf mx av)))). set (b2 := ALeaf _ (inr (inl (mkBtrt true 0 mx av)))).
    assert (ZS : forall n l, boxes_size (mcodec x) n (l ++ [b1]) = boxes_size (mcodec x) n (l ++ [b2])) by (intros n l; unfold boxes_size; rewrite !fold_left_app; reflexivity).
    assert (ZW : forall l, boxes_w (mcodec x) (l ++ [b1]) = boxes_w (mcodec x) (l ++ [b2])).
    { intros l. unfold boxes_w. induction l as [|k l IH]; [reflexivity|]. cbn [app wmap]. rewrite IH. reflexivity. }
    unfold entry_w. destruct e; try contradiction W; cbn [reboxed boxes_in ent_size ent_w ent_ty]; rewrite ZS, ZW; reflexivity.
  - apply (handle_w x y dx o yo FX OX FO); [exact E'|]. destruct (g =? 0); lia.
Qed.
Print Assumptions C76_bitrate.

(* ------------------------------------------------------------------ *)
(* a case                                                               *)

Lemma case_others : others smhd_codec smhd_layout. Proof. intros t _ [E|[E|[E|[]]]]; discriminate E. Qed.
Definition sm0 : smhd := mkSmhd 0 0 0 0.
Definition aac : dparams := mkDp (AudioTrack 44100) 1 64 5 6144 128000 96000 (Some [18; 16]).
Definition m4v : dparams := mkDp VisualTrack 2 32 4 65536 500000 400000 None.
Definition c_new (p : dparams) : res (option (list N)) :=
  mp4_new smhd_codec no_codec (dp_kind p) (dp_dri p) (dp_oti p) (dp_st p) (dp_buf p) (dp_max p) (dp_avg p) (option_map (fun i => DescSpec.enc (info_desc i)) (dp_info p)).
Definition aac_h : list N := Eval vm_compute in match c_new aac with Ok (Some b) => b | _ => [] end.
Definition m4v_h : list N := Eval vm_compute in match c_new m4v with Ok (Some b) => b | _ => [] end.
Definition c_oexts (z : Empty_set) : list (atom (dbox + (btrt + smhd))) := match z with end.
Definition c_oset (z : Empty_set) (_ : list (atom (dbox + (btrt + smhd)))) : Empty_set := z.
Definition c_attach := attach (mcodec smhd_codec) (mdflt sm0) no_codec.
Definition c_info := decoder_info smhd_codec c_oexts.
Definition c_prio := set_priority smhd_codec sm0 no_codec c_oexts c_oset.
Definition c_add := add_esd_desc smhd_codec sm0 no_codec c_oexts c_oset.
Definition c_type := set_type smhd_codec sm0 no_codec c_oexts.
Definition c_rate := add_bitrate smhd_codec sm0 no_codec c_oexts c_oset.
Example C76_track_meets : faithful smhd_codec smhd_layout /\ others smhd_codec smhd_layout /\ faithful no_codec no_layout /\ Forall dp_ok [aac; m4v] /\
  Forall2 (fun p h => c_new p = Ok (Some h)) [aac; m4v] [aac_h; m4v_h] /\
  exists a, c_attach [aac_h; m4v_h] = Ok a /\
    c_info a 1 = Ok (Some ([64; 5; 6144; 0; 128000; 96000], Some [18; 16])) /\
    c_info a 2 = Ok (Some ([32; 4; 65536; 0; 500000; 400000], None)) /\ c_info a 3 = Err MP4BadParamErr.
Proof.
  assert (FS : faithful smhd_codec smhd_layout) by (apply exact_faithful, smhd_exact).
  assert (FN : faithful no_codec no_layout) by (split; intros []).
  assert (D : Forall dp_ok [aac; m4v]) by (constructor; [repeat split|constructor; [repeat split|constructor]]).
  assert (N2 : Forall2 (fun p h => c_new p = Ok (Some h)) [aac; m4v] [aac_h; m4v_h]) by (constructor; [vm_compute; reflexivity|constructor; [vm_compute; reflexivity|constructor]]).
  split; [exact FS|]. split; [exact case_others|]. split; [exact FN|]. split; [exact D|]. split; [exact N2|].
  destruct (C76_track _ _ smhd_codec smhd_layout sm0 no_codec no_layout c_oexts FS case_others FN [aac; m4v] [aac_h; m4v_h] D N2) as (a & A & I & _).
  exists a. split; [exact A|]. unfold c_info. rewrite !I. repeat split.
Qed.
Print Assumptions C76_track_meets.
(* the audio description as an entry, and what the calls do to it *)
Definition aac_e : ent (mext (X := smhd)) Empty_set := dp_entry aac.
Definition lang : desc := Desc (HOther 67 [101; 110; 103]) [].
Definition qos : desc := Desc (HOther 12 [0]) [].
Definition aac_esd : list (N * desc) := [(0, dp_config aac); (1, sl0)].
Lemma lang_ok : DescSpec.wf lang /\ still lang.
Proof. split; [constructor; [split; reflexivity|reflexivity|constructor|reflexivity]|constructor; [reflexivity|reflexivity|constructor]]. Qed.
Example C76_change_meets : holds smhd_codec smhd_layout no_codec no_layout aac_e [] 0 0 (Desc (HES 0 0 0 0 []) aac_esd) [] /\
  entry_bytes (mcodec smhd_codec) (mlayout smhd_layout) no_layout aac_e = aac_h /\ len aac_h = 87 /\
  (exists h1 h2 h3, c_prio aac_h 31 = Ok h1 /\ c_add h1 (DescSpec.enc lang) = Ok h2 /\ c_add h2 (DescSpec.enc sl0) = Err MP4InvalidMediaErr /\
     c_rate h2 0 1000 128000 96000 = Ok h3 /\ len h1 = 87 /\ len h2 = 95 /\ len h3 = 115 /\
     h2 = entry_bytes (mcodec smhd_codec) (mlayout smhd_layout) no_layout (with_esd aac_e [] 0 0 (Desc (HES 0 0 31 0 []) (aac_esd ++ [(5, lang)])) [])).
Proof.
  split; [|split; [vm_compute; reflexivity|split; [vm_compute; reflexivity|]]].
  - assert (D : dp_ok aac) by (repeat split). split; [apply dp_own|]. split; [apply dp_lasting; [split; intros []|exact D]|]. split; [apply dp_boxes|]. split; [constructor|]. split; [apply esd_still|constructor].
  - set (h1 := match c_prio aac_h 31 with Ok b => b | _ => [] end). set (h2 := match c_add h1 (DescSpec.enc lang) with Ok b => b | _ => [] end). set (h3 := match c_rate h2 0 1000 128000 96000 with Ok b => b | _ => [] end).
    exists h1, h2, h3. vm_compute. repeat split.
Qed.
Print Assumptions C76_change_meets.
Example C76_type_meets : own aac_e /\ is_mp4 (code "mp4s") /\ entry_ok (mcodec smhd_codec) (mlayout smhd_layout) no_codec no_layout (retyped aac_e (code "mp4b")) /\
  exists h, c_type aac_h (code "mp4b") = Ok h /\ len h = 87 /\ firstn 8 h = [0; 0; 0; 87; 109; 112; 52; 98].
Proof.
  split; [apply dp_own|]. split; [exists 115; split; reflexivity|]. split.
  - assert (D : dp_ok aac) by (repeat split). destruct (dp_lasting smhd_codec smhd_layout no_codec no_layout ltac:(split; intros []) aac D) as ((_ & _ & E) & _).
    split; [reflexivity|split; [discriminate|]]. destruct E as (_ & E1 & E2). split; [right; repeat split|split; [exact E1|exact E2]].
  - set (h := match c_type aac_h (code "mp4b") with Ok b => b | _ => [] end). exists h. vm_compute. repeat split.
Qed.
Print Assumptions C76_type_meets.

(* ------------------------------------------------------------------ *)
(* what does not hold                                                   *)

(* a priority of 64: the decoder configuration is lost *)
Theorem C76_priority_refuted : exists h a, c_prio aac_h 64 = Ok h /\ c_attach [h] = Ok a /\ c_info a 1 = Ok None.
Proof.
  set (h := match c_prio aac_h 64 with Ok b => b | _ => [] end). set (a := match c_attach [h] with Ok a => a | _ => mkStsd 0 0 [] end). exists h, a. vm_compute. repeat split.
Qed.
Print Assumptions C76_priority_refuted.
(* a type outside mp4: the box that is removed is used after it was freed; a
   description without that box is refused *)
Theorem C76_type_refuted : c_type aac_h (code "enca") = UB /\
  exists h, c_type (entry_bytes (mcodec smhd_codec) (mlayout smhd_layout) no_layout (new_entry (AudioTrack 44100) 1 (code "mp4a") [])) h = Err MP4NotFoundErr.
Proof. split; [vm_compute; reflexivity|]. exists (code "enca"). vm_compute. reflexivity. Qed.
Print Assumptions C76_type_refuted.
(* the tag of the specific info is not checked when a description is made: what
   is not a specific info is not given back *)
Definition odd_h : list N := Eval vm_compute in match mp4_new smhd_codec no_codec (AudioTrack 44100) 1 64 5 6144 128000 96000 (Some (DescSpec.enc (Desc (HOther 19 [1; 2]) []))) with Ok (Some b) => b | _ => [] end.
Theorem C76_info_tag_refuted : mp4_new smhd_codec no_codec (AudioTrack 44100) 1 64 5 6144 128000 96000 (Some (DescSpec.enc (Desc (HOther 19 [1; 2]) []))) = Ok (Some odd_h) /\
  exists a, c_attach [odd_h] = Ok a /\ c_info a 1 = Ok (Some ([64; 5; 6144; 0; 128000; 96000], None)).
Proof.
  split; [vm_compute; reflexivity|]. set (a := match c_attach [odd_h] with Ok a => a | _ => mkStsd 0 0 [] end). exists a. vm_compute. repeat split.
Qed.
Print Assumptions C76_info_tag_refuted.
(* a specific info that cannot be read: the error is not the reader's *)
Theorem C76_info_error_refuted : forall b k dri oti st buf mx av err, desc_read (mkR b 0) = Err err ->
  mp4_new smhd_codec no_codec k dri oti st buf mx av (Some b) = Err MP4NotFoundErr.
Proof. intros b k dri oti st buf mx av err E. unfold mp4_new. rewrite E. reflexivity. Qed.
Print Assumptions C76_info_error_refuted.
Example C76_info_error_meets : desc_read (mkR [5; 2; 7] 0) = Err MP4IOErr. Proof. vm_compute. reflexivity. Qed.
(* content descriptors (tags 74 to 95) change their place when the description
   is read and written again: here by setting the priority it has *)
Definition oci : desc := Desc (HOther 75 [1]) [].
Theorem C76_content_refuted : exists h1 h2 h3, c_add aac_h (DescSpec.enc lang) = Ok h1 /\ c_add h1 (DescSpec.enc oci) = Ok h2 /\ c_prio h2 0 = Ok h3 /\ len h3 = len h2 /\
  skipn 87 h2 = DescSpec.enc oci ++ DescSpec.enc lang /\ skipn 87 h3 = DescSpec.enc lang ++ DescSpec.enc oci.
Proof.
  set (h1 := match c_add aac_h (DescSpec.enc lang) with Ok b => b | _ => [] end). set (h2 := match c_add h1 (DescSpec.enc oci) with Ok b => b | _ => [] end). set (h3 := match c_prio h2 0 with Ok b => b | _ => [] end).
  exists h1, h2, h3. vm_compute. repeat split.
Qed.
Print Assumptions C76_content_refuted.
(* a description whose type has no layout is kept as bytes: the calls do not
   find the descriptor in it *)
Theorem C76_unknown_type_refuted : exists h, c_type aac_h (code "mp4b") = Ok h /\ c_prio h 1 = Err MP4BadParamErr /\
  exists a, c_attach [h] = Ok a /\ c_info a 1 = Err MP4InvalidMediaErr.
Proof.
  set (h := match c_type aac_h (code "mp4b") with Ok b => b | _ => [] end). exists h. split; [vm_compute; reflexivity|]. split; [vm_compute; reflexivity|].
  set (a := match c_attach [h] with Ok a => a | _ => mkStsd 0 0 [] end). exists a. vm_compute. repeat split.
Qed.
Print Assumptions C76_unknown_type_refuted.
(* another descriptor in the box is used as if it were an elementary stream
   descriptor *)
Theorem C76_other_descriptor_refuted : exists d, DescSpec.wf d /\ still d /\ forall p,
  c_prio (entry_bytes (mcodec smhd_codec) (mlayout smhd_layout) no_layout (new_entry (AudioTrack 44100) 1 (code "mp4a") [esds_box 0 0 d])) p = UB.
Proof.
  exists lang. split; [apply lang_ok|]. split; [apply lang_ok|]. intros p. vm_compute. reflexivity.
Qed.
Print Assumptions C76_other_descriptor_refuted.

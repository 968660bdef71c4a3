(* MergeFragProofs.v -- lemmas for C23: a whole movie in fragments. *)
From Verif Require Import Base Codec AtomModel AtomSpec AtomProofs BoxModel BoxProofs Reads HeaderModel HeaderSpec HeaderProofs
  BoxSpec FragModel FragSpec FragProofs MdatModel MediaSpec MediaModel SttsModel SttsSpec SttsProofs MediaProofs
  SaveSpec SaveProps MergeProps MoofModel MoofSpec MoofProofs.

Lemma kept_in p d q a ss : kept d a ss -> kept (p ++ d ++ q) (len p + a) ss.
Proof.
  intros [H1 H2]. split; [lens; lia|].
  transitivity (slice (d ++ q) a (len (flat_map m_bytes ss))); [|rewrite slice_grow by exact H1; exact H2].
  unfold slice. rewrite slice_app_r by lia. replace (len p + a - len p) with a by lia. reflexivity.
Qed.
Lemma if_le (b : bool) n : (if b then n else 0) <= n.
Proof. destruct b; lia. Qed.
Lemma tfhd_len t : len (l_body tfhd_layout t) <= 32.
Proof.
  unfold tfhd_layout. cbn [l_body]. cbv zeta. lens.
  repeat match goal with |- context [N.testbit (fh_flags t) ?k] => destruct (N.testbit (fh_flags t) k) end; lia.
Qed.
Lemma trun_len t : len (l_body trun_layout t) <= 16 + 16 * len (tr_ents t).
Proof.
  unfold trun_layout. cbn [l_body]. cbv zeta.
  remember (flat_map _ (tr_ents t)) as F eqn:E. assert (L : len F <= 16 * len (tr_ents t)).
  { subst F. induction (tr_ents t) as [|e l IH]; [unfold len; cbn; lia|]. cbn [flat_map]. lens.
    repeat match goal with |- context [if N.testbit (tr_flags t) ?k then ?n else 0] =>
      pose proof (if_le (N.testbit (tr_flags t) k) n); remember (if N.testbit (tr_flags t) k then n else 0) end. lia. }
  clear E. lens. pose proof (if_le (N.testbit (tr_flags t) 0) 4). pose proof (if_le (N.testbit (tr_flags t) 2) 4). lia.
Qed.

(* a track fragment whose defaults and flags are chosen *)
Definition told (u : tfhd) (base : N) (q : trun) (a : N * list smp) : Prop :=
  exists s, merge_run u q = Ok s /\ tells s (map ent (snd a)) /\ r_pos s = w64 (base + u64_of (s32_of (fst a))) /\
    (r_ctos s <> None -> Exists (fun e => e_cto e <> 0) (map ent (snd a))).
Record ready (x : st) (y : traf) : Prop := {
  y_ok : forall base, base < 18446744073709551616 -> l_ok traf_layout (traf_moved base y);
  y_len : forall base, len (l_body traf_layout (traf_moved base y)) = len (l_body traf_layout y);
  y_short : len (l_body traf_layout y) <= 56 + x_cost x;
  y_zero : traf_moved 0 y = y;
  y_runs : f_runs y = [] <-> x_adds x = [];
  y_told : x_adds x <> [] -> forall base pos prev, let v := l_view traf_layout (traf_moved base y) in
     exists h, plain_traf v = true /\ f_hdr v = Some h /\ fh_id h = wk_id (x_w x) /\
       f_time v = Some (mkTfdt 0 0 (wk_time (x_w x))) /\ fh_empty (fh_flags h) = false /\
       let u := traf_fill (wk_def (x_w x)) pos prev h in
       fh_desc u = df_desc (wk_def (x_w x)) /\ Forall2 (told u base) (f_runs v) (x_adds x) }.

Lemma moved_len base y : len (l_body traf_layout (traf_moved base y)) = len (l_body traf_layout y).
Proof.
  unfold traf_layout. cbn [l_body traf_moved f_hdr f_time f_saiz f_saio f_runs f_sgpd f_sbgp]. destruct (f_hdr y) as [h|]; [|reflexivity].
  cbn [olist boxes_of flat_map]. lens. f_equal. f_equal. rewrite !len_box. f_equal.
  unfold tfhd_layout. cbn [l_body fh_ver fh_flags fh_id fh_base fh_desc fh_dur fh_size fh_sflags]. cbv zeta. lens.
  destruct (N.testbit (fh_flags h) 0); reflexivity.
Qed.
Lemma tfdt0_ok n : n < 4294967296 -> l_ok tfdt_layout (mkTfdt 0 0 n).
Proof. intros H. unfold tfdt_layout, time_ok. cbn [l_ok td_ver td_flags td_time]. split; [left; reflexivity|]. split; [lia|]. exact H. Qed.

Lemma traf_ready_ok D d x : building D d x -> exists y, traf_ready (x_w' x, x_f x) = Ok y /\ ready x y.
Proof.
  intros [L G1 G2 G3 G4 G5 G6 G7 G8]. unfold traf_ready.
  pose proof (f_equal f_hdr G4) as GH. cbn [f_hdr traf_start] in GH. rewrite GH.
  assert (HO : head_ok (mkTfhd 0 0 (wk_id (x_w x)) 0 (df_desc (wk_def (x_w x))) 0 0 0)).
  { pose proof (n_idr _ _ _ _ L). pose proof (n_descr _ _ _ _ L). unfold head_ok. cbn [fh_ver fh_id fh_base fh_desc]. lia. }
  assert (TM : wk_time (x_w x) < 4294967296) by (rewrite (n_time _ _ _ _ L); apply (v_dur _ _ _ (n_minv _ _ _ _ L))).
  destruct (f_runs (x_f x)) as [|r0 rs0] eqn:ER.
  - inversion G5 as [EA|]; subst. cbn [traf_prepare]. cbn [bind]. exists (x_f x). split; [reflexivity|].
    symmetry in EA. constructor.
    + intros base Hb. rewrite G4. unfold traf_moved, traf_layout. cbn [traf_start f_hdr f_time f_saiz f_saio f_runs f_sgpd f_sbgp l_ok olist].
      split; [|split; [constructor; [apply tfdt0_ok, TM|constructor]|repeat (split; [constructor|]); constructor]].
      constructor; [|constructor]. unfold tfhd_layout. cbn [l_ok fh_ver fh_flags fh_id fh_base fh_desc fh_dur fh_size fh_sflags].
      destruct HO as (_ & H1 & _ & H2). cbn [fh_id fh_desc] in H1, H2. unfold full_ok. lia.
    + intros base. apply moved_len.
    + rewrite G4. unfold traf_layout. cbn [traf_start f_hdr f_time f_saiz f_saio f_runs f_sgpd f_sbgp l_body olist boxes_of flat_map].
      lens. rewrite !len_box. change (len (@nil N)) with 0.
      pose proof (tfhd_len (mkTfhd 0 0 (wk_id (x_w x)) 0 (df_desc (wk_def (x_w x))) 0 0 0)).
      change (len (l_body tfdt_layout (mkTfdt 0 0 (wk_time (x_w x))))) with 8. lia.
    + rewrite G4. reflexivity.
    + rewrite ER. split; auto.
    + congruence.
  - assert (RO : Forall run_ok (r0 :: rs0)).
    { clear -G5. remember (r0 :: rs0) as l. clear Heql. induction G5 as [|r a l A (H & _) _ IH]; constructor; assumption. }
    rewrite G2. destruct (traf_prepare_ok (wk_def (x_w x)) _ (r0 :: rs0) HO ltac:(discriminate) RO) as (t' & rs' & P1 & P2 & P3 & P4 & P5 & P6 & P7).
    rewrite P1. cbn [bind]. cbn [fh_id fh_base fh_desc] in *.
    remember (mkTraf (Some t') (f_time (x_f x)) (f_saiz (x_f x)) (f_saio (x_f x)) rs' (f_sgpd (x_f x)) (f_sbgp (x_f x))) as y eqn:Ey.
    exists y. split; [reflexivity|].
    pose proof (f_equal f_time G4) as G_1. pose proof (f_equal f_saiz G4) as G_2. pose proof (f_equal f_saio G4) as G_3.
    pose proof (f_equal f_sgpd G4) as G_4. pose proof (f_equal f_sbgp G4) as G_5.
    cbn [traf_start f_hdr f_time f_saiz f_saio f_runs f_sgpd f_sbgp] in G_1, G_2, G_3, G_4, G_5. rewrite G_1, G_2, G_3, G_4, G_5 in Ey.
    assert (Q : Forall2 (fun q a => l_ok trun_layout q /\ tr_ents q = map ent (snd a)) rs' (x_adds x)).
    { specialize (P7 0 0 0). cbv zeta in P7. destruct P7 as (_ & _ & _ & _ & P7). clear -P7 G5. revert P7. generalize rs'.
      induction G5 as [|r a l A (_ & H & _) _ IH]; intros q Hq; inversion Hq as [|? b ? ql (K1 & _ & K3 & _) Hq']; subst; constructor; [|apply IH, Hq'].
      split; [exact K1|congruence]. }
    constructor.
    + intros base Hb. rewrite Ey. unfold traf_moved, traf_layout. cbn [f_hdr f_time f_saiz f_saio f_runs f_sgpd f_sbgp l_ok olist].
      split; [|split; [constructor; [apply tfdt0_ok, TM|constructor]|]].
      * constructor; [|constructor]. unfold tfhd_layout in *. cbn [l_ok fh_ver fh_flags fh_id fh_base fh_desc fh_dur fh_size fh_sflags] in *. tauto.
      * split; [constructor|]. split; [constructor|]. split; [|split; constructor].
        clear -Q. induction Q as [|q a l A (H & _) _ IH]; constructor; assumption.
    + intros base. apply moved_len.
    + rewrite Ey. unfold traf_layout. cbn [f_hdr f_time f_saiz f_saio f_runs f_sgpd f_sbgp l_body olist].
      unfold boxes_of at 1 2 3 4 6 7. cbn [flat_map]. lens. rewrite !len_box. change (len (@nil N)) with 0.
      pose proof (tfhd_len t').
      change (len (l_body tfdt_layout (mkTfdt 0 0 (wk_time (x_w x))))) with 8.
      assert (len (boxes_of (code "trun") trun_layout rs') <= x_cost x); [|lia].
      unfold x_cost, boxes_of. clear -Q. induction Q as [|q a l A (_ & H) _ IH]; [unfold len; cbn; lia|].
      cbn [flat_map fold_right]. lens. rewrite len_box. pose proof (trun_len q) as T. rewrite H, len_map in T. lia.
    + rewrite Ey. unfold traf_moved. cbn [f_hdr f_time f_saiz f_saio f_runs f_sgpd f_sbgp]. rewrite <- P6. destruct t'; reflexivity.
    + rewrite Ey. cbn [f_runs]. inversion Q; subst; split; intros E; try discriminate; inversion G5; discriminate || congruence.
    + intros _ base pos prev. rewrite Ey. unfold traf_moved, traf_layout.
      cbn [f_hdr f_time f_saiz f_saio f_runs f_sgpd f_sbgp l_view option_map map]. cbv zeta.
      exists (l_view tfhd_layout (mkTfhd (fh_ver t') (fh_flags t') (fh_id t') base (fh_desc t') (fh_dur t') (fh_size t') (fh_sflags t'))).
      split; [reflexivity|]. split; [reflexivity|]. split; [exact P4|]. split; [reflexivity|]. split; [exact P3|].
      specialize (P7 pos prev base). cbv zeta in P7. destruct P7 as (_ & _ & Q3 & _ & Q5). split; [exact Q3|].
      remember (traf_fill (wk_def (x_w x)) pos prev _) as u. clear -Q5 G5. revert Q5. generalize rs'.
      induction G5 as [|r a l A (_ & H & HO) _ IH]; intros q Hq; inversion Hq as [|? b ? ql (_ & _ & _ & s & K) Hq']; subst; cbn [map]; constructor; [|apply IH, Hq'].
      exists s. rewrite <- H, <- HO. exact K.
Qed.

(* ------------------------------------------------------------------ *)
(* reading                                                              *)

Lemma merge_runs_ok D u base qs A : Forall2 (told u base) qs A -> forall m t,
  minv m t D -> 1 <= fh_desc u <= len (me_descs m) -> chain t A ->
  Forall (fun a => kept D (base + fst a) (snd a)) A -> base < 2147483648 -> Forall (fun a => fst a < 2147483648) A ->
  exists m', merge_runs u qs m = Ok m' /\ minv m' (grown t A) D /\ me_drefs m' = me_drefs m /\ me_descs m' = me_descs m.
Proof.
  induction 1 as [|q a qs A (s & M1 & M2 & M3 & M4) _ IH]; intros m t I Hd C K Hb O.
  - exists m. cbn [merge_runs]. split; [reflexivity|]. split; [exact I|]. split; reflexivity.
  - cbn [chain] in C. destruct C as [R C]. inversion K as [|? ? K1 K2]; subst. inversion O as [|? ? O1 O2]; subst. destruct R.
    assert (P : r_pos s = base + fst a).
    { rewrite M3. rewrite s32_small by exact O1. unfold u64_of, w64. lia. }
    destruct (media_ref_ok m D D t s (snd a) (fh_desc u) (r_pos s) I (fun o g H => H)) as (m' & E & I' & E1 & E2); try assumption.
    { rewrite P. exact K1. }
    cbn [merge_runs]. rewrite M1. cbn [bind]. rewrite E. cbn [bind].
    destruct (IH m' (tgrow t (snd a)) I') as (m2 & F1 & F2 & F3 & F4); try assumption; [rewrite E2; exact Hd|].
    exists m2. split; [exact F1|]. split; [exact F2|]. split; congruence.
Qed.

Lemma find_mid done k X : ~ In (rk_id k) (map rk_id done) -> find_trk (rk_id k) (done ++ k :: X) = Some (length done).
Proof.
  induction done as [|j done IH]; intros H; cbn [app find_trk map length] in *; [rewrite N.eqb_refl; reflexivity|].
  destruct (N.eqb_spec (rk_id j) (rk_id k)) as [E|E]; [exfalso; apply H; left; exact E|].
  rewrite IH by (intros I; apply H; right; exact I). reflexivity.
Qed.
Lemma nth_mid {A} (a : list A) x b : nth_error (a ++ x :: b) (length a) = Some x.
Proof. rewrite nth_error_app2 by lia. rewrite Nat.sub_diag. reflexivity. Qed.
Lemma linked_grow D E w k t : linked D w k t -> linked (D ++ E) w k t.
Proof. intros []. constructor; try assumption. apply minv_grow. assumption. Qed.
Lemma stts_total_minv m t D : minv m t D -> stts_total (me_stts m) = duration (t_smps t).
Proof.
  intros I. pose proof (v_dur _ _ _ I) as Hd. rewrite duration_total in *. destruct (v_stts _ _ _ I) as [R1 _ _ _].
  unfold stts_total. rewrite stts_total_ok; rewrite R1; lia.
Qed.

(* [D'] is the file up to the end of this fragment, [base] where its data is *)
Lemma merge_traf_ok D d p q x y done X pos prev :
  let base := len D + len p in
  building D d x -> ready x y -> x_adds x <> [] -> len (D ++ p ++ d ++ q) < 2147483648 ->
  ~ In (rk_id (x_k x)) (map rk_id done) ->
  plain_traf (l_view traf_layout (traf_moved base y)) = true /\
  exists k' e, merge_traf pos (done ++ x_k x :: X) prev (l_view traf_layout (traf_moved base y)) = Ok (done ++ k' :: X, e) /\
    linked (D ++ p ++ d ++ q) (x_w' x) k' (x_t' x) /\ rk_id k' = rk_id (x_k x).
Proof.
  intros base [L G1 G2 G3 G4 G5 G6 G7 G8] Y HA Hb HN.
  destruct (y_told _ _ Y HA base pos prev) as (h & V1 & V2 & V3 & V4 & V5 & V6 & V7). split; [exact V1|].
  unfold merge_traf. rewrite V2. destruct L as [n_id0 n_idr0 n_def0 n_desc0 n_descr0 n_time0 n_dur0 n_minv0]. rewrite V3, n_id0, (find_mid done (x_k x) X HN), nth_mid. rewrite V4. cbn [td_time].
  rewrite n_time0, n_dur0. rewrite N.ltb_irrefl. cbn [bind]. rewrite <- n_def0.
  change (fh_flags (traf_fill (wk_def (x_w x)) pos prev h)) with (fh_flags h). rewrite V5.
  destruct (merge_runs_ok (D ++ p ++ d ++ q) _ base _ _ V7 (rk_media (x_k x)) (x_t x)) as (m' & E & I & E1 & E2).
  - apply minv_grow, n_minv0.
  - rewrite V6. exact n_desc0.
  - exact G7.
  - eapply Forall_impl; [|exact G6]. intros a Ha. rewrite app_assoc. replace (base + fst a) with (len (D ++ p) + fst a) by (unfold base; lens; lia).
    apply kept_in, Ha.
  - unfold base. lens. lia.
  - eapply Forall_impl; [|exact G6]. intros a [Ha _]. lens. lia.
  - rewrite E. cbn [bind]. rewrite upd_mid. eexists _, _. split; [reflexivity|]. split; [|reflexivity].
    constructor; cbn [rk_id rk_def rk_media rk_dur]; rewrite ?G1, ?G2, ?G8, ?E2; try assumption.
    + reflexivity.
    + rewrite <- G8. exact G3.
    + eapply stts_total_minv, I.
Qed.
Definition kept_trafs (base : N) (l : list traf) : list (atom mkid) :=
  map (fun t => ALeaf mkid (inr (l_view traf_layout (traf_moved base t)))) (filter (fun t => match f_runs t with [] => false | _ => true end) l).
Lemma merge_trafs_ok D d p q pos :
  let base := len D + len p in len (D ++ p ++ d ++ q) < 2147483648 ->
  forall X ys, Forall (building D d) X -> Forall2 ready X ys -> forall done prev,
  NoDup (map rk_id done ++ map (fun x => rk_id (x_k x)) X) ->
  exists K, merge_trafs pos (done ++ map x_k X) prev (kept_trafs base ys) = Ok (done ++ K) /\
    Forall2 (fun x k' => linked (D ++ p ++ d ++ q) (x_w' x) k' (x_t' x) /\ rk_id k' = rk_id (x_k x)) X K.
Proof.
  intros base Hb X ys HX HY. induction HY as [|x y X ys Y _ IH]; intros done prev ND.
  - exists []. unfold kept_trafs. cbn [filter map merge_trafs]. rewrite app_nil_r. split; [reflexivity|constructor].
  - inversion HX as [|? ? B HX']; subst. cbn [map] in ND. unfold kept_trafs. cbn [filter map].
    assert (NDX : forall k', rk_id k' = rk_id (x_k x) -> NoDup (map rk_id (done ++ [k']) ++ map (fun x => rk_id (x_k x)) X)).
    { intros k' E. rewrite map_app, <- app_assoc. cbn [map app]. rewrite E. exact ND. }
    destruct (f_runs y) as [|r0 rs0] eqn:ER.
    + pose proof (proj1 (y_runs _ _ Y) ER) as EA. destruct (IH HX' (done ++ [x_k x]) prev (NDX _ eq_refl)) as (K & E & F).
      rewrite <- !app_assoc in E. cbn [app] in E. exists (x_k x :: K). split; [exact E|]. constructor; [|exact F].
      split; [|reflexivity]. destruct B as [L G1 G2 G3 G4 G5 G6 G7 G8]. rewrite EA in G8. cbn [grown fold_left] in G8.
      destruct (linked_grow _ (p ++ d ++ q) _ _ _ L).
      constructor; rewrite ?G1, ?G2, ?G8; try assumption. rewrite <- G8. exact G3.
    + assert (HA : x_adds x <> []) by (intros E; apply (y_runs _ _ Y) in E; congruence).
      apply NoDup_remove in ND as ND'. destruct ND' as [_ NI].
      destruct (merge_traf_ok D d p q x y done (map x_k X) pos prev B Y HA Hb) as (P & k' & e & E & Lk & Ek).
      { intros I. apply NI, in_or_app. left. exact I. }
      change (len D + len p) with base in P, E. cbn [map merge_trafs]. rewrite P. rewrite E. cbn [bind fst snd].
      destruct (IH HX' (done ++ [k']) e (NDX _ Ek)) as (K & F1 & F2).
      rewrite <- !app_assoc in F1. cbn [app] in F1. exists (k' :: K). split; [exact F1|]. constructor; [|exact F2]. split; [exact Lk|exact Ek].
Qed.

(* ------------------------------------------------------------------ *)
(* writing                                                              *)

Lemma mapm_ready D d X : Forall (building D d) X -> exists ys, mapm traf_ready (map (fun x => (x_w' x, x_f x)) X) = Ok ys /\ Forall2 ready X ys.
Proof.
  induction 1 as [|x X B _ (ys & E & F)]; [exists []; split; [reflexivity|constructor]|].
  destruct (traf_ready_ok D d x B) as (y & E1 & Y). exists (y :: ys). cbn [map mapm]. rewrite E1. cbn [bind]. rewrite E. split; [reflexivity|].
  constructor; assumption.
Qed.
Definition moof_of (seq base : N) (ys : list traf) : moof :=
  mkMoof (Some (mkMfhd 0 0 seq)) (map (fun t => ALeaf mkid (inr (traf_moved base t))) ys).
Lemma trafs_moved seq base ys : trafs_of (moof_of seq base ys) =
  map (traf_moved base) (filter (fun t => match f_runs t with [] => false | _ => true end) ys).
Proof.
  unfold trafs_of, moof_of. cbn [mo_list]. rewrite flat_map_map. induction ys as [|y ys IH]; [reflexivity|].
  cbn [flat_map filter traf_moved f_runs]. destruct (f_runs y); cbn [app map]; [exact IH|]. f_equal. exact IH.
Qed.
Lemma moof_ok X ys seq base : Forall2 ready X ys -> seq < 4294967296 -> base < 18446744073709551616 -> l_ok moof_layout (moof_of seq base ys).
Proof.
  intros F Hs Hb. split; cbn [moof_of mo_hdr mo_list olist].
  - constructor; [|constructor]. unfold mfhd_layout, full_ok. cbn [l_ok mf_ver mf_flags mf_sequence]. lia.
  - rewrite Forall_map. induction F as [|x y X ys Y _ IH]; constructor; [|exact IH]. eexists. split; [reflexivity|]. apply (y_ok _ _ Y), Hb.
Qed.
Lemma moof_len X ys seq base : Forall2 ready X ys ->
  len (l_body moof_layout (moof_of seq base ys)) = len (l_body moof_layout (moof_of seq 0 ys)) /\
  len (l_body moof_layout (moof_of seq base ys)) <= 16 + 64 * len X + cost X.
Proof.
  intros F. unfold moof_layout. cbn [l_body]. rewrite !trafs_moved. cbn [moof_of mo_hdr olist]. unfold boxes_of. cbn [flat_map]. lens.
  rewrite !len_box. change (len (l_body mfhd_layout (mkMfhd 0 0 seq))) with 8. change (len (@nil N)) with 0. rewrite !flat_map_map.
  remember (filter (fun t => match f_runs t with [] => false | _ => true end) ys) as zs eqn:Ez.
  split.
  - f_equal. clear. induction zs as [|z zs IH]; [reflexivity|]. cbn [flat_map]. lens. rewrite !len_box, !moved_len, IH. reflexivity.
  - assert (len (flat_map (fun x => box (code "traf") (l_body traf_layout (traf_moved base x))) zs) <= 64 * len X + cost X); [|lia].
    subst zs. induction F as [|x y X ys Y _ IH]; [unfold len; cbn; lia|]. cbn [filter cost fold_right]. fold (cost X). lens.
    pose proof (y_short _ _ Y). destruct (f_runs y); [lia|]. cbn [flat_map]. lens. rewrite len_box, moved_len. lia.
Qed.
Lemma tkid_faithful : faithful tkid_codec (lsum moof_layout mdat_layout).
Proof. apply faithful_sum; [exact moof_faithful|exact (exact_faithful _ _ mdat_exact)|]. intros t _. reflexivity. Qed.

Lemma frag_put_ok seq D X d ws :
  Forall (building D (md_data d)) X -> bytes (md_data d) -> seq < 4294967296 -> D <> [] ->
  len D + 32 + 64 * len X + cost X + len (md_data d) < 2147483648 ->
  ws = map (fun x => (x_w' x, x_f x)) X ->
  exists h m ys base, frag_put seq D (mkFrag ws d) = Ok (D ++ h ++ (if len (md_data d) =? 0 then [] else box T_mdat (md_data d))) /\
    h <> [] /\
    (forall rest, read_box tkid_codec (inr mdat_new) (h ++ rest) = Ok ((ALeaf tkid (inl m), len h), rest)) /\
    mo_hdr m = Some (mkMfhd 0 0 seq) /\ mo_list m = kept_trafs base ys /\ Forall2 ready X ys /\
    base = len D + len h + 8 /\ len h <= 24 + 64 * len X + cost X.
Proof.
  intros HX Hby Hs HD Hsz ->. destruct (mapm_ready _ _ _ HX) as (ys & E & F).
  destruct (moof_len X ys seq 0 F) as [_ Hl0].
  assert (O0 : l_ok moof_layout (moof_of seq 0 ys)) by (eapply moof_ok; [exact F|exact Hs|lia]).
  pose proof (faithful_round_trip _ _ _ moof_faithful O0 ltac:(lia)) as (S0 & _). rewrite len_box in S0.
  remember (len D + 8 + len (l_body moof_layout (moof_of seq 0 ys)) + 8) as base eqn:Eb.
  assert (O1 : l_ok moof_layout (moof_of seq base ys)) by (eapply moof_ok; [exact F|exact Hs|lia]).
  destruct (moof_len X ys seq base F) as [Hl1 Hl2].
  pose proof (faithful_round_trip _ _ _ moof_faithful O1 ltac:(lia)) as (_ & W1 & _).
  pose proof (faithful_round_trip _ _ (inl (moof_of seq base ys)) tkid_faithful O1 ltac:(cbn [lsum l_body]; lia)) as (_ & _ & R1 & _).
  cbn [lsum l_ty l_body l_view] in R1. remember (box (l_ty moof_layout (moof_of seq base ys)) (l_body moof_layout (moof_of seq base ys))) as h eqn:Eh.
  assert (Lh : len h = 8 + len (l_body moof_layout (moof_of seq base ys))) by (subst h; apply len_box).
  exists h, (l_view moof_layout (moof_of seq base ys)), ys, base.
  split; [|split; [|split; [|split; [|split; [|split; [|split]]]]]].
  - unfold frag_put. cbn [g_trks g_data]. rewrite E. cbn [bind]. cbv zeta.
    assert (Z : map (fun t => ALeaf mkid (inr t)) ys = map (fun t => ALeaf mkid (inr (traf_moved 0 t))) ys).
    { clear -F. induction F as [|x y X ys Y _ IH]; [reflexivity|]. cbn [map]. rewrite (y_zero _ _ Y), IH. reflexivity. }
    rewrite Z. fold (moof_of seq 0 ys). rewrite S0. cbn [mo_hdr moof_of].
    rewrite w32_small by lia. rewrite s32_small by lia.
    replace (u64_of (Z.of_N (len D + (8 + len (l_body moof_layout (moof_of seq 0 ys))) + 8))) with base by (unfold u64_of; lia).
    fold (moof_of seq base ys). rewrite W1. cbn [bind]. unfold mdat_serialize. destruct (N.eqb_spec (len (md_data d)) 0) as [Ed|Ed].
    + unfold mdat_size. rewrite Ed. reflexivity.
    + destruct (C38_box_round_trip d) as (_ & M & _); [split; [exact Hby|lia]|]. unfold mdat_serialize in M. rewrite M. reflexivity.
  - intros ->. unfold len in Lh at 1. cbn in Lh. lia.
  - intros rest. apply R1.
  - reflexivity.
  - cbn [l_view moof_layout mo_list]. rewrite trafs_moved. unfold kept_trafs. rewrite map_map. reflexivity.
  - exact F.
  - lia.
  - lia.
Qed.

(* ------------------------------------------------------------------ *)
(* all fragments                                                        *)

Definition trip := (wtrk * rtrk * track)%type.
Definition p_w (l : trip) : wtrk := fst (fst l).
Definition p_k (l : trip) : rtrk := snd (fst l).
Definition p_t (l : trip) : track := snd l.
Definition started (l : trip) : st := mkSt (p_w l) (p_k l) (p_t l) (p_w l) (traf_start (p_w l)) (p_t l) [].
Lemma started_building D l : linked D (p_w l) (p_k l) (p_t l) -> building D [] (started l).
Proof.
  intros L. constructor; unfold started; cbn [x_w x_k x_t x_w' x_f x_t' x_adds]; try reflexivity; try assumption.
  - exact (n_time _ _ _ _ L).
  - constructor.
  - constructor.
Qed.
Lemma fops_bytes os : forall ts, fops_ok ts os -> bytes (fdata os).
Proof.
  induction os as [|[[i ss] b] os IH]; intros ts H; [constructor|]. cbn [fops_ok fdata flat_map fst snd] in *. destruct H as [H1 H2].
  unfold bytes. apply Forall_app. split; [|eapply IH, H2]. destruct H1 as (t & _ & _ & _ & _ & _ & _ & B & _). exact B.
Qed.
Lemma cost_started L : cost (map started L) = 0.
Proof. induction L as [|l L IH]; [reflexivity|]. cbn [map cost fold_right]. fold (cost (map started L)). rewrite IH. reflexivity. Qed.
Lemma Forall2_triples D' X K : Forall2 (fun x k' => linked D' (x_w' x) k' (x_t' x) /\ rk_id k' = rk_id (x_k x)) X K ->
  exists L, map p_w L = map x_w' X /\ map p_k L = K /\ map p_t L = map x_t' X /\ Forall (fun l => linked D' (p_w l) (p_k l) (p_t l)) L /\
    map rk_id K = map rk_id (map x_k X) /\ len L = len X.
Proof.
  induction 1 as [|x k X K [H1 H2] _ (L & A & B & C & E & F & G)]; [exists []; repeat split; constructor|].
  exists ((x_w' x, k, x_t' x) :: L). cbn [map]. unfold p_w at 1, p_k at 1, p_t at 1. cbn [fst snd].
  rewrite A, B, C, F, H2. split; [reflexivity|]. split; [reflexivity|]. split; [reflexivity|].
  split; [constructor; [exact H1|exact E]|]. split; [reflexivity|]. unfold len in *. cbn [length]. lia.
Qed.
Lemma read_mdat d rest : bytes d -> 0 < len d < 2147483648 ->
  read_box tkid_codec (inr mdat_new) (box T_mdat d ++ rest) = Ok ((ALeaf tkid (inr (mkMdat d (len d))), 8 + len d), rest).
Proof.
  intros B H. pose proof (faithful_round_trip _ _ (inr (mkMdat d 0)) tkid_faithful) as R. cbn [lsum l_ok l_body] in R.
  destruct R as (_ & _ & R & _); [split; [exact B|exact H]|cbn [mdat_layout l_body md_data]; lia|].
  cbn [lsum l_ty l_body l_view mdat_layout md_data] in R. rewrite len_box in R. apply R.
Qed.
Lemma box_ne t d : box t d <> [].
Proof. intros E. apply (f_equal (@len N)) in E. rewrite len_box in E. change (len (@nil N)) with 0 in E. lia. Qed.
Lemma parse_step f pos i x n rest : i <> [] -> read_box tkid_codec (inr mdat_new) i = Ok ((x, n), rest) ->
  parse_frags (S f) pos i = do l <- parse_frags f (pos + n) rest; Ok (match x with ALeaf _ (inl m) => (pos, m) :: l | _ => l end).
Proof. intros H E. cbn [parse_frags]. destruct i as [|b i]; [congruence|]. rewrite E. reflexivity. Qed.

Lemma frags_whole signed : forall fs seq D L,
  Forall (fun l => linked D (p_w l) (p_k l) (p_t l)) L -> NoDup (map rk_id (map p_k L)) -> frags_ok (map p_t L) fs ->
  seq + len fs < 4294967296 -> D <> [] -> len D + frags_cost (len L) fs < 2147483648 ->
  exists F l K, frags_put signed seq D (map p_w L) (map calls fs) = Ok (D ++ F) /\
    (forall fuel, (length F < fuel)%nat -> parse_frags fuel (len D) F = Ok l) /\
    (forall last, match last with Some s => s < seq | None => True end -> merge_moofs last (map p_k L) l = Ok K) /\
    Forall2 (fun k t => exists w, linked (D ++ F) w k t) K (frags_end (map p_t L) fs) /\
    len F <= frags_cost (len L) fs.
Proof.
  induction fs as [|os fs IH]; intros seq D L HL ND Hok Hseq HD Hsz.
  - exists [], [], (map p_k L). cbn [map frags_put frags_end fold_left]. rewrite app_nil_r. split; [reflexivity|].
    split; [intros [|fuel]; [lia|reflexivity]|]. split; [reflexivity|].
    split; [|unfold len; cbn; lia]. clear -HL. induction HL as [|l L H _ IH]; cbn [map]; constructor; [exists (p_w l); exact H|exact IH].
  - cbn [frags_ok] in Hok. destruct Hok as (Ho & Hne & Hok). cbn [frags_cost fold_right] in Hsz. fold (frags_cost (len L) fs) in Hsz.
    unfold frag_cost in Hsz. lens.
    assert (B0 : Forall (building D (md_data mdat_new)) (map started L)).
    { rewrite Forall_map. eapply Forall_impl; [|exact HL]. intros l. apply started_building. }
    assert (T0 : map x_t' (map started L) = map p_t L) by (rewrite map_map; reflexivity).
    assert (AD : exists X d, frag_adds signed (frag_start (map p_w L)) (calls os) = Ok (mkFrag (map (fun x => (x_w' x, x_f x)) X) d) /\
      Forall (building D (md_data d)) X /\ same_start (map started L) X /\ map x_t' X = fold_left fgrow os (map p_t L) /\
      cost X = fold_right (fun o a => 24 + 16 * len (snd (fst o)) + a) 0 os /\ md_data d = fdata os /\
      (os = [] -> Forall (fun x => x_adds x = []) X)).
    { assert (E0 : frag_start (map p_w L) = mkFrag (map (fun x => (x_w' x, x_f x)) (map started L)) mdat_new).
      { unfold frag_start. rewrite !map_map. reflexivity. }
      rewrite E0. destruct os as [|o os'].
      - exists (map started L), mdat_new. split; [reflexivity|]. split; [exact B0|]. split; [repeat split|]. split; [exact T0|].
        split; [apply cost_started|]. split; [reflexivity|]. intros _. rewrite Forall_map. apply Forall_forall. reflexivity.
      - destruct (frag_adds_ok signed D (o :: os') (map started L) mdat_new B0) as (X & d & E & B & S & T & C & M).
        { rewrite T0. exact Ho. }
        { change (len (md_data mdat_new)) with 0. lia. }
        exists X, d. rewrite T0 in T. rewrite cost_started in C. split; [exact E|]. split; [exact B|]. split; [exact S|]. split; [exact T|].
        split; [exact C|]. split; [exact M|]. discriminate. }
    destruct AD as (X & d & E & B & (S1 & S2 & S3) & T & C & M & Hnil).
    assert (LX : len X = len L) by (apply (f_equal (@len _)) in S1; rewrite !len_map in S1; exact S1).
    assert (By : bytes (md_data d)) by (rewrite M; eapply fops_bytes, Ho).
    destruct (frag_put_ok seq D X d _ B By ltac:(lia) HD ltac:(rewrite LX, M, C; lia) eq_refl) as (h & m & ys & base & P & Hh & Rh & Mh & Ml & Y & Eb & Lh).
    remember (if len (md_data d) =? 0 then [] else box T_mdat (md_data d)) as md eqn:Emd.
    assert (Lm : len md <= 8 + len (md_data d)) by (subst md; destruct (len (md_data d) =? 0); [unfold len; cbn; lia|rewrite len_box; lia]).
    assert (KX : map x_k X = map p_k L) by (rewrite S2, map_map; reflexivity).
    assert (J : exists K, merge_trafs (len D) (map p_k L) (len D) (mo_list m) = Ok K /\
       Forall2 (fun x k' => linked (D ++ h ++ md) (x_w' x) k' (x_t' x) /\ rk_id k' = rk_id (x_k x)) X K).
    { rewrite Ml, <- KX. destruct (N.eqb_spec (len (md_data d)) 0) as [Ed|Ed].
      - assert (Eo : os = []).
        { destruct os as [|o os]; [reflexivity|]. exfalso. apply Hne; [discriminate|]. rewrite <- M. destruct (md_data d); [reflexivity|]. lens. lia. }
        specialize (Hnil Eo). exists (map x_k X). split.
        + assert (Ey : kept_trafs base ys = []).
          { clear -Y Hnil. induction Y as [|x y X ys Y _ IH]; [reflexivity|]. inversion Hnil; subst. unfold kept_trafs in *. cbn [filter].
            rewrite (proj2 (y_runs _ _ Y)) by assumption. apply IH. assumption. }
          rewrite Ey. reflexivity.
        + clear -B Hnil. induction B as [|x X [L G1 G2 G3 G4 G5 G6 G7 G8] _ IH]; [constructor|]. inversion Hnil as [|? ? EA Hn]; subst. cbn [map].
          constructor; [|apply IH, Hn]. split; [|reflexivity]. rewrite EA in G8. cbn [grown fold_left] in G8.
          destruct (linked_grow _ (h ++ md) _ _ _ L).
          constructor; rewrite ?G1, ?G2, ?G8; try assumption. rewrite <- G8. exact G3.
      - destruct (merge_trafs_ok D (md_data d) (h ++ be32 (8 + len (md_data d)) ++ be32 T_mdat) [] (len D)) with (X := X) (ys := ys) (done := @nil rtrk) (prev := len D)
          as (K & K1 & K2); try assumption.
        + lens. rewrite M, C in *. lia.
        + cbn [map app]. rewrite <- (map_map x_k rk_id), KX. exact ND.
        + exists K. cbn [app] in K1. split.
          * rewrite <- K1. do 2 f_equal. rewrite Eb. lens. lia.
          * assert (Em : D ++ (h ++ be32 (8 + len (md_data d)) ++ be32 T_mdat) ++ md_data d ++ [] = D ++ h ++ md).
            { subst md. unfold box. rewrite app_nil_r, <- !app_assoc. reflexivity. }
            rewrite Em in K2. exact K2. }
    destruct J as (K & K1 & K2). destruct (Forall2_triples _ _ _ K2) as (L' & A1 & A2 & A3 & A4 & A5 & A6).
    assert (LD : len (D ++ h ++ md) <= len D + frag_cost (len L) os).
    { unfold frag_cost. lens. rewrite LX in Lh. rewrite M in Lm. rewrite C in Lh. lia. }
    destruct (IH (seq + 1) (D ++ h ++ md) L' A4) as (F & l & K' & F1 & F2 & F3 & F4 & F5).
    { rewrite A2, A5, KX. exact ND. }
    { rewrite A3, T. exact Hok. }
    { lia. }
    { destruct D; [congruence|discriminate]. }
    { rewrite A6, LX. unfold frag_cost in LD. lia. }
    rewrite <- !app_assoc in *. rewrite A1 in F1. rewrite A2 in F3. rewrite A3, T in F4. rewrite A6, LX in F5.
    exists (h ++ md ++ F), ((len D, m) :: l), K'.
    split; [|split; [|split; [|split]]].
    + cbn [map frags_put]. rewrite E. cbn [bind]. rewrite P. cbn [bind g_trks]. rewrite map_map. cbn [fst].
      rewrite w32_small by lia. exact F1.
    + intros fuel Hf. rewrite !app_length in Hf. destruct fuel as [|fuel]; [lia|].
      rewrite (parse_step fuel (len D) _ (ALeaf tkid (inl m)) (len h) (md ++ F)); [|destruct h; [congruence|discriminate]|apply Rh].
      destruct h as [|h0 h']; [congruence|]. cbn [length] in Hf.
      assert (G : parse_frags fuel (len D + len (h0 :: h')) (md ++ F) = Ok l).
      { subst md. destruct (N.eqb_spec (len (md_data d)) 0) as [Ed|Ed].
        - cbn [app length] in *. rewrite app_nil_r in F2. rewrite <- (F2 fuel) by lia. f_equal. lens. lia.
        - remember (box T_mdat (md_data d)) as bx eqn:Ebx. assert (Lb : length bx <> 0%nat).
          { intros Z. destruct bx; [symmetry in Ebx; apply box_ne in Ebx; exact Ebx|discriminate]. }
          destruct fuel as [|fuel]; [lia|].
          rewrite (parse_step fuel _ _ (ALeaf tkid (inr (mkMdat (md_data d) (len (md_data d))))) (8 + len (md_data d)) F).
          + replace (len D + len (h0 :: h') + (8 + len (md_data d))) with (len (D ++ (h0 :: h') ++ bx)) by (subst bx; lens; rewrite len_box; lia).
            rewrite F2 by lia. reflexivity.
          + destruct bx; [contradiction Lb; reflexivity|discriminate].
          + subst bx. apply read_mdat; [exact By|]. lens. rewrite M, C in *. lia. }
      rewrite G. reflexivity.
    + intros last Hlast. cbn [merge_moofs]. rewrite Mh. cbn [mf_sequence].
      replace (match last with Some s => seq <=? s | None => false end) with false by (destruct last; [symmetry; apply N.leb_gt; exact Hlast|reflexivity]).
      rewrite K1. cbn [bind]. apply F3. lia.
    + cbn [frags_end fold_left]. exact F4.
    + cbn [frags_cost fold_right]. fold (frags_cost (len L) fs). lens. lia.
Qed.

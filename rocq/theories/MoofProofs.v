(* MoofProofs.v -- lemmas for C22 and C23. *)
From Verif Require Import Base Codec AtomModel AtomProofs BoxModel BoxProofs Reads HeaderModel HeaderSpec HeaderProofs
  AuxModel AuxSpec AuxProofs GroupModel GroupSpec GroupProofs CsgpProofs BoxSpec KidsModel KidsProofs
  FragModel FragSpec FragProofs MdatModel MediaSpec MediaModel MediaProofs MoofModel MoofSpec.

Lemma faithful_by {T} (c : codec T) y y' : faithful c y ->
  (forall t, l_ok y' t -> l_ok y t /\ l_ty y' t = l_ty y t /\ l_body y' t = l_body y t /\ l_view y' t = l_view y t) -> faithful c y'.
Proof.
  intros [A B] H. split; intros t Ht; destruct (H t Ht) as (H1 & H2 & H3 & H4).
  - rewrite H4, H2. apply A, H1.
  - rewrite H3, H4. apply B, H1.
Qed.

Definition fkid_layout : layout fkid :=
  lsum tfhd_layout (lsum tfdt_layout (lsum saiz_layout (lsum saio_layout (lsum trun_layout (lsum sgpd_layout sbgp_layout))))).
Lemma fkid_faithful : faithful fkid_codec fkid_layout.
Proof.
  assert (Q : forall t, l_ok sbgp_layout t -> sbgp_kind t = Normal) by (intros t Ht; exact (proj1 Ht)).
  repeat (apply faithful_sum; [apply exact_faithful; first [apply tfhd_exact|apply tfdt_exact|apply saiz_exact|apply saio_exact|apply trun_exact|apply sgpd_exact]| |]);
    try (apply exact_faithful, sbgp_exact);
    intros t; (repeat (destruct t as [t|t]; [reflexivity|])); cbn [lsum l_ok]; intros Ht; try reflexivity;
    cbn [csum c_ty sbgp_codec]; rewrite (Q t Ht); reflexivity.
Qed.

Lemma map_leaf_app {A B C} (f : B -> C) (g : A -> B) l : map f (map g l) = map (fun x => f (g x)) l.
Proof. apply map_map. Qed.
Lemma fold_traf (A : Type) (g : A -> fkid) (h : traf -> list A -> traf) l :
  (forall t x, traf_take t (g x) = h t [x]) -> (forall t x y, h (h t x) y = h t (x ++ y)) -> (forall t, h t [] = t) ->
  forall t, fold_left traf_add (map (ALeaf fkid) (map g l)) t = h t l.
Proof.
  intros H1 H2 H3. induction l as [|x l IH]; intros t; [symmetry; apply H3|].
  cbn [map fold_left]. rewrite IH. cbn [traf_add]. rewrite H1, H2. reflexivity.
Qed.
Lemma traf_of_boxes t : fold_left traf_add (map (ALeaf fkid) (traf_boxes t)) traf_new = t.
Proof.
  unfold traf_boxes. rewrite !map_app, !fold_left_app.
  assert (E : fold_left traf_add (map (ALeaf fkid) (map K_time (olist (f_time t))))
    (fold_left traf_add (map (ALeaf fkid) (map K_hdr (olist (f_hdr t)))) traf_new) = mkTraf (f_hdr t) (f_time t) [] [] [] [] []).
  { destruct (f_hdr t), (f_time t); reflexivity. }
  rewrite E.
  rewrite (fold_traf _ K_saiz (fun t x => mkTraf (f_hdr t) (f_time t) (f_saiz t ++ x) (f_saio t) (f_runs t) (f_sgpd t) (f_sbgp t)));
    [|reflexivity|intros; cbn [f_saiz]; rewrite <- app_assoc; reflexivity|intros []; cbn; rewrite app_nil_r; reflexivity].
  rewrite (fold_traf _ K_saio (fun t x => mkTraf (f_hdr t) (f_time t) (f_saiz t) (f_saio t ++ x) (f_runs t) (f_sgpd t) (f_sbgp t)));
    [|reflexivity|intros; cbn [f_saio]; rewrite <- app_assoc; reflexivity|intros []; cbn; rewrite app_nil_r; reflexivity].
  rewrite (fold_traf _ K_run (fun t x => mkTraf (f_hdr t) (f_time t) (f_saiz t) (f_saio t) (f_runs t ++ x) (f_sgpd t) (f_sbgp t)));
    [|reflexivity|intros; cbn [f_runs]; rewrite <- app_assoc; reflexivity|intros []; cbn; rewrite app_nil_r; reflexivity].
  rewrite (fold_traf _ K_sgpd (fun t x => mkTraf (f_hdr t) (f_time t) (f_saiz t) (f_saio t) (f_runs t) (f_sgpd t ++ x) (f_sbgp t)));
    [|reflexivity|intros; cbn [f_sgpd]; rewrite <- app_assoc; reflexivity|intros []; cbn; rewrite app_nil_r; reflexivity].
  rewrite (fold_traf _ K_sbgp (fun t x => mkTraf (f_hdr t) (f_time t) (f_saiz t) (f_saio t) (f_runs t) (f_sgpd t) (f_sbgp t ++ x)));
    [|reflexivity|intros; cbn [f_sbgp]; rewrite <- app_assoc; reflexivity|intros []; cbn; rewrite app_nil_r; reflexivity].
  cbn [f_hdr f_time f_saiz f_saio f_runs f_sgpd f_sbgp app]. destruct t; reflexivity.
Qed.
Lemma view_boxes t : map (fun x => ALeaf fkid (l_view fkid_layout x)) (traf_boxes t) = map (ALeaf fkid) (traf_boxes (l_view traf_layout t)).
Proof.
  unfold traf_boxes, traf_layout. cbn [l_view f_hdr f_time f_saiz f_saio f_runs f_sgpd f_sbgp].
  rewrite !map_app, !map_map. destruct (f_hdr t), (f_time t); reflexivity.
Qed.
Lemma flat_map_map {A B C} (f : B -> list C) (g : A -> B) l : flat_map f (map g l) = flat_map (fun x => f (g x)) l.
Proof. rewrite flat_map_concat_map, map_map, <- flat_map_concat_map. reflexivity. Qed.
Lemma traf_faithful : faithful traf_codec traf_layout.
Proof.
  eapply faithful_by; [apply boxed_faithful; [exact fkid_faithful|repeat split; try discriminate; reflexivity|intros k; reflexivity]|].
  intros t (H1 & H2 & H3 & H4 & H5 & H6 & H7). cbn [boxed_layout l_ok l_ty l_body l_view].
  split; [|split; [reflexivity|split]].
  - rewrite kid_ok_leaves. unfold traf_boxes. rewrite !Forall_app, !Forall_map. auto 10.
  - rewrite kid_enc_leaves. unfold traf_boxes. rewrite !flat_map_app, !flat_map_map. unfold traf_layout, boxes_of. cbn [l_body].
    do 6 (apply f_equal2; [reflexivity|]). symmetry. apply flat_map_ext_in. intros x Hx. rewrite Forall_forall in H7. specialize (H7 x Hx).
    cbn [fkid_codec csum c_ty K_sbgp sbgp_codec]. rewrite (proj1 H7). reflexivity.
  - rewrite kid_view_leaves, view_boxes, traf_of_boxes. reflexivity.
Qed.

Lemma mkid_faithful : faithful mkid_codec (lsum mfhd_layout traf_layout).
Proof. apply faithful_sum; [apply exact_faithful, mfhd_exact|exact traf_faithful|]. intros t _. reflexivity. Qed.
Definition is_traf (a : atom mkid) : Prop := exists t, a = ALeaf mkid (inr t) /\ l_ok traf_layout t.
Lemma written_list l : Forall is_traf l ->
  filter written_traf l = map (fun t => ALeaf mkid (inr t)) (trafs_of (mkMoof None l)).
Proof.
  unfold trafs_of. cbn [mo_list].
  induction 1 as [|a l (t & -> & Ht) _ IH]; [reflexivity|]. cbn [filter written_traf flat_map map].
  destruct (f_runs t); cbn [app map]; [exact IH|]. f_equal. exact IH.
Qed.
Lemma trafs_ok l : Forall is_traf l -> Forall (fun t => l_ok traf_layout t /\ f_runs t <> []) (trafs_of (mkMoof None l)).
Proof.
  unfold trafs_of. cbn [mo_list]. induction 1 as [|a l (t & -> & Ht) _ IH]; [constructor|]. cbn [flat_map].
  destruct (f_runs t) eqn:E; cbn [app]; [exact IH|]. constructor; [split; [exact Ht|congruence]|exact IH].
Qed.
Lemma moof_faithful : faithful moof_codec moof_layout.
Proof.
  eapply faithful_by; [apply boxed_faithful; [exact mkid_faithful|repeat split; try discriminate; reflexivity|intros k; reflexivity]|].
  intros [h l] [H1 H2]. cbn [mo_hdr mo_list] in *. cbn [boxed_layout l_ok l_ty l_body l_view].
  unfold moof_boxes. cbn [mo_hdr mo_list]. rewrite (written_list l H2). pose proof (trafs_ok l H2) as Hok.
  change (trafs_of (mkMoof None l)) with (trafs_of (mkMoof h l)) in *. remember (trafs_of (mkMoof h l)) as ts eqn:Ets.
  rewrite <- (map_map (fun t : traf => inr t : mkid) (ALeaf mkid)).
  rewrite <- (map_map (fun t : mfhd => inl t : mkid) (ALeaf mkid)). rewrite <- map_app.
  split; [|split; [reflexivity|split]].
  - rewrite kid_ok_leaves, Forall_app, !Forall_map. split; [exact H1|]. eapply Forall_impl; [|exact Hok]. intros t [Ht _]. exact Ht.
  - rewrite kid_enc_leaves, flat_map_app, !flat_map_map. unfold moof_layout, boxes_of. cbn [l_body mo_hdr]. rewrite <- Ets. reflexivity.
  - rewrite kid_view_leaves, map_app, fold_left_app, !map_map. unfold moof_layout. cbn [l_view mo_hdr]. rewrite <- Ets. clear.
    assert (E : fold_left moof_add (map (fun x => ALeaf mkid (l_view (lsum mfhd_layout traf_layout) (inl x))) (olist h)) (mkMoof None []) =
      mkMoof (option_map (l_view mfhd_layout) h) []) by (destruct h; reflexivity).
    etransitivity; [|apply (f_equal (fun m => fold_left moof_add (map (fun x => ALeaf mkid (l_view (lsum mfhd_layout traf_layout) (inr x))) ts) m)); symmetry; exact E].
    clear E. generalize (option_map (l_view mfhd_layout) h) as o. intros o.
    cut (forall acc, fold_left moof_add (map (fun x => ALeaf mkid (l_view (lsum mfhd_layout traf_layout) (inr x))) ts) (mkMoof o acc) =
      mkMoof o (acc ++ map (fun t => ALeaf mkid (inr (l_view traf_layout t))) ts)); [intros C; symmetry; apply (C [])|].
    induction ts as [|t ts IH]; intros acc; cbn [map fold_left]; [rewrite app_nil_r; reflexivity|].
    cbn [moof_add lsum l_view mo_hdr mo_list]. etransitivity; [apply IH|]. rewrite <- app_assoc. reflexivity.
Qed.

(* ------------------------------------------------------------------ *)
(* adding samples                                                       *)

Definition ent (s : smp) : rent := mkRent (m_dur s) (len (m_bytes s)) (if m_sync s then 0 else 65536) (u32_of (m_off s)).
Definition raw (b : mbat) (s : smp) : rent :=
  mkRent (m_dur s) (len (m_bytes s)) (match b_sync b with None => 0 | Some _ => 65536 end) (u32_of (m_off s)).
Lemma pick_per l xs i x : per_sample l xs -> nth_error xs i = Some x -> pick_at l i = Ok x.
Proof.
  intros [->|(y & -> & F)] H; unfold pick_at; [rewrite H; reflexivity|].
  assert (y = x) as -> by (rewrite Forall_forall in F; apply F; eapply nth_error_In; exact H).
  destruct i; [reflexivity|]. cbn [nth_error]. destruct (nth_error [] i) eqn:E; [destruct i; discriminate|reflexivity].
Qed.
Lemma mapm_seq {A} (f : nat -> res A) xs : forall k, (forall i x, nth_error xs i = Some x -> f (k + i)%nat = Ok x) ->
  mapm f (seq k (length xs)) = Ok xs.
Proof.
  induction xs as [|x xs IH]; intros k H; [reflexivity|]. cbn [length seq mapm].
  pose proof (H 0%nat x eq_refl) as H0. rewrite Nat.add_0_r in H0. rewrite H0. cbn [bind]. rewrite IH; [reflexivity|].
  intros i y Hi. specialize (H (S i) y Hi). rewrite <- H. f_equal. lia.
Qed.
Lemma upd_mid {A} (a : list A) x b y : upd (a ++ x :: b) (length a) y = a ++ y :: b.
Proof. induction a as [|z a IH]; [reflexivity|]. cbn [app length upd]. rewrite IH. reflexivity. Qed.
Lemma flip_syncs b l0 : b_sync b = Some l0 -> forall ss a,
  flip_all (map (fun p => N.of_nat (fst p)) (filter (fun p => m_sync (snd p)) (combine (seq (S (length a)) (length ss)) ss)))
    (a ++ map (raw b) ss) = Ok (a ++ map ent ss).
Proof.
  intros Hb. induction ss as [|s ss IH]; intros a; [reflexivity|]. cbn [length seq combine filter snd map].
  replace (a ++ ent s :: map ent ss) with ((a ++ [ent s]) ++ map ent ss) by (rewrite <- app_assoc; reflexivity).
  specialize (IH (a ++ [ent s])). rewrite app_length in IH. cbn [length] in IH. rewrite Nat.add_1_r in IH.
  destruct (m_sync s) eqn:Es.
  - cbn [map fst flip_all]. replace (N.to_nat (N.of_nat (S (length a)) - 1)) with (length a) by lia.
    rewrite nth_error_app2 by lia. rewrite Nat.sub_diag. cbn [nth_error].
    destruct (N.eqb_spec (N.of_nat (S (length a))) 0); [lia|]. rewrite upd_mid.
    replace (flip_sync (raw b s)) with (ent s); [rewrite <- IH, <- app_assoc; reflexivity|].
    unfold flip_sync, raw, ent. cbn [e_dur e_size e_flags e_cto]. rewrite Hb, Es. reflexivity.
  - rewrite <- IH. rewrite <- app_assoc. cbn [app]. f_equal. f_equal. f_equal. unfold raw, ent. rewrite Hb, Es. reflexivity.
Qed.
Lemma frag_run_ok signed off b ss :
  describes b ss -> b_pads b = None -> (forall l, b_offs b = Some l -> len l = len ss) ->
  len ss < 268435455 -> len (flat_map m_bytes ss) < 4294967296 -> off < 4294967296 ->
  exists r, frag_run signed off b = Ok r /\ tr_ents r = map ent ss /\ tr_off r = off /\ run_ok r.
Proof.
  intros [D1 D2 D3 D4 D5 D6 D7 D8 D9] Hp Ho Hn Hby Hoff. unfold frag_run. rewrite Hp, D2, len_nat.
  assert (E : mapm (frag_entry b) (seq 0 (length ss)) = Ok (map (raw b) ss)).
  { rewrite <- (map_length (raw b) ss). apply mapm_seq. intros i e He. cbn [Nat.add].
    rewrite nth_error_map in He. destruct (nth_error ss i) as [s|] eqn:Es; [|discriminate]. injection He as <-.
    unfold frag_entry. rewrite (pick_per _ _ i (m_dur s) D5) by (rewrite nth_error_map, Es; reflexivity). cbn [bind].
    rewrite (pick_per _ _ i (len (m_bytes s)) D4) by (rewrite nth_error_map, Es; reflexivity). cbn [bind].
    unfold raw. destruct (b_offs b) as [l|] eqn:El.
    - assert (l = map (fun s => u32_of (m_off s)) ss) as ->.
      { destruct D6 as [->|(x & -> & F)]; [reflexivity|]. specialize (Ho _ eq_refl).
        destruct ss as [|s0 [|s1 ss]]; cbn in Ho; unfold len in Ho; cbn [length] in Ho; try lia.
        inversion F; subst. reflexivity. }
      rewrite nth_error_map, Es. reflexivity.
    - rewrite Forall_forall in D6. rewrite (D6 s) by (eapply nth_error_In; exact Es). reflexivity. }
  rewrite E. cbn [bind].
  assert (E2 : match b_sync b with None => Ok (map (raw b) ss) | Some l => flip_all l (map (raw b) ss) end = Ok (map ent ss)).
  { destruct (b_sync b) as [l|] eqn:Eb.
    - rewrite D7. apply (flip_syncs b l Eb ss []).
    - f_equal. apply map_ext_in. intros s Hs. rewrite Forall_forall in D7. unfold raw, ent. rewrite Eb, (D7 s Hs). reflexivity. }
  rewrite E2. cbn [bind]. rewrite (w32_small off) by lia. eexists. split; [reflexivity|]. cbn [tr_ents tr_off].
  split; [reflexivity|]. split; [reflexivity|]. split; [destruct signed; reflexivity|]. cbn [tr_off tr_ents]. split; [exact Hoff|].
  split; [apply map_ne; exact D1|]. split; [rewrite len_map; exact Hn|].
  rewrite Forall_map, Forall_forall. intros s Hs. rewrite Forall_forall in D9. destruct (D9 s Hs) as [Hd _].
  unfold rent_ok, ent. cbn [e_dur e_size e_flags e_cto]. split; [lia|]. split.
  - apply in_split in Hs. destruct Hs as (a & c & ->). rewrite flat_map_app in Hby. cbn [flat_map] in Hby. lens. lia.
  - split; [destruct (m_sync s); reflexivity|]. unfold u32_of; lia.
Qed.

(* ------------------------------------------------------------------ *)
(* merging a run                                                        *)

Definition full_bat (s : sref) (ss : list smp) : mbat :=
  mkBat (len (r_durs s)) (flat_map m_bytes ss) (r_durs s) (r_sizes s) None (r_ctos s) (r_sync s) (r_pads s).
Lemma ent_sync s : is_sync (ent s) = m_sync s.
Proof. unfold is_sync, ent. cbn [e_flags]. destruct (m_sync s); reflexivity. Qed.
Lemma ent_pad s : padding (ent s) = 0.
Proof. unfold padding, ent. cbn [e_flags]. destruct (m_sync s); reflexivity. Qed.
Lemma numbers_map {A B} (p : B -> bool) (f : A -> B) l : numbers p (map f l) = numbers (fun x => p (f x)) l.
Proof.
  unfold numbers. rewrite map_length. generalize 1%nat as k. induction l as [|x l IH]; intros k; [reflexivity|].
  cbn [map length seq combine filter snd]. destruct (p (f x)); cbn [map fst]; rewrite IH; reflexivity.
Qed.
Lemma numbers_ext {A} (p q : A -> bool) l : (forall x, p x = q x) -> numbers p l = numbers q l.
Proof. intros H. unfold numbers. f_equal. apply filter_ext. intros x. apply H. Qed.
Lemma off_zero z : (-2147483648 <= z < 2147483648)%Z -> u32_of z = 0 -> z = 0%Z.
Proof. intros H. unfold u32_of. lia. Qed.
Lemma sref_describes s ss :
  ss <> [] -> Forall (fun x => m_dur x < 2147483648 /\ (-2147483648 <= m_off x < 2147483648)%Z) ss -> Forall (fun x => m_pad x = 0) ss ->
  tells s (map ent ss) -> (r_ctos s <> None -> Exists (fun e => e_cto e <> 0) (map ent ss)) ->
  describes (full_bat s ss) ss /\ given_to (r_pads s) = false /\
  given_to (r_ctos s) = existsb (fun s => negb (m_off s =? 0)%Z) ss /\
  (r_sync s = None -> Forall (fun s => m_sync s = true) ss) /\
  (r_ctos s <> None -> Exists (fun s => m_off s <> 0%Z) ss).
Proof.
  intros Hne Hr Hp [T1 T2 T3 T4 T5 T6] Hc.
  assert (P : r_pads s = None).
  { destruct (r_pads s) as [l|]; [|reflexivity]. destruct T5 as [_ T5]. exfalso. rewrite Exists_map in T5.
    apply Exists_exists in T5. destruct T5 as (x & _ & Hx). rewrite ent_pad in Hx. congruence. }
  assert (C : r_ctos s <> None -> Exists (fun s => m_off s <> 0%Z) ss).
  { intros H. specialize (Hc H). rewrite Exists_map in Hc. eapply Exists_impl; [|exact Hc]. cbn beta. intros x Hx E. apply Hx.
    cbn [ent e_cto]. rewrite E. reflexivity. }
  assert (Y : r_sync s = None -> Forall (fun s => m_sync s = true) ss).
  { intros E. rewrite E in T4. rewrite Forall_map in T4. eapply Forall_impl; [|exact T4]. cbn beta. intros x. rewrite ent_sync. auto. }
  assert (Z : r_ctos s = None -> Forall (fun s => m_off s = 0%Z) ss).
  { intros E. rewrite E in T3. rewrite Forall_map in T3. rewrite Forall_forall in *. intros x Hx. apply off_zero; [apply (Hr x Hx)|].
    apply (T3 x Hx). }
  split; [|split; [rewrite P; reflexivity|split; [|split; assumption]]].
  - constructor; cbn [full_bat b_count b_data b_sizes b_durs b_offs b_sync b_pads]; try assumption.
    + rewrite T1, !len_map. reflexivity.
    + reflexivity.
    + left. rewrite T2, map_map. reflexivity.
    + left. rewrite T1, map_map. reflexivity.
    + destruct (r_ctos s) as [l|]; [left; rewrite T3, map_map; reflexivity|apply Z; reflexivity].
    + destruct (r_sync s) as [l|]; [|apply Y; reflexivity]. rewrite (proj1 T4), numbers_map. apply (numbers_ext _ m_sync). intros x. apply ent_sync.
    + rewrite P. exact Hp.
  - destruct (r_ctos s) as [l|]; cbn [given_to]; symmetry.
    + apply existsb_exists. specialize (C ltac:(discriminate)). apply Exists_exists in C. destruct C as (x & I & Hx). exists x. split; [exact I|lia].
    + specialize (Z eq_refl). clear -Z. induction Z as [|x l Hx _ IH]; [reflexivity|]. cbn [existsb]. rewrite IH, Hx. reflexivity.
Qed.

(* one run into the tables *)
Lemma media_ref_ok m D D' t s ss desc off :
  minv m t D -> (forall o g, kept D o g -> kept D' o g) -> kept D' off ss ->
  ss <> [] -> Forall (fun x => m_dur x < 2147483648 /\ (-2147483648 <= m_off x < 2147483648)%Z) ss -> Forall (fun x => m_pad x = 0) ss ->
  tells s (map ent ss) -> (r_ctos s <> None -> Exists (fun e => e_cto e <> 0) (map ent ss)) -> fits t ss ->
  1 <= desc <= len (me_descs m) ->
  duration (t_smps t ++ ss) < 4294967296 -> len (t_smps t ++ ss) < 536870911 ->
  len (flat_map m_bytes (t_smps t ++ ss)) < 4294967296 ->
  exists m', media_ref m desc off (sref_bat s) = Ok m' /\ minv m' (tgrow t ss) D' /\ me_drefs m' = me_drefs m /\ me_descs m' = me_descs m.
Proof.
  intros I Hk1 Hk2 Hne Hr Hp Ht Hc [F1 F2] Hd H1 H2 H3.
  destruct (sref_describes s ss Hne Hr Hp Ht Hc) as (DS & G1 & G2 & G3 & G4).
  pose proof (v_descs _ _ _ I) as Hds.
  assert (Hn : me_descs m <> []) by (intros E; rewrite E in Hd; unfold len in Hd; cbn in Hd; lia).
  destruct (media_put_ok m D D' t ss (full_bat s ss) (me_descs m) off I Hk1 Hk2 DS) as (m' & E & I' & E'); try assumption; try lia.
  { cbn [full_bat b_offs]. intros Ho. apply F2, G4, Ho. }
  { cbn [full_bat b_sync]. intros Ho. apply F1, G3, Ho. }
  unfold media_ref. destruct (N.eqb_spec desc 0); [lia|].
  destruct (nth_error (me_descs m) (N.to_nat (desc - 1))) as [dri|] eqn:En; [|apply nth_error_None in En; unfold len in Hd; lia].
  change (media_put m (me_descs m) off (sref_bat s)) with (media_put m (me_descs m) off (full_bat s ss)). rewrite E. cbn [bind].
  assert (X : 1 <= dri <= me_drefs m) by (rewrite Forall_forall in Hds; apply Hds; eapply nth_error_In; exact En).
  destruct (N.eqb_spec dri 0); [lia|]. destruct (N.ltb_spec (me_drefs m) dri); [lia|]. cbn [orb].
  exists m'. split; [reflexivity|]. split.
  - replace (tgrow t ss) with (tadd t ss (full_bat s ss)); [exact I'|]. unfold tadd, tgrow. cbn [full_bat b_offs b_pads b_entry given_to].
    rewrite G1, G2, !orb_false_r. reflexivity.
  - split; [exact E'|]. unfold media_put in E.
    repeat match type of E with context [bind ?x _] => destruct x; cbn [bind] in E; try discriminate end.
    injection E as <-. reflexivity.
Qed.

(* ------------------------------------------------------------------ *)
(* a fragment under construction                                        *)

Lemma map_upd {A B} (f : A -> B) l i x : map f (upd l i x) = upd (map f l) i (f x).
Proof. revert i; induction l as [|y l IH]; intros [|i]; cbn [upd map]; try reflexivity. rewrite IH. reflexivity. Qed.
Lemma upd_id' {A} (l : list A) i x : nth_error l i = Some x -> upd l i x = l.
Proof. revert i; induction l as [|y l IH]; intros [|i] H; try discriminate; cbn [upd nth_error] in *; [congruence|f_equal; auto]. Qed.
Lemma Forall_upd {A} (P : A -> Prop) l i x : Forall P l -> P x -> Forall P (upd l i x).
Proof. intros H; revert i; induction H; intros [|i] Hx; cbn [upd]; constructor; auto. Qed.

(* what is known of an addition to a track *)
Record run_fits (t : track) (ss : list smp) : Prop := {
  a_some : ss <> [];
  a_range : Forall (fun x => m_dur x < 2147483648 /\ (-2147483648 <= m_off x < 2147483648)%Z) ss;
  a_pad : Forall (fun x => m_pad x = 0) ss;
  a_fits : fits t ss;
  a_dur : duration (t_smps t ++ ss) < 4294967296;
  a_len : len (t_smps t ++ ss) < 536870911;
  a_bytes : len (flat_map m_bytes (t_smps t ++ ss)) < 4294967296 }.
Fixpoint chain (t : track) (A : list (N * list smp)) : Prop :=
  match A with [] => True | a :: r => run_fits t (snd a) /\ chain (tgrow t (snd a)) r end.
Definition grown (t : track) (A : list (N * list smp)) : track := fold_left (fun t a => tgrow t (snd a)) A t.
Lemma chain_snoc A : forall t a, chain t A -> run_fits (grown t A) (snd a) -> chain t (A ++ [a]).
Proof. induction A as [|x A IH]; intros t a H Ha; cbn [app chain] in *; [auto|]. destruct H as [H1 H2]. split; [exact H1|]. apply IH; assumption. Qed.
Lemma grown_snoc A t a : grown t (A ++ [a]) = tgrow (grown t A) (snd a).
Proof. unfold grown. rewrite fold_left_app. reflexivity. Qed.

(* a track: as it is before the fragment, for the writer and the reader, and
   now; [x_adds]: where the samples are in the data of the fragment *)
Record st := mkSt { x_w : wtrk; x_k : rtrk; x_t : track; x_w' : wtrk; x_f : traf; x_t' : track; x_adds : list (N * list smp) }.
Record linked (D : list N) (w : wtrk) (k : rtrk) (t : track) : Prop := {
  n_id : wk_id w = rk_id k; n_idr : wk_id w < 4294967296; n_def : wk_def w = rk_def k;
  n_desc : 1 <= df_desc (wk_def w) <= len (me_descs (rk_media k)); n_descr : df_desc (wk_def w) < 4294967296;
  n_time : wk_time w = duration (t_smps t); n_dur : rk_dur k = duration (t_smps t);
  n_minv : minv (rk_media k) t D }.
Record building (D d : list N) (x : st) : Prop := {
  g_link : linked D (x_w x) (x_k x) (x_t x);
  g_id : wk_id (x_w' x) = wk_id (x_w x); g_def : wk_def (x_w' x) = wk_def (x_w x);
  g_time : wk_time (x_w' x) = duration (t_smps (x_t' x));
  g_traf : x_f x = mkTraf (f_hdr (traf_start (x_w x))) (f_time (traf_start (x_w x))) [] [] (f_runs (x_f x)) [] [];
  g_runs : Forall2 (fun r a => run_ok r /\ tr_ents r = map ent (snd a) /\ tr_off r = fst a) (f_runs (x_f x)) (x_adds x);
  g_kept : Forall (fun a => kept d (fst a) (snd a)) (x_adds x);
  g_chain : chain (x_t x) (x_adds x);
  g_now : x_t' x = grown (x_t x) (x_adds x) }.
Definition x_cost (x : st) : N := fold_right (fun a n => 24 + 16 * len (snd a) + n) 0 (x_adds x).
Definition cost (X : list st) : N := fold_right (fun x n => x_cost x + n) 0 X.
Definition same_start (X Y : list st) : Prop := map x_w Y = map x_w X /\ map x_k Y = map x_k X /\ map x_t Y = map x_t X.

Lemma building_grow D d e x : building D d x -> building D (d ++ e) x.
Proof. intros []. constructor; try assumption. eapply Forall_impl; [|exact g_kept0]. intros a. apply kept_grow. Qed.
Lemma x_cost_snoc x x' a : x_adds x' = x_adds x ++ [a] -> x_cost x' = x_cost x + (24 + 16 * len (snd a)).
Proof.
  unfold x_cost. intros ->. rewrite fold_right_app. cbn [fold_right].
  cut (forall l n, fold_right (fun (a : N * list smp) n => 24 + 16 * len (snd a) + n) n l = fold_right (fun (a : N * list smp) n => 24 + 16 * len (snd a) + n) 0 l + n).
  { intros C. rewrite C. lia. }
  induction l as [|y l IH]; intros n; cbn [fold_right]; [lia|]. rewrite IH. lia.
Qed.
Lemma cost_upd X i x x' c : nth_error X i = Some x -> x_cost x' = x_cost x + c -> cost (upd X i x') = cost X + c.
Proof.
  revert i; induction X as [|y X IH]; intros [|i] H E; try discriminate; cbn [nth_error upd cost fold_right] in *.
  - injection H as ->. lia.
  - specialize (IH i H E). unfold cost in IH. lia.
Qed.
Lemma fold_times ss : forall acc, acc + duration ss < 4294967296 ->
  fold_left (fun a e => w32 (a + e_dur e)) (map ent ss) acc = acc + duration ss.
Proof.
  induction ss as [|s ss IH]; intros acc H; cbn [map fold_left duration fold_right ent e_dur] in *; [lia|].
  fold (duration ss) in *. rewrite w32_small by lia. rewrite IH by lia. lia.
Qed.
Lemma duration_app a b : duration (a ++ b) = duration a + duration b.
Proof. induction a as [|s a IH]; [reflexivity|]. cbn [app duration fold_right]. fold (duration a) (duration (a ++ b)). lia. Qed.

Lemma frag_add_ok signed D X d i ss b :
  Forall (building D (md_data d)) X -> fop_ok (map x_t' X) (i, ss, b) ->
  len (md_data d) + len (flat_map m_bytes ss) < 2147483648 ->
  exists Y d', frag_add signed (mkFrag (map (fun x => (x_w' x, x_f x)) X) d) i b = Ok (mkFrag (map (fun x => (x_w' x, x_f x)) Y) d') /\
    Forall (building D (md_data d')) Y /\ same_start X Y /\ map x_t' Y = fgrow (map x_t' X) (i, ss, b) /\
    cost Y = cost X + (24 + 16 * len ss) /\ md_data d' = md_data d ++ flat_map m_bytes ss.
Proof.
  intros HX (t & Ht & DS & He & Hp & Hof & Hfit & Hby & Hn & H1 & H2 & H3) Hd.
  rewrite nth_error_map in Ht. destruct (nth_error X i) as [x|] eqn:Ex; [|discriminate]. cbn [option_map] in Ht. injection Ht as <-.
  unfold frag_add. cbn [g_trks g_data]. rewrite nth_error_map, Ex. cbn [option_map]. rewrite He.
  destruct (frag_run_ok signed (len (md_data d)) b ss DS Hp Hof Hn ltac:(lia) ltac:(lia)) as (r & R1 & R2 & R3 & R4).
  rewrite R1. cbn [bind]. rewrite (d_data _ _ DS).
  destruct (mdat_add_ok d (flat_map m_bytes ss)) as (d' & M1 & M2); [lia|]. rewrite M1. cbn [bind].
  assert (Bx : building D (md_data d) x) by (rewrite Forall_forall in HX; apply HX; eapply nth_error_In; exact Ex).
  remember (mkSt (x_w x) (x_k x) (x_t x)
    (mkWtrk (wk_id (x_w' x)) (wk_def (x_w' x)) (fold_left (fun a e => w32 (a + e_dur e)) (tr_ents r) (wk_time (x_w' x))))
    (add_run_to (x_f x) r) (tgrow (x_t' x) ss) (x_adds x ++ [(len (md_data d), ss)])) as y eqn:Ey.
  assert (By : building D (md_data d') y).
  { rewrite M2. pose proof (building_grow _ _ (flat_map m_bytes ss) _ Bx) as B. destruct B. subst y.
    constructor; cbn [x_w x_k x_t x_w' x_f x_t' x_adds wk_id wk_def wk_time]; try assumption.
    - rewrite R2, g_time0. cbn [tgrow t_smps]. rewrite fold_times by (rewrite duration_app in H1; lia). symmetry. apply duration_app.
    - rewrite g_traf0 at 1. unfold add_run_to. cbn [f_hdr f_time f_saiz f_saio f_runs f_sgpd f_sbgp].
      rewrite g_traf0 at 1 2. reflexivity.
    - cbn [add_run_to f_runs]. apply Forall2_app; [exact g_runs0|]. constructor; [auto|constructor].
    - apply Forall_app. split; [exact g_kept0|]. constructor; [|constructor]. cbn [fst snd]. split; [lens; lia|]. apply slice_end.
    - apply chain_snoc; [exact g_chain0|]. rewrite <- g_now0. cbn [snd].
      pose proof (d_pads _ _ DS) as P. rewrite Hp in P. constructor; try assumption; [apply (d_some _ _ DS)|apply (d_range _ _ DS)].
    - rewrite grown_snoc, <- g_now0. reflexivity. }
  exists (upd X i y), d'. split; [|split; [|split; [|split; [|split]]]].
  - f_equal. f_equal. rewrite map_upd. f_equal. subst y. reflexivity.
  - apply Forall_upd; [|exact By]. rewrite M2. eapply Forall_impl; [|exact HX]. intros z. apply building_grow.
  - split; [|split]; rewrite map_upd; apply upd_id'; rewrite nth_error_map, Ex; subst y; reflexivity.
  - rewrite map_upd. unfold fgrow. cbn [fst snd]. rewrite nth_error_map, Ex. cbn [option_map]. subst y. reflexivity.
  - apply (cost_upd _ _ x); [exact Ex|]. apply (x_cost_snoc x y (len (md_data d), ss)). subst y. reflexivity.
  - exact M2.
Qed.
Lemma frag_adds_ok signed D os : forall X d,
  Forall (building D (md_data d)) X -> fops_ok (map x_t' X) os -> len (md_data d) + len (fdata os) < 2147483648 ->
  exists Y d', frag_adds signed (mkFrag (map (fun x => (x_w' x, x_f x)) X) d) (calls os) = Ok (mkFrag (map (fun x => (x_w' x, x_f x)) Y) d') /\
    Forall (building D (md_data d')) Y /\ same_start X Y /\ map x_t' Y = fold_left fgrow os (map x_t' X) /\
    cost Y = cost X + fold_right (fun o a => 24 + 16 * len (snd (fst o)) + a) 0 os /\ md_data d' = md_data d ++ fdata os.
Proof.
  induction os as [|[[i ss] b] os IH]; intros X d HX Ho Hd.
  - exists X, d. cbn [calls map frag_adds fold_left fold_right fdata flat_map]. rewrite app_nil_r. split; [reflexivity|]. split; [exact HX|].
    split; [repeat split|]. split; [reflexivity|]. split; [lia|reflexivity].
  - cbn [fops_ok] in Ho. destruct Ho as [H1 H2]. cbn [fdata flat_map fst snd] in Hd. fold (fdata os) in Hd. lens.
    destruct (frag_add_ok signed D X d i ss b HX H1 ltac:(lia)) as (Y & d1 & E1 & B1 & S1 & T1 & C1 & M1).
    rewrite <- T1 in H2. destruct (IH Y d1 B1 H2) as (Z & d2 & E2 & B2 & S2 & T2 & C2 & M2); [rewrite M1; lens; lia|].
    exists Z, d2. cbn [calls map fst snd frag_adds]. fold (calls os). rewrite E1. cbn [bind]. split; [exact E2|]. split; [exact B2|].
    split; [destruct S1 as (? & ? & ?), S2 as (? & ? & ?); repeat split; congruence|].
    split; [cbn [fold_left]; rewrite <- T1; exact T2|].
    split; [rewrite C2, C1; cbn [fold_right fst snd]; lia|].
    rewrite M2, M1, <- app_assoc. reflexivity.
Qed.

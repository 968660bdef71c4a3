(* EditReadProofs.v -- reading a track with edits. *)
From Verif Require Import Base Codec AtomModel BoxModel SttsSpec SttsModel SttsProofs SizeSpec SizeModel SizeProofs EditModel EditSpec EditProps
  MdatModel MediaSpec MediaModel MediaProofs MediaProps ReaderModel ReaderSpec ReaderProofs.

Definition lasting (t : track) : Prop := Forall (fun s => 1 <= m_dur s) (t_smps t).

Lemma find_tab_of m t D : minv m t D -> lasting t -> find_tab (st_entries (me_stts m)).
Proof.
  intros I Hpos. pose proof (v_dur _ _ _ I) as Hdu. rewrite duration_total in Hdu. pose proof (v_count _ _ _ I) as Hct.
  pose proof (v_stts _ _ _ I) as [R1 R2 R3 R4].
  constructor; [exact R2| |rewrite R1; exact Hdu|rewrite R1, len_map; lia]. unfold durs_pos. apply Forall_forall. intros [c e] Hin. cbn [snd].
  assert (Hx : In e (map m_dur (t_smps t))).
  { rewrite <- R1. unfold expand. apply in_flat_map. exists (c, e). split; [exact Hin|]. cbn [fst snd].
    unfold all_pos in R2. rewrite Forall_forall in R2. specialize (R2 _ Hin). cbn [fst] in R2.
    destruct (N.to_nat c) eqn:Ec; [lia|]. left. reflexivity. }
  apply in_map_iff in Hx. destruct Hx as (s & <- & Hx). unfold lasting in Hpos. rewrite Forall_forall in Hpos. auto.
Qed.

Lemma answer_some t n s : nth_error (t_smps t) (N.to_nat (n - 1)) = Some s -> exists i, answer t n = Some i /\
  i_dts i = duration (firstn (N.to_nat (n - 1)) (t_smps t)) /\ i_dur i = m_dur s.
Proof. intros H. unfold answer. rewrite H. eexists. split; [reflexivity|]. split; reflexivity. Qed.

Lemma time_ok m t D T : minv m t D -> lasting t -> T < duration (t_smps t) ->
  exists k x y i, media_time_to_sample (me_stts m) T = Ok (k, x, y) /\ 1 <= k <= len (t_smps t) /\ answer t k = Some i /\
    i_dts i <= T < i_dts i + i_dur i.
Proof.
  intros I P HT. pose proof (find_tab_of _ _ _ I P) as F. pose proof (v_stts _ _ _ I) as [R1 R2 R3 R4]. rewrite duration_total in HT.
  destruct (media_time_ok (me_stts m) T F ltac:(rewrite R1; exact HT)) as (k & d & x & [K1 (d' & K2 & K3)] & K4 & K5 & _).
  rewrite R1 in *. unfold dur in K2. rewrite nth_error_map in K2. destruct (nth_error (t_smps t) (N.to_nat (k - 1))) as [s|] eqn:E; [|discriminate].
  cbn [option_map] in K2. injection K2 as <-. destruct (answer_some t k s E) as (i & A1 & A2 & A3).
  exists k, x, (Some (s32_of d)), i. split; [exact K5|]. split.
  { split; [exact K1|]. assert (N.to_nat (k - 1) < length (t_smps t))%nat by (apply nth_error_Some; congruence). unfold len. lia. }
  split; [exact A1|]. rewrite A2, A3. unfold dts in K3. rewrite firstn_map, <- duration_total in K3. exact K3.
Qed.
Lemma time_end m t D : minv m t D -> lasting t -> t_smps t <> [] ->
  exists x y, media_time_to_sample (me_stts m) (duration (t_smps t)) = Ok (1 + len (t_smps t), x, y).
Proof.
  intros I P Hne. pose proof (find_tab_of _ _ _ I P) as F. pose proof (v_stts _ _ _ I) as [R1 R2 R3 R4]. pose proof (v_dur _ _ _ I) as Hdu.
  destruct (media_time_past (me_stts m) (duration (t_smps t)) F) as (d & _ & E).
  - intros E. rewrite E in R1. destruct (t_smps t); [congruence|discriminate].
  - rewrite R1, <- duration_total. lia.
  - rewrite E, R1, len_map. eauto.
Qed.

Lemma duration_app a b : duration (a ++ b) = duration a + duration b.
Proof. rewrite !duration_total, map_app, total_app. reflexivity. Qed.
Lemma answer_lt t n i : answer t n = Some i -> 1 <= n -> n <= len (t_smps t).
Proof.
  unfold answer. destruct (nth_error _ _) eqn:E; [|discriminate]. intros _ H.
  assert (N.to_nat (n - 1) < length (t_smps t))%nat by (apply nth_error_Some; congruence). unfold len. lia.
Qed.
Lemma answer_mono t a b i j : 1 <= a -> a < b -> answer t a = Some i -> answer t b = Some j -> i_dts i + i_dur i <= i_dts j.
Proof.
  unfold answer. intros H1 H2. destruct (nth_error (t_smps t) (N.to_nat (a - 1))) as [s|] eqn:E; [|discriminate].
  destruct (nth_error (t_smps t) (N.to_nat (b - 1))) as [s'|] eqn:E'; [|discriminate]. intros A B. injection A as <-. injection B as <-.
  cbn [i_dts i_dur]. apply nth_error_split in E. destruct E as (l1 & l2 & -> & L).
  assert (Hlt : (N.to_nat (b - 1) = length l1 + S (N.to_nat (b - 1) - length l1 - 1))%nat) by lia.
  rewrite <- L. rewrite firstn_app, Nat.sub_diag, firstn_all. cbn [firstn]. rewrite app_nil_r.
  rewrite Hlt, firstn_app_2, duration_app. cbn [firstn]. change (duration (s :: ?l)) with (m_dur s + duration l). cbn [duration fold_right]. lia.
Qed.
Lemma answer_next t n i : 1 <= n -> answer t n = Some i -> i_dts i + i_dur i < duration (t_smps t) ->
  exists j, answer t (n + 1) = Some j /\ i_dts j = i_dts i + i_dur i.
Proof.
  unfold answer. intros H1. destruct (nth_error (t_smps t) (N.to_nat (n - 1))) as [s|] eqn:E; [|discriminate]. injection 1 as <-. cbn [i_dts i_dur].
  apply nth_error_split in E. destruct E as (l1 & l2 & -> & L). rewrite <- L. replace (N.to_nat (n + 1 - 1)) with (length l1 + 1)%nat by lia.
  rewrite firstn_app, Nat.sub_diag, firstn_all, firstn_app_2. cbn [firstn]. rewrite app_nil_r, !duration_app.
  rewrite nth_error_app2 by lia. replace (length l1 + 1 - length l1)%nat with 1%nat by lia. cbn [nth_error duration fold_right].
  intros Hd. destruct l2 as [|s2 l2]; [cbn [fold_right] in Hd; lia|]. cbn [nth_error]. eexists. split; [reflexivity|]. cbn [i_dts]. lia.
Qed.

(* ---- the edits ---- *)
Lemma durs_app a b : durs (a ++ b) = durs a + durs b.
Proof. induction a as [|e a IH]; [reflexivity|]. cbn [app durs fold_right]. fold (durs (a ++ b)). fold (durs a). lia. Qed.
Lemma skip_ok emp : forall e post s segs, Forall (fun e => e_empty e = true) emp -> e_empty e = false ->
  s + len emp <= segs -> segs < 4294967296 -> skip_empty (emp ++ e :: post) s segs = (Ok tt, s + len emp).
Proof.
  induction emp as [|x emp IH]; intros e post s segs F He Hs Hb.
  - cbn [app skip_empty]. rewrite He. lens. f_equal. lia.
  - inversion F as [|? ? Hx F']; subst. cbn [app skip_empty]. rewrite Hx. revert Hs. lens. intros Hs. destruct (N.eqb_spec s segs); [lia|].
    rewrite w32_small by lia. rewrite IH by (assumption || lia). f_equal. lia.
Qed.
Lemma first_media es : ends_with_media es -> exists emp e post, es = emp ++ e :: post /\ Forall (fun e => e_empty e = true) emp /\ e_empty e = false /\
  (post = [] \/ ends_with_media post).
Proof.
  unfold ends_with_media. induction es as [|x es IH]; [intros []|]. cbn [rev]. intros H. destruct (e_empty x) eqn:Ex.
  - destruct es as [|y es]; [cbn in H; congruence|].
    assert (H' : match rev (y :: es) with [] => False | e :: _ => e_empty e = false end).
    { destruct (rev (y :: es)) eqn:Er; [|exact H]. apply (f_equal (@length edit)) in Er. rewrite rev_length in Er. discriminate. }
    destruct (IH H') as (emp & e & post & E & F & He & Hp). exists (x :: emp), e, post. rewrite E. repeat split; auto.
  - exists [], x, es. repeat split; auto. destruct es as [|y es]; [left; reflexivity|]. right. destruct (rev (y :: es)) eqn:Er; [|exact H].
    apply (f_equal (@length edit)) in Er. rewrite rev_length in Er. discriminate.
Qed.
Lemma plan_empty t mts dts emp : forall T r, Forall (fun e => e_empty e = true) emp -> plan t mts dts T (emp ++ r) = plan t mts dts (T + durs emp) r.
Proof.
  induction emp as [|x emp IH]; intros T r F; [cbn; f_equal; lia|]. inversion F as [|? ? Hx F']; subst. cbn [app plan]. rewrite Hx, IH by assumption.
  cbn [app durs fold_right]. fold (durs emp). f_equal. lia.
Qed.
Lemma edits_ok_app t mts dts a : forall T r, edits_ok t mts dts T (a ++ r) -> edits_ok t mts dts (T + durs a) r.
Proof.
  induction a as [|x a IH]; intros T r H; [cbn; rewrite N.add_0_r; exact H|]. cbn [app edits_ok] in H. destruct H as [_ H]. apply IH in H.
  cbn [durs fold_right]. fold (durs a). rewrite N.add_assoc. exact H.
Qed.
Lemma edits_ok_bound t mts dts es : forall T, 0 < mts -> edits_ok t mts dts T es ->
  dts * (T + durs es) < 18446744073709551616 /\ T + durs es < 18446744073709551616 /\ dts * (T + durs es) / mts < 2147483648.
Proof.
  intros T M H. rewrite <- (app_nil_r es) in H. apply edits_ok_app in H. exact H.
Qed.
Lemma div_add_le a b m : 0 < m -> a / m + b / m <= (a + b) / m.
Proof.
  intros H. apply N.div_le_lower_bound; [lia|]. pose proof (N.mul_div_le a m). pose proof (N.mul_div_le b m). nia.
Qed.

Record in_seg (mts dts : N) (rd : reader) (pre : list edit) (e : edit) (post : list edit) (n : N) : Prop := {
  is_edits : r_edits rd = pre ++ e :: post; is_mts : r_mts rd = mts; is_dts : r_dts rd = dts;
  is_segs : r_segs rd = len (pre ++ e :: post); is_seg : r_seg rd = len pre + 1;
  is_end : r_end rd = dts * (durs pre + e_dur e) / mts; is_begin : r_begin rd = dts * durs pre / mts;
  is_media : r_media rd = e_time e; is_num : r_num rd = n; is_key : r_key rd = None }.

Lemma seg_ok mts dts m t D pre es rd :
  minv m t D -> lasting t -> 0 < mts ->
  r_edits rd = pre ++ es -> r_mts rd = mts -> r_dts rd = dts -> r_segs rd = len (pre ++ es) -> r_seg rd = len pre + 1 -> r_key rd = None ->
  len (pre ++ es) < 4294967295 -> edits_ok t mts dts (durs pre) es -> ends_with_media es ->
  exists rd' pre' e post n i, next_segment rd m = (Ok tt, rd') /\ in_seg mts dts rd' pre' e post n /\ pre ++ es = pre' ++ e :: post /\
    e_empty e = false /\ edits_ok t mts dts (durs pre') (e :: post) /\ (post = [] \/ ends_with_media post) /\
    1 <= n /\ answer t n = Some i /\ i_dts i <= Z.to_N (e_time e) < i_dts i + i_dur i /\
    plan t mts dts (durs pre) es = plan t mts dts (durs pre') (e :: post) /\ (length pre <= length pre')%nat.
Proof.
  intros I P M E1 E2 E3 E4 E5 E6 Hb Hok Hend.
  destruct (first_media es Hend) as (emp & e & post & Ees & Femp & He & Hpost). subst es.
  assert (Hok' : edits_ok t mts dts (durs pre + durs emp) (e :: post)) by (apply edits_ok_app; exact Hok).
  assert (Hsp : skip_empty (if r_seg rd =? 0 then [] else skipn (N.to_nat (r_seg rd - 1)) (r_edits rd)) (r_seg rd) (r_segs rd) = (Ok tt, len pre + 1 + len emp)).
  { rewrite E5, E1, E4. destruct (N.eqb_spec (len pre + 1) 0); [lia|]. replace (N.to_nat (len pre + 1 - 1)) with (length pre) by (unfold len; lia).
    rewrite skipn_app, skipn_all, Nat.sub_diag. cbn [skipn app]. apply skip_ok; auto.
    - lens. lia.
    - lia. }
  unfold next_segment. rewrite Hsp. cbn [bind]. rewrite E1.
  pose proof (edits_ok_bound _ _ _ _ _ M Hok') as (B1 & B2 & B3).
  assert (Hseg : edit_segment (pre ++ emp ++ e :: post) (len pre + 1 + len emp) = Ok (durs (pre ++ emp), e_time e, e_dur e)).
  { unfold edit_segment. destruct (N.eqb_spec (len pre + 1 + len emp) 0); [lia|].
    destruct (N.ltb_spec (len (pre ++ emp ++ e :: post)) (len pre + 1 + len emp)) as [X|X]; [revert X; lens; lia|]. cbn [orb].
    replace (len pre + 1 + len emp - 1) with (N.of_nat (length (pre ++ emp))) by (rewrite app_length; unfold len; lia).
    rewrite app_assoc. rewrite (edit_seg_ok _ (length (pre ++ emp)) e 0).
    - rewrite firstn_app, Nat.sub_diag, firstn_all. cbn [firstn]. rewrite app_nil_r, He. reflexivity.
    - rewrite nth_error_app2, Nat.sub_diag by lia. reflexivity.
    - rewrite !durs_app. cbn [durs fold_right] in *. fold (durs post) in *. lia. }
  rewrite Hseg. cbn [edits_ok] in Hok'. destruct Hok' as [Ho1 Ho2]. specialize (Ho1 He). destruct Ho1 as (T1 & T2 & T3).
  cbn [durs fold_right] in B1, B2, B3. fold (durs post) in B1, B2, B3. rewrite durs_app.
  remember (durs pre + durs emp) as T eqn:ET.
  pose proof (v_dur _ _ _ I) as Hdu.
  assert (Em : u64_of (e_time e) = Z.to_N (e_time e)) by (unfold u64_of; lia). rewrite Em.
  destruct (time_ok m t D (Z.to_N (e_time e)) I P ltac:(lia)) as (k & x & y & i & K1 & K2 & K3 & K4). rewrite K1, E2.
  destruct (N.eqb_spec mts 0); [lia|]. rewrite E3.
  assert (Hmono : dts * T <= dts * (T + e_dur e)) by (apply N.mul_le_mono_l; lia).
  assert (Hmono2 : dts * (T + e_dur e) <= dts * (T + (e_dur e + durs post))) by (apply N.mul_le_mono_l; lia).
  assert (Hd64 : w64 (dts * e_dur e) = dts * e_dur e).
  { unfold w64. apply N.mod_small. assert (dts * e_dur e <= dts * (T + (e_dur e + durs post))) by (apply N.mul_le_mono_l; lia). lia. }
  assert (HT64 : w64 (dts * T) = dts * T) by (unfold w64; apply N.mod_small; lia).
  assert (HE64 : w64 (dts * w64 (T + e_dur e)) = dts * (T + e_dur e)) by (unfold w64; rewrite (N.mod_small (T + e_dur e)) by lia; apply N.mod_small; lia).
  rewrite Hd64, HT64, HE64.
  pose proof (div_add_le (dts * T) (dts * e_dur e) mts M) as Hdiv. rewrite <- N.mul_add_distr_l in Hdiv.
  assert (Ew : w64 (Z.to_N (e_time e) + dts * e_dur e / mts) = Z.to_N (e_time e) + dts * e_dur e / mts) by (unfold w64; apply N.mod_small; lia).
  rewrite Ew.
  assert (K5 : exists k2 x2 y2, media_time_to_sample (me_stts m) (Z.to_N (e_time e) + dts * e_dur e / mts) = Ok (k2, x2, y2) /\ k <= k2).
  { destruct (N.lt_ge_cases (Z.to_N (e_time e) + dts * e_dur e / mts) (duration (t_smps t))) as [Hlt|Hge].
    - destruct (time_ok m t D _ I P Hlt) as (k2 & x2 & y2 & i2 & L1 & L2 & L3 & L4). exists k2, x2, y2. split; [exact L1|].
      destruct (N.le_gt_cases k k2) as [|Hgt]; [assumption|]. pose proof (answer_mono t k2 k i2 i (proj1 L2) Hgt L3 K3) as Hm.
      remember (dts * e_dur e / mts) as q eqn:Eq. clear -Hm K4 L4. lia.
    - replace (Z.to_N (e_time e) + dts * e_dur e / mts) with (duration (t_smps t)) by lia.
      destruct (time_end m t D I P) as (x2 & y2 & L).
      + intros E0. rewrite E0 in *. cbn in T3. lia.
      + exists (1 + len (t_smps t)), x2, y2. split; [exact L|lia]. }
  destruct K5 as (k2 & x2 & y2 & K5 & K6). rewrite K5. destruct (N.ltb_spec k2 k); [lia|].
  eexists. exists (pre ++ emp), e, post, k, i. split; [reflexivity|]. split.
  { constructor; cbn [r_edits r_mts r_dts r_segs r_seg r_end r_begin r_media r_num r_key]; try reflexivity.
    - rewrite <- app_assoc. reflexivity.
    - rewrite <- app_assoc. exact E4.
    - lens. lia.
    - rewrite durs_app, <- ET. reflexivity.
    - rewrite durs_app, <- ET. reflexivity.
    - exact E6. }
  split; [rewrite <- app_assoc; reflexivity|]. split; [exact He|]. rewrite durs_app, <- ET. split; [cbn [edits_ok]; auto|].
  split; [exact Hpost|]. split; [lia|]. split; [exact K3|]. split; [exact K4|]. split; [|rewrite app_length; lia]. rewrite plan_empty by exact Femp. rewrite ET. reflexivity.
Qed.

Definition winfun (t : track) (mt b e : N) (n : nat) : list au :=
  match answer t (N.of_nat n) with Some i => window1 mt b e i | None => [] end.
Definition wfrom (t : track) (mt b e n : N) : list au :=
  flat_map (winfun t mt b e) (seq (N.to_nat n) (length (t_smps t) + 1 - N.to_nat n)).

Lemma winfun_none t mt b e l : (forall n, In n l -> winfun t mt b e n = []) -> flat_map (winfun t mt b e) l = [].
Proof. induction l as [|x l IH]; intros H; [reflexivity|]. cbn [flat_map]. rewrite (H x) by (left; reflexivity). rewrite IH; [reflexivity|]. intros n Hn. apply H. right. exact Hn. Qed.
(* the samples before the one that covers the start do not take part *)
Lemma window_from t mt b e n i : 1 <= n -> answer t n = Some i -> i_dts i <= mt -> window t mt b e = wfrom t mt b e n.
Proof.
  intros Hn Ha Hi. unfold window, wfrom. fold (winfun t mt b e).
  assert (Hl := answer_lt _ _ _ Ha Hn).
  replace (length (t_smps t)) with ((N.to_nat n - 1) + (length (t_smps t) + 1 - N.to_nat n))%nat at 1 by (unfold len in Hl; lia).
  rewrite seq_app, flat_map_app. replace (1 + (N.to_nat n - 1))%nat with (N.to_nat n) by lia.
  fold (winfun t mt b e). rewrite winfun_none; [reflexivity|]. intros k Hk. apply in_seq in Hk. unfold winfun.
  destruct (answer t (N.of_nat k)) as [j|] eqn:Ej; [|reflexivity]. pose proof (answer_mono t (N.of_nat k) n j i ltac:(lia) ltac:(lia) Ej Ha).
  unfold window1. destruct (N.ltb_spec mt (i_dts j + i_dur j)); [lia|]. rewrite andb_false_r. reflexivity.
Qed.
Lemma wfrom_step t mt b e n i : 1 <= n -> answer t n = Some i -> wfrom t mt b e n = window1 mt b e i ++ wfrom t mt b e (n + 1).
Proof.
  intros Hn Ha. assert (Hl := answer_lt _ _ _ Ha Hn). unfold wfrom.
  replace (length (t_smps t) + 1 - N.to_nat n)%nat with (S (length (t_smps t) + 1 - N.to_nat (n + 1)))%nat by (unfold len in Hl; lia).
  cbn [seq flat_map]. unfold winfun at 1. rewrite N2Nat.id, Ha. replace (S (N.to_nat n)) with (N.to_nat (n + 1)) by lia. reflexivity.
Qed.
Lemma wfrom_past t mt b e n i : 1 <= n -> answer t n = Some i -> mt + (e - b) <= i_dts i + i_dur i -> wfrom t mt b e (n + 1) = [].
Proof.
  intros Hn Ha Hi. unfold wfrom. apply winfun_none. intros k Hk. apply in_seq in Hk. unfold winfun.
  destruct (answer t (N.of_nat k)) as [j|] eqn:Ej; [|reflexivity]. pose proof (answer_mono t n (N.of_nat k) i j ltac:(lia) ltac:(lia) Ha Ej).
  unfold window1. destruct (N.ltb_spec (i_dts j) (mt + (e - b))); [lia|]. reflexivity.
Qed.

(* where the reader is after a segment: at the first sample of the next one, or at the end *)
Definition seg_after (mts dts : N) (m : media) (t : track) (rd : reader) (all pre post : list edit) : Prop :=
  match post with
  | [] => r_segs rd < r_seg rd
  | _ => exists pre' e post' n i, in_seg mts dts rd pre' e post' n /\ all = pre' ++ e :: post' /\
      e_empty e = false /\ edits_ok t mts dts (durs pre') (e :: post') /\ (post' = [] \/ ends_with_media post') /\
      1 <= n /\ answer t n = Some i /\ i_dts i <= Z.to_N (e_time e) < i_dts i + i_dur i /\
      plan t mts dts (durs pre) post = plan t mts dts (durs pre') (e :: post') /\ (length pre <= length pre')%nat
  end.

Lemma unit_time (i : info) (mt b e : N) : s32_ok (Z.of_N (i_dts i) - Z.of_N mt + Z.of_N b) -> i_dts i < 4294967296 -> b < 2147483648 ->
  s32_of (w32 (w64 (sub64 (i_dts i) mt + b))) = (Z.of_N (i_dts i) - Z.of_N mt + Z.of_N b)%Z.
Proof.
  intros H H1 H2. rewrite <- (s32_ocs _ H). f_equal. unfold sub64, w64, w32, u32_of. lia.
Qed.

Definition shown (i : info) (mt b en : N) : au :=
  unit_at i (Z.of_N (i_dts i) - Z.of_N mt + Z.of_N b)%Z (Z.to_N (Z.min (Z.of_N (i_dur i)) (Z.of_N en - (Z.of_N (i_dts i) - Z.of_N mt + Z.of_N b)))).

(* one access unit inside a segment *)
Lemma au_step mts dts d t pre e post n rd m i :
  lasting t -> 0 < mts -> len (md_data d) < 4294967296 -> len (pre ++ e :: post) < 4294967295 -> e_empty e = false ->
  edits_ok t mts dts (durs pre) (e :: post) -> (post = [] \/ ends_with_media post) ->
  minv m t (md_data d) -> in_seg mts dts rd pre e post n -> 1 <= n -> answer t n = Some i ->
  let mt := Z.to_N (e_time e) in let b := dts * durs pre / mts in let en := dts * (durs pre + e_dur e) / mts in
  i_dts i < mt + (en - b) -> mt < i_dts i + i_dur i -> unit_ok (shown i mt b en) ->
  exists rd' m', next_au rd m d = (Ok (shown i mt b en), (rd', m')) /\ minv m' t (md_data d) /\
    (mt + (en - b) <= i_dts i + i_dur i -> seg_after mts dts m' t rd' (pre ++ e :: post) (pre ++ [e]) post) /\
    (i_dts i + i_dur i < mt + (en - b) -> in_seg mts dts rd' pre e post (n + 1)).
Proof.
  intros P M Hd Hb He Hok Hpost I S Hn Ha mt b en Hi1 Hi2 [Hu1 Hu2]. pose proof (edits_ok_bound _ _ _ _ _ M Hok) as (B1 & B2 & B3).
  pose proof Hok as Hok0. cbn [edits_ok] in Hok. destruct Hok as [Ho1 Ho2]. specialize (Ho1 He). destruct Ho1 as (T1 & T2 & T3).
  cbn [durs fold_right] in B1, B2, B3. fold (durs post) in B1, B2, B3.
  assert (B4 : en < 2147483648).
  { eapply N.le_lt_trans; [|exact B3]. apply N.div_le_mono; [lia|]. apply N.mul_le_mono_l. lia. }
  fold mt in T3. fold b en in T2, T3. assert (Hl := answer_lt _ _ _ Ha Hn).
  cbn [shown unit_at a_dts a_cts] in Hu1, Hu2.
  destruct S as [S1 S2 S3 S4 S5 S6 S7 S8 S9 S10].
  destruct (media_get_ok m d t n I Hd ltac:(lia)) as (i' & desc & m' & E & Ea & I' & D'). assert (i' = i) by congruence. subst i'.
  pose proof (answer_dts _ _ _ Ea) as Hdt. pose proof (v_dur _ _ _ I) as Hdu. pose proof (answer_dur _ _ _ (v_range _ _ _ I) Ea) as Hds.
  assert (Em : u64_of (r_media rd) = mt) by (rewrite S8; subst mt; clear -T1 T3 Hdu; unfold u64_of; lia).
  fold en in S6. fold b in S7. assert (Eb : b = dts * durs pre / mts) by reflexivity. assert (Een : en = dts * (durs pre + e_dur e) / mts) by reflexivity. clearbody mt b en.
  unfold next_au. rewrite S4, S5. destruct (N.ltb_spec (len (pre ++ e :: post)) (len pre + 1)) as [X|X]; [revert X; lens; lia|]. clear X.
  assert (Hne : (len (r_edits rd) =? 0) = false) by (rewrite S1; destruct (N.eqb_spec (len (pre ++ e :: post)) 0) as [X|X]; [revert X; lens; lia|reflexivity]).
  rewrite Hne. cbn [andb negb]. rewrite S9, E, S10, Em, S7.
  rewrite (unit_time i mt b en Hu1) by lia.
  remember (Z.of_N (i_dts i) - Z.of_N mt + Z.of_N b)%Z as z eqn:Ez.
  assert (Es : i_hasoff i && ((z + i_off i <? -2147483648)%Z || (2147483648 <=? z + i_off i)%Z) = false).
  { unfold s32_ok in Hu2. destruct (i_hasoff i); [|reflexivity]. cbn [andb].
    destruct (Z.ltb_spec (z + i_off i) (-2147483648)); [lia|]. destruct (Z.leb_spec 2147483648 (z + i_off i)); [lia|]. reflexivity. }
  rewrite Es.
  assert (Ec : (if i_hasoff i then s32_of (u32_of (z + i_off i)) else z) = (z + i_off i)%Z).
  { destruct (i_hasoff i) eqn:Eh; [apply s32_ocs; exact Hu2|]. rewrite (answer_nooff m t _ _ i I Ea Eh). lia. }
  rewrite Ec, S6. unfold s32_ok in Hu1.
  assert (Ef : w64 (i_dur i + u64_of z) = Z.to_N (Z.of_N (i_dur i) + z)) by (unfold w64, u64_of; lia). rewrite Ef.
  unfold shown. rewrite <- Ez.
  destruct (N.leb_spec en (Z.to_N (Z.of_N (i_dur i) + z))) as [Hend|Hend].
  - (* the segment ends here *)
    assert (Ed : w32 (sub64 en (u64_of z)) = Z.to_N (Z.min (Z.of_N (i_dur i)) (Z.of_N en - z))).
    { rewrite Z.min_r by lia. unfold w32, sub64, w64, u64_of. lia. }
    rewrite Ed. assert (Hseg : w32 (len pre + 1 + 1) = len pre + 2) by (revert Hb; lens; intros Hb; rewrite w32_small; lia). rewrite Hseg.
    destruct post as [|e2 post].
    + destruct (N.leb_spec (len pre + 2) (len (pre ++ [e]))) as [X|X]; [revert X; lens; lia|].
      do 2 eexists. split; [reflexivity|]. split; [exact I'|]. split; [|intros; lia]. intros _. cbn [seg_after r_segs r_seg]. exact X.
    + destruct (N.leb_spec (len pre + 2) (len (pre ++ e :: e2 :: post))) as [X|X]; [|revert X; lens; lia].
      destruct Hpost as [Hp|Hp]; [discriminate|].
      match goal with |- context [next_segment ?r m'] =>
        destruct (seg_ok mts dts m' t (md_data d) (pre ++ [e]) (e2 :: post) r I' P M) as
          (rd2 & pre' & e' & post' & n' & i2 & Q1 & Q2 & Q3 & Q4 & Q5 & Q6 & Q7 & Q8 & Q9 & Q10 & Q11) end;
        cbn [r_edits r_mts r_dts r_segs r_seg r_key]; rewrite <- ?app_assoc; cbn [app]; try assumption; try reflexivity.
      * lens. lia.
      * rewrite durs_app. cbn [durs fold_right]. fold (durs post). rewrite N.add_0_r. exact Ho2.
      * rewrite Q1. cbn [bind]. do 2 eexists. split; [reflexivity|]. split; [exact I'|]. split; [|intros; lia]. intros _.
        cbn [seg_after]. rewrite <- app_assoc in Q3. cbn [app] in Q3. exists pre', e', post', n', i2. auto 20.
  - assert (Ed : w32 (i_dur i) = Z.to_N (Z.min (Z.of_N (i_dur i)) (Z.of_N en - z))).
    { rewrite Z.min_l by lia. rewrite w32_small by lia. lia. }
    rewrite Ed. do 2 eexists. split; [reflexivity|]. split; [exact I'|]. split; [intros; lia|]. intros _.
    constructor; cbn [r_edits r_mts r_dts r_segs r_seg r_end r_begin r_media r_num r_key]; auto; try congruence.
    rewrite w32_small; [lia|]. pose proof (v_count _ _ _ I). lia.
Qed.

Lemma seg_run mts dts d t pre e post :
  lasting t -> 0 < mts -> len (md_data d) < 4294967296 -> len (pre ++ e :: post) < 4294967295 -> e_empty e = false ->
  edits_ok t mts dts (durs pre) (e :: post) -> (post = [] \/ ends_with_media post) ->
  let mt := Z.to_N (e_time e) in let b := dts * durs pre / mts in let en := dts * (durs pre + e_dur e) / mts in
  forall k n rd m i, (N.to_nat (len (t_smps t)) - N.to_nat n <= k)%nat -> minv m t (md_data d) -> in_seg mts dts rd pre e post n -> 1 <= n ->
  answer t n = Some i ->
  i_dts i < mt + (en - b) -> mt < i_dts i + i_dur i ->
  Forall unit_ok (wfrom t mt b en n) ->
  exists rd' m', minv m' t (md_data d) /\ seg_after mts dts m' t rd' (pre ++ e :: post) (pre ++ [e]) post /\
    forall j, read_units (length (wfrom t mt b en n) + j) rd m d = map Ok (wfrom t mt b en n) ++ read_units j rd' m' d.
Proof.
  intros P M Hd Hb He Hok Hpost mt b en.
  pose proof Hok as Hok0. cbn [edits_ok] in Hok0. destruct Hok0 as [Ho1 _]. specialize (Ho1 He). destruct Ho1 as (T1 & T2 & T3).
  fold mt in T3. fold b en in T2, T3.
  induction k as [|k IH]; intros n rd m i Hk I S Hn Ha Hi1 Hi2 Hu; assert (Hl := answer_lt _ _ _ Ha Hn);
    rewrite (wfrom_step t mt b en n i Hn Ha) in *.
  all: assert (W : window1 mt b en i = [shown i mt b en])
    by (unfold window1; destruct (N.ltb_spec (i_dts i) (mt + (en - b))); [|lia]; destruct (N.ltb_spec mt (i_dts i + i_dur i)); [reflexivity|lia]).
  all: rewrite W in *; cbn [app] in Hu; apply Forall_cons_iff in Hu; destruct Hu as [Hu Hu'].
  all: destruct (au_step mts dts d t pre e post n rd m i P M Hd Hb He Hok Hpost I S Hn Ha Hi1 Hi2 Hu) as (rd1 & m1 & E & I1 & Q1 & Q2).
  all: fold mt in E, Q1, Q2; fold b en in E, Q1, Q2.
  all: destruct (N.le_gt_cases (mt + (en - b)) (i_dts i + i_dur i)) as [Hend|Hgo].
  1,3: rewrite (wfrom_past t mt b en n i Hn Ha Hend) in *; exists rd1, m1; split; [exact I1|]; split; [exact (Q1 Hend)|];
       intros j; cbn [app length Nat.add read_units map]; rewrite E; reflexivity.
  all: destruct (answer_next t n i Hn Ha ltac:(lia)) as (i2 & A1 & A2).
  - pose proof (answer_lt _ _ _ A1 ltac:(lia)). unfold len in *. lia.
  - assert (Hd2 : 1 <= i_dur i2).
    { unfold answer in A1. destruct (nth_error _ _) as [s|] eqn:Es; [|discriminate]. injection A1 as <-. cbn [i_dur].
      apply nth_error_In in Es. unfold lasting in P. rewrite Forall_forall in P. auto. }
    destruct (IH (n + 1) rd1 m1 i2 ltac:(lia) I1 (Q2 Hgo) ltac:(lia) A1 ltac:(lia) ltac:(lia) Hu') as (rd' & m' & I' & Af & R).
    exists rd', m'. split; [exact I'|]. split; [exact Af|]. intros j. cbn [app length Nat.add read_units map]. rewrite E, R. reflexivity.
Qed.

Lemma end_run k : forall rd m d, r_segs rd < r_seg rd -> read_units k rd m d = repeat (Err MP4EOF) k.
Proof.
  induction k as [|k IH]; intros rd m d H; [reflexivity|]. cbn [read_units repeat]. unfold next_au.
  destruct (N.ltb_spec (r_segs rd) (r_seg rd)); [|lia]. rewrite IH by exact H. reflexivity.
Qed.

Lemma inside x mt b en : x <= mt -> b < en -> x < mt + (en - b).
Proof. lia. Qed.
Lemma plan_run mts dts d t all : lasting t -> 0 < mts -> len (md_data d) < 4294967296 -> len all < 4294967295 ->
  forall k pre e post n i rd m, (length post <= k)%nat -> all = pre ++ e :: post -> minv m t (md_data d) -> in_seg mts dts rd pre e post n ->
  e_empty e = false -> edits_ok t mts dts (durs pre) (e :: post) -> (post = [] \/ ends_with_media post) ->
  1 <= n -> answer t n = Some i -> i_dts i <= Z.to_N (e_time e) < i_dts i + i_dur i ->
  Forall unit_ok (plan t mts dts (durs pre) (e :: post)) ->
  forall j, read_units (length (plan t mts dts (durs pre) (e :: post)) + j) rd m d =
            map Ok (plan t mts dts (durs pre) (e :: post)) ++ repeat (Err MP4EOF) j.
Proof.
  intros P M Hd Hb. induction k as [|k IH]; intros pre e post n i rd m Hk Eall I S He Hok Hpost Hn Ha Hi Hu j.
  all: cbn [plan] in *; rewrite He in Hu |- *.
  all: pose proof Hok as Hok0; cbn [edits_ok] in Hok0; destruct Hok0 as [Ho1 _]; destruct (Ho1 He) as (T1 & T2 & T3); clear Ho1.
  all: rewrite (window_from t _ _ _ n i Hn Ha (proj1 Hi)) in *; apply Forall_app in Hu; destruct Hu as [Hu1 Hu2].
  all: assert (Hb' : len (pre ++ e :: post) < 4294967295) by (rewrite <- Eall; exact Hb).
  all: destruct (seg_run mts dts d t pre e post P M Hd Hb' He Hok Hpost (N.to_nat (len (t_smps t))) n rd m i (Nat.le_sub_l _ _) I S Hn Ha (inside _ _ _ _ (proj1 Hi) T2) (proj2 Hi) Hu1) as (rd' & m' & I' & Af & R).
  - destruct post; [|cbn in Hk; lia]. cbn [plan seg_after] in *. rewrite app_nil_r in *. rewrite R. rewrite end_run by exact Af. reflexivity.
  - rewrite app_length, map_app, <- Nat.add_assoc, R, <- app_assoc. f_equal.
    destruct post as [|e2 post].
    + cbn [plan seg_after length Nat.add map app] in *. apply end_run. exact Af.
    + unfold seg_after in Af. destruct Af as (pre' & e' & post' & n' & i' & F1 & F2 & F3 & F4 & F5 & F6 & F7 & F8 & F9 & F10).
      rewrite durs_app in F9. cbn [durs fold_right] in F9. rewrite N.add_0_r in F9. rewrite F9 in *.
      apply (IH pre' e' post' n' i' rd' m'); auto; [|congruence].
      apply (f_equal (@length edit)) in F2. rewrite !app_length in F2. rewrite app_length in F10. cbn [length] in *. lia.
Qed.

(* ---- boxed metadata ---- *)
Definition with_key (rd : reader) (key : option N) : reader :=
  mkReader (r_edits rd) (r_mts rd) (r_dts rd) (r_segs rd) (r_seg rd) (r_end rd) (r_media rd) (r_begin rd)
    (r_seq rd) (r_count rd) (r_desc rd) (r_cur rd) (r_num rd) (r_sl rd) key.
Definition with_bytes (a : au) (b : option (list N)) : au := mkAu b (a_sync a) (a_hasoff a) (a_cts a) (a_dts a) (a_dur a) (a_pad a).

Lemma num_be32 x r : x < 4294967296 -> num (firstn 4 (be32 x ++ r)) = x.
Proof. intros H. unfold be32. cbn [app firstn num fold_left]. lia. Qed.
Lemma pick_ok key tail : len tail < 4 -> forall l fuel acc, Forall item_ok l -> (length (flat_map item l ++ tail) <= fuel)%nat ->
  pick fuel key (flat_map item l ++ tail) acc = Ok (match chosen key l with Some v => Some v | None => acc end).
Proof.
  intros Ht. induction l as [|[k v] l IH]; intros fuel acc F Hf.
  - cbn [flat_map app chosen]. destruct fuel as [|fuel]; [reflexivity|]. cbn [pick]. destruct (N.ltb_spec (len tail) 4); [reflexivity|lia].
  - apply Forall_cons_iff in F. destruct F as [[F1 F2] F3]. cbn [fst snd] in F1, F2.
    cbn [flat_map] in *. unfold item at 1 in Hf. unfold item at 1. cbn [fst snd] in *. rewrite <- !app_assoc in *. rewrite !app_length in Hf.
    change (length (be32 (8 + len v))) with 4%nat in Hf. change (length (be32 k)) with 4%nat in Hf.
    destruct fuel as [|fuel]; [lia|]. cbn [pick].
    remember (flat_map item l ++ tail) as rest eqn:Er.
    destruct (N.ltb_spec (len (be32 (8 + len v) ++ be32 k ++ v ++ rest)) 4) as [X|_]; [revert X; lens; lia|].
    rewrite num_be32 by exact F2. destruct (N.eqb_spec (8 + len v) 0); [lia|].
    destruct (N.ltb_spec (len (be32 (8 + len v) ++ be32 k ++ v ++ rest)) 8) as [X|_]; [revert X; lens; lia|].
    assert (Es : skipn 4 (be32 (8 + len v) ++ be32 k ++ v ++ rest) = be32 k ++ v ++ rest) by reflexivity.
    assert (E8 : skipn 8 (be32 (8 + len v) ++ be32 k ++ v ++ rest) = v ++ rest) by reflexivity.
    rewrite Es, E8, num_be32 by exact F1.
    assert (Esub : sub32 (8 + len v) 8 = len v) by (unfold sub32, w32; lia). rewrite Esub.
    assert (En : skipn (N.to_nat (8 + len v)) (be32 (8 + len v) ++ be32 k ++ v ++ rest) = rest).
    { replace (N.to_nat (8 + len v)) with (8 + length v)%nat by (unfold len; lia).
      change (skipn (8 + length v) (be32 (8 + len v) ++ be32 k ++ v ++ rest)) with (skipn (length v) (v ++ rest)).
      rewrite skipn_app, skipn_all, Nat.sub_diag. reflexivity. }
    assert (Efi : firstn (N.to_nat (len v)) (v ++ rest) = v).
    { unfold len. rewrite Nat2N.id, firstn_app, Nat.sub_diag, firstn_all. cbn [firstn]. apply app_nil_r. }
    rewrite En, Efi. cbn [chosen]. destruct (k =? key).
    + destruct (N.ltb_spec (len (be32 (8 + len v) ++ be32 k ++ v ++ rest)) (8 + len v)) as [X|_]; [revert X; lens; lia|].
      rewrite IH by (assumption || (rewrite Er, app_length; lia)). destruct (chosen key l); reflexivity.
    + rewrite IH by (assumption || (rewrite Er, app_length; lia)). destruct (chosen key l); reflexivity.
Qed.

Lemma next_segment_key rd key m : next_segment (with_key rd key) m = (fst (next_segment rd m), with_key (snd (next_segment rd m)) key).
Proof.
  unfold next_segment. cbn [with_key r_edits r_mts r_dts r_segs r_seg r_end r_media r_begin r_seq r_count r_desc r_cur r_num r_sl r_key].
  destruct (skip_empty _ _ _) as [x s]. destruct (do _ <- x; edit_segment (r_edits rd) s) as [[[mt med] du]|err|]; try reflexivity.
  destruct (media_time_to_sample (me_stts m) (u64_of med)) as [[[n ?] ?]|err|]; try reflexivity.
  destruct (r_mts rd =? 0); [reflexivity|]. destruct (media_time_to_sample _ _) as [[[n2 ?] ?]|err|]; try reflexivity. destruct (n2 <? n); reflexivity.
Qed.
Lemma next_segment_noeof rd m : fst (next_segment rd m) <> Err MP4EOF.
Proof.
  unfold next_segment. set (l := if r_seg rd =? 0 then [] else _). clearbody l.
  assert (H : fst (skip_empty l (r_seg rd) (r_segs rd)) <> Err MP4EOF).
  { generalize (r_seg rd) as s. generalize (r_segs rd) as g. induction l as [|e l IH]; intros g s; [discriminate|]. cbn [skip_empty].
    destruct (e_empty e); [|discriminate]. destruct (s =? g); [discriminate|apply IH]. }
  destruct (skip_empty l (r_seg rd) (r_segs rd)) as [x s]. cbn [fst] in H.
  assert (H2 : (do _ <- x; edit_segment (r_edits rd) s) <> Err MP4EOF).
  { destruct x as [[]|err|]; cbn [bind]; [|congruence|discriminate]. unfold edit_segment. destruct ((s =? 0) || (len (r_edits rd) <? s)); [discriminate|].
    generalize (s - 1) as i. generalize 0 as c. induction (r_edits rd) as [|e l' IH]; intros c i; [discriminate|]. cbn [edit_seg]. destruct (i =? 0); [discriminate|apply IH]. }
  assert (H3 : forall q, media_time_to_sample (me_stts m) q <> Err MP4EOF).
  { intros q. unfold media_time_to_sample. destruct (negb _); [discriminate|]. destruct ((_ =? 18446744073709551615) || _); discriminate. }
  destruct (do _ <- x; edit_segment (r_edits rd) s) as [[[mt med] du]|err|]; [|cbn [fst]; congruence|discriminate].
  pose proof (H3 (u64_of med)) as H4. destruct (media_time_to_sample (me_stts m) (u64_of med)) as [[[n ?] ?]|err|]; [|cbn [fst]; congruence|discriminate].
  destruct (r_mts rd =? 0); [discriminate|].
  match goal with |- context [media_time_to_sample (me_stts m) ?q] => pose proof (H3 q) as H5; destruct (media_time_to_sample (me_stts m) q) as [[[n2 ?] ?]|err|] end;
    [|cbn [fst]; congruence|discriminate]. destruct (n2 <? n); discriminate.
Qed.
Ltac keyed K := unfold next_au; cbn [with_key r_edits r_mts r_dts r_segs r_seg r_end r_media r_begin r_seq r_count r_desc r_cur r_num r_sl r_key]; rewrite K.
Lemma next_au_key rd k m d a rd' m' bs v : r_key rd = None ->
  next_au rd m d = (Ok a, (rd', m')) -> a_bytes a = Some bs -> pick (length bs) k bs None = Ok v ->
  next_au (with_key rd (Some k)) m d = (Ok (with_bytes a v), (with_key rd' (Some k), m')) /\ r_key rd' = None.
Proof.
  intros K. keyed K.
  destruct (r_segs rd <? r_seg rd); [discriminate|]. destruct ((len (r_edits rd) =? 0) && (r_count rd <? r_num rd)); [discriminate|].
  destruct (media_get m d (r_num rd)) as [[[i desc]|e|] m1]; try discriminate.
  cbn zeta. destruct (i_hasoff i && _) eqn:Eo; [discriminate|]. destruct (negb (len (r_edits rd) =? 0) && _) eqn:Es.
  - destruct (w32 (r_seg rd + 1) <=? r_segs rd) eqn:El.
    + match goal with |- context [next_segment ?r m1] => pose proof (next_segment_key r (Some k) m1) as Q; assert (Qk : r_key (snd (next_segment r m1)) = None);
        [|destruct (next_segment r m1) as [y rd2]] end.
      { unfold next_segment. cbn [r_edits r_mts r_dts r_segs r_seg r_end r_media r_begin r_seq r_count r_desc r_cur r_num r_sl r_key].
        destruct (skip_empty _ _ _) as [x s]. destruct (do _ <- x; edit_segment (r_edits rd) s) as [[[mt med] du]|err|]; try exact K; try reflexivity.
        destruct (media_time_to_sample (me_stts m1) (u64_of med)) as [[[n ?] ?]|err|]; try exact K; try reflexivity.
        destruct (r_mts rd =? 0); [exact K || reflexivity|]. destruct (media_time_to_sample _ _) as [[[n2 ?] ?]|err|]; try exact K; try reflexivity. destruct (n2 <? n); exact K || reflexivity. }
      cbn [fst snd] in Q, Qk. intros E Eb Ep. destruct y as [[]|e|]; try discriminate E. cbn [bind] in E. injection E as <- <- <-. cbn [a_bytes] in Eb. injection Eb as <-.
      rewrite Ep. unfold with_key in Q. cbn [r_edits r_mts r_dts r_segs r_seg r_end r_media r_begin r_seq r_count r_desc r_cur r_num r_sl r_key] in Q. rewrite Q.
      cbn [bind]. split; [reflexivity|exact Qk].
    + intros E Eb Ep. injection E as <- <- <-. cbn [a_bytes] in Eb. injection Eb as <-. rewrite Ep. split; [reflexivity|]. reflexivity || exact K.
  - intros E Eb Ep. injection E as <- <- <-. cbn [a_bytes] in Eb. injection Eb as <-. rewrite Ep. split; [reflexivity|]. reflexivity || exact K.
Qed.
Lemma next_au_key_end rd k m d rd' m' : r_key rd = None ->
  next_au rd m d = (Err MP4EOF, (rd', m')) -> next_au (with_key rd (Some k)) m d = (Err MP4EOF, (with_key rd' (Some k), m')) /\ r_key rd' = None.
Proof.
  intros K. keyed K.
  destruct (r_segs rd <? r_seg rd); [intros E; injection E as <- <-; auto|].
  destruct ((len (r_edits rd) =? 0) && (r_count rd <? r_num rd)); [intros E; injection E as <- <-; auto|].
  destruct (media_get m d (r_num rd)) as [[[i desc]|e|] m1]; try discriminate; [|intros E; injection E as -> <- <-; auto].
  cbn zeta. destruct (i_hasoff i && _) eqn:Eo; [discriminate|]. destruct (negb (len (r_edits rd) =? 0) && _) eqn:Es; [|discriminate].
  destruct (w32 (r_seg rd + 1) <=? r_segs rd) eqn:El; [|discriminate].
  match goal with |- context [next_segment ?r m1] => pose proof (next_segment_noeof r m1) as Q; destruct (next_segment r m1) as [y rd2] end.
  cbn [fst] in Q. intros E. destruct y as [[]|e|]; try discriminate E. cbn [bind] in E. congruence.
Qed.
Lemma keyed_run k : forall us vs j rd m d, r_key rd = None ->
  Forall2 (fun u v => exists bs w, a_bytes u = Some bs /\ pick (length bs) k bs None = Ok w /\ v = with_bytes u w) us vs ->
  read_units (length us + j) rd m d = map Ok us ++ repeat (Err MP4EOF) j ->
  read_units (length us + j) (with_key rd (Some k)) m d = map Ok vs ++ repeat (Err MP4EOF) j.
Proof.
  intros us vs j rd m d K F. revert rd m K. induction F as [|u v us vs (bs & w & B1 & B2 & ->) F IH]; intros rd m K.
  - cbn [length Nat.add map app]. revert rd m K. induction j as [|j IH]; intros rd m K; [reflexivity|]. cbn [read_units repeat].
    destruct (next_au rd m d) as [x [rd' m']] eqn:E. intros H. injection H as -> H.
    destruct (next_au_key_end rd k m d rd' m' K E) as [E' K']. rewrite E', (IH _ _ K' H). reflexivity.
  - cbn [length Nat.add map app read_units]. destruct (next_au rd m d) as [x [rd' m']] eqn:E. intros H. injection H as -> H.
    destruct (next_au_key rd k m d u rd' m' bs w K E B1 B2) as [E' K']. rewrite E', (IH _ _ K' H). reflexivity.
Qed.
Lemma reader_new_key el mts dts k m rd : reader_new el mts dts None m = Ok rd -> reader_new el mts dts (Some k) m = Ok (with_key rd (Some k)).
Proof.
  unfold reader_new. destruct (match el with Some s => el_edits s | None => [] end) as [|e es]; [intros E; injection E as <-; reflexivity|].
  pose proof (next_segment_key (mkReader (e :: es) mts dts (len (e :: es)) 1 0 0 0 0 0 1 0 0 false None) (Some k) m) as Q. unfold with_key at 1 in Q.
  cbn [r_edits r_mts r_dts r_segs r_seg r_end r_media r_begin r_seq r_count r_desc r_cur r_num r_sl r_key] in Q. rewrite Q.
  clear Q. destruct (next_segment _ m) as [[[]|er|] rd2]; cbn [bind fst snd]; congruence.
Qed.

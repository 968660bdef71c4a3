(* CttsProps.v -- composition offsets: C10, C41, and the ctts and cslg parts of C18. *)
From Verif Require Import Base Codec AtomModel AtomProofs BoxModel BoxSpec BoxProofs SttsSpec SttsModel SttsProofs
  CttsSpec CttsModel CttsProofs.

(* Any batches, provided that if offsets are used at all they are used from
   the first batch on: the offset of sample n is the one given for it, 0 in
   batches without offsets. *)
Theorem C10_offset_per_sample :
  forall bs, Forall obatch_ok bs -> len (flat_map given bs) < 2147483647 ->
  (has_offsets (hd (0, None) bs) = true \/ existsb has_offsets bs = false) ->
  exists st, offsets_run None 0 bs = Ok st /\
    forall n, 1 <= n <= len (flat_map given bs) ->
      exists o, nth_error (flat_map given bs) (N.to_nat (n - 1)) = Some o /\ comp_offset st n = s32_of o.
Proof.
  intros bs Hb Hl Hs.
  destruct (offsets_run_ok bs None [] ltac:(exists 0%nat; reflexivity) Hb ltac:(lens; lia)) as (st & E & I).
  { intros _. destruct Hs as [H|H]; auto. }
  exists st. split; [exact E|]. cbn [app] in I. intros n Hn.
  destruct (nth_error (flat_map given bs) (N.to_nat (n - 1))) as [o|] eqn:En.
  - exists o. split; [reflexivity|]. rewrite (comp_offset_ok st _ n I) by lia. f_equal. apply nth_error_nth. exact En.
  - apply nth_error_None in En. unfold len in Hn. lia.
Qed.
Print Assumptions C10_offset_per_sample.
Definition ex_ob : list obatch := [(2, Some [5]); (3, None); (2, Some [7; 4294967290]); (1, None)].
Example C10_case : Forall obatch_ok ex_ob /\ has_offsets (hd (0, None) ex_ob) = true /\
  match offsets_run None 0 ex_ob with
  | Ok st => map (comp_offset st) [1; 2; 3; 4; 5; 6; 7; 8] = [5; 5; 0; 0; 0; 7; -6; 0]%Z
  | _ => False end.
Proof.
  split; [|split; [reflexivity|vm_compute; reflexivity]].
  unfold ex_ob. repeat constructor; cbn; try lia; try (left; reflexivity); try (right; reflexivity); discriminate.
Qed.

(* The claim fails when the first batch comes without offsets: the offset
   given for sample 2 is returned for sample 1, and sample 2 has none. *)
Theorem C10_late_offsets_refuted :
  exists st, offsets_run None 0 [(1, None); (1, Some [5])] = Ok st /\
    comp_offset st 1 = 5%Z /\ comp_offset st 2 = 0%Z /\ flat_map given [(1, None); (1, Some [5])] = [0; 5].
Proof. eexists. repeat split; vm_compute; reflexivity. Qed.
Print Assumptions C10_late_offsets_refuted.

(* ------------------------------------------------------------------ *)
(* C41: the composition summary                                        *)

Lemma spread_ok count l : (len l = 1 \/ len l = count) -> spread count l = Ok (each count l).
Proof.
  intros H. unfold spread, each. destruct l as [|x [|y l]].
  - destruct H as [H|H]; [discriminate|]. rewrite <- H. reflexivity.
  - reflexivity.
  - destruct (N.eqb_spec (len (x :: y :: l)) 1); [lens; lia|].
    destruct (N.eqb_spec (len (x :: y :: l)) count); [reflexivity|lia].
Qed.
Lemma len_each count l : (len l = 1 \/ len l = count) -> len (each count l) = count.
Proof.
  intros H. unfold each. destruct l as [|x [|y l]]; lens.
  - lia.
  - lia.
  - lia.
Qed.
Lemma ctimes_app a : forall t b, ctimes t (a ++ b) = ctimes t a ++ ctimes (fold_left Z.add (map fst a) t) b.
Proof. induction a as [|[d o] a IH]; intros t b; [reflexivity|]. cbn [app ctimes map fst fold_left]. rewrite IH. reflexivity. Qed.
Lemma in_each x count l : In x (each count l) -> exists o, In o l /\ x = s32_of o.
Proof.
  unfold each. destruct l as [|y [|z l]]; intros H.
  - destruct H.
  - apply repeat_spec in H. exists y. split; [left; reflexivity|exact H].
  - apply in_map_iff in H. destruct H as (o & E & H). eauto.
Qed.

Lemma cslg_run_ok bs : forall s,
  Forall cb_ok bs -> Forall in32 (ctimes (cs_total s) (flat_map cb_samples bs)) ->
  (-2147483648 < cs_least s)%Z -> (cs_least s < 0 -> cs_shift s = - cs_least s)%Z ->
  exists s', cslg_run s bs = Ok s' /\
    cs_least s' = rmin (cs_least s) (map snd (flat_map cb_samples bs)) /\
    cs_great s' = rmax (cs_great s) (map snd (flat_map cb_samples bs)) /\
    cs_start s' = rmin (cs_start s) (ctimes (cs_total s) (flat_map cb_samples bs)) /\
    cs_end s' = rmax (cs_end s) (ctimes (cs_total s) (flat_map cb_samples bs)) /\
    cs_shift s' = (if (cs_least s' <? 0)%Z then - cs_least s' else cs_shift s)%Z.
Proof.
  induction bs as [|b bs IH]; intros s Hb Ht Hm Hsh; cbn [cslg_run flat_map] in *.
  - exists s. repeat split; try reflexivity. destruct (Z.ltb_spec (cs_least s) 0); [auto|reflexivity].
  - inversion_clear Hb as [|? ? B1 B2]. pose proof B1 as (C1 & C2 & C3 & C4).
    rewrite ctimes_app in Ht. apply Forall_app in Ht. destruct Ht as [T1 T2].
    unfold cslg_update. rewrite (spread_ok _ _ C3), (spread_ok _ _ C2). cbn [bind].
    fold (cb_samples b).
    destruct (cslg_loop_ok (cb_samples b) s) as (s1 & A0 & _ & _ & A3 & A4 & A5 & A6 & A7 & A8 & A9); try assumption.
    { apply Forall_forall. intros [d o] Hin. cbn [snd]. unfold cb_samples in Hin. apply in_combine_r in Hin.
      apply in_each in Hin. destruct Hin as (o' & Hin & ->). rewrite Forall_forall in C4. destruct (C4 _ Hin).
      unfold s32_of. destruct (N.ltb_spec o' 2147483648); lia. }
    rewrite A0. cbn [bind].
    destruct (IH s1) as (s' & D0 & D3 & D4 & D5 & D6 & D8); try assumption.
    { rewrite A7. exact T2. }
    { intros Hneg. rewrite A8. destruct (Z.ltb_spec (cs_least s1) 0); [reflexivity|lia]. }
    exists s'. rewrite D0. split; [reflexivity|].
    assert (Fm : forall m a b, rmin m (a ++ b) = rmin (rmin m a) b) by (intros; unfold rmin; apply fold_left_app).
    assert (Fx : forall m a b, rmax m (a ++ b) = rmax (rmax m a) b) by (intros; unfold rmax; apply fold_left_app).
    rewrite !map_app, ctimes_app, !Fm, !Fx, <- A3, <- A4, <- A5, <- A6, <- A7.
    split; [exact D3|]. split; [exact D4|]. split; [exact D5|]. split; [exact D6|].
    rewrite D8, A8. pose proof (proj1 (rmin_spec (map snd (flat_map cb_samples bs)) (cs_least s1))) as Q. rewrite <- D3 in Q.
    destruct (Z.ltb_spec (cs_least s') 0); [reflexivity|]. destruct (Z.ltb_spec (cs_least s1) 0); [lia|reflexivity].
Qed.

(* Any batches that all carry offsets: least and greatest offset, the shift,
   and the earliest and latest composition time. *)
Theorem C41_summary_bounds :
  forall bs, bs <> [] -> Forall cb_ok bs ->
  let l := flat_map cb_samples bs in
  Forall (fun t => (-2147483648 <= t < 2147483648)%Z) (ctimes 0 l) ->
  exists s, cslg_run cslg_new bs = Ok s /\
    is_min (map snd l) (cs_least s) /\ is_max (map snd l) (cs_great s) /\
    cs_shift s = Z.max 0 (- cs_least s) /\
    is_min (ctimes 0 l) (cs_start s) /\ is_max (ctimes 0 l) (cs_end s).
Proof.
  intros bs Hne Hb l Ht.
  destruct (cslg_run_ok bs cslg_new Hb Ht) as (s & E & A & B & C & D & F); [cbn; lia|cbn; lia|].
  exists s. split; [exact E|].
  assert (Hl : l <> []).
  { unfold l. destruct bs as [|b bs]; [congruence|]. inversion_clear Hb as [|? ? (C1 & C2 & C3 & _) _]. cbn [flat_map].
    intros X. apply app_eq_nil in X. destruct X as [X _]. apply (f_equal (@length _)) in X. unfold cb_samples in X.
    rewrite combine_length in X. pose proof (len_each _ _ C2). pose proof (len_each _ _ C3). unfold len in *. cbn [length] in X. lia. }
  assert (Hin : Forall (fun x => (-2147483648 <= x <= 2147483647)%Z) (map snd l)).
  { apply Forall_forall. intros x Hx. apply in_map_iff in Hx. destruct Hx as ([d o] & <- & Hx). cbn [snd].
    unfold l in Hx. apply in_flat_map in Hx. destruct Hx as (b & Hb1 & Hx). unfold cb_samples in Hx. apply in_combine_r in Hx.
    apply in_each in Hx. destruct Hx as (o' & Ho & ->). rewrite Forall_forall in Hb. destruct (Hb _ Hb1) as (_ & _ & _ & C4).
    rewrite Forall_forall in C4. destruct (C4 _ Ho). unfold s32_of. destruct (N.ltb_spec o' 2147483648); lia. }
  fold l in A, B, C, D. cbn [cslg_new cs_least cs_great cs_start cs_end cs_total cs_shift] in *.
  split; [rewrite A; apply rmin_is_min; [destruct l; [congruence|discriminate]|eapply Forall_impl; [|exact Hin]; cbn; intros; lia]|].
  split; [rewrite B; apply rmax_is_max; [destruct l; [congruence|discriminate]|eapply Forall_impl; [|exact Hin]; cbn; intros; lia]|].
  split; [rewrite F; destruct (Z.ltb_spec (cs_least s) 0); lia|].
  split; [rewrite C; apply rmin_is_min; [destruct l as [|[d o] l']; [congruence|discriminate]|eapply Forall_impl; [|exact Ht]; cbn; intros; lia]|].
  rewrite D; apply rmax_is_max; [destruct l as [|[d o] l']; [congruence|discriminate]|eapply Forall_impl; [|exact Ht]; cbn; intros; lia].
Qed.
Print Assumptions C41_summary_bounds.
Definition ex_cb : list cbatch := [mkCB 3 [10] [20; 4294967291; 0]; mkCB 1 [10] [7]].
Example C41_case : Forall cb_ok ex_cb /\ Forall (fun t => (-2147483648 <= t < 2147483648)%Z) (ctimes 0 (flat_map cb_samples ex_cb)) /\
  cslg_run cslg_new ex_cb = Ok (mkCslg 0 0 5 (-5) 20 5 37 40).
Proof.
  split; [|split; [|vm_compute; reflexivity]].
  - unfold ex_cb. constructor; [|constructor; [|constructor]]; unfold cb_ok; cbn [cb_count cb_durs cb_offs]; lens;
      (split; [lia|]; split; [lia|]; split; [lia|]); repeat constructor; lia.
  - apply Forall_forall. intros x Hx. vm_compute in Hx. intuition (subst; lia).
Qed.

(* A batch without offsets is not reported to the summary at all
   (SampleTableAtom.c:350): its time is lost and later composition times are
   too early. Here: one sample with offset 0, two without offsets, one with
   offset 0 again, 10 ticks each; the last is composed at 30, the summary says
   the end is 10. *)
Definition ex_gap : list (N * list N * option (list N)) := [(1, [10], Some [0]); (2, [10], None); (1, [10], Some [0])].
Definition gap_samples (b : N * list N * option (list N)) : list (Z * Z) :=
  combine (each (fst (fst b)) (snd (fst b)))
    (match snd b with Some os => each (fst (fst b)) os | None => repeat 0%Z (N.to_nat (fst (fst b))) end).
Theorem C41_gap_refuted :
  exists s, summary_run cslg_new ex_gap = Ok s /\ cs_end s = 10%Z /\
    is_max (ctimes 0 (flat_map gap_samples ex_gap)) 30.
Proof.
  eexists. split; [vm_compute; reflexivity|]. split; [vm_compute; reflexivity|].
  change (ctimes 0 (flat_map gap_samples ex_gap)) with [0; 10; 20; 30]%Z. split; [cbn; auto|repeat constructor; lia].
Qed.
Print Assumptions C41_gap_refuted.

(* ------------------------------------------------------------------ *)
(* C18, ctts and cslg                                                  *)

Definition ctts_layout : layout ctts := mkLayout (fun _ => code "ctts")
  (fun s => full (ct_ver s) (ct_flags s) ++ be32 (len (ct_entries s)) ++
            flat_map (fun e => be32 (fst e) ++ be32 (snd e)) (ct_entries s))
  (fun s => mkCtts (ct_ver s) (ct_flags s) (ct_entries s) false 0)
  (fun s => full_ok (ct_ver s) (ct_flags s) /\
            Forall (fun e => fst e < 4294967296 /\ snd e < 4294967296) (ct_entries s)).
Lemma ctts_robust : robust ctts_codec.
Proof. robust_tac ctts_read. Qed.
Lemma ctts_exact : exact ctts_codec ctts_layout.
Proof.
  split; [intros t _; plain|].
  intros t [Hf He] Hl. destruct t as [v f es]. cbn [ctts_codec ctts_layout c_size c_w c_rd l_body l_view c_ty ct_ver ct_flags ct_entries] in *.
  lens. assert (Hlen : len (flat_map (fun e : N * N => be32 (fst e) ++ be32 (snd e)) es) = 8 * len es)
    by (apply (len_flat_map_const _ 8); intros; lens; lia).
  rewrite Hlen in *.
  split; [unfold ctts_size; cbn [ct_entries]; unfold w32; lia|]. split.
  - unfold ctts_write; cbn [ct_ver ct_flags ct_entries]. apply writes_full_seq. apply writes_seq; [wstep|]. apply writes_map. intros; wstep.
  - unfold ctts_read. pauto. pauto. pnext.
    + unfold len. rewrite Nat2N.id. apply (parses_rrep _ (fun e => be32 (fst e) ++ be32 (snd e))); [|apply w32_lt].
      intros [c d] n Hin. rewrite Forall_forall in He. specialize (He _ Hin). cbn [fst snd] in *. pauto. pauto. pauto.
    + pauto.
Qed.
Theorem C18_ctts_round_trip :
  forall s, l_ok ctts_layout s -> 16 + 8 * len (ct_entries s) < 4294967296 -> round_trip ctts_codec ctts_layout s.
Proof.
  intros s H Hl. apply exact_round_trip; [apply ctts_exact|exact H|].
  unfold ctts_layout; cbn [l_body]. lens. rewrite (len_flat_map_const _ 8); [lia|]. intros; lens; lia.
Qed.
Print Assumptions C18_ctts_round_trip.
(* the answers do not depend on what reading back forgets *)
Theorem C18_ctts_same_answers :
  forall s n, comp_offset (Some (l_view ctts_layout s)) n = comp_offset (Some s) n.
Proof. reflexivity. Qed.
Print Assumptions C18_ctts_same_answers.
Example C18_ctts_case : l_ok ctts_layout (mkCtts 1 0 [(2, 5); (1, 4294967290)] true 3) /\
  write_box ctts_codec (mkCtts 1 0 [(2, 5); (1, 4294967290)] true 3) =
  Ok [0;0;0;32; 99;116;116;115; 1;0;0;0; 0;0;0;2; 0;0;0;2; 0;0;0;5; 0;0;0;1; 255;255;255;250].
Proof. split; [repeat constructor|vm_compute; reflexivity]. Qed.

Definition cslg_layout : layout cslg := mkLayout (fun _ => code "cslg")
  (fun s => full (cs_ver s) (cs_flags s) ++ be32 (u32_of (cs_shift s)) ++ be32 (u32_of (cs_least s)) ++
     be32 (u32_of (cs_great s)) ++ be32 (u32_of (cs_start s)) ++ be32 (u32_of (cs_end s)))
  (fun s => mkCslg (cs_ver s) (cs_flags s) (cs_shift s) (cs_least s) (cs_great s) (cs_start s) (cs_end s) 0)
  (fun s => full_ok (cs_ver s) (cs_flags s) /\ in32 (cs_shift s) /\ in32 (cs_least s) /\ in32 (cs_great s) /\
            in32 (cs_start s) /\ in32 (cs_end s)).
Lemma cslg_robust : robust cslg_codec.
Proof. robust_tac cslg_read. Qed.
Lemma u32_of_lt z : u32_of z < 4294967296. Proof. unfold u32_of. lia. Qed.
Lemma cslg_exact : exact cslg_codec cslg_layout.
Proof.
  split; [intros t _; plain|].
  intros t (Hf & H1 & H2 & H3 & H4 & H5) Hl. destruct t as [v f a b c d e tot].
  cbn [cslg_codec cslg_layout c_size c_w c_rd l_body l_view c_ty cs_ver cs_flags cs_shift cs_least cs_great cs_start cs_end] in *.
  split; [reflexivity|]. split.
  - unfold cslg_write; cbn [cs_ver cs_flags cs_shift cs_least cs_great cs_start cs_end]. apply writes_full_seq. wstep.
  - unfold cslg_read. pauto. do 5 (pnext; [apply parses_get32, u32_of_lt|]). rewrite !s32_u32 by assumption. pauto.
Qed.
Theorem C18_cslg_round_trip :
  forall s, l_ok cslg_layout s -> round_trip cslg_codec cslg_layout s.
Proof. intros s H. apply exact_round_trip; [apply cslg_exact|exact H|]. unfold cslg_layout; cbn [l_body]. lens. lia. Qed.
Print Assumptions C18_cslg_round_trip.
Example C18_cslg_case : l_ok cslg_layout (mkCslg 0 0 5 (-5) 20 5 37 40).
Proof. cbn. unfold full_ok, in32. lia. Qed.

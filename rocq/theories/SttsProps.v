(* SttsProps.v -- decoding times: C07, C08, C09 and the stts part of C18. *)
From Verif Require Import Base Codec AtomModel AtomProofs BoxModel BoxSpec BoxProofs SttsModel SttsSpec SttsProofs.

(* ------------------------------------------------------------------ *)
(* C07: every history of additions, extensions and questions            *)

(* [sruns [] os] answers the questions from the plain list of durations:
   decoding time = sum of the earlier durations. *)
Theorem C07_times_are_sums :
  forall os, legal [] os -> run stts_new os = Ok (sruns [] os).
Proof.
  intros os H. apply run_refines; try assumption; try constructor; try reflexivity.
  - constructor.
  - intros E; discriminate.
  - intros _ E; discriminate.
Qed.
Print Assumptions C07_times_are_sums.

Definition ex_hist : list sop :=
  [OAdd 3 [10]; OTime 2; OAdd 2 [20; 30]; OTime 5; OTime 1; OExtend 7; OTime 5; OAdd 1 [37]; OTotal; OTime 6; OTime 9; OTime 4].
Definition legalb (l : list N) (os : list sop) : bool :=
  (fix go l os := match os with
   | [] => true
   | o :: r =>
      let l' := fst (sstep l o) in
      (total l' <? 4294967296) && forallb (fun d => d <? 2147483648) l' && (len l' <? 4294967295) &&
      (match o with
       | OAdd c ds => ((len ds =? 1) || (c <=? len ds)) && (c <? 4294967296)
       | OExtend d => negb (len l =? 0)
       | OTime n => (1 <=? n) && (n <? 4294967296) && ((n <=? len l) || negb (existsb grows r))
       | OTotal => true
       end) && go l' r
   end) l os.
Lemma legalb_ok os : forall l, legalb l os = true -> legal l os.
Proof.
  induction os as [|o os IH]; intros l H; [exact I|].
  change (legalb l (o :: os)) with
   (let l' := fst (sstep l o) in
      (total l' <? 4294967296) && forallb (fun d => d <? 2147483648) l' && (len l' <? 4294967295) &&
      (match o with
       | OAdd c ds => ((len ds =? 1) || (c <=? len ds)) && (c <? 4294967296)
       | OExtend d => negb (len l =? 0)
       | OTime n => (1 <=? n) && (n <? 4294967296) && ((n <=? len l) || negb (existsb grows os))
       | OTotal => true
       end) && legalb l' os) in H. cbv zeta in H.
  repeat (apply andb_true_iff in H; destruct H as [H ?]). cbn [legal].
  split; [lia|]. split.
  { apply Forall_forall. intros x Hx. rewrite forallb_forall in *. match goal with Q : forall x, _ -> _ |- _ => specialize (Q x Hx); lia end. }
  split; [lia|]. split; [|apply IH; assumption].
  destruct o as [c ds|d|n|]; cbn beta iota in *; [unfold batch_ok; lia| | |exact I].
  - intros ->. discriminate.
  - destruct (existsb grows os); cbn [negb] in *; lia.
Qed.
Example C07_case : legal [] ex_hist /\
  run stts_new ex_hist = Ok [RDone; RTime 10 10; RDone; RTime 50 30; RTime 0 10; RDone; RTime 50 37; RDone;
    RTotal 124; RTime 87 37; RTime 18446744073709551615 0; RTime 30 20].
Proof. split; [apply legalb_ok; vm_compute; reflexivity|vm_compute; reflexivity]. Qed.

(* Outside those bounds the sums are wrong: a run of two samples of 2^31
   ticks each is counted as no time at all. *)
Theorem C07_long_run_refuted :
  run stts_new [OAdd 2 [2147483648]; OAdd 1 [5]; OTime 3] <> Ok (sruns [] [OAdd 2 [2147483648]; OAdd 1 [5]; OTime 3]) /\
  run stts_new [OAdd 2 [2147483648]; OAdd 1 [5]; OTime 3] = Ok [RDone; RDone; RTime 0 5].
Proof. split; [vm_compute; discriminate|vm_compute; reflexivity]. Qed.
Print Assumptions C07_long_run_refuted.

(* ------------------------------------------------------------------ *)
(* C08: lookups do not influence one another                            *)

Fixpoint lookups (s : stts) (ns : list N) : list (N * Z) :=
  match ns with [] => [] | n :: r => let '(x, s') := stts_time s n in x :: lookups s' r end.

(* any table (as read from a file: totals may need 64 bits, counts may be 0),
   any sequence of lookups in any order, in or out of range *)
Theorem C08_lookup_order_irrelevant :
  forall s ns, tab_ok (st_entries s) -> len (st_entries s) < 4294967296 -> st_found s = false ->
  Forall (fun n => 1 <= n < 4294967296) ns ->
  lookups s ns = map (fun n =>
    match dur (expand (st_entries s)) n with
    | Some d => (dts (expand (st_entries s)) n, s32_of d)
    | None => (18446744073709551615, 0%Z)
    end) ns.
Proof.
  intros s ns Hok Hlen Hf Hn.
  assert (C : cache_ok s) by (intros E; congruence). clear Hf.
  revert s Hok Hlen C. induction ns as [|n ns IH]; intros s Hok Hlen C; [reflexivity|].
  inversion_clear Hn as [|? ? H1 H2]. cbn [lookups map].
  destruct (stts_time_ok s n Hok Hlen C H1) as (s' & E & E1 & E2 & _). rewrite E. cbn [fst snd].
  rewrite IH; rewrite ?E1; auto.
Qed.
Print Assumptions C08_lookup_order_irrelevant.
Example C08_order_case :
  let s := mkStts 0 0 [(3, 10); (0, 7); (2, 20)] false 0 0 0 in
  tab_ok (st_entries s) /\ lookups s [5; 1; 4; 9; 3; 5] = [(50, 20%Z); (0, 10%Z); (30, 20%Z); (18446744073709551615, 0%Z); (20, 10%Z); (50, 20%Z)].
Proof. split; [repeat split; repeat constructor|]; vm_compute; reflexivity. Qed.

(* while samples are being added: a question gets the same answer whether or
   not other questions were asked before *)
Definition final_answer (os : list sop) : option sout :=
  match run stts_new os with Ok l => Some (last l RDone) | _ => None end.

Lemma sruns_last os n : forall l, last (sruns l (os ++ [OTime n])) RDone = snd (sstep (fold_left (fun l o => fst (sstep l o)) os l) (OTime n)).
Proof.
  induction os as [|o os IH]; intros l; [reflexivity|].
  cbn [app sruns fold_left]. rewrite <- IH. destruct (os ++ [OTime n]) eqn:E; [destruct os; discriminate|].
  cbn [sruns last]. reflexivity.
Qed.
Lemma state_filter os : forall l, fold_left (fun l o => fst (sstep l o)) (filter grows os) l = fold_left (fun l o => fst (sstep l o)) os l.
Proof.
  induction os as [|o os IH]; intros l; [reflexivity|]. cbn [filter fold_left].
  destruct o; cbn [grows]; cbn [fold_left]; apply IH.
Qed.
Lemma legal_filter os n : forall l, legal l (os ++ [OTime n]) -> legal l (filter grows os ++ [OTime n]).
Proof.
  induction os as [|o os IH]; intros l H; [exact H|].
  cbn [app legal] in H. destruct H as (H1 & H1' & H2 & H3 & H4). cbn [filter].
  destruct o; cbn [grows]; cbn [app legal]; try (apply IH; assumption).
  - repeat split; try assumption; try (apply IH; assumption); apply H3.
  - repeat split; try assumption; apply IH; assumption.
Qed.

Theorem C08_cache_transparent :
  forall os n, legal [] (os ++ [OTime n]) ->
  final_answer (os ++ [OTime n]) = final_answer (filter grows os ++ [OTime n]).
Proof.
  intros os n H. unfold final_answer.
  rewrite (C07_times_are_sums _ H), (C07_times_are_sums _ (legal_filter os n [] H)).
  rewrite !sruns_last, state_filter. reflexivity.
Qed.
Print Assumptions C08_cache_transparent.
Example C08_case : legal [] (ex_hist ++ [OTime 3]) /\ final_answer (ex_hist ++ [OTime 3]) = Some (RTime 20 10).
Proof. split; [apply legalb_ok; vm_compute; reflexivity|vm_compute; reflexivity]. Qed.

(* The claim is false for questions about samples that do not exist yet:
   asking about sample 5 of 1, then growing the last run, loses sample 3. *)
Theorem C08_stale_cache_refuted :
  final_answer [OAdd 1 [10]; OTime 5; OAdd 2 [10]; OTime 3] = Some (RTime 18446744073709551615 0) /\
  final_answer [OAdd 1 [10]; OAdd 2 [10]; OTime 3] = Some (RTime 20 10).
Proof. split; vm_compute; reflexivity. Qed.
Print Assumptions C08_stale_cache_refuted.

(* ------------------------------------------------------------------ *)
(* C09: from media time to sample                                       *)

(* a table of positive runs whose times fit 32 bits *)
(* [find_tab] is in SttsProofs.v: counts >= 1, durations >= 1, total time
   and sample count below 2^32 *)

(* the sample decoded at a time exists and is unique (specification) *)
Theorem C09_covering_sample_unique :
  forall l t, t < total l -> exists k, covers l k t /\ k <= len l /\ forall k', covers l k' t -> k' = k.
Proof.
  intros l t H. destruct (covers_exists l t H) as (k & K1 & K2). exists k. split; [exact K1|]. split; [exact K2|].
  intros k' K. eapply covers_unique; eassumption.
Qed.
Print Assumptions C09_covering_sample_unique.

(* the search: number, duration and start of the next sample are those of
   the covering sample; the prior sample is the covering one, or, when the
   time is reported as exact, the one before *)
Theorem C09_search_finds_covering_sample :
  forall s t, find_tab (st_entries s) -> t < total (expand (st_entries s)) ->
  let l := expand (st_entries s) in let r := stts_find s t in
  covers l (f_num r) t /\
  (exists d, dur l (f_num r) = Some d /\ f_dur r = Some (s32_of d) /\ f_next r = Z.of_N (dts l (f_num r) + d)) /\
  (f_exact r = Z.of_N t /\ f_prior r = prior_start l (f_num r) /\ t = dts l (f_num r) /\ run_start (st_entries s) (f_num r) \/
   f_exact r = (-1)%Z /\ f_prior r = Z.of_N (dts l (f_num r)) /\
     ~ (run_start (st_entries s) (f_num r) /\ t = dts l (f_num r))).
Proof.
  intros s t F Ht l r. destruct (stts_find_ok s t F Ht) as (k & d & K1 & K2 & K3 & K).
  fold l in K2, K3, K. fold r in K.
  destruct K as [(A1 & A2 & E)|(A1 & E)]; rewrite E; cbn [f_num f_dur f_next f_exact f_prior].
  - split; [split; [lia|]; exists d; auto|]. split; [exists d; rewrite A2; auto|]. left; auto.
  - split; [split; [lia|]; exists d; auto|]. split; [exists d; auto|]. right; auto.
Qed.
Print Assumptions C09_search_finds_covering_sample.

Theorem C09_sample_number :
  forall s t, find_tab (st_entries s) -> Forall (fun e => snd e < 2147483648) (st_entries s) ->
  t < total (expand (st_entries s)) ->
  exists k d x, media_time_to_sample s t = Ok (k, x, Some (Z.of_N d)) /\
    covers (expand (st_entries s)) k t /\ dur (expand (st_entries s)) k = Some d /\
    (* the reported decoding time is right exactly for the first sample of a run *)
    (run_start (st_entries s) k /\ x = dts (expand (st_entries s)) k \/
     ~ run_start (st_entries s) k /\ x = 18446744073709551615).
Proof.
  intros s t F Hd Ht. destruct (media_time_ok s t F Ht) as (k & d & x & A & B & C & D).
  exists k, d, x. rewrite C. split; [|auto]. do 3 f_equal. apply s32_small.
  unfold dur in B. apply nth_error_In in B. unfold expand in B. apply in_flat_map in B. destruct B as ([c d'] & B1 & B2).
  cbn [fst snd] in B2. apply repeat_spec in B2. subst. rewrite Forall_forall in Hd. apply (Hd _ B1).
Qed.
Print Assumptions C09_sample_number.

(* at or after the end the number of a sample that does not exist is returned *)
Theorem C09_past_end :
  forall s t, find_tab (st_entries s) -> st_entries s <> [] ->
  total (expand (st_entries s)) <= t < 9223372036854775808 ->
  exists d, media_time_to_sample s t =
    Ok (1 + len (expand (st_entries s)), total (expand (st_entries s)), Some d).
Proof.
  intros s t F Hne Ht. destruct (media_time_past s t F Hne Ht) as (d & _ & E). eauto.
Qed.
Print Assumptions C09_past_end.

Definition ex_tab : stts := mkStts 0 0 [(3, 10); (2, 20)] false 0 0 0.
Example C09_case : find_tab (st_entries ex_tab) /\
  media_time_to_sample ex_tab 34 = Ok (4, 30, Some 20%Z) /\ media_time_to_sample ex_tab 0 = Ok (1, 0, Some 10%Z) /\
  media_time_to_sample ex_tab 70 = Ok (6, 70, Some 20%Z).
Proof. split; [constructor; repeat constructor; vm_compute; discriminate|]. repeat split; vm_compute; reflexivity. Qed.

(* the decoding time returned for a later sample of a run is all ones *)
Theorem C09_decoding_time_refuted :
  media_time_to_sample ex_tab 15 = Ok (2, 18446744073709551615, Some 10%Z) /\ covers (expand (st_entries ex_tab)) 2 15 /\
  dts (expand (st_entries ex_tab)) 2 = 10.
Proof.
  split; [vm_compute; reflexivity|]. split; [|vm_compute; reflexivity].
  split; [lia|]. exists 10. split; [reflexivity|]. vm_compute. split; [discriminate|reflexivity].
Qed.
Print Assumptions C09_decoding_time_refuted.

(* searching forward gives the start of the next sample; with EdgeOK and a
   time reported as exact, the time itself *)
Theorem C09_forward_search :
  forall s t edge, find_tab (st_entries s) -> t < total (expand (st_entries s)) ->
  exists k, covers (expand (st_entries s)) k t /\
  (next_interesting s edge true t = dts (expand (st_entries s)) (k + 1) \/
   next_interesting s edge true t = t /\ edge = true /\ t = dts (expand (st_entries s)) k).
Proof.
  intros s t edge F Ht. destruct (stts_find_ok s t F Ht) as (k & d & K1 & K2 & K3 & K).
  exists k. split; [split; [lia|]; exists d; auto|]. pose proof (ft_total _ F) as Htot.
  pose proof (dts_succ _ _ _ K1 K2) as Hs.
  assert (Hle : dts (expand (st_entries s)) (k + 1) <= total (expand (st_entries s))) by apply total_firstn_le.
  unfold next_interesting. destruct K as [(A1 & A2 & E)|(A1 & E)]; rewrite E; cbn [f_num f_dur f_next f_exact f_prior].
  - destruct (Z.leb_spec 0 (Z.of_N t)); [|lia]. destruct edge; cbn [andb].
    + right. split; [unfold u64_of; lia|auto].
    + left. rewrite Hs. unfold u64_of. lia.
  - change (0 <=? -1)%Z with false. cbn [andb]. left. rewrite Hs. unfold u64_of. lia.
Qed.
Print Assumptions C09_forward_search.

(* At the start of a later sample of a run: EdgeOK does not give the time
   itself, and searching backward returns the time one started from. *)
Theorem C09_edge_search_refuted :
  dts (expand (st_entries ex_tab)) 2 = 10 /\
  next_interesting ex_tab true true 10 = 20 /\ next_interesting ex_tab false false 10 = 10.
Proof. repeat split; vm_compute; reflexivity. Qed.
Print Assumptions C09_edge_search_refuted.

(* ------------------------------------------------------------------ *)
(* C18, stts                                                           *)

Definition stts_layout : layout stts := mkLayout (fun _ => code "stts")
  (fun s => full (st_ver s) (st_flags s) ++ be32 (len (st_entries s)) ++
            flat_map (fun e => be32 (fst e) ++ be32 (snd e)) (st_entries s))
  (fun s => mkStts (st_ver s) (st_flags s) (st_entries s) false 0 0 0)
  (fun s => full_ok (st_ver s) (st_flags s) /\
            Forall (fun e => fst e < 4294967296 /\ snd e < 4294967296) (st_entries s)).

Lemma stts_robust : robust stts_codec.
Proof. robust_tac stts_read. Qed.
Lemma stts_exact : exact stts_codec stts_layout.
Proof.
  split; [intros t _; plain|].
  intros t [Hf He] Hl. destruct t as [v f es]. cbn [stts_codec stts_layout c_size c_w c_rd l_body l_view c_ty st_ver st_flags st_entries] in *.
  lens. assert (Hlen : len (flat_map (fun e : N * N => be32 (fst e) ++ be32 (snd e)) es) = 8 * len es)
    by (apply (len_flat_map_const _ 8); intros; lens; lia).
  rewrite Hlen in *.
  split; [unfold stts_size; cbn [st_entries]; unfold w32; lia|]. split.
  - unfold stts_write; cbn [st_ver st_flags st_entries]. apply writes_full_seq. apply writes_seq; [wstep|]. apply writes_map. intros; wstep.
  - unfold stts_read. pauto. pauto.
    pnext.
    + unfold len. rewrite Nat2N.id. apply (parses_rrep _ (fun e => be32 (fst e) ++ be32 (snd e))); [|apply w32_lt].
      intros [c d] n Hin. rewrite Forall_forall in He. specialize (He _ Hin). cbn [fst snd] in *. pauto. pauto. pauto.
    + pauto.
Qed.

Theorem C18_stts_round_trip :
  forall s, l_ok stts_layout s -> 16 + 8 * len (st_entries s) < 4294967296 -> round_trip stts_codec stts_layout s.
Proof.
  intros s H Hl. apply exact_round_trip; [apply stts_exact|exact H|].
  unfold stts_layout; cbn [l_body]. lens. rewrite (len_flat_map_const _ 8); [lia|]. intros; lens; lia.
Qed.
Print Assumptions C18_stts_round_trip.
Example C18_stts_case : l_ok stts_layout ex_tab /\ write_box stts_codec ex_tab =
  Ok [0;0;0;32; 115;116;116;115; 0;0;0;0; 0;0;0;2; 0;0;0;3; 0;0;0;10; 0;0;0;2; 0;0;0;20].
Proof. split; [repeat constructor|vm_compute; reflexivity]. Qed.

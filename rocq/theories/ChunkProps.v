(* ChunkProps.v -- C13 (sample to chunk), C14 (chunk offsets). *)
From Verif Require Import Base Codec BitLemmas AtomModel AtomSpec AtomProofs BoxModel BoxSpec BoxProofs ChunkSpec ChunkModel ChunkProofs.

(* ------------------------------------------------------------------ *)
(* C13                                                                 *)

(* Answers wanted for a history over the chunks [ch]: for every sample that
   exists the number of its chunk and the first sample of that chunk. The
   description index is that of the chunk holding the sample before it (see
   C13_description and C13_description_refuted). *)
Fixpoint answers_ok (ch : list chunk) (os : list cop) (rs : list (res (option (N * N * option N)))) : Prop :=
  match os, rs with
  | [], [] => True
  | CAdd s d :: os', r :: rs' => r = Ok None /\ answers_ok (ch ++ [(s, d)]) os' rs'
  | CLook n :: os', r :: rs' =>
      (exists c d fs, r = Ok (Some (c, d, Some fs)) /\
        (n <= samples ch ->
         (exists d0, chunk_of_sample ch n = Some (c, fs, d0)) /\
         description_of_sample ch (if n =? 1 then 1 else n - 1) = Some d)) /\
      answers_ok ch os' rs'
  | _, _ => False
  end.

(* Start from any table of runs with rising first chunks, as read from a
   file, or from an empty one; then any sequence of new chunks and lookups, in
   any order. *)
Theorem C13_sample_to_chunk :
  forall v f es k os, table_ok es k -> samples (chunks_of es k) < 4294967295 -> cops_ok (chunks_of es k) os ->
  answers_ok (chunks_of es k) os (stsc_run (mkStsc v f es 0 0) k os).
Proof.
  intros v f es k os Ht Hs Ho.
  assert (I : stsc_inv (mkStsc v f es 0 0) k (chunks_of es k)).
  { split; [exact Ht|]. split; [reflexivity|]. split; [exact Hs|left; reflexivity]. }
  clear Ht Hs. revert Ho I. generalize (mkStsc v f es 0 0) as t. generalize (chunks_of es k) as ch. revert k.
  induction os as [|[s d|n] os IH]; intros k ch t Ho I; cbn [cops_ok cop_ok cgrow stsc_run answers_ok] in *.
  - exact Logic.I.
  - destruct Ho as [(H1 & H2 & H3) Ho]. split; [reflexivity|]. apply IH; [exact Ho|]. apply stsc_inv_add; assumption.
  - destruct Ho as [(H1 & H2) Ho]. destruct (stsc_inv_lookup t k ch n I H1 H2) as (c & d & fs & t' & E & I' & A).
    rewrite E. split; [exists c, d, fs; split; [reflexivity|exact A]|]. apply IH; assumption.
Qed.
Print Assumptions C13_sample_to_chunk.
Definition ex_cops : list cop := [CAdd 3 1; CAdd 3 1; CLook 5; CAdd 2 1; CLook 7; CLook 8; CLook 1; CAdd 2 2; CLook 9; CLook 10].
Example C13_case : table_ok [] 1 /\ cops_ok [] ex_cops /\
  stsc_run stsc_new 1 ex_cops =
  [Ok None; Ok None; Ok (Some (2, 1, Some 4)); Ok None; Ok (Some (3, 1, Some 7)); Ok (Some (3, 1, Some 7)); Ok (Some (1, 1, Some 1));
   Ok None; Ok (Some (4, 1, Some 9)); Ok (Some (4, 2, Some 9))].
Proof.
  split; [cbn; repeat split; lia|]. split; [|vm_compute; reflexivity].
  unfold ex_cops. cbn [cops_ok cop_ok cgrow app samples fold_right fst len length]. lens. repeat split; try lia; discriminate.
Qed.
Example C13_table_case : table_ok [(1, 3, 1); (3, 2, 2)] 5 /\
  stsc_run (mkStsc 0 0 [(1, 3, 1); (3, 2, 2)] 0 0) 5 [CLook 9; CLook 2] = [Ok (Some (4, 2, Some 9)); Ok (Some (1, 1, Some 1))].
Proof. split; [cbn; repeat split; lia|vm_compute; reflexivity]. Qed.

(* The description index is right for every sample that is not the first of
   its chunk, and for all samples if all chunks use one description. *)
Lemma locate_prev ch : forall m j b d, locate ch m = Some (j, b, d) -> b < m ->
  exists d', locate ch (m - 1) = Some (j, b, d') /\ d' = d.
Proof.
  induction ch as [|[s d0] ch IH]; intros m j b d H Hb; cbn [locate] in *; [discriminate|].
  destruct (N.ltb_spec m s) as [Hm|Hm].
  - injection H as <- <- <-. destruct (N.ltb_spec (m - 1) s); [|lia]. eauto.
  - destruct (locate ch (m - s)) as [[[j1 b1] d1]|] eqn:E; [|discriminate]. injection H as <- <- <-.
    destruct (N.ltb_spec (m - 1) s) as [H2|H2]; [lia|].
    destruct (IH _ _ _ _ E ltac:(lia)) as (d' & L & ->).
    replace (m - 1 - s) with (m - s - 1) by lia. rewrite L. eauto.
Qed.
Theorem C13_description :
  forall ch n c fs d0, 1 <= n -> chunk_of_sample ch n = Some (c, fs, d0) -> fs <> n \/ n = 1 ->
  description_of_sample ch (if n =? 1 then 1 else n - 1) = Some d0.
Proof.
  intros ch n c fs d0 Hn H Hc. unfold chunk_of_sample, description_of_sample in *.
  destruct (locate ch (n - 1)) as [[[j b] d]|] eqn:E; [|discriminate]. injection H as <- <- <-.
  destruct (N.eqb_spec n 1) as [->|N1]; [rewrite E; reflexivity|].
  assert (b <= n - 1).
  { clear -E. revert E. generalize (n - 1) as m. revert j b d.
    induction ch as [|[s d0] ch IH]; intros j b d m H; cbn [locate] in *; [discriminate|].
    destruct (N.ltb_spec m s); [injection H as <- <- <-; lia|].
    destruct (locate ch (m - s)) as [[[j1 b1] d1]|] eqn:E; [|discriminate]. injection H as <- <- <-.
    apply IH in E. lia. }
  destruct (locate_prev _ _ _ _ _ E ltac:(lia)) as (d' & L & ->). rewrite L. reflexivity.
Qed.
Print Assumptions C13_description.
Lemma locate_desc ch : forall m j b d, locate ch m = Some (j, b, d) -> In d (map snd ch).
Proof.
  induction ch as [|[s d0] ch IH]; intros m j b d H; cbn [locate map snd] in *; [discriminate|].
  destruct (m <? s); [injection H as <- <- <-; left; reflexivity|].
  destruct (locate ch (m - s)) as [[[j1 b1] d1]|] eqn:E; [|discriminate]. injection H as <- <- <-. right. eapply IH, E.
Qed.
Theorem C13_one_description :
  forall ch d n x, (forall y, In y (map snd ch) -> y = d) -> description_of_sample ch n = Some x -> x = d.
Proof.
  intros ch d n x H E. unfold description_of_sample in E. destruct (locate ch (n - 1)) as [[[j b] d1]|] eqn:L; [|discriminate].
  injection E as <-. apply H, (locate_desc _ _ _ _ _ L).
Qed.
Print Assumptions C13_one_description.
(* Two chunks of two samples with descriptions 1 and 2: sample 3, the first
   of the second chunk, is reported with description 1. *)
Theorem C13_description_refuted :
  let t := mkStsc 0 0 [(1, 2, 1); (2, 2, 2)] 0 0 in
  table_ok (sc_entries t) 3 /\ description_of_sample (chunks_of (sc_entries t) 3) 3 = Some 2 /\
  exists t', stsc_lookup t 3 = Ok ((2, 1, Some 3), t').
Proof. split; [cbn; repeat split; lia|]. split; [reflexivity|]. eexists. vm_compute. reflexivity. Qed.
Print Assumptions C13_description_refuted.
(* A run of chunks without samples, which a file may contain, divides by zero. *)
Theorem C13_empty_chunk_refuted : exists t, stsc_lookup t 1 = UB /\ sc_entries t = [(1, 0, 1)].
Proof. exists (mkStsc 0 0 [(1, 0, 1)] 0 0). split; vm_compute; reflexivity. Qed.
Print Assumptions C13_empty_chunk_refuted.

(* The box: reading goes through setEntry, which merges neighbouring runs
   that do not differ; the chunks described stay the same. *)
Fixpoint distinct (es : list run) : Prop :=
  match es with
  | [] => True
  | (_, s, d) :: r => match r with [] => True | (_, s2, d2) :: _ => (s, d) <> (s2, d2) end /\ distinct r
  end.
Definition enc_run (e : run) : list N := let '(f, s, d) := e in be32 f ++ be32 s ++ be32 d.
Definition run_ok (e : run) : Prop := let '(f, s, d) := e in f < 4294967296 /\ s < 4294967296 /\ d < 4294967296.
Definition stsc_layout : layout stsc := mkLayout (fun _ => code "stsc")
  (fun t => full (sc_ver t) (sc_flags t) ++ be32 (len (sc_entries t)) ++ flat_map enc_run (sc_entries t))
  (fun t => mkStsc (sc_ver t) (sc_flags t) (set_runs (sc_entries t)) 0 0)
  (fun t => full_ok (sc_ver t) (sc_flags t) /\ Forall run_ok (sc_entries t)).
Lemma stsc_robust : robust stsc_codec.
Proof. robust_tac stsc_read; unfold get_run; [cons_step|tame_step]. Qed.
Lemma len_enc_run es : len (flat_map enc_run es) = 12 * len es.
Proof. apply (len_flat_map_const _ 12). intros [[f s] d]. unfold enc_run. lens. lia. Qed.
Lemma stsc_exact : exact stsc_codec stsc_layout.
Proof.
  split; [intros t _; plain|].
  intros t [Hf He] Hl. destruct t as [v f es a b]. cbn [stsc_codec stsc_layout c_size c_w c_rd l_body l_view c_ty sc_ver sc_flags sc_entries] in *.
  lens. rewrite len_enc_run in *.
  split; [unfold stsc_size; cbn [sc_entries]; unfold w32; lia|]. split.
  - unfold stsc_write; cbn [sc_ver sc_flags sc_entries]. apply writes_full_seq. apply writes_seq; [wstep|]. apply writes_map.
    intros [[x y] z] _. unfold put_run, enc_run. wstep.
  - unfold stsc_read. pauto. pauto. pnext.
    + unfold len. rewrite Nat2N.id. apply (parses_rrep _ enc_run); [|apply w32_lt].
      intros [[x y] z] n Hin. rewrite Forall_forall in He. specialize (He _ Hin). cbn in He. unfold get_run, enc_run.
      pauto. pauto. pauto. pauto.
    + pauto.
Qed.
Theorem C13_stsc_round_trip :
  forall t, l_ok stsc_layout t -> 16 + 12 * len (sc_entries t) < 4294967296 -> round_trip stsc_codec stsc_layout t.
Proof.
  intros t H Hl. apply exact_round_trip; [apply stsc_exact|exact H|].
  unfold stsc_layout; cbn [l_body]. lens. rewrite len_enc_run. lia.
Qed.
Print Assumptions C13_stsc_round_trip.

(* what merging does *)
Lemma set_runs_snoc es f s d : set_runs (es ++ [(f, s, d)]) = set_run (set_runs es) f s d.
Proof. unfold set_runs. rewrite fold_left_app. reflexivity. Qed.
Lemma set_runs_chunks es : forall k, rising es k ->
  rising (set_runs es) k /\ chunks_of (set_runs es) k = chunks_of es k /\ hd_chunk (set_runs es) = hd_chunk es /\
  (es <> [] -> set_runs es <> []).
Proof.
  induction es as [|[[f s] d] es IH] using rev_ind; intros k H; [repeat split; congruence|].
  rewrite set_runs_snoc. destruct es as [|e0 es0] eqn:Ee.
  { cbn [app set_runs fold_left set_run]. repeat split; try discriminate; cbn in *; lia. }
  rewrite <- Ee in *. assert (Hne : es <> []) by (rewrite Ee; discriminate). clear Ee e0 es0.
  destruct (rising_app es [(f, s, d)] k ltac:(discriminate) H) as [Hf Hr]. cbn [hd_chunk] in Hr.
  destruct (IH f Hr) as (A & B & C & D). specialize (D Hne).
  rewrite chunks_app by discriminate. cbn [hd_chunk chunks_of]. rewrite <- B.
  replace (hd_chunk (es ++ [(f, s, d)])) with (hd_chunk es) by (destruct es; [congruence|reflexivity]). rewrite <- C.
  destruct (exists_last D) as (l & [[f0 s0] d0] & E). rewrite E in *. clear E B C D IH Hr.
  rewrite set_run_snoc. cbn [rising] in Hf.
  assert (Hf0 : f0 < f) by (apply rising_app in A; [|discriminate]; destruct A as [A _]; cbn in A; lia).
  destruct (N.eqb_spec s0 s) as [->|Ns]; [destruct (N.eqb_spec d0 d) as [->|Nd]|]; cbn [andb].
  - split; [apply (rising_snoc _ _ _ _ f); [exact A|lia]|]. split; [|split; [destruct l; reflexivity|intros _; destruct l; discriminate]].
    rewrite !chunks_app by discriminate. cbn [hd_chunk chunks_of]. rewrite <- app_assoc, <- repeat_app. do 2 f_equal. lia.
  - replace (l ++ [(f0, s, d0); (f, s, d)]) with ((l ++ [(f0, s, d0)]) ++ [(f, s, d)]) by (rewrite <- app_assoc; reflexivity).
    split; [pose proof (rising_add l f0 s d0 f s d A ltac:(lia)) as R; apply (rising_snoc _ _ _ _ (f + 1)); [exact R|lia]|].
    split; [rewrite chunks_app by discriminate; reflexivity|]. split; [destruct l; reflexivity|intros _; destruct l; discriminate].
  - replace (l ++ [(f0, s0, d0); (f, s, d)]) with ((l ++ [(f0, s0, d0)]) ++ [(f, s, d)]) by (rewrite <- app_assoc; reflexivity).
    split; [pose proof (rising_add l f0 s0 d0 f s d A ltac:(lia)) as R; apply (rising_snoc _ _ _ _ (f + 1)); [exact R|lia]|].
    split; [rewrite chunks_app by discriminate; reflexivity|]. split; [destruct l; reflexivity|intros _; destruct l; discriminate].
Qed.
(* A table read back describes the same chunks, so (by C13_sample_to_chunk)
   every lookup gives the same chunk, first sample and description. *)
Theorem C13_same_chunks :
  forall t k, table_ok (sc_entries t) k ->
  table_ok (sc_entries (l_view stsc_layout t)) k /\
  chunks_of (sc_entries (l_view stsc_layout t)) k = chunks_of (sc_entries t) k.
Proof.
  intros t k (A & B & C). cbn [stsc_layout l_view sc_entries]. destruct (set_runs_chunks _ k A) as (A' & B' & C' & D').
  split; [|exact B']. split; [exact A'|]. split; [exact B|].
  destruct (sc_entries t) as [|[[f s] d] es]; [exact C|].
  specialize (D' ltac:(discriminate)). destruct (set_runs _) as [|[[f2 s2] d2] es2]; [congruence|]. cbn [hd_chunk] in C'. congruence.
Qed.
Print Assumptions C13_same_chunks.
Example C13_stsc_case :
  let t := mkStsc 0 0 [(1, 3, 1); (3, 3, 1); (4, 2, 2)] 1 4 in
  l_ok stsc_layout t /\ table_ok (sc_entries t) 6 /\ l_view stsc_layout t = mkStsc 0 0 [(1, 3, 1); (4, 2, 2)] 0 0.
Proof.
  cbv zeta. split; [|split; [cbn; repeat split; lia|reflexivity]].
  split; [cbn; unfold full_ok; lia|]. repeat constructor; cbn; lia.
Qed.

(* ------------------------------------------------------------------ *)
(* C14                                                                 *)

Definition needs64 (l : list N) : Prop := Exists (fun x => 4294967296 <= x) l.
Definition stco_layout : layout stco := mkLayout
  (fun t => if existsb (fun x => 4294967296 <=? x) (co_list t) then code "co64" else code "stco")
  (fun t => full (co_ver t) (co_flags t) ++ be32 (len (co_list t)) ++
            flat_map (if existsb (fun x => 4294967296 <=? x) (co_list t) then be64 else be32) (co_list t))
  (fun t => t)
  (fun t => full_ok (co_ver t) (co_flags t) /\ Forall (fun x => x < 18446744073709551616) (co_list t)).

Lemma stco_large_spec l : stco_large l = true <-> needs64 l.
Proof.
  unfold needs64. induction l as [|x l IH]; cbn [stco_large]; [split; intros H; [discriminate|inversion H]|].
  rewrite shiftr_div. change (2 ^ 32) with 4294967296. destruct (N.eqb_spec (x / 4294967296) 0) as [E|E]; cbn [negb].
  - rewrite IH, Exists_cons. split; [auto|intros [H|H]; [lia|exact H]].
  - rewrite Exists_cons. split; [intros _; left; lia|reflexivity].
Qed.
Theorem C14_promotion :
  forall t, (stco_type t = code "co64" <-> needs64 (co_list t)) /\ (stco_type t = code "stco" <-> ~ needs64 (co_list t)).
Proof.
  intros t. unfold stco_type. rewrite <- (stco_large_spec (co_list t)).
  destruct (stco_large (co_list t)); split; split; intros H; try reflexivity; try congruence; try discriminate.
Qed.
Print Assumptions C14_promotion.

Lemma large_exists l : stco_large l = existsb (fun x => 4294967296 <=? x) l.
Proof.
  apply eq_true_iff_eq. rewrite stco_large_spec. unfold needs64. rewrite Exists_exists, existsb_exists.
  split; intros (x & A & B); exists x; (split; [exact A|]); apply N.leb_le; assumption.
Qed.
Lemma stco_robust : robust stco_codec.
Proof. robust_tac stco_read. Qed.
Lemma stco_exact : exact stco_codec stco_layout.
Proof.
  split; [intros t _; cbn [stco_codec c_ty c_known stco_layout l_view l_ty]; unfold stco_type; rewrite <- large_exists; destruct (stco_large _); plain|].
  intros t [Hf He] Hl. destruct t as [v f es].
  cbn [stco_codec stco_layout c_size c_w c_rd l_body l_view c_ty co_ver co_flags co_list] in *.
  rewrite <- large_exists in *.
  replace (if stco_large es then be64 else be32) with (if stco_type (mkStco v f es) =? T_stco then be32 else be64) in *
    by (unfold stco_type; cbn [co_list]; destruct (stco_large es); reflexivity).
  remember (stco_type (mkStco v f es)) as ty eqn:Ety.
  assert (Hty : ty = T_stco /\ Forall (fun x => x < 4294967296) es \/ ty = T_co64).
  { subst ty. unfold stco_type. cbn [co_list]. destruct (stco_large es) eqn:E; [right; reflexivity|left]. split; [reflexivity|].
    apply Forall_forall. intros x Hx. destruct (N.lt_ge_cases x 4294967296) as [H|H]; [exact H|].
    assert (X : stco_large es = true) by (apply stco_large_spec, Exists_exists; eauto). congruence. }
  unfold stco_size, stco_write, stco_write_as. rewrite <- Ety. cbn [co_list co_ver co_flags].
  assert (Hlen : len (flat_map (if ty =? T_stco then be32 else be64) es) = (if ty =? T_stco then 4 else 8) * len es).
  { destruct (ty =? T_stco); [apply (len_flat_map_const _ 4)|apply (len_flat_map_const _ 8)]; intros; reflexivity. }
  lens. rewrite Hlen in *. clear Ety Hlen.
  destruct Hty as [[-> Hs]| ->].
  - change (T_stco =? T_stco) with true in *. cbn iota in *. split; [unfold w32; lia|]. split.
    + apply writes_full_seq. apply writes_seq; [wstep|]. apply writes_map. intros x Hx. rewrite Forall_forall in Hs. rewrite (w32_small x) by auto. wstep.
    + unfold stco_read. cbn [h_type]. change (T_stco =? T_stco) with true. cbn iota. pauto. pauto. pnext.
      * unfold len. rewrite Nat2N.id. apply (parses_rrep _ be32); [|apply w32_lt]. intros x n Hin. rewrite Forall_forall in Hs. pauto. auto.
      * pauto.
  - change (T_co64 =? T_stco) with false in *. cbn iota in *. split; [unfold w32; lia|]. split.
    + apply writes_full_seq. apply writes_seq; [wstep|]. apply writes_map. intros x Hx. wstep.
    + unfold stco_read. cbn [h_type]. change (T_co64 =? T_stco) with false. cbn iota. pauto. pauto. pnext.
      * unfold len. rewrite Nat2N.id. apply (parses_rrep _ be64); [|apply w32_lt]. intros x n Hin. rewrite Forall_forall in He. pauto. auto.
      * pauto.
Qed.
Theorem C14_offsets_round_trip :
  forall t, l_ok stco_layout t -> 16 + 8 * len (co_list t) < 4294967296 -> round_trip stco_codec stco_layout t.
Proof.
  intros t H Hl. apply exact_round_trip; [apply stco_exact|exact H|].
  unfold stco_layout; cbn [l_body]. lens.
  destruct (existsb _ _); [rewrite (len_flat_map_const _ 8)|rewrite (len_flat_map_const _ 4)]; try lia; intros; reflexivity.
Qed.
Print Assumptions C14_offsets_round_trip.
Example C14_case : let t := mkStco 0 0 [48; 5000000000] in l_ok stco_layout t /\ stco_type t = T_co64 /\
  write_box stco_codec t = Ok (box T_co64 ([0; 0; 0; 0] ++ [0; 0; 0; 2] ++ [0; 0; 0; 0; 0; 0; 0; 48] ++ [0; 0; 0; 1; 42; 5; 242; 0])).
Proof. cbv zeta. split; [split; [cbn; unfold full_ok; lia|repeat constructor; lia]|]. split; vm_compute; reflexivity. Qed.

(* offsets are kept in order as chunks are added *)
Theorem C14_offsets_in_order :
  forall l v f, len l < 536870911 ->
  exists t, fold_left (fun r o => do t <- r; stco_add t o) l (Ok (mkStco v f [])) = Ok t /\
    (forall n o, 1 <= n -> nth_error l (N.to_nat (n - 1)) = Some o -> stco_get t n = Ok o) /\
    (forall n, n = 0 \/ len l < n -> stco_get t n = Err MP4BadParamErr).
Proof.
  intros l v f Hl. exists (mkStco v f l). split; [|split].
  - change l with ([] ++ l) at 2. assert (H0 : len (@nil N) + len l < 536870911) by (lens; lia). clear Hl. revert H0. generalize (@nil N) as a.
    induction l as [|o l IH]; intros a Ha; cbn [fold_left]; [rewrite app_nil_r; reflexivity|].
    cbn [bind]. unfold stco_add at 2. cbn [co_list co_ver co_flags]. rewrite len_cons in Ha.
    destruct (N.leb_spec 4294967296 (8 * (len a + 1))); [lia|].
    rewrite IH by (lens; lia). rewrite <- app_assoc. reflexivity.
  - intros n o Hn H. unfold stco_get. cbn [co_list]. assert (n <= len l).
    { assert (H2 : nth_error l (N.to_nat (n - 1)) <> None) by congruence. apply nth_error_Some in H2. unfold len. lia. }
    destruct (N.eqb_spec n 0); [lia|]. destruct (N.ltb_spec (len l) n); [lia|]. cbn [orb]. rewrite H. reflexivity.
  - intros n H. unfold stco_get. cbn [co_list]. destruct (N.eqb_spec n 0); [reflexivity|]. destruct (N.ltb_spec (len l) n); [reflexivity|lia].
Qed.
Print Assumptions C14_offsets_in_order.
Example C14_order_case : len [48; 5000000000; 17] < 536870911. Proof. reflexivity. Qed.

(* SyncProofs.v *)
From Verif Require Import Base Codec AtomModel AtomProofs BoxModel BoxSpec BoxProofs SyncSpec SyncModel.

(* positions of the true entries, numbered from k *)
Fixpoint positions (k : N) (l : list bool) : list N :=
  match l with [] => [] | b :: r => if b then k :: positions (k + 1) r else positions (k + 1) r end.

Lemma positions_app a : forall k b, positions k (a ++ b) = positions k a ++ positions (k + len a) b.
Proof.
  induction a as [|x a IH]; intros k b; cbn [positions app].
  - lens. replace (k + 0) with k by lia. reflexivity.
  - rewrite !IH. lens. replace (k + 1 + len a) with (k + (1 + len a)) by lia. destruct x; reflexivity.
Qed.
Lemma positions_ge l : forall k, Forall (fun x => k <= x) (positions k l).
Proof.
  induction l as [|b l IH]; intros k; cbn [positions]; [constructor|].
  assert (H : Forall (fun x => k <= x) (positions (k + 1) l)) by (eapply Forall_impl; [|apply IH]; cbn; intros; lia).
  destruct b; [constructor; [lia|exact H]|exact H].
Qed.
Lemma positions_len l : forall k, len (positions k l) <= len l.
Proof. induction l as [|b l IH]; intros k; cbn [positions]; lens; [lia|]. specialize (IH (k + 1)). destruct b; lens; lia. Qed.
Lemma positions_full l : forall k, len (positions k l) = len l -> l = repeat true (length l).
Proof.
  induction l as [|b l IH]; intros k H; cbn [positions] in *; [reflexivity|]. pose proof (positions_len l (k + 1)).
  destruct b; lens; [|lia]. cbn [length repeat]. f_equal. apply (IH (k + 1)). lia.
Qed.
Lemma positions_true n : forall k, positions k (repeat true n) = map (fun i => k + N.of_nat i) (seq 0 n).
Proof.
  induction n as [|n IH]; intros k; [reflexivity|]. cbn [repeat positions seq map]. f_equal; [lia|].
  rewrite IH, <- seq_shift, map_map. apply map_ext. intros; lia.
Qed.
Lemma prior_positions k : stss_prior k = positions 1 (repeat true (N.to_nat k)).
Proof. rewrite positions_true. unfold stss_prior. apply map_ext. intros; lia. Qed.

Lemma ascending_ge l : forall lo, ascending lo l -> Forall (fun x => lo <= x) l.
Proof.
  induction l as [|x l IH]; intros lo H; constructor; cbn [ascending] in H; destruct H as [H1 H2]; [exact H1|].
  eapply Forall_impl; [|apply IH; exact H2]. cbn; intros; lia.
Qed.
Lemma marks_positions c : forall j l k,
  ascending (N.of_nat j) l -> Forall (fun x => x < N.of_nat j + N.of_nat c) l ->
  positions k (map (fun i => existsb (N.eqb (N.of_nat i)) l) (seq j c)) = map (fun o => k + o - N.of_nat j) l.
Proof.
  induction c as [|c IH]; intros j l k Ha Hl; cbn [seq map positions].
  - destruct l as [|x l]; [reflexivity|]. cbn [ascending] in Ha. inversion_clear Hl. lia.
  - destruct l as [|x l].
    + cbn [existsb]. specialize (IH (S j) [] (k + 1) I (Forall_nil _)). cbn [map existsb] in IH. exact IH.
    + cbn [ascending] in Ha. destruct Ha as [Hx Ha]. inversion_clear Hl as [|? ? Hx' Hl'].
      cbn [existsb]. destruct (N.eqb_spec (N.of_nat j) x) as [E|E]; cbn [orb].
      * cbn [map]. f_equal; [lia|]. subst x.
        transitivity (positions (k + 1) (map (fun i => existsb (N.eqb (N.of_nat i)) l) (seq (S j) c))).
        { f_equal. apply map_ext_in. intros i Hi. apply in_seq in Hi.
          destruct (N.eqb_spec (N.of_nat i) (N.of_nat j)); [lia|reflexivity]. }
        rewrite IH.
        { apply map_ext_in. intros o Ho. apply ascending_ge in Ha. rewrite Forall_forall in Ha. specialize (Ha _ Ho). lia. }
        { replace (N.of_nat (S j)) with (N.of_nat j + 1) by lia. exact Ha. }
        { eapply Forall_impl; [|exact Hl']. cbn; intros; lia. }
      * assert (Hg : Forall (fun y => x + 1 <= y) l) by (apply ascending_ge; exact Ha).
        replace (existsb (N.eqb (N.of_nat j)) l) with false.
        { specialize (IH (S j) (x :: l) (k + 1)). cbn [existsb] in IH. rewrite IH.
          - cbn [map]. f_equal; [lia|]. apply map_ext_in. intros o Ho. rewrite Forall_forall in Hg. specialize (Hg _ Ho). lia.
          - cbn [ascending]. split; [lia|exact Ha].
          - constructor; [lia|]. eapply Forall_impl; [|exact Hl']. cbn; intros; lia. }
        { symmetry. destruct (existsb (N.eqb (N.of_nat j)) l) eqn:Ex; [|reflexivity]. apply existsb_exists in Ex.
          destruct Ex as (y & Hy & Ey). rewrite Forall_forall in Hg. specialize (Hg _ Hy). lia. }
Qed.

Lemma scan_none l n : Forall (fun x => n + 1 <= x) l -> sync_scan n l = false.
Proof.
  destruct l as [|x l]; intros H; [reflexivity|]. inversion_clear H. cbn [sync_scan].
  destruct (N.eqb_spec n x); [lia|]. destruct (N.ltb_spec n x); [reflexivity|lia].
Qed.
Lemma scan_positions l : forall k n, k <= n -> sync_scan n (positions k l) = nth (N.to_nat (n - k)) l false.
Proof.
  induction l as [|b l IH]; intros k n H; cbn [positions].
  - cbn [sync_scan]. destruct (N.to_nat (n - k)); reflexivity.
  - destruct (N.eq_dec n k) as [->|Hn].
    + replace (N.to_nat (k - k)) with 0%nat by lia. cbn [nth]. destruct b.
      * cbn [sync_scan]. rewrite N.eqb_refl. reflexivity.
      * apply scan_none. apply positions_ge.
    + replace (N.to_nat (n - k)) with (S (N.to_nat (n - (k + 1)))) by lia. cbn [nth]. destruct b.
      * cbn [sync_scan]. destruct (N.eqb_spec n k); [lia|]. destruct (N.ltb_spec n k); [lia|]. apply IH. lia.
      * apply IH. lia.
Qed.

Definition syncs (st : option stss) (L : list bool) : Prop :=
  match st with
  | None => L = repeat true (length L)
  | Some s => ss_list s = positions 1 L /\ (ss_list s = [] -> ss_nonsync s = true)
  end.

Lemma offsets_ok begin count l :
  ascending 1 l -> Forall (fun x => x <= count) l -> begin + count < 4294967296 ->
  stss_offsets begin count l = Ok (map (fun o => begin + o - 1) l).
Proof.
  intros Ha. apply ascending_ge in Ha. revert Ha.
  induction l as [|x l IH]; intros Ha Hl Hb; [reflexivity|].
  inversion_clear Hl. inversion_clear Ha. cbn [stss_offsets map].
  destruct (N.eqb_spec x 0); [lia|]. destruct (N.ltb_spec count x); [lia|]. cbn [orb].
  rewrite IH by assumption. cbn [bind]. do 2 f_equal. rewrite w32_small; lia.
Qed.

Lemma len_marks b : len (marks b) = fst b.
Proof. destruct b as [c [l|]]; unfold marks; cbn [fst snd]; lens; [|lia]. unfold len. rewrite seq_length. lia. Qed.
Lemma marks_some count l k : ascending 1 l -> Forall (fun x => x <= count) l -> 1 <= count ->
  positions (k + 1) (marks (count, Some l)) = map (fun o => k + 1 + o - 1) l.
Proof.
  intros Ha Hl Hc. unfold marks; cbn [fst snd]. rewrite (marks_positions _ 1 l (k + 1)).
  - apply map_ext. intros. reflexivity.
  - exact Ha.
  - eapply Forall_impl; [|exact Hl]. cbn; intros; lia.
Qed.

Lemma repeat_len_true (L : list bool) k : L = repeat true k -> L = repeat true (length L).
Proof. intros ->. rewrite repeat_length. reflexivity. Qed.
Lemma all_true_app a b : a = repeat true (length a) -> b = repeat true (length b) -> a ++ b = repeat true (length (a ++ b)).
Proof. intros Ha Hb. rewrite app_length, repeat_app, <- Ha, <- Hb. reflexivity. Qed.

Lemma len_sync_list count l : ascending 1 l -> Forall (fun x => x <= count) l -> 1 <= count -> len l <= count.
Proof.
  intros Ha Hl Hc. transitivity (len (positions (0 + 1) (marks (count, Some l)))).
  - rewrite (marks_some count l 0) by assumption. lens. lia.
  - etransitivity; [apply positions_len|]. rewrite len_marks. cbn [fst]. lia.
Qed.
Lemma add_old s L count l :
  syncs (Some s) L -> ascending 1 l -> Forall (fun x => x <= count) l -> 1 <= count -> len L + count < 1073741823 ->
  exists s', stss_add s (w32 (len L + 1)) count l = Ok s' /\ syncs (Some s') (L ++ marks (count, Some l)).
Proof.
  intros [I1 I2] Ha Hl Hc Hb. pose proof (len_sync_list _ _ Ha Hl Hc) as Hll. pose proof (positions_len L 1) as HLl.
  unfold stss_add. rewrite w32_small by lia. destruct (N.eqb_spec (len L + 1) 0); [lia|].
  rewrite (offsets_ok (len L + 1) count l) by (assumption || lia). cbn [bind].
  replace ((len (ss_list s) =? 0) && negb (ss_nonsync s)) with false.
  2:{ destruct (N.eqb_spec (len (ss_list s)) 0) as [E|E]; [|reflexivity]. rewrite (I2 (len_0 _ E)). reflexivity. }
  match goal with |- context [4294967296 <=? ?x] => destruct (N.leb_spec 4294967296 x) as [Hbad|_] end.
  { rewrite I1 in Hbad. lens. lia. }
  eexists. split; [reflexivity|]. cbn [syncs ss_list ss_nonsync app].
  rewrite positions_app, <- I1. replace (1 + len L) with (len L + 1) by lia. rewrite marks_some by assumption.
  split; [reflexivity|]. intros X. apply app_eq_nil in X. destruct X as [X1 X2].
  rewrite X1, (I2 X1). destruct l; [reflexivity|discriminate X2].
Qed.
Lemma add_new L count l :
  L = repeat true (length L) -> ascending 1 l -> Forall (fun x => x <= count) l -> 1 <= count -> len L + count < 1073741823 ->
  exists s', stss_add stss_new (w32 (len L + 1)) count l = Ok s' /\ syncs (Some s') (L ++ marks (count, Some l)).
Proof.
  intros I1 Ha Hl Hc Hb. pose proof (len_sync_list _ _ Ha Hl Hc) as Hll. pose proof (positions_len L 1) as HLl.
  unfold stss_add. rewrite w32_small by lia. destruct (N.eqb_spec (len L + 1) 0); [lia|].
  rewrite (offsets_ok (len L + 1) count l) by (assumption || lia). cbn [bind stss_new ss_list ss_nonsync ss_ver ss_flags negb andb app].
  change (len [] =? 0) with true. cbn [andb].
  assert (HP : stss_prior (len L + 1 - 1) = positions 1 L).
  { rewrite prior_positions. rewrite I1 at 2. do 2 f_equal. unfold len. lia. }
  rewrite HP. match goal with |- context [4294967296 <=? ?x] => destruct (N.leb_spec 4294967296 x) as [Hbad|_] end.
  { lens. lia. }
  eexists. split; [reflexivity|]. cbn [syncs ss_list ss_nonsync app].
  rewrite positions_app. replace (1 + len L) with (len L + 1) by lia. rewrite marks_some by assumption.
  split; [reflexivity|]. reflexivity.
Qed.
Lemma partial_false b : partial b = false -> marks b = repeat true (length (marks b)).
Proof.
  unfold partial. intros H. apply negb_false_iff in H. induction (marks b) as [|x r IH]; [reflexivity|].
  cbn [forallb] in H. apply andb_prop in H. destruct H as [-> H]. cbn [length repeat]. f_equal. auto.
Qed.
Lemma partial_true b : marks b = repeat true (length (marks b)) -> partial b = false.
Proof.
  intros H. unfold partial. apply negb_false_iff, forallb_forall. intros x Hin. rewrite H in Hin. apply repeat_spec in Hin. exact Hin.
Qed.

Lemma sync_batch st L b :
  syncs st L -> mbatch_ok b -> len L + fst b < 1073741823 -> (st <> None -> snd b <> None) ->
  exists st', stbl_sync st (len L) (fst b) (snd b) = Ok st' /\ syncs st' (L ++ marks b) /\
    (st' <> None -> st <> None \/ partial b = true).
Proof.
  intros I [Hc Hm] Hlen Hx. destruct b as [count [l|]]; cbn [fst snd] in *.
  2:{ destruct st as [s|]; [exfalso; apply Hx; [discriminate|reflexivity]|]. exists None. split; [reflexivity|]. split; [|congruence].
      cbn [syncs] in *. apply all_true_app; [exact I|]. unfold marks; cbn [fst snd]. rewrite repeat_length. reflexivity. }
  destruct Hm as [Ha Hl]. cbn [stbl_sync]. destruct st as [s|].
  - destruct (add_old s L count l) as (s' & E & I'); try assumption. rewrite E. cbn [bind].
    exists (Some s'). split; [reflexivity|]. split; [exact I'|]. left; discriminate.
  - pose proof (marks_some count l 0 Ha Hl Hc) as HM.
    destruct (N.eqb_spec (len l) count) as [E|E].
    + exists None. split; [reflexivity|]. split; [|congruence]. cbn [syncs] in *. apply all_true_app; [exact I|].
      apply (positions_full _ (0 + 1)). rewrite HM, len_marks. lens. exact E.
    + destruct (add_new L count l) as (s' & E' & I'); try assumption. rewrite E'. cbn [bind].
      exists (Some s'). split; [reflexivity|]. split; [exact I'|]. intros _. right.
      destruct (partial (count, Some l)) eqn:Ep; [reflexivity|]. exfalso. apply partial_false in Ep.
      apply (f_equal (fun x => len (positions (0 + 1) x))) in Ep. rewrite HM, positions_true in Ep.
      lens. unfold len in Ep at 2. rewrite seq_length in Ep. pose proof (len_marks (count, Some l)). unfold len in *. cbn [fst] in *. lia.
Qed.

Lemma sync_run_ok bs : forall st L seen,
  syncs st L -> Forall mbatch_ok bs -> len L + len (flat_map marks bs) < 1073741823 ->
  (st <> None -> seen = true) -> explicit seen bs ->
  exists st', sync_run st (len L) bs = Ok st' /\ syncs st' (L ++ flat_map marks bs).
Proof.
  induction bs as [|b bs IH]; intros st L seen I Hb Hl Hs He; cbn [sync_run flat_map] in *.
  - exists st. rewrite app_nil_r. auto.
  - inversion_clear Hb as [|? ? B1 B2]. destruct He as [He1 He2]. lens. pose proof (len_marks b) as Hm.
    destruct (sync_batch st L b) as (st1 & E & I1 & X); [exact I|exact B1|lia|auto|].
    destruct b as [count h]; cbn [fst snd] in *. rewrite E. cbn [bind].
    replace (w32 (len L + count)) with (len (L ++ marks (count, h))) by (lens; rewrite w32_small; lia).
    destruct (IH st1 (L ++ marks (count, h)) (seen || partial (count, h))%bool) as (st2 & E2 & I2).
    + exact I1.
    + exact B2.
    + lens; lia.
    + intros Hn. destruct (X Hn) as [H|H]; [rewrite (Hs H)|rewrite H, orb_true_r]; reflexivity.
    + exact He2.
    + exists st2. rewrite E2. split; [reflexivity|]. rewrite app_assoc. exact I2.
Qed.
Lemma reported_ok st L n : syncs st L -> 1 <= n <= len L -> reported_sync st n = Ok (nth (N.to_nat (n - 1)) L false).
Proof.
  intros I Hn. destruct st as [s|]; cbn [syncs reported_sync] in *.
  - unfold stss_is_sync. destruct (N.eqb_spec n 0); [lia|]. rewrite (proj1 I), scan_positions by lia. reflexivity.
  - rewrite I. f_equal. symmetry. rewrite (nth_indep _ false true) by (rewrite repeat_length; unfold len in Hn; lia). apply nth_repeat.
Qed.

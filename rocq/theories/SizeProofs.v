(* SizeProofs.v *)
From Verif Require Import Base Codec BitLemmas AtomModel AtomProofs BoxModel BoxSpec BoxProofs SizeSpec SizeModel.

Definition reps (s : stsz) (L : list N) : Prop :=
  sz_count s = len L /\
  (if sz_size s =? 0
   then match sz_buf s with None => L = [] | Some b => L <> [] /\ firstn (length L) b = L end
   else sz_buf s = None /\ L = repeat (sz_size s) (length L)).

Lemma varying_false x l : varying x l = false -> l = repeat x (length l).
Proof.
  induction l as [|y l IH]; intros H; [reflexivity|]. cbn [varying] in H. destruct (N.eqb_spec y x); [|discriminate].
  subst y. cbn [negb] in H. cbn [length repeat]. f_equal. auto.
Qed.
Lemma sizes_const x rest count : 1 <= count -> len (x :: rest) = 1 \/ len (x :: rest) = count ->
  varying x rest = false -> sizes_of (ZAdd count (x :: rest)) = repeat x (N.to_nat count).
Proof.
  intros Hc H V. cbn [sizes_of]. destruct rest as [|y r]; [reflexivity|]. apply varying_false in V.
  destruct H as [H|H]; [lens; lia|]. replace (N.to_nat count) with (length (x :: y :: r)) by (unfold len in H; lia).
  cbn [length repeat] in *. f_equal. exact V.
Qed.
Lemma sizes_new x rest count : 1 <= count -> len (x :: rest) = 1 \/ len (x :: rest) = count ->
  (if 1 <? len (x :: rest) then x :: rest else repeat x (N.to_nat count)) = sizes_of (ZAdd count (x :: rest)).
Proof.
  intros Hc H. cbn [sizes_of]. destruct rest as [|y r]; [reflexivity|].
  destruct (N.ltb_spec 1 (len (x :: y :: r))) as [_|X]; [reflexivity|]. lens; lia.
Qed.
Lemma len_sizes_of count sizes : zop_ok (ZAdd count sizes) -> len (sizes_of (ZAdd count sizes)) = count.
Proof. intros (H1 & H2 & _). cbn [sizes_of]. destruct sizes as [|x [|y r]]; lens; lia. Qed.

Lemma firstn_store b junk i l : (i <= length b)%nat -> firstn (i + length l) (store b junk i l) = firstn i b ++ l.
Proof.
  intros H. unfold store. rewrite firstn_app with (l2 := repeat junk i).
  replace (i - length b)%nat with 0%nat by lia. rewrite firstn_O, app_nil_r.
  rewrite app_assoc. rewrite (firstn_app (i + length l)).
  rewrite app_length, firstn_length, Nat.min_l by assumption.
  rewrite Nat.sub_diag, firstn_O, app_nil_r. apply firstn_all2. rewrite app_length, firstn_length. lia.
Qed.

Lemma stsz_add_ok s L count sizes :
  reps s L -> zop_ok (ZAdd count sizes) -> len L + count < 1073739775 ->
  exists s', stsz_add s count sizes = Ok s' /\ reps s' (L ++ sizes_of (ZAdd count sizes)).
Proof.
  intros [R1 R2] V Hl. pose proof (len_sizes_of _ _ V) as Hs. destruct V as (V1 & V2 & V3).
  unfold stsz_add. destruct sizes as [|x rest]; [lens; lia|].
  replace ((len (x :: rest) =? 1) || (len (x :: rest) =? count))%bool with true.
  2:{ symmetry. apply orb_true_iff. rewrite !N.eqb_eq. exact V2. }
  cbn [negb]. rewrite R1. destruct (N.ltb_spec 4294959104 (4 * (count + len L + 1))); [lia|].
  rewrite (sizes_new x rest count V1 V2).
  remember (sizes_of (ZAdd count (x :: rest))) as new eqn:En.
  assert (Hw : w32 (len L + count) = len (L ++ new)) by (lens; rewrite w32_small; lia). rewrite Hw.
  assert (Hne : L ++ new <> []).
  { intros X. apply (f_equal (@length _)) in X. rewrite app_length in X. unfold len in *. cbn in X. lia. }
  destruct (varying x rest || (x =? 0) || ((0 <? len L) && negb (x =? sz_size s)))%bool eqn:C.
  - (* table form *)
    eexists. split; [reflexivity|]. split; [reflexivity|]. cbn [sz_size sz_buf N.eqb]. change (0 =? 0) with true. cbn iota.
    split; [exact Hne|]. rewrite app_length. 
    assert (Hb : exists b, match sz_buf s with Some b => b | None => repeat (sz_size s) (N.to_nat (len L)) end = b /\
                           (length L <= length b)%nat /\ firstn (length L) b = L).
    { destruct (N.eqb_spec (sz_size s) 0) as [E|E].
      - destruct (sz_buf s) as [b|].
        + exists b. destruct R2 as [_ R2]. split; [reflexivity|]. split; [|exact R2].
          apply (f_equal (@length _)) in R2. rewrite firstn_length in R2. lia.
        + subst L. exists []. split; [reflexivity|]. split; [cbn; lia|reflexivity].
      - destruct R2 as [-> R2]. eexists. split; [reflexivity|]. unfold len. rewrite Nat2N.id, repeat_length.
        split; [lia|]. rewrite <- R2. apply firstn_all. }
    destruct Hb as (b & -> & Hb1 & Hb2). unfold len at 1. rewrite Nat2N.id. rewrite firstn_store by assumption.
    rewrite Hb2. reflexivity.
  - (* still one size *)
    apply orb_false_iff in C. destruct C as [C C3]. apply orb_false_iff in C. destruct C as [C1 C2].
    apply N.eqb_neq in C2.
    rewrite (sizes_const x rest count V1 V2 C1) in En. subst new.
    eexists. split; [reflexivity|]. split; [reflexivity|]. cbn [sz_size sz_buf].
    destruct (N.eqb_spec x 0); [contradiction|].
    destruct (N.ltb_spec 0 (len L)) as [HL|HL]; cbn [andb] in C3.
    + apply negb_false_iff, N.eqb_eq in C3. subst x. destruct (N.eqb_spec (sz_size s) 0); [contradiction|].
      destruct R2 as [R2 R3]. split; [exact R2|]. rewrite app_length, repeat_app, repeat_length, <- R3. reflexivity.
    + assert (L = []) by (apply len_0; lia). subst L. cbn [app]. rewrite repeat_length. split; [|reflexivity].
      destruct (sz_size s =? 0); [|apply R2]. destruct (sz_buf s) as [b|]; [|reflexivity]. destruct R2; congruence.
Qed.
Lemma stsz_run_ok os : forall s L, reps s L -> Forall zop_ok os -> len L + len (flat_map sizes_of os) < 1073739775 ->
  exists s', stsz_run s os = Ok s' /\ reps s' (L ++ flat_map sizes_of os).
Proof.
  induction os as [|o os IH]; intros s L R V Hl; cbn [stsz_run flat_map] in *.
  - exists s. rewrite app_nil_r. auto.
  - inversion_clear V as [|? ? V1 V2]. rewrite len_app in Hl. destruct o as [count sizes|f].
    + pose proof (len_sizes_of _ _ V1). destruct (stsz_add_ok s L count sizes R V1 ltac:(lia)) as (s1 & E & R1).
      rewrite E. cbn [bind]. destruct (IH s1 _ R1 V2) as (s2 & E2 & R2). { lens; lia. }
      exists s2. rewrite E2. split; [reflexivity|]. rewrite app_assoc. exact R2.
    + cbn [sizes_of app] in *. apply IH; [exact R|exact V2|lens; lia].
Qed.

Lemma nth_firstn {A} (l : list A) : forall i n d, (i < n)%nat -> nth i (firstn n l) d = nth i l d.
Proof.
  induction l as [|x l IH]; intros i n d H; [rewrite firstn_nil; reflexivity|].
  destruct n; [lia|]. destruct i; [reflexivity|]. cbn [firstn nth]. apply IH. lia.
Qed.
Lemma slot_ok s L i : reps s L -> sz_size s = 0 -> (i < length L)%nat -> slot s i = nth i L 0.
Proof.
  intros [_ R] E Hi. rewrite E in R. change (0 =? 0) with true in R. cbn iota in R. unfold slot, slots.
  destruct (sz_buf s) as [b|]; [|subst L; cbn in Hi; lia]. destruct R as [_ R].
  rewrite <- R, nth_firstn by assumption. apply nth_indep.
  apply (f_equal (@length _)) in R. rewrite firstn_length in R. lia.
Qed.
Lemma reps_buf s L : reps s L -> sz_size s = 0 -> L <> [] -> sz_buf s <> None.
Proof. intros [_ R] E H. rewrite E in R. change (0 =? 0) with true in R. cbn iota in R. destruct (sz_buf s); congruence. Qed.
Lemma stsz_get_ok s L n : reps s L -> 1 <= n <= len L -> stsz_get s n = Ok (nth (N.to_nat (n - 1)) L 0).
Proof.
  intros R Hn. pose proof R as [R1 R2]. unfold stsz_get. rewrite R1.
  destruct (N.ltb_spec (len L) n); [lia|]. destruct (N.eqb_spec n 0); [lia|]. cbn [orb].
  destruct (N.eqb_spec (sz_size s) 0) as [E|E]; cbn [negb].
  - assert (sz_buf s <> None). { apply (reps_buf s L R E). intros ->. lens. lia. }
    destruct (sz_buf s) eqn:Eb; [|congruence]. f_equal. apply slot_ok; [exact R|exact E|]. unfold len in Hn. lia.
  - destruct R2 as [_ R2]. f_equal. rewrite R2. rewrite (nth_indep _ 0 (sz_size s)); [symmetry; apply nth_repeat|].
    rewrite repeat_length. unfold len in Hn. lia.
Qed.
Lemma sum_repeat x n : sum (repeat x n) = N.of_nat n * x.
Proof. induction n as [|n IH]; cbn [repeat sum fold_right] in *; [lia|]. fold (sum (repeat x n)). rewrite IH. lia. Qed.
Lemma stsz_sum_ok s L : reps s L -> sz_size s = 0 -> forall k i acc, (i + k <= length L)%nat -> acc < 4294967296 ->
  stsz_sum s i k acc = w32 (acc + sum (firstn k (skipn i L))).
Proof.
  intros R E. induction k as [|k IH]; intros i acc Hi Ha; cbn [stsz_sum].
  - cbn [firstn sum fold_right]. rewrite w32_small; lia.
  - rewrite IH by (try apply w32_lt; lia). rewrite (slot_ok s L i R E) by lia.
    assert (X : skipn i L = nth i L 0 :: skipn (S i) L).
    { clear - Hi. revert L Hi. induction i as [|i IHi]; intros [|x L] H; cbn [length] in *; try lia; [reflexivity|].
      cbn [skipn nth]. rewrite IHi by lia. reflexivity. }
    rewrite X. cbn [firstn sum fold_right]. fold (sum (firstn k (skipn (S i) L))). unfold w32. lia.
Qed.
Lemma stsz_get_off_ok s L n start : reps s L -> 1 <= start <= n -> n <= len L ->
  stsz_get_off s n start = Ok (nth (N.to_nat (n - 1)) L 0, w32 (size_between L start n)).
Proof.
  intros R Hs Hn. pose proof R as [R1 R2]. unfold stsz_get_off. rewrite R1.
  destruct (N.ltb_spec (len L) n); [lia|]. destruct (N.eqb_spec n 0); [lia|]. cbn [orb].
  destruct (N.eqb_spec start 0); [lia|]. destruct (N.ltb_spec n start); [lia|]. cbn [orb].
  destruct (N.eqb_spec (sz_size s) 0) as [E|E]; cbn [negb].
  - assert (sz_buf s <> None). { apply (reps_buf s L R E). intros ->. lens. lia. }
    destruct (sz_buf s) eqn:Eb; [|congruence]. do 2 f_equal.
    + apply slot_ok; [exact R|exact E|]. unfold len in Hn. lia.
    + rewrite (stsz_sum_ok s L R E) by (unfold len in *; lia). reflexivity.
  - destruct R2 as [_ R2]. do 2 f_equal.
    + rewrite R2. rewrite (nth_indep _ 0 (sz_size s)); [symmetry; apply nth_repeat|]. rewrite repeat_length. unfold len in Hn. lia.
    + f_equal. unfold size_between. rewrite R2.
      assert (X : firstn (N.to_nat (n - start)) (skipn (N.to_nat (start - 1)) (repeat (sz_size s) (length L))) =
                  repeat (sz_size s) (N.to_nat (n - start))).
      { replace (length L) with (N.to_nat (start - 1) + (N.to_nat (n - start) + (length L - N.to_nat (n - 1))))%nat
          by (unfold len in *; lia).
        rewrite !repeat_app. rewrite skipn_app, repeat_length, Nat.sub_diag. cbn [skipn].
        rewrite skipn_all2 by (rewrite repeat_length; lia). cbn [app].
        rewrite firstn_app, repeat_length, Nat.sub_diag, firstn_O, app_nil_r. apply firstn_all2. rewrite repeat_length. lia. }
      rewrite X, sum_repeat. lia.
Qed.

(* packing *)
Lemma nib_pair_eq a b : N.lor (N.land a 15) (N.shiftl (N.land b 15) 4) = a mod 16 + 16 * (b mod 16).
Proof. rewrite !land15, (lor_add_r 4) by (cbn; lia). change (2 ^ 4) with 16. lia. Qed.
Lemma list_ind2 {A} (P : list A -> Prop) :
  P [] -> (forall a, P [a]) -> (forall a b r, P r -> P (a :: b :: r)) -> forall l, P l.
Proof.
  intros H0 H1 H2 l. enough (P l /\ forall a, P (a :: l)) by tauto.
  induction l as [|a l [IH1 IH2]]; [auto|]. split; [auto|]. intros b. apply H2. exact IH1.
Qed.
Lemma nib_pairs_halves l t : Forall (fun x => x < 16) l -> nib_pairs l t = halves l (t mod 16).
Proof.
  induction l as [|a|a b r IH] using list_ind2; intros H; cbn [nib_pairs halves]; rewrite ?nib_pair_eq.
  - reflexivity.
  - inversion_clear H. rewrite (N.mod_small a) by assumption. reflexivity.
  - inversion_clear H as [|? ? Ha H']. inversion_clear H' as [|? ? Hb H'']. rewrite !N.mod_small, IH by assumption. reflexivity.
Qed.
Lemma halves_split l t : Forall (fun x => x < 16) l -> t < 16 ->
  flat_map nib_split (halves l t) = l ++ (if N.odd (len l) then [t] else []).
Proof.
  intros H Ht. induction l as [|a|a b r IH] using list_ind2; cbn [halves flat_map app]; [reflexivity| |].
  - inversion_clear H. unfold nib_split. rewrite !land15, shiftr_div. change (2 ^ 4) with 16. cbn [app]. change (N.odd (len [a])) with true.
    cbn iota. f_equal; [lia|]. f_equal. lia.
  - inversion_clear H as [|? ? Ha H']. inversion_clear H' as [|? ? Hb H'']. rewrite IH by assumption.
    unfold nib_split. rewrite !land15, shiftr_div. change (2 ^ 4) with 16. cbn [app]. lens.
    replace (1 + (1 + len r)) with (len r + 2) by lia. rewrite N.odd_add. cbn [N.odd]. rewrite xorb_false_r.
    f_equal; [lia|]. f_equal. lia.
Qed.
Lemma len_halves l t : len (halves l t) = (len l + 1) / 2.
Proof. induction l as [| |a b r IH] using list_ind2; [reflexivity|reflexivity|]. cbn [halves]. lens. rewrite IH. lia. Qed.
Lemma halves_bytes l t : Forall (fun x => x < 16) l -> t < 16 -> Forall (fun x => x < 256) (halves l t).
Proof.
  intros H Ht. induction l as [|a|a b r IH] using list_ind2; cbn [halves].
  - constructor.
  - inversion_clear H. repeat constructor. lia.
  - inversion_clear H as [|? ? Ha H']. inversion_clear H' as [|? ? Hb H'']. constructor; [lia|auto].
Qed.
Lemma be8_id l : Forall (fun x => x < 256) l -> flat_map be8 l = l.
Proof. induction 1 as [|x l H _ IH]; [reflexivity|]. cbn [flat_map be8 app]. rewrite IH, N.mod_small by assumption. reflexivity. Qed.
Lemma len_first_slots s : len (first_slots s) = sz_count s.
Proof. unfold first_slots. lens. unfold len. rewrite seq_length. lia. Qed.
Lemma len_packed4 l t : len (packed 4 l t) = (len l + 1) / 2. Proof. apply len_halves. Qed.
Lemma len_packed8 l t : len (packed 8 l t) = len l.
Proof. change (packed 8 l t) with (flat_map be8 l). rewrite (len_flat_map_const _ 1) by (intros; lens; lia). lia. Qed.
Lemma len_packed16 l t : len (packed 16 l t) = 2 * len l.
Proof. change (packed 16 l t) with (flat_map be16 l). rewrite (len_flat_map_const _ 2) by (intros; lens; lia). lia. Qed.
Lemma len_packed32 l t : len (packed 32 l t) = 4 * len l.
Proof. change (packed 32 l t) with (flat_map be32 l). rewrite (len_flat_map_const _ 4) by (intros; lens; lia). lia. Qed.

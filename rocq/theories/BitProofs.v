(* BitProofs.v *)
From Verif Require Import Base Codec AtomModel BitLemmas BitModel BitSpec.

Lemma value_acc l : forall n, fold_left (fun n (b : bool) => 2 * n + (if b then 1 else 0)) l n = n * 2 ^ len l + value l.
Proof.
  unfold value. induction l as [|b l IH]; intros n; [cbn [fold_left]; change (2 ^ len []) with 1; lia|]. cbn [fold_left]. rewrite IH, (IH (2 * 0 + _)). lens.
  rewrite N.pow_add_r. change (2 ^ 1) with 2. lia.
Qed.
Lemma value_cons b l : value (b :: l) = (if b then 1 else 0) * 2 ^ len l + value l.
Proof. unfold value at 1. cbn [fold_left]. rewrite value_acc. lia. Qed.
Lemma value_app a b : value (a ++ b) = value a * 2 ^ len b + value b.
Proof.
  induction a as [|x a IH]; [reflexivity|]. cbn [app]. rewrite !value_cons, IH. lens. rewrite N.pow_add_r. lia.
Qed.
Lemma value_lt l : value l < 2 ^ len l.
Proof.
  induction l as [|b l IH]; [reflexivity|]. rewrite value_cons. lens. rewrite N.pow_add_r. change (2 ^ 1) with 2. destruct b; lia.
Qed.
Lemma len_u n v : len (u n v) = N.of_nat n.
Proof. induction n as [|n IH]; [reflexivity|]. cbn [u]. lens. lia. Qed.
Lemma value_u n v : value (u n v) = v mod 2 ^ N.of_nat n.
Proof.
  induction n as [|n IH]; [cbn; rewrite N.mod_1_r; reflexivity|]. cbn [u]. rewrite value_cons, IH, len_u.
  rewrite Nat2N.inj_succ, N.pow_succ_r', (N.mul_comm 2). rewrite N.mod_mul_r by (try apply N.pow_nonzero; discriminate).
  rewrite N.testbit_eqb. set (q := v / 2 ^ N.of_nat n). pose proof (N.mod_upper_bound q 2 ltac:(discriminate)).
  destruct (N.eqb_spec (q mod 2) 1); lia.
Qed.
Lemma value_byte b : b < 256 -> value (u 8 b) = b.
Proof. intros H. rewrite value_u. apply N.mod_small. exact H. Qed.

Lemma len_bits l : len (bits_of l) = 8 * len l.
Proof. induction l as [|b l IH]; [reflexivity|]. unfold bits_of in *. cbn [flat_map]. rewrite len_app, len_u, IH. lens. lia. Qed.
Lemma len_escaped l : forall z, len l <= len (escaped z l).
Proof.
  induction l as [|x l IH]; intros z; [cbn; lia|]. cbn [escaped].
  destruct (_ && _); lens; match goal with |- context [escaped ?w l] => specialize (IH w) end; lia.
Qed.

(* the state stands before the bits [B] *)
Definition repr (pe : bool) (s : bb) (B : list bool) : Prop :=
  exists h l, b_cur s = len h /\ len h <= 8 /\ b_byte s = value h * 2 ^ (8 - len h) /\
    (if pe then b_emu s <= 2 /\ b_rest s = escaped (b_emu s) l else b_rest s = l) /\ bytes l /\
    B = h ++ bits_of l /\ len h + 8 * len (b_rest s) <= b_left s < 4294967296.

Lemma fetch_ok pe s B n : repr pe s B -> b_cur s = 0 -> B <> [] -> n <= len B ->
  exists s1, fetch pe n s = Ok s1 /\ repr pe s1 B /\ b_cur s1 = 8.
Proof.
  intros (h & l & C & C8 & Eb & R & Hb & EB & L) C0 NB Hn. rewrite C0 in C. assert (h = []) by (apply len_0; lia). subst h. clear C C8.
  cbn [app] in EB. destruct l as [|b l]; [cbn in EB; congruence|]. inversion_clear Hb as [|? ? B1 B2]. unfold is_byte in B1.
  assert (EB' : B = u 8 b ++ bits_of l) by exact EB. clear EB.
  assert (V : forall st left emu rest, st = mkBB rest b 8 left emu -> (if pe then emu <= 2 /\ rest = escaped emu l else rest = l) ->
    8 + 8 * len rest <= left < 4294967296 -> repr pe st B).
  { intros st left emu rest -> R' L'. exists (u 8 b), l. cbn [b_cur b_byte b_emu b_rest b_left]. rewrite len_u, (value_byte b B1). change (N.of_nat 8) with 8.
    split; [reflexivity|]. split; [lia|]. split; [change (2 ^ (8 - 8)) with 1; lia|]. auto. }
  assert (LB : len B = 8 + 8 * len l).
  { rewrite EB'. lens. rewrite len_u, len_bits. reflexivity. }
  unfold fetch. destruct pe.
  - destruct R as [E2 R]. cbn [escaped] in R. destruct ((b_emu s =? 2) && (b <=? 3)) eqn:X.
    + rewrite R in L |- *. cbn [N.eqb]. destruct (N.leb_spec 2 (b_emu s)); [|lia]. cbn [andb]. rewrite N.eqb_refl.
      revert L. lens. intros L.
      assert (Es : sub32 (b_left s) 8 = b_left s - 8) by (unfold sub32, w32; lia). rewrite Es.
      assert (Hesc : len l <= len (escaped (if b =? 0 then 1 else 0) l)) by apply len_escaped.
      destruct (N.ltb_spec (b_left s - 8) n); [lia|]. eexists. split; [reflexivity|]. split; [|reflexivity].
      eapply V; [reflexivity| |lia]. split; [destruct (b =? 0); lia|reflexivity].
    + rewrite R in L |- *. replace ((2 <=? b_emu s) && (b =? 3)) with false by lia. eexists. split; [reflexivity|]. split; [|reflexivity].
      revert L. lens. intros L. eapply V; [reflexivity| |lia]. destruct (N.eqb_spec b 0) as [->|Nb]; [|split; [lia|reflexivity]].
      unfold w8. rewrite N.mod_small by lia. split; [lia|reflexivity].
  - rewrite R in L |- *. eexists. split; [reflexivity|]. split; [|reflexivity]. revert L. lens. intros L. eapply V; [reflexivity|reflexivity|lia].
Qed.

Lemma split_at {A} (l : list A) n : n <= len l -> exists a b, l = a ++ b /\ len a = n.
Proof.
  intros H. exists (firstn (N.to_nat n) l), (skipn (N.to_nat n) l). split; [symmetry; apply firstn_skipn|]. unfold len in *. rewrite firstn_length. lia.
Qed.
Lemma app_eq_len {A} (a b c d : list A) : a ++ b = c ++ d -> len a = len c -> a = c /\ b = d.
Proof.
  revert c. induction a as [|x a IH]; intros [|z c] E L; revert L; lens; intros L; try lia; [split; [reflexivity|exact E]|].
  cbn [app] in E. injection E as -> E. destruct (IH c E) as [-> ->]; [lia|auto].
Qed.
(* the bits in hand are enough, or not *)
Lemma take_ok pe s A B n : repr pe s (A ++ B) -> len A = n -> 0 < n -> n <= b_cur s ->
  N.shiftr (b_byte s) (8 - n) = value A /\
  repr pe (mkBB (b_rest s) (N.land (N.shiftl (b_byte s) n) 255) (b_cur s - n) (sub32 (b_left s) n) (b_emu s)) B.
Proof.
  intros (h & l & C & C8 & Eb & R & Hb & EB & L) LA Hn Hc. rewrite C in *.
  destruct (split_at h n Hc) as (h1 & h2 & Eh & L1). subst h. rewrite <- app_assoc in EB.
  destruct (app_eq_len _ _ _ _ EB) as [<- ->]; [lia|]. rewrite LA in *. clear L1. revert C8 Hc L C. lens. intros C8 Hc L C.
  rewrite value_app in Eb. pose proof (value_lt A) as VA. pose proof (value_lt h2) as VH. rewrite LA in VA.
  assert (P : 2 ^ (8 - n) = 2 ^ len h2 * 2 ^ (8 - (len A + len h2))) by (rewrite <- N.pow_add_r; f_equal; lia).
  rewrite LA in P. split.
  - rewrite shiftr_div, Eb, LA. symmetry. apply (N.div_unique _ _ _ (value h2 * 2 ^ (8 - (n + len h2)))).
    + rewrite P. apply N.mul_lt_mono_pos_r; [|exact VH]. apply N.neq_0_lt_0, N.pow_nonzero. discriminate.
    + rewrite P. rewrite (N.mul_comm (_ * _)), N.mul_add_distr_r, N.mul_assoc. reflexivity.
  - exists h2, l. cbn [b_cur b_byte b_emu b_rest b_left]. split; [lia|]. split; [lia|]. split; [|split; [exact R|split; [exact Hb|split; [reflexivity|]]]].
    + rewrite land255, shiftl_mul, Eb, LA. symmetry.
      assert (Q : 2 ^ (8 - (n + len h2)) * 2 ^ n = 2 ^ (8 - len h2)) by (rewrite <- N.pow_add_r; f_equal; lia).
      assert (Q2 : 2 ^ len h2 * 2 ^ (8 - len h2) = 256) by (rewrite <- N.pow_add_r; replace (len h2 + _) with 8 by lia; reflexivity).
      apply (N.mod_unique _ _ (value A)).
      * rewrite <- Q2. apply N.mul_lt_mono_pos_r; [|exact VH]. apply N.neq_0_lt_0, N.pow_nonzero. discriminate.
      * rewrite <- N.mul_assoc, Q, N.mul_add_distr_r, <- N.mul_assoc, Q2, (N.mul_comm (value A)). reflexivity.
    + unfold sub32, w32. lia.
Qed.
Lemma bits_ok pe fuel : forall s A B, repr pe s (A ++ B) -> 0 < len A <= 32 -> (N.to_nat (len A) <= fuel)%nat ->
  exists s', bits_loop pe fuel (len A) s = Ok (value A, s') /\ repr pe s' B.
Proof.
  induction fuel as [|fuel IH]; intros s A B R HA Hf; [lia|].
  assert (F : exists s1, (if b_cur s =? 0 then fetch pe (len A) s else Ok s) = Ok s1 /\ repr pe s1 (A ++ B) /\ 0 < b_cur s1).
  { destruct (N.eqb_spec (b_cur s) 0) as [C|C]; [|exists s; split; [reflexivity|split; [exact R|lia]]].
    destruct (fetch_ok pe s (A ++ B) (len A) R C) as (s1 & E & R1 & C1); [destruct A; [exfalso; revert HA; lens; intros; lia|discriminate]|rewrite len_app; lia|].
    exists s1. split; [exact E|split; [exact R1|lia]]. }
  destruct F as (s1 & E1 & R1 & P1). cbn [bits_loop].
  destruct (N.ltb_spec (b_left s) (len A)) as [X|X].
  { exfalso. destruct R as (h & l & C & C8 & Eb & R & Hb & EB & L). apply (f_equal len) in EB. revert EB. lens.
    rewrite len_bits. intros EB.
    assert (len l <= len (b_rest s)); [|lia]. destruct pe; [|rewrite R; lia]. destruct R as [_ ->]. apply len_escaped. }
  rewrite E1. cbn [bind]. clear E1 X R s. rename s1 into s.
  destruct (N.ltb_spec (b_cur s) (len A)) as [Lt|Ge].
  - destruct (split_at A (b_cur s)) as (A1 & A2 & -> & L1); [lia|]. rewrite <- app_assoc in R1.
    destruct (take_ok pe s A1 (A2 ++ B) (b_cur s) R1 L1 P1 ltac:(lia)) as [V R2]. revert HA Hf Lt. lens. intros HA Hf Lt.
    rewrite L1. replace (b_cur s + len A2 - b_cur s) with (len A2) by lia. destruct (N.eqb_spec (len A2) 0); [lia|].
    destruct (N.leb_spec 32 (len A2)); [lia|]. destruct (IH _ A2 B R2) as (s' & E & R'); [lia|lia|]. rewrite E. cbn [bind fst snd].
    exists s'. split; [|exact R']. rewrite V, value_app, shiftl_mul.
    assert (VA : value A1 * 2 ^ len A2 < 4294967296).
    { pose proof (value_lt A1) as VL. change 4294967296 with (2 ^ 32). apply N.lt_le_trans with (2 ^ len A1 * 2 ^ len A2).
      - apply N.mul_lt_mono_pos_r; [|exact VL]. apply N.neq_0_lt_0, N.pow_nonzero. discriminate.
      - rewrite <- N.pow_add_r. apply N.pow_le_mono_r; lia. }
    rewrite w32_small by exact VA. rewrite lor_mul by apply value_lt. reflexivity.
  - destruct (take_ok pe s A B (len A) R1 eq_refl) as [V R2]; [lia|lia|]. rewrite N.sub_diag. cbn [N.eqb]. exists (mkBB (b_rest s) (N.land (N.shiftl (b_byte s) (len A)) 255) (b_cur s - len A) (sub32 (b_left s) (len A)) (b_emu s)). rewrite V. auto.
Qed.

(* [reads_bits pe m A a]: before the bits A, m returns a and stands after them *)
Definition takes {A} (pe : bool) (m : br A) (X : list bool) (a : A) : Prop :=
  forall s B, repr pe s (X ++ B) -> exists s', m s = Ok (a, s') /\ repr pe s' B.
Lemma takes_bits pe n X : len X = n -> 0 < n <= 32 -> takes pe (get_bits pe n) X (value X).
Proof. intros <- H s B R. unfold get_bits. apply bits_ok; [exact R|exact H|lia]. Qed.
Lemma takes_ret {A} pe (a : A) : takes pe (bret a) [] a.
Proof. intros s B R. exists s. split; [reflexivity|exact R]. Qed.
Lemma takes_bind {A C} pe (m : br A) (k : A -> br C) X Y a c : takes pe m X a -> takes pe (k a) Y c -> takes pe (bbind m k) (X ++ Y) c.
Proof.
  intros H1 H2 s B R. rewrite <- app_assoc in R. destruct (H1 s _ R) as (s1 & E1 & R1). destruct (H2 s1 _ R1) as (s2 & E2 & R2).
  exists s2. split; [|exact R2]. unfold bbind. rewrite E1. exact E2.
Qed.
Lemma takes_bind_last {A C} pe (m : br A) (k : A -> br C) X a c : takes pe m X a -> takes pe (k a) [] c -> takes pe (bbind m k) X c.
Proof. intros H1 H2. rewrite <- (app_nil_r X). eapply takes_bind; eassumption. Qed.
Lemma takes_eq {A} pe (m : br A) X X' a a' : takes pe m X a -> X = X' -> a = a' -> takes pe m X' a'.
Proof. intros; subst; assumption. Qed.
Lemma takes_u pe n v : 0 < n <= 32 -> v < 2 ^ n -> takes pe (get_bits pe n) (u (N.to_nat n) v) v.
Proof.
  intros Hn Hv. eapply takes_eq; [apply takes_bits; [|exact Hn]|reflexivity|].
  - rewrite len_u. lia.
  - rewrite value_u, N2Nat.id. apply N.mod_small, Hv.
Qed.
Lemma takes_byte pe v : v < 256 -> takes pe (get_byte pe) (u 8 v) v.
Proof.
  intros Hv. unfold get_byte. eapply takes_bind_last; [apply (takes_u pe 8); [lia|exact Hv]|]. rewrite w8_small by exact Hv. apply takes_ret.
Qed.
Lemma u_split a b v : u (a + b) v = u a (v / 2 ^ N.of_nat b) ++ u b v.
Proof.
  induction a as [|a IH]; [reflexivity|]. cbn [Nat.add u app]. rewrite IH. f_equal. rewrite <- shiftr_div, N.shiftr_spec by lia. f_equal. lia.
Qed.
Lemma u_mod n v w : v mod 2 ^ N.of_nat n = w mod 2 ^ N.of_nat n -> u n v = u n w.
Proof.
  intros E. assert (G : forall k, (k <= n)%nat -> u k v = u k w); [|apply G; lia].
  induction k as [|k IH]; intros Hk; [reflexivity|]. cbn [u]. rewrite IH by lia. f_equal.
  rewrite <- (N.mod_pow2_bits_low v (N.of_nat n)), <- (N.mod_pow2_bits_low w (N.of_nat n)) by lia. rewrite E. reflexivity.
Qed.

(* Exp-Golomb *)
Lemma takes_zeros pe k : forall fuel p n, (k <= fuel)%nat -> p * 2 ^ N.of_nat k < 4294967296 -> n + N.of_nat k < 4294967296 ->
  takes pe (zeros pe fuel p n) (repeat false k ++ [true]) (p * 2 ^ N.of_nat k, n + N.of_nat k).
Proof.
  induction k as [|k IH]; intros fuel p n Hf Hp Hn; cbn [repeat app].
  - destruct fuel as [|fuel]; cbn [zeros]; (eapply takes_bind_last; [apply (takes_u pe 1 1); lia|cbn [N.eqb]]);
      (eapply takes_eq; [apply takes_ret|reflexivity|]); cbn; f_equal; lia.
  - destruct fuel as [|fuel]; [lia|]. cbn [zeros]. change (false :: repeat false k ++ [true]) with ([false] ++ (repeat false k ++ [true])).
    eapply takes_bind; [apply (takes_u pe 1 0); lia|]. cbn [N.eqb].
    assert (P : 2 ^ N.of_nat (S k) = 2 * 2 ^ N.of_nat k) by (rewrite Nat2N.inj_succ, N.pow_succ_r'; reflexivity). rewrite P in *.
    assert (P1 : 1 <= 2 ^ N.of_nat k) by (pose proof (N.pow_nonzero 2 (N.of_nat k) ltac:(discriminate)); lia).
    assert (P2 : p <= p * 2 ^ N.of_nat k) by nia.
    rewrite shiftl_mul. change (2 ^ 1) with 2. rewrite (w32_small (p * 2)) by lia. rewrite (w32_small (n + 1)) by lia.
    eapply takes_eq; [apply IH; lia|reflexivity|]. f_equal; lia.
Qed.
Lemma repr_bits pe s B : repr pe s B -> (length B <= 8 * length (b_rest s) + N.to_nat (b_cur s))%nat.
Proof.
  intros (h & l & C & C8 & Eb & R & Hb & EB & L). apply (f_equal len) in EB. revert EB. lens.
  rewrite len_bits. intros EB.
  assert (len l <= len (b_rest s)); [|unfold len in *; lia]. destruct pe; [|rewrite R; lia]. destruct R as [_ ->]. apply len_escaped.
Qed.
Lemma ue_split v : let k := N.to_nat (N.log2 (v + 1)) in ue v = (repeat false k ++ [true]) ++ u k (v + 1).
Proof.
  cbv zeta. unfold ue. set (k := N.to_nat (N.log2 (v + 1))). rewrite <- app_assoc. cbn [u app]. f_equal. f_equal.
  unfold k. rewrite N2Nat.id. apply N.bit_log2. lia.
Qed.
Lemma takes_ue pe v : v < 4294967295 -> takes pe (golomb pe) (ue v) v.
Proof.
  intros Hv s B R. pose proof (repr_bits pe s _ R) as HL. rewrite (ue_split v) in R, HL. cbv zeta in *. set (k := N.to_nat (N.log2 (v + 1))) in *.
  rewrite !app_length, repeat_length in HL.
  assert (Hk : N.of_nat k <= 31).
  { unfold k. rewrite N2Nat.id. assert (N.log2 (v + 1) < 32); [|lia]. apply N.log2_lt_pow2; [lia|]. change (2 ^ 32) with 4294967296. lia. }
  assert (Hp : 2 ^ N.of_nat k <= v + 1 < 2 * 2 ^ N.of_nat k).
  { unfold k. rewrite N2Nat.id. rewrite <- N.pow_succ_r'. apply N.log2_spec. lia. }
  assert (H31 : 2 ^ N.of_nat k <= 2 ^ 31) by (apply N.pow_le_mono_r; lia). change (2 ^ 31) with 2147483648 in H31.
  unfold golomb. rewrite <- app_assoc in R.
  destruct (takes_zeros pe k (8 * length (b_rest s) + N.to_nat (b_cur s)) 1 0 ltac:(lia) ltac:(lia) ltac:(lia) s _ R) as (s1 & E1 & R1).
  unfold bbind. rewrite E1. cbn [bind fst snd]. rewrite N.mul_1_l, N.add_0_l in *.
  destruct (N.ltb_spec 0 (N.of_nat k)) as [K|K].
  - destruct (takes_u pe (N.of_nat k) ((v + 1) mod 2 ^ N.of_nat k)) with (s := s1) (B := B) as (s2 & E2 & R2); [lia|apply N.mod_upper_bound, N.pow_nonzero; discriminate| |].
    + rewrite Nat2N.id. rewrite (u_mod k _ (v + 1)); [exact R1|]. apply N.mod_mod, N.pow_nonzero. discriminate.
    + rewrite E2. cbn [bind bret fst snd]. exists s2. split; [|exact R2]. unfold bret. do 2 f_equal. unfold w32.
      replace ((v + 1) mod 2 ^ N.of_nat k) with (v + 1 - 2 ^ N.of_nat k); [clear -Hp H31 Hv; set (q := 2 ^ N.of_nat k) in *; clearbody q; assert (1 <= q) by lia; lia|].
      apply (N.mod_unique _ _ 1); lia.
  - assert (k = O) as -> by lia. cbn [bret bind fst snd]. exists s1. cbn [u app] in R1. split; [|exact R1]. unfold bret. do 2 f_equal. change (2 ^ N.of_nat 0) with 1 in *. unfold w32. lia.
Qed.
(* the start *)
Lemma init_ok (pe : bool) b l : bytes (b :: l) -> len (nal (b :: l)) < 33554432 ->
  exists s, bb_init (if pe then nal (b :: l) else b :: l) = Ok s /\ repr pe s (bits_of (b :: l)).
Proof.
  intros Hb. unfold nal. cbn [escaped]. rewrite N.add_0_l. change ((0 =? 2) && (b <=? 3)) with false. cbv iota. intros Hl.
  assert (Hesc : len l <= len (escaped (if b =? 0 then 1 else 0) l)) by apply len_escaped.
  inversion_clear Hb as [|? ? B1 B2]. unfold is_byte in B1.
  assert (G : forall rest, (if pe then rest = escaped (if b =? 0 then 1 else 0) l else rest = l) -> len (b :: rest) < 33554432 ->
    exists s, bb_init (b :: rest) = Ok s /\ repr pe s (bits_of (b :: l))).
  { intros rest R Hr. unfold bb_init. revert Hr. lens. intros Hr. rewrite !w32_small by (rewrite ?w32_small; lia).
    destruct (N.ltb_spec 268435455 (8 * (1 + len rest))); [lia|]. eexists. split; [reflexivity|].
    exists (u 8 b), l. cbn [b_cur b_byte b_emu b_rest b_left]. rewrite len_u, (value_byte b B1). change (N.of_nat 8) with 8.
    split; [reflexivity|]. split; [lia|]. split; [change (2 ^ (8 - 8)) with 1; lia|]. split; [|split; [exact B2|split; [reflexivity|lia]]].
    destruct pe; [|exact R]. split; [destruct (b =? 0); lia|exact R]. }
  revert Hl. lens. intros Hl. destruct pe; apply G; try reflexivity; lens; lia.
Qed.

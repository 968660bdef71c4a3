(* BitLemmas.v -- masks and shifts as arithmetic. *)
From Verif Require Import Base.

Lemma land_low k a b : b < 2 ^ k -> N.land (N.shiftl a k) b = 0.
Proof.
  intros Hb. apply N.bits_inj. intros i. rewrite N.land_spec, N.bits_0.
  destruct (N.lt_ge_cases i k) as [L|L].
  - rewrite N.shiftl_spec_low by assumption. reflexivity.
  - destruct (N.eq_dec b 0) as [->|Hb0].
    + rewrite N.bits_0. apply andb_false_r.
    + rewrite (N.bits_above_log2 b i), andb_false_r; [reflexivity|].
      apply N.lt_le_trans with k; [|assumption]. apply N.log2_lt_pow2; lia.
Qed.
Lemma lor_add k a b : b < 2 ^ k -> N.lor (N.shiftl a k) b = a * 2 ^ k + b.
Proof.
  intros Hb. rewrite <- N.lxor_lor by (apply land_low; assumption).
  rewrite <- N.add_nocarry_lxor by (apply land_low; assumption). rewrite N.shiftl_mul_pow2. reflexivity.
Qed.
Lemma lor_add_r k a b : b < 2 ^ k -> N.lor b (N.shiftl a k) = b + a * 2 ^ k.
Proof. intros H. rewrite N.lor_comm, lor_add by assumption. lia. Qed.
Lemma land_mod k x : N.land x (N.ones k) = x mod 2 ^ k.
Proof. apply N.land_ones. Qed.
Lemma land7 x : N.land x 7 = x mod 8. Proof. change 7 with (N.ones 3). apply land_mod. Qed.
Lemma land15 x : N.land x 15 = x mod 16. Proof. change 15 with (N.ones 4). apply land_mod. Qed.
Lemma land1 x : N.land x 1 = x mod 2. Proof. change 1 with (N.ones 1) at 1. apply land_mod. Qed.
Lemma land3 x : N.land x 3 = x mod 4. Proof. change 3 with (N.ones 2). apply land_mod. Qed.
Lemma land31 x : N.land x 31 = x mod 32. Proof. change 31 with (N.ones 5). apply land_mod. Qed.
Lemma land63 x : N.land x 63 = x mod 64. Proof. change 63 with (N.ones 6). apply land_mod. Qed.
Lemma land127 x : N.land x 127 = x mod 128. Proof. change 127 with (N.ones 7). apply land_mod. Qed.
Lemma land255 x : N.land x 255 = x mod 256. Proof. change 255 with (N.ones 8). apply land_mod. Qed.
Lemma land32767 x : N.land x 32767 = x mod 32768. Proof. change 32767 with (N.ones 15). apply land_mod. Qed.
Lemma land65535 x : N.land x 65535 = x mod 65536. Proof. change 65535 with (N.ones 16). apply land_mod. Qed.
Lemma shiftr_div k x : N.shiftr x k = x / 2 ^ k. Proof. apply N.shiftr_div_pow2. Qed.
Lemma shiftl_mul k x : N.shiftl x k = x * 2 ^ k. Proof. apply N.shiftl_mul_pow2. Qed.
(* the same when the left operand is already a product *)
Lemma lor_mul k a b : b < 2 ^ k -> N.lor (a * 2 ^ k) b = a * 2 ^ k + b.
Proof. intros H. rewrite <- shiftl_mul at 1. apply lor_add, H. Qed.

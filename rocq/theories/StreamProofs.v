From Verif Require Import Base Codec StreamModel StreamSpec.

Record srep (s : strm) (k : skind) (z : zst) : Prop := {
  t_k : sk s = k;
  t_buf : sbuf s = fst z ++ snd z;
  t_pos : spos s = Z.of_N (len (fst z));
  t_av : savail s = len (snd z);
  t_len : len (sbuf s) < 18446744073709551616;
  t_by : bytes (sbuf s) }.

Lemma shiftr32 n : (N.shiftr n 32 =? 0) = (n <? 4294967296).
Proof.
  rewrite N.shiftr_div_pow2. change (2 ^ 32) with 4294967296.
  destruct (N.ltb_spec n 4294967296) as [H|H].
  - rewrite N.div_small by assumption. reflexivity.
  - apply N.eqb_neq. lia.
Qed.

Lemma sub64_exact a b : b <= a -> a < 18446744073709551616 -> sub64 a b = a - b.
Proof. intros. unfold sub64. rewrite (w64_small b) by lia. unfold w64. lia. Qed.

Lemma fetch_rep s k z n : srep s k z -> n <= len (snd z) -> fetch s n = Ok (firstn (N.to_nat n) (snd z)).
Proof.
  intros [Hk Hb Hp Ha Hl Hby] Hn. unfold fetch. destruct (N.eqb_spec n 0) as [->|H0]; [reflexivity|].
  rewrite Hp, Hb. lens.
  assert (((0 <=? Z.of_N (len (fst z))) && (Z.of_N (len (fst z)) + Z.of_N n <=? Z.of_N (len (fst z) + len (snd z))))%Z = true)
    as -> by lia.
  replace (Z.to_nat (Z.of_N (len (fst z)))) with (length (fst z)) by (unfold len; lia).
  rewrite skipn_app, skipn_all, Nat.sub_diag. reflexivity.
Qed.

Lemma adv_rep s k z n : srep s k z -> n <= len (snd z) -> srep (adv s n) k (zmove z n).
Proof.
  intros [Hk Hb Hp Ha Hl Hby] Hn. unfold adv, zmove. rewrite Hb in Hl. lens.
  constructor; cbn [sk sbuf spos savail sbase fst snd].
  - assumption.
  - rewrite <- app_assoc, firstn_skipn. assumption.
  - rewrite Hp. lens. unfold len at 3. rewrite firstn_length. unfold len in *. lia.
  - rewrite Ha, sub64_exact by lia. unfold len. rewrite skipn_length. unfold len in *. lia.
  - rewrite Hb. lens. assumption.
  - assumption.
Qed.

Lemma readData_rep s k z n : srep s k z -> n < 4294967296 ->
  if n <=? len (snd z)
  then s_readData s n = Ok (adv s n, inl (firstn (N.to_nat n) (snd z))) /\ srep (adv s n) k (zmove z n)
  else s_readData s n = Ok (s, inr MP4IOErr).
Proof.
  intros Hr Hn. unfold s_readData. rewrite shiftr32. pose proof Hr as [Hk Hb Hp Ha Hl Hby].
  destruct (N.ltb_spec n 4294967296) as [_|]; [|lia]. cbn [negb]. rewrite Ha.
  destruct (N.leb_spec n (len (snd z))) as [H|H]; destruct (N.ltb_spec (len (snd z)) n) as [H'|H']; try lia.
  - rewrite (fetch_rep _ _ _ _ Hr H). cbn [bind]. split; [reflexivity | apply adv_rep; assumption].
  - reflexivity.
Qed.

Lemma lor_shift8 a b : b < 256 -> N.lor (N.shiftl a 8) b = a * 256 + b.
Proof.
  intros Hb. rewrite N.shiftl_mul_pow2. change (2 ^ 8) with 256.
  assert (N.land (a * 256) b = 0) as E.
  { apply N.bits_inj. intros i. rewrite N.land_spec, N.bits_0. change 256 with (2 ^ 8).
    destruct (N.lt_ge_cases i 8) as [L|L].
    - rewrite N.mul_pow2_bits_low by assumption. reflexivity.
    - rewrite (N.bits_above_log2 b i), andb_false_r; [reflexivity|].
      destruct (N.eq_dec b 0) as [->|Hb0]; [cbn; lia|].
      apply N.lt_le_trans with 8; [|assumption]. apply N.log2_lt_pow2; lia. }
  rewrite <- N.lxor_lor by assumption. symmetry. apply N.add_nocarry_lxor. assumption.
Qed.
Lemma lor_shift16 a b : b < 65536 -> a < 65536 -> N.lor (w32 (N.shiftl a 16)) b = a * 65536 + b.
Proof.
  intros Hb Ha. rewrite N.shiftl_mul_pow2. change (2 ^ 16) with 65536. rewrite w32_small by lia.
  assert (N.land (a * 65536) b = 0) as E.
  { apply N.bits_inj. intros i. rewrite N.land_spec, N.bits_0. change 65536 with (2 ^ 16).
    destruct (N.lt_ge_cases i 16) as [L|L].
    - rewrite N.mul_pow2_bits_low by assumption. reflexivity.
    - rewrite (N.bits_above_log2 b i), andb_false_r; [reflexivity|].
      destruct (N.eq_dec b 0) as [->|Hb0]; [cbn; lia|].
      apply N.lt_le_trans with 16; [|assumption]. apply N.log2_lt_pow2; lia. }
  rewrite <- N.lxor_lor by assumption. symmetry. apply N.add_nocarry_lxor. assumption.
Qed.

Lemma zmove_zmove z a b : a <= len (snd z) -> zmove (zmove z a) b = zmove z (a + b).
Proof.
  intros Ha. unfold zmove. cbn [fst snd]. rewrite <- app_assoc.
  replace (N.to_nat (a + b)) with (N.to_nat a + N.to_nat b)%nat by lia.
  assert (forall n m (l : list N), firstn n l ++ firstn m (skipn n l) = firstn (n + m) l) as F.
  { clear. induction n; intros m l; [reflexivity|]. destruct l; cbn [firstn skipn app Nat.add].
    - rewrite firstn_nil. reflexivity.
    - f_equal. apply IHn. }
  assert (forall n m (l : list N), skipn m (skipn n l) = skipn (n + m) l) as G.
  { clear. induction n; intros m l; [reflexivity|]. destruct l; cbn [skipn Nat.add].
    - apply skipn_nil.
    - apply IHn. }
  rewrite F, G. reflexivity.
Qed.

Lemma bytes_in_snd s k z : srep s k z -> bytes (snd z).
Proof. intros [Hk Hb Hp Ha Hl Hby]. rewrite Hb in Hby. apply bytes_app in Hby. tauto. Qed.

Lemma zmove_len z n : n <= len (snd z) -> len (snd (zmove z n)) = len (snd z) - n.
Proof. intros. unfold zmove, len in *. cbn [snd]. rewrite skipn_length. lia. Qed.

Lemma read16_rep s k z : srep s k z ->
  if 2 <=? len (snd z)
  then exists a b r, snd z = a :: b :: r /\
     s_read16 s = Ok (adv (adv s 1) 1, inl (a * 256 + b)) /\ srep (adv (adv s 1) 1) k (zmove z 2)
  else s_read16 s = Ok (s, inr MP4IOErr).
Proof.
  intros Hr. unfold s_read16. pose proof Hr as [Hk Hb Hp Ha Hl Hby]. rewrite Ha.
  pose proof (bytes_in_snd _ _ _ Hr) as Hbs.
  destruct (N.leb_spec 2 (len (snd z))) as [H|H]; destruct (N.ltb_spec (len (snd z)) 2) as [H'|H']; try lia; [|reflexivity].
  pose proof (readData_rep s k z 1 Hr ltac:(lia)) as R1.
  destruct (N.leb_spec 1 (len (snd z))) as [_|]; [|lia]. destruct R1 as [E1 Hr1]. rewrite E1. cbn [bind].
  pose proof (readData_rep (adv s 1) k (zmove z 1) 1 Hr1 ltac:(lia)) as R2.
  rewrite zmove_len in R2 by lia.
  destruct (N.leb_spec 1 (len (snd z) - 1)) as [_|]; [|lia]. destruct R2 as [E2 Hr2]. rewrite E2. cbn [bind].
  rewrite zmove_zmove in Hr2 by lia. change (1 + 1) with 2 in Hr2.
  destruct (snd z) as [|a [|b r]] eqn:Ez; lens; try lia.
  exists a, b, r. split; [reflexivity|]. split; [|assumption].
  unfold zmove. cbn [snd]. rewrite Ez. change (N.to_nat 1) with 1%nat. cbn [firstn skipn hd].
  rewrite lor_shift8; [reflexivity|].
  inversion Hbs as [|? ? _ H2]; inversion H2; assumption.
Qed.

Lemma read32_rep s k z : srep s k z ->
  if 4 <=? len (snd z)
  then exists a b c d r s', snd z = a :: b :: c :: d :: r /\
     s_read32 s = Ok (s', inl (a * 16777216 + b * 65536 + c * 256 + d)) /\ srep s' k (zmove z 4)
  else s_read32 s = Ok (s, inr MP4IOErr).
Proof.
  intros Hr. unfold s_read32. pose proof Hr as [Hk Hb Hp Ha Hl Hby]. rewrite Ha.
  pose proof (bytes_in_snd _ _ _ Hr) as Hbs.
  destruct (N.leb_spec 4 (len (snd z))) as [H|H]; destruct (N.ltb_spec (len (snd z)) 4) as [H'|H']; try lia; [|reflexivity].
  pose proof (read16_rep s k z Hr) as R1.
  destruct (N.leb_spec 2 (len (snd z))) as [_|]; [|lia]. destruct R1 as (a & b & r1 & Ez1 & E1 & Hr1).
  rewrite E1. cbn [bind].
  pose proof (read16_rep _ k _ Hr1) as R2. rewrite zmove_len in R2 by lia.
  destruct (N.leb_spec 2 (len (snd z) - 2)) as [_|]; [|lia]. destruct R2 as (c & d & r2 & Ez2 & E2 & Hr2).
  rewrite E2. cbn [bind]. rewrite zmove_zmove in Hr2 by lia. change (2 + 2) with 4 in Hr2.
  unfold zmove in Ez2. cbn [snd] in Ez2. rewrite Ez1 in Ez2. change (N.to_nat 2) with 2%nat in Ez2. cbn [skipn] in Ez2.
  exists a, b, c, d, r2. eexists. split; [rewrite Ez1, Ez2; reflexivity|]. split; [|eassumption].
  rewrite Ez1, Ez2 in Hbs. unfold bytes, is_byte in Hbs.
  inversion Hbs as [|? ? B1 Hb1]; inversion Hb1 as [|? ? B2 Hb2]; inversion Hb2 as [|? ? B3 Hb3]; inversion Hb3 as [|? ? B4 _]; subst.
  rewrite lor_shift16 by lia. do 3 f_equal. lia.
Qed.

Lemma be_value1 a : be_value [a] = a. Proof. reflexivity. Qed.
Lemma be_value2 a b : be_value [a; b] = a * 256 + b. Proof. unfold be_value; cbn [fold_left]; lia. Qed.
Lemma be_value4 a b c d : be_value [a; b; c; d] = a * 16777216 + b * 65536 + c * 256 + d.
Proof. unfold be_value; cbn [fold_left]; lia. Qed.

Lemma rewind_rep s k z n : srep s k z -> n <= len (fst z) ->
  exists s', s_rewind s n = Ok (s', inl tt) /\ srep s' k (zback z n).
Proof.
  intros [Hk Hb Hp Ha Hl Hby] Hn. unfold s_rewind.
  assert ((match sk s with Mem => Z.of_N (sbase s) + spos s | File => spos s end <? Z.of_N n)%Z = false) as ->.
  { destruct (sk s); rewrite Hp; lia. }
  eexists. split; [reflexivity|]. unfold zback.
  constructor; cbn [sk sbuf spos savail sbase fst snd]; try assumption.
  - rewrite Hb, app_assoc, firstn_skipn. reflexivity.
  - rewrite Hp. unfold len at 2. rewrite firstn_length. unfold len in *. lia.
  - rewrite Ha. lens. rewrite Hb in Hl. lens. unfold len at 2. rewrite skipn_length.
    rewrite w64_small by lia. unfold len in *. lia.
Qed.

Lemma srun_refines k os : forall s z, srep s k z -> rewinds_ok k z os ->
  srun s os = Ok (zrun k z os).
Proof.
  induction os as [|o os IH]; intros s z Hr Hok; [reflexivity|].
  cbn [rewinds_ok] in Hok. destruct Hok as [Ho Hok]. cbn [srun zrun].
  assert (exists s', sstep s o = Ok (s', snd (zstep k z o)) /\ srep s' k (fst (zstep k z o))) as (s' & E & Hr').
  { clear IH Hok. destruct o as [| | |n|n|n|]; cbn [sstep zstep].
    - unfold ztake, s_read8. pose proof (readData_rep s k z 1 Hr ltac:(lia)) as R.
      destruct (N.leb_spec 1 (len (snd z))) as [H|H].
      + destruct R as [E R]. rewrite E. cbn [bind out_n fst snd]. eexists. split; [|exact R].
        destruct (snd z) as [|a r]; lens; [lia|]. change (N.to_nat 1) with 1%nat. reflexivity.
      + rewrite R. cbn [bind out_n fst snd]. eauto.
    - unfold ztake. pose proof (read16_rep s k z Hr) as R.
      destruct (N.leb_spec 2 (len (snd z))) as [H|H].
      + destruct R as (a & b & r & Ez & E & R). rewrite E. cbn [bind out_n fst snd]. eexists. split; [|exact R].
        rewrite Ez. change (N.to_nat 2) with 2%nat. cbn [firstn]. rewrite be_value2. reflexivity.
      + rewrite R. cbn [bind out_n fst snd]. eauto.
    - unfold ztake. pose proof (read32_rep s k z Hr) as R.
      destruct (N.leb_spec 4 (len (snd z))) as [H|H].
      + destruct R as (a & b & c & d & r & s' & Ez & E & R). rewrite E. cbn [bind out_n fst snd]. eexists. split; [|exact R].
        rewrite Ez. change (N.to_nat 4) with 4%nat. cbn [firstn]. rewrite be_value4. reflexivity.
      + rewrite R. cbn [bind out_n fst snd]. eauto.
    - destruct (N.ltb_spec n 4294967296) as [Hn|Hn].
      + unfold ztake. pose proof (readData_rep s k z n Hr Hn) as R.
        destruct (N.leb_spec n (len (snd z))) as [H|H].
        * destruct R as [E R]. rewrite E. cbn [bind out_l fst snd]. eauto.
        * rewrite R. cbn [bind out_l fst snd]. eauto.
      + unfold s_readData. rewrite shiftr32. destruct (N.ltb_spec n 4294967296); [lia|].
        cbn [negb bind out_l fst snd]. eauto.
    - unfold s_skip. pose proof Hr as [Hk Hb Hp Ha Hl Hby]. rewrite Hk, shiftr32, Ha.
      destruct k.
      + destruct (N.ltb_spec n 4294967296) as [Hn|Hn]; cbn [negb].
        * unfold ztake. destruct (N.leb_spec n (len (snd z))) as [H|H]; destruct (N.ltb_spec (len (snd z)) n); try lia;
            cbn [bind out_u fst snd]; eexists; (split; [reflexivity|]); [apply adv_rep; assumption | assumption].
        * cbn [bind out_u fst snd]. eauto.
      + unfold ztake. destruct (N.leb_spec n (len (snd z))) as [H|H]; destruct (N.ltb_spec (len (snd z)) n); try lia;
            cbn [bind out_u fst snd]; eexists; (split; [reflexivity|]); [apply adv_rep; assumption | assumption].
    - destruct (N.leb_spec n (len (fst z))) as [H|H].
      + destruct (rewind_rep s k z n Hr H) as (s' & E & R). rewrite E. cbn [bind out_u fst snd]. eauto.
      + destruct k; [lia|]. unfold s_rewind. destruct Hr as [Hk Hb Hp Ha Hl Hby]. rewrite Hk, Hp.
        assert ((Z.of_N (len (fst z)) <? Z.of_N n)%Z = true) as -> by lia.
        cbn [bind out_u fst snd]. eexists. split; [reflexivity|]. constructor; assumption.
    - eexists. split; [|exact Hr]. unfold s_offset. rewrite (t_pos _ _ _ Hr). cbn [fst snd].
      rewrite N2Z.id. reflexivity. }
  rewrite E. cbn [bind]. destruct (zstep k z o) as [z' r]. cbn [fst snd] in *.
  rewrite (IH s' z' Hr' Hok). reflexivity.
Qed.

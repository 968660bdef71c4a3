From Verif Require Import Base Codec AtomModel AtomSpec AtomProofs AtomProps BitLemmas BoxModel BoxSpec BoxProofs Reads KidsModel KidsProofs TextModel TextSpec TextProofs EntryModel EntrySpec EntryProofs EntryProps BitModel BitSpec BitProofs ParamModel ParamSpec.

Lemma sets_writes l : Forall set_ok l -> writes (sets_w l) (sets l).
Proof.
  intros H. unfold sets_w, sets. apply writes_map. intros b I. unfold set_bytes. rewrite Forall_forall in H. specialize (H b I). unfold set_ok in H.
  apply writes_seq; wstep.
Qed.
Lemma sets_len l : 2 * len l <= len (sets l).
Proof. unfold sets. induction l as [|a l IH]; cbn [flat_map]; lens; [lia|]. unfold set_bytes at 1. lens. lia. Qed.
Lemma sets_size_is l : forall n, n + len (sets l) < 4294967296 -> sets_size n l = n + len (sets l).
Proof.
  unfold sets_size, sets. induction l as [|b l IH]; intros n Hl; cbn [fold_left flat_map] in *; [lens; lia|].
  assert (E : len (set_bytes b) = 2 + len b) by (unfold set_bytes; lens; lia).
  revert Hl. rewrite !len_app, E. intros Hl. rewrite (w32_small (2 + len b)), w32_small by lia. rewrite IH by lia. lia.
Qed.
Lemma sets_reads n l : Forall set_ok l -> n < 4294967296 -> reads n (rrep (length l) set_rd) (sets l) l.
Proof.
  intros H Hn. pose proof (reads_rrep set_rd set_bytes (fun b => b) l) as R. rewrite map_id in R. apply R; [|exact Hn].
  intros b m I Hm. rewrite Forall_forall in H. specialize (H b I). unfold set_ok in H. unfold set_rd, set_bytes.
  rnext; [apply reads_of, parses_get16; lia|]. apply reads_take. lia.
Qed.
Lemma high_is p : high p = is_high p.
Proof. unfold high, is_high. cbn [existsb]. rewrite orb_false_r, !orb_assoc. reflexivity. Qed.

Lemma reads_if {A} n (b : bool) (m k : rd A) bs a :
  (b = true -> reads n m bs a) -> (b = false -> reads n k bs a) -> reads n (if b then m else k) bs a.
Proof. destruct b; auto. Qed.

Lemma writes_cons8 v w b : v < 256 -> writes w b -> writes (put8 v ;; w) (v :: b).
Proof.
  intros H W. change (v :: b) with ([v] ++ b). apply writes_seq; [|exact W]. replace [v] with (be8 v); [wstep|].
  unfold be8; rewrite N.mod_small by exact H. reflexivity.
Qed.
Lemma writes_8 v : v < 256 -> writes (put8 v) [v].
Proof. intros H. replace [v] with (be8 v); [wstep|]. unfold be8; rewrite N.mod_small by exact H. reflexivity. Qed.
Lemma reads_8 n v : v < 256 -> reads n get8 [v] v.
Proof. intros H. replace [v] with (be8 v); [apply reads_of, parses_get8; exact H|]. unfold be8; rewrite N.mod_small by exact H. reflexivity. Qed.
Lemma reads_cons8 {A} n v (k : N -> rd A) bs a : v < 256 -> reads (w32 (n + 1)) (k v) bs a -> reads n (rbind get8 k) (v :: bs) a.
Proof. intros H R. change (v :: bs) with ([v] ++ bs). eapply reads_bind; [apply reads_8; exact H|exact R]. Qed.
Lemma or_high k c b : c mod 2 ^ k = 0 -> b < 2 ^ k -> N.lor c b = c + b.
Proof.
  intros H Hb. pose proof (N.pow_nonzero 2 k). rewrite <- (N.mul_1_r c) at 1. replace (c * 1) with (c / 2 ^ k * 2 ^ k); [|].
  - rewrite lor_mul by exact Hb. f_equal. pose proof (N.div_mod c (2 ^ k)). lia.
  - pose proof (N.div_mod c (2 ^ k)). lia.
Qed.
Ltac w1 := apply writes_cons8; [try lia|].
Ltac r1 := apply reads_cons8; [try lia|].
Lemma avcc_faithful : faithful avcc_codec avcc_layout.
Proof.
  split; [intros t _; plain|]. intros [p cp lv cm ls sps pps ch lu cd ext] H Hl.
  cbn [avcc_codec avcc_layout c_size c_w c_rd c_ty l_body l_view l_ok ac_prof ac_compat ac_level ac_complete ac_len ac_sps ac_pps ac_chroma ac_luma ac_cdepth ac_ext] in *.
  destruct H as (H1 & H2 & H3 & H4 & H5 & H6 & H7 & H8 & H9).
  rewrite <- !high_is in *. revert Hl. lens. intros Hl.
  assert (Hl' : 15 + len (sets sps) + len (sets pps) + (if high p then 4 + len (sets ext) else 0) < 4294967296)
    by (revert Hl; destruct (high p); lens; lia).
  split; [|split].
  - unfold avcc_size. cbn [ac_prof ac_compat ac_level ac_complete ac_len ac_sps ac_pps ac_chroma ac_luma ac_cdepth ac_ext].
    clear H9. destruct (high p); rewrite !(sets_size_is sps), !(sets_size_is pps) by lia; lens; [|lia].
    rewrite w32_small, sets_size_is by lia. lia.
  - unfold avcc_w. cbn [ac_prof ac_compat ac_level ac_complete ac_len ac_sps ac_pps ac_chroma ac_luma ac_cdepth ac_ext].
    replace (32 <=? len sps) with false by lia. replace (32 <=? len pps) with false by lia. cbn [orb].
    cbn [app]. do 4 w1.
    assert (E5 : N.lor (N.lor (if cm then 128 else 0) 124) (N.land (sub32 ls 1) 3) = (if cm then 252 else 124) + (ls - 1))
      by (assert (ls = 1 \/ ls = 2 \/ ls = 3 \/ ls = 4) as [->|[->|[->| ->]]] by lia; destruct cm; reflexivity).
    rewrite E5. w1; [destruct cm; lia|].
    rewrite land31, N.mod_small, (or_high 5 224) by (reflexivity || lia). w1.
    apply writes_seq; [apply sets_writes; exact H7|]. w1.
    apply writes_seq; [apply sets_writes; exact H8|].
    destruct (high p); [|apply writes_ret]. destruct H9 as (H9 & H10 & H11 & H12 & H13).
    rewrite land3, !land7, !N.mod_small by lia. rewrite (or_high 2 252), !(or_high 3 248) by (reflexivity || lia).
    do 4 w1. apply sets_writes; exact H13.
  - unfold avcc_rd.
    cbn [app]. r1. cbn [N.eqb negb Pos.eqb]. do 3 r1. r1; [destruct cm; lia|]. r1.
    replace (N.land (224 + len sps) 31) with (len sps) by (rewrite land31; lia). rewrite to_nat_len.
    rnext; [apply sets_reads; [exact H7|apply w32_lt]|].
    r1. rewrite to_nat_len.
    rnext; [apply sets_reads; [exact H8|apply w32_lt]|].
    replace (negb (N.land ((if cm then 252 else 124) + (ls - 1)) 128 =? 0)) with cm
      by (assert (ls = 1 \/ ls = 2 \/ ls = 3 \/ ls = 4) as [->|[->|[->| ->]]] by lia; destruct cm; reflexivity).
    replace (N.land ((if cm then 252 else 124) + (ls - 1)) 3 + 1) with ls
      by (assert (ls = 1 \/ ls = 2 \/ ls = 3 \/ ls = 4) as [->|[->|[->| ->]]] by lia; destruct cm; reflexivity).
    destruct (high p).
    + destruct H9 as (H9 & H10 & H11 & H12 & H13).
      cbn [app]. do 4 r1. rewrite to_nat_len. eapply reads_bind_last; [apply sets_reads; [exact H13|apply w32_lt]|]. apply reads_ret; [apply w32_lt|].
      rewrite land3, !land7. f_equal; lia.
    + destruct H9 as (-> & -> & -> & ->). apply reads_ret; [apply w32_lt|reflexivity].
Qed.

Definition harr_ok (r : narr) : Prop := na_complete r < 2 /\ na_type r < 64 /\ len (na_nals r) < 32 /\ Forall set_ok (na_nals r).
Lemma arr_set_app (a b : list narr) x r : arr_set (a ++ x :: b) (len a) r = a ++ r :: b.
Proof.
  assert (E : skipn (S (length a)) (a ++ x :: b) = b) by (induction a; [reflexivity|cbn [app length skipn] in *; assumption]).
  unfold arr_set. rewrite to_nat_len, E, firstn_app, Nat.sub_diag, firstn_all, firstn_O, app_nil_r. reflexivity.
Qed.
Lemma land_shiftl k x m : N.land x (N.shiftl m k) = N.shiftl (N.land (N.shiftr x k) m) k.
Proof.
  apply N.bits_inj. intros i. rewrite N.land_spec. destruct (N.ltb_spec i k).
  - rewrite !N.shiftl_spec_low by assumption. apply andb_false_r.
  - rewrite !N.shiftl_spec_high' by assumption. rewrite N.land_spec, N.shiftr_spec by lia. f_equal. f_equal. lia.
Qed.
Lemma arr_byte r : na_complete r < 2 -> na_type r < 64 -> 128 * na_complete r + na_type r < 256 /\
  N.lor (w32 (N.shiftl (na_complete r) 7)) (na_type r) = 128 * na_complete r + na_type r /\
  (if N.land (128 * na_complete r + na_type r) 128 =? 0 then 0 else 1) = na_complete r /\
  N.land (128 * na_complete r + na_type r) 63 = na_type r.
Proof.
  intros H1 H2. split; [lia|]. split; [|split].
  - rewrite shiftl_mul, w32_small by (cbn; lia). rewrite lor_mul by (cbn; lia). cbn; lia.
  - change 128 with (N.shiftl 1 7) at 2. rewrite land_shiftl, shiftr_div, BitLemmas.land1, shiftl_mul. change (2 ^ 7) with 128.
    destruct (N.eqb_spec ((128 * na_complete r + na_type r) / 128 mod 2 * 128) 0); lia.
  - rewrite land63. lia.
Qed.
Lemma harrs_reads rs : Forall harr_ok rs -> forall pre post n, length post = length rs -> n < 4294967296 -> forall tail,
  reads n (harrs_rd (length rs) (len pre) (pre ++ post ++ tail)) (flat_map arr_bytes rs) (pre ++ rs ++ tail).
Proof.
  induction 1 as [|r rs (H1 & H2 & H3 & H4) _ IH]; intros pre post n Hp Hn tail; cbn [length harrs_rd flat_map].
  - destruct post; [|discriminate]. apply reads_ret; [exact Hn|reflexivity].
  - destruct post as [|q post]; [discriminate|]. injection Hp as Hp. destruct (arr_byte r H1 H2) as (B1 & _ & B3 & B4).
    unfold arr_bytes at 1. rewrite <- !app_assoc. cbn [app]. r1. rewrite B3, B4. lens.
    replace (_ <=? len pre) with false by lia.
    rnext; [apply reads_of, parses_get16; lia|]. rewrite to_nat_len. rnext; [apply sets_reads; [exact H4|apply w32_lt]|].
    rewrite arr_set_app. replace (len pre + 1) with (len (pre ++ [r])) by (lens; lia). destruct r as [r1 r2 r3]. cbn [na_complete na_type na_nals].
    match goal with |- reads ?m _ _ _ => specialize (IH (pre ++ [mkArr r1 r2 r3]) post m Hp (w32_lt _) tail) end.
    rewrite <- !app_assoc in IH. exact IH.
Qed.
Lemma hvcc_faithful : faithful hvcc_codec hvcc_layout.
Proof.
  split; [intros t _; plain|]. intros [idc cp lv ch lu cd fr ne ls num arrs] H Hl. unfold used in *.
  cbn [hvcc_codec hvcc_layout c_size c_w c_rd c_ty l_body l_view l_ok hc_idc hc_compat hc_level hc_chroma hc_luma hc_cdepth hc_rate hc_nest hc_len1 hc_num hc_arrs used] in *.
  destruct H as (H1 & H2 & H3 & H4 & H5 & H6 & H7 & H8 & H9 & H10 & H11 & H12). unfold used in *. cbn [hc_num hc_arrs] in *.
  fold harr_ok in H12. change (Forall harr_ok (firstn (N.to_nat num) arrs)) in H12.
  assert (Lu : len (firstn (N.to_nat num) arrs) = num) by (unfold len in *; rewrite firstn_length; lia).
  remember (firstn (N.to_nat num) arrs) as rs eqn:Er.
  revert Hl. lens. change (repeat 0 6) with (be32 0 ++ be16 0). lens. intros Hl.
  split; [|split].
  - unfold hvcc_size. cbn [hc_num hc_arrs]. rewrite <- Er. rewrite w32_small by lia.
    assert (G : forall l n, Forall harr_ok l -> n + len (flat_map arr_bytes l) < 4294967296 ->
      fold_left (fun n r => sets_size n (na_nals r)) l (n + 3 * len l) = n + len (flat_map arr_bytes l)).
    { clear. induction l as [|r l IH]; intros n H Hl; cbn [fold_left flat_map] in *; [lens; lia|].
      inversion_clear H. revert Hl. unfold arr_bytes at 1 3. lens. intros Hl.
      assert (3 * len l <= len (flat_map arr_bytes l)) by (clear; induction l as [|a l IH]; cbn [flat_map]; lens; [lia|]; unfold arr_bytes at 1; lens; lia).
      rewrite sets_size_is by lia. replace (n + 3 * (1 + len l) + len (sets (na_nals r))) with (n + 3 + len (sets (na_nals r)) + 3 * len l) by lia.
      rewrite IH by (assumption || lia). lia. }
    replace num with (len rs) by exact Lu. rewrite G by (assumption || lia). lia.
  - unfold hvcc_w. cbn [hc_idc hc_compat hc_level hc_chroma hc_luma hc_cdepth hc_rate hc_nest hc_len1 hc_num hc_arrs]. rewrite <- Er.
    replace (len arrs <? num) with false by lia.
    replace (existsb _ rs) with false.
    2:{ symmetry. clear -H12. induction H12 as [|r l H _ IH]; [reflexivity|]. cbn [existsb]. rewrite IH. destruct H as (_ & _ & H & _). lia. }
    change ([1; idc] ++ ?x) with (1 :: idc :: x). w1. w1. apply writes_seq; [wstep|].
    rewrite <- app_assoc. apply writes_seq; [wstep|]. apply writes_seq; [wstep|].
    rewrite !(or_high 3 248), (or_high 2 252) by (reflexivity || lia).
    assert (E : N.lor (N.lor 8 (w32 (N.shiftl ne 2))) (N.land ls 3) = 8 + 4 * ne + ls).
    { rewrite land3, (N.mod_small ls) by lia. assert (ne = 0 \/ ne = 1) as [-> | ->] by lia; change (N.lor 8 (w32 (N.shiftl 0 2))) with 8;
        change (N.lor 8 (w32 (N.shiftl 1 2))) with 12; rewrite (or_high 2) by (reflexivity || lia); lia. }
    rewrite E. cbn [app]. w1. change (240 :: 0 :: ?x) with (be16 61440 ++ x). apply writes_seq; [wstep|]. do 4 w1. apply writes_seq; [wstep|].
    w1. w1. apply writes_map. intros r I. rewrite Forall_forall in H12. destruct (H12 r I) as (B1 & B2 & B3 & B4).
    destruct (arr_byte r B1 B2) as (C1 & C2 & _). rewrite C2. unfold arr_bytes. cbn [app]. w1. apply writes_seq; [wstep|]. apply sets_writes; exact B4.
  - unfold hvcc_rd. change ([1; idc] ++ ?x) with (1 :: idc :: x). r1. cbn [N.eqb negb Pos.eqb]. r1.
    rnext; [apply reads_of, parses_get32; lia|]. rewrite <- app_assoc.
    rnext; [apply reads_of, parses_get32; lia|]. rnext; [apply reads_of, parses_get16; lia|]. cbn [app]. r1.
    change (240 :: 0 :: ?x) with (be16 61440 ++ x). rnext; [apply reads_of, parses_get16; lia|]. do 4 r1. rnext; [apply reads_of, parses_get16; lia|]. r1. r1.
    eapply reads_bind_last.
    { replace (N.to_nat num) with (length rs) by (unfold len in Lu; lia).
      pose proof (harrs_reads rs H12 [] (firstn (length rs) hevc_arrs)) as R. cbn [app] in R. change (len (@nil narr)) with 0 in R.
      rewrite <- (firstn_skipn (length rs) hevc_arrs) at 1. apply R; [|apply w32_lt].
      rewrite firstn_length. change (length hevc_arrs) with 8%nat. unfold len in Lu. lia. }
    apply reads_ret; [apply w32_lt|]. rewrite land31, !land3, !land7, BitLemmas.land1, shiftr_div. change (2 ^ 2) with 4.
    replace (length rs) with (N.to_nat num) by (unfold len in Lu; lia). f_equal; lia.
Qed.

Lemma field k m x : N.shiftr (N.land x (N.shiftl m k)) k = N.land (N.shiftr x k) m.
Proof. rewrite land_shiftl, N.shiftr_shiftl_l, N.sub_diag, N.shiftl_0_r by lia. reflexivity. Qed.
Lemma u_value n : forall B, length B = n -> u n (value B) = B.
Proof.
  induction n as [|n IH]; intros [|b B] H; try discriminate; [reflexivity|]. injection H as H. cbn [u]. rewrite value_cons.
  assert (L : len B = N.of_nat n) by (unfold len; lia). rewrite L. pose proof (value_lt B) as V. rewrite L in V. f_equal.
  - rewrite N.testbit_eqb. rewrite N.div_add_l by (apply N.pow_nonzero; discriminate). rewrite N.div_small by exact V. destruct b; reflexivity.
  - rewrite <- (IH B H) at 2. apply u_mod. rewrite N.add_comm, N.mod_add by (apply N.pow_nonzero; discriminate). reflexivity.
Qed.
Lemma value_falses k : value (repeat false k) = 0.
Proof. induction k as [|k IH]; [reflexivity|]. cbn [repeat]. rewrite value_cons, IH. reflexivity. Qed.
Lemma sub_flags_is l : forall cnt, len l <= N.of_nat cnt + 1 ->
  sub_flags (N.of_nat cnt) l = value (map is_some l ++ repeat false (S cnt - length l)).
Proof.
  induction l as [|o l IH]; intros cnt H; cbn [sub_flags map app].
  - cbn [length]. rewrite value_falses. reflexivity.
  - revert H. lens. intros H. rewrite value_cons. lens.
    replace (len l + _) with (N.of_nat cnt) by (cbn [length]; unfold len in *; lia).
    assert (E : sub_flags (N.of_nat cnt - 1) l = value (map is_some l ++ repeat false (S cnt - length (o :: l)))).
    { destruct cnt as [|cnt].
      - assert (l = []) as -> by (apply len_0; lia). reflexivity.
      - replace (N.of_nat (S cnt) - 1) with (N.of_nat cnt) by lia. rewrite IH by lia. reflexivity. }
    rewrite E. clear E. match goal with |- N.lor _ (value ?B) = _ => pose proof (value_lt B) as V; assert (L : len B = N.of_nat cnt) by (lens; cbn [length]; unfold len in *; lia); rewrite L in V end.
    destruct o; cbn [is_some]; [rewrite lor_add by exact V; reflexivity|rewrite N.lor_0_l; lia].
Qed.
Lemma sub_list_is x k : forall m, (k <= S m)%nat -> sub_list k (2 ^ N.of_nat m) x = firstn k (u (S m) x).
Proof.
  induction k as [|k IH]; intros m H; [reflexivity|]. cbn [sub_list u firstn]. f_equal.
  - rewrite <- (N.mul_1_l (2 ^ _)), <- shiftl_mul, land_shiftl, BitLemmas.land1, shiftl_mul, N.testbit_eqb, shiftr_div.
    assert (P : 2 ^ N.of_nat m <> 0) by (apply N.pow_nonzero; discriminate). revert P. generalize (2 ^ N.of_nat m). intros d P.
    generalize (x / d). intros q. assert (q mod 2 = 0 \/ q mod 2 = 1) as [-> | ->] by lia; [reflexivity|].
    destruct (N.eqb_spec (1 * d) 0); [lia|reflexivity].
  - destruct m as [|m]; [assert (k = O) by lia; subst; reflexivity|].
    replace (N.shiftr (2 ^ N.of_nat (S m)) 1) with (2 ^ N.of_nat m); [apply IH; lia|].
    rewrite shiftr_div. replace (N.of_nat (S m)) with (N.of_nat m + 1) by lia. rewrite N.pow_add_r, N.div_mul; [reflexivity|discriminate].
Qed.
Lemma subs_reads l : Forall (fun o => match o with Some v => v < 256 | None => True end) l -> forall n, n < 4294967296 ->
  reads n (subs_rd (map is_some l)) (somes l) l.
Proof.
  unfold somes. induction 1 as [|o l H _ IH]; intros n Hn; cbn [map subs_rd flat_map is_some].
  - apply reads_ret; [exact Hn|reflexivity].
  - destruct o as [v|]; cbn [is_some app].
    + r1. eapply reads_bind_last; [apply IH, w32_lt|]. apply reads_ret; [apply w32_lt|reflexivity].
    + eapply reads_bind_last; [apply IH, Hn|]. apply reads_ret; [apply w32_lt|reflexivity].
Qed.
Lemma subs_writes l : Forall (fun o => match o with Some v => v < 256 | None => True end) l ->
  writes (wmap (fun o => match o with Some v => put8 v | None => wret end) l) (somes l).
Proof.
  intros H. unfold somes. apply writes_map. intros [v|] I; [|apply writes_ret]. rewrite Forall_forall in H. apply writes_8, (H (Some v) I).
Qed.
Lemma vptl_writes p : vptl_ok p -> writes (vptl_w p) (vptl_bytes p).
Proof.
  destruct p as [ols nsl rate ch dep nb idc tier lv fr mu up lo subs np w h av].
  intros (H1 & H2 & H3 & H4 & H5 & H6 & H7 & H8 & H9 & H10 & H11 & H12 & H13 & H14 & H15 & H16 & H17 & H18 & H19).
  unfold vptl_w, vptl_bytes, lower.
  cbn [vp_ols vp_nsl vp_rate vp_chroma vp_depth vp_bytes vp_idc vp_tier vp_level vp_frame vp_multi vp_upper vp_lower vp_subs vp_nprof vp_w vp_h vp_avg] in *.
  subst np. rewrite !shiftl_mul. change (2 ^ 7) with 128. change (2 ^ 4) with 16. change (2 ^ 2) with 4. change (2 ^ 5) with 32. change (2 ^ 1) with 2. change (2 ^ 6) with 64.
  rewrite !w32_small by lia.
  rewrite (or_high 7 (ols * 128)) by (change (2 ^ 7) with 128; lia). rewrite (or_high 4 (_ + nsl * 16)) by (change (2 ^ 4) with 16; lia).
  rewrite (or_high 2 (_ + rate * 4)) by (change (2 ^ 2) with 4; lia).
  rewrite (or_high 5 (dep * 32)) by (change (2 ^ 5) with 32; lia). rewrite (or_high 1 (idc * 2)) by (change (2 ^ 1) with 2; lia).
  rewrite (or_high 7 (fr * 128)) by (change (2 ^ 7) with 128; lia). rewrite (or_high 6 (_ + mu * 64)) by (change (2 ^ 6) with 64; lia).
  replace (ols * 128 + nsl * 16 + rate * 4 + ch) with (128 * ols + 16 * nsl + 4 * rate + ch) by lia.
  replace (dep * 32 + 31) with (32 * dep + 31) by lia. replace (idc * 2 + tier) with (2 * idc + tier) by lia.
  replace (fr * 128 + mu * 64 + up) with (128 * fr + 64 * mu + up) by lia.
  apply writes_seq; [wstep|]. cbn [app]. do 5 w1.
  apply writes_seq.
  { destruct (N.ltb_spec 1 nb).
    - replace (len lo <? nb - 1) with false by lia. wstep.
    - replace (nb - 1) with 0 by lia. cbn [N.to_nat firstn]. wstep. }
  apply writes_seq.
  { destruct (N.leb_spec 2 nsl); [|wstep]. change 7 with (N.of_nat 7). rewrite (sub_flags_is subs 7) by (change (N.of_nat 7) with 7; lia). apply writes_8.
    match goal with |- value ?B < _ => pose proof (value_lt B) as V; replace (len B) with 8 in V end; [exact V|].
    lens. unfold len in *. lia. }
  apply writes_seq; [apply subs_writes; exact H15|]. w1. cbn [N.ltb N.compare]. change (writes (wret ;; (put16 w ;; put16 h ;; put16 av)) (be16 w ++ be16 h ++ be16 av)).
  apply (writes_seq wret _ [] (be16 w ++ be16 h ++ be16 av)); [wstep|]. apply writes_seq; [wstep|]. apply writes_seq; wstep.
Qed.
Lemma vptl_reads n p : vptl_ok p -> n < 4294967296 -> reads n vptl_rd (vptl_bytes p) (vptl_view p).
Proof.
  destruct p as [ols nsl rate ch dep nb idc tier lv fr mu up lo subs np w h av].
  intros (H1 & H2 & H3 & H4 & H5 & H6 & H7 & H8 & H9 & H10 & H11 & H12 & H13 & H14 & H15 & H16 & H17 & H18 & H19) Hn.
  unfold vptl_rd, vptl_bytes, vptl_view, lower.
  cbn [vp_ols vp_nsl vp_rate vp_chroma vp_depth vp_bytes vp_idc vp_tier vp_level vp_frame vp_multi vp_upper vp_lower vp_subs vp_nprof vp_w vp_h vp_avg] in *.
  subst np. rnext; [apply reads_of, parses_get16; lia|]. cbn [app]. do 5 r1.
  set (x := 128 * ols + 16 * nsl + 4 * rate + ch) in *.
  assert (Ex : N.shiftr (N.land x 112) 4 = nsl).
  { change 112 with (N.shiftl 7 4). rewrite field, land7, shiftr_div. change (2 ^ 4) with 16. unfold x. lia. }
  rewrite Ex. rewrite land63, (N.mod_small nb) by lia.
  assert (Ll : len (firstn (N.to_nat (nb - 1)) lo) = nb - 1) by (unfold len in *; rewrite firstn_length; lia).
  rnext.
  { instantiate (1 := firstn (N.to_nat (nb - 1)) lo). destruct (N.ltb_spec 1 nb).
    - apply reads_take. lia.
    - replace (nb - 1) with 0 by lia. cbn [N.to_nat firstn]. apply reads_ret; [apply w32_lt|reflexivity]. }
  assert (Lm : 2 <= nsl -> len (map is_some subs ++ repeat false (8 - length subs)) = 8)
    by (intros; lens; unfold len in *; lia).
  rnext.
  { instantiate (1 := if 2 <=? nsl then value (map is_some subs ++ repeat false (8 - length subs)) else 0). destruct (N.leb_spec 2 nsl).
    - apply reads_8. match goal with |- value ?B < _ => pose proof (value_lt B) as V; replace (len B) with 8 in V by (symmetry; auto) end. exact V.
    - apply reads_ret; [apply w32_lt|reflexivity]. }
  rnext.
  { replace (sub_list _ 128 _) with (map is_some subs); [apply subs_reads; [exact H15|apply w32_lt]|].
    change 128 with (2 ^ N.of_nat 7). rewrite sub_list_is by lia. destruct (N.leb_spec 2 nsl) as [G|G].
    - rewrite u_value by (specialize (Lm G); unfold len in Lm; lia).
      replace (N.to_nat (nsl - 1)) with (length (map is_some subs)) by (rewrite map_length; unfold len in *; lia).
      rewrite firstn_app, Nat.sub_diag, firstn_all, firstn_O, app_nil_r. reflexivity.
    - replace (nsl - 1) with 0 in * by lia. cbn [N.to_nat firstn]. assert (subs = []) as -> by (apply len_0; lia). reflexivity. }
  r1. cbn [N.ltb N.compare]. eapply reads_bind_nil; [intros s _; reflexivity|].
  rnext; [apply reads_of, parses_get16; lia|]. rnext; [apply reads_of, parses_get16; lia|]. rnext; [apply reads_of, parses_get16; lia|].
  apply reads_ret; [apply w32_lt|].
  change 65408 with (N.shiftl 511 7). change 12 with (N.shiftl 3 2). change 224 with (N.shiftl 7 5). change 254 with (N.shiftl 127 1).
  change (N.land (128 * fr + 64 * mu + up) 128) with (N.land (128 * fr + 64 * mu + up) (N.shiftl 1 7)).
  change (N.land (128 * fr + 64 * mu + up) 64) with (N.land (128 * fr + 64 * mu + up) (N.shiftl 1 6)).
  rewrite !field. change 511 with (N.ones 9). rewrite land_mod, !land3, land7, land127, !BitLemmas.land1, land63, !shiftr_div.
  change (2 ^ 9) with 512. change (2 ^ 7) with 128. change (2 ^ 2) with 4. change (2 ^ 5) with 32. change (2 ^ 1) with 2. change (2 ^ 6) with 64.
  unfold x. f_equal; lia.
Qed.

Lemma single_is ty : single ty = no_count ty.
Proof. unfold single, no_count. cbn [existsb]. rewrite orb_false_r. apply orb_comm. Qed.
Lemma lut_find_at a t b : ~ In t a -> forall j, lut_find (a ++ t :: b) j t = Some (j + len a).
Proof.
  induction a as [|x a IH]; intros H j; cbn [app lut_find].
  - rewrite N.eqb_refl. lens. f_equal. lia.
  - destruct (N.eqb_spec t x) as [->|_]; [destruct H; left; reflexivity|]. rewrite IH by (intros G; apply H; right; exact G). lens. f_equal. lia.
Qed.
Lemma vvc_nodup : NoDup vvc_types.
Proof. unfold vvc_types. repeat constructor; cbn [In]; intuition discriminate. Qed.
Lemma varr_len r : varr_ok r -> full_arr r = true ->
  len (varr_bytes r) = (if single (na_type r) then 1 else 3) + len (sets (na_nals r)) /\ arr_out r = na_nals r /\
  (if single (na_type r) then len (na_nals r) = 1 else True).
Proof.
  destruct r as [cm ty l]. intros (H1 & H2 & H3 & H4) F. unfold full_arr in F. unfold varr_bytes, arr_out. cbn [na_complete na_type na_nals] in *.
  rewrite <- single_is in *. destruct (single ty); lens; [|repeat split; lia]. specialize (H3 eq_refl). split; [lia|].
  destruct l as [|x [|z l]]; [discriminate| |exfalso; revert H3; lens; lia]. split; reflexivity.
Qed.
Lemma in_types ty : In ty vvc_types -> ty < 32.
Proof. unfold vvc_types. cbn [In]. intros H. repeat (destruct H as [<-|H]; [reflexivity|]). destruct H. Qed.
Lemma varr_byte cm ty : cm < 2 -> ty < 32 -> 128 * cm + ty < 256 /\ N.lor (w32 (N.shiftl cm 7)) ty = 128 * cm + ty /\
  (if N.land (128 * cm + ty) 128 =? 0 then 0 else 1) = cm /\ N.land (128 * cm + ty) 31 = ty.
Proof.
  intros H1 H2. destruct (arr_byte (mkArr cm ty []) H1) as (A & B & C & _); [cbn [na_type]; lia|]. cbn [na_complete na_type] in *.
  repeat split; [exact A|exact B|exact C|]. rewrite land31. lia.
Qed.
Lemma varrs_reads post : forall pre ui n, map na_type (pre ++ post) = vvc_types -> Forall varr_ok post -> n < 4294967296 ->
  reads n (varrs_rd (length (filter full_arr post)) ui (map varr_view pre ++ map (fun t => mkArr 0 t []) (map na_type post)))
    (flat_map varr_bytes (filter full_arr post)) (map varr_view (pre ++ post)).
Proof.
  induction post as [|r post IH]; intros pre ui n Ht Hok Hn.
  - cbn [filter length flat_map varrs_rd map]. rewrite !app_nil_r. apply reads_ret; [exact Hn|reflexivity].
  - inversion_clear Hok as [|? ? Hr Hp].
    assert (E : forall m ui', m < 4294967296 -> reads m (varrs_rd (length (filter full_arr post)) ui'
        (map varr_view pre ++ varr_view r :: map (fun t => mkArr 0 t []) (map na_type post))) (flat_map varr_bytes (filter full_arr post)) (map varr_view (pre ++ r :: post))).
    { intros m ui' Hm. specialize (IH (pre ++ [r]) ui' m). rewrite <- app_assoc in IH. specialize (IH Ht Hp Hm).
      rewrite map_app in IH at 1. cbn [map] in IH. rewrite <- app_assoc in IH. exact IH. }
    cbn [filter map]. destruct (full_arr r) eqn:F.
    2:{ apply (E n ui) in Hn. unfold varr_view at 2 in Hn. rewrite F in Hn. exact Hn. }
    destruct (varr_len r Hr F) as (_ & _ & L1). destruct r as [cm ty l]. cbn [na_type na_complete na_nals] in *.
    destruct Hr as (R1 & R2 & R3 & R4). cbn [na_type na_complete na_nals] in *.
    assert (I : In ty vvc_types) by (rewrite <- Ht, map_app; apply in_or_app; right; left; reflexivity).
    destruct (varr_byte cm ty R1 (in_types ty I)) as (B1 & B2 & B3 & B4).
    cbn [length varrs_rd flat_map]. unfold varr_bytes at 1. cbn [na_complete na_type na_nals]. rewrite <- !app_assoc. cbn [app]. r1. rewrite B3, B4.
    assert (Lf : lut_find vvc_types 0 ty = Some (len (map varr_view pre))).
    { rewrite <- Ht, map_app. cbn [map na_type]. rewrite lut_find_at; [lens; reflexivity|].
      pose proof vvc_nodup as ND. rewrite <- Ht, map_app in ND. cbn [map na_type] in ND. apply NoDup_remove_2 in ND. intros G. apply ND, in_or_app. left. exact G. }
    rewrite Lf. rewrite len_app, len_cons. replace (_ <=? len (map varr_view pre)) with false by lia.
    rewrite <- single_is.
    rnext. { instantiate (1 := len l). destruct (single ty).
      - rewrite L1. apply reads_ret; [apply w32_lt|reflexivity].
      - apply reads_of, parses_get16; lia. }
    rewrite to_nat_len. rnext; [apply sets_reads; [exact R4|apply w32_lt]|].
    rewrite arr_set_app. match goal with |- reads ?m _ _ _ => specialize (E m (ui + 1) (w32_lt _)) end.
    unfold varr_view at 2 in E. rewrite F in E. exact E.
Qed.
Lemma varrs_writes l : Forall varr_ok l -> Forall (fun r => na_type r < 32) l ->
  writes (wmap varr_w l) (flat_map varr_bytes (filter full_arr l)).
Proof.
  intros H G. replace (flat_map varr_bytes (filter full_arr l)) with (flat_map (fun r => if full_arr r then varr_bytes r else []) l).
  2:{ clear. induction l as [|r l IH]; [reflexivity|]. cbn [flat_map filter]. rewrite IH. destruct (full_arr r); reflexivity. }
  apply writes_map. intros r I. rewrite Forall_forall in H, G. specialize (H r I). specialize (G r I). cbn beta in G. unfold varr_w.
  destruct (full_arr r) eqn:F; unfold full_arr in F.
  - replace (len (na_nals r) =? 0) with false by lia. destruct (varr_len r H F) as (_ & E2 & E3). rewrite E2.
    destruct H as (H1 & H2 & H3 & H4). destruct (varr_byte _ _ H1 G) as (B1 & B2 & _). rewrite B2. unfold varr_bytes. cbn [app]. w1.
    apply writes_seq; [|apply sets_writes; exact H4]. rewrite <- single_is. destruct (single (na_type r)); wstep.
  - replace (len (na_nals r) =? 0) with true by lia. apply writes_ret.
Qed.
Lemma varrs_size l : Forall varr_ok l -> forall n, n + len (flat_map varr_bytes (filter full_arr l)) < 4294967296 ->
  fold_left (fun n r => if len (na_nals r) =? 0 then n
                        else sets_size (w32 (n + (if single (na_type r) then 1 else 3))) (arr_out r)) l n = n + len (flat_map varr_bytes (filter full_arr l)).
Proof.
  induction 1 as [|r l H _ IH]; intros n Hn; cbn [fold_left filter] in *; [cbn [flat_map]; lens; lia|].
  destruct (full_arr r) eqn:F; unfold full_arr in F.
  - replace (len (na_nals r) =? 0) with false by lia. destruct (varr_len r H F) as (E1 & E2 & E3). rewrite E2.
    cbn [flat_map] in *. rewrite len_app, E1 in *. rewrite w32_small by lia. rewrite sets_size_is by lia. rewrite IH by lia. lia.
  - replace (len (na_nals r) =? 0) with true by lia. apply IH. exact Hn.
Qed.
Lemma vptl_len p : vptl_ok p -> len (vptl_bytes p) = 7 + (vp_bytes p - 1) + (if 2 <=? vp_nsl p then 1 else 0) + sub_count (vp_subs p) + 1 + 6.
Proof.
  intros (H1 & H2 & H3 & H4 & H5 & H6 & H7 & H8 & H9 & H10 & H11 & H12 & H13 & H14 & H15 & H16 & H17 & H18 & H19).
  unfold vptl_bytes, lower, sub_count. change (fun o => match o with Some v => [v] | None => [] end) with (fun x : option N => match x with Some v => [v] | None => [] end).
  fold (somes (vp_subs p)). lens.
  assert (Ll : len (firstn (N.to_nat (vp_bytes p - 1)) (vp_lower p)) = vp_bytes p - 1) by (unfold len in *; rewrite firstn_length; lia).
  rewrite Ll. destruct (2 <=? vp_nsl p); lens; lia.
Qed.
Lemma vvcc_faithful : faithful vvcc_codec vvcc_layout.
Proof.
  split; [intros t _; plain|]. intros [ver fl ls ptl num arrs] H Hl.
  cbn [vvcc_codec vvcc_layout c_size c_w c_rd c_ty l_body l_view l_ok vc_ver vc_flags vc_len1 vc_ptl vc_num vc_arrs] in *.
  destruct H as (H1 & H2 & H3 & H4 & H5 & H6). unfold full in *. revert Hl. lens. intros Hl.
  assert (Nm : num <= 7).
  { assert (len arrs = 7) by (rewrite <- (len_map na_type), H4; reflexivity). assert (G : (length (filter full_arr arrs) <= length arrs)%nat) by (clear; induction arrs as [|r l IH]; cbn [filter length]; [lia|]; destruct (full_arr r); cbn [length]; lia).
    unfold len in *. lia. }
  assert (Ht : Forall (fun r => na_type r < 32) arrs).
  { apply Forall_forall. intros r I. apply in_types. change vvc_types with [15; 16; 14; 12; 13; 17; 23]. rewrite <- H4. apply in_map. exact I. }
  split; [|split].
  - unfold vvcc_size. cbn [vc_ptl vc_num vc_arrs].
    assert (E : (match ptl with None => 13 | Some p => w32 (13 + 3 + 3 + vp_bytes p + (if 2 <=? vp_nsl p then 1 else 0) + sub_count (vp_subs p) + 1 + 4 * vp_nprof p + 6) end)
      = 12 + len (match ptl with Some p => [248 + 2 * ls + 1] ++ vptl_bytes p | None => [248 + 2 * ls] end)).
    { destruct ptl as [p|]; lens; [|lia]. pose proof (vptl_len p H3) as L. destruct H3 as (_ & _ & _ & _ & _ & P6 & _ & _ & _ & _ & _ & _ & _ & _ & _ & P & _).
      rewrite P, w32_small; rewrite L in *; lia. }
    rewrite E. rewrite w32_small by lia. destruct (N.eqb_spec num 0) as [Z|Z].
    + assert (filter full_arr arrs = []) as Ef by (apply len_0; lia). rewrite Ef in *. cbn [flat_map]. lens. lia.
    + rewrite varrs_size by (exact H5 || lia). lia.
  - unfold vvcc_w. cbn [vc_ver vc_flags vc_len1 vc_ptl vc_num vc_arrs]. rewrite <- !app_assoc. apply writes_seq; [wstep|]. apply writes_seq; [wstep|].
    rewrite shiftl_mul, w32_small by (change (2 ^ 1) with 2; lia). change (2 ^ 1) with 2. rewrite (or_high 3 248) by (reflexivity || (change (2 ^ 3) with 8; lia)).
    destruct ptl as [p|].
    + rewrite (or_high 1) by (change (2 ^ 1) with 2; lia). replace (248 + ls * 2 + 1) with (248 + 2 * ls + 1) by lia. rewrite <- app_assoc. cbn [app]. w1.
      apply writes_seq; [apply vptl_writes; exact H3|]. w1. apply varrs_writes; assumption.
    + rewrite N.lor_0_r. replace (248 + ls * 2) with (248 + 2 * ls) by lia. cbn [app]. w1. apply (writes_seq wret _ [] (_ :: _)); [wstep|]. w1. apply varrs_writes; assumption.
  - unfold vvcc_rd. rnext; [apply reads_of, parses_full; exact H1|]. cbn [fst snd].
    assert (Ef : N.shiftr (N.land (248 + 2 * ls + 1) 6) 1 = ls /\ N.shiftr (N.land (248 + 2 * ls) 6) 1 = ls).
    { change 6 with (N.shiftl 3 1). rewrite !field, !land3, !shiftr_div. change (2 ^ 1) with 2. lia. }
    destruct Ef as [Ef1 Ef2].
    assert (Va : forall m, m < 4294967296 -> reads m (varrs_rd (N.to_nat num) 0 vvc_arrs) (flat_map varr_bytes (filter full_arr arrs)) (map varr_view arrs)).
    { intros m Hm. rewrite H6, to_nat_len. pose proof (varrs_reads arrs [] 0 m H4 H5 Hm) as R. cbn [map app] in R. rewrite H4 in R. exact R. }
    destruct ptl as [p|].
    + rewrite <- app_assoc. cbn [app]. r1.
      replace (N.land (248 + 2 * ls + 1) 1 =? 0) with false by (rewrite BitLemmas.land1; lia).
      rnext; [eapply reads_bind_last; [apply vptl_reads; [exact H3|apply w32_lt]|apply reads_ret; [apply w32_lt|reflexivity]]|].
      r1. eapply reads_bind_last; [apply Va, w32_lt|]. apply reads_ret; [apply w32_lt|]. rewrite Ef1. reflexivity.
    + cbn [app]. r1. replace (N.land (248 + 2 * ls) 1 =? 0) with true by (rewrite BitLemmas.land1; lia).
      eapply reads_bind_nil; [intros s _; reflexivity|].
      r1. eapply reads_bind_last; [apply Va, w32_lt|]. apply reads_ret; [apply w32_lt|]. rewrite Ef2. reflexivity.
Qed.
Lemma vvnc_faithful : faithful vvnc_codec vvnc_layout.
Proof.
  split; [intros t _; plain|]. intros [ver fl ls] (H1 & H2) Hl.
  cbn [vvnc_codec vvnc_layout c_size c_w c_rd c_ty l_body l_view l_ok vn_ver vn_flags vn_len1] in *. unfold full in *. revert Hl. lens. intros Hl.
  split; [reflexivity|]. split.
  - rewrite <- app_assoc. apply writes_seq; [wstep|]. apply writes_seq; [wstep|]. apply writes_8. lia.
  - unfold vvnc_rd. rnext; [apply reads_of, parses_full; exact H1|]. r1. apply reads_ret; [apply w32_lt|]. cbn [fst snd]. rewrite land3. f_equal. lia.
Qed.
Definition playout {X} (y : layout X) := lsum avcc_layout (lsum hvcc_layout (lsum vvcc_layout (lsum vvnc_layout y))).
Definition config_types : list N := [T_avcC; T_hvcC; T_vvcC; T_vvnC].
Definition disjoint {X} (c : codec X) (y : layout X) : Prop := forall t, l_ok y t -> ~ In (c_ty c t) config_types.
Lemma pcodec_faithful {X} (c : codec X) (y : layout X) : faithful c y -> disjoint c y -> faithful (pcodec c) (playout y).
Proof.
  intros F D. unfold pcodec, playout.
  assert (N1 : forall t, l_ok y t -> forall k, In k config_types -> (k =? c_ty c t) = false).
  { intros t Ht k I. apply N.eqb_neq. intros ->. apply (D t Ht I). }
  apply faithful_sum; [apply avcc_faithful| |].
  2:{ intros [t|[t|[t|t]]] Ht; cbn [csum c_ty c_known avcc_codec hvcc_codec vvcc_codec vvnc_codec]; try reflexivity. apply N1; [exact Ht|left; reflexivity]. }
  apply faithful_sum; [apply hvcc_faithful| |].
  2:{ intros [t|[t|t]] Ht; cbn [csum c_ty c_known hvcc_codec vvcc_codec vvnc_codec]; try reflexivity. apply N1; [exact Ht|right; left; reflexivity]. }
  apply faithful_sum; [apply vvcc_faithful| |].
  2:{ intros [t|t] Ht; cbn [csum c_ty c_known vvcc_codec vvnc_codec]; try reflexivity. apply N1; [exact Ht|right; right; left; reflexivity]. }
  apply faithful_sum; [apply vvnc_faithful|exact F|].
  intros t Ht; cbn [csum c_ty c_known vvnc_codec]. apply N1; [exact Ht|right; right; right; left; reflexivity].
Qed.

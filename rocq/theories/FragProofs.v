From Verif Require Import Base Codec AtomModel AtomProofs BoxModel HeaderModel BoxSpec BoxProofs BitLemmas GroupProofs FragModel FragSpec.

Lemma len_opt b bs : len (opt b bs) = if b then len bs else 0.
Proof. destruct b; reflexivity. Qed.
#[export] Hint Rewrite len_opt : len.
Lemma writes_opt b w bs : writes w bs -> writes (wopt b w) (opt b bs).
Proof. intros H. destruct b; [exact H|apply writes_ret]. Qed.
Lemma parses_opt n b m bs x : n < 4294967296 -> parses n m bs x -> parses n (ropt b m) (opt b bs) (pick b x).
Proof. intros Hn H. destruct b; [exact H|apply parses_ret; exact Hn]. Qed.

(* as parses_rrep_map, for elements that may take no bytes *)
Lemma parses_rrep_any {A B} (m : rd B) (enc : A -> list N) (f : A -> B) l :
  (forall a n, In a l -> n < 4294967296 -> parses n m (enc a) (f a)) ->
  forall n, n < 4294967296 -> parses n (rrep (length l) m) (flat_map enc l) (map f l).
Proof.
  induction l as [|a l IH]; intros H n Hn; cbn [rrep length flat_map map].
  - apply parses_ret; assumption.
  - eapply parses_bind; [apply H; [left; reflexivity|exact Hn]|].
    eapply parses_bind_last; [apply IH; [intros; apply H; [right|]; assumption | apply w32_lt]|]. apply parses_ret, w32_lt.
Qed.

Lemma consumes_ropt b m : consumes m -> consumes (ropt b m).
Proof. destruct b; [auto|intros _; apply consumes_ret]. Qed.
Lemma tame_ropt b m : tame m -> tame (ropt b m).
Proof. destruct b; [auto|intros _; apply tame_ret]. Qed.

Lemma tfhd_exact : exact tfhd_codec tfhd_layout.
Proof.
  split; [intros t _; plain|]. intros t Ht Hl. revert Ht Hl.
  unfold tfhd_codec, tfhd_layout. cbn [c_size c_w c_rd l_body l_view l_ok c_ty].
  intros (Hf & H1 & H2 & H3 & H4 & H5 & H6) Hl. split; [|split].
  - unfold tfhd_size, sopt, fh_base_present, fh_desc_present, fh_dur_present, fh_size_present, fh_sflags_present, full. lens.
    destruct (N.testbit (fh_flags t) 0), (N.testbit (fh_flags t) 1), (N.testbit (fh_flags t) 3), (N.testbit (fh_flags t) 4), (N.testbit (fh_flags t) 5); reflexivity.
  - unfold tfhd_write. apply writes_full_seq.
    repeat (apply writes_seq; [first [apply writes_put32|apply writes_opt; wstep]|]). apply writes_opt; wstep.
  - unfold tfhd_read. pnext; [apply parses_full; assumption|]. cbv beta iota. pauto.
    unfold fh_base_present, fh_desc_present, fh_dur_present, fh_size_present, fh_sflags_present.
    pnext; [apply parses_opt; [apply w32_lt|apply parses_get64; assumption]|].
    do 3 (pnext; [apply parses_opt; [apply w32_lt|apply parses_get32; assumption]|]).
    eapply parses_bind_last; [apply parses_opt; [apply w32_lt|apply parses_get32; assumption]|]. pnext.
Qed.

(* no field beyond the known ones *)
Lemma bits_from_sum k f : bits_from k f = b2n (N.testbit f k) + b2n (N.testbit f (k + 1)) + b2n (N.testbit f (k + 2)) +
  b2n (N.testbit f (k + 3)) + b2n (N.testbit f (k + 4)) + b2n (N.testbit f (k + 5)) + b2n (N.testbit f (k + 6)) + b2n (N.testbit f (k + 7)).
Proof. unfold bits_from, b2n. cbn [fold_right]. rewrite N.add_0_r. lia. Qed.
Lemma junk0 k : k = 0 -> forall s, junk k s = Ok (tt, s).
Proof. intros -> s. reflexivity. Qed.
Lemma rent_size_le f : rent_size f <= 16.
Proof. unfold rent_size, sopt. destruct (tr_dur_present f), (tr_size_present f), (tr_flags_present f), (tr_cto_present f); lia. Qed.

Lemma trun_body_len t : len (l_body trun_layout t) =
  8 + sopt (tr_off_present (tr_flags t)) 4 + sopt (tr_first_present (tr_flags t)) 4 + rent_size (tr_flags t) * len (tr_ents t).
Proof.
  unfold trun_layout, full. cbn [l_body]. lens. rewrite (len_flat_map_const _ (rent_size (tr_flags t))).
  - unfold sopt, tr_off_present, tr_first_present. lia.
  - intros e. lens. unfold rent_size, sopt, tr_dur_present, tr_size_present, tr_flags_present, tr_cto_present. lia.
Qed.
Lemma parses_rent n f e : n < 4294967296 -> rent_ok e -> Forall (fun b => N.testbit f b = false) unknown_bits ->
  parses n (rent_read f)
    (opt (N.testbit f 8) (be32 (e_dur e)) ++ opt (N.testbit f 9) (be32 (e_size e)) ++
     opt (N.testbit f 10) (be32 (e_flags e)) ++ opt (N.testbit f 11) (be32 (e_cto e)))
    (mkRent (pick (N.testbit f 8) (e_dur e)) (pick (N.testbit f 9) (e_size e))
            (pick (N.testbit f 10) (e_flags e)) (pick (N.testbit f 11) (e_cto e))).
Proof.
  intros Hn (H1 & H2 & H3 & H4) Hu. unfold rent_read, tr_dur_present, tr_size_present, tr_flags_present, tr_cto_present.
  pnext; [apply parses_opt; [exact Hn|apply parses_get32; assumption]|].
  do 2 (pnext; [apply parses_opt; [apply w32_lt|apply parses_get32; assumption]|]).
  eapply parses_bind_last; [apply parses_opt; [apply w32_lt|apply parses_get32; assumption]|].
  eapply parses_bind_nil; [intros s _; apply junk0|pnext].
  rewrite bits_from_sum. unfold unknown_bits in Hu. rewrite Forall_forall in Hu. change (8 + 1) with 9. change (8 + 2) with 10. change (8 + 3) with 11.
  rewrite (Hu (8 + 4)), (Hu (8 + 5)), (Hu (8 + 6)), (Hu (8 + 7)) by (cbn; tauto). cbn [b2n].
  destruct (N.testbit f 8), (N.testbit f 9), (N.testbit f 10), (N.testbit f 11); reflexivity.
Qed.
Lemma trun_exact : exact trun_codec trun_layout.
Proof.
  split; [intros t _; plain|]. intros t Ht Hl. pose proof (trun_body_len t) as L. revert Ht Hl L.
  unfold trun_codec. cbn [c_size c_w c_rd c_ty]. intros Ht Hl L. rewrite L in *. revert Ht.
  unfold trun_layout. cbn [l_body l_view l_ok].
  intros (Hf & H1 & H2 & H3 & H4 & Hu). split; [|split].
  - unfold trun_size. rewrite w32_small by lia. lia.
  - unfold trun_write. apply writes_full_seq. do 3 (apply writes_seq; [first [apply writes_put32|apply writes_opt; wstep]|]).
    apply writes_map. intros e _. unfold rent_write.
    repeat (apply writes_seq; [apply writes_opt; wstep|]). apply writes_opt; wstep.
  - unfold trun_read. pnext; [apply parses_full; assumption|]. cbv beta iota. pauto.
    unfold tr_off_present, tr_first_present.
    do 2 (pnext; [apply parses_opt; [apply w32_lt|apply parses_get32; assumption]|]).
    eapply parses_bind_nil; [intros s _; apply junk0|].
    + rewrite bits_from_sum. unfold unknown_bits in Hu. rewrite Forall_forall in Hu. change (0 + 2) with 2.
      rewrite (Hu (0 + 1)), (Hu (0 + 3)), (Hu (0 + 4)), (Hu (0 + 5)), (Hu (0 + 6)), (Hu (0 + 7)) by (cbn; tauto). cbn [b2n].
      destruct (N.testbit (tr_flags t) 0), (N.testbit (tr_flags t) 2); reflexivity.
    + eapply parses_bind_last; [|pnext]. rewrite len_nat.
      apply (parses_rrep_any (rent_read (tr_flags t)) _
        (fun e => mkRent (pick (N.testbit (tr_flags t) 8) (e_dur e)) (pick (N.testbit (tr_flags t) 9) (e_size e))
                             (pick (N.testbit (tr_flags t) 10) (e_flags e)) (pick (N.testbit (tr_flags t) 11) (e_cto e)))); [|apply w32_lt].
      intros e m Ie Hm. rewrite Forall_forall in H4. apply parses_rent; [exact Hm|apply H4; exact Ie|exact Hu].
Qed.

Lemma consumes_junk n : consumes (junk n).
Proof. unfold junk. cons_step. Qed.
Lemma tame_junk n : tame (junk n).
Proof. unfold junk. tame_step. Qed.
Ltac frag_cons := repeat first [apply consumes_ropt; cons_step | apply consumes_junk | apply consumes_bind; [|intros] | apply consumes_rrep | progress cons_step | match goal with |- consumes (let (_, _) := ?p in _) => destruct p end].
Ltac frag_tame := repeat first [apply tame_ropt; tame_step | apply tame_junk | apply tame_bind; [|intros] | apply tame_rrep | progress tame_step | match goal with |- tame (let (_, _) := ?p in _) => destruct p end].
Lemma tfhd_robust : robust tfhd_codec.
Proof.
  intros h. apply safe_of; [change (consumes (tfhd_read h))|change (tame (tfhd_read h))]; unfold tfhd_read.
  - frag_cons.
  - frag_tame.
Qed.
Lemma trun_robust : robust trun_codec.
Proof.
  intros h. apply safe_of; [change (consumes (trun_read h))|change (tame (trun_read h))]; unfold trun_read, rent_read.
  - frag_cons.
  - frag_tame.
Qed.

(* ------------------------------------------------------------------ *)
(* defaults                                                             *)

Lemma flag_bits b :
  N.testbit (bits_flags b) 0 = rb_off b /\ N.testbit (bits_flags b) 2 = rb_first b /\
  N.testbit (bits_flags b) 8 = rb_dur b /\ N.testbit (bits_flags b) 9 = rb_size b /\
  N.testbit (bits_flags b) 10 = rb_flags b /\ N.testbit (bits_flags b) 11 = rb_cto b /\
  Forall (fun k => N.testbit (bits_flags b) k = false) unknown_bits /\ bits_flags b < 16777216.
Proof.
  destruct b as [[] [] [] [] [] []]; (repeat split; [repeat constructor]).
Qed.

Definition skip1 {A} (first : bool) (l : list A) : list A := if first then tl l else l.
Lemma scan_spec t l : forall first b, (rb_flags b = true -> rb_first b = false) ->
  let r := scan t first l b in
  rb_off r = rb_off b /\
  (rb_dur r = false -> rb_dur b = false /\ Forall (fun e => e_dur e = fh_dur t) l) /\
  (rb_size r = false -> rb_size b = false /\ Forall (fun e => e_size e = fh_size t) l) /\
  (rb_cto r = false -> rb_cto b = false /\ Forall (fun e => e_cto e = 0) l) /\
  (rb_flags r = false -> rb_flags b = false /\ rb_first r = rb_first b /\ Forall (fun e => e_flags e = fh_sflags t) (skip1 first l)) /\
  (rb_flags r = true -> rb_first r = false) /\
  (rb_cto r = true -> rb_cto b = true \/ Exists (fun e => e_cto e <> 0) l).
Proof.
  induction l as [|e l IH]; intros first b Hb.
  - cbn [scan]. repeat split; auto; destruct first; constructor.
  - cbn [scan].
    remember (mkBits (rb_off b) (if negb first && negb (e_flags e =? fh_sflags t) then false else rb_first b)
      (rb_dur b || negb (e_dur e =? fh_dur t)) (rb_size b || negb (e_size e =? fh_size t))
      (rb_flags b || negb first && negb (e_flags e =? fh_sflags t)) (rb_cto b || negb (e_cto e =? 0))) as b' eqn:Eb.
    assert (Hb' : rb_flags b' = true -> rb_first b' = false).
    { subst b'. cbn [rb_flags rb_first]. destruct (negb first && negb (e_flags e =? fh_sflags t)); [reflexivity|].
      rewrite orb_false_r. exact Hb. }
    destruct (rb_dur b' && rb_size b' && rb_flags b' && rb_cto b') eqn:Eall.
    + apply andb_true_iff in Eall. destruct Eall as [Eall E4]. apply andb_true_iff in Eall. destruct Eall as [Eall E3].
      apply andb_true_iff in Eall. destruct Eall as [E1 E2].
      cbv zeta. rewrite E1, E2, E3, E4. subst b'. cbn [rb_off rb_first rb_cto] in *. repeat split; try discriminate.
      * intros _. apply Hb'. exact E3.
      * intros _. apply orb_true_iff in E4. destruct E4 as [E4|E4]; [left; exact E4|right; left; lia].
    + clear Eall. cbv zeta. specialize (IH false b' Hb'). cbv zeta in IH. destruct IH as (I1 & I2 & I3 & I4 & I5 & I6 & I7).
      split; [rewrite I1; subst b'; reflexivity|].
      split; [intros E; destruct (I2 E) as [E' F]; subst b'; cbn [rb_dur] in E'; apply orb_false_iff in E'; destruct E' as [E1 E2]; split; [exact E1|constructor; [lia|exact F]]|].
      split; [intros E; destruct (I3 E) as [E' F]; subst b'; cbn [rb_size] in E'; apply orb_false_iff in E'; destruct E' as [E1 E2]; split; [exact E1|constructor; [lia|exact F]]|].
      split; [intros E; destruct (I4 E) as [E' F]; subst b'; cbn [rb_cto] in E'; apply orb_false_iff in E'; destruct E' as [E1 E2]; split; [exact E1|constructor; [lia|exact F]]|].
      split; [|split; [exact I6|intros E; destruct (I7 E) as [E'|E']; [|right; right; exact E'];
        subst b'; cbn [rb_cto] in E'; apply orb_true_iff in E'; destruct E' as [E'|E']; [left; exact E'|right; left; lia]]].
      intros E. destruct (I5 E) as (E' & Ef & F). rewrite Ef. subst b'. cbn [rb_flags rb_first] in *.
      apply orb_false_iff in E'. destruct E' as [E1 E2]. rewrite E2. split; [exact E1|]. split; [reflexivity|].
      destruct first; cbn [skip1 tl negb andb] in *; [exact F|constructor; [lia|exact F]].
Qed.

Fixpoint nums {A} (p : A -> bool) (n : N) (l : list A) : list N :=
  match l with [] => [] | x :: q => if p x then n :: nums p (n + 1) q else nums p (n + 1) q end.
Lemma numbers_from {A} (p : A -> bool) l : forall k,
  map (fun x => N.of_nat (fst x)) (filter (fun x => p (snd x)) (combine (seq k (length l)) l)) = nums p (N.of_nat k) l.
Proof.
  induction l as [|x l IH]; intros k; [reflexivity|]. cbn [length seq combine filter snd nums].
  replace (N.of_nat k + 1) with (N.of_nat (S k)) by lia. rewrite <- IH. destruct (p x); reflexivity.
Qed.
Lemma sync_numbers l : forall k, sync_from k (map e_flags l) = nums is_sync k l.
Proof.
  induction l as [|e l IH]; intros k; [reflexivity|]. cbn [map sync_from nums]. rewrite IH. unfold is_sync at 3.
  destruct (N.testbit (e_flags e) 16); reflexivity.
Qed.
Lemma pad_of g : N.land (N.shiftr g 17) 7 = (g / 131072) mod 8.
Proof. rewrite land7, shiftr_div. reflexivity. Qed.
Lemma dep_of g : N.land (N.shiftr g 20) 63 = (g / 1048576) mod 64.
Proof. rewrite land63, shiftr_div. reflexivity. Qed.
Lemma none_or {A} (f : A -> bool) (l : list A) : forallb f l = true -> Forall (fun x => f x = true) l.
Proof. intros H. apply Forall_forall. rewrite forallb_forall in H. exact H. Qed.

Lemma some_or {A} (f : A -> bool) (l : list A) : forallb f l = false -> Exists (fun x => f x = false) l.
Proof. induction l as [|x l IH]; [discriminate|]. cbn [forallb]. destruct (f x) eqn:E; cbn [andb]; intros H; [right; auto|left; exact E]. Qed.

(* what makes a run tell its samples *)
Lemma run_tells u r l :
  len (tr_ents r) < 1073741824 -> tr_ents r <> [] ->
  map (fun e => if tr_dur_present (tr_flags r) then e_dur e else fh_dur u) (tr_ents r) = map e_dur l ->
  map (fun e => if tr_size_present (tr_flags r) then e_size e else fh_size u) (tr_ents r) = map e_size l ->
  (if tr_cto_present (tr_flags r) then map e_cto (tr_ents r) = map e_cto l else Forall (fun e => e_cto e = 0) l) ->
  flags_of u r true (tr_ents r) = map e_flags l ->
  exists s, merge_run u r = Ok s /\ tells s l /\ r_pos s = w64 (fh_base u + u64_of (s32_of (tr_off r))) /\
    (r_ctos s <> None -> tr_cto_present (tr_flags r) = true).
Proof.
  intros Hn Hne H1 H2 H3 H4. unfold merge_run.
  replace (len (tr_ents r) =? 0) with false by (destruct (tr_ents r); [congruence|symmetry; apply N.eqb_neq; lens; lia]).
  rewrite andb_false_r. rewrite N.mod_small by lia. rewrite len_nat, firstn_all. eexists. split; [reflexivity|].
  rewrite H4, H1, H2.
  split; [|split; [reflexivity|cbn [r_ctos]; destruct (tr_cto_present (tr_flags r)); congruence]]. constructor; cbn [r_durs r_sizes r_ctos r_sync r_pads r_deps]; try reflexivity.
  - destruct (tr_cto_present (tr_flags r)); exact H3.
  - destruct (forallb (fun g => negb (N.testbit g 16)) (map e_flags l)) eqn:E.
    + apply none_or in E. rewrite Forall_map in E. exact E.
    + unfold numbers. rewrite numbers_from, sync_numbers. split; [reflexivity|].
      apply some_or in E. rewrite Exists_map in E. exact E.
  - rewrite map_map. rewrite (map_ext _ padding) by (intros; apply pad_of).
    destruct (forallb (N.eqb 0) (map padding l)) eqn:E.
    2: { split; [reflexivity|]. apply some_or in E. rewrite Exists_map in E. eapply Exists_impl; [|exact E]. cbn beta. intros a Ha. lia. }
    apply none_or in E. rewrite Forall_map in E. eapply Forall_impl; [|exact E]. cbn beta. intros a Ha. lia.
  - rewrite map_map. rewrite (map_ext _ depends) by (intros; apply dep_of).
    destruct (forallb (N.eqb 0) (map depends l)) eqn:E.
    2: { split; [reflexivity|]. apply some_or in E. rewrite Exists_map in E. eapply Exists_impl; [|exact E]. cbn beta. intros a Ha. lia. }
    apply none_or in E. rewrite Forall_map in E. eapply Forall_impl; [|exact E]. cbn beta. intros a Ha. lia.
Qed.

Lemma flags_of_rest u r (f : rent -> rent) l :
  (forall e, In e l -> merged_flags u r false (f e) = e_flags e) -> flags_of u r false (map f l) = map e_flags l.
Proof.
  induction l as [|e l IH]; intros H; [reflexivity|]. cbn [map flags_of]. rewrite H by (left; reflexivity).
  rewrite IH; [reflexivity|]. intros; apply H; right; assumption.
Qed.

(* one run, prepared with the defaults [t] and read with the header [u] *)
Lemma run_lossless t u r q : run_ok r -> run_setflags t r = Ok q ->
  fh_dur u = fh_dur t -> fh_size u = fh_size t -> fh_sflags u = fh_sflags t ->
  l_ok trun_layout q /\ 8 + len (l_body trun_layout q) < 4294967296 /\
  tr_ver q = tr_ver r /\ tr_off q = tr_off r /\ tr_ents q = tr_ents r /\
  exists s, merge_run u (l_view trun_layout q) = Ok s /\ tells s (tr_ents r) /\
    r_pos s = w64 (fh_base u + u64_of (s32_of (tr_off r))) /\
    (r_ctos s <> None -> Exists (fun e => e_cto e <> 0) (tr_ents r)).
Proof.
  intros (Hv & Ho & Hne & Hn & He) H Hd Hs Hf. unfold run_setflags in H. destruct (tr_ents r) as [|e0 l] eqn:El; [congruence|].
  cbv zeta in H. remember (scan t true (e0 :: l)
    (mkBits (negb (tr_off r =? 0)) (negb (e_flags e0 =? fh_sflags t)) false false false false)) as b eqn:Eb.
  injection H as <-.
  pose proof (scan_spec t (e0 :: l) true
    (mkBits (negb (tr_off r =? 0)) (negb (e_flags e0 =? fh_sflags t)) false false false false)) as S.
  cbv zeta in S. rewrite <- Eb in S. cbn [rb_off rb_first rb_dur rb_size rb_flags rb_cto skip1 tl] in S.
  destruct (S ltac:(discriminate)) as (S1 & S2 & S3 & S4 & S5 & S6 & S7). clear S.
  destruct (flag_bits b) as (B0 & B2 & B8 & B9 & B10 & B11 & Bu & Bf).
  split; [|split; [|split; [|split; [|split]]]]; try reflexivity.
  - unfold trun_layout; cbn [l_ok tr_ver tr_flags tr_off tr_first tr_ents].
    repeat (split; [first [assumption|split; assumption|lia]|]).
    split; [pose proof (Forall_inv He) as (_ & _ & H3 & _); exact H3|]. split; [exact He|exact Bu].
  - rewrite trun_body_len. cbn [tr_flags tr_ents]. pose proof (rent_size_le (bits_flags b)).
    assert (rent_size (bits_flags b) * len (e0 :: l) <= 16 * 268435454) by (apply N.mul_le_mono; lia).
    unfold sopt. destruct (tr_off_present (bits_flags b)), (tr_first_present (bits_flags b)); lia.
  - assert (O : tr_off (l_view trun_layout (mkTrun (tr_ver r) (bits_flags b) (tr_off r) (e_flags e0) (e0 :: l))) = tr_off r).
    { unfold trun_layout; cbn [l_view tr_off tr_flags]. rewrite B0, S1. unfold pick. destruct (N.eqb_spec (tr_off r) 0) as [->|]; reflexivity. }
    remember (tr_off r) as o eqn:Eo in O at 2 |- * at 2. rewrite <- O. clear o Eo O.
    match goal with |- exists s, merge_run ?u ?r = _ /\ tells _ ?l /\ _ =>
      assert (T : exists s, merge_run u r = Ok s /\ tells s l /\ r_pos s = w64 (fh_base u + u64_of (s32_of (tr_off r))) /\
        (r_ctos s <> None -> tr_cto_present (tr_flags r) = true));
        [|destruct T as (s & T1 & T2 & T3 & T4); exists s; split; [exact T1|]; split; [exact T2|]; split; [exact T3|];
          intros Hc; specialize (T4 Hc); unfold trun_layout in T4; cbn [l_view tr_flags] in T4; unfold tr_cto_present in T4;
          rewrite B11 in T4; destruct (S7 T4) as [?|X]; [discriminate|exact X]] end.
    apply run_tells; unfold trun_layout; cbn [l_view tr_off tr_flags tr_ents tr_first];
      unfold tr_dur_present, tr_size_present, tr_cto_present; rewrite ?map_map, ?B8, ?B9, ?B11, ?B10, ?B2; cbn [e_dur e_size e_cto e_flags].
    + unfold len. rewrite map_length. fold (len (e0 :: l)). lia.
    + discriminate.
    + apply map_ext_in. intros e Ie. unfold pick. destruct (rb_dur b) eqn:E; [reflexivity|]. destruct (S2 eq_refl) as [_ F].
      rewrite Forall_forall in F. rewrite (F e Ie). exact Hd.
    + apply map_ext_in. intros e Ie. unfold pick. destruct (rb_size b) eqn:E; [reflexivity|]. destruct (S3 eq_refl) as [_ F].
      rewrite Forall_forall in F. rewrite (F e Ie). exact Hs.
    + unfold pick. destruct (rb_cto b) eqn:E; [reflexivity|]. destruct (S4 eq_refl) as [_ F]. exact F.
    + cbn [map flags_of]. f_equal.
      * unfold merged_flags, tr_first_present, tr_flags_present, pick. cbn [tr_flags tr_first e_flags andb]. rewrite B2, B10.
        destruct (rb_first b) eqn:E1; [reflexivity|]. destruct (rb_flags b) eqn:E2; [reflexivity|].
        destruct (S5 eq_refl) as (_ & G & _). lia.
      * apply flags_of_rest. intros e Ie. unfold merged_flags, tr_first_present, tr_flags_present, pick. cbn [tr_flags tr_first e_flags andb]. rewrite B10.
        destruct (rb_flags b) eqn:E2; [reflexivity|]. destruct (S5 eq_refl) as (_ & _ & F). rewrite Forall_forall in F. rewrite (F e Ie). exact Hf.
Qed.

(* ------------------------------------------------------------------ *)
(* a whole track fragment                                               *)

Lemma defaults_small k t r : Forall rent_ok (tr_ents r) ->
  fh_dur t < 4294967296 -> fh_size t < 4294967296 -> fh_sflags t < 4294967296 ->
  let q := run_defaults k t r in
  fh_ver q = fh_ver t /\ fh_flags q = fh_flags t /\ fh_id q = fh_id t /\ fh_base q = fh_base t /\ fh_desc q = fh_desc t /\
  fh_dur q < 4294967296 /\ fh_size q < 4294967296 /\ fh_sflags q < 4294967296.
Proof.
  intros H A B C. unfold run_defaults. destruct (tr_ents r) as [|e l] eqn:E; [cbv zeta; tauto|].
  inversion H as [|? ? He Hl]; subst. destruct He as (E1 & E2 & E3 & E4). cbv zeta.
  cbn [fh_ver fh_flags fh_id fh_base fh_desc fh_dur fh_size fh_sflags]. unfold or0.
  repeat (split; [reflexivity|]). split; [destruct (fh_dur t =? 0); assumption|]. split; [destruct (fh_size t =? 0); assumption|].
  destruct (fh_sflags t =? 0); [|assumption]. destruct (nth_error (e :: l) k) as [x|] eqn:N; [|assumption].
  apply nth_error_In in N. rewrite Forall_forall in H. destruct (H x N) as (_ & _ & ? & _). assumption.
Qed.
Lemma defaults_small_all k rs : Forall (fun r => Forall rent_ok (tr_ents r)) rs -> forall t,
  fh_dur t < 4294967296 -> fh_size t < 4294967296 -> fh_sflags t < 4294967296 ->
  let q := fold_left (run_defaults k) rs t in
  fh_ver q = fh_ver t /\ fh_flags q = fh_flags t /\ fh_id q = fh_id t /\ fh_base q = fh_base t /\ fh_desc q = fh_desc t /\
  fh_dur q < 4294967296 /\ fh_size q < 4294967296 /\ fh_sflags q < 4294967296.
Proof.
  induction 1 as [|r rs Hr _ IH]; intros t A B C; cbn [fold_left]; [cbv zeta; tauto|].
  pose proof (defaults_small k t r Hr A B C) as D. cbv zeta in D. destruct D as (D1 & D2 & D3 & D4 & D5 & D6 & D7 & D8).
  pose proof (IH _ D6 D7 D8) as J. cbv zeta in J |- *. intuition congruence.
Qed.
Lemma mapm_ok {A B} (f : A -> res B) l : Forall (fun x => exists y, f x = Ok y) l ->
  exists ys, mapm f l = Ok ys /\ Forall2 (fun x y => f x = Ok y) l ys.
Proof.
  induction 1 as [|x l [y Hy] _ (ys & E & F)]; cbn [mapm]; [exists []; split; [reflexivity|constructor]|].
  rewrite Hy. cbn [bind]. rewrite E. cbn [bind]. exists (y :: ys). split; [reflexivity|constructor; assumption].
Qed.
Lemma tfhd_flag_bits a b c d :
  let f := 1 + 2 * b2n a + 8 * b2n b + 16 * b2n c + 32 * b2n d in
  N.testbit f 0 = true /\ N.testbit f 1 = a /\ N.testbit f 3 = b /\ N.testbit f 4 = c /\ N.testbit f 5 = d /\
  N.testbit f 16 = false /\ f < 16777216.
Proof. destruct a, b, c, d; cbv zeta; cbn [b2n]; repeat split; reflexivity. Qed.
Lemma dflt_or a b : (if negb (a =? b) then b else a) = b.
Proof. destruct (N.eqb_spec a b); cbn [negb]; congruence. Qed.

Lemma traf_prepare_ok d t rs : head_ok t -> rs <> [] -> Forall run_ok rs ->
  exists t' rs', traf_prepare d t rs = Ok (Some (t', rs')) /\ l_ok tfhd_layout t' /\
    fh_empty (fh_flags t') = false /\ fh_id t' = fh_id t /\ fh_base_present (fh_flags t') = true /\ fh_base t' = fh_base t /\
    forall moof prev base, let u := traf_fill d moof prev (l_view tfhd_layout (mkTfhd (fh_ver t') (fh_flags t') (fh_id t') base (fh_desc t') (fh_dur t') (fh_size t') (fh_sflags t'))) in
      fh_id u = fh_id t /\ fh_base u = base /\ fh_desc u = fh_desc t /\ fh_flags u = fh_flags t' /\
      Forall2 (fun r q => l_ok trun_layout q /\ 8 + len (l_body trun_layout q) < 4294967296 /\ tr_ents q = tr_ents r /\
                 exists s, merge_run u (l_view trun_layout q) = Ok s /\ tells s (tr_ents r) /\
                   r_pos s = w64 (base + u64_of (s32_of (tr_off r))) /\
                   (r_ctos s <> None -> Exists (fun e => e_cto e <> 0) (tr_ents r))) rs rs'.
Proof.
  intros (T1 & T2 & T3 & T4) Hne Hrs.
  assert (Hr : Forall (fun r => Forall rent_ok (tr_ents r)) rs).
  { eapply Forall_impl; [|exact Hrs]. intros r (_ & _ & _ & _ & ?). assumption. }
  unfold traf_prepare. destruct rs as [|r0 rs0]; [congruence|]. remember (r0 :: rs0) as rs. clear Heqrs r0 rs0 Hne.
  remember (mkTfhd (fh_ver t) (fh_flags t) (fh_id t) (fh_base t) (fh_desc t) 0 0 0) as t0 eqn:E0.
  pose proof (defaults_small_all 1 rs Hr t0) as D. cbv zeta in D. rewrite E0 in D at 1 2 3. cbn [fh_dur fh_size fh_sflags] in D.
  specialize (D eq_refl eq_refl eq_refl). remember (fold_left (run_defaults 1) rs t0) as t1 eqn:E1.
  remember (if fh_sflags t1 =? 0 then fold_left (run_defaults 0) rs t1 else t1) as t2 eqn:E2.
  assert (Q : fh_ver t2 = fh_ver t /\ fh_id t2 = fh_id t /\ fh_base t2 = fh_base t /\ fh_desc t2 = fh_desc t /\
    fh_dur t2 < 4294967296 /\ fh_size t2 < 4294967296 /\ fh_sflags t2 < 4294967296).
  { destruct D as (D1 & D2 & D3 & D4 & D5 & D6 & D7 & D8).
    rewrite E0 in D1, D3, D4, D5. cbn [fh_ver fh_id fh_base fh_desc] in D1, D3, D4, D5.
    rewrite E2. destruct (fh_sflags t1 =? 0); [|tauto].
    pose proof (defaults_small_all 0 rs Hr t1 D6 D7 D8) as J. cbv zeta in J. intuition congruence. }
  clear E0 E1 E2 D t0 t1. destruct Q as (Q1 & Q2 & Q3 & Q4 & Q5 & Q6 & Q7).
  destruct (mapm_ok (run_setflags t2) rs) as (rs' & E & F).
  { eapply Forall_impl; [|exact Hrs]. intros r (_ & _ & Hn & _). unfold run_setflags. destruct (tr_ents r); [congruence|eexists; reflexivity]. }
  pose proof (tfhd_flag_bits (negb (df_desc d =? fh_desc t2)) (negb (df_dur d =? fh_dur t2))
    (negb (df_size d =? fh_size t2)) (negb (df_flags d =? fh_sflags t2))) as B. cbv zeta in B.
  cbv zeta. rewrite E. cbn [bind].
  remember (1 + 2 * b2n (negb (df_desc d =? fh_desc t2)) + 8 * b2n (negb (df_dur d =? fh_dur t2)) +
    16 * b2n (negb (df_size d =? fh_size t2)) + 32 * b2n (negb (df_flags d =? fh_sflags t2))) as f eqn:Ef.
  destruct B as (B0 & B1 & B3 & B4 & B5 & B16 & Bl).
  exists (set_tflags t2 f), rs'. split; [reflexivity|]. unfold set_tflags.
  split.
  { cbn [tfhd_layout l_ok fh_ver fh_flags fh_id fh_base fh_desc fh_dur fh_size fh_sflags]. rewrite Q1, Q2, Q3, Q4.
    split; [split; assumption|]. tauto. }
  cbn [fh_ver fh_flags fh_id fh_base fh_desc fh_dur fh_size fh_sflags].
  split; [exact B16|]. split; [exact Q2|]. split; [exact B0|]. split; [exact Q3|].
  intros moof prev base. cbv zeta. unfold traf_fill. cbn [tfhd_layout l_view fh_ver fh_flags fh_id fh_base fh_desc fh_dur fh_size fh_sflags].
  unfold fh_base_present, fh_desc_present, fh_dur_present, fh_size_present, fh_sflags_present, fh_from_moof.
  cbn [fh_ver fh_flags fh_id fh_base fh_desc fh_dur fh_size fh_sflags]. rewrite B0, B1, B3, B4, B5.
  unfold pick. split; [exact Q2|]. split; [reflexivity|]. split.
  { rewrite <- Q4. destruct (N.eqb_spec (df_desc d) (fh_desc t2)); cbn [negb]; congruence. }
  split; [reflexivity|].
  clear E Ef. induction F as [|r q rs rs' Hq F IH]; [constructor|]. inversion Hrs; inversion Hr; subst. constructor; [|apply IH; assumption].
  match goal with |- context [merge_run ?u _] => destruct (run_lossless t2 u r q) as (L1 & L2 & L3 & L4 & L5 & L6) end; try assumption.
  1,2,3: cbn [fh_dur fh_size fh_sflags].
  - destruct (N.eqb_spec (df_dur d) (fh_dur t2)); cbn [negb]; congruence.
  - destruct (N.eqb_spec (df_size d) (fh_size t2)); cbn [negb]; congruence.
  - destruct (N.eqb_spec (df_flags d) (fh_sflags t2)); cbn [negb]; congruence.
  - split; [exact L1|]. split; [exact L2|]. split; [exact L5|]. exact L6.
Qed.

(* IndexProofs.v -- lemmas for C36 and C49. *)
From Verif Require Import Base Codec BitLemmas AtomModel AtomSpec AtomProofs BoxModel BoxSpec BoxProofs Reads HeaderSpec HeaderProofs
  GroupProofs TrackModel TrackProofs IlocProofs ItemProofs IndexModel IndexSpec.

(* --- sidx --- *)
Lemma lor_low k x y : y < 2 ^ k -> N.lor (N.shiftl x k) y = x * 2 ^ k + y.
Proof. apply lor_add. Qed.
Lemma shl31 x : x < 2 -> w32 (N.shiftl x 31) = N.shiftl x 31.
Proof. intros H. rewrite shiftl_mul. change (2 ^ 31) with 2147483648. apply w32_small. lia. Qed.
Lemma shl28 x : x < 8 -> w32 (N.shiftl x 28) = N.shiftl x 28.
Proof. intros H. rewrite shiftl_mul. change (2 ^ 28) with 268435456. apply w32_small. lia. Qed.
Lemma len_sref r : len (sref_bytes r) = 12.
Proof. reflexivity. Qed.
Lemma sref_writes r : sref_ok r -> writes (sref_write r) (sref_bytes r).
Proof.
  intros (H1 & H2 & H3 & H4 & H5 & H6). unfold sref_write, sref_bytes.
  rewrite shl31 by exact H1. rewrite (lor_low 31) by (change (2 ^ 31) with 2147483648; lia). change (2 ^ 31) with 2147483648.
  rewrite shl31 by exact H4. rewrite shl28 by exact H5. rewrite <- N.lor_assoc. rewrite (lor_low 28) by (change (2 ^ 28) with 268435456; lia).
  change (2 ^ 28) with 268435456. rewrite (lor_low 31) by (change (2 ^ 31) with 2147483648; lia). change (2 ^ 31) with 2147483648.
  rewrite N.add_assoc. wstep.
Qed.
Lemma srefs_writes l : Forall sref_ok l -> writes (srefs_write (length l) l) (flat_map sref_bytes l).
Proof.
  induction l as [|r l IH]; intros F; cbn [srefs_write length flat_map]; [apply writes_ret|]. inversion F; subst.
  apply writes_seq; [apply sref_writes; assumption|apply IH; assumption].
Qed.
Lemma land28 x : N.land x 268435455 = x mod 268435456.
Proof. change 268435455 with (N.ones 28). rewrite N.land_ones. reflexivity. Qed.
Lemma sref_parses r n : n < 4294967296 -> sref_ok r -> parses n sref_read (sref_bytes r) (short_ref r).
Proof.
  intros Hn (H1 & H2 & H3 & H4 & H5 & H6). unfold sref_read, sref_bytes, short_ref.
  pnext; [apply parses_get32; lia|]. pnext; [apply parses_get32; lia|]. pnext; [apply parses_get32; lia|]. pnext.
  rewrite !land1, land7, land28, !shiftr_div, land32767. change (2 ^ 31) with 2147483648. change (2 ^ 28) with 268435456. f_equal; lia.
Qed.
Lemma srefs_loop n : 0 < n -> forall k fuel i, k = (65536 - n - i) -> i < 65536 - n -> n < 65536 -> (N.to_nat k < fuel)%nat ->
  forall s, srefs_read fuel i (n + i) s = (let* l := rrep (N.to_nat k) sref_read in rret (0, l)) s.
Proof.
  intros Hn k. induction k as [|k IH] using N.peano_ind; intros fuel i Ek Hi Hn2 Hf s; [lia|].
  destruct fuel as [|fuel]; [lia|]. cbn [srefs_read]. destruct (N.ltb_spec i (n + i)); [|lia].
  rewrite N2Nat.inj_succ. cbn [rrep]. unfold rbind at 1 3 4. destruct (sref_read s) as [[r s1]| |]; [|reflexivity..].
  destruct (N.eq_dec k 0) as [->|K].
  - assert (E : w16 (n + i + 1) = 0) by (replace (n + i + 1) with 65536 by lia; reflexivity). rewrite E. cbn [N.to_nat rrep].
    destruct fuel as [|fuel]; cbn [srefs_read]; [|destruct (N.ltb_spec (i + 1) 0); [lia|]]; reflexivity.
  - rewrite w16_small by lia. unfold rbind at 1. replace (n + i + 1) with (n + (i + 1)) by lia. rewrite (IH fuel (i + 1)) by lia.
    unfold rbind. destruct (rrep (N.to_nat k) sref_read s1) as [[l s2]| |]; reflexivity.
Qed.
Lemma sidx_loop n : 0 < n < 65536 -> forall s, srefs_read (N.to_nat 65536) 0 n s = (let* l := rrep (N.to_nat (65536 - n)) sref_read in rret (0, l)) s.
Proof. intros H s. rewrite <- (N.add_0_r n) at 1. apply srefs_loop; lia. Qed.
Lemma sidx_loop0 s : srefs_read (N.to_nat 65536) 0 0 s = Ok ((0, []), s).
Proof. destruct (N.to_nat 65536); reflexivity. Qed.

Lemma sidx_exact : exact sidx_codec sidx_layout.
Proof.
  split; [intros t _; plain|]. intros t ((H1 & H2 & H3 & H4 & H5 & H6 & H7 & H8 & H9) & He) Hl. unfold sidx_codec, sidx_layout, sidx_head in *. cbn [c_size c_w c_rd l_body l_view l_ok c_ty] in *.
  rewrite He in *. cbn [flat_map] in *. rewrite app_nil_r in *. change (len (@nil sref)) with 0 in *. split; [|split].
  - unfold sidx_size. rewrite H7. reflexivity.
  - unfold sidx_write. rewrite H7, He. change (srefs_write (N.to_nat 0) []) with wret. apply writes_full_seq.
    do 4 (apply writes_seq; [wstep|]). apply writes_seq; [wstep|]. rewrite <- (app_nil_r (be16 0)). apply writes_seq; [wstep|apply writes_ret].
  - unfold sidx_read. pauto. do 5 pauto. eapply parses_bind_last; [apply parses_get16; lia|]. cbn [fst snd].
    eapply parses_bind_last; [|]. 
    + apply (parses_fun_eq _ (rret (0, []))); [intros s; symmetry; apply sidx_loop0|]. apply parses_ret. apply w32_lt.
    + pnext. destruct t. cbn in *. subst. reflexivity.
Qed.
Lemma consumes_srefs fuel : forall i n, consumes (srefs_read fuel i n) /\ tame (srefs_read fuel i n).
Proof.
  assert (G : consumes sref_read /\ tame sref_read) by (unfold sref_read; split; [cons_step|tame_step]).
  induction fuel as [|f IH]; intros i n; cbn [srefs_read]; [split; [cons_step|tame_step]|].
  destruct (i <? n); [|split; [cons_step|tame_step]]. split; repeat first [apply G|apply IH|progress cons_step|progress tame_step].
Qed.
Lemma sidx_robust : robust sidx_codec.
Proof.
  intros h. apply safe_of.
  - change (consumes (sidx_read h)). unfold sidx_read. remember (N.to_nat 65536) as f. repeat first [apply consumes_srefs|progress cons_step].
  - change (tame (sidx_read h)). unfold sidx_read. remember (N.to_nat 65536) as f. repeat first [apply consumes_srefs|progress tame_step].
Qed.

(* --- ssix --- *)
Lemma len_subseg (l : list (list srange)) : forall acc, acc + len (flat_map (fun s => be32 (len s) ++ flat_map srange_bytes s) l) < 4294967296 ->
  fold_left (fun n s => w32 (n + 4 + 4 * len s)) l acc = acc + len (flat_map (fun s => be32 (len s) ++ flat_map srange_bytes s) l).
Proof.
  induction l as [|s l IH]; intros acc H; cbn [fold_left flat_map] in *; [lens; lia|]. rewrite !len_app in *. rewrite len_be32 in *.
  rewrite (len_flat_map_const _ 4) in * by reflexivity. rewrite w32_small by lia. rewrite IH by lia. lia.
Qed.
Lemma land24 x : N.land x 16777215 = x mod 16777216.
Proof. change 16777215 with (N.ones 24). rewrite N.land_ones. reflexivity. Qed.
Lemma srange_parses r n : n < 4294967296 -> rg_level r < 256 -> rg_size r < 16777216 -> parses n srange_read (srange_bytes r) r.
Proof.
  intros Hn H1 H2. unfold srange_read, srange_bytes. pnext; [apply parses_get32; lia|]. pnext. rewrite shiftr_div, land255, land24. change (2 ^ 24) with 16777216.
  destruct r as [a b]. cbn [rg_level rg_size] in *. f_equal; lia.
Qed.
Lemma subseg_writes : forall l i, (forall k s, nth_error l k = Some s -> s = [] \/ (i + k < length s)%nat /\ exists n, n < 16777216 /\ Forall (fun r => r = mkSrange 0 n) s) ->
  writes (subseg_write i l) (flat_map (fun s => be32 (len s) ++ flat_map srange_bytes s) l).
Proof.
  induction l as [|s l IH]; intros i H; cbn [subseg_write flat_map]; [apply writes_ret|]. rewrite <- app_assoc. apply writes_seq; [wstep|]. apply writes_seq.
  - destruct (H O s eq_refl) as [->|(L & n & Hn & F)]; [apply writes_ret|]. apply writes_map. intros r Ir. rewrite Forall_forall in F. rewrite (F r Ir).
    rewrite Nat.add_0_r in L. apply nth_error_Some in L. destruct (nth_error s i) as [q|] eqn:E; [|contradiction]. apply nth_error_In in E. rewrite (F q E). cbn [srange_write rg_level rg_size].
    change (w32 (N.shiftl 0 28)) with 0. rewrite N.lor_0_l. unfold srange_bytes. cbn [rg_level rg_size]. rewrite N.mul_0_l, N.add_0_l. wstep.
  - apply IH. intros k q Hq. replace (S i + k)%nat with (i + S k)%nat by lia. apply H. exact Hq.
Qed.
Lemma ssix_parses t n : n < 4294967296 -> ssix_fields_ok t -> forall h, parses n (ssix_read h) (ssix_body t) t.
Proof.
  intros Hn (H1 & H2 & H3) h. unfold ssix_read, ssix_body. pauto. pauto. eapply parses_bind_last.
  - rewrite len_nat. apply (parses_rrep_in _ _ (fun a => a)); [|apply w32_lt]. intros s m Is Hm. rewrite Forall_forall in H3. destruct (H3 s Is) as [G1 G2].
    unfold subseg_read. pauto. rewrite len_nat. assert (X : parses (w32 (m + len (be32 (len s)))) (rrep (length s) srange_read) (flat_map srange_bytes s) (map (fun a => a) s)).
    { apply (parses_rrep_in _ _ (fun a => a)); [|apply w32_lt]. intros r q Ir Hq. rewrite Forall_forall in G2. apply srange_parses; [exact Hq|apply G2, Ir..]. }
    rewrite map_id in X. exact X.
  - pnext. rewrite map_id. destruct t. reflexivity.
Qed.
Lemma ssix_exact : exact ssix_codec ssix_layout.
Proof.
  split; [intros t _; plain|]. intros t (H & P) Hl. destruct (H) as (H1 & H2 & H3). unfold ssix_codec, ssix_layout in *. cbn [c_size c_w c_rd l_body l_view l_ok c_ty] in *.
  split; [|split].
  - unfold ssix_size. unfold ssix_body in *. rewrite len_subseg; rewrite !len_app, len_full, len_be32 in *; lia.
  - unfold ssix_write, ssix_body. apply writes_full_seq. apply writes_seq; [wstep|]. apply subseg_writes. exact P.
  - apply ssix_parses; [lia|exact H].
Qed.
Lemma ssix_robust : robust ssix_codec.
Proof.
  assert (G : consumes subseg_read /\ tame subseg_read) by (unfold subseg_read, srange_read; split; [cons_step|tame_step]).
  intros h. apply safe_of.
  - change (consumes (ssix_read h)). unfold ssix_read. repeat first [apply G|progress cons_step].
  - change (tame (ssix_read h)). unfold ssix_read. repeat first [apply G|progress tame_step].
Qed.

(* --- subs --- *)
Lemma len_sentry ver e : len (sentry_bytes ver e) = 6 + len (se_list e) * (if ver =? 1 then 10 else 8).
Proof.
  unfold sentry_bytes. rewrite !len_app, len_be32, len_be16. rewrite (len_flat_map_const _ (if ver =? 1 then 10 else 8)) by (intros; unfold subsmp_bytes; destruct (ver =? 1); reflexivity).
  destruct (ver =? 1); lia.
Qed.
Lemma subs_size_ok ver l : forall acc, acc + len (flat_map (sentry_bytes ver) l) < 4294967296 + 6 * len l ->
  fold_left (fun n e => w32 (n + len (se_list e) * (if ver =? 1 then 10 else 8))) l acc + 6 * len l = acc + len (flat_map (sentry_bytes ver) l).
Proof.
  induction l as [|e l IH]; intros acc H; cbn [fold_left flat_map] in *; [lens; lia|]. rewrite !len_app, len_cons, len_sentry in *.
  assert (6 * len l <= len (flat_map (sentry_bytes ver) l)).
  { clear. induction l as [|e l IH]; [unfold len; cbn; lia|]. cbn [flat_map]. rewrite len_app, len_cons, len_sentry. lia. }
  rewrite w32_small by lia. rewrite N.mul_add_distr_l. rewrite (N.add_comm (6 * 1)). rewrite N.add_assoc. rewrite IH by lia. lia.
Qed.
Lemma subs_parses t n : n < 4294967296 -> subs_ok t -> forall h, parses n (subs_read h) (subs_body t) t.
Proof.
  intros Hn (H1 & H2 & H3) h. unfold subs_read, subs_body. pauto. pauto. eapply parses_bind_last.
  - rewrite len_nat. apply (parses_rrep_in _ _ (fun a => a)); [|apply w32_lt]. intros e m Ie Hm. rewrite Forall_forall in H3. destruct (H3 e Ie) as (G1 & G2 & G3).
    unfold sentry_read, sentry_bytes. pauto. pauto. destruct (N.eqb_spec (len (se_list e)) 0); [lia|]. eapply parses_bind_last.
    + rewrite len_nat. apply (parses_rrep_in _ _ (fun a => a)); [|apply w32_lt]. intros x q Ix Hq. rewrite Forall_forall in G3. destruct (G3 x Ix) as (X1 & X2 & X3 & X4).
      unfold subsmp_read, subsmp_bytes. pnext; [destruct (su_ver t =? 1); [apply parses_get32|apply parses_get16]; exact X1|]. pauto. pauto. pauto. pnext. destruct x. reflexivity.
    + pnext. rewrite map_id. destruct e. reflexivity.
  - pnext. rewrite map_id. destruct t. reflexivity.
Qed.
Lemma subs_exact : exact subs_codec subs_layout.
Proof.
  split; [intros t _; plain|]. intros t H Hl. destruct (H) as (H1 & H2 & H3). unfold subs_codec, subs_layout in *. cbn [c_size c_w c_rd l_body l_view l_ok c_ty] in *.
  split; [|split].
  - unfold subs_size. unfold subs_body in *. rewrite !len_app, len_full, len_be32 in *.
    assert (6 * len (su_list t) <= len (flat_map (sentry_bytes (su_ver t)) (su_list t))).
    { clear. induction (su_list t) as [|e l IH]; [unfold len; cbn; lia|]. cbn [flat_map]. rewrite len_app, len_cons, len_sentry. lia. }
    pose proof (subs_size_ok (su_ver t) (su_list t) (16 + 6 * len (su_list t)) ltac:(lia)) as Q.
    rewrite (w32_small (4 + len (su_list t) * 6)) by lia. rewrite (w32_small (12 + _)) by lia.
    replace (12 + (4 + len (su_list t) * 6)) with (16 + 6 * len (su_list t)) by lia. lia.
  - unfold subs_write, subs_body. apply writes_full_seq. apply writes_seq; [wstep|]. apply writes_map. intros e Ie. unfold sentry_write, sentry_bytes.
    apply writes_seq; [wstep|]. apply writes_seq; [wstep|]. apply writes_map. intros x Ix. unfold subsmp_write, subsmp_bytes. apply writes_seq; [destruct (su_ver t =? 1); wstep|]. wstep.
  - apply subs_parses; [lia|exact H].
Qed.
Lemma subs_robust : robust subs_codec.
Proof.
  assert (G : forall v, consumes (sentry_read v) /\ tame (sentry_read v)).
  { intros v. unfold sentry_read, subsmp_read. split; destruct (v =? 1); [cons_step|cons_step|tame_step|tame_step]. }
  intros h. apply safe_of.
  - change (consumes (subs_read h)). unfold subs_read. repeat first [apply G|progress cons_step].
  - change (tame (subs_read h)). unfold subs_read. repeat first [apply G|progress tame_step].
Qed.

(* --- the history --- *)
Lemma zip_ok n : forall s p d c, (n <= length s)%nat -> (n <= length p)%nat -> (n <= length d)%nat -> match c with Some c => (n <= length c)%nat | None => True end ->
  exists l, zip_subs n s p d c = Ok l /\ length l = n /\ map ss_size l = firstn n s /\ map ss_prio l = firstn n p /\ map ss_disc l = firstn n d /\
    map ss_param l = match c with Some c => firstn n c | None => repeat 0 n end.
Proof.
  induction n as [|n IH]; intros s p d c H1 H2 H3 H4.
  - exists []. split; [reflexivity|]. repeat split. destruct c; reflexivity.
  - destruct s as [|x s]; [cbn in H1; lia|]. destruct p as [|y p]; [cbn in H2; lia|]. destruct d as [|z d]; [cbn in H3; lia|]. cbn [length] in *.
    destruct c as [c|].
    + destruct c as [|w c]; [cbn in H4; lia|]. cbn [length] in H4. destruct (IH s p d (Some c)) as (l & E & L & A1 & A2 & A3 & A4); try lia.
      cbn [zip_subs]. rewrite E. cbn [bind]. eexists. split; [reflexivity|]. cbn [length map firstn ss_size ss_prio ss_disc ss_param]. rewrite L, A1, A2, A3, A4. repeat split.
    + destruct (IH s p d None) as (l & E & L & A1 & A2 & A3 & A4); try lia.
      cbn [zip_subs]. rewrite E. cbn [bind]. eexists. split; [reflexivity|]. cbn [length map firstn repeat ss_size ss_prio ss_disc ss_param]. rewrite L, A1, A2, A3, A4. repeat split.
Qed.
Definition entry_view (e : sentry) : N * N * (list N * list N * list N) :=
  (se_delta e, len (se_list e), (map ss_size (se_list e), map ss_prio (se_list e), map ss_disc (se_list e))).
Definition sinv (os : list subop) (t : subs) : Prop :=
  su_flags t = last_flags os /\ map entry_view (su_list t) = given os /\ map (fun e => map ss_param (se_list e)) (su_list t) = given_params os /\
  su_ver t = (if existsb (fun e => existsb (fun x => 65535 <? ss_size x) (se_list e)) (su_list t) then 1 else 0).
Lemma subs_inv os : Forall subop_ok os -> exists t, subs_run os = Ok t /\ sinv os t.
Proof.
  induction os as [|o os IH] using rev_ind; intros F.
  - exists subs_new. split; [reflexivity|]. repeat split.
  - apply Forall_app in F. destruct F as [F1 F2]. inversion F2 as [|? ? Ho _]; subst. destruct (IH F1) as (t & E & I1 & I2 & I3 & I4).
    unfold subs_run in *. rewrite fold_left_app. cbn [fold_left]. rewrite E. unfold subs_step. cbn [bind]. unfold sinv, last_flags, given, given_params in *.
    rewrite fold_left_app, !flat_map_app. cbn [fold_left flat_map]. destruct o as [a|f].
    + destruct Ho as (O1 & O2 & O3 & O4). unfold len in O1, O2, O3. destruct (zip_ok (N.to_nat (sa_count a)) (sa_sizes a) (sa_prios a) (sa_discs a) (sa_params a)) as (l & Z & L & A1 & A2 & A3 & A4); try lia.
      { destruct (sa_params a); [unfold len in O4; lia|exact I]. }
      unfold subs_add. rewrite Z. cbn [bind]. eexists. split; [reflexivity|]. cbn [su_ver su_flags su_list]. split; [exact I1|].
      rewrite !map_app, existsb_app, I2, I3. cbn [map existsb]. unfold entry_view. cbn [se_delta se_list]. rewrite !app_nil_r. split; [|split].
      * f_equal. f_equal. f_equal; [f_equal; unfold len; lia|]. rewrite A1, A2, A3. reflexivity.
      * f_equal. rewrite A4. destruct (sa_params a); reflexivity.
      * rewrite I4, orb_false_r. destruct (existsb _ l); [rewrite orb_true_r; reflexivity|rewrite orb_false_r; reflexivity].
    + eexists. split; [reflexivity|]. cbn [subs_set_flags su_ver su_flags su_list]. rewrite !app_nil_r. split; [reflexivity|]. split; [exact I2|]. split; [exact I3|exact I4].
Qed.

(* reading one box, whatever its reader does *)
Lemma read_box_is {T} (c : codec T) dflt ty body rest : plain_type ty -> c_known c ty = true -> 8 + len body < 4294967296 ->
  read_box c dflt (box ty body ++ rest) =
  match c_rd c (mkH (8 + len body) 0 ty [] 8) (mkR (body ++ rest) 8) with
  | Ok (t, s) => Ok ((ALeaf T t, 8 + len body), skip_tail (8 + len body - (len (box ty body ++ rest) - len (inp s))) (inp s))
  | Err e => Err e
  | UB => UB
  end.
Proof.
  intros (P1 & P2 & P3 & P4) K L. unfold read_box, parse_top. rewrite Nat.add_comm. change (3 + ?n)%nat with (S (2 + n)). rewrite parse_atom_S.
  unfold cret, cbind. cbn [fst snd]. rewrite parse_hdr_box by assumption. cbn [fst snd inp]. unfold body_of. cbn [h_type h_size h_read]. rewrite P3, P4. unfold cret. cbn [fst snd]. unfold c_leaf. rewrite K.
  destruct (c_rd c _ _) as [[t s]| |]; [|reflexivity..]. cbn [bind fst snd]. unfold skip_count. cbn [h_size].
  destruct (N.eqb_spec (8 + len body) 1); [lia|]. reflexivity.
Qed.
Lemma srefs_short n : forall s, len (inp s) < 12 * N.of_nat n -> rrep n sref_read s = Err MP4IOErr.
Proof.
  induction n as [|n IH]; intros s H; [lia|]. cbn [rrep]. unfold rbind at 1.
  destruct (sref_read s) as [[r s1]|e|] eqn:E.
  - unfold rbind. rewrite IH; [reflexivity|]. unfold sref_read, rbind in E.
    destruct (get32 s) as [[a t1]| |] eqn:E1; [|discriminate..]. destruct (get32 t1) as [[b t2]| |] eqn:E2; [|discriminate..].
    destruct (get32 t2) as [[d t3]| |] eqn:E3; [|discriminate..]. injection E as <- <-.
    assert (G : forall u v w, get32 u = Ok (v, w) -> len (inp u) = 4 + len (inp w)).
    { intros u v w Q. unfold get32 in Q. destruct (inp u) as [|b1 [|b2 [|b3 [|b4 t]]]]; try discriminate. injection Q as <- <-. cbn [inp]. rewrite !len_cons. lia. }
    apply G in E1, E2, E3. lia.
  - unfold sref_read, rbind in E.
    assert (G : forall u q, get32 u = Err q -> q = MP4IOErr) by (intros u q Q; unfold get32 in Q; destruct (inp u) as [|b1 [|b2 [|b3 [|b4 t]]]]; congruence).
    destruct (get32 s) as [[a t1]|q|] eqn:E1; [|apply G in E1; congruence|discriminate]. destruct (get32 t1) as [[b t2]|q|] eqn:E2; [|apply G in E2; congruence|discriminate].
    destruct (get32 t2) as [[d t3]|q|] eqn:E3; [discriminate|apply G in E3; congruence|discriminate].
  - exfalso. unfold sref_read, rbind in E. unfold get32 in E. destruct (inp s) as [|b1 [|b2 [|b3 [|b4 t]]]]; try discriminate. cbn [inp] in E.
    destruct t as [|b5 [|b6 [|b7 [|b8 t]]]]; try discriminate. cbn [inp] in E. destruct t as [|b9 [|b10 [|b11 [|b12 t]]]]; discriminate.
Qed.

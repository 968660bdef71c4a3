(* ChunkProofs.v *)
From Verif Require Import Base Codec AtomModel AtomProofs BoxModel BoxSpec BoxProofs ChunkSpec ChunkModel.

Lemma samples_app a b : samples (a ++ b) = samples a + samples b.
Proof. induction a as [|c a IH]; cbn [app samples fold_right]; [reflexivity|]. fold (samples (a ++ b)) (samples a). rewrite IH. lia. Qed.
Lemma samples_repeat s d k : samples (repeat (s, d) k) = N.of_nat k * s.
Proof. induction k as [|k IH]; cbn [repeat samples fold_right fst]; [lia|]. fold (samples (repeat (s, d) k)). rewrite IH. lia. Qed.

Lemma locate_some ch : forall m, m < samples ch -> locate ch m <> None.
Proof.
  induction ch as [|[s d] ch IH]; intros m H; cbn [samples fold_right fst] in H; [lia|]. fold (samples ch) in H. cbn [locate].
  destruct (N.ltb_spec m s); [discriminate|]. specialize (IH (m - s) ltac:(lia)). destruct (locate ch (m - s)) as [[[j b] d']|]; [discriminate|congruence].
Qed.
Lemma locate_run s d k : forall rest m, 1 <= s -> m < N.of_nat k * s ->
  locate (repeat (s, d) k ++ rest) m = Some (m / s, m / s * s, d).
Proof.
  induction k as [|k IH]; intros rest m Hs Hm; [lia|]. cbn [repeat app locate].
  destruct (N.ltb_spec m s) as [H|H].
  - rewrite (N.div_small m s H). reflexivity.
  - rewrite IH by lia. assert (E : m / s = 1 + (m - s) / s).
    { replace m with ((m - s) + 1 * s) at 1 by lia. rewrite N.div_add by lia. lia. }
    rewrite E. do 3 f_equal. rewrite N.mul_add_distr_r. lia.
Qed.
Lemma locate_skip s d k : forall rest m, 1 <= s -> N.of_nat k * s <= m ->
  locate (repeat (s, d) k ++ rest) m =
  match locate rest (m - N.of_nat k * s) with Some (j, b, d') => Some (N.of_nat k + j, N.of_nat k * s + b, d') | None => None end.
Proof.
  induction k as [|k IH]; intros rest m Hs Hm.
  - cbn [repeat app]. replace (m - N.of_nat 0 * s) with m by lia. destruct (locate rest m) as [[[j b] d']|]; [|reflexivity].
    repeat f_equal; lia.
  - cbn [repeat app locate]. destruct (N.ltb_spec m s); [lia|]. rewrite IH by lia.
    replace (m - s - N.of_nat k * s) with (m - N.of_nat (S k) * s) by lia.
    destruct (locate rest (m - N.of_nat (S k) * s)) as [[[j b] d']|]; [|reflexivity]. do 3 f_equal; lia.
Qed.
(* the last run goes on for ever *)
Lemma div_mul_le m s : 1 <= s -> m / s * s <= m.
Proof. intros. rewrite N.mul_comm. apply N.mul_div_le. lia. Qed.

Lemma sub32_small a b : b <= a -> a < 4294967296 -> sub32 a b = a - b.
Proof. intros H1 H2. unfold sub32, w32. lia. Qed.

Lemma run_hit_ok f s d n i first :
  1 <= s -> first <= n -> n < 4294967296 -> f + (n - first) / s < 4294967296 ->
  run_hit (f, s, d) n i first = Ok (f + (n - first) / s, d, Some ((n - first) / s * s + first), i, first).
Proof.
  intros Hs Hn Hl Hc. unfold run_hit. destruct (N.eqb_spec s 0); [lia|].
  pose proof (div_mul_le (n - first) s Hs) as Hd.
  rewrite (sub32_small n first) by lia. remember ((n - first) / s) as q eqn:Eq. clear Eq.
  rewrite (w32_small (f + q)) by exact Hc.
  rewrite sub32_small by lia. replace (f + q - f) with q by lia.
  rewrite (w32_small (q * s)) by lia. rewrite w32_small by lia. reflexivity.
Qed.

(* one scan, from any run whose first sample is known; sample n lies m =
   n - first positions further on *)
Lemma chunks_cons f s d f2 s2 d2 r k : chunks_of ((f, s, d) :: (f2, s2, d2) :: r) k = repeat (s, d) (N.to_nat (f2 - f)) ++ chunks_of ((f2, s2, d2) :: r) k.
Proof. reflexivity. Qed.

Lemma rising_lt es : forall f s d k, rising ((f, s, d) :: es) k -> f < k.
Proof.
  induction es as [|[[f2 s2] d2] es IH]; intros f s d k [H1 H2]; [exact H2|]. destruct H2 as [H2 H3].
  specialize (IH _ _ _ _ H3). lia.
Qed.


Lemma locate_app a : forall b m, samples a <= m ->
  locate (a ++ b) m = match locate b (m - samples a) with Some (j, c, d) => Some (len a + j, samples a + c, d) | None => None end.
Proof.
  induction a as [|[s d] a IH]; intros b m H.
  - cbn [app samples fold_right]. rewrite N.sub_0_r. destruct (locate b m) as [[[j c] d]|]; reflexivity.
  - cbn [samples fold_right fst] in *. fold (samples a) in *. cbn [app locate]. destruct (N.ltb_spec m s); [lia|].
    rewrite IH by lia. replace (m - s - samples a) with (m - (s + samples a)) by lia.
    destruct (locate b _) as [[[j c] d']|]; [|reflexivity]. rewrite len_cons. do 3 f_equal; lia.
Qed.

Definition hd_chunk (es : list run) : N := match es with (f, _, _) :: _ => f | [] => 0 end.

Lemma chunks_app pre : forall post k, post <> [] ->
  chunks_of (pre ++ post) k = chunks_of pre (hd_chunk post) ++ chunks_of post k.
Proof.
  induction pre as [|[[f s] d] pre IH]; intros post k H; [reflexivity|].
  destruct pre as [|[[f2 s2] d2] pre].
  - destruct post as [|[[f2 s2] d2] post]; [congruence|]. reflexivity.
  - cbn [app] in *. rewrite chunks_cons, IH by exact H. rewrite chunks_cons, <- app_assoc. reflexivity.
Qed.
Lemma rising_app pre : forall post k, post <> [] -> rising (pre ++ post) k -> rising post k /\ rising pre (hd_chunk post).
Proof.
  induction pre as [|[[f s] d] pre IH]; intros post k Hp H; [split; [exact H|exact I]|].
  destruct pre as [|[[f2 s2] d2] pre].
  - destruct post as [|[[f2 s2] d2] post]; [congruence|]. cbn in H. destruct H as [H1 [H2 H3]]. split; [exact H3|]. cbn. lia.
  - cbn [app] in *. destruct H as [H1 [H2 H3]]. destruct (IH post k Hp H3) as [Ha Hb]. split; [exact Ha|].
    split; [exact H1|]. split; [exact H2|exact Hb].
Qed.
Lemma len_chunks es : forall k, rising es k -> es <> [] -> len (chunks_of es k) = k - hd_chunk es.
Proof.
  induction es as [|[[f s] d] es IH]; intros k H Hn; [congruence|].
  destruct es as [|[[f2 s2] d2] es].
  - cbn. unfold len. rewrite repeat_length. lia.
  - rewrite chunks_cons, len_app. destruct H as [H1 [H2 H3]]. rewrite IH by (assumption || discriminate).
    pose proof (rising_lt _ _ _ _ _ H3). cbn [hd_chunk]. unfold len. rewrite repeat_length. lia.
Qed.
Lemma samples_chunks_ge es : forall k, rising es k -> es <> [] -> k - hd_chunk es <= samples (chunks_of es k).
Proof.
  induction es as [|[[f s] d] es IH]; intros k H Hn; [congruence|].
  destruct es as [|[[f2 s2] d2] es].
  - cbn [chunks_of hd_chunk]. rewrite samples_repeat. destruct H as [H1 H2]. nia.
  - rewrite chunks_cons, samples_app, samples_repeat. destruct H as [H1 [H2 H3]].
    specialize (IH k H3 ltac:(discriminate)). cbn [hd_chunk] in *. nia.
Qed.

(* where a scan leaves the cache, for every sample number *)
Lemma scan_cache es : forall n i first old k,
  es <> [] -> rising es k -> k < 4294967296 -> first + samples (chunks_of es k) < 4294967296 -> i + len es < 4294967296 ->
  exists c d fs pre post,
    stsc_scan n es i first old = Ok (c, d, Some fs, i + len pre, first + samples (chunks_of pre (hd_chunk post))) /\
    es = pre ++ post /\ post <> [].
Proof.
  induction es as [|[[f s] d] es IH]; intros n i first old k Hn Hr Hk Hs Hi; [congruence|].
  assert (H1 : 1 <= s) by (destruct es as [|[[? ?] ?] ?]; apply Hr).
  assert (Hit : exists c d0 fs pre post,
    run_hit (f, s, d) n i first = Ok (c, d0, Some fs, i + len pre, first + samples (chunks_of pre (hd_chunk post))) /\
    (f, s, d) :: es = pre ++ post /\ post <> []).
  { unfold run_hit. destruct (N.eqb_spec s 0); [lia|]. do 3 eexists. exists [], ((f, s, d) :: es).
    split; [|split; [reflexivity|discriminate]]. cbn [chunks_of samples fold_right len length]. rewrite !N.add_0_r. reflexivity. }
  destruct es as [|[[f2 s2] d2] es]; [exact Hit|].
  change (stsc_scan n ((f, s, d) :: (f2, s2, d2) :: es) i first old) with
    (let k := w32 (sub32 f2 f * s) in
     if n <=? w32 (first + k) then run_hit (f, s, d) n i first else stsc_scan n ((f2, s2, d2) :: es) (w32 (i + 1)) (w32 (first + k)) old).
  cbv zeta. destruct (n <=? _); [exact Hit|]. clear Hit.
  rewrite chunks_cons, samples_app, samples_repeat in Hs. destruct Hr as [_ [Hlt Hr]].
  pose proof (rising_lt _ _ _ _ _ Hr) as Hfk. rewrite N2Nat.id in Hs. rewrite len_cons in Hi.
  rewrite (sub32_small f2 f) by lia. rewrite (w32_small ((f2 - f) * s)) by lia. rewrite (w32_small (first + (f2 - f) * s)) by lia.
  rewrite (w32_small (i + 1)) by (rewrite len_cons in Hi; lia).
  destruct (IH n (i + 1) (first + (f2 - f) * s) old k ltac:(discriminate) Hr Hk ltac:(lia) ltac:(lia)) as (c & d0 & fs & pre & post & E & E2 & Hp).
  exists c, d0, fs, ((f, s, d) :: pre), post. split; [|split; [cbn [app]; f_equal; exact E2|exact Hp]].
  rewrite E. rewrite len_cons. destruct pre as [|[[f3 s3] d3] pre].
  - cbn [app] in E2. subst post. cbn [hd_chunk chunks_of]. rewrite samples_repeat, N2Nat.id.
    cbn [samples fold_right len length]. f_equal. f_equal; [f_equal|]; lia.
  - cbn [app] in E2. injection E2 as -> -> -> E2. rewrite chunks_cons, samples_app, samples_repeat, N2Nat.id. f_equal. f_equal; [f_equal|]; lia.
Qed.

(* what a scan answers for a sample that exists *)
Lemma scan_answer es : forall n i first old k,
  es <> [] -> rising es k -> k < 4294967296 -> first <= n -> n < first + samples (chunks_of es k) ->
  first + samples (chunks_of es k) < 4294967296 -> 1 <= first -> len es < 4294967296 ->
  exists j b d0 j1 b1 d i' first',
    locate (chunks_of es k) (n - first) = Some (j, b, d0) /\
    locate (chunks_of es k) (n - first - 1) = Some (j1, b1, d) /\
    stsc_scan n es i first old = Ok (hd_chunk es + j, d, Some (b + first), i', first').
Proof.
  induction es as [|[[f s] d] es IH]; intros n i first old k Hn Hr Hk Hf Hl Hs Hf1 Hlen; [congruence|].
  assert (H1 : 1 <= s) by (destruct es as [|[[? ?] ?] ?]; apply Hr).
  pose proof (rising_lt _ _ _ _ _ Hr) as Hfk.
  destruct es as [|[[f2 s2] d2] es].
  - cbn [chunks_of] in *. rewrite samples_repeat, N2Nat.id in *. cbn [rising] in Hr.
    assert (Hd : (n - first) / s < k - f) by (apply N.div_lt_upper_bound; lia).
    rewrite <- (app_nil_r (repeat (s, d) _)). rewrite !locate_run by (rewrite ?N2Nat.id; lia).
    cbn [stsc_scan hd_chunk]. rewrite run_hit_ok by lia. do 8 eexists. repeat split.
  - change (stsc_scan n ((f, s, d) :: (f2, s2, d2) :: es) i first old) with
    (let k := w32 (sub32 f2 f * s) in
     if n <=? w32 (first + k) then run_hit (f, s, d) n i first else stsc_scan n ((f2, s2, d2) :: es) (w32 (i + 1)) (w32 (first + k)) old).
    cbv zeta. rewrite chunks_cons, samples_app, samples_repeat, N2Nat.id in Hs, Hl. destruct Hr as [_ [Hlt Hr]].
    pose proof (rising_lt _ _ _ _ _ Hr) as Hf2.
    rewrite (sub32_small f2 f) by lia. rewrite (w32_small ((f2 - f) * s)) by lia. rewrite (w32_small (first + (f2 - f) * s)) by lia.
    rewrite chunks_cons. cbn [hd_chunk]. assert (Hk1 : s <= (f2 - f) * s) by nia.
    destruct (N.leb_spec n (first + (f2 - f) * s)) as [H|H].
    + destruct (N.eq_dec n (first + (f2 - f) * s)) as [E|E].
      * rewrite locate_skip by (rewrite ?N2Nat.id; lia). rewrite locate_run by (rewrite ?N2Nat.id; lia).
        rewrite N2Nat.id. replace (n - first - (f2 - f) * s) with 0 by lia.
        assert (Hd : (n - first) / s = f2 - f) by (replace (n - first) with ((f2 - f) * s) by lia; apply N.div_mul; lia).
        rewrite run_hit_ok by (rewrite ?Hd; lia). rewrite Hd.
        assert (Hs2 : 1 <= s2) by (destruct es as [|[[? ?] ?] ?]; apply Hr).
        assert (L : locate (chunks_of ((f2, s2, d2) :: es) k) 0 = Some (0, 0, d2)).
        { destruct es as [|[[f3 s3] d3] es].
          - cbn [chunks_of]. cbn [rising] in Hr. destruct (N.to_nat (k - f2)) eqn:En; [lia|]. cbn [repeat locate].
            destruct (N.ltb_spec 0 s2); [reflexivity|lia].
          - rewrite chunks_cons. destruct Hr as [_ [Hr _]]. destruct (N.to_nat (f3 - f2)) eqn:En; [lia|]. cbn [repeat app locate].
            destruct (N.ltb_spec 0 s2); [reflexivity|lia]. }
        rewrite L. do 8 eexists. split; [reflexivity|]. split; [reflexivity|]. do 3 f_equal. rewrite !N.add_0_r. reflexivity.
      * rewrite !locate_run by (rewrite ?N2Nat.id; lia).
        assert (Hd : (n - first) / s < f2 - f) by (apply N.div_lt_upper_bound; lia).
        rewrite run_hit_ok by lia. do 8 eexists. repeat split.
    + rewrite !locate_skip by (rewrite ?N2Nat.id; lia). rewrite !N2Nat.id.
      rewrite len_cons in Hlen.
      destruct (IH n (w32 (i + 1)) (first + (f2 - f) * s) old k ltac:(discriminate) Hr Hk ltac:(lia) ltac:(lia) ltac:(lia) ltac:(lia) ltac:(lia))
        as (j & b & d0 & j1 & b1 & dd & i' & first' & L1 & L2 & E).
      replace (n - first - (f2 - f) * s) with (n - (first + (f2 - f) * s)) by lia.
      replace (n - first - 1 - (f2 - f) * s) with (n - (first + (f2 - f) * s) - 1) by lia.
      rewrite L1, L2, E. do 8 eexists. split; [reflexivity|]. split; [reflexivity|]. cbn [hd_chunk].
      f_equal. f_equal. f_equal. f_equal; f_equal; lia.
Qed.

(* ------------------------------------------------------------------ *)
(* the state invariant *)
Definition cache_ok (t : stsc) : Prop :=
  sc_first t = 0 \/
  exists pre post, sc_entries t = pre ++ post /\ post <> [] /\ sc_idx t = len pre /\
    sc_first t = 1 + samples (chunks_of pre (hd_chunk post)).
Definition stsc_inv (t : stsc) (k : N) (ch : list chunk) : Prop :=
  table_ok (sc_entries t) k /\ chunks_of (sc_entries t) k = ch /\ samples ch < 4294967295 /\ cache_ok t.

Lemma len_runs es k : rising es k -> len es <= k - hd_chunk es.
Proof.
  induction es as [|[[f s] d] es IH]; intros H; [unfold len; cbn [length]; lia|]. destruct es as [|[[f2 s2] d2] es].
  - cbn [hd_chunk rising] in *. unfold len. cbn [length]. lia.
  - destruct H as [_ [H1 H2]]. specialize (IH H2). cbn [hd_chunk] in *. rewrite len_cons. pose proof (rising_lt _ _ _ _ _ H2). lia.
Qed.

Lemma stsc_inv_lookup t k ch n : stsc_inv t k ch -> 1 <= n < 4294967296 -> ch <> [] ->
  exists c d fs t', stsc_lookup t n = Ok ((c, d, Some fs), t') /\ stsc_inv t' k ch /\
    (n <= samples ch ->
     (exists d0, chunk_of_sample ch n = Some (c, fs, d0)) /\ description_of_sample ch (if n =? 1 then 1 else n - 1) = Some d).
Proof.
  intros ((Hr & Hk & Hh) & Hc & Hs & Hca) Hn Hne. unfold stsc_lookup. destruct (N.eqb_spec n 0); [lia|].
  assert (Hen : sc_entries t <> []) by (intros E; rewrite E in Hc; cbn in Hc; congruence).
  pose proof (len_runs _ _ Hr) as Hlr.
  assert (Hh1 : hd_chunk (sc_entries t) = 1) by (destruct (sc_entries t) as [|[[? ?] ?] ?]; [congruence|exact Hh]).
  set (hit := negb (sc_first t =? 0) && (sc_first t <? n)).
  assert (P : exists pre post, sc_entries t = pre ++ post /\ post <> [] /\
     (if hit then sc_idx t else 0) = len pre /\ (if hit then sc_first t else 1) = 1 + samples (chunks_of pre (hd_chunk post)) /\
     (pre = [] \/ 1 + samples (chunks_of pre (hd_chunk post)) < n)).
  { destruct hit eqn:Eh.
    - destruct Hca as [Hz|(pre & post & E1 & E2 & E3 & E4)]; [unfold hit in Eh; lia|].
      exists pre, post. repeat split; try assumption. right. unfold hit in Eh. lia.
    - exists [], (sc_entries t). repeat split; [exact Hen|]. left. reflexivity. }
  destruct P as (pre & post & E & Hp & -> & -> & Hcase). clearbody hit. clear hit.
  rewrite E in *. unfold len at 1; rewrite Nat2N.id. rewrite skipn_app, skipn_all, Nat.sub_diag. cbn [skipn app].
  destruct (rising_app pre post k Hp Hr) as [Hrp Hrpre].
  rewrite chunks_app in Hc by exact Hp. rewrite len_app in Hlr.
  assert (Hs2 : samples (chunks_of pre (hd_chunk post)) + samples (chunks_of post k) = samples ch) by (rewrite <- Hc, samples_app; reflexivity).
  remember (samples (chunks_of pre (hd_chunk post))) as S0 eqn:ES0.
  destruct (scan_cache post n (len pre) (1 + S0) (sc_idx t) k Hp Hrp Hk ltac:(lia) ltac:(lia))
    as (c & d & fs & pre2 & post2 & Es & Ep & Hp2).
  rewrite Es. cbn [bind]. exists c, d, fs. eexists. split; [reflexivity|]. split.
  { split; [cbn [sc_entries]; split; [exact Hr|split; [exact Hk|exact Hh]]|].
    split; [cbn [sc_entries]; rewrite chunks_app by exact Hp; exact Hc|]. split; [exact Hs|].
    right. exists (pre ++ pre2), post2. cbn [sc_entries sc_idx sc_first]. split; [rewrite Ep, app_assoc; reflexivity|].
    split; [exact Hp2|]. split; [rewrite len_app; reflexivity|].
    destruct pre2 as [|e2 pre2].
    - cbn [app] in Ep. subst post2. rewrite app_nil_r. cbn [chunks_of samples fold_right]. rewrite <- ES0. lia.
    - rewrite chunks_app by discriminate. rewrite samples_app. subst post. cbn [app hd_chunk] in *.
      destruct e2 as [[f2 s2] d2]. rewrite <- ES0. lia. }
  intros Hin.
  destruct (scan_answer post n (len pre) (1 + S0) (sc_idx t) k Hp Hrp Hk) as (j & b & d0 & j1 & b1 & d' & i' & first' & L1 & L2 & Ea).
  - destruct Hcase as [->|Hlt]; [cbn in ES0; lia|lia].
  - lia.
  - lia.
  - lia.
  - lia.
  - rewrite Es in Ea. injection Ea as E1 E2 E3 E4 E5. subst c d fs.
    assert (HS0 : S0 <= n - 1) by (destruct Hcase as [->|Hlt]; [cbn in ES0; lia|lia]).
    assert (Hlp : hd_chunk post = 1 + len (chunks_of pre (hd_chunk post))).
    { destruct pre as [|[[f s] dd] pre]; [exact Hh1|]. rewrite len_chunks by (assumption || discriminate).
      cbn [app hd_chunk] in Hh1. subst f. pose proof (rising_lt _ _ _ _ _ Hrpre). cbn [hd_chunk]. lia. }
    split.
    + exists d0. unfold chunk_of_sample. rewrite <- Hc, locate_app by (rewrite <- ES0; lia). rewrite <- ES0.
      replace (n - 1 - S0) with (n - (1 + S0)) by lia. rewrite L1. do 3 f_equal; lia.
    + unfold description_of_sample. rewrite <- Hc, locate_app.
      * rewrite <- ES0. replace ((if n =? 1 then 1 else n - 1) - 1 - S0) with (n - (1 + S0) - 1) by (destruct (N.eqb_spec n 1); lia).
        rewrite L2. reflexivity.
      * rewrite <- ES0. destruct (N.eqb_spec n 1); destruct Hcase as [->|Hlt]; cbn in ES0; lia.
Qed.

Lemma set_run_snoc es f0 s0 d0 f s d :
  set_run (es ++ [(f0, s0, d0)]) f s d =
  if (s0 =? s) && (d0 =? d) then es ++ [(f0, s0, d0)] else es ++ [(f0, s0, d0); (f, s, d)].
Proof.
  induction es as [|[[f1 s1] d1] es IH]; [reflexivity|].
  assert (E : set_run (((f1, s1, d1) :: es) ++ [(f0, s0, d0)]) f s d = (f1, s1, d1) :: set_run (es ++ [(f0, s0, d0)]) f s d)
    by (destruct es; reflexivity).
  rewrite E, IH. destruct (_ && _); reflexivity.
Qed.

Lemma rising_snoc es : forall f s d k k', rising (es ++ [(f, s, d)]) k -> k <= k' -> rising (es ++ [(f, s, d)]) k'.
Proof.
  induction es as [|[[f2 s2] d2] es IH]; intros f s d k k' H Hk; [cbn in *; lia|]. cbn [app] in *.
  destruct es as [|[[f3 s3] d3] es]; cbn [app] in *; destruct H as [H1 [H2 H3]]; (split; [exact H1|split; [exact H2|]]); eauto.
Qed.
Lemma rising_add es : forall f s d k s' d', rising (es ++ [(f, s, d)]) k -> 1 <= s' -> rising ((es ++ [(f, s, d)]) ++ [(k, s', d')]) (k + 1).
Proof.
  induction es as [|[[f2 s2] d2] es IH]; intros f s d k s' d' H Hs; [cbn in *; lia|]. cbn [app] in *.
  destruct es as [|[[f3 s3] d3] es]; cbn [app] in *; destruct H as [H1 [H2 H3]]; (split; [exact H1|split; [exact H2|]]).
  - cbn in *. lia.
  - apply (IH f s d k); assumption.
Qed.

Lemma stsc_inv_add t k ch s d : stsc_inv t k ch -> 1 <= s -> samples ch + s < 4294967295 -> len ch < 4294967294 ->
  stsc_inv (stsc_set t k s d) (k + 1) (ch ++ [(s, d)]).
Proof.
  intros ((Hr & Hk & Hh) & Hc & Hs & Hca) H1 H2 H3.
  assert (Hk2 : k = 1 + len ch).
  { destruct (sc_entries t) as [|[[f s0] d0] es] eqn:E; [subst ch; cbn; exact Hh|]. subst f.
    rewrite <- Hc, len_chunks by (assumption || discriminate). pose proof (rising_lt _ _ _ _ _ Hr). cbn [hd_chunk]. lia. }
  unfold stsc_inv, stsc_set, cache_ok, table_ok. cbn [sc_entries sc_idx sc_first].
  destruct (sc_entries t) as [|e es] eqn:E using rev_ind; [|clear IHes].
  - cbn [set_run]. cbn in Hc. subst ch. split; [|split; [|split]].
    + cbn. repeat split; lia.
    + cbn [chunks_of]. replace (N.to_nat (k + 1 - k)) with 1%nat by lia. reflexivity.
    + rewrite samples_app. cbn. lia.
    + destruct Hca as [Hz|(pre & post & E1 & E2 & _)]; [left; exact Hz|]. rewrite E in E1. destruct pre, post; try discriminate. congruence.
  - destruct e as [[f0 s0] d0]. rewrite set_run_snoc.
    rewrite chunks_app in Hc by discriminate. cbn [hd_chunk chunks_of] in Hc.
    assert (Hf0 : f0 < k) by (apply rising_app in Hr; [|discriminate]; destruct Hr as [Hr _]; cbn in Hr; lia).
    assert (G : ((rising ((es ++ [(f0, s0, d0)]) ++ [(k, s, d)]) (k + 1) /\ k + 1 < 4294967296 /\
        match (es ++ [(f0, s0, d0)]) ++ [(k, s, d)] with [] => k + 1 = 1 | (f, _, _) :: _ => f = 1 end) /\
       chunks_of ((es ++ [(f0, s0, d0)]) ++ [(k, s, d)]) (k + 1) = ch ++ [(s, d)] /\ samples (ch ++ [(s, d)]) < 4294967295 /\
       (sc_first t = 0 \/ exists pre post, (es ++ [(f0, s0, d0)]) ++ [(k, s, d)] = pre ++ post /\ post <> [] /\ sc_idx t = len pre /\
          sc_first t = 1 + samples (chunks_of pre (hd_chunk post))))).
    { split; [split; [apply rising_add; assumption|split; [lia|]]|].
      { destruct es as [|[[? ?] ?] ?]; exact Hh. }
      split; [|split; [rewrite samples_app; cbn; lia|]].
      - rewrite chunks_app by discriminate. cbn [hd_chunk chunks_of]. replace (N.to_nat (k + 1 - k)) with 1%nat by lia.
        cbn [repeat]. f_equal. rewrite chunks_app by discriminate. exact Hc.
      - destruct Hca as [Hz|(pre & post & E1 & E2 & E3 & E4)]; [left; exact Hz|right].
        exists pre, (post ++ [(k, s, d)]). rewrite E in E1. rewrite E1, <- app_assoc. repeat split; [|exact E3|].
        + destruct post; discriminate.
        + rewrite E4. destruct post; [congruence|reflexivity]. }
    destruct (N.eqb_spec s0 s) as [->|Ns]; [destruct (N.eqb_spec d0 d) as [->|Nd]|]; cbn [andb].
    + split; [split; [apply (rising_snoc _ _ _ _ k); [exact Hr|lia]|split; [lia|]]|].
      { destruct es as [|[[? ?] ?] ?]; exact Hh. }
      split; [|split; [rewrite samples_app; cbn; lia|]].
      * rewrite chunks_app by discriminate. cbn [hd_chunk chunks_of]. rewrite <- Hc, <- app_assoc. f_equal.
        replace (N.to_nat (k + 1 - f0)) with (N.to_nat (k - f0) + 1)%nat by lia. rewrite repeat_app. reflexivity.
      * destruct Hca as [Hz|Hx]; [left; exact Hz|right]. rewrite E in Hx. exact Hx.
    + change (es ++ [(f0, s, d0); (k, s, d)]) with (es ++ [(f0, s, d0)] ++ [(k, s, d)]). rewrite app_assoc. apply G; assumption.
    + change (es ++ [(f0, s0, d0); (k, s, d)]) with (es ++ [(f0, s0, d0)] ++ [(k, s, d)]). rewrite app_assoc. apply G; assumption.
Qed.

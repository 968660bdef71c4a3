(* SttsProofs.v *)
From Verif Require Import Base Codec StreamProofs HandleProofs AtomModel AtomProofs SttsModel SttsSpec.

Lemma total_app a b : total (a ++ b) = total a + total b.
Proof. unfold total. induction a as [|x a IH]; cbn [app fold_right]; lia. Qed.
Lemma total_cons x a : total (x :: a) = x + total a. Proof. reflexivity. Qed.
Lemma total_nil : total [] = 0. Proof. reflexivity. Qed.
Lemma total_repeat d n : total (repeat d n) = d * N.of_nat n.
Proof. induction n as [|n IH]; cbn [repeat]; [rewrite total_nil; lia|]. rewrite total_cons. lia. Qed.
Lemma expand_app a b : expand (a ++ b) = expand a ++ expand b.
Proof. apply flat_map_app. Qed.
Lemma expand_cons c d r : expand ((c, d) :: r) = repeat d (N.to_nat c) ++ expand r. Proof. reflexivity. Qed.
Lemma len_expand_cons c d r : len (expand ((c, d) :: r)) = c + len (expand r).
Proof. rewrite expand_cons. lens. lia. Qed.
Lemma total_expand_cons c d r : total (expand ((c, d) :: r)) = c * d + total (expand r).
Proof. rewrite expand_cons, total_app, total_repeat. lia. Qed.
Lemma total_firstn_le k l : total (firstn k l) <= total l.
Proof.
  revert l; induction k as [|k IH]; intros [|x l]; cbn [firstn]; rewrite ?total_cons, ?total_nil; try lia.
  specialize (IH l). lia.
Qed.

(* entries whose products fit, as in any file the library wrote *)
Definition tab_ok (es : list (N * N)) : Prop :=
  Forall (fun e => fst e * snd e < 4294967296) es /\
  len (expand es) < 4294967295 /\ total (expand es) < 18446744073709551615.

Lemma tab_ok_cons e r : tab_ok (e :: r) -> tab_ok r.
Proof.
  destruct e as [c d]. intros (H1 & H2 & H3). inversion_clear H1.
  rewrite len_expand_cons in H2. rewrite total_expand_cons in H3. repeat split; [assumption|lia|lia].
Qed.

Lemma firstn_repeat_app {A} (d : A) c k r :
  (k <= c)%nat -> firstn k (repeat d c ++ r) = repeat d k.
Proof.
  revert k; induction c as [|c IH]; intros k Hk.
  - assert (k = 0)%nat by lia. subst. reflexivity.
  - destruct k as [|k]; [reflexivity|]. cbn [repeat app firstn]. rewrite IH by lia. reflexivity.
Qed.
Lemma nth_error_repeat_app {A} (d : A) c k r : (k < c)%nat -> nth_error (repeat d c ++ r) k = Some d.
Proof.
  revert k; induction c as [|c IH]; intros k Hk; [lia|]. destruct k as [|k]; [reflexivity|]. cbn. apply IH. lia.
Qed.

(* the scan: starting after the entries [pre] *)
Lemma time_loop_ok n es : forall pre seen,
  tab_ok (pre ++ es) -> 1 + len (expand pre) <= n -> n < 4294967296 -> len (pre ++ es) < 4294967296 ->
  let l := expand (pre ++ es) in
  exists pre' f, time_loop n es seen (len pre) (1 + len (expand pre)) (total (expand pre)) =
    (match dur l n with Some d => (dts l n, d) | None => (18446744073709551615, 0) end,
     (f, len pre', 1 + len (expand pre'), total (expand pre'))) /\
    (exists post, pre ++ es = pre' ++ post) /\ (n <= len l -> len pre' < len (pre ++ es)).
Proof.
  induction es as [|[c d] r IH]; intros pre seen Hok Hn Hn2 Hlen l; cbn [time_loop].
  - exists pre, seen. unfold l. rewrite app_nil_r in *.
    assert (E : dur (expand pre) n = None).
    { unfold dur. apply nth_error_None. unfold len in Hn. lia. }
    rewrite E. split; [reflexivity|]. split; [exists []; rewrite app_nil_r; reflexivity|]. lia.
  - assert (Hb : len (expand pre) + c + len (expand r) < 4294967295 /\ c * d < 4294967296 /\
                 total (expand pre) + c * d + total (expand r) < 18446744073709551615).
    { destruct Hok as (H1 & H2 & H3). rewrite expand_app in H2, H3. rewrite total_app, total_expand_cons in H3.
      lens. rewrite len_expand_cons in H2. rewrite Forall_app in H1. destruct H1 as [_ H1]. inversion_clear H1.
      cbn [fst snd] in *. lia. }
    destruct Hb as (B1 & B2 & B3).
    rewrite w32_small by lia.
    destruct (N.ltb_spec n (1 + len (expand pre) + c)) as [Hlt|Hge].
    + exists pre, true. split; [|split; [exists ((c, d) :: r); reflexivity|lens; lia]].
      unfold l. rewrite expand_app, expand_cons. set (k := N.to_nat (n - 1 - len (expand pre))).
      assert (Ek : N.to_nat (n - 1) = (length (expand pre) + k)%nat) by (unfold k, len in *; lia).
      assert (Hk : (k < N.to_nat c)%nat) by (unfold k; lia).
      unfold dur, dts. rewrite Ek.
      rewrite nth_error_app2 by lia. replace (length (expand pre) + k - length (expand pre))%nat with k by lia.
      rewrite nth_error_repeat_app by assumption.
      rewrite firstn_app. replace (length (expand pre) + k - length (expand pre))%nat with k by lia.
      rewrite firstn_all2 by lia. rewrite firstn_repeat_app by lia. rewrite total_app, total_repeat.
      rewrite sub32_exact by lia.
      assert (Hkd : (n - (1 + len (expand pre))) * d = d * N.of_nat k) by (unfold k; lia).
      rewrite Hkd. assert (N.of_nat k * d <= c * d) by (apply N.mul_le_mono_r; lia).
      rewrite w32_small by lia. rewrite w64_small by lia. reflexivity.
    + rewrite (w32_small (c * d)) by lia. rewrite w64_small by lia.
      specialize (IH (pre ++ [(c, d)]) true). rewrite <- app_assoc in IH. cbn [app] in IH.
      assert (E1 : 1 + len (expand (pre ++ [(c, d)])) = 1 + len (expand pre) + c).
      { rewrite expand_app. lens. rewrite len_expand_cons. cbn [expand flat_map]. lens. lia. }
      assert (E2 : total (expand (pre ++ [(c, d)])) = total (expand pre) + c * d).
      { rewrite expand_app, total_app, total_expand_cons. cbn [expand flat_map]. rewrite total_nil. lia. }
      assert (E3 : len (pre ++ [(c, d)]) = w32 (len pre + 1)).
      { lens. rewrite w32_small; lia. }
      rewrite E1, E2, E3 in IH. apply IH; assumption || lia.
Qed.

(* the lookup cache describes the start of the entry with its number *)
Definition cache_ok (s : stts) : Prop :=
  st_found s = true ->
  exists pre post, st_entries s = pre ++ post /\ st_fnum s = len pre /\
    st_fsn s = 1 + len (expand pre) /\ st_ftime s = total (expand pre).

Lemma stts_time_ok s n :
  tab_ok (st_entries s) -> len (st_entries s) < 4294967296 -> cache_ok s -> 1 <= n < 4294967296 ->
  let l := expand (st_entries s) in
  exists s', stts_time s n =
    ((match dur l n with Some d => (dts l n, s32_of d) | None => (18446744073709551615, 0%Z) end), s') /\
    st_entries s' = st_entries s /\ cache_ok s' /\
    (n <= len l -> st_fnum s' < len (st_entries s')) /\ st_ver s' = st_ver s /\ st_flags s' = st_flags s.
Proof.
  intros Hok Hlen Hc Hn l. unfold stts_time.
  assert (S : exists pre post i sn tm, st_entries s = pre ++ post /\
     (if st_found s && (st_fsn s <? n) then (st_fnum s, st_fsn s, st_ftime s) else (0, 1, 0)) = (i, sn, tm) /\
     i = len pre /\ sn = 1 + len (expand pre) /\ tm = total (expand pre) /\ sn <= n).
  { destruct (st_found s) eqn:Ef; cbn [andb].
    - destruct (Hc Ef) as (pre & post & E1 & E2 & E3 & E4).
      destruct (N.ltb_spec (st_fsn s) n).
      + exists pre, post. do 3 eexists. split; [exact E1|]. split; [reflexivity|]. repeat split; try assumption. lia.
      + exists [], (st_entries s). do 3 eexists. split; [reflexivity|]. split; [reflexivity|]. repeat split. lia.
    - exists [], (st_entries s). do 3 eexists. split; [reflexivity|]. split; [reflexivity|]. repeat split. lia. }
  destruct S as (pre & post & i & sn & tm & E0 & E1 & -> & -> & -> & Hsn). rewrite E1.
  assert (Esk : skipn (N.to_nat (len pre)) (st_entries s) = post).
  { rewrite E0. unfold len. rewrite Nat2N.id. rewrite skipn_app, skipn_all, Nat.sub_diag. reflexivity. }
  rewrite Esk.
  destruct (time_loop_ok n post pre false) as (pre' & f & E2 & (post' & E3) & E4);
    [rewrite <- E0; assumption | assumption | lia | rewrite <- E0; assumption |].
  rewrite E2. rewrite <- E0 in E4, E3. rewrite <- E0. fold l in E4 |- *.
  destruct (dur l n) as [d|]; eexists; (split; [reflexivity|]); cbn [st_entries st_found st_fnum st_fsn st_ftime];
    (split; [reflexivity|]); (split; [intros _; exists pre', post'; auto|]); auto.
Qed.

(* ------------------------------------------------------------------ *)
(* growth                                                              *)

Lemma add_run_expand es d :
  all_pos es -> len (expand es) < 4294967295 ->
  expand (add_run es d) = expand es ++ [d] /\ all_pos (add_run es d) /\
  len es <= len (add_run es d) /\ len (add_run es d) <= len es + 1 /\
  (forall pre post, es = pre ++ post -> post <> [] -> exists post', add_run es d = pre ++ post' /\ post' <> []).
Proof.
  induction es as [|[c d'] r IH]; intros Hp Hl.
  - cbn [add_run]. repeat split; try reflexivity; try (lens; lia).
    + repeat constructor; cbn; lia.
    + intros pre post E Hne. symmetry in E. apply app_eq_nil in E. destruct E; subst; congruence.
  - rewrite len_expand_cons in Hl. inversion_clear Hp as [|? ? P1 P2]. cbn [fst] in P1.
    destruct r as [|e r].
    + cbn [add_run]. destruct (N.eqb_spec d' d) as [->|Hne].
      * rewrite w32_small by (cbn [expand flat_map] in Hl; lia).
        split; [|split; [repeat constructor; cbn; lia|split; [lens; lia|split; [lens; lia|]]]].
        -- rewrite !expand_cons. cbn [expand flat_map]. rewrite !app_nil_r.
           replace (N.to_nat (c + 1)) with (N.to_nat c + 1)%nat by lia. rewrite repeat_app. reflexivity.
        -- intros pre post E Hpost. destruct pre as [|x pre].
           ++ exists [(c + 1, d)]. split; [reflexivity|discriminate].
           ++ cbn [app] in E. injection E as E1 E2. symmetry in E2. apply app_eq_nil in E2. destruct E2; congruence.
      * split; [rewrite !expand_cons; cbn [expand flat_map]; rewrite !app_nil_r; reflexivity|]. split; [repeat constructor; cbn; lia|]. split; [lens; lia|]. split; [lens; lia|].
        intros pre post E Hpost. destruct pre as [|x pre].
        ++ exists [(c, d'); (1, d)]. split; [reflexivity|discriminate].
        ++ cbn [app] in E. injection E as E1 E2. symmetry in E2. apply app_eq_nil in E2. destruct E2; congruence.
    + destruct (IH P2 ltac:(lia)) as (I1 & I2 & I3 & I4 & I5).
      change (add_run ((c, d') :: e :: r) d) with ((c, d') :: add_run (e :: r) d).
      rewrite expand_cons, I1. split; [rewrite expand_cons, app_assoc; reflexivity|].
      split; [constructor; assumption|]. rewrite (len_cons _ (add_run (e :: r) d)), (len_cons _ (e :: r)).
      split; [lia|]. split; [lia|].
      intros pre post E Hpost. destruct pre as [|x pre].
      * exists ((c, d') :: add_run (e :: r) d). split; [reflexivity|discriminate].
      * cbn [app] in E. injection E as E1 E2. destruct (I5 pre post E2 Hpost) as (post' & Q1 & Q2).
        exists post'. rewrite Q1, <- E1. split; [reflexivity|assumption].
Qed.

Lemma extend_last_app a x d : extend_last (a ++ [x]) d = a ++ [x + d].
Proof.
  induction a as [|y a IH]; [reflexivity|]. cbn [app extend_last]. rewrite IH.
  destruct a; reflexivity.
Qed.
Lemma total_extend_last l d : l <> [] -> total (extend_last l d) = total l + d.
Proof.
  intros H. destruct (exists_last H) as (a & x & ->). rewrite extend_last_app, !total_app, !total_cons, total_nil. lia.
Qed.
Lemma len_extend_last l d : len (extend_last l d) = len l.
Proof.
  destruct l as [|y l]; [reflexivity|]. destruct (@exists_last _ (y :: l) ltac:(discriminate)) as (a & x & ->).
  rewrite extend_last_app. lens. reflexivity.
Qed.

Lemma extend_run_ok es d :
  all_pos es -> es <> [] -> len (expand es) < 4294967295 -> total (expand es) + d < 4294967296 ->
  exists es', extend_run es d = Ok es' /\ expand es' = extend_last (expand es) d /\ all_pos es' /\
    len es <= len es' /\ len es' <= len es + 1 /\
    (forall pre post, es = pre ++ post -> post <> [] -> exists post', es' = pre ++ post' /\ post' <> []).
Proof.
  induction es as [|[c d'] r IH]; intros Hp Hne Hl Ht; [congruence|].
  rewrite len_expand_cons in Hl. rewrite total_expand_cons in Ht. inversion_clear Hp as [|? ? P1 P2]. cbn [fst] in P1.
  destruct r as [|e r].
  - cbn [extend_run]. cbn [expand flat_map] in Hl, Ht. rewrite total_nil in Ht.
    assert (G : forall pre post (es' : list (N * N)), [(c, d')] = pre ++ post -> post <> [] -> es' <> [] ->
      exists post', es' = pre ++ post' /\ post' <> []).
    { intros pre post es' E Hpost Hes. destruct pre as [|x pre]; [exists es'; auto|].
      cbn [app] in E. injection E as E1 E2. symmetry in E2. apply app_eq_nil in E2. destruct E2; congruence. }
    destruct (N.eqb_spec c 1) as [->|Hc].
    + rewrite w32_small by lia. eexists. split; [reflexivity|]. split; [reflexivity|].
      split; [repeat constructor; cbn; lia|]. split; [lens; lia|]. split; [lens; lia|].
      intros pre post E Hpost. eapply G; eauto. discriminate.
    + rewrite sub32_exact by (try lia). rewrite w32_small.
      2:{ assert (1 * d' <= c * d') by (apply N.mul_le_mono_r; lia). lia. }
      destruct (add_run_expand [(c - 1, d')] (d' + d)) as (A1 & A2 & A3 & A4 & A5).
      { repeat constructor; cbn; lia. }
      { rewrite len_expand_cons. cbn [expand flat_map]. lens. lia. }
      eexists. split; [reflexivity|]. split; [|split; [assumption|]].
      * rewrite A1, !expand_cons. cbn [expand flat_map]. rewrite !app_nil_r.
        replace (N.to_nat c) with (N.to_nat (c - 1) + 1)%nat by lia. rewrite repeat_app. cbn [repeat].
        rewrite extend_last_app. reflexivity.
      * split; [lens; lia|]. split; [lens; lia|]. intros pre post E Hpost. eapply G; eauto.
        intros E0. rewrite E0 in A3. lens. lia.
  - destruct (IH P2 ltac:(discriminate) ltac:(lia) ltac:(lia)) as (es' & I0 & I1 & I2 & I3 & I4 & I5).
    change (extend_run ((c, d') :: e :: r) d) with (do r' <- extend_run (e :: r) d; Ok ((c, d') :: r')).
    rewrite I0. cbn [bind]. eexists. split; [reflexivity|].
    split; [|split; [constructor; assumption|]].
    + rewrite !expand_cons, I1.
      assert (Hne2 : expand (e :: r) <> []).
      { destruct e as [c2 d2]. inversion_clear P2 as [|? ? Q1 Q2]. cbn [fst] in Q1. intros E0.
        apply (f_equal (@len N)) in E0. rewrite len_expand_cons in E0. lens. lia. }
      destruct (exists_last Hne2) as (a & x & ->). rewrite app_assoc, !extend_last_app, app_assoc. reflexivity.
    + rewrite (len_cons _ es'), (len_cons _ (e :: r)). split; [lia|]. split; [lia|].
      intros pre post E Hpost. destruct pre as [|x pre].
      * exists ((c, d') :: es'). split; [reflexivity|discriminate].
      * cbn [app] in E. injection E as E1 E2. destruct (I5 pre post E2 Hpost) as (post' & Q1 & Q2).
        exists post'. rewrite Q1, <- E1. split; [reflexivity|assumption].
Qed.

Definition same_front (es es' : list (N * N)) : Prop :=
  len es <= len es' /\
  forall pre post, es = pre ++ post -> post <> [] -> exists post', es' = pre ++ post' /\ post' <> [].
Lemma same_front_refl es : same_front es es.
Proof. split; [lia|]. intros pre post E H. exists post. auto. Qed.
Lemma same_front_trans a b c : same_front a b -> same_front b c -> same_front a c.
Proof.
  intros [H1 H2] [K1 K2]. split; [lia|]. intros pre post E H.
  destruct (H2 _ _ E H) as (p' & E' & H'). apply (K2 _ _ E' H').
Qed.

(* runs are never more than samples *)
Lemma len_le_expand es : all_pos es -> len es <= len (expand es).
Proof.
  induction 1 as [|[c d] r H1 H2 IH]; [reflexivity|]. rewrite len_expand_cons. lens. cbn [fst] in H1. lia.
Qed.

Lemma add_all_ok pick : forall ds i es,
  (forall k d, nth_error ds k = Some d -> pick (i + k)%nat = Some d) ->
  all_pos es -> len (expand es) + len ds <= 4294967295 ->
  exists es', add_all (length ds) i pick es = Ok es' /\ expand es' = expand es ++ ds /\ all_pos es' /\ same_front es es'.
Proof.
  induction ds as [|d ds IH]; intros i es Hpick Hp Hl; cbn [add_all length].
  - exists es. rewrite app_nil_r. split; [reflexivity|]. split; [reflexivity|]. split; [assumption|apply same_front_refl].
  - lens. pose proof (Hpick O d eq_refl) as E. rewrite Nat.add_0_r in E. rewrite E.
    destruct (add_run_expand es d Hp ltac:(lia)) as (A1 & A2 & A3 & A4 & A5).
    destruct (IH (S i) (add_run es d)) as (es' & I1 & I2 & I3 & I4).
    + intros k x Hk. replace (S i + k)%nat with (i + S k)%nat by lia. apply Hpick. exact Hk.
    + assumption.
    + rewrite A1. lens. lia.
    + exists es'. split; [assumption|]. split; [rewrite I2, A1, <- app_assoc; reflexivity|]. split; [assumption|].
      eapply same_front_trans; [|exact I4]. split; assumption.
Qed.

Lemma stts_add_ok s count durs :
  batch_ok count durs -> all_pos (st_entries s) -> len (expand (st_entries s) ++ batch count durs) <= 4294967295 ->
  exists s', stts_addSamples s count durs = Ok s' /\ expand (st_entries s') = expand (st_entries s) ++ batch count durs /\
    all_pos (st_entries s') /\ same_front (st_entries s) (st_entries s') /\ s' = with_entries s (st_entries s').
Proof.
  intros Hb Hp Hl. unfold stts_addSamples. lens.
  assert (E : length (batch count durs) = N.to_nat count).
  { unfold batch. destruct durs as [|d [|d2 durs]].
    - destruct Hb; lens; [lia|]. rewrite firstn_nil. cbn [length]. lia.
    - apply repeat_length.
    - rewrite firstn_length. destruct Hb; lens; [lia|]. unfold len in *. cbn [length]. lia. }
  rewrite <- E.
  destruct (add_all_ok (fun i => if 4 <? 4 * len durs then nth_error durs i else nth_error durs 0)
              (batch count durs) 0 (st_entries s)) as (es' & A1 & A2 & A3 & A4).
  - intros k d Hk. cbn [Nat.add]. unfold batch in Hk. destruct durs as [|d1 [|d2 durs]].
    + rewrite firstn_nil in Hk. destruct k; discriminate.
    + change (4 <? 4 * len [d1]) with false. cbn iota. apply nth_error_In in Hk. apply repeat_spec in Hk. subst. reflexivity.
    + assert (Et : 4 <? 4 * len (d1 :: d2 :: durs) = true) by (apply N.ltb_lt; lens; lia). rewrite Et.
      rewrite <- (firstn_skipn (N.to_nat count) (d1 :: d2 :: durs)).
      rewrite nth_error_app1; [exact Hk|]. apply nth_error_Some. congruence.
  - assumption.
  - lia.
  - rewrite A1. cbn [bind]. eexists. split; [reflexivity|]. cbn [st_entries with_entries]. auto.
Qed.

(* ------------------------------------------------------------------ *)
(* the refinement                                                      *)

Record Rel (s : stts) (l : list N) (more : bool) : Prop := {
  R_exp : expand (st_entries s) = l;
  R_pos : all_pos (st_entries s);
  R_cache : cache_ok s;
  R_in : more = true -> st_found s = true -> st_fnum s < len (st_entries s) }.

Lemma cache_front s es' :
  cache_ok s -> (st_found s = true -> st_fnum s < len (st_entries s)) -> same_front (st_entries s) es' ->
  cache_ok (with_entries s es') /\ (st_found s = true -> st_fnum s < len es').
Proof.
  intros Hc Hin [Hl Hf]. split; [|intros Hfd; specialize (Hin Hfd); lia].
  intros Hfd. cbn [with_entries st_found] in Hfd. destruct (Hc Hfd) as (pre & post & E1 & E2 & E3 & E4).
  specialize (Hin Hfd). rewrite E1 in Hin. rewrite E2 in Hin. lens.
  destruct (Hf _ _ E1) as (post' & Ep & _); [intros ->; lens; lia|].
  exists pre, post'. cbn [with_entries st_entries st_fnum st_fsn st_ftime]. auto.
Qed.

Lemma total_products es : total (expand es) < 4294967296 -> Forall (fun e => fst e * snd e < 4294967296) es.
Proof.
  induction es as [|[c d] r IH]; intros H; [constructor|]. rewrite total_expand_cons in H.
  constructor; [cbn [fst snd]; lia|apply IH; lia].
Qed.
Lemma stts_total_ok es acc : acc + total (expand es) < 4294967296 ->
  fold_left (fun t e => w32 (t + w32 (fst e * snd e))) es acc = acc + total (expand es).
Proof.
  revert acc; induction es as [|[c d] r IH]; intros acc H; cbn [fold_left].
  - cbn [expand flat_map]. rewrite total_nil. lia.
  - rewrite total_expand_cons in *. cbn [fst snd]. rewrite (w32_small (c * d)) by lia. rewrite w32_small by lia.
    rewrite IH by lia. lia.
Qed.

Lemma dur_some l n : 1 <= n -> n <= len l -> exists d, dur l n = Some d.
Proof.
  intros H1 H2. unfold dur. destruct (nth_error l (N.to_nat (n - 1))) as [d|] eqn:E; [eauto|].
  apply nth_error_None in E. unfold len in H2. lia.
Qed.

Lemma s32_small d : d < 2147483648 -> s32_of d = Z.of_N d.
Proof. intros H. unfold s32_of. destruct (N.ltb_spec d 2147483648); [reflexivity|lia]. Qed.

Lemma run_refines os : forall s l,
  Rel s l (existsb grows os) -> total l < 4294967296 -> Forall (fun d => d < 2147483648) l ->
  len l < 4294967295 -> legal l os -> run s os = Ok (sruns l os).
Proof.
  induction os as [|o os IH]; intros s l HR Ht Hf Hl Hok; [reflexivity|].
  cbn [run sruns]. cbn [legal] in Hok. destruct Hok as (Ht' & Hf' & Hl' & Ho & Hr).
  destruct HR as [R1 R2 R3 R4]. cbn [existsb] in R4.
  destruct o as [c ds|d|n|]; cbn [step sstep fst snd grows orb] in *.
  - destruct Ho as [Ho Hc]. destruct (stts_add_ok s c ds Ho R2) as (s' & A1 & A2 & A3 & A4 & A5).
    { rewrite R1. lia. }
    rewrite A1. cbn [bind].
    destruct (cache_front s (st_entries s') R3 (R4 eq_refl) A4) as [C1 C2].
    rewrite (IH s' (l ++ batch c ds)); [reflexivity| |assumption|assumption|assumption|assumption].
    constructor; [rewrite A2, R1; reflexivity|assumption|rewrite A5; assumption|]. intros _ Hfd. rewrite A5 in Hfd |- *. apply C2. exact Hfd.
  - assert (Hne : st_entries s <> []) by (intros E; rewrite E in R1; cbn in R1; congruence).
    rewrite total_extend_last in Ht' by assumption.
    destruct (extend_run_ok (st_entries s) d R2 Hne) as (es' & A0 & A1 & A2 & A3 & A4 & A5).
    { rewrite R1; lia. } { rewrite R1; lia. }
    unfold stts_extend. rewrite A0. cbn [bind].
    destruct (cache_front s es' R3 (R4 eq_refl) (conj A3 A5)) as [C1 C2].
    rewrite (IH (with_entries s es') (extend_last l d)); [reflexivity| |rewrite total_extend_last by assumption; assumption|assumption|assumption|assumption].
    constructor; [cbn [with_entries st_entries]; rewrite A1, R1; reflexivity|exact A2|exact C1|]. intros _. exact C2.
  - destruct Ho as [Hn Hin].
    destruct (stts_time_ok s n) as (s' & A1 & A2 & A3 & A4 & _).
    { split; [apply total_products; rewrite R1; assumption|]. rewrite R1. lia. }
    { pose proof (len_le_expand _ R2). rewrite R1 in *. lia. }
    { assumption. } { lia. }
    rewrite A1, R1.
    assert (HR' : Rel s' l (existsb grows os)).
    { constructor; [rewrite A2; assumption|rewrite A2; assumption|assumption|].
      intros Hm Hfd. destruct Hin as [Hin|Hin]; [|congruence]. apply A4. rewrite R1. assumption. }
    assert (E : forall x y, run s' os = Ok (sruns l os) -> x = y ->
       (do (s'0, x) <- Ok (s', x); do l0 <- run s'0 os; Ok (x :: l0)) = Ok (y :: sruns l os)).
    { intros x y E ->. cbn [bind]. rewrite E. reflexivity. }
    destruct (dur l n) as [d|] eqn:Ed; (apply E; [apply IH; assumption|]).
    + rewrite s32_small; [reflexivity|]. rewrite Forall_forall in Hf. apply Hf. unfold dur in Ed.
      eapply nth_error_In; eassumption.
    + reflexivity.
  - cbn [bind]. rewrite (IH s l); [|constructor; assumption|assumption|assumption|assumption|assumption].
    cbn [bind]. f_equal. f_equal. f_equal. unfold stts_total. rewrite stts_total_ok by (rewrite R1; lia). rewrite R1. lia.
Qed.

(* ------------------------------------------------------------------ *)
(* searching by time                                                   *)

Lemma s64_small x : x < 9223372036854775808 -> s64_of x = Z.of_N x.
Proof. intros H. unfold s64_of. destruct (N.ltb_spec x 9223372036854775808); [reflexivity|lia]. Qed.

Lemma dts_dur_in pre c d post k :
  1 + len (expand pre) <= k -> k < 1 + len (expand pre) + c ->
  let l := expand (pre ++ (c, d) :: post) in
  dur l k = Some d /\ dts l k = total (expand pre) + (k - 1 - len (expand pre)) * d.
Proof.
  intros H1 H2 l. unfold l, dur, dts. rewrite expand_app, expand_cons.
  assert (E : N.to_nat (k - 1) = (length (expand pre) + N.to_nat (k - 1 - len (expand pre)))%nat) by (unfold len in *; lia).
  assert (Hk : (N.to_nat (k - 1 - len (expand pre)) < N.to_nat c)%nat) by lia.
  rewrite E. rewrite nth_error_app2 by lia. rewrite firstn_app.
  replace (length (expand pre) + N.to_nat (k - 1 - len (expand pre)) - length (expand pre))%nat
    with (N.to_nat (k - 1 - len (expand pre))) by lia.
  rewrite nth_error_repeat_app by assumption.
  rewrite firstn_all2 by lia. rewrite firstn_repeat_app by lia. rewrite total_app, total_repeat. split; [reflexivity|lia].
Qed.

Lemma run_start_in pre c d post k :
  1 + len (expand pre) < k -> k < 1 + len (expand pre) + c -> all_pos (pre ++ (c, d) :: post) ->
  ~ run_start (pre ++ (c, d) :: post) k.
Proof.
  intros H1 H2 Hp (pre' & post' & E & Hne & ->).
  apply app_split_cases in E. destruct E as [(m & E1 & E2)|(m & E1 & E2)].
  - rewrite E1, expand_app in *. lens. lia.
  - rewrite E1, expand_app in *. lens. destruct m as [|[c' d'] m].
    + cbn [expand flat_map] in *. lens. lia.
    + cbn [app] in E2. injection E2 as <- <- E2. rewrite len_expand_cons in *. lia.
Qed.

Definition find_at (es : list (N * N)) (t : N) (r : find) : Prop :=
  let l := expand es in
  exists k d, 1 <= k /\ dur l k = Some d /\ dts l k <= t < dts l k + d /\ ((run_start es k /\ t = dts l k /\ r = mkFind (prior_start l k) (Z.of_N t) (Z.of_N (t + d)) k (Some (s32_of d)) true) \/
    (~ (run_start es k /\ t = dts l k) /\ r = mkFind (Z.of_N (dts l k)) (-1) (Z.of_N (dts l k + d)) k (Some (s32_of d)) true)).

Lemma find_loop_ok t es : forall pre o,
  all_pos (pre ++ es) -> durs_pos (pre ++ es) ->
  total (expand (pre ++ es)) < 4294967296 -> len (expand (pre ++ es)) < 4294967295 ->
  total (expand pre) <= t -> t < total (expand (pre ++ es)) ->
  (total (expand pre) < t -> f_done o = false /\ f_exact o = (-1)%Z) ->
  (total (expand pre) = t -> f_prior o = prior_start (expand (pre ++ es)) (1 + len (expand pre))) ->
  find_at (pre ++ es) t (find_loop t es (total (expand pre)) (1 + len (expand pre)) o).
Proof.
  induction es as [|[c d] r IH]; intros pre o Hp Hd Ht Hl H1 H2 Hlt Heq.
  { rewrite app_nil_r in H2. lia. }
  pose proof Ht as Ht0. pose proof Hl as Hl0.
  rewrite expand_app, total_app, total_expand_cons in Ht0. rewrite expand_app in Hl0. lens. rewrite len_expand_cons in Hl0.
  assert (Pc : 1 <= c /\ 1 <= d).
  { unfold all_pos, durs_pos in *. rewrite Forall_app in Hp, Hd. destruct Hp as [_ Hp], Hd as [_ Hd].
    inversion_clear Hp. inversion_clear Hd. cbn in *. lia. }
  assert (Hcd : 1 * d <= c * d) by (apply N.mul_le_mono_r; lia).
  remember (total (expand pre)) as tm eqn:Etm. remember (1 + len (expand pre)) as sn eqn:Esn.
  cbn [find_loop find_step]. cbn zeta.
  rewrite (N.mul_comm d c). rewrite (w32_small (c * d)) by lia. rewrite (w64_small (tm + c * d)) by lia.
  destruct (N.eqb_spec tm t) as [E|E].
  - (* t is the start of this entry *)
    rewrite (w64_small (tm + d)) by lia.
    destruct (N.leb_spec (tm + d) (tm + c * d)); [|lia]. cbn [fst snd f_prior f_exact f_next f_num f_dur f_done].
    rewrite !s64_small by lia. rewrite Heq by assumption.
    destruct (dts_dur_in pre c d r sn ltac:(lia) ltac:(lia)) as [D1 D2].
    exists sn, d. split; [lia|]. split; [exact D1|]. rewrite D2.
    replace (sn - 1 - len (expand pre)) with 0 by lia. split; [lia|]. left.
    split; [exists pre, ((c, d) :: r); repeat split; [discriminate|exact Esn]|]. split; [lia|]. rewrite E. reflexivity.
  - destruct (N.ltb_spec tm t); [|lia]. cbn [fst snd f_prior f_exact f_next f_num f_dur f_done].
    destruct (Hlt ltac:(lia)) as [Hd1 Hd2].
    destruct (N.ltb_spec (tm + c * d) t) as [Hfin|Hfin]; [|destruct (N.eqb_spec (tm + c * d) t) as [Hfe|Hfe]].
    + (* beyond this entry *)
      rewrite (w32_small (sn + c)) by lia.
      replace (tm + c * d) with (total (expand (pre ++ [(c, d)]))).
      2:{ rewrite expand_app, total_app, total_expand_cons. cbn [expand flat_map]. rewrite total_nil. lia. }
      replace (sn + c) with (1 + len (expand (pre ++ [(c, d)]))).
      2:{ rewrite expand_app. lens. rewrite len_expand_cons. cbn [expand flat_map]. lens. lia. }
      replace (pre ++ (c, d) :: r) with ((pre ++ [(c, d)]) ++ r) by (rewrite <- app_assoc; reflexivity).
      apply IH; rewrite <- ?app_assoc; cbn [app]; try assumption.
      * rewrite expand_app, total_app, total_expand_cons. cbn [expand flat_map]. rewrite total_nil. lia.
      * intros _. split; assumption.
      * rewrite expand_app, total_app, total_expand_cons. cbn [expand flat_map]. rewrite total_nil. lia.
    + (* exactly its end *)
      rewrite (w32_small (sn + c)) by lia. rewrite sub64_exact by lia.
      rewrite !s64_small by lia.
      replace (Z.of_N (tm + c * d - d)) with (prior_start (expand (pre ++ (c, d) :: r)) (sn + c)).
      2:{ unfold prior_start. destruct (N.eqb_spec (sn + c) 1); [lia|].
          destruct (dts_dur_in pre c d r (sn + c - 1) ltac:(lia) ltac:(lia)) as [_ D2]. rewrite D2, <- Etm.
          f_equal. replace (sn + c - 1 - 1 - len (expand pre)) with (c - 1) by lia. rewrite N.mul_sub_distr_r. lia. }
      assert (T1 : tm + c * d = total (expand (pre ++ [(c, d)]))).
      { rewrite expand_app, total_app, total_expand_cons. cbn [expand flat_map]. rewrite total_nil. lia. }
      assert (T2 : sn + c = 1 + len (expand (pre ++ [(c, d)]))).
      { rewrite expand_app. lens. rewrite len_expand_cons. cbn [expand flat_map]. lens. lia. }
      rewrite T1, T2.
      replace (pre ++ (c, d) :: r) with ((pre ++ [(c, d)]) ++ r) in * by (rewrite <- app_assoc; reflexivity).
      apply IH; try assumption.
      * lia.
      * lia.
      * intros _. reflexivity.
    + (* inside *)
      rewrite sub64_exact by lia.
      assert (Hb : (t - tm) / d < c) by (apply N.div_lt_upper_bound; lia).
      pose proof (N.div_mod (t - tm) d ltac:(lia)) as Hdm. pose proof (N.mod_lt (t - tm) d ltac:(lia)) as Hml.
      remember ((t - tm) / d) as b eqn:Eb. remember ((t - tm) mod d) as m eqn:Em. clear Eb Em.
      assert (Hbd : b * d + d <= c * d) by (replace (b * d + d) with ((b + 1) * d) by lia; apply N.mul_le_mono_r; lia).
      rewrite (w32_small b) by lia. rewrite Hd1. rewrite (w32_small (b * d)) by lia.
      rewrite (w64_small (tm + b * d)) by lia. rewrite (w64_small (tm + b * d + d)) by lia. rewrite (w32_small (sn + b)) by lia.
      destruct (N.leb_spec (tm + b * d + d) (tm + c * d)); [|lia]. cbn [fst snd f_prior f_exact f_next f_num f_dur f_done].
      rewrite !s64_small by lia. rewrite Hd2.
      destruct (dts_dur_in pre c d r (sn + b) ltac:(lia) ltac:(lia)) as [D1 D2].
      exists (sn + b), d. split; [lia|]. split; [exact D1|]. rewrite D2, <- Etm.
      replace (sn + b - 1 - len (expand pre)) with b by lia. split; [lia|]. right. split; [|reflexivity].
      intros [Hs Heq2]. destruct (N.eq_dec b 0) as [->|Hnz]; [lia|].
      revert Hs. apply run_start_in; [lia|lia|assumption].
Qed.

Lemma find_loop_past t es : forall pre o,
  all_pos (pre ++ es) -> durs_pos (pre ++ es) ->
  total (expand (pre ++ es)) < 4294967296 -> len (expand (pre ++ es)) < 4294967295 ->
  total (expand (pre ++ es)) <= t -> t < 9223372036854775808 ->
  f_exact o = (-1)%Z -> es <> [] ->
  exists d, nth_error (rev (expand (pre ++ es))) 0 = Some d /\
  find_loop t es (total (expand pre)) (1 + len (expand pre)) o =
  (if t =? total (expand (pre ++ es))
   then mkFind (Z.of_N (total (expand (pre ++ es)) - d)) (Z.of_N t) (f_next o) (1 + len (expand (pre ++ es))) (Some (s32_of d)) true
   else mkFind (Z.of_N (total (expand (pre ++ es)))) (-1) (f_next o) (f_num o) (f_dur o) (f_done o)).
Proof.
  induction es as [|[c d] r IH]; intros pre o Hp Hd Ht Hl H1 H2 He Hne; [congruence|]. clear Hne.
  pose proof Ht as Ht0. pose proof Hl as Hl0. pose proof H1 as H10.
  rewrite expand_app, total_app, total_expand_cons in Ht0, H10. rewrite expand_app in Hl0. lens. rewrite len_expand_cons in Hl0.
  assert (Pc : 1 <= c /\ 1 <= d).
  { unfold all_pos, durs_pos in *. rewrite Forall_app in Hp, Hd. destruct Hp as [_ Hp], Hd as [_ Hd].
    inversion_clear Hp. inversion_clear Hd. cbn in *. lia. }
  assert (Hcd : 1 * d <= c * d) by (apply N.mul_le_mono_r; lia).
  remember (total (expand pre)) as tm eqn:Etm. remember (1 + len (expand pre)) as sn eqn:Esn.
  cbn [find_loop find_step]. cbn zeta.
  rewrite (N.mul_comm d c). rewrite (w32_small (c * d)) by lia. rewrite (w64_small (tm + c * d)) by lia.
  rewrite (w32_small (sn + c)) by lia.
  destruct (N.eqb_spec tm t) as [E|E]; [lia|]. destruct (N.ltb_spec tm t); [|lia].
  cbn [fst snd f_prior f_exact f_next f_num f_dur f_done].
  assert (T1 : tm + c * d = total (expand (pre ++ [(c, d)]))).
  { rewrite expand_app, total_app, total_expand_cons. cbn [expand flat_map]. rewrite total_nil. lia. }
  assert (T2 : sn + c = 1 + len (expand (pre ++ [(c, d)]))).
  { rewrite expand_app. lens. rewrite len_expand_cons. cbn [expand flat_map]. lens. lia. }
  destruct r as [|e r].
  - cbn [find_loop]. exists d. split.
    { rewrite expand_app, expand_cons. cbn [expand flat_map]. rewrite app_nil_r, rev_app_distr.
      replace (N.to_nat c) with (N.to_nat (c - 1) + 1)%nat by lia. rewrite repeat_app, rev_app_distr. reflexivity. }
    rewrite <- T1. destruct (N.ltb_spec (tm + c * d) t).
    + destruct (N.eqb_spec t (tm + c * d)); [lia|]. rewrite s64_small by lia. rewrite He. reflexivity.
    + destruct (N.eqb_spec (tm + c * d) t) as [E2|E2]; [|lia]. rewrite E2, N.eqb_refl. rewrite sub64_exact by lia.
      rewrite !s64_small by lia. rewrite <- T2. reflexivity.
  - assert (Hr : 0 < total (expand (e :: r))).
    { destruct e as [c2 d2]. rewrite total_expand_cons. unfold all_pos, durs_pos in *. rewrite Forall_app in Hp, Hd.
      destruct Hp as [_ Hp], Hd as [_ Hd]. inversion_clear Hp as [|? ? _ Hp2]. inversion_clear Hd as [|? ? _ Hd2].
      inversion_clear Hp2. inversion_clear Hd2. cbn in *. assert (1 * 1 <= c2 * d2) by (apply N.mul_le_mono; lia). lia. }
    destruct (N.ltb_spec (tm + c * d) t); [|lia].
    rewrite T1, T2.
    replace (pre ++ (c, d) :: e :: r) with ((pre ++ [(c, d)]) ++ e :: r) in * by (rewrite <- app_assoc; reflexivity).
    match goal with |- context [find_loop t (e :: r) _ _ ?o'] =>
      destruct (IH (pre ++ [(c, d)]) o') as (d2 & I1 & I2); try assumption; [discriminate|] end.
    exists d2. split; [exact I1|]. rewrite I2. cbn [f_next f_num f_dur f_done]. reflexivity.
Qed.

Lemma dts_le l k k' : k <= k' -> dts l k <= dts l k'.
Proof.
  intros H. unfold dts. replace (N.to_nat (k' - 1)) with (N.to_nat (k - 1) + (N.to_nat (k' - 1) - N.to_nat (k - 1)))%nat by lia.
  generalize (N.to_nat (k' - 1) - N.to_nat (k - 1))%nat as j. generalize (N.to_nat (k - 1)) as i. clear H.
  intros i; revert l; induction i as [|i IH]; intros [|x l] j; cbn [firstn Nat.add]; rewrite ?total_nil, ?total_cons; try lia.
  specialize (IH l j). lia.
Qed.
Lemma dts_succ l k d : 1 <= k -> dur l k = Some d -> dts l (k + 1) = dts l k + d.
Proof.
  intros H. unfold dur, dts. replace (N.to_nat (k + 1 - 1)) with (S (N.to_nat (k - 1))) by lia.
  generalize (N.to_nat (k - 1)) as i. clear. intros i; revert l; induction i as [|i IH]; intros [|x l] E; try discriminate.
  - injection E as ->. cbn [firstn]. rewrite total_cons, total_nil. lia.
  - cbn [nth_error] in E. specialize (IH l E). cbn [firstn] in *. rewrite !total_cons. cbn [firstn] in IH. lia.
Qed.
Lemma covers_unique l k k' t : covers l k t -> covers l k' t -> k = k'.
Proof.
  intros (H1 & d & H2 & H3) (K1 & d' & K2 & K3).
  assert (A : forall a b da db, 1 <= a -> dur l a = Some da -> dts l a <= t < dts l a + da -> dts l b <= t < dts l b + db -> ~ a < b).
  { intros a b da db Q1 Q2 Q3 Q4 Hab. pose proof (dts_le l (a + 1) b ltac:(lia)). rewrite (dts_succ l a da Q1 Q2) in H. lia. }
  pose proof (A k k' d d' H1 H2 H3 K3). pose proof (A k' k d' d K1 K2 K3 H3). lia.
Qed.
Lemma covers_exists l t : t < total l -> exists k, covers l k t /\ k <= len l.
Proof.
  revert t; induction l as [|x l IH]; intros t H; [rewrite total_nil in H; lia|].
  rewrite total_cons in H. destruct (N.ltb_spec t x) as [Hx|Hx].
  - exists 1. split; [split; [lia|]; exists x; split; [reflexivity|]; unfold dts; cbn [N.sub N.to_nat firstn]; change (total (firstn (N.to_nat (1 - 1)) (x :: l))) with 0; lia|lens; lia].
  - destruct (IH (t - x) ltac:(lia)) as (k & (K1 & d & K2 & K3) & K4).
    exists (k + 1). split; [|lens; lia]. split; [lia|]. exists d. unfold dur, dts in *.
    replace (N.to_nat (k + 1 - 1)) with (S (N.to_nat (k - 1))) by lia. cbn [nth_error firstn]. rewrite total_cons.
    split; [exact K2|lia].
Qed.

Record find_tab (es : list (N * N)) : Prop := {
  ft_counts : all_pos es; ft_durs : durs_pos es;
  ft_total : total (expand es) < 4294967296; ft_len : len (expand es) < 4294967295 }.

Lemma stts_find_ok s t : find_tab (st_entries s) -> t < total (expand (st_entries s)) ->
  find_at (st_entries s) t (stts_find s t).
Proof.
  intros [F1 F2 F3 F4] Ht. unfold stts_find. apply (find_loop_ok t (st_entries s) [] find0); try assumption.
  - cbn; lia.
  - intros _. split; reflexivity.
  - intros _. reflexivity.
Qed.

Lemma media_time_ok s t : find_tab (st_entries s) -> t < total (expand (st_entries s)) ->
  exists k d x, covers (expand (st_entries s)) k t /\ dur (expand (st_entries s)) k = Some d /\
    media_time_to_sample s t = Ok (k, x, Some (s32_of d)) /\
    ((run_start (st_entries s) k /\ x = dts (expand (st_entries s)) k) \/
     (~ run_start (st_entries s) k /\ x = 18446744073709551615)).
Proof.
  intros F Ht. pose proof (ft_total _ F) as Htot.
  destruct (stts_find_ok s t F Ht) as (k & d & K1 & K2 & K3 & K).
  exists k, d. unfold media_time_to_sample.
  assert (Hc : covers (expand (st_entries s)) k t) by (split; [lia|]; exists d; auto).
  destruct K as [(A1 & A2 & ->)|(A1 & ->)]; cbn [f_exact f_prior f_next f_num f_dur].
  - destruct (Z.eqb_spec (Z.of_N t) (-1)); [lia|]. cbn [negb]. exists (dts (expand (st_entries s)) k).
    split; [exact Hc|]. split; [exact K2|]. split; [|left; auto]. do 3 f_equal. unfold u64_of. lia.
  - change (-1 =? -1)%Z with true. cbn [negb].
    destruct (Z.eqb_spec (Z.of_N (dts (expand (st_entries s)) k)) (-1)); [lia|]. cbn [negb].
    assert (Eu : u64_of (Z.of_N (dts (expand (st_entries s)) k)) = dts (expand (st_entries s)) k) by (unfold u64_of; lia).
    rewrite Eu.
    destruct (stts_find_ok s (dts (expand (st_entries s)) k) F ltac:(lia)) as (k2 & d2 & L1 & L2 & L3 & L).
    assert (Ek : k2 = k).
    { eapply covers_unique with (t := dts (expand (st_entries s)) k); (split; [eassumption|]); eexists; (split; [eassumption|]); lia. }
    subst k2. assert (d2 = d) by congruence. subst d2.
    destruct (N.eqb_spec (dts (expand (st_entries s)) k) 18446744073709551615); [lia|].
    destruct L as [(B1 & B2 & ->)|(B1 & ->)]; cbn [f_exact f_prior f_next f_num f_dur orb].
    + destruct (N.eqb_spec k 0); [lia|]. exists (dts (expand (st_entries s)) k). rewrite Eu.
      split; [exact Hc|]. split; [exact K2|]. split; [reflexivity|]. left. auto.
    + destruct (N.eqb_spec k 0); [lia|]. exists 18446744073709551615. split; [exact Hc|]. split; [exact K2|].
      split; [reflexivity|]. right. split; [|reflexivity]. intros Hs. apply B1. auto.
Qed.

Lemma media_time_past s t : find_tab (st_entries s) -> st_entries s <> [] ->
  total (expand (st_entries s)) <= t < 9223372036854775808 ->
  exists d, nth_error (rev (expand (st_entries s))) 0 = Some d /\
    media_time_to_sample s t = Ok (1 + len (expand (st_entries s)), total (expand (st_entries s)), Some (s32_of d)).
Proof.
  intros [F1 F2 F3 F4] Hne Ht. unfold media_time_to_sample, stts_find.
  destruct (find_loop_past t (st_entries s) [] find0) as (d & D1 & D2); try assumption; try reflexivity; try (cbn [app]; lia).
  cbn [app] in *. exists d. split; [exact D1|]. change 0 with (total (expand [])). change (total (expand [])) with 0.
  change (find_loop t (st_entries s) 0 1 find0) with (find_loop t (st_entries s) (total (expand [])) (1 + len (expand [])) find0).
  rewrite D2. destruct (N.eqb_spec t (total (expand (st_entries s)))) as [E|E]; cbn [f_exact f_prior f_next f_num f_dur].
  - destruct (Z.eqb_spec (Z.of_N t) (-1)); [lia|]. cbn [negb]. do 3 f_equal. unfold u64_of; lia.
  - change (-1 =? -1)%Z with true. cbn [negb].
    destruct (Z.eqb_spec (Z.of_N (total (expand (st_entries s)))) (-1)); [lia|]. cbn [negb].
    assert (Eu : u64_of (Z.of_N (total (expand (st_entries s)))) = total (expand (st_entries s))) by (unfold u64_of; lia).
    rewrite Eu.
    destruct (find_loop_past (total (expand (st_entries s))) (st_entries s) [] find0) as (d' & D3 & D4); try assumption; try reflexivity; try (cbn [app]; lia).
    cbn [app] in *.
    change (find_loop (total (expand (st_entries s))) (st_entries s) 0 1 find0) with (find_loop (total (expand (st_entries s))) (st_entries s) (total (expand [])) (1 + len (expand [])) find0).
    rewrite D4, N.eqb_refl. cbn [f_exact f_prior f_next f_num f_dur]. rewrite Eu.
    destruct (N.eqb_spec (total (expand (st_entries s))) 18446744073709551615); [lia|].
    destruct (N.eqb_spec (1 + len (expand (st_entries s))) 0); [lia|]. cbn [orb]. congruence.
Qed.

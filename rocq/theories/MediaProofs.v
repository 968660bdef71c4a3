(* MediaProofs.v *)
From Verif Require Import Base Codec HandleProofs AtomModel BoxModel SttsSpec SttsModel SttsProofs CttsSpec CttsModel CttsProofs
  SyncSpec SyncModel SyncProofs SizeSpec SizeModel SizeProofs MarkSpec MarkModel MarkProofs ChunkSpec ChunkModel ChunkProofs
  MdatModel SaveSpec StreamProofs MediaSpec MediaModel.

(* ------------------------------------------------------------------ *)
(* one value for all, or one each                                      *)

Definition spreadN (n : nat) (l : list N) : list N := match l with [x] => repeat x n | _ => l end.
Lemma per_spread l xs : xs <> [] -> per_sample l xs -> (len l = 1 \/ len l = len xs) /\ spreadN (length xs) l = xs.
Proof.
  intros Hne [->|(x & -> & H)].
  - split; [auto|]. destruct xs as [|a [|b r]]; reflexivity.
  - split; [left; reflexivity|]. cbn [spreadN]. clear Hne. induction H as [|y xs E _ IH]; [reflexivity|]. cbn [length repeat]. congruence.
Qed.
Lemma to_nat_len {A} (l : list A) : N.to_nat (len l) = length l.
Proof. unfold len. lia. Qed.
Lemma per_batch l xs : xs <> [] -> per_sample l xs -> batch_ok (len xs) l /\ batch (len xs) l = xs.
Proof.
  intros Hne H. pose proof (per_spread l xs Hne H) as [H1 H2]. split.
  - unfold batch_ok. destruct H1 as [->| ->]; [left; reflexivity|right; lia].
  - unfold batch. rewrite to_nat_len. unfold spreadN in H2. destruct l as [|a [|b r]].
    + destruct xs; [reflexivity|]. discriminate.
    + exact H2.
    + subst xs. apply firstn_all.
Qed.
Lemma per_sizes l xs : xs <> [] -> Forall (fun x => x < 4294967296) xs -> per_sample l xs ->
  zop_ok (ZAdd (len xs) l) /\ sizes_of (ZAdd (len xs) l) = xs.
Proof.
  intros Hne Hx H. pose proof (per_spread l xs Hne H) as [H1 H2]. split.
  - cbn [zop_ok]. split; [destruct xs; [congruence|lens; lia]|]. split; [exact H1|].
    destruct H as [->|(x & -> & H)]; [exact Hx|]. destruct xs as [|y r]; [congruence|]. inversion H; subst. inversion Hx; subst. repeat constructor. assumption.
  - cbn [sizes_of]. rewrite to_nat_len. destruct l as [|a [|b r]]; exact H2.
Qed.
Lemma per_offs l xs : xs <> [] -> Forall (fun x => x < 4294967296) xs -> per_sample l xs ->
  obatch_ok (len xs, Some l) /\ given (len xs, Some l) = xs.
Proof.
  intros Hne Hx H. pose proof (per_sizes l xs Hne Hx H) as [(A & B & C) D]. split.
  - split; [exact A|]. cbn [snd fst]. auto.
  - cbn [given snd fst]. cbn [sizes_of] in D. exact D.
Qed.
Lemma per_pads l xs : xs <> [] -> per_sample l xs -> pbatch_ok (len xs, Some l) /\ pads_of (len xs, Some l) = xs.
Proof.
  intros Hne H. pose proof (per_spread l xs Hne H) as [H1 H2].
  assert (Hl : 1 <= len xs) by (destruct xs; [congruence|lens; lia]). split.
  - split; [exact Hl|]. cbn [snd fst]. destruct l as [|a [|b r]]; [exact I|exact I|]. destruct H1 as [H1|H1]; [lens; lia|exact H1].
  - cbn [pads_of snd fst]. rewrite to_nat_len. destruct l as [|a [|b r]]; [|exact H2..]. cbn [spreadN] in H2. congruence.
Qed.

(* ------------------------------------------------------------------ *)
(* sync marks                                                          *)

Lemma positions_inj a : forall b k, length a = length b -> positions k a = positions k b -> a = b.
Proof.
  induction a as [|x a IH]; intros [|y b] k Hl H; try discriminate Hl; [reflexivity|]. injection Hl as Hl. cbn [positions] in H.
  assert (G : forall c d, k :: c = positions (k + 1) d -> False).
  { intros c d E. pose proof (positions_ge d (k + 1)) as G. rewrite <- E in G. inversion_clear G. lia. }
  destruct x, y.
  - injection H as H. f_equal. eauto.
  - exfalso. eauto.
  - exfalso. symmetry in H. eauto.
  - f_equal. eauto.
Qed.
Lemma positions_ascending L : forall k, ascending k (positions k L) /\ Forall (fun x => x < k + len L) (positions k L).
Proof.
  induction L as [|b L IH]; intros k; [split; constructor|]. destruct (IH (k + 1)) as [A B]. cbn [positions]. lens.
  assert (A' : forall l lo lo', lo' <= lo -> ascending lo l -> ascending lo' l).
  { intros [|x l] lo lo' H; [auto|]. cbn [ascending]. intros [X Y]. split; [lia|exact Y]. }
  assert (B' : Forall (fun x => x < k + (1 + len L)) (positions (k + 1) L)) by (eapply Forall_impl; [|exact B]; cbn; intros; lia).
  destruct b.
  - split; [cbn [ascending]; split; [lia|exact A]|constructor; [lia|exact B']].
  - split; [apply (A' _ (k + 1)); [lia|exact A]|exact B'].
Qed.
Lemma named_positions ss : forall j,
  map (fun p => N.of_nat (fst p)) (filter (fun p : nat * smp => m_sync (snd p)) (combine (seq j (length ss)) ss)) =
  positions (N.of_nat j) (map m_sync ss).
Proof.
  induction ss as [|s ss IH]; intros j; [reflexivity|]. cbn [length seq combine filter map positions snd].
  replace (N.of_nat j + 1) with (N.of_nat (S j)) by lia. rewrite <- IH. destruct (m_sync s); reflexivity.
Qed.
Lemma marks_named L : L <> [] -> mbatch_ok (len L, Some (positions 1 L)) /\ marks (len L, Some (positions 1 L)) = L.
Proof.
  intros Hne. destruct (positions_ascending L 1) as [A B]. assert (1 <= len L) by (destruct L; [congruence|lens; lia]). split.
  - split; [assumption|]. cbn [snd fst]. split; [exact A|]. eapply Forall_impl; [|exact B]. cbn; intros; lia.
  - unfold marks; cbn [fst snd]. rewrite to_nat_len. apply (positions_inj _ _ 1); [rewrite map_length, seq_length; reflexivity|].
    rewrite marks_positions.
    + rewrite (map_ext _ (fun o : N => o)) by (intros; lia). apply map_id.
    + exact A.
    + eapply Forall_impl; [|exact B]. unfold len. cbn; intros; lia.
Qed.

(* ------------------------------------------------------------------ *)
(* chunks and bytes                                                    *)

Lemma slice_mid D o (a b c : list N) :
  slice D o (len (a ++ b ++ c)) = a ++ b ++ c -> slice D (o + len a) (len b) = b.
Proof.
  unfold slice. intros H. rewrite to_nat_len in *. remember (skipn (N.to_nat o) D) as E eqn:EE.
  assert (S : skipn (N.to_nat (o + len a)) D = skipn (length a) E).
  { subst E. clear H. replace (N.to_nat (o + len a)) with (N.to_nat o + length a)%nat by (unfold len; lia).
    generalize (N.to_nat o) as i. intros i. revert D. induction i as [|i IH]; intros D; [reflexivity|].
    destruct D as [|x D]; [rewrite !skipn_nil; reflexivity|]. cbn [Nat.add skipn]. apply IH. }
  rewrite S. rewrite <- (firstn_skipn (length (a ++ b ++ c)) E), H, <- app_assoc.
  rewrite skipn_app, skipn_all, Nat.sub_diag. cbn [skipn app]. rewrite <- app_assoc.
  rewrite firstn_app, firstn_all, Nat.sub_diag, firstn_O, app_nil_r. reflexivity.
Qed.
Lemma slice_grow D X o n : o + n <= len D -> slice (D ++ X) o n = slice D o n.
Proof.
  intros H. unfold slice. unfold len in H. rewrite skipn_app, firstn_app. rewrite skipn_length.
  replace (N.to_nat n - (length D - N.to_nat o))%nat with 0%nat by lia. rewrite firstn_O, app_nil_r. reflexivity.
Qed.
Lemma slice_end D X : slice (D ++ X) (len D) (len X) = X.
Proof.
  unfold slice. rewrite !to_nat_len, skipn_app, skipn_all, Nat.sub_diag. cbn [skipn app]. apply firstn_all.
Qed.

Definition kept (D : list N) (o : N) (g : list smp) : Prop :=
  o + len (flat_map m_bytes g) <= len D /\ slice D o (len (flat_map m_bytes g)) = flat_map m_bytes g.
Lemma kept_grow D X o g : kept D o g -> kept (D ++ X) o g.
Proof. intros [H1 H2]. split; [lens; lia|]. rewrite slice_grow by exact H1. exact H2. Qed.

Lemma locate_groups : forall ch gs m j b d, map fst ch = map (fun g : list smp => len g) gs -> locate ch m = Some (j, b, d) ->
  exists g1 g g2, gs = g1 ++ g :: g2 /\ len g1 = j /\ b = len (concat g1) /\ b <= m < b + len g.
Proof.
  induction ch as [|[s d0] ch IH]; intros gs m j b d E H; [discriminate|]. destruct gs as [|g gs]; [discriminate|].
  cbn [map fst] in E. injection E as E1 E2. subst s. cbn [locate] in H.
  destruct (N.ltb_spec m (len g)) as [Hm|Hm].
  - injection H as <- <- <-. exists [], g, gs. cbn [concat app]. change (len (@nil smp)) with 0. change (len (@nil (list smp))) with 0. repeat split; lia.
  - destruct (locate ch (m - len g)) as [[[j1 b1] d1]|] eqn:El; [|discriminate]. injection H as <- <- <-.
    destruct (IH _ _ _ _ _ E2 El) as (g1 & g' & g2 & -> & A & B & C). exists (g :: g1), g', g2.
    cbn [concat app]. lens. repeat split; lia.
Qed.
Lemma sum_bytes l : sum (map (fun s => len (m_bytes s)) l) = len (flat_map m_bytes l).
Proof. induction l as [|s l IH]; [reflexivity|]. cbn [map sum fold_right flat_map]. fold (sum (map (fun s => len (m_bytes s)) l)). lens. lia. Qed.
Lemma nth_error_split' {A} (l : list A) i x : nth_error l i = Some x -> l = firstn i l ++ x :: skipn (S i) l.
Proof.
  revert l; induction i as [|i IH]; intros [|y l] H; try discriminate; cbn [firstn skipn app] in *; [injection H as ->; reflexivity|].
  f_equal. apply IH. exact H.
Qed.
(* position m of a concatenation of groups *)
Lemma in_groups (g1 g2 : list (list smp)) g m s :
  let ss := concat (g1 ++ g :: g2) in let b := len (concat g1) in
  b <= m < b + len g -> nth_error ss (N.to_nat m) = Some s ->
  exists u v, g = u ++ s :: v /\ size_between (map (fun s => len (m_bytes s)) ss) (b + 1) (m + 1) = len (flat_map m_bytes u).
Proof.
  intros ss b Hm H. unfold ss in *. rewrite concat_app in *. cbn [concat] in *.
  assert (Hb : N.to_nat b = length (concat g1)) by (unfold b; apply to_nat_len).
  rewrite nth_error_app2 in H by (unfold b, len in *; lia).
  rewrite nth_error_app1 in H by (unfold b, len in *; lia).
  exists (firstn (N.to_nat m - length (concat g1)) g), (skipn (S (N.to_nat m - length (concat g1))) g).
  split; [apply nth_error_split'; exact H|]. unfold size_between.
  replace (N.to_nat (b + 1 - 1)) with (length (concat g1)) by lia.
  replace (N.to_nat (m + 1 - (b + 1))) with (N.to_nat m - length (concat g1))%nat by lia.
  rewrite map_app, skipn_app, skipn_all2 by (rewrite map_length; lia). cbn [app]. rewrite map_length, Nat.sub_diag. cbn [skipn].
  rewrite firstn_map, sum_bytes. f_equal. f_equal. rewrite firstn_app.
  replace (N.to_nat m - length (concat g1) - length g)%nat with 0%nat by (unfold len in Hm; lia). rewrite firstn_O, app_nil_r. reflexivity.
Qed.

(* ------------------------------------------------------------------ *)
(* the invariant of one media                                          *)

Record minv (m : media) (t : track) (D : list N) : Prop := {
  v_stts : Rel (me_stts m) (map m_dur (t_smps t)) true;
  v_ctts : off_inv (me_ctts m) (map (fun s => u32_of (m_off s)) (t_smps t));
  v_hasoff : given_to (me_ctts m) = t_offs t;
  v_stss : syncs (me_stss m) (map m_sync (t_smps t));
  v_nosync : me_stss m <> None -> ~ Forall (fun s => m_sync s = true) (t_smps t);
  v_padb : pads (me_padb m) (map m_pad (t_smps t));
  v_haspad : given_to (me_padb m) = t_pads t;
  v_stsz : reps (me_stsz m) (map (fun s => len (m_bytes s)) (t_smps t));
  v_chunks : exists ch gs, stsc_inv (me_stsc m) (len (co_list (me_stco m)) + 1) ch /\
     concat gs = t_smps t /\ map fst ch = map (fun g => len g) gs /\ Forall2 (kept D) (co_list (me_stco m)) gs /\
     Forall (fun g => g <> []) gs /\ Forall (fun c => 1 <= snd c <= len (me_descs m)) ch;
  v_descs : Forall (fun d => 1 <= d <= me_drefs m) (me_descs m);
  v_desc : t_desc t = true -> me_descs m <> [];
  v_dur : duration (t_smps t) < 4294967296;
  v_range : Forall (fun s => m_dur s < 2147483648 /\ (-2147483648 <= m_off s < 2147483648)%Z) (t_smps t);
  v_bytes : len (flat_map m_bytes (t_smps t)) < 4294967296;
  v_count : len (t_smps t) < 536870911 }.

Lemma minv_new junk drefs : minv (media_new junk drefs) track0 [].
Proof.
  constructor; cbn [media_new me_stts me_ctts me_stss me_padb me_stsz me_stco me_stsc me_descs me_drefs track0 t_smps t_offs t_pads t_desc map].
  - constructor; try reflexivity; [constructor|intros E; discriminate|intros _ E; discriminate].
  - exists 0%nat. reflexivity.
  - reflexivity.
  - reflexivity.
  - congruence.
  - reflexivity.
  - reflexivity.
  - split; reflexivity.
  - exists [], []. split; [|repeat split; constructor].
    split; [|split; [reflexivity|split; [reflexivity|left; reflexivity]]]. cbn. repeat split; lia.
  - constructor.
  - discriminate.
  - reflexivity.
  - constructor.
  - reflexivity.
  - reflexivity.
Qed.
Lemma minv_grow m t D X : minv m t D -> minv m t (D ++ X).
Proof.
  intros []. constructor; try assumption. destruct v_chunks0 as (ch & gs & A & B & C & E & F & G).
  exists ch, gs. repeat (split; [assumption|]). split; [|auto]. clear -E. induction E; constructor; [apply kept_grow|]; assumption.
Qed.

Lemma duration_total ss : duration ss = total (map m_dur ss).
Proof. induction ss as [|s ss IH]; [reflexivity|]. cbn [duration map total fold_right] in *. unfold duration, total in IH. rewrite IH. reflexivity. Qed.
Lemma mdat_add_ok d x : len (md_data d) + len x < 9223372036854775808 -> exists d', mdat_add d x = Ok d' /\ md_data d' = md_data d ++ x.
Proof.
  intros H. unfold mdat_add. destruct (N.ltb_spec 0 (len x)) as [Hx|Hx].
  - assert (G : len (md_data d) + len x <= mdat_grow d (len x)).
    { unfold mdat_grow. assert (E : w64 (len (md_data d) + len x) = len (md_data d) + len x) by (unfold w64; apply N.mod_small; lia).
      rewrite E. destruct (N.ltb_spec (md_alloc d) (len (md_data d) + len x)); [|lia].
      assert (E2 : w64 (md_alloc d + 6291456) = md_alloc d + 6291456) by (unfold w64; apply N.mod_small; lia). rewrite E2.
      destruct (N.ltb_spec (md_alloc d + 6291456) (len (md_data d) + len x)); lia. }
    destruct (N.ltb_spec (mdat_grow d (len x)) (len (md_data d) + len x)); [lia|]. eexists. split; [reflexivity|]. reflexivity.
  - exists d. split; [reflexivity|]. rewrite (len_0 x) by lia. rewrite app_nil_r. reflexivity.
Qed.

Lemma Forall2_app2 {A B} (R : A -> B -> Prop) a b c d : Forall2 R a b -> Forall2 R c d -> Forall2 R (a ++ c) (b ++ d).
Proof. induction 1; intros H2; [exact H2|]. cbn [app]. constructor; auto. Qed.
Lemma Forall2_len {A B} (R : A -> B -> Prop) a b : Forall2 R a b -> len a = len b.
Proof. induction 1; lens; lia. Qed.
Lemma samples_groups ch gs : map fst ch = map (fun g : list smp => len g) gs -> samples ch = len (concat gs).
Proof.
  revert gs; induction ch as [|[s d] ch IH]; intros [|g gs] E; try discriminate; [reflexivity|]. cbn [map fst] in E. injection E as E1 E2.
  cbn [samples fold_right fst concat]. fold (samples ch). rewrite (IH _ E2). lens. lia.
Qed.

Lemma rev_last {A} (l : list A) : l <> [] -> exists a x, rev l = x :: a /\ In x l.
Proof.
  destruct l as [|x l] using rev_ind; [congruence|]. intros _. rewrite rev_app_distr. cbn [rev app].
  exists (rev l), x. split; [reflexivity|]. apply in_or_app. right. left. reflexivity.
Qed.
Lemma map_ne {A B} (f : A -> B) l : l <> [] -> map f l <> [].
Proof. destruct l; [congruence|discriminate]. Qed.
Lemma len_map {A B} (f : A -> B) l : len (map f l) = len l.
Proof. unfold len. rewrite map_length. reflexivity. Qed.

Lemma media_put_ok m D D' t ss b descs off :
  minv m t D -> (forall o g, kept D o g -> kept D' o g) -> kept D' off ss -> describes b ss ->
  (b_offs b <> None -> t_offs t = true \/ t_smps t = []) ->
  (b_sync b = None -> Forall (fun s => m_sync s = true) (t_smps t)) ->
  descs <> [] -> Forall (fun x => 1 <= x <= me_drefs m) descs -> len (me_descs m) <= len descs ->
  duration (t_smps t ++ ss) < 4294967296 -> len (t_smps t ++ ss) < 536870911 ->
  len (flat_map m_bytes (t_smps t ++ ss)) < 4294967296 ->
  exists m', media_put m descs off b = Ok m' /\ minv m' (tadd t ss b) D' /\ me_drefs m' = me_drefs m.
Proof.
  intros I Hkeep Hkept DS Hof Hsy Hd1 Hd2 Hd3 Hdu Hct Hby.
  destruct DS as [D1 D2 D3 D4 D5 D6 D7 D8 D9]. unfold media_put.
  assert (Hc : 1 <= b_count b). { rewrite D2. destruct ss; [congruence|lens; lia]. }
  rewrite flat_map_app in Hby. lens.
  (* stts *)
  destruct (per_batch _ _ (map_ne m_dur _ D1) D5) as [B1 B2]. rewrite ?len_map, <- D2 in B1, B2.
  pose proof (v_stts _ _ _ I) as [R1 R2 R3 R4].
  destruct (stts_add_ok (me_stts m) (b_count b) (b_durs b) B1 R2) as (st & A1 & A2 & A3 & A4 & A5).
  { rewrite R1, B2. lens. rewrite ?len_map. lia. }
  rewrite A1. cbn [bind].
  destruct (cache_front _ (st_entries st) R3 (R4 eq_refl) A4) as [C1 C2].
  assert (Hn : sz_count (me_stsz m) = len (t_smps t)) by (rewrite (proj1 (v_stsz _ _ _ I)); apply len_map).
  rewrite Hn.
  (* ctts *)
  assert (CT : exists ct, stbl_offsets (me_ctts m) (len (t_smps t)) (b_count b) (b_offs b) = Ok ct /\
     off_inv ct (map (fun s => u32_of (m_off s)) (t_smps t ++ ss)) /\ given_to ct = t_offs t || given_to (b_offs b)).
  { pose proof (v_ctts _ _ _ I) as V. pose proof (v_hasoff _ _ _ I) as W. rewrite map_app.
    destruct (b_offs b) as [l|] eqn:Eo.
    - assert (Hu : Forall (fun x => x < 4294967296) (map (fun s => u32_of (m_off s)) ss)).
      { apply Forall_forall. intros x Hx. apply in_map_iff in Hx. destruct Hx as (s & <- & _). unfold u32_of. lia. }
      destruct (per_offs l _ (map_ne _ _ D1) Hu D6) as [O1 O2]. rewrite ?len_map, <- D2 in O1, O2.
      destruct (offsets_run_ok [(b_count b, Some l)] (me_ctts m) _ V) as (ct & E & I').
      + constructor; [exact O1|constructor].
      + cbn [flat_map]. rewrite app_nil_r, O2, ?len_map. lia.
      + intros En. left. split; [|reflexivity]. rewrite En in W. destruct (Hof ltac:(discriminate)) as [X|X]; [cbn in W; congruence|].
        rewrite X. reflexivity.
      + cbn [offsets_run] in E. rewrite ?len_map in E.
        destruct (stbl_offsets (me_ctts m) (len (t_smps t)) (b_count b) (Some l)) as [ct'|e|] eqn:Es; try discriminate E.
        cbn [bind] in E. injection E as ->. exists ct. split; [reflexivity|]. split.
        * cbn [flat_map] in I'. rewrite app_nil_r, O2 in I'. exact I'.
        * cbn [given_to]. rewrite orb_true_r. unfold stbl_offsets in Es.
          destruct (ctts_addSamples _ _ _ _) as [c'|e|]; try discriminate Es. injection Es as <-. reflexivity.
    - exists (me_ctts m). split; [reflexivity|]. cbn [given_to]. rewrite orb_false_r. split; [|exact W].
      assert (Z0 : map (fun s => u32_of (m_off s)) ss = repeat 0 (length ss)).
      { clear -D6. induction D6 as [|s l Hs _ IH]; [reflexivity|]. cbn [map length repeat]. rewrite Hs, IH. reflexivity. }
      rewrite Z0. destruct (me_ctts m) as [c|]; cbn [off_inv] in *.
      + destruct V as (V1 & V2 & k & V3). split; [exact V1|]. split; [exact V2|]. exists (k + length ss)%nat.
        rewrite V3, <- app_assoc, repeat_app. reflexivity.
      + destruct V as [k ->]. exists (k + length ss)%nat. rewrite repeat_app. reflexivity. }
  destruct CT as (ct & CT1 & CT2 & CT3). rewrite CT1. cbn [bind].
  (* stss *)
  assert (SS : exists st', stbl_sync (me_stss m) (len (t_smps t)) (b_count b) (b_sync b) = Ok st' /\
     syncs st' (map m_sync (t_smps t ++ ss)) /\ (st' <> None -> ~ Forall (fun s => m_sync s = true) (t_smps t ++ ss))).
  { pose proof (v_stss _ _ _ I) as V. pose proof (v_nosync _ _ _ I) as W.
    assert (M : mbatch_ok (b_count b, b_sync b) /\ marks (b_count b, b_sync b) = map m_sync ss).
    { destruct (b_sync b) as [l|].
      - rewrite (named_positions ss 1) in D7. change (N.of_nat 1) with 1 in D7. rewrite D2.
        destruct (marks_named (map m_sync ss) (map_ne _ _ D1)) as [M1 M2]. rewrite ?len_map in M1, M2. subst l. auto.
      - split; [split; [exact Hc|exact Logic.I]|]. unfold marks; cbn [fst snd]. rewrite D2, to_nat_len. clear -D7.
        induction D7 as [|s l Hs _ IH]; [reflexivity|]. cbn [length repeat map]. rewrite Hs, IH. reflexivity. }
    destruct M as [M1 M2].
    destruct (sync_batch (me_stss m) (map m_sync (t_smps t)) (b_count b, b_sync b) V M1) as (st' & E & S1 & S2).
    - cbn [fst]. rewrite ?len_map. lia.
    - cbn [snd]. intros X Y. apply (W X). apply Hsy. exact Y.
    - rewrite ?len_map in E. cbn [fst snd] in E. exists st'. split; [exact E|]. rewrite map_app. rewrite M2 in S1. split; [exact S1|].
      intros X Y. apply Forall_app in Y. destruct Y as [Y1 Y2]. destruct (S2 X) as [Z|Z]; [exact (W Z Y1)|].
      unfold partial in Z. rewrite M2 in Z. apply negb_true_iff in Z. assert (forallb (fun x => x) (map m_sync ss) = true); [|congruence].
      apply forallb_forall. intros x Hx. apply in_map_iff in Hx. destruct Hx as (s & <- & Hs). rewrite Forall_forall in Y2. auto. }
  destruct SS as (st' & SS1 & SS2 & SS3). rewrite SS1. cbn [bind].
  (* padb *)
  assert (PP : exists pb, stbl_pads (me_padb m) (len (t_smps t)) (b_count b) (b_pads b) = Ok pb /\
     pads pb (map m_pad (t_smps t ++ ss)) /\ given_to pb = t_pads t || given_to (b_pads b)).
  { pose proof (v_padb _ _ _ I) as V. pose proof (v_haspad _ _ _ I) as W.
    assert (M : pbatch_ok (b_count b, b_pads b) /\ pads_of (b_count b, b_pads b) = map m_pad ss).
    { assert (Zp : Forall (fun s => m_pad s = 0) ss -> repeat 0 (N.to_nat (b_count b)) = map m_pad ss).
      { intros Z. rewrite D2, to_nat_len. clear -Z. induction Z as [|s l Hs _ IH]; [reflexivity|]. cbn [length repeat map]. rewrite Hs, IH. reflexivity. }
      destruct (b_pads b) as [[|x l]|].
      - split; [split; [exact Hc|exact Logic.I]|]. exact (Zp D8).
      - destruct (per_pads (x :: l) _ (map_ne m_pad _ D1) D8) as [P1 P2]. rewrite ?len_map, <- D2 in P1, P2. auto.
      - split; [split; [exact Hc|exact Logic.I]|]. exact (Zp D8). }
    destruct M as [M1 M2].
    destruct (pads_batch (me_padb m) _ (b_count b, b_pads b) V M1) as (pb & E & P1 & P2).
    - cbn [fst]. rewrite ?len_map. lia.
    - rewrite ?len_map in E. cbn [fst snd] in E. exists pb. split; [exact E|]. rewrite map_app. rewrite M2 in P1. split; [exact P1|].
      unfold has_pads in P2; cbn [snd] in P2. rewrite <- W. clear -P2. destruct P2 as [P2 P3].
      destruct pb as [pb|]; cbn [given_to].
      + destruct (me_padb m); [reflexivity|]. destruct (b_pads b); [reflexivity|]. discriminate (P3 (conj eq_refl eq_refl)).
      + destruct (P2 eq_refl) as [-> X]. destruct (b_pads b); [discriminate X|reflexivity]. }
  destruct PP as (pb & PP1 & PP2 & PP3). rewrite PP1. cbn [bind].
  (* stsz *)
  assert (Hsz : Forall (fun x => x < 4294967296) (map (fun s => len (m_bytes s)) ss)).
  { apply Forall_forall. intros x Hx. apply in_map_iff in Hx. destruct Hx as (s & <- & Hs).
    assert (len (m_bytes s) <= len (flat_map m_bytes ss)); [|lia]. clear -Hs. induction ss as [|s0 ss IH]; [destruct Hs|].
    cbn [flat_map]. lens. destruct Hs as [->|Hs]; [lia|]. specialize (IH Hs). lia. }
  destruct (per_sizes _ _ (map_ne _ _ D1) Hsz D4) as [Z1 Z2]. rewrite ?len_map, <- D2 in Z1, Z2.
  destruct (stsz_add_ok (me_stsz m) _ (b_count b) (b_sizes b) (v_stsz _ _ _ I) Z1) as (sz & E1 & E2).
  { rewrite ?len_map. lia. }
  rewrite E1. cbn [bind]. rewrite Z2, <- map_app in E2.
  (* stco *)
  destruct (v_chunks _ _ _ I) as (ch & gs & G1 & G2 & G3 & G4 & G5 & G6).
  assert (Hg : len (co_list (me_stco m)) <= len (t_smps t)).
  { rewrite (Forall2_len _ _ _ G4), <- G2. clear -G5. induction G5 as [|g gs Hg _ IH]; [reflexivity|]. cbn [concat]. lens.
    destruct g; [congruence|lens; lia]. }
  unfold stco_add. destruct (N.leb_spec 4294967296 (8 * (len (co_list (me_stco m)) + 1))); [lens; lia|]. cbn [bind co_list].
  eexists. split; [reflexivity|]. split; [|reflexivity]. constructor; cbn [me_stts me_ctts me_stss me_padb me_stsz me_stco me_stsc me_descs me_drefs tadd t_smps t_offs t_pads t_desc].
  - constructor; [rewrite A2, R1, map_app, B2; reflexivity|exact A3|rewrite A5; exact C1|]. intros _ Hfd. rewrite A5 in Hfd |- *. apply C2. exact Hfd.
  - exact CT2.
  - exact CT3.
  - exact SS2.
  - exact SS3.
  - exact PP2.
  - exact PP3.
  - exact E2.
  - exists (ch ++ [(b_count b, len descs)]), (gs ++ [ss]). cbn [co_list]. lens. split.
    { replace (len (co_list (me_stco m)) + (1 + 0) + 1) with (len (co_list (me_stco m)) + 1 + 1) by lia.
      replace (len (co_list (me_stco m)) + (1 + 0)) with (len (co_list (me_stco m)) + 1) by lia.
      pose proof (samples_groups _ _ G3) as Hs. rewrite G2 in Hs.
      assert (Hch : len ch = len (co_list (me_stco m))).
      { apply (f_equal (@length N)) in G3. rewrite !map_length in G3. rewrite (Forall2_len _ _ _ G4). unfold len. congruence. }
      apply stsc_inv_add; [exact G1|lia|lia|lia]. }
    split; [rewrite concat_app, G2; cbn [concat]; rewrite app_nil_r; reflexivity|].
    split; [rewrite !map_app, G3; cbn [map fst]; rewrite D2; reflexivity|].
    split.
    { apply Forall2_app2; [|constructor; [|constructor]].
      - clear -G4 Hkeep. induction G4; constructor; [apply Hkeep|]; assumption.
      - exact Hkept. }
    split; [apply Forall_app; split; [exact G5|repeat constructor; exact D1]|].
    apply Forall_app; split; [|repeat constructor; cbn [snd]; [destruct descs; [congruence|lens; lia]|lia]].
    eapply Forall_impl; [|exact G6]. cbn. intros; lia.
  - exact Hd2.
  - intros _. exact Hd1.
  - exact Hdu.
  - apply Forall_app. split; [exact (v_range _ _ _ I)|exact D9].
  - rewrite flat_map_app in *. lens. lia.
  - lens. lia.
Qed.

Lemma media_add_ok m d t ss b :
  minv m t (md_data d) -> describes b ss ->
  (b_offs b <> None -> t_offs t = true \/ t_smps t = []) ->
  (b_sync b = None -> Forall (fun s => m_sync s = true) (t_smps t)) ->
  (t_desc t = true \/ b_entry b <> None) ->
  match b_entry b with Some x => 1 <= x <= me_drefs m | None => True end ->
  duration (t_smps t ++ ss) < 4294967296 -> len (t_smps t ++ ss) < 536870911 ->
  len (md_data d) + len (flat_map m_bytes ss) < 4294967296 ->
  len (flat_map m_bytes (t_smps t ++ ss)) < 4294967296 ->
  exists m' d', media_add m d b = Ok (m', d') /\ md_data d' = md_data d ++ flat_map m_bytes ss /\
    minv m' (tadd t ss b) (md_data d') /\ me_drefs m' = me_drefs m.
Proof.
  intros I DS Hof Hsy Hde Hen Hdu Hct Hda Hby. unfold media_add.
  assert (Hc : 1 <= b_count b). { rewrite (d_count _ _ DS). pose proof (d_some _ _ DS). destruct ss; [congruence|lens; lia]. }
  destruct (N.ltb_spec 0 (b_count b)); [|lia].
  remember (match b_entry b with Some x => me_descs m ++ [x] | None => me_descs m end) as descs eqn:Ed.
  assert (Hdesc : descs <> [] /\ Forall (fun x => 1 <= x <= me_drefs m) descs /\ len (me_descs m) <= len descs).
  { subst descs. pose proof (v_descs _ _ _ I) as V. destruct (b_entry b) as [x|].
    - split; [destruct (me_descs m); discriminate|]. split; [apply Forall_app; split; [exact V|repeat constructor; lia]|lens; lia].
    - split; [|split; [exact V|lia]]. destruct Hde as [Hde|Hde]; [apply (v_desc _ _ _ I Hde)|congruence]. }
  destruct Hdesc as (Hd1 & Hd2 & Hd3).
  destruct (rev_last descs Hd1) as (rs & dri & Er & Hin). rewrite Er.
  assert (Hdri : 1 <= dri <= me_drefs m). { rewrite Forall_forall in Hd2. apply Hd2. exact Hin. }
  destruct (N.eqb_spec dri 0); [lia|]. destruct (N.ltb_spec (me_drefs m) dri); [lia|]. cbn [orb].
  destruct (mdat_add_ok d (b_data b)) as (d' & F1 & F2). { rewrite (d_data _ _ DS). lia. }
  rewrite (d_data _ _ DS) in F2.
  destruct (media_put_ok m (md_data d) (md_data d') t ss b descs (len (md_data d)) I) as (m' & E & I' & Dr); try assumption.
  { intros o g K. rewrite F2. apply kept_grow. exact K. }
  { rewrite F2. split; [lens; lia|apply slice_end]. }
  rewrite E. cbn [bind]. rewrite F1. cbn [bind]. exists m', d'. auto.
Qed.

(* what both ways of asking have in common *)
Lemma nth_of {A B} (f : A -> B) l i x y : nth_error l i = Some x -> nth i (map f l) y = f x.
Proof. intros H. apply nth_error_nth. rewrite nth_error_map, H. reflexivity. Qed.

Lemma media_locate m d t n s :
  minv m t (md_data d) -> len (md_data d) < 4294967296 -> 1 <= n -> nth_error (t_smps t) (N.to_nat (n - 1)) = Some s ->
  exists c desc fs sc o off,
    stsc_lookup (me_stsc m) n = Ok ((c, desc, Some fs), sc) /\
    minv (mkMedia (me_stts m) (me_ctts m) (me_stss m) (me_padb m) (me_stsz m) (me_stco m) sc (me_descs m) (me_drefs m)) t (md_data d) /\
    stsz_get_off (me_stsz m) n fs = Ok (len (m_bytes s), o) /\
    reported_pad (me_padb m) n = Ok (if t_pads t then m_pad s else 248) /\
    stco_get (me_stco m) c = Ok off /\ media_open m desc = Ok tt /\
    off + o + len (m_bytes s) <= len (md_data d) /\ slice (md_data d) (off + o) (len (m_bytes s)) = m_bytes s /\
    reported_sync (me_stss m) n = Ok (m_sync s) /\ comp_offset (me_ctts m) n = m_off s /\ given_to (me_ctts m) = t_offs t.
Proof.
  intros I Hd Hn1 Hs. pose proof I as I0.
  assert (Hn : 1 <= n <= len (t_smps t)).
  { split; [exact Hn1|]. assert (N.to_nat (n - 1) < length (t_smps t))%nat by (apply nth_error_Some; congruence). unfold len. lia. }
  pose proof (v_count _ _ _ I) as Hct.
  destruct (v_chunks _ _ _ I) as (ch & gs & G1 & G2 & G3 & G4 & G5 & G6).
  assert (Hch : ch <> []).
  { intros ->. destruct gs; [|discriminate]. cbn in G2. rewrite <- G2 in Hn. change (len (@nil smp)) with 0 in Hn. lia. }
  destruct (stsc_inv_lookup _ _ _ n G1 ltac:(lia) Hch) as (c & desc & fs & sc & L1 & L2 & L3).
  destruct L3 as [(d0 & L3) L4]. { rewrite (samples_groups _ _ G3), G2. lia. }
  unfold chunk_of_sample in L3. destruct (locate ch (n - 1)) as [[[j b] d1]|] eqn:El; [|discriminate]. injection L3 as <- <- ->.
  destruct (locate_groups _ _ _ _ _ _ G3 El) as (g1 & g & g2 & -> & Hj & -> & Hr).
  rewrite <- G2 in Hs. destruct (in_groups g1 g2 g (n - 1) s Hr Hs) as (u & v & Eg & Hsz). rewrite G2 in Hs, Hsz.
  replace (n - 1 + 1) with n in Hsz by lia.
  apply Forall2_app_inv_r in G4. destruct G4 as (o1 & o2 & Q1 & Q2 & Q3). inversion Q2 as [|off ? o3 ? Q4 Q5 E1 E2]; subst o2. clear Q2.
  assert (Hsum : len (flat_map m_bytes u) + len (m_bytes s) <= len (flat_map m_bytes g)).
  { rewrite Eg, flat_map_app. cbn [flat_map]. lens. lia. }
  destruct Q4 as [K1 K2].
  exists (j + 1), desc, (len (concat g1) + 1), sc, (len (flat_map m_bytes u)), off.
  split; [exact L1|]. split.
  { destruct I. constructor; cbn [me_stts me_ctts me_stss me_padb me_stsz me_stco me_stsc me_descs me_drefs] in *; try assumption.
    destruct v_chunks0 as (ch' & gs' & G1' & X). exists ch', gs'. split; [|exact X].
    destruct G1 as (_ & Ech & _). destruct G1' as (_ & Ech' & _). rewrite Ech in Ech'. subst ch'. exact L2. }
  split.
  { rewrite (stsz_get_off_ok _ _ n (len (concat g1) + 1) (v_stsz _ _ _ I)) by (rewrite ?len_map; lia).
    rewrite (nth_of _ _ _ _ _ Hs). rewrite Hsz, w32_small by lia. reflexivity. }
  split.
  { pose proof (v_padb _ _ _ I) as V. pose proof (v_haspad _ _ _ I) as W. rewrite <- W. destruct (me_padb m) as [pb|]; [|reflexivity].
    cbn [pads reported_pad given_to] in *. unfold padb_get. rewrite V, len_map. destruct (N.ltb_spec (len (t_smps t)) n); [lia|].
    destruct (N.eqb_spec n 0); [lia|]. cbn [orb]. rewrite nth_error_map, Hs. reflexivity. }
  split.
  { unfold stco_get. rewrite Q3. assert (Hj2 : len o1 = j) by (rewrite (Forall2_len _ _ _ Q1); exact Hj).
    destruct (N.eqb_spec (j + 1) 0); [lia|]. destruct (N.ltb_spec (len (o1 ++ off :: o3)) (j + 1)); [lens; lia|]. cbn [orb].
    rewrite nth_error_app2 by (unfold len in Hj2; lia). replace (N.to_nat (j + 1 - 1) - length o1)%nat with 0%nat by (unfold len in Hj2; lia). reflexivity. }
  split.
  { assert (Hde : 1 <= desc <= len (me_descs m)).
    { unfold description_of_sample in L4. destruct (locate ch ((if n =? 1 then 1 else n - 1) - 1)) as [[[j' b'] d']|] eqn:El'; [|discriminate]. injection L4 as ->.
      rewrite Forall_forall in G6. assert (Hin : exists c0, In c0 ch /\ snd c0 = desc).
      { clear -El'. revert El'. generalize ((if n =? 1 then 1 else n - 1) - 1) as q. revert j' b'. induction ch as [|[s0 d0] ch IH]; intros j' b' q H; [discriminate|].
        cbn [locate] in H. destruct (q <? s0).
        - injection H as <- <- <-. exists (s0, d0). split; [left; reflexivity|reflexivity].
        - destruct (locate ch (q - s0)) as [[[j1 b1] d1]|] eqn:E; [|discriminate]. injection H as <- <- <-.
          destruct (IH _ _ _ E) as (c0 & X & Y). exists c0. split; [right; exact X|exact Y]. }
      destruct Hin as (c0 & X & <-). apply G6. exact X. }
    unfold media_open. destruct (N.eqb_spec desc 0); [lia|]. destruct (N.ltb_spec (len (me_descs m)) desc); [lia|]. cbn [orb].
    destruct (nth_error (me_descs m) (N.to_nat (desc - 1))) as [dri|] eqn:En.
    - pose proof (v_descs _ _ _ I) as V. rewrite Forall_forall in V. apply nth_error_In in En. specialize (V _ En).
      destruct (N.eqb_spec dri 0); [lia|]. destruct (N.ltb_spec (me_drefs m) dri); [lia|]. reflexivity.
    - apply nth_error_None in En. unfold len in Hde. lia. }
  split; [lia|]. split.
  { rewrite Eg, flat_map_app in K2. cbn [flat_map] in K2. apply slice_mid in K2. exact K2. }
  split. { rewrite (reported_ok _ _ n (v_stss _ _ _ I)) by (rewrite len_map; exact Hn). rewrite (nth_of _ _ _ _ _ Hs). reflexivity. }
  split.
  { rewrite (comp_offset_ok _ _ n (v_ctts _ _ _ I)) by (rewrite ?len_map; lia). rewrite (nth_of _ _ _ _ _ Hs). apply s32_u32.
    pose proof (v_range _ _ _ I) as V. rewrite Forall_forall in V. apply nth_error_In in Hs. destruct (V _ Hs) as [_ V2]. exact V2. }
  exact (v_hasoff _ _ _ I).
Qed.

Lemma mdat_copy_ok d o n : 0 < n -> o + n <= len (md_data d) -> len (md_data d) < 4294967296 -> mdat_copy d o n = Ok (slice (md_data d) o n).
Proof.
  intros H1 H2 H3. unfold mdat_copy. destruct (N.eqb_spec (len (md_data d)) 0); [lia|].
  assert (E : w64 (o + n) = o + n) by (unfold w64; apply N.mod_small; lia). rewrite E.
  destruct (N.ltb_spec (len (md_data d)) (o + n)); [lia|]. cbn [orb]. rewrite shiftr32. destruct (N.ltb_spec o 4294967296); [|lia]. cbn [negb].
  reflexivity.
Qed.

Lemma media_get_ok m d t n :
  minv m t (md_data d) -> len (md_data d) < 4294967296 -> 1 <= n <= len (t_smps t) ->
  exists i desc m', media_get m d n = (Ok (i, desc), m') /\ answer t n = Some i /\ minv m' t (md_data d) /\ me_drefs m' = me_drefs m.
Proof.
  intros I Hd Hn. destruct (nth_error (t_smps t) (N.to_nat (n - 1))) as [s|] eqn:Hs;
    [|apply nth_error_None in Hs; unfold len in Hn; lia].
  pose proof (v_count _ _ _ I) as Hct. pose proof (v_dur _ _ _ I) as Hdu. rewrite duration_total in Hdu.
  pose proof (v_stts _ _ _ I) as [R1 R2 R3 R4].
  destruct (stts_time_ok (me_stts m) n) as (st & A1 & A2 & A3 & A4 & _).
  { split; [apply total_products; rewrite R1; assumption|]. rewrite R1, len_map. lia. }
  { pose proof (len_le_expand _ R2) as X. rewrite R1, len_map in X. lia. }
  { exact R3. } { lia. }
  destruct (media_locate m d t n s I Hd ltac:(lia) Hs) as (c & desc & fs & sc & o & off & L1 & L2 & L3 & L4 & L5 & L6 & L7 & L8 & L9 & L10 & L11).
  unfold media_get. rewrite A1. rewrite R1 in *.
  assert (Ed : dur (map m_dur (t_smps t)) n = Some (m_dur s)) by (unfold dur; rewrite nth_error_map, Hs; reflexivity).
  rewrite Ed, L1, L3. cbn [bind fst snd]. rewrite L4. cbn [bind]. rewrite L5. cbn [bind]. rewrite L6. cbn [bind].
  assert (Eb : (if 0 <? len (m_bytes s) then mdat_copy d (w64 (off + o)) (len (m_bytes s)) else Ok []) = Ok (m_bytes s)).
  { destruct (N.ltb_spec 0 (len (m_bytes s))) as [X|X].
    - replace (w64 (off + o)) with (off + o) by (unfold w64; symmetry; apply N.mod_small; lia).
      rewrite mdat_copy_ok by (lia || exact L7). rewrite L8. reflexivity.
    - rewrite (len_0 (m_bytes s)) by lia. reflexivity. }
  rewrite Eb. cbn [bind]. rewrite L9. cbn [bind]. do 3 eexists. split; [reflexivity|]. split.
  { unfold answer. rewrite Hs. do 2 f_equal; [|symmetry; exact L10| |symmetry; exact L11].
    - unfold dts. rewrite firstn_map. symmetry. rewrite duration_total. reflexivity.
    - pose proof (v_range _ _ _ I) as V. rewrite Forall_forall in V. apply nth_error_In in Hs. destruct (V _ Hs) as [V1 _].
      unfold u64_dur. rewrite s32_small by exact V1. unfold u64_of. lia. }
  split; [|reflexivity].
  destruct L2. constructor; cbn [me_stts me_ctts me_stss me_padb me_stsz me_stco me_stsc me_descs me_drefs] in *; try assumption.
  constructor; [rewrite A2; exact R1|rewrite A2; exact R2|exact A3|]. intros _ _. apply A4. rewrite len_map. lia.
Qed.

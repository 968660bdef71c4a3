(* MergeProps.v -- C44: several media data boxes. *)
From Verif Require Import Base Codec BitLemmas StreamProofs ChunkSpec ChunkModel ChunkProofs SaveSpec SaveModel SaveProofs MdatModel SaveProps.

(* media data boxes in file order, not overlapping, in the first 2 GiB *)
Fixpoint spaced (from : N) (ms : list (N * mdat)) : Prop :=
  match ms with
  | [] => True
  | (a, m) :: r => from <= a /\ a + len (md_data m) < 2147483648 /\ len (md_data m) <= md_alloc m <= len (md_data m) + 6291456 /\
      spaced (a + len (md_data m)) r
  end.
(* where byte x of the file goes when the boxes are put one after the other,
   [cur] bytes already there *)
Fixpoint placed (cur : N) (ms : list (N * mdat)) (x : N) : option N :=
  match ms with
  | [] => None
  | (a, m) :: r =>
      if (a <=? x) && (x <? a + len (md_data m)) then Some (x - a + cur)
      else placed (cur + len (md_data m)) r x
  end.
Definition joined (ms : list (N * mdat)) : list N := flat_map (fun p => md_data (snd p)) ms.

(* every own chunk starts in one of the boxes *)
Definition trk_placed (own : N -> bool) (ms : list (N * mdat)) (k : trk) : Prop :=
  Forall (fun p => own (snd (fst p)) = true -> placed 0 ms (snd p) <> None) (combine (trk_chunks k) (co_list (tk_offs k))).
(* the offsets wanted afterwards *)
Definition trk_replace (own : N -> bool) (ms : list (N * mdat)) (k : trk) : trk :=
  mkTrk (tk_runs k) (mkStco (co_ver (tk_offs k)) (co_flags (tk_offs k))
    (map (fun p => if own (snd (fst p)) then match placed 0 ms (snd p) with Some y => y | None => snd p end else snd p)
       (combine (trk_chunks k) (co_list (tk_offs k))))) (tk_self k) (tk_saio k).

(* a track whose offsets were rewritten chunk by chunk *)
Definition remap (own : N -> bool) (f : N -> N) (k : trk) : trk :=
  mkTrk (tk_runs k) (mkStco (co_ver (tk_offs k)) (co_flags (tk_offs k))
    (map (fun p => if own (snd (fst p)) then f (snd p) else snd p) (combine (trk_chunks k) (co_list (tk_offs k))))) (tk_self k) (tk_saio k).
Lemma remap_chunks own f k : trk_ok own k -> trk_chunks (remap own f k) = trk_chunks k.
Proof.
  intros H. pose proof (trk_len own k H) as L. unfold remap, trk_chunks at 1. cbn [tk_runs tk_offs co_list].
  unfold len. rewrite map_length, combine_length. replace (Nat.min _ _) with (length (co_list (tk_offs k))) by lia. reflexivity.
Qed.
Lemma remap_ok own f k : trk_ok own k -> trk_ok own (remap own f k).
Proof.
  intros H. pose proof (trk_len own k H) as L. destruct H as (A & B). split; [|exact B].
  unfold remap. cbn [tk_runs tk_offs co_list]. unfold len. rewrite map_length, combine_length.
  replace (Nat.min _ _) with (length (co_list (tk_offs k))) by lia. exact A.
Qed.
Lemma combine_map_again (own : N -> bool) (f g : N -> N) (ch : list chunk) : forall l, length ch = length l ->
  map (fun p => if own (snd (fst p)) then g (snd p) else snd p)
    (combine ch (map (fun p => if own (snd (fst p)) then f (snd p) else snd p) (combine ch l))) =
  map (fun p => if own (snd (fst p)) then g (f (snd p)) else snd p) (combine ch l).
Proof.
  induction ch as [|[s d] ch IH]; intros [|x l] H; try discriminate; [reflexivity|]. cbn [combine map fst snd]. f_equal.
  - destruct (own d); reflexivity.
  - apply IH. cbn in H. lia.
Qed.
Lemma remap_remap own f g k : trk_ok own k -> remap own g (remap own f k) = remap own (fun x => g (f x)) k.
Proof.
  intros H. unfold remap at 1. rewrite remap_chunks by exact H. unfold remap. cbn [tk_runs tk_offs tk_self tk_saio co_ver co_flags co_list].
  rewrite combine_map_again by apply (trk_len own k H). reflexivity.
Qed.
Lemma moov_moved_remap own lo hi off ks : Forall (trk_ok own) ks ->
  moov_moved lo hi off ks = Ok (map (remap own (move1 lo hi off)) ks).
Proof.
  induction 1 as [|k ks Hk _ IH]; [reflexivity|]. cbn [moov_moved map]. rewrite (trk_moved_ok own) by exact Hk. cbn [bind].
  rewrite IH. reflexivity.
Qed.

(* one chunk *)
Fixpoint chase (cur : N) (ms : list (N * mdat)) (x : N) : N :=
  match ms with
  | [] => x
  | (a, m) :: r => chase (cur + len (md_data m)) r (move1 a (a + len (md_data m)) (Z.of_N cur - Z.of_N a) x)
  end.
Lemma chase_rest ms : forall cur from x, x < cur -> cur <= from -> spaced from ms -> chase cur ms x = x.
Proof.
  induction ms as [|[a m] ms IH]; intros cur from x Hx Hc Hs; [reflexivity|]. cbn [chase]. destruct Hs as (H1 & H2 & _ & H3).
  unfold move1. destruct (N.leb_spec a x); [lia|]. cbn [andb]. apply (IH _ (a + len (md_data m))); [lia|lia|exact H3].
Qed.
Lemma chase_placed ms : forall cur from x y, cur <= from -> spaced from ms -> placed cur ms x = Some y -> chase cur ms x = y.
Proof.
  induction ms as [|[a m] ms IH]; intros cur from x y Hc Hs H; [discriminate|]. cbn [chase placed] in *. destruct Hs as (H1 & H2 & _ & H3).
  unfold move1. destruct ((a <=? x) && (x <? a + len (md_data m))) eqn:E.
  - injection H as <-. apply andb_true_iff in E. destruct E as [E1 E2]. apply N.leb_le in E1. apply N.ltb_lt in E2.
    replace (u64_of (Z.of_N x + (Z.of_N cur - Z.of_N a))) with (x - a + cur) by (unfold u64_of; rewrite Z.mod_small by lia; lia).
    apply (chase_rest _ _ (a + len (md_data m))); [lia|lia|exact H3].
  - apply (IH _ (a + len (md_data m))); [lia|exact H3|exact H].
Qed.

Lemma s32_diff cur a : cur <= a -> a < 2147483648 -> s32_of (w32 (sub64 cur a)) = (Z.of_N cur - Z.of_N a)%Z.
Proof.
  intros H1 H2. unfold sub64, w64. rewrite (N.mod_small a) by lia. unfold s32_of, w32.
  destruct (N.eq_dec cur a) as [->|Hn].
  - replace (a + 18446744073709551616 - a) with 18446744073709551616 by lia. cbn. rewrite Z.sub_diag. reflexivity.
  - rewrite (N.mod_small (cur + 18446744073709551616 - a)) by lia.
    replace ((cur + 18446744073709551616 - a) mod 4294967296) with (cur + 4294967296 - a).
    + destruct (N.ltb_spec (cur + 4294967296 - a) 2147483648); lia.
    + apply N.mod_unique with (q := 4294967295); lia.
Qed.
Lemma merge_more_ok own ms : forall m ks from,
  Forall (trk_ok own) ks -> len (md_data m) <= from -> spaced from ms -> from < 2147483648 ->
  len (md_data m) <= md_alloc m <= len (md_data m) + 6291456 ->
  exists m', merge_more m ms ks = Ok (m', map (remap own (chase (len (md_data m)) ms)) ks) /\ md_data m' = md_data m ++ joined ms.
Proof.
  induction ms as [|[a o] ms IH]; intros m ks from Hk Hm Hs Hf Ha.
  - exists m. split; [|cbn; rewrite app_nil_r; reflexivity]. cbn [merge_more]. do 2 f_equal.
    rewrite <- (map_id ks) at 1. apply map_ext_in. intros k Hin. rewrite Forall_forall in Hk. specialize (Hk _ Hin).
    pose proof (trk_len own k Hk) as L. unfold remap. cbn [chase]. destruct k as [es [v f l] sf n]. cbn [tk_runs tk_offs tk_self tk_saio co_ver co_flags co_list] in *.
    do 2 f_equal. unfold trk_chunks in *. cbn [tk_runs tk_offs co_list] in *. clear -L. revert L. generalize (chunks_of es (len l + 1)) as ch.
    induction l as [|x l IH]; intros [|[s d] ch] L; try discriminate; [reflexivity|]. cbn [combine map fst snd]. f_equal; [destruct (own d); reflexivity|].
    apply IH. cbn in L. lia.
  - destruct Hs as (H1 & H2 & Ho & H3). cbn [merge_more].
    rewrite (w32_small a) by lia. replace (w64 (len (md_data o) + a)) with (a + len (md_data o)) by (unfold w64; rewrite N.mod_small by lia; lia).
    rewrite s32_diff by lia. rewrite (moov_moved_remap own) by exact Hk. cbn [bind].
    unfold mdat_merge. unfold w64. rewrite N.mod_small by lia. rewrite shiftr32. destruct (N.ltb_spec (len (md_data o) + len (md_data m)) 4294967296); [|lia]. cbn [negb].
    assert (Em : exists m1, mdat_add m (md_data o) = Ok m1 /\ md_data m1 = md_data m ++ md_data o /\
        len (md_data m1) <= md_alloc m1 <= len (md_data m1) + 6291456).
    { unfold mdat_add. destruct (N.ltb_spec 0 (len (md_data o))) as [Hb|Hb].
      - set (al := mdat_grow m (len (md_data o))).
        assert (Hg : len (md_data m) + len (md_data o) <= al <= len (md_data m) + len (md_data o) + 6291456).
        { unfold al, mdat_grow, w64. rewrite !N.mod_small by lia.
          destruct (N.ltb_spec (md_alloc m) (len (md_data m) + len (md_data o))); [|lia].
          destruct (N.ltb_spec (md_alloc m + 6291456) (len (md_data m) + len (md_data o))); lia. }
        destruct (N.ltb_spec al (len (md_data m) + len (md_data o))); [lia|]. eexists. split; [reflexivity|]. cbn [md_data md_alloc].
        split; [reflexivity|]. rewrite len_app. lia.
      - assert (md_data o = []) as E by (destruct (md_data o); [reflexivity|rewrite len_cons in Hb; lia]). rewrite E, app_nil_r. eauto. }
    destruct Em as (m1 & -> & Ed & Hal). cbn [bind].
    destruct (IH m1 (map (remap own (move1 a (a + len (md_data o)) (Z.of_N (len (md_data m)) - Z.of_N a))) ks) (a + len (md_data o)))
      as (m' & E & Ej).
    + apply Forall_forall. intros k' Hin. apply in_map_iff in Hin. destruct Hin as (k & <- & Hin). apply remap_ok. rewrite Forall_forall in Hk. auto.
    + rewrite Ed, len_app. lia.
    + exact H3.
    + lia.
    + exact Hal.
    + exists m'. split.
      * rewrite E. do 2 f_equal. rewrite map_map. apply map_ext_in. intros k Hin. rewrite Forall_forall in Hk.
        rewrite remap_remap by auto. rewrite Ed, len_app. reflexivity.
      * rewrite Ej, Ed. cbn [joined flat_map snd]. rewrite <- app_assoc. reflexivity.
Qed.

Theorem C44_media_data_merged :
  forall own ms ks, ms <> [] -> spaced 0 ms -> Forall (trk_ok own) ks -> Forall (trk_placed own ms) ks ->
  exists m, merge_data ms ks = Ok (m, map (trk_replace own ms) ks) /\ md_data m = joined ms.
Proof.
  intros own ms ks Hne Hs Hk Hp. destruct ms as [|[a m] ms]; [congruence|]. cbn [merge_data]. pose proof Hs as Hs0. destruct Hs as (H1 & H2 & Ha & H3).
  unfold open_tables. rewrite (w32_small a) by lia. unfold neg_s32.
  assert (Es : s32_of a = Z.of_N a) by (unfold s32_of; destruct (N.ltb_spec a 2147483648); lia). rewrite Es.
  destruct (Z.eqb_spec (Z.of_N a) (-2147483648)); [lia|]. cbn [bind].
  replace (w64 (len (md_data m) + a)) with (a + len (md_data m)) by (unfold w64; rewrite N.mod_small by lia; lia).
  rewrite (moov_moved_remap own) by exact Hk. cbn [bind].
  destruct (merge_more_ok own ms m (map (remap own (move1 a (a + len (md_data m)) (- Z.of_N a))) ks) (a + len (md_data m)))
    as (m' & E & Ej); [|lia|exact H3|lia|exact Ha|].
  { apply Forall_forall. intros k' Hin. apply in_map_iff in Hin. destruct Hin as (k & <- & Hin). apply remap_ok. rewrite Forall_forall in Hk. auto. }
  exists m'. split; [|exact Ej]. rewrite E. do 2 f_equal. rewrite map_map. apply map_ext_in. intros k Hin.
  rewrite Forall_forall in Hk, Hp. specialize (Hk _ Hin). specialize (Hp _ Hin). rewrite remap_remap by exact Hk.
  unfold remap, trk_replace. do 2 f_equal. apply map_ext_in. intros [[s d] x] Hx. cbn [fst snd]. destruct (own d) eqn:Eo; [|reflexivity].
  unfold trk_placed in Hp. rewrite Forall_forall in Hp. specialize (Hp _ Hx). cbn [fst snd] in Hp. specialize (Hp Eo).
  destruct (placed 0 ((a, m) :: ms) x) as [y|] eqn:Ey; [|congruence].
  pose proof (chase_placed _ 0 0 x y ltac:(lia) Hs0 Ey) as C. cbn [chase] in C. rewrite N.add_0_l in C.
  replace (Z.of_N 0 - Z.of_N a)%Z with (- Z.of_N a)%Z in C by lia. exact C.
Qed.
Print Assumptions C44_media_data_merged.

(* The new offset designates the same bytes: for a file whose boxes hold the
   bytes found there. *)
Lemma slice_app_r {A} (a b : list A) o n : len a <= o -> firstn (N.to_nat n) (skipn (N.to_nat o) (a ++ b)) = firstn (N.to_nat n) (skipn (N.to_nat (o - len a)) b).
Proof.
  intros H. rewrite skipn_app, skipn_all2 by (unfold len in H; lia). cbn [app]. do 2 f_equal. unfold len in *. lia.
Qed.
Lemma skipn_skipn {A} (i : nat) : forall (j : nat) (l : list A), skipn i (skipn j l) = skipn (j + i) l.
Proof.
  induction j as [|j IH]; intros l; [reflexivity|]. destruct l as [|x l]; [rewrite !skipn_nil; reflexivity|]. cbn [skipn Nat.add]. apply IH.
Qed.
Lemma spaced_le ms : forall from p, spaced from ms -> In p ms -> from <= fst p.
Proof.
  induction ms as [|[a m] ms IH]; intros from p Hs Hi; [destruct Hi|]. destruct Hs as (H1 & H2 & _ & H3).
  destruct Hi as [<-|Hi]; [exact H1|]. specialize (IH _ _ H3 Hi). lia.
Qed.
Lemma spaced_unique ms : forall from p q x, spaced from ms -> In p ms -> In q ms ->
  fst p <= x < fst p + len (md_data (snd p)) -> fst q <= x < fst q + len (md_data (snd q)) -> q = p.
Proof.
  induction ms as [|[a m] ms IH]; intros from p q x Hs Hp Hq H1 H2; [destruct Hp|]. destruct Hs as (_ & _ & _ & H3).
  destruct Hp as [<-|Hp], Hq as [<-|Hq]; cbn [fst snd] in *.
  - reflexivity.
  - pose proof (spaced_le _ _ _ H3 Hq). lia.
  - pose proof (spaced_le _ _ _ H3 Hp). lia.
  - eapply IH; eauto.
Qed.
Lemma placed_some ms : forall cur p x, In p ms -> fst p <= x < fst p + len (md_data (snd p)) -> exists y, placed cur ms x = Some y.
Proof.
  induction ms as [|[a m] ms IH]; intros cur p x Hp Hx; [destruct Hp|]. cbn [placed].
  destruct ((a <=? x) && (x <? a + len (md_data m))) eqn:E; [eauto|].
  destruct Hp as [<-|Hp]; [|eapply IH; eauto]. cbn [fst snd] in Hx.
  destruct (N.leb_spec a x); [|lia]. destruct (N.ltb_spec x (a + len (md_data m))); [discriminate|lia].
Qed.
Theorem C44_same_bytes :
  forall file ms, spaced 0 ms -> Forall (fun p => slice file (fst p) (len (md_data (snd p))) = md_data (snd p)) ms ->
  forall x n p, In p ms -> fst p <= x -> 0 < n -> x + n <= fst p + len (md_data (snd p)) ->
  exists y, placed 0 ms x = Some y /\ slice (joined ms) y n = slice file x n.
Proof.
  intros file ms Hs Hf x n p Hin Hx1 Hn Hx2.
  destruct (placed_some ms 0 p x Hin ltac:(lia)) as (y & Hy). exists y. split; [exact Hy|].
  assert (Hu : forall q, In q ms -> fst q <= x < fst q + len (md_data (snd q)) -> q = p).
  { intros q Hq Hqx. apply (spaced_unique ms 0 p q x Hs Hin Hq); lia. }
  assert (G : forall pre post, ms = pre ++ post -> placed (len (joined pre)) post x = Some y -> In p post -> slice (joined ms) y n = slice file x n).
  { intros pre post. revert pre. induction post as [|[a m] post IH]; intros pre E Hp Hi; [destruct Hi|].
    cbn [placed] in Hp. destruct ((a <=? x) && (x <? a + len (md_data m))) eqn:Ec.
    - injection Hp as <-. apply andb_true_iff in Ec. destruct Ec as [E1 E2]. apply N.leb_le in E1. apply N.ltb_lt in E2.
      assert (Ep : (a, m) = p) by (apply Hu; [rewrite E; apply in_or_app; right; left; reflexivity|cbn [fst snd]; lia]). subst p. cbn [fst snd] in *.
      rewrite Forall_forall in Hf. specialize (Hf _ Hin). cbn [fst snd] in Hf.
      rewrite E. unfold joined. rewrite flat_map_app. cbn [flat_map snd]. fold (joined pre) (joined post).
      unfold slice. rewrite slice_app_r by lia. replace (x - a + len (joined pre) - len (joined pre)) with (x - a) by lia.
      rewrite <- Hf at 1. unfold slice. rewrite skipn_app, firstn_app.
      assert (Hlen : length (firstn (N.to_nat (len (md_data m))) (skipn (N.to_nat a) file)) = N.to_nat (len (md_data m))).
      { fold (slice file a (len (md_data m))). rewrite Hf. unfold len. lia. }
      rewrite skipn_length, Hlen.
      replace (N.to_nat n - (N.to_nat (len (md_data m)) - N.to_nat (x - a)))%nat with 0%nat by lia. rewrite firstn_O, app_nil_r.
      rewrite skipn_firstn_comm, skipn_skipn, firstn_firstn. f_equal; [lia|]. f_equal. lia.
    - destruct Hi as [Hi|Hi].
      + subst p. cbn [fst snd] in *. destruct (N.leb_spec a x); [|lia]. destruct (N.ltb_spec x (a + len (md_data m))); [|lia]. discriminate.
      + apply (IH (pre ++ [(a, m)])); [rewrite <- app_assoc; exact E| |exact Hi].
        unfold joined. rewrite flat_map_app. cbn [flat_map snd]. rewrite app_nil_r, len_app. exact Hp. }
  apply (G [] ms eq_refl Hy Hin).
Qed.
Print Assumptions C44_same_bytes.
Definition ex_ms : list (N * mdat) := [(20, mkMdat [1; 2; 3] 3); (31, mkMdat [4; 5; 6; 7] 4)].
Example C44_case : spaced 0 ex_ms /\ trk_ok (fun _ => true) (mkTrk [(1, 1, 1)] (mkStco 0 0 [21; 33; 20]) (fun _ => Ok true) 0) /\
  match merge_data ex_ms [mkTrk [(1, 1, 1)] (mkStco 0 0 [21; 33; 20]) (fun _ => Ok true) 0] with
  | Ok (m, [k]) => md_data m = [1; 2; 3; 4; 5; 6; 7] /\ co_list (tk_offs k) = [1; 5; 0]
  | _ => False end.
Proof.
  split; [cbn; unfold len; cbn; repeat split; lia|]. split; [|vm_compute; split; reflexivity].
  split; [cbn; repeat split; lia|]. split; [|reflexivity]. intros g s d H. cbn in H. destruct H as [H|[]]. injection H as <- <- <-. split; [lia|reflexivity].
Qed.
(* data at 2 GiB or later in the file: the shift has the wrong sign *)
Theorem C44_far_data_refuted :
  let k := mkTrk [(1, 1, 1)] (mkStco 0 0 [2147483700]) (fun _ => Ok true) 0 in
  match open_tables 2147483690 20 [k] with
  | Ok [k1] => co_list (tk_offs k1) = [2147483700 + 2147483606]
  | _ => False end.
Proof. vm_compute. reflexivity. Qed.
Print Assumptions C44_far_data_refuted.

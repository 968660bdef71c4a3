(* CttsProofs.v *)
From Verif Require Import Base Codec HandleProofs StreamProofs AtomModel BoxModel SttsSpec SttsModel SttsProofs CttsSpec CttsModel.

Record ct_inv (c : ctts) : Prop := {
  ci_pos : all_pos (ct_entries c);
  ci_final : ct_final c = len (expand (ct_entries c));
  ci_cur : ct_cur c = true \/ ct_entries c = [] }.

Lemma ctts_add_inv c o : ct_inv c -> len (expand (ct_entries c)) < 4294967295 ->
  ct_inv (ctts_add c o) /\ expand (ct_entries (ctts_add c o)) = expand (ct_entries c) ++ [o].
Proof.
  intros [P F C] Hl.
  assert (E : ct_entries (ctts_add c o) = add_run (ct_entries c) o).
  { unfold ctts_add; cbn [ct_entries]. destruct C as [->|C]; [reflexivity|]. rewrite C. destruct (ct_cur c); reflexivity. }
  destruct (add_run_expand (ct_entries c) o P Hl) as (A1 & A2 & _).
  assert (E2 : expand (ct_entries (ctts_add c o)) = expand (ct_entries c) ++ [o]) by (rewrite E; exact A1).
  split; [|exact E2]. constructor.
  - rewrite E; exact A2.
  - rewrite E2. cbn [ctts_add ct_final]. rewrite F. lens. apply w32_small. lia.
  - left. reflexivity.
Qed.
Lemma ctts_add_list_inv os : forall c, ct_inv c -> len (expand (ct_entries c)) + len os <= 4294967295 ->
  ct_inv (ctts_add_list c os) /\ expand (ct_entries (ctts_add_list c os)) = expand (ct_entries c) ++ os.
Proof.
  induction os as [|o os IH]; intros c I Hl; cbn [ctts_add_list].
  - rewrite app_nil_r. auto.
  - lens. destruct (ctts_add_inv c o I ltac:(lia)) as [I1 E1].
    destruct (IH (ctts_add c o) I1) as [I2 E2]; [rewrite E1; lens; lia|].
    split; [exact I2|]. rewrite E2, E1, <- app_assoc. reflexivity.
Qed.

Lemma given_len b : obatch_ok b -> len (given b) = fst b.
Proof.
  destruct b as [n [os|]]; intros [H1 H2]; cbn [fst snd given] in *; [|unfold given; cbn [snd fst]; lens; lia].
  unfold given; cbn [snd fst]. destruct os as [|o [|o2 os]]; destruct H2 as [[H2|H2] _]; lens; lia.
Qed.

Lemma ctts_addSamples_ok c sn count os :
  ct_inv c -> obatch_ok (count, Some os) ->
  ct_final c < sn -> sn + count < 2147483648 ->
  exists c', ctts_addSamples c sn count (Some os) = Ok c' /\ ct_inv c' /\
    expand (ct_entries c') =
      expand (ct_entries c) ++ (if ct_final c =? 0 then [] else repeat 0 (N.to_nat (sn - ct_final c - 1))) ++ given (count, Some os).
Proof.
  intros I Hb Hlt Hbig. unfold ctts_addSamples.
  pose proof (given_len _ Hb) as Hg. cbn [fst] in Hg. pose proof (ci_final _ I) as Hf.
  assert (G : forall c1, ct_inv c1 -> len (expand (ct_entries c1)) + count <= 4294967295 ->
     exists c', (if len os =? 1 then if count =? 1 then Ok (ctts_add_list c1 os)
        else Ok (ctts_add_list c1 (repeat (nth 0 os 0) (N.to_nat count)))
      else if negb (len os =? count) then Err MP4BadParamErr else Ok (ctts_add_list c1 os)) = Ok c' /\ ct_inv c' /\
      expand (ct_entries c') = expand (ct_entries c1) ++ given (count, Some os)).
  { intros c1 I1 H1.
    assert (E : (if len os =? 1 then if count =? 1 then Ok (ctts_add_list c1 os)
        else Ok (ctts_add_list c1 (repeat (nth 0 os 0) (N.to_nat count)))
      else if negb (len os =? count) then Err MP4BadParamErr else Ok (ctts_add_list c1 os)) =
      Ok (ctts_add_list c1 (given (count, Some os)))).
    { destruct Hb as [Hc [Ho _]]. cbn [fst snd] in *. unfold given. cbn [fst snd].
      destruct os as [|o [|o2 os]].
      - change (len (@nil N)) with 0 in *. lia.
      - change (len [o] =? 1) with true. cbn iota. destruct (N.eqb_spec count 1) as [->|]; reflexivity.
      - destruct (N.eqb_spec (len (o :: o2 :: os)) 1); [lens; lia|].
        destruct (N.eqb_spec (len (o :: o2 :: os)) count); [reflexivity|lia]. }
    rewrite E. eexists. split; [reflexivity|]. apply ctts_add_list_inv; [exact I1|]. rewrite Hg. exact H1. }
  destruct (N.eqb_spec (ct_final c) 0) as [E0|E0]; cbn [negb bind].
  - destruct (G c I ltac:(lia)) as (c' & E & I' & X). exists c'. cbn [app]. auto.
  - destruct (N.leb_spec sn (ct_final c)); [lia|]. cbn [bind].
    rewrite (sub32_exact sn) by lia. rewrite sub32_exact by lia. rewrite s32_small by lia.
    replace (Z.to_nat (Z.of_N (sn - ct_final c - 1))) with (N.to_nat (sn - ct_final c - 1)) by lia.
    destruct (ctts_add_list_inv (repeat 0 (N.to_nat (sn - ct_final c - 1))) c I) as [I1 E1]; [lens; lia|].
    destruct (G _ I1) as (c' & E & I' & X); [rewrite E1; lens; lia|].
    exists c'. rewrite X, E1, <- app_assoc. auto.
Qed.

(* what is kept: the offsets so far, zeros at the end left out *)
Definition off_inv (st : option ctts) (l : list N) : Prop :=
  match st with
  | None => exists k, l = repeat 0 k
  | Some c => ct_inv c /\ 0 < ct_final c /\ exists k, l = expand (ct_entries c) ++ repeat 0 k
  end.

Lemma offsets_run_ok bs : forall st l,
  off_inv st l -> Forall obatch_ok bs -> len l + len (flat_map given bs) < 2147483647 ->
  (st = None -> (l = [] /\ has_offsets (hd (0, None) bs) = true) \/ existsb has_offsets bs = false) ->
  exists st', offsets_run st (len l) bs = Ok st' /\ off_inv st' (l ++ flat_map given bs) .
Proof.
  induction bs as [|[count offs] bs IH]; intros st l I Hb Hl Hs; cbn [offsets_run flat_map].
  - exists st. rewrite app_nil_r. auto.
  - inversion_clear Hb as [|? ? B1 B2]. cbn [flat_map] in Hl. lens.
    pose proof (given_len _ B1) as Hg. cbn [fst] in Hg.
    assert (G : exists st1, stbl_offsets st (len l) count offs = Ok st1 /\ off_inv st1 (l ++ given (count, offs)) /\
       (st1 = None -> existsb has_offsets bs = false)).
    { destruct offs as [os|]; cbn [stbl_offsets].
      - rewrite w32_small by lia.
        assert (H : exists c k, ct_inv c /\ match st with Some c => c | None => ctts_new end = c /\
                    l = expand (ct_entries c) ++ repeat 0 k /\ (ct_final c = 0 -> k = 0%nat) ).
        { destruct st as [c|]; cbn [off_inv] in I.
          - destruct I as (I1 & I2 & k & I3). exists c, k. split; [exact I1|]. split; [reflexivity|]. split; [exact I3|]. lia.
          - exists ctts_new, 0%nat. split; [constructor; cbn; auto; constructor|]. split; [reflexivity|].
            split; [|reflexivity]. destruct (Hs eq_refl) as [[-> _]|X]; [reflexivity|]. cbn in X. discriminate. }
        destruct H as (c & k & Ic & -> & El & Hk).
        pose proof (ci_final _ Ic) as Hfin. assert (Ell : len l = ct_final c + N.of_nat k) by (rewrite El, Hfin; lens; lia).
        destruct (ctts_addSamples_ok c (len l + 1) count os Ic B1 ltac:(lia) ltac:(lia)) as (c' & E & I' & X).
        rewrite E. cbn [bind]. eexists. split; [reflexivity|]. split; [|discriminate].
        assert (Ek : (if ct_final c =? 0 then [] else repeat 0 (N.to_nat (len l + 1 - ct_final c - 1))) = repeat 0 k).
        { destruct (N.eqb_spec (ct_final c) 0) as [Z|Z]; [rewrite (Hk Z); reflexivity|]. f_equal. lia. }
        rewrite Ek in X. split; [exact I'|]. split.
        + rewrite (ci_final _ I'), X. lens. destruct B1 as [B1 _]. cbn [fst] in B1. lia.
        + exists 0%nat. rewrite X, El, <- !app_assoc. cbn [repeat]. rewrite app_nil_r. reflexivity.
      - exists st. split; [reflexivity|]. split.
        + unfold given; cbn [fst snd]. destruct st as [c|]; cbn [off_inv] in *.
          * destruct I as (I1 & I2 & k & ->). split; [exact I1|]. split; [exact I2|].
            exists (k + N.to_nat count)%nat. rewrite <- app_assoc, repeat_app. reflexivity.
          * destruct I as (k & ->). exists (k + N.to_nat count)%nat. rewrite repeat_app. reflexivity.
        + intros E. destruct (Hs E) as [[_ X]|X]; [discriminate X|exact X]. }
    destruct G as (st1 & -> & I1 & S1). cbn [bind].
    rewrite w32_small by lia. replace (len l + count) with (len (l ++ given (count, offs))) by (lens; lia).
    destruct (IH st1 (l ++ given (count, offs)) I1 B2) as (st' & E & I').
    { lens. lia. } { intros E. right. exact (S1 E). }
    exists st'. rewrite E, app_assoc. auto.
Qed.

Lemma ctts_find_ok n es : forall cur, cur + len (expand es) < 4294967296 -> cur < n ->
  ctts_find n es cur = nth_error (expand es) (N.to_nat (n - cur - 1)).
Proof.
  induction es as [|[c o] r IH]; intros cur Hl Hn; cbn [ctts_find].
  - destruct (N.to_nat (n - cur - 1)); reflexivity.
  - rewrite len_expand_cons in Hl. rewrite w32_small by lia. rewrite expand_cons.
    destruct (N.leb_spec n (cur + c)).
    + rewrite nth_error_repeat_app by lia. reflexivity.
    + rewrite IH by lia. rewrite nth_error_app2 by (rewrite repeat_length; lia). rewrite repeat_length. f_equal. lia.
Qed.

Lemma comp_offset_ok st l n : off_inv st l -> len l < 4294967296 -> 1 <= n ->
  comp_offset st n = s32_of (nth (N.to_nat (n - 1)) l 0).
Proof.
  intros I Hl Hn. destruct st as [c|]; cbn [comp_offset off_inv] in *.
  - destruct I as (I1 & I2 & k & ->). lens. rewrite ctts_find_ok by lia.
    replace (n - 0 - 1) with (n - 1) by lia.
    destruct (nth_error (expand (ct_entries c)) (N.to_nat (n - 1))) as [o|] eqn:E.
    + f_equal. symmetry. apply nth_error_nth. rewrite nth_error_app1; [exact E|]. apply nth_error_Some. congruence.
    + apply nth_error_None in E. rewrite app_nth2 by assumption.
      assert (Z0 : forall j m, nth j (repeat 0 m) 0 = 0).
      { intros j m. destruct (nth_in_or_default j (repeat 0 m) 0) as [H|H]; [apply repeat_spec in H|]; exact H. }
      rewrite Z0. reflexivity.
  - destruct I as (k & ->).
    assert (Z0 : forall j m, nth j (repeat 0 m) 0 = 0).
    { intros j m. destruct (nth_in_or_default j (repeat 0 m) 0) as [H|H]; [apply repeat_spec in H|]; exact H. }
    rewrite Z0. reflexivity.
Qed.

(* ------------------------------------------------------------------ *)
(* cslg                                                                *)

Definition in32 (z : Z) : Prop := (-2147483648 <= z < 2147483648)%Z.
Lemma s32_u32 z : in32 z -> s32_of (u32_of z) = z.
Proof. unfold in32. intros H. unfold s32_of, u32_of. destruct (N.ltb_spec (Z.to_N (z mod 4294967296)) 2147483648); lia. Qed.
Lemma u32_s32 x : x < 4294967296 -> u32_of (s32_of x) = x.
Proof. intros H. unfold s32_of, u32_of. destruct (N.ltb_spec x 2147483648); lia. Qed.
Lemma s32_in32 x : x < 4294967296 -> in32 (s32_of x).
Proof. intros H. unfold s32_of, in32. destruct (N.ltb_spec x 2147483648); lia. Qed.

(* running minimum and maximum, starting from a sentinel *)
Definition rmin (m0 : Z) (l : list Z) : Z := fold_left Z.min l m0.
Definition rmax (m0 : Z) (l : list Z) : Z := fold_left Z.max l m0.
Lemma rmin_spec l : forall m0, (rmin m0 l <= m0)%Z /\ Forall (fun x => (rmin m0 l <= x)%Z) l /\ (rmin m0 l = m0 \/ In (rmin m0 l) l).
Proof.
  unfold rmin. induction l as [|x l IH]; intros m0; cbn [fold_left].
  - split; [lia|]. split; [constructor|left; reflexivity].
  - destruct (IH (Z.min m0 x)) as (A & B & C). split; [lia|]. split; [constructor; [lia|exact B]|].
    destruct C as [C|C]; [|right; right; exact C].
    destruct (Z.min_spec m0 x) as [[? E]|[? E]]; rewrite E in C at 2; [left; exact C|right; left; symmetry; exact C].
Qed.
Lemma rmax_spec l : forall m0, (m0 <= rmax m0 l)%Z /\ Forall (fun x => (x <= rmax m0 l)%Z) l /\ (rmax m0 l = m0 \/ In (rmax m0 l) l).
Proof.
  unfold rmax. induction l as [|x l IH]; intros m0; cbn [fold_left].
  - split; [lia|]. split; [constructor|left; reflexivity].
  - destruct (IH (Z.max m0 x)) as (A & B & C). split; [lia|]. split; [constructor; [lia|exact B]|].
    destruct C as [C|C]; [|right; right; exact C].
    destruct (Z.max_spec m0 x) as [[? E]|[? E]]; rewrite E in C at 2; [right; left; symmetry; exact C|left; exact C].
Qed.
Lemma rmin_is_min l m0 : l <> [] -> Forall (fun x => (x <= m0)%Z) l -> is_min l (rmin m0 l).
Proof.
  intros Hne Hle. destruct (rmin_spec l m0) as (A & B & [C|C]); [|split; assumption].
  split; [|exact B]. destruct l as [|x l]; [congruence|]. inversion_clear Hle. inversion_clear B. left. lia.
Qed.
Lemma rmax_is_max l m0 : l <> [] -> Forall (fun x => (m0 <= x)%Z) l -> is_max l (rmax m0 l).
Proof.
  intros Hne Hle. destruct (rmax_spec l m0) as (A & B & [C|C]); [|split; assumption].
  split; [|exact B]. destruct l as [|x l]; [congruence|]. inversion_clear Hle. inversion_clear B. left. lia.
Qed.

Lemma cslg_loop_ok l : forall s,
  Forall (fun p => (-2147483648 < snd p <= 2147483647)%Z) l -> Forall in32 (ctimes (cs_total s) l) ->
  (-2147483648 < cs_least s)%Z -> (cs_least s < 0 -> cs_shift s = - cs_least s)%Z ->
  exists s', cslg_loop s l = Ok s' /\
    cs_ver s' = cs_ver s /\ cs_flags s' = cs_flags s /\
    cs_least s' = rmin (cs_least s) (map snd l) /\ cs_great s' = rmax (cs_great s) (map snd l) /\
    cs_start s' = rmin (cs_start s) (ctimes (cs_total s) l) /\ cs_end s' = rmax (cs_end s) (ctimes (cs_total s) l) /\
    cs_total s' = fold_left Z.add (map fst l) (cs_total s) /\
    cs_shift s' = (if (cs_least s' <? 0)%Z then - cs_least s' else cs_shift s)%Z /\
    (-2147483648 < cs_least s')%Z.
Proof.
  induction l as [|[d o] l IH]; intros s Ho Ht Hm Hsh; cbn [cslg_loop ctimes map fst snd] in *.
  - exists s. cbn. repeat split; try reflexivity; try assumption. destruct (Z.ltb_spec (cs_least s) 0); [auto|reflexivity].
  - inversion_clear Ho as [|? ? O1 O2]. inversion_clear Ht as [|? ? T1 T2]. cbn [snd] in O1.
    unfold cslg_step at 1. rewrite (s32_u32 _ T1).
    assert (E1 : (if (o <? cs_least s)%Z then o else cs_least s) = Z.min (cs_least s) o) by (destruct (Z.ltb_spec o (cs_least s)); lia).
    assert (E2 : (if (cs_great s <? o)%Z then o else cs_great s) = Z.max (cs_great s) o) by (destruct (Z.ltb_spec (cs_great s) o); lia).
    rewrite E1, E2. destruct (Z.eqb_spec (Z.min (cs_least s) o) (-2147483648)); [lia|]. cbn [bind].
    match goal with |- context [cslg_loop ?x l] => destruct (IH x) as (s' & A0 & A1 & A2 & A3 & A4 & A5 & A6 & A7 & A8 & A9) end;
      cbn [cs_total cs_least cs_shift cs_great cs_start cs_end cs_ver cs_flags] in *.
    + exact O2.
    + exact T2.
    + lia.
    + intros Hneg. destruct (Z.ltb_spec (Z.min (cs_least s) o) 0); [reflexivity|lia].
    + exists s'. rewrite A0, A1, A2, A3, A4, A5, A6, A7. unfold rmin, rmax. cbn [fold_left].
      split; [reflexivity|]. split; [reflexivity|]. split; [reflexivity|]. split; [reflexivity|]. split; [reflexivity|].
      split; [f_equal; destruct (Z.ltb_spec (cs_total s + o) (cs_start s)); lia|].
      split; [f_equal; destruct (Z.ltb_spec (cs_end s) (cs_total s + o)); lia|].
      split; [reflexivity|]. rewrite A3 in A8, A9. unfold rmin in A8, A9. split; [|exact A9].
      rewrite A8. pose proof (proj1 (rmin_spec (map snd l) (Z.min (cs_least s) o))) as Q. unfold rmin in Q.
      destruct (Z.ltb_spec (fold_left Z.min (map snd l) (Z.min (cs_least s) o)) 0); [reflexivity|].
      destruct (Z.ltb_spec (Z.min (cs_least s) o) 0); [lia|reflexivity].
Qed.

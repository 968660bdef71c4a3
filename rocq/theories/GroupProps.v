(* GroupProps.v -- C24 to C27 and C46: sample groups. *)
From Verif Require Import Base Codec BitLemmas AtomModel AtomSpec AtomProofs BoxModel BoxSpec BoxProofs HeaderProofs Reads
  GroupModel GroupSpec GroupProofs CsgpProofs.

(* ------------------------------------------------------------------ *)
(* C24                                                                  *)

Theorem C24_group_per_sample : forall k ty frag os, legal hist0 os ->
  exists s, gsteps (sbgp_new k ty frag) os = Ok s /\
    let h := fold_left hstep os hist0 in
    sbgp_get s 0 = Err MP4BadParamErr /\
    (forall n, 1 <= n -> n <= hs_count h -> sbgp_get s n = Ok (hs_group h (n - 1))) /\
    (forall n, hs_count h < n -> sbgp_get s n = Ok 0).
Proof.
  intros k ty frag os L. destruct (agree_steps os (sbgp_new k ty frag) hist0) as (s & E & A); [|exact L|].
  { split; [reflexivity|]. split; [reflexivity|]. cbn [hist0 hs_count]. intros; lia. }
  exists s. split; [exact E|]. cbv zeta. destruct A as (A1 & A2 & A3). unfold sbgp_get. split; [reflexivity|]. split.
  - intros n H1 H2. destruct (N.ltb_spec n 1); [lia|]. destruct (N.ltb_spec (len (sg_idx s)) n); [lia|].
    rewrite A3 by lia. reflexivity.
  - intros n H. destruct (N.ltb_spec n 1); [lia|]. destruct (N.ltb_spec (len (sg_idx s)) n); [reflexivity|lia].
Qed.
Print Assumptions C24_group_per_sample.
Example C24_ex :
  let os := [GAdd 5; GMap 3 1 2; GAdd 2; GMap 7 (-3) 2; GMap 3 0 1] in
  legal hist0 os /\
  (do s <- gsteps (sbgp_new Normal 1919904876 false) os; Ok (sg_idx s)) = Ok [3; 3; 3; 0; 7; 7; 0].
Proof. split; [repeat split; cbn; unfold in_table; cbn; lia|vm_compute; reflexivity]. Qed.

(* a range outside the table is rejected; a rejected call returns no new table *)
Theorem C24_outside_rejected : forall s g i n, len (sg_idx s) < 1073741824 -> (-2147483648 < i < 2147483648)%Z ->
  ~ in_table (len (sg_idx s)) i n ->
  (if (i <? 0)%Z then - i <= Z.of_N (len (sg_idx s)) \/ - i < Z.of_N n else i + Z.of_N n < 4294967296)%Z ->
  sbgp_map s g i n = Err MP4BadParamErr.
Proof.
  intros s g i n Hc Hi Ht Hr. unfold in_table, first_of in Ht. unfold sbgp_map.
  destruct (Z.eqb_spec i (-2147483648)); [lia|]. destruct (Z.ltb_spec i 0).
  - assert (E2 : u32_of (- i) = Z.to_N (- i)) by (unfold u32_of; rewrite Z.mod_small; lia). rewrite E2.
    destruct (N.ltb_spec (Z.to_N (- i)) n); [reflexivity|]. exfalso. lia.
  - rewrite w32_small by lia. destruct (N.ltb_spec (len (sg_idx s)) (n + Z.to_N i)); [reflexivity|]. exfalso. lia.
Qed.
Print Assumptions C24_outside_rejected.

(* the whole track: descriptions of several types, samples added in between *)
Lemma find_put {A} (f : A -> N) ty v l : f v = ty -> find_by f ty l <> None -> find_by f ty (put_by f ty v l) = Some v.
Proof.
  intros Hv. induction l as [|x l IH]; cbn [find_by put_by]; [contradiction|].
  destruct (N.eqb_spec (f x) ty) as [E|E]; cbn [find_by].
  - intros _. rewrite Hv, N.eqb_refl. reflexivity.
  - destruct (N.eqb_spec (f x) ty); [contradiction|]. exact IH.
Qed.
Lemma find_put_other {A} (f : A -> N) ty ty' v l : f v = ty -> ty' <> ty -> find_by f ty' (put_by f ty v l) = find_by f ty' l.
Proof.
  intros Hv Hn. induction l as [|x l IH]; cbn [find_by put_by]; [reflexivity|].
  destruct (N.eqb_spec (f x) ty) as [E|E]; cbn [find_by].
  - destruct (N.eqb_spec (f v) ty'), (N.eqb_spec (f x) ty'); congruence.
  - rewrite IH. reflexivity.
Qed.
Lemma find_snoc {A} (f : A -> N) ty v l : find_by f ty (l ++ [v]) =
  match find_by f ty l with Some x => Some x | None => if f v =? ty then Some v else None end.
Proof. induction l as [|x l IH]; cbn [find_by app]; [reflexivity|]. destruct (f x =? ty); [reflexivity|exact IH]. Qed.
Lemma find_type {A} (f : A -> N) ty l x : find_by f ty l = Some x -> f x = ty.
Proof.
  induction l as [|y l IH]; cbn [find_by]; [discriminate|]. destruct (N.eqb_spec (f y) ty); [congruence|exact IH].
Qed.
Lemma known_spec d l : known d l = true <-> In d l.
Proof.
  unfold known. rewrite existsb_exists. split.
  - intros (x & I & H). destruct (list_eq_dec N.eq_dec x d); [subst; exact I|discriminate].
  - intros I. exists d. split; [exact I|]. destruct (list_eq_dec N.eq_dec d d); [reflexivity|contradiction].
Qed.

Definition tagree (t : gtab) (a : groups) : Prop :=
  gt_count t = a_count a /\ a_count a < 1073741824 /\
  (forall ty, match find_by sd_type ty (gt_descs t) with
              | Some s => sd_groups s = a_descs a ty
              | None => a_descs a ty = [] end) /\
  (forall ty, match find_by sg_type ty (gt_maps t) with
              | Some s => agree s (mkHist (a_count a) (a_map a ty))
              | None => a_used a ty = false /\ forall k, a_map a ty k = 0 end) /\
  (forall ty, a_descs a ty = [] -> forall k, a_map a ty k = 0).

Lemma add_each_ok n : forall l, (forall s, In s l -> len (sg_idx s) + n < 1073741824) -> exists l', add_each l n = Ok l' /\
  forall ty, find_by sg_type ty l' = match find_by sg_type ty l with
    | Some s => match sbgp_addSamples s n with Ok s' => Some s' | _ => None end | None => None end.
Proof.
  induction l as [|s l IH]; intros H; cbn [add_each]; [exists []; split; reflexivity|].
  destruct IH as (l' & E & F); [intros; apply H; right; assumption|]. specialize (H s (or_introl eq_refl)).
  assert (S1 : exists s', sbgp_addSamples s n = Ok s' /\ sg_type s' = sg_type s).
  { unfold sbgp_addSamples. destruct (n =? 0); [exists s; auto|]. destruct (N.leb_spec 1073741824 (len (sg_idx s) + n)); [lia|]. eexists. split; reflexivity. }
  destruct S1 as (s' & S1 & S2). rewrite S1. cbn [bind]. rewrite E. cbn [bind]. exists (s' :: l'). split; [reflexivity|].
  intros ty. cbn [find_by]. rewrite S2. destruct (sg_type s =? ty); [rewrite S1; reflexivity|apply F].
Qed.
Lemma in_tableb_spec c i n : in_tableb c i n = true <-> in_table c i n.
Proof. unfold in_tableb, in_table. rewrite andb_true_iff, !Z.leb_le. reflexivity. Qed.
(* tables the maps may be found in: all of the track's length *)
Definition full_maps (t : gtab) : Prop := forall s, In s (gt_maps t) -> len (sg_idx s) = gt_count t.
Lemma put_in {A} (f : A -> N) ty v l x : In x (put_by f ty v l) -> x = v \/ In x l.
Proof.
  induction l as [|y l IH]; cbn [put_by]; [tauto|]. destruct (f y =? ty); cbn [In]; intros [H|H]; auto.
  destruct (IH H); auto.
Qed.
Lemma add_each_len n : forall l l' c, add_each l n = Ok l' -> (forall s, In s l -> len (sg_idx s) = c) ->
  forall s, In s l' -> len (sg_idx s) = c + n.
Proof.
  induction l as [|s l IH]; intros l' c E H; cbn [add_each] in E; [injection E as <-; intros s []|].
  destruct (sbgp_addSamples s n) as [s'| |] eqn:S1; cbn [bind] in E; try discriminate.
  destruct (add_each l n) as [r'| |] eqn:Er; cbn [bind] in E; try discriminate. injection E as <-.
  intros x [<-|I].
  - specialize (H s (or_introl eq_refl)). unfold sbgp_addSamples in S1.
    destruct (N.eqb_spec n 0); [injection S1 as <-; lia|]. destruct (1073741824 <=? _); [discriminate|]. injection S1 as <-.
    cbn [set_idx sg_idx]. lens. lia.
  - apply (IH r' c eq_refl); [intros; apply H; right; assumption|exact I].
Qed.
Lemma tagree_step t a o : tagree t a -> full_maps t -> sane a o ->
  exists t', tstep t o = Ok t' /\ tagree t' (astep a o) /\ full_maps t'.
Proof.
  intros (T1 & T2 & T3 & T4 & T5) FM S. destruct o as [n|ty d|ty g i n k]; cbn [tstep astep sane] in *.
  - destruct (add_each_ok n (gt_maps t)) as (l' & E & F).
    { intros s I. rewrite (FM s I). lia. }
    unfold gt_addSamples. rewrite E. cbn [bind]. eexists. split; [reflexivity|]. split.
    + split; [cbn [gt_count a_count]; lia|]. split; [exact S|]. split; [exact T3|]. cbn [gt_maps a_used a_map a_count a_descs]. split.
      * intros ty. rewrite F. specialize (T4 ty). destruct (find_by sg_type ty (gt_maps t)) as [s|].
        -- destruct (agree_step s _ (GAdd n) T4 S) as (s' & E1 & A1). cbn [gstep] in E1. rewrite E1. exact A1.
        -- destruct T4 as [T4 T4']. split; [exact T4|]. intros j. rewrite T4'. destruct (_ <? _); reflexivity.
      * intros ty H j. rewrite T5 by exact H. destruct (_ <? _); reflexivity.
    + intros s I. cbn [gt_maps gt_count] in *. apply (add_each_len n _ _ _ E FM s I).
  - unfold gt_addDesc. pose proof (T3 ty) as T3'.
    set (l := match find_by sd_type ty (gt_descs t) with Some _ => gt_descs t | None => gt_descs t ++ [sgpd_new ty] end).
    set (s := match find_by sd_type ty (gt_descs t) with Some s => s | None => sgpd_new ty end).
    assert (E : match find_by sd_type ty (gt_descs t) with Some s => (gt_descs t, s) | None => (gt_descs t ++ [sgpd_new ty], sgpd_new ty) end = (l, s))
      by (unfold l, s; destruct (find_by sd_type ty (gt_descs t)); reflexivity).
    rewrite E. assert (Hs : sd_groups s = a_descs a ty).
    { unfold s. destruct (find_by sd_type ty (gt_descs t)); [exact T3'|]. cbn [sgpd_new sd_groups]. congruence. }
    assert (Hty : sd_type s = ty).
    { unfold s. destruct (find_by sd_type ty (gt_descs t)) eqn:E2; [eapply find_type; exact E2|reflexivity]. }
    assert (Hl : forall x, find_by sd_type x l = if x =? ty then Some s else find_by sd_type x (gt_descs t)).
    { intros x. unfold l, s. destruct (find_by sd_type ty (gt_descs t)) as [z|] eqn:E2.
      - destruct (N.eqb_spec x ty); [subst; exact E2|reflexivity].
      - rewrite find_snoc. destruct (N.eqb_spec x ty) as [->|Ne].
        + rewrite E2. cbn [sgpd_new sd_type]. rewrite N.eqb_refl. reflexivity.
        + destruct (find_by sd_type x (gt_descs t)); [reflexivity|]. cbn [sgpd_new sd_type]. destruct (N.eqb_spec ty x); [congruence|reflexivity]. }
    assert (Keep : tagree (mkGtab l (gt_maps t) (gt_count t)) a).
    { split; [exact T1|]. split; [exact T2|]. split; [|split; [exact T4|exact T5]]. cbn [gt_descs]. intros x. rewrite Hl.
      destruct (N.eqb_spec x ty) as [->|Ne]; [exact Hs|apply T3]. }
    destruct (sgpd_add_cases s d) as [(D1 & D2)|[(D1 & D2)|(D1 & D2 & D3)]].
    + subst d. rewrite D2. eexists. split; [reflexivity|]. split; [exact Keep|exact FM].
    + rewrite D2. eexists. split; [reflexivity|]. split; [|exact FM]. rewrite Hs in D1. apply known_spec in D1.
      destruct d; [exact Keep|]. rewrite D1. exact Keep.
    + rewrite D3. eexists. split; [reflexivity|]. split; [|exact FM].
      assert (K : match d with [] => true | _ => known d (a_descs a ty) end = false).
      { destruct d; [contradiction|]. rewrite Hs in D2. destruct (known (n :: d) (a_descs a ty)) eqn:K; [apply known_spec in K; contradiction|reflexivity]. }
      rewrite K. split; [exact T1|]. split; [exact T2|]. cbn [gt_descs a_descs gt_maps a_map a_used a_count].
      split; [|split; [exact T4|]].
      * intros x. destruct (N.eqb_spec x ty) as [->|Ne].
        -- rewrite find_put; [cbn [sd_groups]; rewrite Hs; reflexivity|exact Hty|]. rewrite Hl, N.eqb_refl. discriminate.
        -- rewrite find_put_other by (exact Hty || exact Ne). rewrite Hl. destruct (N.eqb_spec x ty); [contradiction|apply T3].
      * intros x. destruct (N.eqb_spec x ty) as [->|Ne]; [|apply T5]. intros H. apply app_eq_nil in H. destruct H; discriminate.
  - unfold gt_map. pose proof (T3 ty) as T3'. destruct (find_by sd_type ty (gt_descs t)) as [d|] eqn:Ed.
    2:{ rewrite T3'. cbn [orb]. eexists. split; [reflexivity|]. split; [repeat split; auto|exact FM]. }
    rewrite T3'. destruct (N.ltb_spec (len (a_descs a ty)) g) as [G|G].
    { eexists. split; [reflexivity|]. split; [|exact FM].
      assert (X : match a_descs a ty with [] => true | l => len l <? g end = true).
      { destruct (a_descs a ty) eqn:E; [reflexivity|]. apply N.ltb_lt. exact G. }
      rewrite X. cbn [orb]. repeat split; auto. }
    set (l := match find_by sg_type ty (gt_maps t) with Some _ => gt_maps t
              | None => gt_maps t ++ [set_idx (sbgp_new k ty false) (repeat 0 (N.to_nat (gt_count t)))] end).
    set (s := match find_by sg_type ty (gt_maps t) with Some s => s
              | None => set_idx (sbgp_new k ty false) (repeat 0 (N.to_nat (gt_count t))) end).
    assert (E : match find_by sg_type ty (gt_maps t) with
              | Some s => Ok (gt_maps t, s)
              | None => do s <- sbgp_addSamples (sbgp_new k ty false) (gt_count t); Ok (gt_maps t ++ [s], s)
              end = Ok (l, s)).
    { unfold l, s. destruct (find_by sg_type ty (gt_maps t)); [reflexivity|]. unfold sbgp_addSamples. cbn [sbgp_new sg_idx].
      destruct (N.eqb_spec (gt_count t) 0) as [E0|E0]; [rewrite E0; reflexivity|].
      rewrite T1 in *. destruct (N.leb_spec 1073741824 (len (@nil N) + a_count a)) as [Q|Q]; [revert Q; lens; lia|]. reflexivity. }
    rewrite E. assert (Hty : sg_type s = ty).
    { unfold s. destruct (find_by sg_type ty (gt_maps t)) eqn:E2; [eapply find_type; exact E2|reflexivity]. }
    assert (Ag : agree s (mkHist (a_count a) (a_map a ty))).
    { unfold s. specialize (T4 ty). destruct (find_by sg_type ty (gt_maps t)); [exact T4|]. destruct T4 as [_ T4].
      unfold agree. cbn [set_idx sg_idx hs_count hs_group]. unfold len. rewrite repeat_length, T1. split; [lia|]. split; [lia|].
      intros j Hj. rewrite T4. unfold nthN. apply nth_error_repeat. lia. }
    assert (Hl : forall x, find_by sg_type x l = if x =? ty then Some s else find_by sg_type x (gt_maps t)).
    { intros x. unfold l, s. destruct (find_by sg_type ty (gt_maps t)) as [z|] eqn:E2.
      - destruct (N.eqb_spec x ty); [subst; exact E2|reflexivity].
      - rewrite find_snoc. destruct (N.eqb_spec x ty) as [->|Ne].
        + rewrite E2. cbn [set_idx sbgp_new sg_type]. rewrite N.eqb_refl. reflexivity.
        + destruct (find_by sg_type x (gt_maps t)); [reflexivity|]. cbn [set_idx sbgp_new sg_type]. destruct (N.eqb_spec ty x); [congruence|reflexivity]. }
    assert (FMl : forall x, In x l -> len (sg_idx x) = gt_count t).
    { intros x. unfold l. destruct (find_by sg_type ty (gt_maps t)); [apply FM|]. intros I. apply in_app_or in I. destruct I as [I|[<-|[]]]; [apply FM, I|].
      cbn [set_idx sg_idx]. unfold len. rewrite repeat_length. lia. }
    clearbody l s. clear E. pose proof Ag as (Ag1 & Ag2 & Ag3). cbn [hs_count hs_group] in Ag1, Ag3.
    destruct S as [S1 S2]. destruct (in_tableb (a_count a) i n) eqn:It.
    + apply in_tableb_spec in It. rewrite <- Ag1 in It.
      destruct (map_ok s g i n Ag2 S1 It) as (lo & isz & Em & _). rewrite Em. eexists. split; [reflexivity|].
      assert (Bd : Z.to_N (first_of (len (sg_idx s)) i) + n <= len (sg_idx s)) by (destruct It; lia).
      split.
      * cbn [negb]. rewrite orb_false_r.
        assert (Val : forall x j, a_descs a x = [] -> a_map a x j = 0) by (intros; apply T5; assumption).
        destruct (a_descs a ty) as [|d0 dr] eqn:Edesc.
        -- assert (g = 0) by (revert G; lens; lia). subst g.
           split; [exact T1|]. split; [exact T2|]. split; [exact T3|]. split; [|exact T5]. cbn [gt_maps].
           intros x. destruct (N.eqb_spec x ty) as [->|Ne].
           ++ rewrite find_put; [|exact Hty|rewrite Hl, N.eqb_refl; discriminate].
              unfold agree. cbn [sg_idx hs_count hs_group]. rewrite fill_len by exact Bd. split; [exact Ag1|]. split; [exact Ag2|].
              intros j Hj. unfold nthN. rewrite fill_nth by exact Bd. rewrite (Val ty j Edesc).
              destruct (_ && _); [reflexivity|]. specialize (Ag3 j Hj). rewrite (Val ty j Edesc) in Ag3. exact Ag3.
           ++ rewrite find_put_other by (exact Hty || exact Ne). rewrite Hl. destruct (N.eqb_spec x ty); [contradiction|apply T4].
        -- destruct (N.ltb_spec (len (d0 :: dr)) g); [lia|].
           split; [exact T1|]. split; [exact T2|]. split; [exact T3|]. cbn [gt_maps a_used a_map a_count a_descs]. split.
           ++ intros x. destruct (N.eqb_spec x ty) as [->|Ne]; cbn [orb andb].
              ** rewrite find_put; [|exact Hty|rewrite Hl, N.eqb_refl; discriminate].
                 rewrite Ag1 in It.
                 destruct (agree_step s _ (GMap (N.min g 4294967295) i n) Ag) as (s2 & E2 & A2).
                 { cbn [hs_count]. split; [lia|]. split; [exact S1|exact It]. }
                 unfold agree. cbn [sg_idx hs_count hs_group]. rewrite fill_len by exact Bd. split; [exact Ag1|]. split; [exact Ag2|].
                 intros j Hj. unfold nthN. rewrite fill_nth by exact Bd. rewrite Ag1. rewrite N2Nat.id. specialize (Ag3 j Hj). unfold nthN in Ag3. rewrite Ag3.
                 destruct It as [I1 I2].
                 destruct (N.leb_spec (Z.to_N (first_of (a_count a) i)) j), (N.ltb_spec j (Z.to_N (first_of (a_count a) i) + n));
                   destruct (Z.leb_spec (first_of (a_count a) i) (Z.of_N j)), (Z.ltb_spec (Z.of_N j) (first_of (a_count a) i + Z.of_N n));
                   cbn [andb]; try reflexivity; lia.
              ** rewrite find_put_other by (exact Hty || exact Ne). rewrite Hl. destruct (N.eqb_spec x ty); [contradiction|apply T4].
           ++ intros x Hx j. destruct (N.eqb_spec x ty) as [->|Ne]; [congruence|]. cbn [andb]. apply T5. exact Hx.
      * intros x I. cbn [gt_maps gt_count] in *. apply put_in in I. destruct I as [->|I]; [|apply FMl, I].
        cbn [sg_idx]. rewrite fill_len by exact Bd. rewrite Ag1. symmetry. exact T1.
    + cbn [negb]. rewrite orb_true_r.
      assert (R : sbgp_map s g i n = Err MP4BadParamErr).
      { apply C24_outside_rejected; [exact Ag2|exact S1| |rewrite Ag1; exact S2].
        rewrite Ag1. intros H. apply in_tableb_spec in H. congruence. }
      rewrite R. eexists. split; [reflexivity|]. split; [|exact FMl].
      split; [exact T1|]. split; [exact T2|]. split; [exact T3|]. split; [|exact T5]. cbn [gt_maps]. intros x. rewrite Hl.
      destruct (N.eqb_spec x ty) as [->|Ne]; [exact Ag|apply T4].
Qed.
Theorem C24_track_groups : forall os, all_sane groups0 os ->
  exists t, tsteps (mkGtab [] [] 0) os = Ok t /\
    let a := fold_left astep os groups0 in
    forall ty, 
      (forall n, 1 <= n -> n <= a_count a ->
         gt_get t ty n = Ok (a_map a ty (n - 1)) \/ a_used a ty = false /\ a_map a ty (n - 1) = 0 /\ gt_get t ty n = Err MP4BadParamErr) /\
      (forall i, 1 <= i -> i <= len (a_descs a ty) -> gt_getDesc t ty i = Ok (nth (N.to_nat (i - 1)) (a_descs a ty) [])) /\
      (forall i, i = 0 \/ len (a_descs a ty) < i -> gt_getDesc t ty i = Err MP4BadParamErr).
Proof.
  intros os. assert (G : forall os t a, tagree t a -> full_maps t -> all_sane a os ->
    exists t', tsteps t os = Ok t' /\ tagree t' (fold_left astep os a)).
  { clear. induction os as [|o os IH]; intros t a T F S; cbn [tsteps fold_left]; [exists t; auto|].
    destruct S as [S1 S2]. destruct (tagree_step t a o T F S1) as (t1 & E1 & T1 & F1). rewrite E1. cbn [bind]. apply IH; assumption. }
  intros S. destruct (G os (mkGtab [] [] 0) groups0) as (t & E & T).
  { split; [reflexivity|]. split; [reflexivity|]. split; [reflexivity|]. split; [intros ty; split; reflexivity|reflexivity]. }
  { intros s []. }
  { exact S. }
  exists t. split; [exact E|]. cbv zeta. intros ty. destruct T as (T1 & T2 & T3 & T4 & _). specialize (T3 ty). specialize (T4 ty). split; [|split].
  - intros n H1 H2. unfold gt_get. destruct (find_by sg_type ty (gt_maps t)) as [s|].
    + left. destruct T4 as (A1 & A2 & A3). cbn [hs_count hs_group] in *. unfold sbgp_get.
      destruct (N.ltb_spec n 1); [lia|]. destruct (N.ltb_spec (len (sg_idx s)) n); [lia|]. rewrite A3 by lia. reflexivity.
    + right. destruct T4 as [U M]. auto.
  - intros i H1 H2. unfold gt_getDesc. destruct (find_by sd_type ty (gt_descs t)) as [s|].
    + rewrite <- T3 in *. unfold sgpd_get. destruct (N.ltb_spec i 1); [lia|]. destruct (N.ltb_spec (len (sd_groups s)) i); [lia|]. cbn [orb].
      unfold nthN. rewrite (nth_error_nth' _ []) by (unfold len in H2; lia). reflexivity.
    + rewrite T3 in H2. revert H2. lens. lia.
  - intros i H. unfold gt_getDesc. destruct (find_by sd_type ty (gt_descs t)) as [s|]; [|reflexivity].
    rewrite <- T3 in H. unfold sgpd_get. destruct (N.ltb_spec i 1); [reflexivity|]. destruct (N.ltb_spec (len (sd_groups s)) i); [reflexivity|lia].
Qed.
Print Assumptions C24_track_groups.
(* two types, samples added after the first range was mapped *)
Example C24_track_ex :
  let os := [TAdd 3; TDesc 7 [1; 2]; TDesc 7 [3]; TDesc 7 [1; 2]; TDesc 8 [9]; TMap 7 2 1 2 Normal; TAdd 2; TMap 7 3 0 1 Normal;
             TMap 8 1 (-1) 1 Auto; TMap 8 1 5 4 Auto; TMap 7 1 (-2) 1 Normal] in
  all_sane groups0 os /\
  (let a := fold_left astep os groups0 in
   (map (a_map a 7) [0; 1; 2; 3; 4], map (a_map a 8) [0; 1; 2; 3; 4], a_descs a 7)) =
   ([0; 2; 2; 1; 0], [0; 0; 0; 0; 1], [[1; 2]; [3]]).
Proof.
  split; [|vm_compute; reflexivity]. vm_compute.
  repeat match goal with |- _ /\ _ => split | |- True => exact I | |- _ \/ _ => left | |- _ = _ => reflexivity | |- _ => discriminate end.
Qed.

(* where memory outside the table is written: a range starting before the first sample *)
Theorem C24_before_start_refuted : forall s g i n, len (sg_idx s) < 1073741824 -> (-2147483648 < i)%Z ->
  (Z.of_N (len (sg_idx s)) + i < 0)%Z -> 1 <= n -> (Z.of_N n <= - i)%Z -> sbgp_map s g i n = UB.
Proof.
  intros s g i n Hc Hi Hb Hn Hm. unfold sbgp_map. destruct (Z.ltb_spec i 0); [|lia].
  assert (E1 : u32_of (Z.of_N (len (sg_idx s)) + i) = Z.to_N (Z.of_N (len (sg_idx s)) + i + 4294967296)).
  { unfold u32_of. f_equal. rewrite <- (Z.mod_add _ 1) by lia. rewrite Z.mod_small; lia. }
  assert (E2 : u32_of (- i) = Z.to_N (- i)) by (unfold u32_of; rewrite Z.mod_small; lia).
  rewrite E1, E2. destruct (Z.eqb_spec i (-2147483648)); [lia|]. destruct (N.ltb_spec (Z.to_N (- i)) n); [lia|].
  destruct (N.eqb_spec n 0); [lia|]. cbn [negb andb].
  destruct (N.ltb_spec (len (sg_idx s)) (Z.to_N (Z.of_N (len (sg_idx s)) + i + 4294967296) + n)); [reflexivity|lia].
Qed.
Print Assumptions C24_before_start_refuted.
(* ... and one so long that its end wraps *)
Theorem C24_wrap_refuted : forall s g i n, (0 <= i < 2147483648)%Z -> n < 4294967296 -> (4294967296 <= Z.of_N n + i)%Z ->
  w32 (n + Z.to_N i) <= len (sg_idx s) -> len (sg_idx s) < 1073741824 -> sbgp_map s g i n = UB.
Proof.
  intros s g i n Hi Hn Hw Hr Hc. unfold sbgp_map. destruct (Z.ltb_spec i 0); [lia|]. destruct (Z.eqb_spec i (-2147483648)); [lia|].
  destruct (N.ltb_spec (len (sg_idx s)) (w32 (n + Z.to_N i))); [lia|].
  destruct (N.eqb_spec n 0); [lia|]. cbn [negb andb]. destruct (N.ltb_spec (len (sg_idx s)) (Z.to_N i + n)); [reflexivity|lia].
Qed.
Print Assumptions C24_wrap_refuted.
Example C24_refuted_ex :
  let s := set_idx (sbgp_new Normal 7 false) [0; 0; 0] in
  sbgp_map s 1 (-5) 2 = UB /\ sbgp_map s 1 5 4294967293 = UB.
Proof. split; [apply C24_before_start_refuted|apply C24_wrap_refuted]; vm_compute; repeat split; discriminate || reflexivity || (intros; discriminate). Qed.

(* ------------------------------------------------------------------ *)
(* C25                                                                  *)

Theorem C25_sbgp_round_trip : forall s, l_ok sbgp_layout s -> 8 + len (l_body sbgp_layout s) < 4294967296 ->
  round_trip sbgp_codec sbgp_layout s.
Proof. intros s. apply exact_round_trip. exact sbgp_exact. Qed.
Print Assumptions C25_sbgp_round_trip.
(* the runs stand for the samples, and there are as few of them as possible *)
Theorem C25_runs : forall l, unrle (rle l) = l /\
  (forall a r1 r2 b, rle l = a ++ r1 :: r2 :: b -> snd r1 <> snd r2) /\ Forall (fun r => 1 <= fst r) (rle l).
Proof.
  intros l. split; [apply unrle_rle|]. split; [apply rle_minimal|]. apply Forall_forall. intros r I. apply (rle_values l r I).
Qed.
Print Assumptions C25_runs.
(* the same index for every sample *)
Theorem C25_same_groups : forall s n, sbgp_get (l_view sbgp_layout s) n = sbgp_get s n.
Proof. reflexivity. Qed.
(* every map of a history can be saved this way *)
Theorem C25_histories_round_trip : forall ty os s, ty < 4294967296 -> legal hist0 os ->
  gsteps (sbgp_new Normal ty false) os = Ok s -> 1 <= hs_count (fold_left hstep os hist0) ->
  len (rle (sg_idx s)) <= 536870909 -> round_trip sbgp_codec sbgp_layout s.
Proof.
  intros ty os s Hty L E H1 Hr.
  assert (I : forall os s0 s h, agree s0 h -> legal h os -> sg_kind s0 = Normal -> sg_ver s0 = 0 -> sg_type s0 = ty -> sg_param s0 = 0 ->
    Forall (fun g => g < 4294967296) (sg_idx s0) -> gsteps s0 os = Ok s ->
    agree s (fold_left hstep os h) /\ sg_kind s = Normal /\ sg_ver s = 0 /\ sg_type s = ty /\ sg_param s = 0 /\ Forall (fun g => g < 4294967296) (sg_idx s)).
  { clear. induction os as [|o os IH]; intros s0 s h A L K V T P F E; cbn [gsteps fold_left] in *.
    - injection E as <-. auto 8.
    - destruct L as [L1 L2]. destruct (agree_step s0 h o A L1) as (s1 & E1 & A1). rewrite E1 in E. cbn [bind] in E.
      assert (Q : sg_kind s1 = Normal /\ sg_ver s1 = 0 /\ sg_type s1 = ty /\ sg_param s1 = 0 /\ Forall (fun g => g < 4294967296) (sg_idx s1)).
      { destruct o as [n|g i n]; cbn [gstep] in E1.
        - unfold sbgp_addSamples in E1. destruct (n =? 0); [injection E1 as <-; auto 8|]. destruct (1073741824 <=? _); [discriminate|].
          injection E1 as <-. cbn [set_idx sg_kind sg_ver sg_type sg_param sg_idx]. repeat split; try assumption.
          apply Forall_app. split; [exact F|]. apply Forall_forall. intros x Hx. apply repeat_spec in Hx. subst. reflexivity.
        - destruct L1 as (L1 & Li & Lt). rewrite <- (proj1 A) in Lt. destruct (map_ok s0 g i n (proj1 (proj2 A)) Li Lt) as (lo & isz & Em & _).
          rewrite Em in E1. injection E1 as <-. cbn [sg_kind sg_ver sg_type sg_param sg_idx]. repeat split; try assumption.
          apply fill_forall; [exact F|exact L1]. }
      destruct Q as (Q1 & Q2 & Q3 & Q4 & Q5). eapply IH; eassumption. }
  destruct (I os (sbgp_new Normal ty false) s hist0) as (A & K & V & T & P & F); try assumption; try reflexivity.
  { split; [reflexivity|]. split; [reflexivity|]. cbn [hist0 hs_count]. intros; lia. }
  { constructor. }
  destruct A as (A1 & A2 & A3). apply C25_sbgp_round_trip.
  - unfold sbgp_layout. cbn [l_ok]. unfold sbgp_kind. rewrite K, V, T, P. repeat split; try lia; try assumption; try discriminate.
    intros Z. rewrite Z in A1. revert A1. lens. lia.
  - rewrite sbgp_body_len, V. change (0 =? 1) with false. cbv iota. lia.
Qed.
Print Assumptions C25_histories_round_trip.
Example C25_ex :
  let s := set_idx (sbgp_new Normal 1919904876 false) [0; 0; 3; 3; 3; 1; 0] in
  l_ok sbgp_layout s /\ rle (sg_idx s) = [(2, 0); (3, 3); (1, 1); (1, 0)] /\
  write_box sbgp_codec s = Ok (box (code "sbgp")
    (be32 0 ++ be32 1919904876 ++ be32 4 ++ be32 2 ++ be32 0 ++ be32 3 ++ be32 3 ++ be32 1 ++ be32 1 ++ be32 1 ++ be32 0)).
Proof.
  split; [|split; [reflexivity|vm_compute; reflexivity]].
  cbn. repeat split; try lia; try discriminate. repeat constructor.
Qed.
(* saving a map of no sample reads its first one *)
Theorem C25_empty_refuted : forall s b, sg_idx s = [] -> sbgp_write s b = UB.
Proof. intros s b E. unfold sbgp_write. rewrite E. reflexivity. Qed.
Print Assumptions C25_empty_refuted.
(* a run of 2^30 samples makes the reader write outside its table *)
Theorem C25_long_run_refuted : exists i, len i = 32 /\ read_box sbgp_codec (sbgp_new Normal 0 false) i = UB.
Proof.
  exists ([0;0;0;28; 115;98;103;112; 0;0;0;0; 0;0;0;7; 0;0;0;1; 64;0;0;0; 0;0;0;1] ++ [0;0;0;0]). split; [reflexivity|].
  vm_compute. reflexivity.
Qed.
Print Assumptions C25_long_run_refuted.

(* ------------------------------------------------------------------ *)
(* C26                                                                  *)

(* for every table the chosen patterns, repeated, give the table back *)
Theorem C26_patterns_lossless : forall s, widths_ok s ->
  spread (ci_pats (compact s)) (ci_desc (compact s)) = map (coded (sg_local s) (sg_isz s)) (sg_idx s).
Proof.
  intros s W. rewrite compact_spread. apply map_ext_in. intros g I. apply stored_coded; assumption.
Qed.
Print Assumptions C26_patterns_lossless.
(* ... and the fields chosen are wide enough for them *)
Theorem C26_fields_wide_enough : forall s, widths_ok s -> len (sg_idx s) < 4294967296 ->
  let c := compact s in
  Forall (fun p => fst p < 2 ^ ci_psz c /\ snd p < 2 ^ ci_csz c) (ci_pats c) /\
  Forall (fun v => v < 2 ^ sg_isz s) (ci_desc c) /\
  Forall (fun p => 1 <= fst p /\ fst p <= snd p) (ci_pats c).
Proof.
  intros s W H. cbv zeta. destruct (compact_sizes s H) as (_ & _ & _ & F). destruct (compact_pats s) as (P & _ & _ & D).
  split; [exact F|]. split; [exact (D W)|exact P].
Qed.
Print Assumptions C26_fields_wide_enough.
(* the box is read back with the same index for every sample *)
Theorem C26_csgp_round_trip : forall s, l_ok csgp_layout s -> round_trip sbgp_codec csgp_layout s.
Proof.
  intros s Hs. apply faithful_round_trip; [exact csgp_faithful|exact Hs|].
  destruct Hs as (_ & Hd & Hv & Hty & Hp & Ha & Hn & Hc & W & H34).
  rewrite csgp_len by (exact W || lia). pose proof (desc_le s).
  destruct (compact_sizes s ltac:(lia)) as (W1 & W2 & _ & _).
  pose proof (width_ge _ (proj1 W)) as G0. pose proof (width_ge _ W1) as G1. pose proof (width_ge _ W2) as G2.
  assert (len (ci_pats (compact s)) * (ci_psz (compact s) + ci_csz (compact s)) <= 34 * 64) by (apply N.mul_le_mono; lia).
  assert (len (ci_desc (compact s)) * sg_isz s <= 33554432 * 32) by (apply N.mul_le_mono; lia).
  destruct (sg_pp s); lia.
Qed.
Print Assumptions C26_csgp_round_trip.
Theorem C26_same_groups : forall s n, sbgp_get (l_view csgp_layout s) n = sbgp_get s n.
Proof. reflexivity. Qed.
(* tables built by the library have wide enough fields *)
Theorem C26_histories_fit : forall k ty frag os s, legal hist0 os ->
  (frag = true -> Forall (fun o => match o with GMap g _ _ => g < 65536 + 2147483648 | _ => True end) os) ->
  gsteps (sbgp_new k ty frag) os = Ok s -> widths_ok s.
Proof.
  intros k ty frag os s L Hf. assert (W0 : widths_ok (sbgp_new k ty frag)).
  { split; [left; reflexivity|]. left. split; [reflexivity|]. split; [constructor|]. intros _. constructor. }
  assert (F0 : sg_frag (sbgp_new k ty frag) = frag) by reflexivity. revert W0 F0 L. generalize (sbgp_new k ty frag) hist0.
  revert s. induction os as [|o os IH]; intros s s0 h W F L E; cbn [gsteps] in E.
  - injection E as <-. exact W.
  - destruct (gstep s0 o) as [s1| |] eqn:E1; cbn [bind] in E; try discriminate. destruct L as [L1 L2].
    assert (Q : widths_ok s1 /\ sg_frag s1 = frag).
    { destruct o as [n|g i n]; cbn [gstep] in E1.
      - split; [eapply widths_add; eassumption|]. unfold sbgp_addSamples in E1. destruct (n =? 0); [congruence|].
        destruct (1073741824 <=? _); [discriminate|]. injection E1 as <-. exact F.
      - destruct (sbgp_map s0 g i n) as [s2| |] eqn:E2; try discriminate; injection E1 as <-; [|split; assumption].
        split.
        + eapply widths_map; [exact W|exact (proj1 L1)| |exact E2]. intros Ft. rewrite F in Ft. specialize (Hf Ft). inversion Hf; subst. assumption.
        + unfold sbgp_map in E2. destruct (if (i <? 0)%Z then _ else _) as [bad first]. destruct (_ =? -2147483648)%Z; [discriminate|].
          destruct bad; [discriminate|]. destruct (negb (n =? 0) && _); [discriminate|]. injection E2 as <-. exact F. }
    eapply IH; [|exact (proj1 Q)|exact (proj2 Q)|exact L2|exact E].
    intros Ft. specialize (Hf Ft). inversion Hf; assumption.
Qed.
Print Assumptions C26_histories_fit.
(* every table of up to 34 samples can be saved this way, longer ones if they
   need no more than 34 patterns *)
Theorem C26_short_tables : forall ty os s, ty < 4294967296 -> legal hist0 os ->
  gsteps (sbgp_new Compact ty false) os = Ok s -> 1 <= hs_count (fold_left hstep os hist0) <= 34 ->
  round_trip sbgp_codec csgp_layout s.
Proof.
  intros ty os s Hty L E Hn. assert (W : widths_ok s) by (apply (C26_histories_fit Compact ty false os s L); [intros; discriminate|exact E]).
  destruct (agree_steps os (sbgp_new Compact ty false) hist0) as (s' & E' & A); [|exact L|].
  { split; [reflexivity|]. split; [reflexivity|]. cbn [hist0 hs_count]. intros; lia. }
  rewrite E in E'. injection E' as <-. destruct A as (A1 & A2 & A3).
  assert (Q : sg_kind s = Compact /\ sg_ver s = 0 /\ sg_type s = ty /\ sg_param s = 0 /\ sg_done s = None).
  { clear -E. assert (Q0 : sg_kind (sbgp_new Compact ty false) = Compact /\ sg_ver (sbgp_new Compact ty false) = 0 /\
      sg_type (sbgp_new Compact ty false) = ty /\ sg_param (sbgp_new Compact ty false) = 0 /\ sg_done (sbgp_new Compact ty false) = None) by (repeat split).
    revert Q0 E. generalize (sbgp_new Compact ty false). induction os as [|o os IH]; intros s0 Q E; cbn [gsteps] in E; [injection E as <-; exact Q|].
    destruct (gstep s0 o) as [s1| |] eqn:E1; cbn [bind] in E; try discriminate. apply (IH s1); [|exact E].
    destruct o as [n|g i n]; cbn [gstep] in E1.
    - unfold sbgp_addSamples in E1. destruct (n =? 0); [congruence|]. destruct (1073741824 <=? _); [discriminate|]. injection E1 as <-. exact Q.
    - destruct (sbgp_map s0 g i n) as [s2| |] eqn:E2; try discriminate; injection E1 as <-; [|exact Q].
      unfold sbgp_map in E2. destruct (if (i <? 0)%Z then _ else _) as [bad first]. destruct (_ =? -2147483648)%Z; [discriminate|].
      destruct bad; [discriminate|]. destruct (negb (n =? 0) && _); [discriminate|]. injection E2 as <-. exact Q. }
  destruct Q as (Q1 & Q2 & Q3 & Q4 & Q5). apply C26_csgp_round_trip. unfold csgp_layout. cbn [l_ok]. unfold sbgp_kind. rewrite Q1, Q2, Q3, Q4, Q5.
  pose proof (pats_le s). repeat split; try lia; try discriminate; try (exact (proj1 W)); try (exact (proj2 W)).
  intros Z. rewrite Z in A1. revert A1. lens. lia.
Qed.
Print Assumptions C26_short_tables.
Example C26_ex :
  let s := set_idx (sbgp_new Compact 1919904876 false) [1; 2; 1; 2; 1; 2; 1; 5; 5; 5; 5; 0; 7] in
  l_ok csgp_layout s /\ ci_pats (compact s) = [(2, 7); (1, 4); (2, 2)] /\ ci_desc (compact s) = [1; 2; 5; 0; 7] /\
  write_box sbgp_codec s = Ok (box (code "csgp") (be32 0 ++ be32 1919904876 ++ be32 3 ++ [39; 20; 34; 18; 80; 112])).
Proof.
  split; [|split; [vm_compute; reflexivity|split; vm_compute; reflexivity]].
  assert (E : ci_pats (compact (set_idx (sbgp_new Compact 1919904876 false) [1; 2; 1; 2; 1; 2; 1; 5; 5; 5; 5; 0; 7])) = [(2, 7); (1, 4); (2, 2)])
    by (vm_compute; reflexivity).
  unfold csgp_layout, l_ok. rewrite E. unfold widths_ok.
  cbn [set_idx sbgp_new sbgp_kind sg_kind sg_done sg_ver sg_type sg_param sg_pp sg_idx sg_isz sg_local sg_frag].
  split; [reflexivity|]. split; [reflexivity|]. split; [lia|]. split; [lia|]. split; [lia|]. split; [discriminate|].
  split; [discriminate|]. split; [lens; lia|]. split; [|lens; lia]. split; [left; reflexivity|].
  left. split; [reflexivity|]. split; [|discriminate].
  repeat (apply Forall_cons; [reflexivity|]). apply Forall_nil.
Qed.
(* left to itself the library takes the shorter form *)
Theorem C26_auto_is_shorter : forall s, sg_kind s = Auto -> sg_ver s <> 1 -> sg_pp s = false ->
  sbgp_size s = N.min (sbgp_size (sbgp_setKind s Normal)) (sbgp_size (sbgp_setKind s Compact)).
Proof.
  intros s K V P. unfold sbgp_size. cbn [sbgp_setKind sg_kind]. unfold sbgp_kind at 2 3. cbn [sbgp_setKind sg_kind].
  unfold normal_size, compact_size. cbn [sbgp_setKind sg_idx sg_ver sg_pp]. rewrite K, P. destruct (N.eqb_spec (sg_ver s) 1); [contradiction|].
  rewrite !N.add_0_r. change (bits (sbgp_setKind s Compact)) with (bits s).
  destruct (N.leb_spec (w32 (12 + (N.max 1 (len (runs (sg_idx s))) * 8 + 8))) (w32 (20 + w32 (bits s + 4) / 8)));
    change (sbgp_kind (sbgp_setKind s Normal)) with Normal; change (sbgp_kind (sbgp_setKind s Compact)) with Compact; cbv iota; lia.
Qed.
Print Assumptions C26_auto_is_shorter.

(* where it fails: more patterns than the reader's debug line has room for *)
Definition long_table : list N := flat_map (fun i => repeat (N.of_nat i) 3) (seq 100 45).
Definition long_group : sbgp := mkSbgp Compact 0 7 0 long_table false false 8 false None.
Theorem C26_many_patterns_refuted : exists bs, widths_ok long_group /\
  gsteps (sbgp_new Compact 7 false) (GAdd 135 :: map (fun i => GMap (N.of_nat (100 + i)) (3 * Z.of_nat i) 3) (seq 0 45)) = Ok long_group /\
  write_box sbgp_codec long_group = Ok bs /\ read_box sbgp_codec long_group bs = UB.
Proof.
  eexists. split.
  { split; [right; left; reflexivity|]. left. split; [reflexivity|]. split; [|discriminate].
    apply Forall_forall. intros g I. apply N.ltb_lt. revert g I. apply forallb_forall. vm_compute. reflexivity. }
  split; [vm_compute; reflexivity|]. split; [vm_compute; reflexivity|]. vm_compute. reflexivity.
Qed.
Print Assumptions C26_many_patterns_refuted.
(* a box read back and saved again keeps only four bits of each index *)
Theorem C26_saved_again_refuted : exists s bs s' bs' s'',
  gsteps (sbgp_new Compact 7 false) [GAdd 3; GMap 20 1 1] = Ok s /\
  write_box sbgp_codec s = Ok bs /\ read_box sbgp_codec s bs = Ok ((ALeaf _ s', len bs), []) /\ sg_idx s' = [0; 20; 0] /\
  write_box sbgp_codec s' = Ok bs' /\ read_box sbgp_codec s bs' = Ok ((ALeaf _ s'', len bs'), []) /\ sg_idx s'' = [0; 4; 0].
Proof. do 5 eexists. repeat (split; [vm_compute; reflexivity|]). vm_compute. reflexivity. Qed.
Print Assumptions C26_saved_again_refuted.
(* a group mapped after the first save is not saved *)
Theorem C26_after_save_refuted : exists s bs s' s'' bs',
  gsteps (sbgp_new Compact 7 false) [GAdd 3; GMap 1 1 1] = Ok s /\ write_box sbgp_codec s = Ok bs /\
  sbgp_map (sbgp_saved s) 2 2 1 = Ok s' /\ sg_idx s' = [0; 1; 2] /\
  write_box sbgp_codec s' = Ok bs' /\ read_box sbgp_codec s bs' = Ok ((ALeaf _ s'', len bs'), []) /\ sg_idx s'' = [0; 1; 0].
Proof. do 5 eexists. repeat (split; [vm_compute; reflexivity|]). vm_compute. reflexivity. Qed.
Print Assumptions C26_after_save_refuted.
(* the reader uses values it could not read, and divides by an empty pattern *)
Theorem C26_reader_refuted : let rb := read_box sbgp_codec (sbgp_new Normal 0 false) in
  (exists i, len i = 21 /\ rb i = UB) /\ (exists i, len i = 23 /\ rb i = UB).
Proof.
  split.
  - exists [0;0;0;21; 99;115;103;112; 0;0;0;0; 0;0;0;7; 0;0;0;1; 17]. split; [reflexivity|]. vm_compute. reflexivity.
  - exists [0;0;0;23; 99;115;103;112; 0;0;0;0; 0;0;0;7; 0;0;0;1; 1; 0; 0]. split; [reflexivity|]. vm_compute. reflexivity.
Qed.
Print Assumptions C26_reader_refuted.

Lemma NoDup_app_iff_snoc {A} (l : list A) x : NoDup l -> ~ In x l -> NoDup (l ++ [x]).
Proof.
  intros H1 H2. apply NoDup_Add with (a := x) (l := l); [|split; assumption].
  rewrite <- (app_nil_r l) at 1. apply Add_app.
Qed.
(* ------------------------------------------------------------------ *)
(* C27                                                                  *)

Lemma adds_spec : forall ds s rs s', sgpd_adds s ds = (rs, s') ->
  length rs = length ds /\
  exists more, sd_groups s' = sd_groups s ++ more /\ (NoDup (sd_groups s) -> NoDup (sd_groups s')) /\
  (forall k d, nth_error ds k = Some d ->
     (exists i, nth_error rs k = Some (Ok i) /\ 1 <= i /\ nth_error (sd_groups s') (N.to_nat (i - 1)) = Some d) \/
     (nth_error rs k = Some (Err MP4BadParamErr) /\ (d = [] \/ In d (sd_groups s) \/ In d (firstn k ds)))).
Proof.
  induction ds as [|d ds IH]; intros s rs s' E; cbn [sgpd_adds] in E.
  - injection E as <- <-. split; [reflexivity|]. exists []. rewrite app_nil_r. split; [reflexivity|]. split; [auto|]. intros [|k] d H; discriminate.
  - destruct (sgpd_add_cases s d) as [(D1 & D2)|[(D1 & D2)|(D1 & D2 & D3)]].
    + rewrite D2 in E. destruct (sgpd_adds s ds) as [rs0 s0] eqn:E0. injection E as <- <-. destruct (IH _ _ _ E0) as (L & more & G & ND & H).
      split; [cbn [length]; congruence|]. exists more. split; [exact G|]. split; [exact ND|]. intros [|k] x Hx; cbn [nth_error firstn] in *.
      * injection Hx as <-. right. auto.
      * destruct (H k x Hx) as [H'|[H1 H2]]; [left; exact H'|right]. split; [exact H1|]. destruct H2 as [?|[?|?]]; auto using in_cons.
    + rewrite D2 in E. destruct (sgpd_adds s ds) as [rs0 s0] eqn:E0. injection E as <- <-. destruct (IH _ _ _ E0) as (L & more & G & ND & H).
      split; [cbn [length]; congruence|]. exists more. split; [exact G|]. split; [exact ND|]. intros [|k] x Hx; cbn [nth_error firstn] in *.
      * injection Hx as <-. right. auto.
      * destruct (H k x Hx) as [H'|[H1 H2]]; [left; exact H'|right]. split; [exact H1|]. destruct H2 as [?|[?|?]]; auto using in_cons.
    + rewrite D3 in E. match type of E with context [sgpd_adds ?x ds] => destruct (sgpd_adds x ds) as [rs0 s0] eqn:E0 end.
      injection E as <- <-. destruct (IH _ _ _ E0) as (L & more & G & ND & H). cbn [sd_groups] in *.
      split; [cbn [length]; congruence|]. exists (d :: more). rewrite <- app_assoc in G. split; [exact G|]. split.
      { intros Nd. apply ND. apply NoDup_app_iff_snoc; assumption. }
      intros [|k] x Hx; cbn [nth_error firstn] in *.
      * injection Hx as <-. left. exists (len (sd_groups s) + 1). split; [reflexivity|]. split; [lia|].
        rewrite G. rewrite nth_error_app2 by (unfold len; lia).
        replace (N.to_nat (len (sd_groups s) + 1 - 1) - length (sd_groups s))%nat with 0%nat by (unfold len; lia). reflexivity.
      * destruct (H k x Hx) as [H'|[H1 H2]]; [left; exact H'|right]. split; [exact H1|].
        destruct H2 as [?|[I|?]]; auto using in_cons. apply in_app_or in I. destruct I as [I|[<-|[]]]; auto using in_eq.
Qed.
(* each description added gets an index from which it is read at any later
   time; it is refused only if empty or added before *)
Theorem C27_descriptions_stable : forall ty ds rs s, sgpd_adds (sgpd_new ty) ds = (rs, s) ->
  length rs = length ds /\ NoDup (sd_groups s) /\
  forall k d, nth_error ds k = Some d ->
    (exists i, nth_error rs k = Some (Ok i) /\ sgpd_get s i = Ok d) \/
    (nth_error rs k = Some (Err MP4BadParamErr) /\ (d = [] \/ In d (firstn k ds))).
Proof.
  intros ty ds rs s E. destruct (adds_spec _ _ _ _ E) as (L & more & G & ND & H). split; [exact L|]. split; [apply ND; constructor|].
  intros k d Hk. destruct (H k d Hk) as [(i & H1 & H2 & H3)|[H1 H2]].
  - left. exists i. split; [exact H1|]. unfold sgpd_get, nthN.
    assert (Hl : (N.to_nat (i - 1) < length (sd_groups s))%nat) by (apply nth_error_Some; congruence).
    destruct (N.ltb_spec i 1); [lia|]. destruct (N.ltb_spec (len (sd_groups s)) i); [unfold len in *; lia|]. cbn [orb]. rewrite H3. reflexivity.
  - right. split; [exact H1|]. cbn [sgpd_new sd_groups] in H2. destruct H2 as [?|[[]|?]]; auto.
Qed.
Print Assumptions C27_descriptions_stable.
(* one addition: the next index, nothing else changes *)
Theorem C27_addition : forall s d i s', sgpd_add s d = Ok (i, s') ->
  i = len (sd_groups s) + 1 /\ sgpd_get s' i = Ok d /\ (forall j, j <> i -> sgpd_get s' j = sgpd_get s j) /\ ~ In d (sd_groups s).
Proof.
  intros s d i s' E. destruct (sgpd_add_cases s d) as [(D1 & D2)|[(D1 & D2)|(D1 & D2 & D3)]]; try congruence.
  rewrite D3 in E. injection E as <- <-. split; [reflexivity|]. unfold sgpd_get, nthN. cbn [sd_groups]. lens. rewrite N.add_0_r. split; [|split; [|exact D2]].
  - destruct (N.ltb_spec (len (sd_groups s) + 1) 1); [lia|]. destruct (N.ltb_spec (len (sd_groups s) + 1) (len (sd_groups s) + 1)); [lia|]. cbn [orb].
    rewrite nth_error_app2 by (unfold len; lia).
    replace (N.to_nat (len (sd_groups s) + 1 - 1) - length (sd_groups s))%nat with 0%nat by (unfold len; lia). reflexivity.
  - intros j Hj. destruct (N.ltb_spec j 1); [reflexivity|]. cbn [orb].
    destruct (N.ltb_spec (len (sd_groups s) + 1) j), (N.ltb_spec (len (sd_groups s)) j); try lia; try reflexivity.
    rewrite nth_error_app1 by (unfold len in *; lia). reflexivity.
Qed.
Print Assumptions C27_addition.
Theorem C27_bad_index : forall s i, i = 0 \/ len (sd_groups s) < i -> sgpd_get s i = Err MP4BadParamErr.
Proof.
  intros s i H. unfold sgpd_get. destruct (N.ltb_spec i 1); [reflexivity|]. destruct (N.ltb_spec (len (sd_groups s)) i); [reflexivity|lia].
Qed.
Print Assumptions C27_bad_index.
Theorem C27_sgpd_round_trip : forall s, l_ok sgpd_layout s -> 8 + len (l_body sgpd_layout s) < 4294967296 ->
  round_trip sgpd_codec sgpd_layout s.
Proof. intros s. apply exact_round_trip. exact sgpd_exact. Qed.
Print Assumptions C27_sgpd_round_trip.
Theorem C27_sgpd_robust : robust sgpd_codec.
Proof. exact sgpd_robust. Qed.
Print Assumptions C27_sgpd_robust.
Example C27_ex :
  let '(rs, s) := sgpd_adds (sgpd_new 1919904876) [[1; 2]; [3]; []; [1; 2]; [4; 5]] in
  rs = [Ok 1; Ok 2; Err MP4BadParamErr; Err MP4BadParamErr; Ok 3] /\ l_ok sgpd_layout s /\
  sgpd_get s 2 = Ok [3] /\
  write_box sgpd_codec s = Ok (box (code "sgpd") (be32 16777216 ++ be32 1919904876 ++ be32 0 ++ be32 3 ++
    be32 2 ++ [1; 2] ++ be32 1 ++ [3] ++ be32 2 ++ [4; 5])).
Proof.
  vm_compute. repeat split; try reflexivity; discriminate.
Qed.
(* the descriptions of a fragment joined with those of the track *)
Theorem C27_merge : forall s other, NoDup (sd_groups s) ->
  exists s', sgpd_merge (Some s) other = Some s' /\ NoDup (sd_groups s') /\
    (exists more, sd_groups s' = sd_groups s ++ more) /\
    (forall d, In d (sd_groups s') <-> In d (sd_groups s) \/ (In d (sd_groups other) /\ d <> [])).
Proof.
  intros s other. cbn [sgpd_merge]. generalize (sd_groups other). intros l. revert s.
  induction l as [|d l IH]; intros s ND; cbn [fold_left].
  - exists s. split; [reflexivity|]. split; [exact ND|]. split; [exists []; rewrite app_nil_r; reflexivity|]. cbn [In]. tauto.
  - assert (M : (merge_one s d = s /\ (d = [] \/ In d (sd_groups s))) \/
      (d <> [] /\ ~ In d (sd_groups s) /\ sd_groups (merge_one s d) = sd_groups s ++ [d])).
    { unfold merge_one. destruct (sgpd_add_cases s d) as [(D1 & D2)|[(D1 & D2)|(D1 & D2 & D3)]].
      - subst d. left. auto.
      - left. split; [|auto]. rewrite D2. destruct (sgpd_find s d); [reflexivity| |reflexivity]. destruct (_ =? _)%Z; reflexivity.
      - right. split; [exact D1|]. split; [exact D2|]. rewrite D3. unfold sgpd_find. destruct d; [contradiction|].
        destruct (find_from 0 (sd_groups s) (n :: d)) eqn:Ef; [apply find_from_some in Ef; destruct Ef as [_ Ef]; apply nth_error_In in Ef; contradiction|].
        change (MP4NotFoundErr =? MP4NotFoundErr)%Z with true. reflexivity. }
    destruct M as [[-> M]|(M1 & M2 & M3)].
    + destruct (IH s ND) as (s' & E & N' & (more & G) & I). exists s'. split; [exact E|]. split; [exact N'|]. split; [exists more; exact G|].
      intros x. rewrite I. cbn [In]. split; [tauto|]. intros [H|[[<-|H] H2]]; auto. destruct M; [contradiction|auto].
    + assert (ND' : NoDup (sd_groups (merge_one s d))) by (rewrite M3; apply NoDup_app_iff_snoc; assumption).
      destruct (IH _ ND') as (s' & E & N' & (more & G) & I). exists s'. split; [exact E|]. split; [exact N'|].
      split; [exists (d :: more); rewrite G, M3, <- app_assoc; reflexivity|].
      intros x. rewrite I, M3, in_app_iff. cbn [In]. split.
      * intros [[H|[<-|[]]]|[H1 H2]]; auto.
      * intros [H|[[<-|H] H2]]; auto.
Qed.
Print Assumptions C27_merge.
(* a track without descriptions of the type takes over the fragment's *)
Theorem C27_merge_new : forall other, NoDup (sd_groups other) -> ~ In [] (sd_groups other) -> sd_groups other <> [] ->
  exists s', sgpd_merge None other = Some s' /\ sd_type s' = sd_type other /\ sd_groups s' = sd_groups other.
Proof.
  intros other ND NE Hn. cbn [sgpd_merge].
  assert (Q : forall l s, NoDup (sd_groups s ++ l) -> ~ In [] l ->
    let s' := fold_left (fun s d => match sgpd_add s d with Ok (_, s') => s' | _ => s end) l s in
    sd_type s' = sd_type s /\ sd_groups s' = sd_groups s ++ l).
  { induction l as [|d l IH]; intros s N1 N2; cbn [fold_left]; [rewrite app_nil_r; auto|].
    destruct (sgpd_add_cases s d) as [(D1 & D2)|[(D1 & D2)|(D1 & D2 & D3)]].
    - contradiction N2. left. auto.
    - apply NoDup_remove_2 in N1. contradiction N1. apply in_or_app. left. exact D1.
    - rewrite D3. match goal with |- context [fold_left _ l ?x] => destruct (IH x) as [I1 I2] end; cbn [sd_groups sd_type] in *.
      + rewrite <- app_assoc. exact N1.
      + intros I. apply N2. right. exact I.
      + split; [exact I1|]. rewrite I2, <- app_assoc. reflexivity. }
  destruct (sd_groups other) as [|d l] eqn:E; [contradiction|]. eexists. split; [reflexivity|].
  destruct (Q (d :: l) (sgpd_new (sd_type other)) ND NE) as [Q1 Q2]. split; [exact Q1|exact Q2].
Qed.
Print Assumptions C27_merge_new.
(* a refused empty description leaves an empty box: the next save reads through a null pointer *)
Theorem C27_empty_refuted : exists t s, gt_addDesc (mkGtab [] [] 0) 7 [] = (Err MP4BadParamErr, t) /\
  find_by sd_type 7 (gt_descs t) = Some s /\ write_box sgpd_codec s = UB.
Proof. eexists _, _. split; [reflexivity|]. split; [reflexivity|]. vm_compute. reflexivity. Qed.
Print Assumptions C27_empty_refuted.
(* boxes of version 0 and 2 are read but not written back as read *)
Theorem C27_other_versions_refuted : exists i s bs s',
  read_box sgpd_codec (sgpd_new 0) i = Ok ((ALeaf _ s, 22), []) /\ sd_ver s = 0 /\ sd_groups s = [[1; 2]] /\
  write_box sgpd_codec s = Ok bs /\ read_box sgpd_codec (sgpd_new 0) bs = Ok ((ALeaf _ s', 26), []) /\ sd_groups s' <> sd_groups s.
Proof.
  exists [0;0;0;22; 115;103;112;100; 0;0;0;0; 0;0;0;7; 0;0;0;1; 1;2]. do 3 eexists.
  do 5 (split; [vm_compute; reflexivity|]). vm_compute. discriminate.
Qed.
Print Assumptions C27_other_versions_refuted.

(* ------------------------------------------------------------------ *)
(* C46: the numbers of the samples in a group                           *)

Lemma last_ends g : forall l x i, last_numbers g x x i l = run_ends g i (x :: l).
Proof.
  induction l as [|y l IH]; intros x i; cbn [last_numbers].
  - cbn [run_ends]. rewrite andb_true_r, app_nil_r. reflexivity.
  - destruct (N.eqb_spec x y) as [<-|E].
    + rewrite IH. change (run_ends g i (x :: x :: l)) with
        ((if (x =? g) && negb (x =? x) then [i] else []) ++ run_ends g (i + 1) (x :: l)).
      rewrite N.eqb_refl. cbn [negb]. rewrite andb_false_r. reflexivity.
    + rewrite IH. change (run_ends g i (x :: y :: l)) with
        ((if (x =? g) && negb (y =? x) then [i] else []) ++ run_ends g (i + 1) (y :: l)).
      destruct (N.eqb_spec y x); [congruence|]. cbn [negb]. rewrite andb_true_r. reflexivity.
Qed.
(* what is reported: the last sample of every run of the group *)
Theorem C46_run_ends : forall t ty g s, find_by sg_type ty (gt_maps t) = Some s -> sg_idx s <> [] ->
  gt_numbers t ty g = Ok (run_ends g 1 (sg_idx s)).
Proof.
  intros t ty g s F Hn. unfold gt_numbers. rewrite F. destruct (sg_idx s) as [|x r]; [contradiction|]. rewrite last_ends. reflexivity.
Qed.
Print Assumptions C46_run_ends.
(* all of them are in the group, and all samples of the group are reported if
   no two neighbours belong to it *)
Theorem C46_numbers : forall g l i,
  (forall n, In n (run_ends g i l) -> In n (members g i l)) /\
  ((forall k, nth_error l k = Some g -> nth_error l (S k) <> Some g) -> run_ends g i l = members g i l).
Proof.
  intros g. induction l as [|x l IH]; intros i; cbn [run_ends members]; [split; auto|].
  destruct (IH (i + 1)) as [A B]. split.
  - intros n. rewrite !in_app_iff. intros [H|H]; [|auto]. left. destruct (x =? g); [cbn [andb] in H|destruct H].
    destruct (match l with [] => true | y :: _ => negb (y =? x) end); [exact H|destruct H].
  - intros H. rewrite B by (intros k Hk; exact (H (S k) Hk)). f_equal.
    destruct (N.eqb_spec x g) as [->|E]; [|reflexivity]. specialize (H 0%nat eq_refl). cbn [andb nth_error] in *.
    destruct l as [|y l]; [reflexivity|]. destruct (N.eqb_spec y g) as [->|E]; [contradiction H; reflexivity|reflexivity].
Qed.
Print Assumptions C46_numbers.
Lemma members_spec g : forall l i n, In n (members g i l) <-> i <= n /\ nthN l (n - i) = Some g.
Proof.
  induction l as [|x l IH]; intros i n; cbn [members].
  - split; [intros []|]. intros [_ H]. unfold nthN in H. destruct (N.to_nat (n - i)); discriminate.
  - rewrite in_app_iff, IH. unfold nthN. split.
    + intros [H|[H1 H2]].
      * destruct (N.eqb_spec x g) as [->|]; [|destruct H]. destruct H as [<-|[]]. split; [lia|]. rewrite N.sub_diag. reflexivity.
      * split; [lia|]. replace (N.to_nat (n - i)) with (S (N.to_nat (n - (i + 1)))) by lia. exact H2.
    + intros [H1 H2]. destruct (N.eq_dec n i) as [->|Ne].
      * left. rewrite N.sub_diag in H2. injection H2 as ->. rewrite N.eqb_refl. left. reflexivity.
      * right. split; [lia|]. replace (N.to_nat (n - i)) with (S (N.to_nat (n - (i + 1)))) in H2 by lia. exact H2.
Qed.
(* [members] are the numbers meant: sample n is in the group *)
Theorem C46_members : forall s g n, 1 <= n -> n <= len (sg_idx s) ->
  In n (members g 1 (sg_idx s)) <-> sbgp_get s n = Ok g.
Proof.
  intros s g n H1 H2. rewrite members_spec. unfold sbgp_get. destruct (N.ltb_spec n 1); [lia|]. destruct (N.ltb_spec (len (sg_idx s)) n); [lia|].
  unfold nthN. destruct (nth_error (sg_idx s) (N.to_nat (n - 1))) eqn:E.
  - split; [intros [_ H3]; congruence|]. intros H3. split; [exact H1|]. congruence.
  - split; [intros [_ H3]; congruence|discriminate].
Qed.
Print Assumptions C46_members.
(* the others are missing: of samples 1 to 3 only the last is reported *)
Theorem C46_missing_refuted : exists t, tsteps (mkGtab [] [] 0) [TAdd 4; TDesc 7 [1]; TMap 7 1 0 3 Normal] = Ok t /\
  gt_get t 7 1 = Ok 1 /\ gt_get t 7 2 = Ok 1 /\ gt_get t 7 3 = Ok 1 /\ gt_numbers t 7 1 = Ok [3].
Proof. eexists. split; [vm_compute; reflexivity|]. vm_compute. auto. Qed.
Print Assumptions C46_missing_refuted.
(* ... and a map made before the first sample is read outside its table *)
Theorem C46_empty_refuted : exists t, tsteps (mkGtab [] [] 0) [TDesc 7 [1]; TMap 7 1 0 0 Normal] = Ok t /\ gt_numbers t 7 1 = UB.
Proof. eexists. split; [vm_compute; reflexivity|]. vm_compute. reflexivity. Qed.
Print Assumptions C46_empty_refuted.

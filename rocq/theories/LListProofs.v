From Verif Require Import Base Codec LListModel LListSpec.

(* the addresses in [as_] form a chain carrying the values [xs], ending in NULL *)
Inductive chain (h : heap) : option addr -> list addr -> list N -> Prop :=
| chain_nil : chain h None [] []
| chain_cons a c as_ xs :
    hcell h a = Some c -> chain h (link c) as_ xs ->
    chain h (Some a) (a :: as_) (data c :: xs).

Record rep (h : heap) (l : mlist) (as_ : list addr) (xs : list N) : Prop := {
  r_chain : chain h (head l) as_ xs;
  r_nodup : NoDup as_;
  r_fresh : forall a, In a as_ -> a < hnext h;
  r_count : entryCount l = len xs;
  r_small : len xs < 4294967296;
  r_tail : as_ <> [] -> tail l = Some (last as_ 0);
  r_found : as_ <> [] -> exists k, foundEntryNumber l = N.of_nat k /\ (k < length as_)%nat /\
                                   foundEntry l = nth_error as_ k }.

Lemma chain_length h p as_ xs : chain h p as_ xs -> length as_ = length xs.
Proof. induction 1; cbn [length]; congruence. Qed.

Lemma chain_head h p as_ xs : chain h p as_ xs -> p = hd_error as_.
Proof. destruct 1; reflexivity. Qed.

(* only the cells on the chain matter *)
Lemma chain_ext h h' p as_ xs :
  chain h p as_ xs -> (forall a, In a as_ -> hcell h' a = hcell h a) -> chain h' p as_ xs.
Proof.
  induction 1 as [|a c as_ xs Hc Hch IH]; intros E.
  - constructor.
  - apply chain_cons.
    + rewrite E by (left; reflexivity). assumption.
    + apply IH. intros; apply E; right; assumption.
Qed.

Lemma walk_suffix h k : forall p as_ xs prev, chain h p as_ xs -> (k <= length as_)%nat ->
  exists prev', walk h k prev p = Ok (prev', nth_error as_ k) /\
    (k = 0%nat -> prev' = prev) /\ (forall j, k = S j -> prev' = nth_error as_ j).
Proof.
  induction k as [|k IH]; intros p as_ xs prev Hch Hk.
  - exists prev. cbn [walk]. split; [|split; [auto | intros; discriminate]].
    rewrite (chain_head _ _ _ _ Hch). destruct as_; reflexivity.
  - destruct Hch as [|a c as_ xs Hc Hch]; [cbn [length] in Hk; lia|].
    cbn [walk]. rewrite Hc.
    destruct (IH (link c) as_ xs (Some a) Hch ltac:(cbn [length] in Hk; lia)) as (p' & E & E0 & ES).
    exists p'. rewrite E. split; [reflexivity | split; [discriminate|]].
    intros j Hj. injection Hj as <-. destruct k as [|k].
    + rewrite E0 by reflexivity. reflexivity.
    + rewrite (ES k) by reflexivity. reflexivity.
Qed.

Lemma chain_nth h p as_ xs k a :
  chain h p as_ xs -> nth_error as_ k = Some a ->
  exists c, hcell h a = Some c /\ nth_error xs k = Some (data c) /\ link c = nth_error as_ (S k).
Proof.
  intros Hch; revert k; induction Hch as [|a0 c as_ xs Hc Hch IH]; intros k E.
  - destruct k; discriminate.
  - destruct k as [|k].
    + cbn [nth_error] in E. injection E as <-. exists c. split; [assumption|]. split; [reflexivity|].
      rewrite (chain_head _ _ _ _ Hch). destruct as_; reflexivity.
    + cbn [nth_error] in E. destruct (IH _ E) as (c' & ? & ? & ?). exists c'. auto.
Qed.

Lemma chain_from h p as_ xs k :
  chain h p as_ xs -> (k <= length as_)%nat -> chain h (nth_error as_ k) (skipn k as_) (skipn k xs).
Proof.
  intros Hch; revert k; induction Hch as [|a c as_ xs Hc Hch IH]; intros k Hk.
  - cbn [length] in Hk. assert (k = 0%nat) by lia; subst. constructor.
  - destruct k as [|k].
    + cbn. econstructor; eassumption.
    + cbn [skipn nth_error]. apply IH. cbn [length] in Hk; lia.
Qed.

Lemma chain_snoc h h' p as_ xs e x :
  chain h p as_ xs -> as_ <> [] -> NoDup as_ ->
  hcell h' e = Some (mkCell None x) ->
  (forall a, In a as_ -> a <> last as_ 0 -> hcell h' a = hcell h a) ->
  (forall c, hcell h (last as_ 0) = Some c -> hcell h' (last as_ 0) = Some (mkCell (Some e) (data c))) ->
  chain h' p (as_ ++ [e]) (xs ++ [x]).
Proof.
  induction 1 as [|a c as_ xs Hc Hch IH]; intros Hne Hnd He Hsame Hlast; [congruence|].
  destruct as_ as [|b as_].
  - cbn [last] in *. inversion Hch; subst. cbn [app].
    change (data c) with (data (mkCell (Some e) (data c))).
    apply chain_cons; [apply Hlast; assumption|]. cbn [link].
    change x with (data (mkCell None x)). apply chain_cons; [assumption | constructor].
  - change ((a :: b :: as_) ++ [e]) with (a :: (b :: as_) ++ [e]).
    change ((data c :: xs) ++ [x]) with (data c :: xs ++ [x]).
    assert (last (a :: b :: as_) 0 = last (b :: as_) 0) as El by reflexivity.
    rewrite El in *.
    inversion Hnd as [|? ? Hni Hnd']; subst.
    apply chain_cons.
    + rewrite Hsame; [assumption | left; reflexivity|].
      intros ->. apply Hni. destruct (exists_last (l := b :: as_) ltac:(discriminate)) as (l' & z & Ez).
      rewrite Ez. rewrite last_last. apply in_or_app; right; left; reflexivity.
    + apply IH; auto; [discriminate|]. intros a' Ha'. apply Hsame. right; assumption.
Qed.

Lemma last_In (l : list N) : l <> [] -> In (last l 0) l.
Proof.
  intros H. destruct (exists_last H) as (l' & z & ->). rewrite last_last.
  apply in_or_app; right; left; reflexivity.
Qed.

Lemma chain_remove h p as_ xs k a :
  chain h p as_ xs -> NoDup as_ -> nth_error as_ k = Some a ->
  forall h', (forall b, In b as_ -> b <> a -> (forall j, k = S j -> nth_error as_ j <> Some b) ->
              hcell h' b = hcell h b) ->
  (forall j b c, k = S j -> nth_error as_ j = Some b -> hcell h b = Some c ->
     hcell h' b = Some (mkCell (nth_error as_ (S k)) (data c))) ->
  chain h' (match k with O => nth_error as_ 1 | S _ => p end) (remove_at k as_) (remove_at k xs).
Proof.
  intros Hch; revert k; induction Hch as [|a0 c as_ xs Hc Hch IH]; intros k Hnd E h' Hsame Hprev.
  - destruct k; discriminate.
  - inversion Hnd as [|? ? Hni Hnd']; subst. destruct k as [|k].
    + cbn [nth_error] in E. injection E as ->. cbn [remove_at nth_error].
      replace (match as_ with [] => None | x :: _ => Some x end) with (link c)
        by (rewrite (chain_head _ _ _ _ Hch); destruct as_; reflexivity).
      apply chain_ext with h; [assumption|]. intros b Hb. apply Hsame.
      * right; assumption.
      * intros ->; contradiction.
      * intros; discriminate.
    + cbn [nth_error] in E. cbn [remove_at].
      destruct k as [|k].
      * (* a0 is the previous cell *)
        specialize (Hprev 0%nat a0 c eq_refl eq_refl Hc).
        change (data c) with (data (mkCell (nth_error (a0 :: as_) 2) (data c))).
        apply chain_cons; [assumption|]. cbn [link].
        change (nth_error (a0 :: as_) 2) with (nth_error as_ 1).
        apply (IH 0%nat); auto.
        -- intros b Hb Hne _. apply Hsame; [right; assumption | assumption |].
           intros j Hj. injection Hj as <-. cbn. intros Eb; injection Eb as <-. contradiction.
        -- intros; discriminate.
      * apply chain_cons.
        -- rewrite Hsame; [assumption | left; reflexivity | |].
           ++ intros ->. apply Hni. eapply nth_error_In; eassumption.
           ++ intros j Hj. injection Hj as <-. cbn [nth_error]. intros Eb. apply Hni. eapply nth_error_In; eassumption.
        -- apply (IH (S k)); auto.
           ++ intros b Hb Hne Hj. apply Hsame; [right; assumption | assumption |].
              intros j Ej. injection Ej as <-. cbn [nth_error]. apply Hj. reflexivity.
           ++ intros j b c' Ej Eb Hc'. injection Ej as <-.
              apply (Hprev (S k) b c'); auto.
Qed.

Lemma remove_at_In {A} k (l : list A) x : In x (remove_at k l) -> In x l.
Proof.
  revert k; induction l as [|y l IH]; intros k H; destruct k; cbn [remove_at In] in *; auto.
  destruct H as [->|H]; [left; reflexivity | right; eapply IH; eassumption].
Qed.
Lemma remove_at_NoDup {A} k (l : list A) : NoDup l -> NoDup (remove_at k l).
Proof.
  intros H; revert k; induction H as [|x l Hni Hnd IH]; intros k; destruct k; cbn [remove_at]; try constructor; auto.
  intros Hx; apply Hni; eapply remove_at_In; eassumption.
Qed.
Lemma remove_at_length {A} k (l : list A) : (k < length l)%nat -> length (remove_at k l) = (length l - 1)%nat.
Proof.
  revert k; induction l as [|y l IH]; intros k H; cbn [length] in H; [lia|].
  destruct k; cbn [remove_at length]; [lia|]. rewrite IH by lia. destruct l; cbn [length] in *; lia.
Qed.
Lemma remove_at_last k (l : list N) :
  remove_at k l <> [] -> (k < length l)%nat ->
  last (remove_at k l) 0 = if Nat.eqb k (length l - 1) then nth (k - 1) l 0 else last l 0.
Proof.
  revert k; induction l as [|y l IH]; intros k Hne H; cbn [length] in H; [lia|].
  destruct k as [|k].
  - cbn [remove_at] in *. destruct l as [|z l]; [congruence|]. reflexivity.
  - cbn [remove_at]. destruct l as [|z l]; [cbn [length] in H; lia|].
    cbn [length] in *. destruct (Nat.eqb_spec (S k) (S (S (length l)) - 1)) as [E|E].
    + destruct (remove_at k (z :: l)) as [|w r] eqn:Er.
      * destruct k as [|k]; [reflexivity|]. cbn [remove_at] in Er. discriminate.
      * change (last (y :: w :: r) 0) with (last (w :: r) 0). rewrite <- Er.
        rewrite IH; [|rewrite Er; discriminate | cbn [length]; lia].
        cbn [length]. destruct (Nat.eqb_spec k (S (length l) - 1)); [|lia].
        destruct k as [|k]; [destruct l; cbn [remove_at length] in *; [discriminate | lia]|].
        replace (S (S k) - 1)%nat with (S k) by lia. replace (S k - 1)%nat with k by lia. reflexivity.
    + destruct (remove_at k (z :: l)) as [|w r] eqn:Er.
      * apply (f_equal (@length N)) in Er. rewrite remove_at_length in Er by (cbn [length]; lia).
        cbn [length] in Er. lia.
      * change (last (y :: w :: r) 0) with (last (w :: r) 0). rewrite <- Er.
        rewrite IH; [|rewrite Er; discriminate | cbn [length]; lia].
        cbn [length]. destruct (Nat.eqb_spec k (S (length l) - 1)); [lia|]. reflexivity.
Qed.

Lemma rep_init h : rep h makeLinkedList [] [].
Proof. constructor; cbn; try congruence; try constructor; try lia; try contradiction. Qed.

Lemma last_cons a (l : list N) : l <> [] -> last (a :: l) 0 = last l 0.
Proof. destruct l; [congruence | reflexivity]. Qed.

Lemma prepend_ok h l as_ xs x :
  rep h l as_ xs -> len xs + 1 < 4294967296 ->
  exists h' l' as', prependListEntry h l x = Ok (h', l') /\ rep h' l' as' (x :: xs).
Proof.
  intros [Hch Hnd Hfr Hcnt Hsm Htl Hfo] Hlt. unfold prependListEntry.
  assert (forall c, chain (snd (halloc h c)) (head l) as_ xs) as Hch'.
  { intros c. apply chain_ext with h; [assumption|]. intros a Ha. cbn.
    destruct (N.eqb_spec a (hnext h)); [apply Hfr in Ha; lia | reflexivity]. }
  assert (~ In (hnext h) as_) as Hni by (intros Ha; apply Hfr in Ha; lia).
  destruct (head l) as [hd|] eqn:Ehd; cbn [halloc].
  - do 2 eexists. exists (hnext h :: as_). split; [reflexivity|]. constructor; cbn.
    + change x with (data (mkCell (Some hd) x)). apply chain_cons; [cbn; rewrite N.eqb_refl; reflexivity|].
      apply Hch'.
    + constructor; assumption.
    + intros a [<-|Ha]; [lia|]. apply Hfr in Ha; lia.
    + rewrite Hcnt, w32_small by lia. lens. lia.
    + lens. lia.
    + intros _. inversion Hch; subst. rewrite Htl by discriminate. reflexivity.
    + intros _. exists 0%nat. cbn. split; [reflexivity|]. split; [lia | reflexivity].
  - inversion Hch; subst. do 2 eexists. exists [hnext h]. split; [reflexivity|]. constructor; cbn.
    + change x with (data (mkCell None x)). apply chain_cons; [cbn; rewrite N.eqb_refl; reflexivity | constructor].
    + constructor; [intros [] | constructor].
    + intros a [<-|[]]; lia.
    + reflexivity.
    + lens; lia.
    + reflexivity.
    + intros _. exists 0%nat. cbn. split; [reflexivity|]. split; [lia | reflexivity].
Qed.

Lemma add_ok h l as_ xs x :
  rep h l as_ xs -> len xs + 1 < 4294967296 ->
  exists h' l' as', addListEntry h l x = Ok (h', l') /\ rep h' l' as' (xs ++ [x]).
Proof.
  intros [Hch Hnd Hfr Hcnt Hsm Htl Hfo] Hlt. unfold addListEntry.
  assert (~ In (hnext h) as_) as Hni by (intros Ha; apply Hfr in Ha; lia).
  pose proof (chain_length _ _ _ _ Hch) as Hlen.
  destruct (head l) as [hd|] eqn:Ehd; cbn [halloc].
  - destruct as_ as [|a0 as0]; [inversion Hch|].
    remember (a0 :: as0) as as_ eqn:Eas. assert (as_ <> []) as Hne by (rewrite Eas; discriminate).
    clear a0 as0 Eas.
    rewrite Htl by assumption.
    assert (exists c, hcell h (last as_ 0) = Some c) as [c Hc].
    { destruct (In_nth_error _ _ (last_In _ Hne)) as [k Hk].
      destruct (chain_nth _ _ _ _ _ _ Hch Hk) as (c & Hc & _). eauto. }
    assert (last as_ 0 <> hnext h) as Hlne.
    { intros E. apply Hni. rewrite <- E. apply last_In; assumption. }
    cbn [hcell]. destruct (N.eqb_spec (last as_ 0) (hnext h)); [contradiction|].
    rewrite Hc. do 2 eexists. exists (as_ ++ [hnext h]). split; [reflexivity|]. constructor.
    + cbn [LListModel.head]. eapply chain_snoc; try eassumption.
      * cbn. destruct (N.eqb_spec (hnext h) (last as_ 0)); [congruence|]. rewrite N.eqb_refl. reflexivity.
      * intros a Ha Hna. cbn. destruct (N.eqb_spec a (last as_ 0)); [contradiction|].
        destruct (N.eqb_spec a (hnext h)) as [->|]; [contradiction | reflexivity].
      * intros c' Hc'. rewrite Hc in Hc'. injection Hc' as <-. cbn. rewrite N.eqb_refl. reflexivity.
    + apply NoDup_rev in Hnd. rewrite <- (rev_involutive (as_ ++ [hnext h])). apply NoDup_rev.
      rewrite rev_app_distr. cbn [rev app]. constructor; [rewrite <- in_rev; assumption | assumption].
    + cbn. intros a Ha. apply in_app_or in Ha. destruct Ha as [Ha|[<-|[]]]; [apply Hfr in Ha|]; lia.
    + cbn. rewrite Hcnt, w32_small by lia. lens. lia.
    + lens. lia.
    + intros _. cbn. rewrite last_last. reflexivity.
    + intros _. exists (length as_). cbn [foundEntryNumber foundEntry]. split; [|split].
      * rewrite Hcnt. unfold sub32. rewrite (w32_small (len xs + 1)), (w32_small 1) by lia.
        unfold len, w32. rewrite <- Hlen. unfold len in Hlt. rewrite <- Hlen in Hlt. lia.
      * rewrite app_length. cbn [length]. lia.
      * rewrite nth_error_app2 by lia. rewrite Nat.sub_diag. reflexivity.
  - inversion Hch; subst. do 2 eexists. exists [hnext h]. split; [reflexivity|]. constructor; cbn.
    + change x with (data (mkCell None x)). apply chain_cons; [cbn; rewrite N.eqb_refl; reflexivity | constructor].
    + constructor; [intros [] | constructor].
    + intros a [<-|[]]; lia.
    + reflexivity.
    + lens; lia.
    + reflexivity.
    + intros _. exists 0%nat. cbn. split; [reflexivity|]. split; [lia | reflexivity].
Qed.

Lemma get_ok h l as_ xs i x :
  rep h l as_ xs -> nthN xs i = Some x ->
  exists l', getListEntry h l i = Ok (x, l') /\ rep h l' as_ xs.
Proof.
  intros [Hch Hnd Hfr Hcnt Hsm Htl Hfo] Hx. unfold getListEntry, nthN in *.
  pose proof (chain_length _ _ _ _ Hch) as Hlen.
  assert (N.to_nat i < length xs)%nat as Hi by (apply nth_error_Some; congruence).
  rewrite Hcnt. destruct (N.leb_spec (len xs) i) as [H|_]; [unfold len in H; lia|].
  assert (as_ <> []) as Hne by (intros ->; cbn [length] in *; lia).
  destruct (Hfo Hne) as (k & Ek & Hk & Efe).
  assert (exists a, nth_error as_ (N.to_nat i) = Some a) as [a Ha].
  { destruct (nth_error as_ (N.to_nat i)) eqn:E; [eauto|]. apply nth_error_None in E. lia. }
  destruct (chain_nth _ _ _ _ _ _ Hch Ha) as (c & Hc & Hd & _).
  assert (data c = x) as Edx by congruence.
  set (st := if i <? foundEntryNumber l then (0, head l) else (foundEntryNumber l, foundEntry l)).
  assert (exists pr, walk h (N.to_nat (i - fst st)) None (snd st) = Ok (pr, Some a)) as [pr Hw].
  { unfold st. destruct (N.ltb_spec i (foundEntryNumber l)) as [H|H]; cbn [fst snd].
    - destruct (walk_suffix h (N.to_nat (i - 0)) (head l) as_ xs None Hch ltac:(lia)) as (pr & E & _).
      exists pr. rewrite E. replace (N.to_nat (i - 0)) with (N.to_nat i) by lia. rewrite Ha. reflexivity.
    - rewrite Efe.
      destruct (walk_suffix h (N.to_nat (i - foundEntryNumber l)) (nth_error as_ k) (skipn k as_) (skipn k xs) None
                  (chain_from _ _ _ _ k Hch ltac:(lia)) ltac:(rewrite skipn_length; lia)) as (pr & E & _).
      exists pr. rewrite E. f_equal. f_equal.
      rewrite Ek. rewrite <- Ha. clear - Hk Ek H.
      replace (N.to_nat i) with (k + N.to_nat (i - N.of_nat k))%nat by lia.
      generalize (N.to_nat (i - N.of_nat k)) as j. clear. revert k.
      induction as_ as [|z as_ IH]; intros k j.
      + rewrite skipn_nil. destruct j, k; reflexivity.
      + destruct k as [|k]; [reflexivity|]. cbn [skipn nth_error Nat.add]. apply IH. }
  destruct st as [fn fe]; cbn [fst snd] in Hw. rewrite Hw. cbn [bind]. rewrite Hc, Edx.
  eexists. split; [reflexivity|]. constructor; cbn [LListModel.head LListModel.tail entryCount foundEntryNumber foundEntry]; auto.
  intros _. exists (N.to_nat i). rewrite Ha. split; [lia|]. split; [lia | reflexivity].
Qed.

Lemma get_err h l as_ xs i :
  rep h l as_ xs -> nthN xs i = None -> getListEntry h l i = Err MP4BadParamErr.
Proof.
  intros [Hch Hnd Hfr Hcnt Hsm Htl Hfo] Hx. unfold getListEntry, nthN in *. rewrite Hcnt.
  apply nth_error_None in Hx. destruct (N.leb_spec (len xs) i) as [_|H]; [reflexivity|].
  unfold len in H; lia.
Qed.

Lemma delete_err h l as_ xs i :
  rep h l as_ xs -> len xs <= i -> deleteListEntry h l i = Err MP4BadParamErr.
Proof.
  intros [Hch Hnd Hfr Hcnt Hsm Htl Hfo] Hx. unfold deleteListEntry. rewrite Hcnt.
  destruct (N.leb_spec (len xs) i) as [_|H]; [reflexivity | lia].
Qed.

Lemma delete_ok h l as_ xs i :
  rep h l as_ xs -> i < len xs ->
  exists h' l' as', deleteListEntry h l i = Ok (h', l') /\ rep h' l' as' (remove_at (N.to_nat i) xs).
Proof.
  intros [Hch Hnd Hfr Hcnt Hsm Htl Hfo] Hi. unfold deleteListEntry. rewrite Hcnt.
  destruct (N.leb_spec (len xs) i) as [H|_]; [lia|].
  pose proof (chain_length _ _ _ _ Hch) as Hlen.
  remember (N.to_nat i) as k eqn:Ekd. assert (k < length xs)%nat as Hk by (unfold len in Hi; lia).
  assert (exists a, nth_error as_ k = Some a) as [a Ha].
  { destruct (nth_error as_ k) eqn:E; [eauto|]. apply nth_error_None in E. lia. }
  destruct (chain_nth _ _ _ _ _ _ Hch Ha) as (c & Hc & Hd & Hlk).
  destruct (walk_suffix h k (head l) as_ xs (head l) Hch ltac:(lia)) as (pr & Hw & Hp0 & HpS).
  rewrite Hw, Ha. cbn [bind]. rewrite Hc.
  assert (forall b, In b as_ -> b < hnext h) as Hfr' by exact Hfr.
  assert (sub32 (len xs) 1 = len xs - 1) as Esub.
  { unfold sub32. rewrite (w32_small 1) by lia. unfold w32. lia. }
  rewrite Esub.
  assert (len (remove_at k xs) = len xs - 1) as Elen.
  { unfold len. rewrite remove_at_length by lia. unfold len in *. lia. }
  (* common tail of the proof: any heap h2 with the right cells *)
  assert (forall h2 hd tl', hnext h2 = hnext h ->
            chain h2 hd (remove_at k as_) (remove_at k xs) ->
            (remove_at k as_ <> [] -> tl' = Some (last (remove_at k as_) 0)) ->
            rep h2 (mkList hd tl' (len xs - 1) 0 hd) (remove_at k as_) (remove_at k xs)) as Hfin.
  { intros h2 hd tl' Hn Hc2 Ht2. constructor; cbn.
    - assumption.
    - apply remove_at_NoDup; assumption.
    - intros b Hb. rewrite Hn. apply Hfr. eapply remove_at_In; eassumption.
    - symmetry; assumption.
    - lia.
    - assumption.
    - intros Hne. exists 0%nat. split; [reflexivity|].
      rewrite (chain_head _ _ _ _ Hc2).
      destruct (remove_at k as_); [congruence|]. cbn [length nth_error hd_error]. split; [lia | reflexivity]. }
  assert (remove_at k as_ <> [] ->
          (if i =? len xs - 1 then pr else tail l) = Some (last (remove_at k as_) 0)) as Htl'.
  { intros Hne. rewrite remove_at_last by (try assumption; lia).
    destruct (N.eqb_spec i (len xs - 1)) as [E|E]; destruct (Nat.eqb_spec k (length as_ - 1)) as [E'|E'];
      try (unfold len in *; lia).
    - clear Hfin. destruct k as [|j] eqn:Ek'.
      + exfalso. destruct as_ as [|z [|z2 as_]]; cbn [length remove_at] in *; try congruence; lia.
      + rewrite (HpS j) by reflexivity. replace (S j - 1)%nat with j by lia.
        apply nth_error_nth'. lia.
    - apply Htl. intros ->. cbn [length] in *. lia. }
  destruct (N.eqb_spec i 0) as [E0|E0].
  - assert (k = 0)%nat as Ek0 by lia. cbn [bind].
    do 2 eexists. exists (remove_at k as_). split; [reflexivity|]. apply Hfin; [reflexivity| |assumption].
    pose proof (chain_remove h (head l) as_ xs k a Hch Hnd Ha (hset h a None)) as R.
    rewrite Ek0 in R. rewrite Hlk. rewrite Ek0. apply R.
    + intros b Hb Hne _. cbn. destruct (N.eqb_spec b a); [contradiction | reflexivity].
    + intros; discriminate.
  - destruct k as [|j] eqn:Ek'; [lia|].
    rewrite (HpS j) by reflexivity.
    assert (exists b, nth_error as_ j = Some b) as [b Hb].
    { destruct (nth_error as_ j) eqn:E; [eauto|]. apply nth_error_None in E. lia. }
    destruct (chain_nth _ _ _ _ _ _ Hch Hb) as (pc & Hpc & _ & _).
    assert (b <> a) as Hba.
    { intros ->. rewrite NoDup_nth_error in Hnd.
      specialize (Hnd j (S j) ltac:(lia)). rewrite Hb, Ha in Hnd. specialize (Hnd eq_refl). lia. }
    rewrite Hb. cbn [hset hcell]. destruct (N.eqb_spec b a); [contradiction|]. rewrite Hpc. cbn [bind].
    do 2 eexists. exists (remove_at (S j) as_). split; [reflexivity|].
    apply Hfin; [reflexivity| |].
    2:{ intros Hne. rewrite <- (Htl' Hne), (HpS j) by reflexivity. rewrite Hb. reflexivity. }
    pose proof (chain_remove h (head l) as_ xs (S j) a Hch Hnd Ha
                  (hset (hset h a None) b (Some (mkCell (link c) (data pc))))) as R.
    cbn match in R. apply R.
    + intros d Hdin Hda Hj. cbn. destruct (N.eqb_spec d b) as [->|]; [exfalso; eapply Hj; [reflexivity|assumption]|].
      destruct (N.eqb_spec d a); [contradiction | reflexivity].
    + intros j' d c' Ej Ed Hc'. injection Ej as <-. rewrite Hb in Ed. injection Ed as <-.
      rewrite Hpc in Hc'. injection Hc' as <-. cbn. rewrite N.eqb_refl, Hlk. reflexivity.
Qed.

(* number of insertions in a history *)
Definition is_insert (o : lop) : bool := match o with LPrepend _ | LAdd _ => true | _ => false end.
Definition inserts (os : list lop) : N := len (filter is_insert os).

Lemma remove_at_len_le {A} k (l : list A) : len (remove_at k l) <= len l.
Proof.
  unfold len. enough (length (remove_at k l) <= length l)%nat by lia.
  revert k; induction l as [|y l IH]; intros k; destruct k; cbn [remove_at length]; try lia.
  specialize (IH k). lia.
Qed.

Lemma lrun_refines os : forall h l as_ xs,
  rep h l as_ xs -> len xs + inserts os < 4294967296 ->
  lrun (h, l) os = Ok (seq_run xs os).
Proof.
  induction os as [|o os IH]; intros h l as_ xs Hr Hb; [reflexivity|].
  unfold inserts in Hb. cbn [filter] in Hb. cbn [lrun seq_run].
  destruct o as [x|x|i| |i]; cbn [is_insert] in Hb; lens; cbn [lstep seq_step].
  - destruct (prepend_ok h l as_ xs x Hr ltac:(lia)) as (h' & l' & as' & E & Hr').
    rewrite E. cbn [bind]. erewrite IH; [reflexivity | eassumption | unfold inserts; lens; lia].
  - destruct (add_ok h l as_ xs x Hr ltac:(lia)) as (h' & l' & as' & E & Hr').
    rewrite E. cbn [bind]. erewrite IH; [reflexivity | eassumption | unfold inserts; lens; lia].
  - destruct (nthN xs i) as [x|] eqn:Ex.
    + destruct (get_ok h l as_ xs i x Hr Ex) as (l' & E & Hr').
      rewrite E. cbn [bind]. erewrite IH; [reflexivity | eassumption | unfold inserts; lia].
    + rewrite (get_err h l as_ xs i Hr Ex). cbn [bind].
      erewrite IH; [reflexivity | eassumption | unfold inserts; lia].
  - cbn [bind]. unfold getListEntryCount. rewrite (r_count _ _ _ _ Hr).
    erewrite IH; [reflexivity | eassumption | unfold inserts; lia].
  - destruct (N.ltb_spec i (len xs)) as [H|H].
    + destruct (delete_ok h l as_ xs i Hr H) as (h' & l' & as' & E & Hr').
      rewrite E. cbn [bind]. pose proof (remove_at_len_le (N.to_nat i) xs).
      erewrite IH; [reflexivity | eassumption | unfold inserts; lia].
    + rewrite (delete_err h l as_ xs i Hr H). cbn [bind].
      erewrite IH; [reflexivity | eassumption | unfold inserts; lia].
Qed.

From Verif Require Import Base Codec HandleModel HandleSpec.

Notation agr := (Forall2 byte_agrees).

Lemma agr_refl l : agr l l.
Proof. induction l; constructor; [right; reflexivity | assumption]. Qed.
Lemma agr_len l m : agr l m -> length l = length m.
Proof. induction 1; cbn [length]; congruence. Qed.
Lemma agr_none n m : length m = n -> agr (repeat None n) m.
Proof. revert m; induction n; intros [|y m] H; cbn in *; try lia; constructor; [left; reflexivity | apply IHn; lia]. Qed.
Lemma agr_app l m l' m' : agr l m -> agr l' m' -> agr (l ++ l') (m ++ m').
Proof. apply Forall2_app. Qed.
Lemma agr_firstn n l m : agr l m -> agr (firstn n l) (firstn n m).
Proof. intros H; revert n; induction H; intros [|n]; cbn [firstn]; constructor; auto. Qed.
Lemma agr_skipn n l m : agr l m -> agr (skipn n l) (skipn n m).
Proof. intros H; revert n; induction H; intros [|n]; cbn [skipn]; try constructor; auto. Qed.

(* the block prefix visible to the specification *)
Definition vis (h : hdl) : list obyte :=
  match blk h with None => [] | Some b => firstn (N.to_nat (hoff h + hsz h)) b end.

Record hrep (h : hdl) (s : sh) : Prop := {
  q_off : len (fst s) = hoff h;
  q_sz : len (snd s) = hsz h;
  q_le : hsz h <= halc h;
  q_lt : hoff h + halc h < 4294967296;
  q_blk : match blk h with None => halc h = 0 /\ hoff h = 0 | Some b => len b = hoff h + halc h end;
  q_agr : agr (fst s ++ snd s) (vis h) }.

Ltac fld := cbn [blk hsz halc hoff fst snd] in *.

Lemma realloc_len b n : length (realloc b n) = N.to_nat n.
Proof. unfold realloc. rewrite app_length, firstn_length, repeat_length. lia. Qed.
Lemma realloc_grow b n : len b <= n -> realloc b n = b ++ repeat None (N.to_nat n - length b).
Proof. intros H. unfold realloc. rewrite firstn_all2 by (unfold len in H; lia). reflexivity. Qed.

Lemma new_rep n : n < 4294967296 -> hrep (newHandle n) ([], repeat (Some 0) (N.to_nat n)).
Proof.
  intros H. unfold newHandle. destruct (N.eqb_spec n 0) as [->|Hn].
  - constructor; fld; lens; try lia; try (split; lia). constructor.
  - constructor; fld; lens; try lia.
    unfold vis; fld. rewrite firstn_all2 by (rewrite repeat_length; lia). apply agr_refl.
Qed.

Lemma len_eq {A} (l : list A) n : len l = n -> length l = N.to_nat n.
Proof. unfold len; lia. Qed.

Lemma firstn_grow (b : list obyte) (k n : nat) x :
  (k <= length b)%nat ->
  firstn n (b ++ x) = firstn k b ++ firstn (n - k) (skipn k b ++ x) \/ (n < k)%nat.
Proof.
  intros H. destruct (Nat.lt_ge_cases n k) as [L|L]; [right; assumption | left].
  rewrite <- (firstn_skipn k b) at 1. rewrite <- app_assoc.
  rewrite firstn_app. rewrite firstn_length.
  rewrite firstn_firstn. replace (min n k) with k by lia. f_equal. f_equal. lia.
Qed.

Lemma set_size_rep h f v n :
  hrep h (f, v) -> len f + n < 4294967296 -> hrep (setHandleSize h n) (f, sp_resize n v).
Proof.
  intros [Ho Hs Hle Hlt Hb Ha] Hn. fld. unfold setHandleSize, sp_resize.
  assert (len (firstn (N.to_nat n) v ++ repeat None (N.to_nat n - length v)) = n) as Elen.
  { unfold len. rewrite app_length, firstn_length, repeat_length. lia. }
  destruct (N.leb_spec n (halc h)) as [H|H].
  - constructor; fld; try lia; try assumption.
    unfold vis in *; fld. rewrite app_assoc. destruct (blk h) as [b|].
    + assert (length b = N.to_nat (hoff h + halc h)) as Eb by (apply len_eq; assumption).
      assert (f ++ firstn (N.to_nat n) v = firstn (N.to_nat (hoff h + n)) (f ++ v)) as Ef.
      { rewrite (firstn_app _ f v). rewrite (firstn_all2 f) by (unfold len in *; lia).
        f_equal. f_equal. unfold len in *; lia. }
      rewrite Ef.
      destruct (N.le_gt_cases n (hsz h)) as [L|L].
      * replace (N.to_nat n - length v)%nat with 0%nat by (unfold len in *; lia).
        cbn [repeat]. rewrite app_nil_r.
        pose proof (agr_firstn (N.to_nat (hoff h + n)) _ _ Ha) as A.
        rewrite firstn_firstn in A. replace (min _ _) with (N.to_nat (hoff h + n)) in A by lia. assumption.
      * rewrite (firstn_all2 (f ++ v)) by (rewrite app_length; unfold len in *; lia).
        replace (firstn (N.to_nat (hoff h + n)) b) with
          (firstn (N.to_nat (hoff h + hsz h)) b ++
           firstn (N.to_nat n - length v) (skipn (N.to_nat (hoff h + hsz h)) b)).
        2:{ rewrite <- (firstn_skipn (N.to_nat (hoff h + hsz h)) b) at 3.
            rewrite firstn_app, firstn_length, firstn_firstn.
            replace (min (N.to_nat (hoff h + n)) (N.to_nat (hoff h + hsz h))) with (N.to_nat (hoff h + hsz h)) by lia.
            f_equal. f_equal. unfold len in *; lia. }
        apply agr_app; [assumption|]. apply agr_none.
        rewrite firstn_length, skipn_length. unfold len in *. lia.
    + destruct Hb as [Hb1 Hb2]. assert (n = 0) by lia. subst n.
      assert (f ++ v = []) as Efv.
      { inversion Ha. congruence. }
      apply app_eq_nil in Efv. destruct Efv as [-> ->]. cbn. constructor.
  - assert (w32 (n + hoff h) = hoff h + n) as Ew by (rewrite w32_small by lia; lia).
    rewrite Ew.
    constructor; fld; try lia.
    + destruct (blk h).
      * unfold len. rewrite realloc_len. lia.
      * lens. lia.
    + unfold vis in *; fld. destruct (blk h) as [b|].
      * rewrite realloc_grow by lia.
        assert (length b = N.to_nat (hoff h + halc h)) as Eb by (apply len_eq; assumption).
        rewrite (firstn_all2 v) by (unfold len in *; lia).
        rewrite (firstn_all2 (b ++ _)) by (rewrite app_length, repeat_length; lia).
        rewrite <- (firstn_skipn (N.to_nat (hoff h + hsz h)) b) at 1.
        rewrite (app_assoc f v), <- (app_assoc (firstn _ b)).
        apply agr_app; [assumption|]. apply agr_none.
        rewrite app_length, skipn_length, repeat_length. unfold len in *. lia.
      * destruct Hb as [Hb1 Hb2].
        assert (f ++ v = []) as Efv by (inversion Ha; congruence).
        apply app_eq_nil in Efv. destruct Efv as [-> ->]. cbn [app length].
        rewrite firstn_nil. cbn [app]. rewrite firstn_all2 by (rewrite repeat_length; lia).
        apply agr_none. rewrite repeat_length. lia.
Qed.

Lemma s32_sub a b : a < 2147483648 -> b < 4294967296 ->
  (s32_of (sub32 a b) = Z.of_N a - Z.of_N b \/ (Z.of_N a - Z.of_N b < - 2147483648
    /\ s32_of (sub32 a b) = Z.of_N a - Z.of_N b + 4294967296))%Z.
Proof.
  intros Ha Hb. unfold sub32. rewrite (w32_small b) by lia. unfold s32_of.
  destruct (N.ltb_spec (w32 (a + 4294967296 - b)) 2147483648) as [H|H]; unfold w32 in *; lia.
Qed.

Lemma u32_of_mod z : Z.of_N (u32_of z) = (z mod 4294967296)%Z.
Proof. unfold u32_of. rewrite Z2N.id; [reflexivity|]. lia. Qed.

Lemma agr_split h f v o : hrep h (f, v) -> o <= len f + len v ->
  len (firstn (N.to_nat o) (f ++ v)) = o /\ len (skipn (N.to_nat o) (f ++ v)) = hoff h + hsz h - o.
Proof.
  intros [Ho Hs Hle Hlt Hb Ha] H. fld. unfold len. rewrite firstn_length, skipn_length, app_length.
  unfold len in *. lia.
Qed.

Lemma sub32_exact a b : b <= a -> a < 4294967296 -> sub32 a b = a - b.
Proof. intros. unfold sub32. rewrite (w32_small b) by lia. unfold w32. lia. Qed.

Lemma set_off_rep h f v o :
  hrep h (f, v) -> o < 2147483648 -> hoff h < 2147483648 ->
  if (o <=? len f + len v)
  then exists h', setHandleOffset h o = Ok h' /\
         hrep h' (firstn (N.to_nat o) (f ++ v), skipn (N.to_nat o) (f ++ v)) 
  else match v with
       | [] => exists h', setHandleOffset h o = Ok h' /\ hrep h' (sp_resize o f, [])
       | _ => setHandleOffset h o = Err MP4BadParamErr
       end.
Proof.
  intros Hr Ho Hho. pose proof Hr as [Eo Es Hle Hlt Hb Ha]. fld. unfold setHandleOffset.
  set (adj := s32_of (sub32 o (hoff h))).
  assert (adj = Z.of_N o - Z.of_N (hoff h))%Z as Eadj.
  { destruct (s32_sub o (hoff h) Ho ltac:(lia)) as [E|[E _]]; [exact E | lia]. }
  destruct (Z.eqb_spec adj 0) as [E0|E0].
  - assert (o = len f) as -> by lia.
    destruct (N.leb_spec (len f) (len f + len v)); [|lia].
    exists h. split; [reflexivity|].
    replace (N.to_nat (len f)) with (length f) by (unfold len; lia).
    rewrite firstn_app, skipn_app, Nat.sub_diag, firstn_all, skipn_all, firstn_O, app_nil_r. cbn [app skipn].
    assumption.
  - rewrite w32_small by lia.
    destruct (N.leb_spec o (len f + len v)) as [Hin|Hout].
    + assert ((hsz h + hoff h <? o) = false) as -> by lia. cbn [andb].
      assert (exists b, blk h = Some b /\ len b = hoff h + halc h) as (b & Eb & Elb).
      { destruct (blk h) as [b|]; [eauto|]. destruct Hb. lia. }
      destruct (agr_split h f v o Hr Hin) as [L1 L2].
      assert (~ ((hsz h = 0) /\ (0 < adj)%Z)) as Hno by lia.
      assert (((hsz h =? 0) && (0 <? adj)%Z) = false) as -> by lia.
      eexists. split; [reflexivity|].
      pose proof (u32_of_mod adj) as Hu.
      assert (sub32 (hsz h) (u32_of adj) = hoff h + hsz h - o) as E1.
      { unfold sub32. rewrite (w32_small (u32_of adj)) by lia. unfold w32. lia. }
      assert (sub32 (halc h) (u32_of adj) = hoff h + halc h - o) as E2.
      { unfold sub32. rewrite (w32_small (u32_of adj)) by lia. unfold w32. lia. }
      rewrite E1, E2. constructor; fld; try lia.
      * rewrite Eb. lia.
      * rewrite firstn_skipn. unfold vis in *; fld. rewrite Eb in *.
        replace (o + (hoff h + hsz h - o)) with (hoff h + hsz h) by lia. assumption.
    + destruct v as [|x v].
      * lens. assert (hsz h = 0) as Ez by lia. rewrite Ez. cbn [N.eqb negb].
        change (0 =? 0) with true. cbn [negb]. rewrite andb_false_r. cbn [andb].
        assert ((0 <? adj)%Z = true) as -> by lia.
        assert (u32_of adj = o - hoff h) as Eu.
        { pose proof (u32_of_mod adj) as Hu. lia. }
        rewrite Eu.
        pose proof (set_size_rep h f [] (o - hoff h) Hr ltac:(lia)) as R.
        remember (setHandleSize h (o - hoff h)) as h1 eqn:Eh1.
        assert (hoff h1 = hoff h) as Eo1.
        { subst h1. unfold setHandleSize. destruct (_ <=? _); reflexivity. }
        assert (hsz h1 = o - hoff h) as Es1.
        { subst h1. unfold setHandleSize. destruct (_ <=? _); reflexivity. }
        destruct R as [Ro Rs Rle Rlt Rb Ra]. fld.
        assert (exists b, blk h1 = Some b /\ len b = hoff h1 + halc h1) as (b & Eb & Elb).
        { destruct (blk h1) as [b|]; [eauto|]. lia. }
        eexists. split; [reflexivity|].
        assert (len (sp_resize o f) = o) as Elr.
        { unfold sp_resize, len. rewrite app_length, firstn_length, repeat_length. lia. }
        rewrite (sub32_exact (hsz h1)), (sub32_exact (halc h1)) by lia.
        constructor; fld; try lia; lens.
        -- lia.
        -- rewrite Eb. lia.
        -- unfold vis in *; fld. rewrite Eb in *. rewrite app_nil_r.
           replace (N.to_nat (o + (hsz h1 - (o - hoff h)))) with (N.to_nat (hoff h1 + hsz h1)) by lia.
           unfold sp_resize in *. rewrite firstn_nil in Ra. cbn [app length] in Ra.
           rewrite firstn_all2 by (unfold len in *; lia).
           replace (N.to_nat (o - hoff h) - 0)%nat with (N.to_nat o - length f)%nat in Ra by (unfold len in *; lia).
           assumption.
      * assert ((hsz h + hoff h <? o) = true) as -> by (lens; lia).
        assert ((hsz h =? 0) = false) as -> by (lens; lia). reflexivity.
Qed.

Lemma setn_length {A} (l : list A) i x : length (setn l i x) = length l.
Proof. revert i; induction l; intros [|i]; cbn; auto. Qed.
Lemma setn_split {A} (l : list A) i x :
  (i < length l)%nat -> setn l i x = firstn i l ++ x :: skipn (S i) l.
Proof.
  revert i; induction l as [|y l IH]; intros i H; cbn [length] in H; [lia|].
  destruct i as [|i]; [reflexivity|]. cbn [setn firstn skipn app]. rewrite IH by lia. reflexivity.
Qed.

Lemma contents_rep h f v : hrep h (f, v) ->
  exists c, contents h = Ok c /\ agr v c.
Proof.
  intros [Eo Es Hle Hlt Hb Ha]. fld. unfold contents, bread.
  destruct (N.eqb_spec (hsz h) 0) as [E|E].
  - exists []. split; [reflexivity|]. rewrite (len_0 v) by lia. constructor.
  - unfold vis in Ha. destruct (blk h) as [b|]; [|lia].
    destruct (N.leb_spec (hoff h + hsz h) (len b)); [|lia].
    eexists. split; [reflexivity|].
    apply (agr_skipn (length f)) in Ha. rewrite skipn_app, skipn_all, Nat.sub_diag in Ha. cbn [app skipn] in Ha.
    rewrite firstn_skipn_comm.
    replace (N.to_nat (hoff h) + N.to_nat (hsz h))%nat with (N.to_nat (hoff h + hsz h)) by lia.
    replace (N.to_nat (hoff h)) with (length f) by (unfold len in *; lia). assumption.
Qed.

Lemma write_vis (b : list obyte) (i k : nat) bs :
  (i + length bs <= k)%nat -> (k <= length b)%nat ->
  firstn k (firstn i b ++ bs ++ skipn (i + length bs) b) =
  firstn i (firstn k b) ++ bs ++ skipn (i + length bs) (firstn k b).
Proof.
  intros H1 H2. rewrite firstn_app, firstn_firstn, firstn_length.
  replace (min k i) with i by lia. rewrite firstn_firstn. replace (min i k) with i by lia. f_equal.
  rewrite firstn_app. rewrite firstn_all2 by lia. f_equal.
  rewrite skipn_firstn_comm. f_equal. lia.
Qed.

Lemma poke_rep h f v k x : hrep h (f, v) -> k < len v ->
  exists h', poke h k x = Ok h' /\ hrep h' (f, setn v (N.to_nat k) (Some x)).
Proof.
  intros [Eo Es Hle Hlt Hb Ha] Hk. fld. unfold poke, bwrite.
  unfold vis in Ha. destruct (blk h) as [b|]; [|lia].
  change (len [Some x]) with 1.
  destruct (N.leb_spec (hoff h + k + 1) (len b)); [|lia]. cbn [bind].
  eexists. split; [reflexivity|].
  assert (length b = N.to_nat (hoff h + halc h)) as Eb by (apply len_eq; assumption).
  constructor; fld; try lia.
  - unfold len in *. rewrite setn_length. assumption.
  - unfold len in *. rewrite !app_length, firstn_length, skipn_length. cbn [length]. lia.
  - unfold vis; fld. rewrite write_vis by (cbn [length]; lia).
    set (c := firstn (N.to_nat (hoff h + hsz h)) b) in *.
    rewrite setn_split by (unfold len in *; lia).
    assert (f ++ firstn (N.to_nat k) v = firstn (N.to_nat (hoff h + k)) (f ++ v)) as Ef.
    { rewrite (firstn_app _ f v), (firstn_all2 f) by (unfold len in *; lia). f_equal. f_equal. unfold len in *; lia. }
    assert (skipn (S (N.to_nat k)) v = skipn (N.to_nat (hoff h + k) + 1) (f ++ v)) as Es'.
    { rewrite (skipn_app _ f v). rewrite (skipn_all2 f) by (unfold len in *; lia). cbn [app]. f_equal. unfold len in *; lia. }
    rewrite app_assoc, Ef, Es'.
    apply agr_app; [apply agr_firstn; assumption|]. cbn [app].
    constructor; [right; reflexivity|]. cbn [length]. apply agr_skipn; assumption.
Qed.

Lemma cat_rep h f v h2 g w : hrep h (f, v) -> hrep h2 (g, w) -> len f + len v + len w < 4294967296 ->
  exists h', handleCat h (Some h2) = Ok h' /\ hrep h' (f, v ++ w).
Proof.
  intros Hr Hr2 Hlen. unfold handleCat.
  pose proof Hr as [Eo Es Hle Hlt Hb Ha]. pose proof Hr2 as [Eo2 Es2 Hle2 Hlt2 Hb2 Ha2]. fld.
  destruct (contents_rep _ _ _ Hr2) as (c & Ec & Hc). unfold contents in Ec.
  rewrite w32_small by lia.
  (* the resized destination represents v plus unspecified bytes *)
  set (d1 := if hsz h + hsz h2 <=? halc h then _ else _).
  assert (d1 = setHandleSize h (hsz h + hsz h2)) as Ed1.
  { unfold d1, setHandleSize. destruct (_ <=? _) eqn:E; [reflexivity|].
    destruct (blk h) as [b|]; [reflexivity|]. destruct Hb as [Hb1 Hb2']. f_equal. f_equal. f_equal. f_equal. f_equal. lia. }
  clearbody d1. subst d1.
  pose proof (set_size_rep h f v (hsz h + hsz h2) Hr ltac:(lia)) as R.
  remember (setHandleSize h (hsz h + hsz h2)) as d1 eqn:Hd1.
  destruct R as [Ro Rs Rle Rlt Rb Ra]. fld.
  assert (hoff d1 = hoff h) as Eo1.
  { subst d1. unfold setHandleSize. destruct (_ <=? _); reflexivity. }
  assert (hsz d1 = hsz h + hsz h2) as Es1.
  { subst d1. unfold setHandleSize. destruct (_ <=? _); reflexivity. }
  rewrite Ec. cbn [bind]. pose proof (agr_len _ _ Hc) as Lc.
  assert (length w = N.to_nat (hsz h2)) as Lw by (apply len_eq; assumption).
  unfold bwrite. destruct c as [|c0 c1].
  - (* nothing to copy *)
    cbn [bind]. eexists. split; [reflexivity|].
    assert (w = []) as -> by (destruct w; [reflexivity | cbn [length] in Lc; lia]).
    cbn [length] in *. lens.
    assert (Er : sp_resize (hsz h + hsz h2) v = v).
    { unfold sp_resize. replace (N.to_nat (hsz h + hsz h2)) with (length v) by (unfold len in *; lia).
      rewrite firstn_all, Nat.sub_diag, app_nil_r. reflexivity. }
    rewrite Er in *. rewrite app_nil_r. destruct d1; fld. constructor; fld; try lia; assumption.
  - remember (c0 :: c1) as c eqn:Ecc.
    unfold vis in Ra. destruct (blk d1) as [b|] eqn:Ebd; [|destruct Rb; subst c; cbn [length] in Lc; lia].
    destruct (N.leb_spec (hoff d1 + hsz h + len c) (len b)) as [L|L];
      [|unfold len in *; lia].
    cbn [bind]. eexists. split; [reflexivity|].
    assert (length b = N.to_nat (hoff d1 + halc d1)) as Eb by (apply len_eq; assumption).
    constructor; fld; try lia.
    + lens. lia.
    + unfold len in *. rewrite !app_length, firstn_length, skipn_length. lia.
    + unfold vis; fld. rewrite write_vis by lia.
      rewrite app_assoc. 
      assert (N.to_nat (hoff d1 + hsz h) = length (f ++ v)) as Elfv by (rewrite app_length; unfold len in *; lia).
      rewrite Elfv.
      set (cc := firstn (N.to_nat (hoff d1 + hsz d1)) b) in *.
      assert (agr (f ++ v) (firstn (length (f ++ v)) cc)) as A1.
      { pose proof (agr_firstn (length (f ++ v)) _ _ Ra) as A. unfold sp_resize in A.
        rewrite (firstn_all2 v) in A by (unfold len in *; lia).
        rewrite app_assoc, firstn_app, firstn_all, Nat.sub_diag, firstn_O, app_nil_r in A. assumption. }
      apply agr_app; [assumption|].
      rewrite skipn_all2.
      * rewrite app_nil_r. assumption.
      * unfold cc. rewrite firstn_length, app_length. unfold len in *. lia.
Qed.

(* ---- pools ---- *)
Notation prep := (Forall2 hrep).

Lemma prep_nth p q i : prep p q -> forall s, nth_error q i = Some s ->
  exists h, nth_error p i = Some h /\ hrep h s.
Proof.
  intros H; revert i; induction H as [|x y p q Hxy H IH]; intros i s E; [destruct i; discriminate|].
  destruct i as [|i]; cbn [nth_error] in *.
  - injection E as <-. eauto.
  - eauto.
Qed.
Lemma prep_setn p q i h s : prep p q -> hrep h s -> prep (setn p i h) (setn q i s).
Proof.
  intros H Hh; revert i; induction H as [|x y p q Hxy H IH]; intros i; [constructor|].
  destruct i as [|i]; cbn [setn]; constructor; auto.
Qed.

(* the offset bound is part of the invariant: offsets only come from
   HSetOffset with argument below 2^31 *)
Definition offs_ok (p : list hdl) : Prop := Forall (fun h => hoff h < 2147483648) p.

Lemma offs_setn p i h : offs_ok p -> hoff h < 2147483648 -> offs_ok (setn p i h).
Proof. intros H Hh; revert i; induction H; intros [|i]; cbn [setn]; constructor; auto. apply IHForall. Qed.
Lemma offs_nth p i h : offs_ok p -> nth_error p i = Some h -> hoff h < 2147483648.
Proof. intros H E. apply nth_error_In in E. unfold offs_ok in H. rewrite Forall_forall in H. auto. Qed.

Lemma setHandleSize_off h n : hoff (setHandleSize h n) = hoff h.
Proof. unfold setHandleSize. destruct (_ <=? _); reflexivity. Qed.

Lemma hrep_off h s : hrep h s -> hoff h = len (fst s).
Proof. intros []; auto. Qed.

Lemma hrun_refines os : forall p q, prep p q -> offs_ok p -> hist_valid q os ->
  exists rs, hrun p os = Ok rs /\ Forall2 out_agrees (sp_run q os) rs.
Proof.
  induction os as [|o os IH]; intros p q Hp Hoff Hv; [exists []; split; [reflexivity | constructor]|].
  cbn [hist_valid] in Hv. destruct Hv as [Ho Hv]. cbn [hrun sp_run].
  assert (exists p' r, hstep p o = Ok (p', r) /\ prep p' (fst (sp_step q o)) /\ offs_ok p' /\
            out_agrees (snd (sp_step q o)) r) as (p' & r & E & Hp' & Hoff' & Hr).
  { clear IH Hv. destruct o as [n|i n|i n|i k x|d s|i|i]; cbn [hstep sp_step op_valid] in *.
    - do 2 eexists. split; [reflexivity|]. cbn [fst snd]. repeat split.
      + apply Forall2_app; [assumption|]. constructor; [apply new_rep; assumption | constructor].
      + apply Forall_app; split; [assumption|]. constructor; [|constructor].
        unfold newHandle. destruct (_ =? _); cbn [hoff]; lia.
    - destruct Ho as (f & v & E & Hn). destruct (prep_nth _ _ _ Hp _ E) as (h & Eh & Hh).
      rewrite E, Eh. do 2 eexists. split; [reflexivity|]. cbn [fst snd]. repeat split.
      + apply prep_setn; [assumption | apply set_size_rep; assumption].
      + apply offs_setn; [assumption|]. rewrite setHandleSize_off. eapply offs_nth; eassumption.
    - destruct Ho as ([f v] & E & Hn). destruct (prep_nth _ _ _ Hp _ E) as (h & Eh & Hh).
      rewrite E, Eh. pose proof (set_off_rep h f v n Hh Hn (offs_nth _ _ _ Hoff Eh)) as R.
      destruct (n <=? len f + len v) eqn:Ele.
      + destruct R as (h' & E' & R). rewrite E'. do 2 eexists. split; [reflexivity|]. cbn [fst snd]. repeat split.
        * apply prep_setn; assumption.
        * apply offs_setn; [assumption|]. rewrite (hrep_off _ _ R). cbn [fst].
          unfold len. rewrite firstn_length. lia.
      + destruct v as [|y v].
        * destruct R as (h' & E' & R). rewrite E'. do 2 eexists. split; [reflexivity|]. cbn [fst snd]. repeat split.
          -- apply prep_setn; assumption.
          -- apply offs_setn; [assumption|]. rewrite (hrep_off _ _ R). cbn [fst].
             unfold sp_resize, len. rewrite app_length, firstn_length, repeat_length. lia.
        * rewrite R. do 2 eexists. split; [reflexivity|]. cbn [fst snd]. repeat split; assumption.
    - destruct Ho as (f & v & E & Hk). destruct (prep_nth _ _ _ Hp _ E) as (h & Eh & Hh).
      rewrite E, Eh. destruct (poke_rep h f v k x Hh Hk) as (h' & E' & R). rewrite E'. cbn [bind].
      do 2 eexists. split; [reflexivity|]. cbn [fst snd]. repeat split.
      + apply prep_setn; assumption.
      + apply offs_setn; [assumption|]. rewrite (hrep_off _ _ R). pose proof (offs_nth _ _ _ Hoff Eh).
        destruct Hh; cbn [fst] in *; lia.
    - destruct Ho as (Hne & f & v & g & w & E1 & E2 & Hl).
      destruct (prep_nth _ _ _ Hp _ E1) as (h1 & Eh1 & Hh1).
      destruct (prep_nth _ _ _ Hp _ E2) as (h2 & Eh2 & Hh2).
      rewrite E1, E2, Eh1, Eh2. destruct (Nat.eqb_spec d s); [congruence|].
      destruct (cat_rep h1 f v h2 g w Hh1 Hh2 Hl) as (h' & E' & R). rewrite E'. cbn [bind].
      do 2 eexists. split; [reflexivity|]. cbn [fst snd]. repeat split.
      + apply prep_setn; assumption.
      + apply offs_setn; [assumption|]. rewrite (hrep_off _ _ R). pose proof (offs_nth _ _ _ Hoff Eh1).
        destruct Hh1; cbn [fst] in *; lia.
    - destruct Ho as ([f v] & E). destruct (prep_nth _ _ _ Hp _ E) as (h & Eh & Hh).
      rewrite E, Eh. do 2 eexists. split; [reflexivity|]. cbn [fst snd]. repeat split; try assumption.
      cbn [out_agrees]. destruct Hh; cbn [snd] in *; congruence.
    - destruct Ho as ([f v] & E). destruct (prep_nth _ _ _ Hp _ E) as (h & Eh & Hh).
      rewrite E, Eh. destruct (contents_rep h f v Hh) as (c & Ec & Hc). rewrite Ec. cbn [bind].
      do 2 eexists. split; [reflexivity|]. cbn [fst snd]. repeat split; assumption. }
  rewrite E. cbn [bind]. destruct (sp_step q o) as [q' r'] eqn:Eq. cbn [fst snd] in *.
  destruct (IH p' q' Hp' Hoff' Hv) as (rs & Ers & Hrs). rewrite Ers. cbn [bind].
  exists (r :: rs). split; [reflexivity|]. constructor; assumption.
Qed.

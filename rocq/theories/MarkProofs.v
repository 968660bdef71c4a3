(* MarkProofs.v *)
From Verif Require Import Base Codec BitLemmas AtomModel AtomProofs BoxModel BoxSpec BoxProofs MarkSpec MarkModel.

(* dependency flags *)
Definition deps (st : dstate) (l : list N) : Prop :=
  snd st = len l /\ len l < 2147483648 /\
  match fst st with None => l = repeat 0 (length l) | Some s => sd_list s = l end.

Lemma nth_zeros k i : nth i (repeat 0 k) 0 = 0.
Proof. destruct (Nat.lt_ge_cases i k); [apply nth_repeat|]. apply nth_overflow. rewrite repeat_length. lia. Qed.

Lemma len_overwrite l i d : (i + length d <= length l)%nat -> len (overwrite l i d) = len l.
Proof.
  intros H. unfold overwrite. lens. unfold len. rewrite firstn_length, skipn_length. lia.
Qed.
Lemma sdtp_set_ok s i d : dvalid (sd_list s) (DSet i d) -> len (sd_list s) < 2147483648 ->
  match snd (dstep (sd_list s) (DSet i d)) with
  | DDone => exists s', sdtp_set s i d = Ok s' /\ sd_list s' = fst (dstep (sd_list s) (DSet i d)) /\ len (sd_list s') = len (sd_list s)
  | DErr e => sdtp_set s i d = Err e /\ fst (dstep (sd_list s) (DSet i d)) = sd_list s
  | DVal _ => False
  end.
Proof.
  intros [V1 V2] Hl. cbn [dstep]. unfold sdtp_set, dstart. remember (sd_list s) as l eqn:El.
  destruct (Z.ltb_spec i 0) as [Hi|Hi].
  - destruct (Z.ltb_spec (Z.of_N (len l)) (Z.of_N (len l) + i + Z.of_N (len d))) as [H|H]; cbn [fst snd].
    + destruct (N.ltb_spec (Z.to_N (- i)) (len d)); [auto|lia].
    + destruct (N.ltb_spec (Z.to_N (- i)) (len d)); [lia|].
      destruct (N.ltb_spec (len l) (Z.to_N (- i))); [lia|]. eexists. split; [reflexivity|]. cbn [sd_list].
      replace (N.to_nat (len l - Z.to_N (- i))) with (Z.to_nat (Z.of_N (len l) + i)) by lia.
      split; [reflexivity|]. apply len_overwrite. unfold len in *. lia.
  - destruct (Z.ltb_spec (Z.of_N (len l)) (i + Z.of_N (len d))) as [H|H]; cbn [fst snd].
    + rewrite w32_small by lia. destruct (N.ltb_spec (len l) (len d + Z.to_N i)); [auto|lia].
    + rewrite w32_small by lia. destruct (N.ltb_spec (len l) (len d + Z.to_N i)); [lia|].
      eexists. split; [reflexivity|]. cbn [sd_list]. split; [reflexivity|]. apply len_overwrite. unfold len in *. lia.
Qed.

Lemma dep_step_ok st l o : deps st l -> dvalid l o ->
  dep_out (snd (dep_step st o)) = Some (snd (dstep l o)) /\ deps (fst (dep_step st o)) (fst (dstep l o)).
Proof.
  destruct st as [t n]. intros (E & Hl & Ht) V. cbn [fst snd] in *. subst n. destruct o as [c|i d|k].
  - cbn [dvalid] in V. cbn [dep_step dstep fst snd]. destruct t as [s|].
    + subst l. unfold sdtp_add. destruct (N.leb_spec 4294967296 (len (sd_list s) + c)); [lia|]. cbn [fst snd dep_out].
      split; [reflexivity|]. split; [|split]; cbn [fst snd sd_list]; [lens; rewrite w32_small; lia|lens; lia|reflexivity].
    + split; [reflexivity|]. split; [|split]; cbn [fst snd]; [lens; rewrite w32_small; lia|lens; lia|].
      rewrite app_length, repeat_length, repeat_app, <- Ht. reflexivity.
  - cbn [dep_step]. 
    assert (A : exists s, (match t with Some s => Ok s | None => if 0 <? len l then sdtp_add sdtp_new (len l) else Ok sdtp_new end) = Ok s
                          /\ sd_list s = l).
    { destruct t as [s|]; [eauto|]. destruct (N.ltb_spec 0 (len l)) as [H|H].
      - unfold sdtp_add; cbn [sdtp_new sd_list]. destruct (N.leb_spec 4294967296 (len (@nil N) + len l)); [lens; lia|].
        eexists. split; [reflexivity|]. cbn [sd_list app]. rewrite Ht at 2. f_equal. unfold len. lia.
      - exists sdtp_new. split; [reflexivity|]. symmetry. apply len_0. lia. }
    destruct A as (s & -> & El). subst l. pose proof (sdtp_set_ok s i d V Hl) as S.
    destruct (snd (dstep (sd_list s) (DSet i d))) as [|e|v] eqn:Es; [| |contradiction].
    + destruct S as (s' & -> & E1 & E2). cbn [fst snd dep_out]. split; [reflexivity|].
      split; [|split]; cbn [fst snd]; rewrite <- ?E1; congruence.
    + destruct S as (-> & E1). cbn [fst snd dep_out]. split; [reflexivity|]. rewrite E1.
      split; [|split]; cbn [fst snd]; auto.
  - cbn [dvalid dep_step dstep fst snd] in *. destruct t as [s|].
    + subst l. unfold sdtp_get. destruct (N.ltb_spec k 1); [lia|].
      destruct (N.ltb_spec (len (sd_list s)) k) as [H1|H1].
      * cbn [fst snd dep_out]. rewrite nth_overflow by (unfold len in H1; lia). split; [reflexivity|]. split; [|split]; cbn [fst snd]; auto.
      * destruct (nth_error (sd_list s) (N.to_nat (k - 1))) as [v|] eqn:En.
        { cbn [fst snd dep_out]. rewrite (nth_error_nth _ _ _ En). split; [reflexivity|]. split; [|split]; cbn [fst snd]; auto. }
        { apply nth_error_None in En. unfold len in H1. lia. }
    + cbn [fst snd dep_out]. rewrite Ht, nth_zeros. split; [reflexivity|]. split; [|split]; cbn [fst snd]; rewrite <- ?Ht; auto.
Qed.

Lemma dep_run_ok os : forall st l, deps st l -> dvalids l os -> dep_run st os = map Some (dspec l os).
Proof.
  induction os as [|o os IH]; intros st l D V; [reflexivity|]. destruct V as [V1 V2].
  destruct (dep_step_ok st l o D V1) as [A B]. cbn [dep_run dspec map].
  destruct (dep_step st o) as [st' x]. cbn [fst snd] in *. rewrite A. f_equal. apply IH; assumption.
Qed.

(* padding *)
Definition pads (st : option padb) (L : list N) : Prop :=
  match st with None => L = repeat 0 (length L) | Some s => pb_list s = L end.
Lemma len_pads_of b : pbatch_ok b -> len (pads_of b) = fst b.
Proof.
  destruct b as [c [[|x [|y l]]|]]; intros [H1 H2]; unfold pads_of; cbn [fst snd] in *; try exact H2; lens; lia.
Qed.
Lemma padb_add_ok s b : pbatch_ok b -> len (pb_list s) + fst b < 4294967295 ->
  exists s', padb_add s (fst b) (snd b) = Ok s' /\ pb_list s' = pb_list s ++ pads_of b.
Proof.
  destruct b as [c h]. intros [H1 H2] Hl. cbn [fst snd] in *. unfold padb_add, pads_of; cbn [fst snd].
  destruct (N.leb_spec 4294967295 (len (pb_list s) + c)); [lia|].
  destruct h as [[|x [|y l]]|]; try (eexists; split; reflexivity).
  rewrite H2, N.eqb_refl. eexists; split; reflexivity.
Qed.
Definition has_pads (b : pbatch) : bool := match snd b with Some _ => true | None => false end.
Lemma pads_batch st L b : pads st L -> pbatch_ok b -> len L + fst b < 4294967295 ->
  exists st', stbl_pads st (len L) (fst b) (snd b) = Ok st' /\ pads st' (L ++ pads_of b) /\
    (st' = None <-> st = None /\ has_pads b = false).
Proof.
  intros I B Hl. destruct b as [c h]. pose proof B as B'. unfold has_pads. cbn [fst snd] in *. unfold stbl_pads. destruct h as [l|].
  - assert (A : exists s, (match st with Some s => Ok s | None => if 0 <? len L then padb_add padb_new (len L) None else Ok padb_new end) = Ok s
                          /\ pb_list s = L).
    { destruct st as [s|]; [eauto|]. cbn [pads] in I. destruct (N.ltb_spec 0 (len L)) as [H|H].
      - unfold padb_add. cbn [padb_new pb_list]. destruct (N.leb_spec 4294967295 (len (@nil N) + len L)); [lens; lia|].
        eexists. split; [reflexivity|]. cbn [pb_list app]. rewrite I at 2. f_equal. unfold len. lia.
      - exists padb_new. split; [reflexivity|]. symmetry. apply len_0. lia. }
    destruct A as (s & -> & El). cbn [bind]. destruct (padb_add_ok s (c, Some l) B') as (s' & E & E').
    { rewrite El. exact Hl. }
    cbn [fst snd] in E. rewrite E. cbn [bind]. exists (Some s'). split; [reflexivity|]. split; [cbn [pads]; congruence|].
    split; [discriminate|intros [_ X]; discriminate X].
  - destruct st as [s|].
    + destruct (padb_add_ok s (c, None) B') as (s' & E & E'). { rewrite I. exact Hl. }
      cbn [fst snd] in E. rewrite E. cbn [bind]. exists (Some s'). split; [reflexivity|]. split; [cbn [pads] in *; congruence|].
      split; [discriminate|intros [X _]; discriminate X].
    + exists None. split; [reflexivity|]. split; [|tauto]. cbn [pads] in *. unfold pads_of; cbn [fst snd].
      rewrite app_length, repeat_length, repeat_app, <- I. reflexivity.
Qed.
Lemma pads_run_ok bs : forall st L, pads st L -> Forall pbatch_ok bs -> len L + len (flat_map pads_of bs) < 4294967295 ->
  exists st', pads_run st (len L) bs = Ok st' /\ pads st' (L ++ flat_map pads_of bs) /\
    (st' = None <-> st = None /\ existsb has_pads bs = false).
Proof.
  induction bs as [|b bs IH]; intros st L I Hb Hl; cbn [pads_run flat_map existsb] in *.
  - exists st. rewrite app_nil_r. tauto.
  - inversion_clear Hb as [|? ? B1 B2]. lens. pose proof (len_pads_of b B1) as Hm.
    destruct (pads_batch st L b I B1 ltac:(lia)) as (st1 & E & I1 & X).
    destruct b as [c h]; cbn [fst snd] in *. rewrite E. cbn [bind].
    replace (w32 (len L + c)) with (len (L ++ pads_of (c, h))) by (lens; rewrite w32_small; lia).
    destruct (IH st1 _ I1 B2) as (st2 & E2 & I2 & X2). { lens; lia. }
    exists st2. rewrite E2. split; [reflexivity|]. split; [rewrite app_assoc; exact I2|].
    rewrite X2, X, orb_false_iff. tauto.
Qed.

Lemma pad_pair_eq a b : pad_pair a b = a mod 8 + 16 * (b mod 8).
Proof. unfold pad_pair. rewrite !land7, (lor_add_r 4) by (cbn; lia). change (2 ^ 4) with 16. lia. Qed.
Lemma pad_split_eq a b : pad_split (pad_pair a b) = [a mod 8; b mod 8].
Proof.
  unfold pad_split. rewrite !land7, shiftr_div, pad_pair_eq. change (2 ^ 4) with 16. f_equal; [|f_equal]; lia.
Qed.
Lemma list_ind2 {A} (P : list A -> Prop) :
  P [] -> (forall a, P [a]) -> (forall a b r, P r -> P (a :: b :: r)) -> forall l, P l.
Proof.
  intros H0 H1 H2 l. enough (P l /\ forall a, P (a :: l)) by tauto.
  induction l as [|a l [IH1 IH2]]; [auto|]. split; [auto|]. intros b. apply H2. exact IH1.
Qed.
Lemma pad_pairs_split l t : flat_map pad_split (pad_pairs l t) =
  map (fun x => x mod 8) l ++ (if N.odd (len l) then [t mod 8] else []).
Proof.
  induction l as [| |a b r IH] using list_ind2; [reflexivity| |].
  - cbn [pad_pairs flat_map map app]. rewrite pad_split_eq. reflexivity.
  - cbn [pad_pairs flat_map map]. rewrite pad_split_eq, IH. lens.
    replace (1 + (1 + len r)) with (len r + 2) by lia. rewrite N.odd_add. cbn [N.odd]. rewrite xorb_false_r. reflexivity.
Qed.
Lemma len_pad_pairs l t : len (pad_pairs l t) = (len l + 1) / 2.
Proof. induction l as [| |a b r IH] using list_ind2; [reflexivity|reflexivity|]. cbn [pad_pairs]. lens. rewrite IH. lia. Qed.
Lemma pad_pairs_bytes l t : Forall (fun x => x < 256) (pad_pairs l t).
Proof.
  induction l as [| |a b r IH] using list_ind2; cbn [pad_pairs]; repeat constructor; rewrite ?pad_pair_eq; try lia. exact IH.
Qed.

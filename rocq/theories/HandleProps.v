(* HandleProps.v -- C02 *)
From Verif Require Import Base HandleModel HandleSpec HandleProofs.

(* C02. Starting with no handles, every valid history runs without undefined
   behaviour and every answer (sizes, error codes, contents) is the one the
   byte-string specification gives. *)
Theorem C02_handles_are_byte_strings :
  forall os : list hop, hist_valid [] os ->
    exists rs, hrun [] os = Ok rs /\ Forall2 out_agrees (sp_run [] os) rs.
Proof. intros os H. apply hrun_refines; [constructor | constructor | exact H]. Qed.
Print Assumptions C02_handles_are_byte_strings.

(* MP4HandleCat does not change its source or any other handle *)
Theorem C02_cat_leaves_others :
  forall p d s p' r i, hstep p (HCat d s) = Ok (p', r) -> i <> d -> nth_error p' i = nth_error p i.
Proof.
  intros p d s p' r i H Hi. cbn [hstep] in H.
  destruct (nth_error p d), (nth_error p s); try discriminate.
  destruct (handleCat _ _) as [h'| |]; try discriminate. cbn [bind] in H. injection H as <- _.
  clear - Hi. revert d i Hi. induction p as [|x p IH]; intros d i Hi; [destruct i; reflexivity|].
  destruct d, i; cbn [setn nth_error]; try congruence. apply IH. congruence.
Qed.
Print Assumptions C02_cat_leaves_others.

(* The limits of the claim. Concatenating a non-empty handle with itself is
   undefined behaviour. *)
Theorem C02_self_cat_refuted :
  forall h, hsz h <> 0 -> hsz h < 2147483648 -> handleCat h None = UB.
Proof.
  intros h H H2. unfold handleCat.
  assert (w32 (hsz h + hsz h) = hsz h + hsz h) as E by (unfold w32; apply N.mod_small; lia).
  rewrite E. destruct (hsz h + hsz h <=? halc h); cbn [hsz].
  - destruct (N.eqb_spec (hsz h + hsz h) 0); [lia | reflexivity].
  - destruct (N.eqb_spec (hsz h + hsz h) 0); [lia | reflexivity].
Qed.
Print Assumptions C02_self_cat_refuted.

(* two handles whose sizes total exactly 2^32: the wrapped request (0) skips
   the reallocation, and the copy runs past the block *)
Theorem C02_cat_4GiB_refuted :
  forall d s, hsz d + hsz s = 4294967296 -> hsz s <> 0 -> hoff d = 0 -> hoff s = 0 ->
    (exists b, blk d = Some b /\ len b = hsz d) -> (exists c, blk s = Some c /\ len c = hsz s) ->
    handleCat d (Some s) = UB.
Proof.
  intros d s H Hs Hd0 Hs0 (b & Eb & Lb) (c & Ec & Lc). unfold handleCat.
  replace (w32 (hsz d + hsz s)) with 0 by (rewrite H; reflexivity).
  assert ((0 <=? halc d) = true) as -> by lia. cbn [blk hoff hsz halc].
  unfold bread. rewrite Ec, Hs0. destruct (N.eqb_spec (hsz s) 0); [lia|].
  destruct (N.leb_spec (0 + hsz s) (len c)); [|lia]. cbn [bind].
  set (bs := firstn _ _). assert (len bs = hsz s) as Lbs.
  { unfold bs, len in *. rewrite firstn_length, skipn_length. lia. }
  unfold bwrite. destruct bs as [|x bs']; [change (len (@nil obyte)) with 0 in Lbs; lia|].
  rewrite Eb. destruct (N.leb_spec (hoff d + hsz d + len (x :: bs')) (len b)); [lia | reflexivity].
Qed.
Print Assumptions C02_cat_4GiB_refuted.

(* an executable form of the validity condition, for the example below *)
Definition op_validb (p : list sh) (o : hop) : bool :=
  match o with
  | HNew n => n <? 4294967296
  | HSetSize i n => match nth_error p i with Some (f, _) => len f + n <? 4294967296 | None => false end
  | HSetOffset i o => match nth_error p i with Some _ => o <? 2147483648 | None => false end
  | HPoke i k _ => match nth_error p i with Some (_, v) => k <? len v | None => false end
  | HCat d s => negb (Nat.eqb d s) &&
      match nth_error p d, nth_error p s with
      | Some (f, v), Some (_, w) => len f + len v + len w <? 4294967296 | _, _ => false end
  | HGetSize i | HRead i => match nth_error p i with Some _ => true | None => false end
  end.
Fixpoint hist_validb (p : list sh) (os : list hop) : bool :=
  match os with [] => true | o :: t => op_validb p o && hist_validb (fst (sp_step p o)) t end.
Lemma hist_validb_ok os : forall p, hist_validb p os = true -> hist_valid p os.
Proof.
  induction os as [|o os IH]; intros p H; [exact I|]. cbn [hist_validb hist_valid] in *.
  apply andb_true_iff in H. destruct H as [H1 H2]. split; [|apply IH; assumption].
  clear - H1. destruct o as [n|i n|i n|i k x|d s|i|i]; cbn [op_validb op_valid] in *.
  - lia.
  - destruct (nth_error p i) as [[f v]|]; [|discriminate]. exists f, v. split; [reflexivity | lia].
  - destruct (nth_error p i) as [s|]; [|discriminate]. exists s. split; [reflexivity | lia].
  - destruct (nth_error p i) as [[f v]|]; [|discriminate]. exists f, v. split; [reflexivity | lia].
  - apply andb_true_iff in H1. destruct H1 as [Hn H1]. split.
    + intros ->. rewrite Nat.eqb_refl in Hn. discriminate.
    + destruct (nth_error p d) as [[f v]|]; [|discriminate].
      destruct (nth_error p s) as [[g w]|]; [|discriminate].
      exists f, v, g, w. repeat split; lia.
  - destruct (nth_error p i) as [s|]; [|discriminate]. exists s. reflexivity.
  - destruct (nth_error p i) as [s|]; [|discriminate]. exists s. reflexivity.
Qed.

Example C02_case :
  let os := [HNew 3; HNew 0; HPoke 0 1 7; HCat 1 0; HCat 1 0; HSetSize 0 1; HSetOffset 1 2; HRead 1;
             HSetSize 1 6; HRead 1; HRead 0; HGetSize 1; HSetOffset 1 9; HSetOffset 1 0; HRead 1] in
  hist_valid [] os /\
  sp_run [] os = [HDone; HDone; HDone; HDone; HDone; HDone; HDone; HBytes [Some 0; Some 0; Some 7; Some 0];
     HDone; HBytes [Some 0; Some 0; Some 7; Some 0; None; None]; HBytes [Some 0]; HNum 6; HErr MP4BadParamErr;
     HDone; HBytes [Some 0; Some 7; Some 0; Some 0; Some 7; Some 0; None; None]].
Proof.
  cbv zeta. split; [apply hist_validb_ok; vm_compute; reflexivity | vm_compute; reflexivity].
Qed.

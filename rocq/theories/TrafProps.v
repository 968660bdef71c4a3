(* TrafProps.v -- C84: the fragment of a track while it is being written. *)
From Verif Require Import Base Codec AtomModel BoxModel HeaderModel AuxModel GroupModel GroupSpec GroupProofs GroupProps
  FragModel MediaSpec MediaModel MoofModel MoofProofs TrafModel TrafSpec.
Local Ltac Zify.zify_post_hook ::= Z.div_mod_to_equations.

(* ------------------------------------------------------------------ *)
(* flags                                                                *)

Lemma high_false g n k : g < 2 ^ n -> n <= k -> N.testbit g k = false.
Proof. intros H1 H2. rewrite <- (N.mod_small g (2 ^ n)) by exact H1. apply N.mod_pow2_bits_high. exact H2. Qed.
Lemma join_bits a b n k : a < 2 ^ n -> N.testbit (a + 2 ^ n * b) k = if k <? n then N.testbit a k else N.testbit b (k - n).
Proof.
  intros Ha. assert (P : 2 ^ n <> 0) by (apply N.pow_nonzero; discriminate). destruct (N.ltb_spec k n).
  - rewrite <- (N.mod_pow2_bits_low (a + 2 ^ n * b) n k) by assumption.
    rewrite (N.mul_comm (2 ^ n)), N.mod_add, N.mod_small by assumption. reflexivity.
  - replace k with (k - n + n) at 1 by (rewrite N.sub_add; [reflexivity|assumption]).
    rewrite <- N.div_pow2_bits, (N.mul_comm (2 ^ n)), N.div_add, N.div_small by assumption. reflexivity.
Qed.
Theorem C84_mark_bits : forall g x k, g < 4294967296 -> x < 256 ->
  N.testbit (with_mark g x) k = if (20 <=? k) && (k <? 28) then N.testbit x (k - 20) else N.testbit g k.
Proof.
  intros g x k Hg Hx. unfold with_mark.
  change 1048576 with (2 ^ 20). change 256 with (2 ^ 8) in *. change 268435456 with (2 ^ 28).
  rewrite join_bits by (apply N.mod_lt; discriminate). rewrite join_bits by exact Hx.
  destruct (N.ltb_spec k 20).
  - destruct (N.leb_spec 20 k); [lia|]. cbn [andb]. apply N.mod_pow2_bits_low. assumption.
  - destruct (N.leb_spec 20 k); [|lia]. cbn [andb]. destruct (N.ltb_spec (k - 20) 8), (N.ltb_spec k 28); try lia; [reflexivity|].
    rewrite N.div_pow2_bits. f_equal. lia.
Qed.
Print Assumptions C84_mark_bits.
Example C84_mark_ex : with_mark 4294967295 37 = 4066377727 /\ with_mark 65536 255 = 267452416.
Proof. split; reflexivity. Qed.
Lemma mask_bits k : N.testbit 4027580415 k = (k <? 32) && negb ((20 <=? k) && (k <? 28)).
Proof.
  change 4027580415 with (1048575 + 2 ^ 20 * (0 + 2 ^ 8 * (15 + 2 ^ 4 * 0))).
  rewrite join_bits by reflexivity. destruct (N.ltb_spec k 20).
  - change 1048575 with (N.ones 20). rewrite N.ones_spec_low by assumption.
    destruct (N.ltb_spec k 32); [|lia]. destruct (N.leb_spec 20 k); [lia|]. reflexivity.
  - rewrite join_bits by reflexivity. destruct (N.leb_spec 20 k); [|lia]. cbn [andb].
    destruct (N.ltb_spec (k - 20) 8), (N.ltb_spec k 28); try lia.
    + rewrite N.bits_0. destruct (N.ltb_spec k 32); reflexivity.
    + rewrite join_bits by reflexivity. destruct (N.ltb_spec (k - 20 - 8) 4), (N.ltb_spec k 32); try lia.
      * change 15 with (N.ones 4). rewrite N.ones_spec_low by assumption. reflexivity.
      * apply N.bits_0.
Qed.
Lemma put_mark_ok e x : e_flags e < 4294967296 -> x < 256 -> put_mark e x = marked e x.
Proof.
  intros Hg Hx. unfold put_mark, marked. f_equal. apply N.bits_inj. intros k.
  rewrite C84_mark_bits by assumption. rewrite N.lor_spec, N.land_spec, mask_bits.
  destruct (N.leb_spec 20 k).
  - rewrite N.shiftl_spec_high' by assumption. cbn [andb]. destruct (N.ltb_spec k 28).
    + cbn [negb]. rewrite andb_false_r, andb_false_r. reflexivity.
    + cbn [negb]. rewrite andb_true_r. rewrite (high_false x 8 (k - 20)) by (exact Hx || lia). rewrite orb_false_r.
      destruct (N.ltb_spec k 32); [apply andb_true_r|]. rewrite (high_false (e_flags e) 32 k) by (exact Hg || lia). reflexivity.
  - rewrite N.shiftl_spec_low by assumption. cbn [andb negb]. rewrite orb_false_r, andb_true_r.
    destruct (N.ltb_spec k 32); [apply andb_true_r|lia].
Qed.
Lemma with_mark_lt g x : g < 4294967296 -> x < 256 -> with_mark g x < 4294967296.
Proof. intros. unfold with_mark. lia. Qed.

(* ------------------------------------------------------------------ *)
(* marks through the runs                                               *)

Lemma mark_at_nil l : forall i, mark_at i [] l = l.
Proof. induction l as [|e l IH]; intros [|i]; cbn [mark_at]; try reflexivity. rewrite IH. reflexivity. Qed.
Lemma mark_ents_at l : forall i d, Forall (fun e => e_flags e < 4294967296) l -> bytes d ->
  snd (mark_ents (- Z.of_nat i) d l) = mark_at i d l.
Proof.
  induction l as [|e l IH]; intros i d F B; [destruct i; reflexivity|]. inversion F; subst. destruct d as [|x d].
  - cbn [mark_ents snd]. rewrite mark_at_nil. reflexivity.
  - cbn [mark_ents]. destruct i as [|i].
    + cbn [Z.of_nat Z.opp Z.leb Z.compare]. inversion B; subst.
      specialize (IH 0%nat d H2 H4). clear - IH H1 H3.
      assert (G : forall p, (0 <= p)%Z -> snd (mark_ents p d l) = snd (mark_ents 0 d l)).
      { clear. revert d. induction l as [|e l IH]; intros d p Hp; [reflexivity|]. destruct d as [|x d]; [reflexivity|]. cbn [mark_ents].
        destruct (Z.leb_spec 0 p); [|lia]. cbn [Z.leb Z.compare].
        pose proof (IH d (p + 1)%Z ltac:(lia)) as E1. pose proof (IH d (0 + 1)%Z ltac:(lia)) as E2.
        destruct (mark_ents (p + 1) d l) as [[? ?] m1]. destruct (mark_ents (0 + 1) d l) as [[? ?] m2]. cbn [snd] in *. congruence. }
      specialize (G (0 + 1)%Z ltac:(lia)). destruct (mark_ents (0 + 1) d l) as [[p q] m]. cbn [snd mark_at] in *.
      rewrite G, put_mark_ok by assumption. rewrite <- IH. reflexivity.
    + destruct (Z.leb_spec 0 (- Z.of_nat (S i))); [lia|].
      replace (- Z.of_nat (S i) + 1)%Z with (- Z.of_nat i)%Z by lia.
      specialize (IH i (x :: d) H2 B). destruct (mark_ents (- Z.of_nat i) (x :: d) l) as [[p q] m]. cbn [snd mark_at] in *. congruence.
Qed.
Lemma mark_ents_from_start l d p : (0 <= p)%Z -> Forall (fun e => e_flags e < 4294967296) l -> bytes d ->
  snd (mark_ents p d l) = mark_at 0 d l.
Proof.
  intros Hp F B. rewrite <- (mark_ents_at l 0 d F B). cbn [Z.of_nat Z.opp]. clear F B. revert p Hp d.
  induction l as [|e l IH]; intros p Hp d; [reflexivity|]. destruct d as [|x d]; [reflexivity|]. cbn [mark_ents].
  destruct (Z.leb_spec 0 p); [|lia]. cbn [Z.leb Z.compare].
  pose proof (IH (p + 1)%Z ltac:(lia) d) as E1. pose proof (IH (0 + 1)%Z ltac:(lia) d) as E2.
  destruct (mark_ents (p + 1) d l) as [[? ?] m1]. destruct (mark_ents (0 + 1) d l) as [[? ?] m2]. cbn [snd] in *. congruence.
Qed.
Lemma mark_ents_app a b : forall pos d,
  snd (mark_ents pos d (a ++ b)) = snd (mark_ents pos d a) ++ snd (mark_ents (fst (fst (mark_ents pos d a))) (snd (fst (mark_ents pos d a))) b).
Proof.
  induction a as [|e a IH]; intros pos d; [reflexivity|]. destruct d as [|x d].
  - cbn [app mark_ents fst snd]. destruct b; reflexivity.
  - cbn [app mark_ents]. destruct (0 <=? pos)%Z.
    + specialize (IH (pos + 1)%Z d). destruct (mark_ents (pos + 1) d (a ++ b)) as [[? ?] m1].
      destruct (mark_ents (pos + 1) d a) as [[p q] m2]. cbn [fst snd] in *. rewrite IH. reflexivity.
    + specialize (IH (pos + 1)%Z (x :: d)). destruct (mark_ents (pos + 1) (x :: d) (a ++ b)) as [[? ?] m1].
      destruct (mark_ents (pos + 1) (x :: d) a) as [[p q] m2]. cbn [fst snd] in *. rewrite IH. reflexivity.
Qed.
Lemma mark_runs_flat rs : forall pos d, flat_map tr_ents (mark_runs pos d rs) = snd (mark_ents pos d (flat_map tr_ents rs)).
Proof.
  induction rs as [|r rs IH]; intros pos d; [reflexivity|]. cbn [mark_runs flat_map]. rewrite mark_ents_app.
  destruct (mark_ents pos d (tr_ents r)) as [[p q] m]. cbn [flat_map tr_ents fst snd]. rewrite IH. reflexivity.
Qed.
Lemma mark_at_len l : forall i d, length (mark_at i d l) = length l.
Proof. induction l as [|e l IH]; intros [|i] [|x d]; cbn [mark_at length]; try reflexivity; rewrite IH; reflexivity. Qed.
Lemma mark_at_flags l : forall i d, Forall (fun e => e_flags e < 4294967296) l -> bytes d ->
  Forall (fun e => e_flags e < 4294967296) (mark_at i d l).
Proof.
  induction l as [|e l IH]; intros i d F B; [destruct i, d; exact F|]. inversion F; subst. destruct i as [|i].
  - destruct d as [|x d]; [exact F|]. inversion B; subst. cbn [mark_at]. constructor; [apply with_mark_lt; assumption|apply IH; assumption].
  - cbn [mark_at]. constructor; [assumption|apply IH; assumption].
Qed.

Lemma count_from rs : forall a, a + len (flat_map tr_ents rs) < 4294967296 ->
  fold_left (fun a r => w32 (a + len (tr_ents r))) rs a = a + len (flat_map tr_ents rs).
Proof.
  induction rs as [|r rs IH]; intros a H; cbn [fold_left flat_map] in *; [unfold len; cbn; lia|]. revert H. lens. intros H.
  rewrite w32_small by lia. rewrite IH by lia. lia.
Qed.
Lemma count_ok t : len (frag_ents t) < 4294967296 -> frag_count (f_runs t) = len (frag_ents t).
Proof. intros H. unfold frag_count. rewrite count_from; [reflexivity|exact H]. Qed.

(* ------------------------------------------------------------------ *)
(* the invariant                                                        *)

Definition mode_of (o : option bool) : N := match o with None => 0 | Some true => 1 | Some false => 2 end.
Record agrees (w : wfrag) (z : sfrag) : Prop := {
  g_hdr : f_hdr (wf_traf w) <> None;
  g_ents : frag_ents (wf_traf w) = z_ents z;
  g_flags : Forall (fun e => e_flags e < 4294967296) (z_ents z);
  g_few : len (z_ents z) < 268435455;
  g_mode : wf_mode w = mode_of (z_here z);
  g_lens : forall s, In s (f_sbgp (wf_traf w)) -> len (sg_idx s) = len (z_ents z);
  g_maps : forall ty, option_map sg_idx (find_by sg_type ty (f_sbgp (wf_traf w))) = z_map z ty }.

Lemma push_ok t r : (forall s, In s (f_sbgp t) -> len (sg_idx s) + len (tr_ents r) < 1073741824) ->
  exists l, push_run t r = Ok (set_maps (add_run_to t r) l) /\
    (forall c, (forall s, In s (f_sbgp t) -> len (sg_idx s) = c) -> forall s, In s l -> len (sg_idx s) = c + len (tr_ents r)) /\
    forall ty, option_map sg_idx (find_by sg_type ty l) =
      option_map (fun x => x ++ repeat 0 (length (tr_ents r))) (option_map sg_idx (find_by sg_type ty (f_sbgp t))).
Proof.
  intros H. destruct (add_each_ok (len (tr_ents r)) (f_sbgp t) H) as (l & E & F). exists l.
  unfold push_run. rewrite E. cbn [bind]. split; [reflexivity|]. split; [intros c Hc; exact (add_each_len _ _ _ _ E Hc)|].
  intros ty. rewrite F. destruct (find_by sg_type ty (f_sbgp t)) as [s|] eqn:Es; [|reflexivity]. cbn [option_map].
  unfold sbgp_addSamples. destruct (N.eqb_spec (len (tr_ents r)) 0) as [Z|Z].
  - cbn [option_map]. unfold len in Z. replace (length (tr_ents r)) with 0%nat by lia. cbn [repeat]. rewrite app_nil_r. reflexivity.
  - assert (I : In s (f_sbgp t)).
    { clear - Es. revert Es. generalize (f_sbgp t) as m. intros m. induction m as [|x m IH]; cbn [find_by]; [discriminate|].
      destruct (sg_type x =? ty); [intros E; injection E as ->; left; reflexivity|intros E; right; apply IH, E]. }
    specialize (H s I). destruct (N.leb_spec 1073741824 (len (sg_idx s) + len (tr_ents r))); [lia|].
    cbn [option_map set_idx sg_idx]. rewrite len_nat. reflexivity.
Qed.
Lemma entry_flags ss : Forall (fun e => e_flags e < 4294967296) (map entry_of ss).
Proof. rewrite Forall_map, Forall_forall. intros s _. unfold entry_of. cbn [e_flags]. destruct (m_sync s); reflexivity. Qed.
Lemma ref_run_ok signed off b ss : describes b ss -> b_pads b = None -> b_offs b = None -> b_sync b = None ->
  exists r, ref_run signed off b = Ok r /\ tr_ents r = map entry_of ss /\ tr_off r = off.
Proof.
  intros [D1 D2 D3 D4 D5 D6 D7 D8 D9] Hp Ho Hs. unfold ref_run. rewrite Hp, Ho, Hs, D2, len_nat.
  rewrite Ho in D6. rewrite Hs in D7.
  assert (E : mapm (ref_entry b) (seq 0 (length ss)) = Ok (map entry_of ss)).
  { rewrite <- (map_length entry_of ss). apply mapm_seq. intros i e He. cbn [Nat.add].
    rewrite nth_error_map in He. destruct (nth_error ss i) as [s|] eqn:Es; [|discriminate]. injection He as <-.
    unfold ref_entry. rewrite (pick_per _ _ i (m_dur s) D5) by (rewrite nth_error_map, Es; reflexivity). cbn [bind].
    rewrite (pick_per _ _ i (len (m_bytes s)) D4) by (rewrite nth_error_map, Es; reflexivity). cbn [bind].
    rewrite Hs. unfold entry_of. rewrite Forall_forall in D6, D7. pose proof (nth_error_In _ _ Es) as I.
    rewrite (D6 s I), (D7 s I). reflexivity. }
  rewrite E. cbn [bind]. eexists. split; [reflexivity|]. split; reflexivity.
Qed.
Lemma agrees_push w z t r ss here : agrees w z -> len (z_ents z) + len ss < 268435455 ->
  tr_ents r = map entry_of ss -> f_runs t = f_runs (wf_traf w) -> f_sbgp t = f_sbgp (wf_traf w) -> f_hdr t <> None ->
  exists t', push_run t r = Ok t' /\ f_hdr t' = f_hdr t /\ f_runs t' = f_runs t ++ [r] /\
    agrees (mkWfrag t' (mode_of (Some here))) (mkSfrag (z_ents z ++ map entry_of ss)
       (fun ty => option_map (fun l => l ++ repeat 0 (length ss)) (z_map z ty)) (Some here)).
Proof.
  intros [G1 G2 G3 G4 G5 G6 G7] L Er E1 E2 E3.
  assert (Ln : len (tr_ents r) = len ss) by (rewrite Er; apply len_map).
  destruct (push_ok t r) as (l & P1 & P2 & P3).
  { intros s I. rewrite E2 in I. rewrite (G6 s I), Ln. lia. }
  exists (set_maps (add_run_to t r) l). split; [exact P1|]. split; [reflexivity|]. split; [reflexivity|]. split.
  - exact E3.
  - cbn [wf_traf z_ents]. unfold frag_ents in *. cbn [set_maps add_run_to f_runs]. rewrite E1, flat_map_app, G2. cbn [flat_map]. rewrite app_nil_r, Er. reflexivity.
  - cbn [z_ents]. apply Forall_app. split; [exact G3|apply entry_flags].
  - cbn [z_ents]. lens. rewrite ?len_map. lia.
  - reflexivity.
  - cbn [wf_traf set_maps f_sbgp z_ents]. intros s I. rewrite E2 in P2. rewrite (P2 _ G6 s I), Ln. lens. rewrite ?len_map. reflexivity.
  - cbn [wf_traf set_maps f_sbgp z_map]. intros ty. rewrite P3, E2, G7. replace (length (tr_ents r)) with (length ss) by (unfold len in Ln; lia). reflexivity.
Qed.

Lemma position_neg z i n : len (z_ents z) < 268435455 -> position_ok z i n -> (-2147483648 < i < 2147483648)%Z.
Proof. intros L (P1 & P2 & _). unfold start_of, first_of in P1. destruct (i <? 0)%Z eqn:E; lia. Qed.
Lemma agrees_step signed w z c s : agrees w z -> says c s -> scall_ok z s ->
  exists w' x, traf_step signed w c = (w', x) /\ out_of x = Some (snd (sstep z s)) /\ agrees w' (fst (sstep z s)).
Proof.
  intros G Y O. pose proof G as [G1 G2 G3 G4 G5 G6 G7]. destruct c as [off b|pos b|ty g i n k|ty n|i d], s as [[] ss|ty' g' i' n'|ty' n'|i' d']; try contradiction.
  - destruct Y as (D & Y1 & Y2 & Y3 & Y4 & Y5). cbn [scall_ok] in O. cbn [traf_step sstep]. unfold traf_samples. rewrite Y1, G5.
    assert (R : match z_here z with Some false => True | _ =>
      exists w', (do r <- frag_run signed off b; do t <- push_run (wf_traf w) r; Ok (mkWfrag t 1)) = Ok w' /\
      agrees w' (mkSfrag (z_ents z ++ map entry_of ss) (fun ty => option_map (fun l => l ++ repeat 0 (length ss)) (z_map z ty)) (Some true)) end).
    { destruct (frag_run_ok signed off b ss D Y2 Y3 ltac:(lia) Y4 Y5) as (r & R1 & R2 & _).
      destruct (agrees_push w z (wf_traf w) r ss true G O R2 eq_refl eq_refl G1) as (t' & P1 & _ & _ & P2).
      assert (X : exists w', (do r <- frag_run signed off b; do t <- push_run (wf_traf w) r; Ok (mkWfrag t 1)) = Ok w' /\
        agrees w' (mkSfrag (z_ents z ++ map entry_of ss) (fun ty => option_map (fun l => l ++ repeat 0 (length ss)) (z_map z ty)) (Some true))).
      { rewrite R1. cbn [bind]. rewrite P1. cbn [bind]. eexists. split; [reflexivity|exact P2]. }
      destruct (z_here z) as [[]|]; [exact X|exact I|exact X]. }
    destruct (z_here z) as [[]|]; cbn [mode_of N.eqb Pos.eqb orb Bool.eqb].
    + destruct R as (w' & -> & A). exists w', (Ok None). split; [reflexivity|]. split; [reflexivity|exact A].
    + exists w, (Err MP4BadDataErr). split; [reflexivity|]. split; [reflexivity|exact G].
    + destruct R as (w' & -> & A). exists w', (Ok None). split; [reflexivity|]. split; [reflexivity|exact A].
  - destruct Y as (D & Y1 & Y2 & Y3 & Y4). cbn [scall_ok] in O. cbn [traf_step sstep]. unfold traf_refs. rewrite Y1, G5.
    destruct (f_hdr (wf_traf w)) as [h|] eqn:Eh; [|contradiction].
    set (h' := if fh_base h =? 0 then set_base h pos else h).
    assert (X : exists w', (do r <- ref_run signed (w32 (sub64 pos (fh_base h'))) b; do t <- push_run (set_hdr (wf_traf w) h') r; Ok (mkWfrag t 2)) = Ok w' /\
        agrees w' (mkSfrag (z_ents z ++ map entry_of ss) (fun ty => option_map (fun l => l ++ repeat 0 (length ss)) (z_map z ty)) (Some false))).
    { destruct (ref_run_ok signed (w32 (sub64 pos (fh_base h'))) b ss D Y2 Y3 Y4) as (r & R1 & R2 & _).
      destruct (agrees_push w z (set_hdr (wf_traf w) h') r ss false G O R2 eq_refl eq_refl ltac:(discriminate)) as (t' & P1 & _ & _ & P2).
      rewrite R1. cbn [bind]. rewrite P1. cbn [bind]. eexists. split; [reflexivity|exact P2]. }
    destruct X as (w' & X & A). destruct (z_here z) as [[]|]; cbn [mode_of N.eqb Pos.eqb orb Bool.eqb].
    + exists w, (Err MP4BadDataErr). split; [reflexivity|]. split; [reflexivity|exact G].
    + exists w', (Ok None). rewrite X. split; [reflexivity|]. split; [reflexivity|exact A].
    + exists w', (Ok None). rewrite X. split; [reflexivity|]. split; [reflexivity|exact A].
  - destruct Y as (<- & <- & <- & <-). cbn [scall_ok] in O. cbn [traf_step sstep]. unfold traf_map.
    pose proof (position_neg z i n G4 O) as Hi. destruct O as (O1 & O2 & O3).
    rewrite count_ok by (rewrite G2; lia). rewrite G2.
    set (s := match find_by sg_type ty (f_sbgp (wf_traf w)) with Some s => s
              | None => set_idx (sbgp_new k ty true) (repeat 0 (length (z_ents z))) end).
    set (l := match find_by sg_type ty (f_sbgp (wf_traf w)) with Some _ => f_sbgp (wf_traf w) | None => f_sbgp (wf_traf w) ++ [s] end).
    assert (E : match find_by sg_type ty (f_sbgp (wf_traf w)) with
        | Some s => Ok (f_sbgp (wf_traf w), s)
        | None => do s <- (if 0 <? len (z_ents z) then sbgp_addSamples (sbgp_new k ty true) (len (z_ents z)) else Ok (sbgp_new k ty true));
                  Ok (f_sbgp (wf_traf w) ++ [s], s)
        end = Ok (l, s)).
    { unfold l, s. destruct (find_by sg_type ty (f_sbgp (wf_traf w))); [reflexivity|].
      destruct (N.ltb_spec 0 (len (z_ents z))) as [L|L].
      - unfold sbgp_addSamples. destruct (N.eqb_spec (len (z_ents z)) 0); [lia|].
        destruct (N.leb_spec 1073741824 (len (sg_idx (sbgp_new k ty true)) + len (z_ents z))) as [Q|Q].
        + exfalso. change (len (sg_idx (sbgp_new k ty true))) with 0 in Q. lia.
        + cbn [bind]. rewrite len_nat. reflexivity.
      - replace (length (z_ents z)) with 0%nat by (unfold len in L; lia). reflexivity. }
    rewrite E. assert (Hty : sg_type s = ty).
    { unfold s. destruct (find_by sg_type ty (f_sbgp (wf_traf w))) eqn:E2; [eapply find_type; exact E2|reflexivity]. }
    assert (Hs : sg_idx s = map_of z ty).
    { unfold s, map_of. rewrite <- (G7 ty). destruct (find_by sg_type ty (f_sbgp (wf_traf w))); reflexivity. }
    assert (Hl : forall x, find_by sg_type x l = if x =? ty then Some s else find_by sg_type x (f_sbgp (wf_traf w))).
    { intros x. unfold l. destruct (find_by sg_type ty (f_sbgp (wf_traf w))) as [y|] eqn:E2.
      - destruct (N.eqb_spec x ty); [subst x; rewrite E2; reflexivity|reflexivity].
      - rewrite find_snoc, Hty. destruct (N.eqb_spec x ty) as [->|Ne]; [rewrite E2, N.eqb_refl; reflexivity|].
        destruct (find_by sg_type x (f_sbgp (wf_traf w))); [reflexivity|]. destruct (N.eqb_spec ty x); [congruence|reflexivity]. }
    assert (Hn : forall x, In x l -> len (sg_idx x) = len (z_ents z)).
    { intros x. unfold l. destruct (find_by sg_type ty (f_sbgp (wf_traf w))) eqn:E2; [apply G6|]. intros I. apply in_app_or in I.
      destruct I as [I|[<-|[]]]; [apply G6, I|]. unfold s. cbn [set_idx sg_idx]. unfold len. rewrite repeat_length. reflexivity. }
    assert (Ls : len (sg_idx s) = len (z_ents z)).
    { assert (I : find_by sg_type ty l = Some s) by (rewrite Hl, N.eqb_refl; reflexivity).
      apply Hn. revert I. clear. induction l as [|x m IH]; cbn [find_by]; [discriminate|].
      destruct (sg_type x =? ty); [intros E; injection E as ->; left; reflexivity|intros E; right; apply IH, E]. }
    clearbody s l. clear E. unfold fits_in. destruct (Z.leb_spec (start_of z i + Z.of_N n) (Z.of_N (len (z_ents z)))) as [Fi|Fi].
    + assert (It : in_table (len (sg_idx s)) i n) by (rewrite Ls; split; assumption).
      destruct (map_ok s g i n ltac:(lia) Hi It) as (lo & isz & Em & _). rewrite Em. eexists _, _. split; [reflexivity|]. split; [reflexivity|].
      cbn [fst]. rewrite Ls, Hs. unfold start_of in *.
      assert (Bd : Z.to_N (first_of (len (z_ents z)) i) + n <= len (map_of z ty)) by (rewrite <- Hs, Ls; lia).
      split; try assumption.
      * cbn [wf_traf set_maps f_sbgp z_ents]. intros x I. apply put_in in I. destruct I as [->|I]; [|apply Hn, I].
        cbn [sg_idx]. rewrite fill_len by exact Bd. rewrite <- Hs. exact Ls.
      * cbn [wf_traf set_maps f_sbgp z_map]. intros x. destruct (N.eqb_spec x ty) as [->|Ne].
        -- rewrite find_put; [reflexivity|exact Hty|rewrite Hl, N.eqb_refl; discriminate].
        -- rewrite find_put_other by (exact Hty || exact Ne). rewrite Hl. destruct (N.eqb_spec x ty); [contradiction|apply G7].
    + assert (R : sbgp_map s g i n = Err MP4BadParamErr).
      { apply C24_outside_rejected; [lia|exact Hi|intros [_ Q]; rewrite Ls in Q; unfold start_of in Fi; lia|].
        rewrite Ls. unfold start_of, first_of in O1, O3. destruct (i <? 0)%Z eqn:Ei; lia. }
      rewrite R. eexists _, _. split; [reflexivity|]. split; [reflexivity|]. cbn [fst]. split; try assumption.
      cbn [wf_traf set_maps f_sbgp z_map]. intros x. rewrite Hl. destruct (N.eqb_spec x ty) as [->|Ne]; [cbn [option_map]; rewrite Hs; reflexivity|apply G7].
  - destruct Y as (<- & <-). cbn [traf_step sstep fst snd]. unfold traf_group. specialize (G7 ty). rewrite <- G7. eexists _, _. split; [reflexivity|].
    split; [|exact G]. destruct (find_by sg_type ty (f_sbgp (wf_traf w))) as [s|] eqn:E; cbn [option_map].
    + unfold sbgp_get. destruct (N.eqb_spec n 0) as [->|Z]; [reflexivity|]. destruct (N.ltb_spec n 1); [lia|].
      destruct (N.ltb_spec (len (sg_idx s)) n) as [L|L]; cbn [out_of].
      * rewrite nth_overflow; [reflexivity|]. unfold len in L. lia.
      * unfold nthN. destruct (nth_error (sg_idx s) (N.to_nat (n - 1))) as [v|] eqn:Ev.
        -- cbn [out_of]. erewrite nth_error_nth; [reflexivity|exact Ev].
        -- apply nth_error_None in Ev. unfold len in L. lia.
    + destruct (n =? 0); reflexivity.
  - destruct Y as (<- & <-). destruct O as [O B]. cbn [traf_step sstep]. unfold traf_deps.
    pose proof (position_neg z i (len d) G4 O) as Hi. destruct O as (O1 & O2 & O3).
    rewrite count_ok by (rewrite G2; lia). rewrite G2.
    assert (Ei : (if (i <? 0)%Z then s32_of (u32_of (Z.of_N (len (z_ents z)) + i)) else i) = start_of z i).
    { unfold start_of, first_of in *. destruct (Z.ltb_spec i 0); [|reflexivity]. unfold u32_of, s32_of. rewrite Z.mod_small by lia.
      destruct (N.ltb_spec (Z.to_N (Z.of_N (len (z_ents z)) + i)) 2147483648); lia. }
    rewrite Ei. assert (Eu : u32_of (start_of z i) = Z.to_N (start_of z i)).
    { unfold u32_of. rewrite Z.mod_small; [reflexivity|]. unfold start_of, first_of in *. destruct (Z.ltb_spec i 0); lia. }
    rewrite Eu.
    unfold fits_in. destruct (Z.leb_spec (start_of z i + Z.of_N (len d)) (Z.of_N (len (z_ents z)))) as [Fi|Fi].
    + rewrite w32_small by lia. destruct (N.ltb_spec (len (z_ents z)) (Z.to_N (start_of z i) + len d)); [lia|].
      destruct (Z.eqb_spec (start_of z i) (-2147483648)); [lia|]. eexists _, _. split; [reflexivity|]. split; [reflexivity|]. cbn [fst].
      assert (M : frag_ents (set_runs (wf_traf w) (mark_runs (- start_of z i) d (f_runs (wf_traf w)))) = mark_at (Z.to_nat (start_of z i)) d (z_ents z)).
      { unfold frag_ents in *. cbn [set_runs f_runs]. rewrite mark_runs_flat, G2. rewrite <- mark_ents_at by assumption. rewrite Z2Nat.id by exact O1. reflexivity. }
      split; cbn [wf_traf z_ents z_here wf_mode set_runs f_sbgp f_hdr z_map]; try assumption.
      * apply mark_at_flags; assumption.
      * unfold len in *. rewrite mark_at_len. exact G4.
      * intros s I. unfold len in *. rewrite mark_at_len. apply G6, I.
    + assert (W : len (z_ents z) < w32 (Z.to_N (start_of z i) + len d)).
      { rewrite w32_small by lia. lia. }
      destruct (N.ltb_spec (len (z_ents z)) (w32 (Z.to_N (start_of z i) + len d))); [|lia].
      eexists _, _. split; [reflexivity|]. split; [reflexivity|exact G].
Qed.

(* ------------------------------------------------------------------ *)
(* C84                                                                  *)

Theorem C84_history : forall signed k cs, Forall (fun p => says (fst p) (snd p)) cs -> scalls_ok sfrag0 (map snd cs) ->
  let '(w, xs) := traf_run signed (wfrag_start k) (map fst cs) in
  let '(z, ys) := srun sfrag0 (map snd cs) in
  map out_of xs = map Some ys /\ frag_ents (wf_traf w) = z_ents z.
Proof.
  intros signed k cs. assert (G : forall cs w z, agrees w z -> Forall (fun p => says (fst p) (snd p)) cs -> scalls_ok z (map snd cs) ->
    map out_of (snd (traf_run signed w (map fst cs))) = map Some (snd (srun z (map snd cs))) /\
    frag_ents (wf_traf (fst (traf_run signed w (map fst cs)))) = z_ents (fst (srun z (map snd cs)))).
  { clear. induction cs as [|[c s] cs IH]; intros w z A F O; cbn [map traf_run srun fst snd]; [split; [reflexivity|apply A]|].
    inversion F as [|? ? F1 F2]; subst. cbn [map scalls_ok] in O. destruct O as [O1 O2]. cbn [fst snd] in F1, O1, O2.
    destruct (agrees_step signed w z c s A F1 O1) as (w' & x & E1 & E2 & A'). rewrite E1.
    destruct (sstep z s) as [z1 y]. cbn [fst snd] in E2, A', O2. specialize (IH w' z1 A' F2 O2).
    destruct (traf_run signed w' (map fst cs)) as [w2 xs]. destruct (srun z1 (map snd cs)) as [z2 ys]. cbn [fst snd] in *.
    destruct IH as [I1 I2]. split; [cbn [map]; rewrite E2, I1; reflexivity|exact I2]. }
  intros F O. specialize (G cs (wfrag_start k) sfrag0).
  destruct (traf_run signed (wfrag_start k) (map fst cs)) as [w xs]. destruct (srun sfrag0 (map snd cs)) as [z ys]. cbn [fst snd] in G.
  apply G; [|exact F|exact O]. split; try reflexivity; try discriminate; [constructor|intros s []].
Qed.
Print Assumptions C84_history.
Definition ex_s (n : nat) (sync : bool) : smp := mkSmp (repeat 7 n) 10 0 sync 0.
Definition ex_b1 : mbat := mkBat 3 (repeat 7 6) [10] [1; 2; 3] None None (Some [1]) None.
Definition ex_b2 : mbat := mkBat 2 (repeat 7 2) [10; 10] [1] None None None None.
Definition ex_k : wtrk := mkWtrk 1 (mkTdef 1 0 0 0) 0.
Definition ex_cs : list (fcall * scall) :=
  [(CAdd 0 ex_b1, SAdd true [ex_s 1 true; ex_s 2 false; ex_s 3 false]);
   (CMap 5 2 (-2) 2 Auto, SMap 5 2 (-2) 2);
   (CAdd 6 ex_b2, SAdd true [ex_s 1 true; ex_s 1 true]);
   (CDeps 2 [36; 32], SDeps 2 [36; 32]); (CDeps (-1) [1; 2], SDeps (-1) [1; 2]);
   (CGroup 5 3, SGroup 5 3); (CGroup 5 4, SGroup 5 4); (CGroup 6 1, SGroup 6 1)].
Lemma says_ex : says (fst (nth 0 ex_cs (CGroup 0 0, SGroup 0 0))) (snd (nth 0 ex_cs (CGroup 0 0, SGroup 0 0))) /\
  says (fst (nth 2 ex_cs (CGroup 0 0, SGroup 0 0))) (snd (nth 2 ex_cs (CGroup 0 0, SGroup 0 0))).
Proof.
  split; (split; [constructor; try reflexivity; try discriminate; try (left; reflexivity); try (right; eexists; split; [reflexivity|repeat constructor]);
    repeat constructor; cbn; try lia; try discriminate|repeat split; discriminate]).
Qed.
Example C84_history_case : Forall (fun p => says (fst p) (snd p)) ex_cs /\ scalls_ok sfrag0 (map snd ex_cs) /\
  map out_of (snd (traf_run false (wfrag_start ex_k) (map fst ex_cs))) =
    map Some [SDone; SDone; SDone; SDone; SErr MP4BadParamErr; SVal 2; SVal 0; SErr MP4BadParamErr] /\
  map e_flags (frag_ents (wf_traf (fst (traf_run false (wfrag_start ex_k) (map fst ex_cs))))) = [0; 65536; 37814272; 33554432; 0].
Proof.
  split; [|split; [|split; vm_compute; reflexivity]].
  - constructor; [exact (proj1 says_ex)|]. constructor; [repeat split|]. constructor; [exact (proj2 says_ex)|]. repeat (constructor; [repeat split|]). constructor.
  - vm_compute. repeat split; try discriminate; repeat constructor.
Qed.

(* a sample description cannot be given *)
Theorem C84_description_refused : forall signed w p b e, b_entry b = Some e ->
  traf_samples signed w p b = Err MP4BadDataErr /\ traf_refs signed w p b = Err MP4BadDataErr.
Proof. intros signed w p b e H. unfold traf_samples, traf_refs. rewrite H. split; reflexivity. Qed.
Print Assumptions C84_description_refused.

(* the data of every run added by reference are where they were said to be *)
Fixpoint refs_all (signed : bool) (w : wfrag) (l : list (N * mbat)) : res wfrag :=
  match l with [] => Ok w | (p, b) :: r => do w' <- traf_refs signed w p b; refs_all signed w' r end.
Definition near (a b : N) : Prop := (- 2147483648 < Z.of_N a - Z.of_N b < 2147483648)%Z.
Lemma located_ok p base : p < 18446744073709551616 -> base < 18446744073709551616 -> near p base ->
  w64 (base + u64_of (s32_of (w32 (sub64 p base)))) = p.
Proof.
  intros Hp Hb Hn. unfold near in Hn. unfold sub64. rewrite (w64_small base) by exact Hb.
  destruct (N.le_gt_cases base p) as [L|L].
  - assert (E : w64 (p + 18446744073709551616 - base) = p - base).
    { unfold w64. replace (p + 18446744073709551616 - base) with (p - base + 1 * 18446744073709551616) by lia. rewrite N.mod_add by discriminate. apply N.mod_small. lia. }
    rewrite E, w32_small by lia. unfold s32_of. destruct (N.ltb_spec (p - base) 2147483648); [|lia].
    unfold u64_of. rewrite Z.mod_small by lia. rewrite w64_small by lia. lia.
  - rewrite (w64_small (p + 18446744073709551616 - base)) by lia.
    assert (E : w32 (p + 18446744073709551616 - base) = 4294967296 - (base - p)).
    { unfold w32. replace (p + 18446744073709551616 - base) with (4294967296 - (base - p) + 4294967295 * 4294967296) by lia.
      rewrite N.mod_add by discriminate. apply N.mod_small. lia. }
    rewrite E. unfold s32_of. destruct (N.ltb_spec (4294967296 - (base - p)) 2147483648); [lia|].
    unfold u64_of. replace (Z.of_N (4294967296 - (base - p)) - 4294967296)%Z with (18446744073709551616 - Z.of_N (base - p) + (-1) * 18446744073709551616)%Z by lia.
    rewrite Z.mod_add by discriminate. rewrite Z.mod_small by lia.
    unfold w64. replace (base + Z.to_N (18446744073709551616 - Z.of_N (base - p))) with (p + 1 * 18446744073709551616) by lia.
    rewrite N.mod_add by discriminate. apply N.mod_small. exact Hp.
Qed.
Definition ref_ok (p : N) (x : N * mbat * list smp) : Prop :=
  says (CRef (fst (fst x)) (snd (fst x))) (SAdd false (snd x)) /\ fst (fst x) < 18446744073709551616 /\ near (fst (fst x)) p.
Theorem C84_references : forall signed k x xs, fst (fst x) <> 0 -> Forall (ref_ok (fst (fst x))) (x :: xs) ->
  len (flat_map snd (x :: xs)) < 268435455 ->
  exists w h, refs_all signed (wfrag_start k) (map fst (x :: xs)) = Ok w /\ f_hdr (wf_traf w) = Some h /\
    map (located h) (f_runs (wf_traf w)) = map (fun y => fst (fst y)) (x :: xs) /\
    map tr_ents (f_runs (wf_traf w)) = map (fun y => map entry_of (snd y)) (x :: xs).
Proof.
  intros signed k [[p b] ss] xs Hp F L. cbn [fst] in Hp.
  (* one more reference *)
  assert (One : forall w z h b0 ss0 p0, agrees w z -> z_here z <> Some true -> f_hdr (wf_traf w) = Some h -> ref_ok p (p0, b0, ss0) ->
    (fh_base h = 0 /\ p0 = p \/ fh_base h = p) -> len (z_ents z) + len ss0 < 268435455 ->
    exists w' r h', traf_refs signed w p0 b0 = Ok w' /\ f_hdr (wf_traf w') = Some h' /\ fh_base h' = p /\
      f_runs (wf_traf w') = f_runs (wf_traf w) ++ [r] /\ located h' r = p0 /\ tr_ents r = map entry_of ss0 /\
      agrees w' (mkSfrag (z_ents z ++ map entry_of ss0) (fun ty => option_map (fun l => l ++ repeat 0 (length ss0)) (z_map z ty)) (Some false))).
  { intros w z h b0 ss0 p0 A Hz Eh ((D & Y1 & Y2 & Y3 & Y4) & R2 & R3) Hb Lz. cbn [fst snd] in *. unfold traf_refs. rewrite Y1, (g_mode _ _ A), Eh.
    set (h' := if fh_base h =? 0 then set_base h p0 else h).
    assert (Hh : fh_base h' = p).
    { unfold h'. destruct Hb as [[Hb ->]|Hb]; [rewrite Hb; reflexivity|]. destruct (N.eqb_spec (fh_base h) 0); [congruence|exact Hb]. }
    destruct (ref_run_ok signed (w32 (sub64 p0 (fh_base h'))) b0 ss0 D Y2 Y3 Y4) as (r & E1 & E2 & E3).
    destruct (agrees_push w z (set_hdr (wf_traf w) h') r ss0 false A Lz E2 eq_refl eq_refl ltac:(discriminate)) as (t' & P1 & P2 & P3 & P4).
    exists (mkWfrag t' 2), r, h'. split; [destruct (z_here z) as [[]|]; [congruence| |]; cbn [mode_of N.eqb Pos.eqb orb]; rewrite E1; cbn [bind]; rewrite P1; reflexivity|].
    split; [exact P2|]. split; [exact Hh|]. split; [exact P3|]. split; [|split; [exact E2|exact P4]].
    unfold located. rewrite E3, Hh. apply located_ok; [exact R2| |exact R3].
    inversion F as [|? ? F1 _]; subst. destruct F1 as (_ & F1 & _). exact F1. }
  assert (Many : forall xs w z h, agrees w z -> z_here z = Some false -> f_hdr (wf_traf w) = Some h -> fh_base h = p -> Forall (ref_ok p) xs ->
    len (z_ents z) + len (flat_map snd xs) < 268435455 ->
    exists w' h' rs, refs_all signed w (map fst xs) = Ok w' /\ f_hdr (wf_traf w') = Some h' /\ fh_base h' = p /\ f_runs (wf_traf w') = f_runs (wf_traf w) ++ rs /\
      map (located h') rs = map (fun y => fst (fst y)) xs /\ map tr_ents rs = map (fun y => map entry_of (snd y)) xs).
  { clear xs F L. induction xs as [|[[p0 b0] ss0] xs IH]; intros w z h A Hz Eh Hb F L.
    - exists w, h, []. rewrite app_nil_r. repeat split; assumption.
    - inversion F as [|? ? F1 F2]; subst x l. cbn [flat_map snd] in L. rewrite len_app in L.
      destruct (One w z h b0 ss0 p0 A ltac:(rewrite Hz; discriminate) Eh F1 (or_intror Hb) ltac:(lia)) as (w1 & r & h1 & T1 & T2 & T3 & T4 & T5 & T6 & A1).
      destruct (IH w1 _ h1 A1 eq_refl T2 T3 F2) as (w2 & h2 & rs & U1 & U2 & U3 & U4 & U5 & U6).
      { cbn [z_ents]. rewrite len_app, len_map. lia. }
      exists w2, h2, (r :: rs). cbn [map fst snd refs_all]. rewrite T1. cbn [bind]. split; [exact U1|]. split; [exact U2|]. split; [exact U3|].
      split; [rewrite U4, T4, <- app_assoc; reflexivity|]. split; [|rewrite T6, U6; reflexivity].
      rewrite U5. f_equal. rewrite <- T5. unfold located. rewrite U3, T3. reflexivity. }
  inversion F as [|? ? F1 F2]; subst x l. cbn [flat_map snd] in L. rewrite len_app in L.
  assert (A0 : agrees (wfrag_start k) sfrag0) by (split; try reflexivity; try discriminate; [constructor|intros s []]).
  destruct (One (wfrag_start k) sfrag0 (mkTfhd 0 0 (wk_id k) 0 (df_desc (wk_def k)) 0 0 0) b ss p A0 ltac:(discriminate) eq_refl F1
     (or_introl (conj eq_refl eq_refl))) as (w1 & r & h1 & T1 & T2 & T3 & T4 & T5 & T6 & A1).
  { change (len (z_ents sfrag0)) with 0. lia. }
  destruct (Many xs w1 _ h1 A1 eq_refl T2 T3 F2) as (w2 & h2 & rs & U1 & U2 & U3 & U4 & U5 & U6).
  { cbn [z_ents sfrag0 app]. rewrite len_map. lia. }
  exists w2, h2. cbn [map fst snd refs_all]. rewrite T1. cbn [bind]. split; [exact U1|]. split; [exact U2|]. rewrite U4, T4.
  cbn [wfrag_start wf_traf traf_start f_runs app map]. split; [|rewrite T6, U6; reflexivity].
  rewrite U5. f_equal. rewrite <- T5. unfold located. rewrite U3, T3. reflexivity.
Qed.
Print Assumptions C84_references.
Example C84_references_case : exists w h,
  refs_all false (wfrag_start ex_k) [(5000, ex_b2); (100, ex_b2); (9000, ex_b2)] = Ok w /\ f_hdr (wf_traf w) = Some h /\
  map (located h) (f_runs (wf_traf w)) = [5000; 100; 9000].
Proof. eexists _, _. split; [reflexivity|]. split; reflexivity. Qed.

(* marks as the reader takes them from a run that was written with the flags
   of every sample *)
Lemma mark_read g x : x < 256 -> N.land (N.shiftr (with_mark g x) 20) 63 = x mod 64.
Proof.
  intros H. change 63 with (N.ones 6). rewrite N.land_ones, N.shiftr_div_pow2. unfold with_mark.
  change (2 ^ 20) with 1048576. change (2 ^ 6) with 64. rewrite (N.mul_comm 1048576), N.div_add by discriminate.
  rewrite N.div_small by (apply N.mod_lt; discriminate). rewrite N.add_0_l.
  replace (256 * (g / 268435456)) with (4 * (g / 268435456) * 64) by lia. apply N.mod_add. discriminate.
Qed.
Lemma flags_all t r l : tr_first_present (tr_flags r) = false -> tr_flags_present (tr_flags r) = true -> forall b, flags_of t r b l = map e_flags l.
Proof.
  intros H1 H2. induction l as [|e l IH]; intros b; [reflexivity|]. cbn [flags_of map]. rewrite IH. unfold merged_flags. rewrite H1, H2, andb_false_r. reflexivity.
Qed.
Lemma deps_read t r l s : tr_ents r = map (fun p => marked (fst p) (snd p)) l -> len l < 1073741824 ->
  Forall (fun p => snd p < 256) l -> tr_first_present (tr_flags r) = false -> tr_flags_present (tr_flags r) = true ->
  merge_run t r = Ok s ->
  r_deps s = let m := map (fun p => snd p mod 64) l in if forallb (N.eqb 0) m then None else Some m.
Proof.
  intros E L F H1 H2. unfold merge_run. rewrite H1. cbn [andb]. rewrite E, len_map, N.mod_small, len_nat by exact L.
  rewrite <- (map_length (fun p => marked (fst p) (snd p)) l), firstn_all.
  intros R. injection R as <-. cbn [r_deps]. rewrite flags_all by assumption. rewrite !map_map.
  assert (M : map (fun x : rent * N => N.land (N.shiftr (e_flags (marked (fst x) (snd x))) 20) 63) l = map (fun p => snd p mod 64) l).
  { apply map_ext_in. intros p I. rewrite Forall_forall in F. specialize (F p I). cbn [marked e_flags]. apply mark_read. exact F. }
  rewrite M. reflexivity.
Qed.
Theorem C84_marks_read : forall t r l s, tr_ents r = map (fun p => marked (fst p) (snd p)) l -> len l < 1073741824 ->
  Forall (fun p => snd p < 64) l -> tr_first_present (tr_flags r) = false -> tr_flags_present (tr_flags r) = true ->
  merge_run t r = Ok s ->
  r_deps s = if forallb (fun p => snd p =? 0) l then None else Some (map snd l).
Proof.
  intros t r l s E L F H1 H2 R. rewrite (deps_read t r l s E L) by (assumption || (eapply Forall_impl; [|exact F]; intros p Hp; cbv beta in *; lia)).
  cbv zeta. assert (M : map (fun p : rent * N => snd p mod 64) l = map snd l).
  { apply map_ext_in. intros p I. rewrite Forall_forall in F. apply N.mod_small, F, I. }
  rewrite M. replace (forallb (N.eqb 0) (map snd l)) with (forallb (fun p : rent * N => snd p =? 0) l); [reflexivity|].
  clear. induction l as [|p l IH]; [reflexivity|]. cbn [forallb map]. rewrite IH, N.eqb_sym. reflexivity.
Qed.
Print Assumptions C84_marks_read.
Example C84_marks_read_case : exists s, merge_run tfhd_new (mkTrun 0 1024 0 0 (map (fun p => marked (fst p) (snd p)) [(rent0, 36); (rent0, 8)])) = Ok s /\
  r_deps s = Some [36; 8].
Proof. eexists. split; reflexivity. Qed.

(* ------------------------------------------------------------------ *)
(* exceptions                                                           *)

(* the two upper bits of a mark (whether a sample is leading) are not read *)
Theorem C84_leading_refuted : forall t r e x s, x < 256 -> tr_ents r = [marked e x] ->
  tr_first_present (tr_flags r) = false -> tr_flags_present (tr_flags r) = true -> merge_run t r = Ok s ->
  r_deps s = (if x mod 64 =? 0 then None else Some [x mod 64]).
Proof.
  intros t r e x s H E H1 H2 R. rewrite (deps_read t r [(e, x)] s E) by (assumption || reflexivity || (constructor; [exact H|constructor])).
  cbn [map snd forallb]. rewrite andb_true_r, N.eqb_sym. reflexivity.
Qed.
Print Assumptions C84_leading_refuted.
Example C84_leading_ex : 128 mod 64 = 0 /\ exists s, merge_run tfhd_new (mkTrun 0 1024 0 0 [marked rent0 128]) = Ok s /\ r_deps s = None.
Proof. split; [reflexivity|]. eexists. split; reflexivity. Qed.

(* a position before the first sample is accepted when the marks reach to the
   first, and then all of them are stored from the first sample on *)
Theorem C84_before_first_refuted : forall t i d, let n := len (frag_ents t) in
  n < 268435455 -> Forall (fun e => e_flags e < 4294967296) (frag_ents t) -> bytes d ->
  (-2147483648 < i)%Z -> (Z.of_N n + i < 0)%Z -> (0 <= Z.of_N n + i + Z.of_N (len d) <= Z.of_N n)%Z ->
  exists t', traf_deps t i d = Ok t' /\ frag_ents t' = mark_at 0 d (frag_ents t).
Proof.
  intros t i d n Hn F B Hi H0 H1. unfold traf_deps. rewrite count_ok by lia. fold n. destruct (Z.ltb_spec i 0); [|lia].
  assert (E1 : u32_of (Z.of_N n + i) = Z.to_N (Z.of_N n + i + 4294967296)).
  { unfold u32_of. f_equal. rewrite <- (Z.mod_add _ 1) by lia. rewrite Z.mod_small; lia. }
  assert (E2 : s32_of (u32_of (Z.of_N n + i)) = (Z.of_N n + i)%Z).
  { rewrite E1. unfold s32_of. destruct (N.ltb_spec (Z.to_N (Z.of_N n + i + 4294967296)) 2147483648); lia. }
  rewrite E2, E1. assert (E3 : w32 (Z.to_N (Z.of_N n + i + 4294967296) + len d) = Z.to_N (Z.of_N n + i + Z.of_N (len d))).
  { unfold w32. replace (Z.to_N (Z.of_N n + i + 4294967296) + len d) with (Z.to_N (Z.of_N n + i + Z.of_N (len d)) + 1 * 4294967296) by lia.
    rewrite N.mod_add by discriminate. apply N.mod_small. lia. }
  rewrite E3. destruct (N.ltb_spec n (Z.to_N (Z.of_N n + i + Z.of_N (len d)))); [lia|].
  destruct (Z.eqb_spec (Z.of_N n + i) (-2147483648)); [lia|]. eexists. split; [reflexivity|].
  unfold frag_ents in *. cbn [set_runs f_runs]. rewrite mark_runs_flat. apply mark_ents_from_start; [lia|exact F|exact B].
Qed.
Print Assumptions C84_before_first_refuted.
Example C84_before_first_ex :
  let t := set_runs traf_new [mkTrun 0 0 0 0 [rent0; rent0]] in
  exists t', traf_deps t (-3) [16; 32] = Ok t' /\ map e_flags (frag_ents t') = [16777216; 33554432].
Proof. eexists. split; reflexivity. Qed.

(* sync samples, padding and composition offsets cannot be given by reference *)
Lemma mapm_ref b n : b_durs b <> [] -> b_sizes b <> [] -> exists es, mapm (ref_entry b) n = Ok es.
Proof.
  intros H1 H2. assert (P : forall l (i : nat), l <> [] -> exists v, pick_at l i = Ok v).
  { intros l i H. unfold pick_at. destruct (nth_error l i); [eexists; reflexivity|]. destruct l; [contradiction|eexists; reflexivity]. }
  induction n as [|i n (es & E)]; [eexists; reflexivity|]. cbn [mapm]. unfold ref_entry at 1.
  destruct (P _ i H1) as (d & ->). destruct (P _ i H2) as (s & ->). cbn [bind]. rewrite E. cbn [bind]. eexists. reflexivity.
Qed.
Theorem C84_reference_sync_refuted : forall signed k p b x l, b_entry b = None -> b_pads b = None -> b_offs b = None ->
  b_sync b = Some (x :: l) -> b_durs b <> [] -> b_sizes b <> [] -> traf_refs signed (wfrag_start k) p b = UB.
Proof.
  intros signed k p b x l H1 H2 H3 H4 H5 H6. unfold traf_refs. rewrite H1. cbn [wfrag_start wf_mode wf_traf traf_start f_hdr N.eqb orb].
  unfold ref_run. rewrite H2, H3, H4. destruct (mapm_ref b (seq 0 (N.to_nat (b_count b))) H5 H6) as (es & ->). reflexivity.
Qed.
Print Assumptions C84_reference_sync_refuted.
Theorem C84_reference_offsets_refuted : forall signed k p b, b_entry b = None -> b_pads b <> None \/ b_offs b <> None -> b_count b <> 0 ->
  traf_refs signed (wfrag_start k) p b = UB.
Proof.
  intros signed k p b H1 H2 H3. unfold traf_refs. rewrite H1. cbn [wfrag_start wf_mode wf_traf traf_start f_hdr N.eqb orb].
  unfold ref_run. destruct (N.eqb_spec (b_count b) 0); [contradiction|].
  destruct (b_pads b), (b_offs b); try reflexivity. destruct H2; contradiction.
Qed.
Print Assumptions C84_reference_offsets_refuted.
(* after data at the start of the file the next reference moves the base *)
Theorem C84_reference_zero_refuted : forall signed k b q, b_entry b = None -> b_pads b = None -> b_offs b = None -> b_sync b = None ->
  b_durs b <> [] -> b_sizes b <> [] -> q <> 0 -> q < 18446744073709551616 ->
  exists w h, refs_all signed (wfrag_start k) [(0, b); (q, b)] = Ok w /\ f_hdr (wf_traf w) = Some h /\
    map (located h) (f_runs (wf_traf w)) = [q; q].
Proof.
  intros signed k b q H1 H2 H3 H4 H5 H6 H7 H8. destruct (mapm_ref b (seq 0 (N.to_nat (b_count b))) H5 H6) as (es & E).
  assert (R : forall off, ref_run signed off b = Ok (mkTrun (b2n signed) 0 off 0 es)) by (intros off; unfold ref_run; rewrite H2, H3, E, H4; reflexivity).
  assert (One : forall w h p, f_hdr (wf_traf w) = Some h -> f_sbgp (wf_traf w) = [] -> wf_mode w = 0 \/ wf_mode w = 2 ->
    let h' := if fh_base h =? 0 then set_base h p else h in
    traf_refs signed w p b = Ok (mkWfrag (set_maps (add_run_to (set_hdr (wf_traf w) h') (mkTrun (b2n signed) 0 (w32 (sub64 p (fh_base h'))) 0 es)) []) 2)).
  { intros w h p Eh Es Em h'. unfold traf_refs. rewrite H1, Eh. fold h'. rewrite R. cbn [bind]. unfold push_run. cbn [set_hdr f_sbgp]. rewrite Es. cbn [add_each bind].
    destruct Em as [-> | ->]; reflexivity. }
  cbn [refs_all]. rewrite (One (wfrag_start k) (mkTfhd 0 0 (wk_id k) 0 (df_desc (wk_def k)) 0 0 0) 0 eq_refl eq_refl (or_introl eq_refl)). cbn [bind]. erewrite (One _ _ q); [|reflexivity|reflexivity|right; reflexivity]. cbn [bind].
  eexists _, _. split; [reflexivity|]. split; [reflexivity|]. cbn [wf_traf set_maps add_run_to set_hdr f_runs app map].
  assert (S : sub64 q q = 0) by (unfold sub64, w64; rewrite (N.mod_small q) by exact H8; replace (q + 18446744073709551616 - q) with 18446744073709551616 by lia; reflexivity).
  cbn [wfrag_start wf_traf traf_start f_runs app map fh_base set_base N.eqb]. unfold located. cbn [tr_off fh_base f_hdr set_hdr]. change (0 =? 0) with true. cbv iota. cbn [fh_base set_base]. change (0 =? 0) with true. cbv iota. cbn [fh_base set_base]. rewrite S. cbn [tr_off fh_base]. change (w32 (sub64 0 0)) with 0. change (u64_of (s32_of (w32 0))) with 0. change (u64_of (s32_of 0)) with 0.
  rewrite N.add_0_r. rewrite w64_small by exact H8. reflexivity.
Qed.
Print Assumptions C84_reference_zero_refuted.
Example C84_exceptions_case :
  traf_refs false (wfrag_start ex_k) 100 (mkBat 2 [] [10] [1] None None (Some [1]) None) = UB /\
  traf_refs false (wfrag_start ex_k) 100 (mkBat 2 [] [10] [1] None (Some [0; 0]) None None) = UB /\
  exists w h, refs_all false (wfrag_start ex_k) [(0, ex_b2); (700, ex_b2)] = Ok w /\ f_hdr (wf_traf w) = Some h /\ map (located h) (f_runs (wf_traf w)) = [700; 700].
Proof. split; [reflexivity|]. split; [reflexivity|]. eexists _, _. split; [reflexivity|]. split; reflexivity. Qed.

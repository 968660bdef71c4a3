(* EditProps.v -- properties C20 and C21. *)
From Verif Require Import Base Codec AtomModel AtomProofs BoxModel BoxSpec BoxProofs HeaderProofs CttsProofs SttsProofs EditModel EditSpec.

(* ------------------------------------------------------------------ *)
(* C20                                                                 *)

Lemma be32_rate r : r < 65536 -> be32 (w32 (r * 65536)) = be16 r ++ be16 0.
Proof.
  intros H. unfold be32, be16, w32. cbn [app]. f_equal; [lia|]. f_equal; [lia|]. f_equal; [lia|]. f_equal. lia.
Qed.
Lemma u64_lt z : u64_of z < 18446744073709551616. Proof. unfold u64_of. lia. Qed.
Lemma u32_lt z : u32_of z < 4294967296. Proof. unfold u32_of. lia. Qed.
Lemma s64_u64 z : (-9223372036854775808 <= z < 9223372036854775808)%Z -> s64_of (u64_of z) = z.
Proof. intros H. unfold s64_of, u64_of. destruct (N.ltb_spec (Z.to_N (z mod 18446744073709551616)) 9223372036854775808); lia. Qed.
Lemma s32_u32' z : (-2147483648 <= z < 2147483648)%Z -> s32_of (u32_of z) = z.
Proof. intros H. unfold s32_of, u32_of. destruct (N.ltb_spec (Z.to_N (z mod 4294967296)) 2147483648); lia. Qed.

Lemma elst_robust : robust elst_codec.
Proof. robust_tac elst_read. Qed.
Lemma elst_body_len s : len (l_body elst_layout s) = 8 + (if el_ver s =? 1 then 20 else 12) * len (el_edits s).
Proof.
  unfold elst_layout. cbn [l_body]. lens. rewrite (len_flat_map_const _ (if el_ver s =? 1 then 20 else 12)); [lia|].
  intros e _. destruct (el_ver s =? 1); lens; lia.
Qed.
Lemma elst_exact : exact elst_codec elst_layout.
Proof.
  split; [intros t _; plain|]. intros t Ht Hl. pose proof (elst_body_len t) as L. revert Ht Hl L.
  unfold elst_codec, elst_layout. cbn [c_size c_w c_rd l_body l_view l_ok c_ty].
  intros [Hf He] Hl L. rewrite L in *. split; [|split].
  - unfold elst_size, w32. destruct (el_ver t =? 1); lia.
  - unfold elst_write. apply writes_full_seq. apply writes_seq; [wstep|]. apply writes_map. intros e Ie.
    rewrite Forall_forall in He. destruct (He e Ie) as [Hr _].
    rewrite <- be32_rate by assumption. apply writes_seq; [|wstep]. destruct (el_ver t =? 1); wstep.
  - unfold elst_read. pauto. pauto.
    { destruct (el_ver t =? 1); lia. }
    pnext; [unfold len; rewrite Nat2N.id; eapply (parses_rrep_map _ _ (fun e => mkEdit (e_dur e) (e_time e) (e_rate e) (e_time e <? 0)%Z)); [|apply w32_lt]|pauto].
    intros e n Ie. rewrite Forall_forall in He. destruct (He e Ie) as [Hr Hb].
    rewrite <- be32_rate by assumption. eapply parses_bind.
    { destruct (el_ver t =? 1); destruct Hb as [Hd Hz].
      - instantiate (1 := (e_dur e, e_time e)). pauto. pnext; [apply parses_get64, u64_lt|]. rewrite s64_u64 by assumption. pauto.
      - pauto. pnext; [apply parses_get32, u32_lt|]. rewrite s32_u32' by assumption. pauto. }
    cbv beta iota. pnext; [apply parses_get32, w32_lt|]. pnext.
    f_equal. unfold w32. destruct (N.eqb_spec ((e_rate e * 65536) mod 4294967296) 1); lia.
Qed.

(* C20: an edit list written and read back *)
Theorem C20_edit_list_round_trip : forall s, l_ok elst_layout s ->
  16 + (if el_ver s =? 1 then 20 else 12) * len (el_edits s) < 4294967296 ->
  round_trip elst_codec elst_layout s.
Proof.
  intros s H Hl. apply exact_round_trip; [apply elst_exact|exact H|]. rewrite elst_body_len. lia.
Qed.
Print Assumptions C20_edit_list_round_trip.
(* nothing is changed by it, when the empty edits are those with a negative media time *)
Theorem C20_same_edits : forall s,
  Forall (fun e => e_empty e = (e_time e <? 0)%Z) (el_edits s) -> l_view elst_layout s = s.
Proof.
  intros [v f l] H. cbn [el_edits] in H. unfold elst_layout. cbn [l_view el_ver el_flags el_edits]. f_equal.
  induction H as [|e l E H IH]; [reflexivity|]. cbn [map]. rewrite IH. f_equal. destruct e as [d t r m]. cbn [e_dur e_time e_rate e_empty] in *. rewrite E. reflexivity.
Qed.
Print Assumptions C20_same_edits.
Theorem C20_edit_list_robust : robust elst_codec.
Proof. exact elst_robust. Qed.
Print Assumptions C20_edit_list_robust.

Example C20_edit_list_ex :
  let s := mkElst 0 0 [mkEdit 600 (-1) 1 true; mkEdit 1800 90000 1 false] in
  l_ok elst_layout s /\ Forall (fun e => e_empty e = (e_time e <? 0)%Z) (el_edits s) /\
  (do bs <- write_box elst_codec s; do r <- read_box elst_codec elst_new bs; Ok (fst (fst r))) = Ok (ALeaf elst s).
Proof.
  split; [|split; [|vm_compute; reflexivity]].
  - split; [split; reflexivity|]. cbn [el_edits el_ver]. change (0 =? 1) with false. cbv iota.
    repeat (apply Forall_cons || apply Forall_nil); cbn [e_rate e_dur e_time]; lia.
  - repeat (apply Forall_cons || apply Forall_nil); reflexivity.
Qed.

(* lists made by the library are in version 0: a segment of 2^32 ticks or
   more, which the call accepts, is not the one read back *)
Theorem C20_long_segment_refuted :
  let el := mkElst 0 0 [mkEdit 5000000000 0 1 false] in
  insert_media None 0 1000 1000 0 0 5000000000 1 = Ok (Some el) /\
  (do bs <- write_box elst_codec el; do r <- read_box elst_codec elst_new bs; Ok (fst (fst r))) =
    Ok (ALeaf elst (mkElst 0 0 [mkEdit 705032704 0 1 false])).
Proof. split; vm_compute; reflexivity. Qed.
Print Assumptions C20_long_segment_refuted.

(* ------------------------------------------------------------------ *)
(* C21                                                                 *)

Lemma durs_app a b : durs (a ++ b) = durs a + durs b.
Proof. induction a as [|e a IH]; cbn [app durs fold_right]; [reflexivity|]. unfold durs in *. rewrite IH. lia. Qed.
Lemma edit_seg_ok : forall l i e cur, nth_error l i = Some e -> cur + durs l < 18446744073709551616 ->
  edit_seg l (N.of_nat i) cur = Ok (cur + durs (firstn i l), (if e_empty e then -1 else e_time e)%Z, e_dur e).
Proof.
  induction l as [|x l IH]; intros [|i] e cur E H; cbn [nth_error] in E; try discriminate.
  - injection E as ->. cbn [edit_seg firstn]. change (N.of_nat 0 =? 0) with true. cbv iota. unfold durs at 1. cbn [fold_right].
    rewrite N.add_0_r. reflexivity.
  - cbn [edit_seg]. destruct (N.eqb_spec (N.of_nat (S i)) 0); [lia|].
    replace (N.of_nat (S i) - 1) with (N.of_nat i) by lia.
    unfold durs in H. cbn [fold_right] in H. fold (durs l) in H.
    rewrite w64_small by lia. rewrite (IH i e) by (assumption || lia).
    cbn [firstn]. unfold durs at 2. cbn [fold_right]. fold (durs (firstn i l)). f_equal. f_equal. f_equal. lia.
Qed.

(* C21: start, media time and duration of each segment *)
Theorem C21_segment_times : forall l i, durs l < 18446744073709551616 ->
  match nth_error l i with
  | Some e => edit_segment l (N.of_nat i + 1) = Ok (durs (firstn i l), (if e_empty e then -1 else e_time e)%Z, e_dur e)
  | None => edit_segment l (N.of_nat i + 1) = Err MP4BadParamErr
  end /\ edit_segment l 0 = Err MP4BadParamErr.
Proof.
  intros l i H. split; [|reflexivity]. unfold edit_segment.
  destruct (N.eqb_spec (N.of_nat i + 1) 0); [lia|]. cbn [orb].
  destruct (nth_error l i) as [e|] eqn:E.
  - assert (i < length l)%nat by (apply nth_error_Some; congruence).
    destruct (N.ltb_spec (len l) (N.of_nat i + 1)); [unfold len in *; lia|].
    replace (N.of_nat i + 1 - 1) with (N.of_nat i) by lia. rewrite (edit_seg_ok l i e) by (assumption || lia). reflexivity.
  - assert (length l <= i)%nat by (apply nth_error_None; assumption).
    destruct (N.ltb_spec (len l) (N.of_nat i + 1)); [reflexivity|]. unfold len in *. lia.
Qed.
Print Assumptions C21_segment_times.

(* C21: the track offset set is the one read, and the other edits stay *)
Theorem C21_offset_set_get : forall el td off, off < 4294967296 ->
  get_offset (set_offset el td off) = off.
Proof.
  intros el td off H. unfold set_offset, get_offset. cbn [set_edits el_edits].
  unfold edit_setOffset. destruct el as [[v f [|[d t r [|]] l]]|]; cbn [el_edits elst_new e_empty edit_offset e_dur]; apply w32_small; assumption.
Qed.
Print Assumptions C21_offset_set_get.
Theorem C21_offset_keeps_edits : forall s td off, el_edits s <> [] ->
  exists s', set_offset (Some s) td off = Some s' /\ after_delay (el_edits s') = after_delay (el_edits s) /\
    el_ver s' = el_ver s /\ el_flags s' = el_flags s.
Proof.
  intros [v f l] td off H. eexists. split; [reflexivity|]. cbn [set_edits el_edits el_ver el_flags]. split; [|split; reflexivity].
  destruct l as [|[d t r [|]] l]; [contradiction|reflexivity|reflexivity].
Qed.
Print Assumptions C21_offset_keeps_edits.

(* C21: appending media to a track gives one segment per call, in order, after
   an empty edit when the first one starts later *)
Definition seg_of (mts dts : N) (x : insertion) : edit := mkEdit (i_dur x * mts / dts) (i_media x) (Z.to_N (i_rate x)) false.
Definition ins_ok (mts : N) (x : insertion) : Prop := (0 <= i_rate x <= 1)%Z /\ i_dur x * mts < 18446744073709551616.
Fixpoint insert_all (el : option elst) (mts dts : N) (l : list (N * insertion)) : res (option elst) :=
  match l with
  | [] => Ok el
  | (td, x) :: r => do el' <- insert_media el td mts dts (i_start x) (i_media x) (i_dur x) (i_rate x); insert_all el' mts dts r
  end.
Lemma insert_one s td mts dts x : dts <> 0 -> ins_ok mts x -> i_start x = (-1)%Z -> el_edits s <> [] ->
  insert_media (Some s) td mts dts (i_start x) (i_media x) (i_dur x) (i_rate x) =
  Ok (Some (set_edits s (el_edits s ++ [seg_of mts dts x]))).
Proof.
  intros Hd [Hr Hm] Hs Hn. unfold insert_media. rewrite Hs.
  destruct (Z.ltb_spec (i_rate x) 0); [lia|]. destruct (Z.ltb_spec 1 (i_rate x)); [lia|]. cbn [orb].
  change (-1 =? 0)%Z with false. cbn [andb]. destruct (N.eqb_spec dts 0); [contradiction|].
  unfold edit_insert. destruct (el_edits s) as [|e l]; [contradiction|]. change (-1 =? -1)%Z with true. cbn [bind].
  rewrite w64_small by assumption. reflexivity.
Qed.
Theorem C21_insertions_become_segments : forall mts dts td x l,
  dts <> 0 -> ins_ok mts x -> Forall (fun y => ins_ok mts (snd y) /\ i_start (snd y) = (-1)%Z) l ->
  ~ (i_start x = 0 /\ i_media x = 0 /\ i_rate x = 1 /\ i_dur x = td)%Z%N ->
  insert_all None mts dts ((td, x) :: l) =
  Ok (Some (mkElst 0 0 ((if (0 <? i_start x)%Z then [mkEdit (Z.to_N (i_start x)) (-1) 1 true] else []) ++
                        seg_of mts dts x :: map (fun y => seg_of mts dts (snd y)) l))).
Proof.
  intros mts dts td x l Hd [Hr Hm] Hl Hno. cbn [insert_all].
  unfold insert_media at 1.
  destruct (Z.ltb_spec (i_rate x) 0); [lia|]. destruct (Z.ltb_spec 1 (i_rate x)); [lia|]. cbn [orb].
  match goal with |- context[if ?b then (if _ then _ else _) else _] => assert (b = false) as -> end.
  { destruct (Z.eqb_spec (i_start x) 0); [|reflexivity]. destruct (Z.eqb_spec (i_media x) 0); [|reflexivity].
    destruct (Z.eqb_spec (i_rate x) 1); [|reflexivity]. destruct (N.eqb_spec (i_dur x) td); [|reflexivity]. exfalso. apply Hno. auto. }
  destruct (N.eqb_spec dts 0); [contradiction|]. cbn [elst_new el_edits edit_insert bind set_edits el_ver el_flags].
  rewrite w64_small by assumption. fold (seg_of mts dts x).
  set (p := if (0 <? i_start x)%Z then _ else _).
  assert (G : forall l0 acc, acc <> [] -> Forall (fun y => ins_ok mts (snd y) /\ i_start (snd y) = (-1)%Z) l0 ->
    insert_all (Some (mkElst 0 0 acc)) mts dts l0 = Ok (Some (mkElst 0 0 (acc ++ map (fun y => seg_of mts dts (snd y)) l0)))).
  { induction l0 as [|[td' y] l0 IH]; intros acc Ha Hl0; cbn [insert_all map].
    - rewrite app_nil_r. reflexivity.
    - inversion Hl0 as [|? ? [A B] C]; subst. cbn [snd] in *. rewrite (insert_one _ td' mts dts y); try assumption. cbn [bind].
      unfold set_edits. cbn [el_ver el_flags el_edits].
      rewrite IH; [rewrite <- app_assoc; reflexivity|destruct acc; discriminate|assumption]. }
  cbn [bind]. unfold set_edits, elst_new. cbn [el_ver el_flags]. rewrite G; [rewrite <- app_assoc; reflexivity|destruct p; discriminate|assumption].
Qed.
Print Assumptions C21_insertions_become_segments.

(* C21: the track lasts as long as its segments together *)
Lemma edit_duration_sum : forall l d, d + durs l < 4294967296 ->
  fold_left (fun d e => w32 (d + w32 (e_dur e))) l d = d + durs l.
Proof.
  induction l as [|e l IH]; intros d H; cbn [fold_left durs fold_right] in *; [lia|]. fold (durs l) in *.
  rewrite (w32_small (e_dur e)) by lia. rewrite w32_small by lia. rewrite IH by lia. lia.
Qed.
Theorem C21_track_lasts_as_its_segments : forall v f l md dts mts, 0 < durs l < 4294967296 ->
  track_duration (Some (mkElst v f l)) md dts mts = Ok (durs l).
Proof.
  intros v f l md dts mts H. unfold track_duration. cbn [el_edits]. unfold edit_duration. rewrite edit_duration_sum by lia.
  destruct (N.eqb_spec (0 + durs l) 0); [lia|]. reflexivity.
Qed.
Print Assumptions C21_track_lasts_as_its_segments.

(* C21, the time map: inside the last segment, at a whole number of seconds k
   after its start, the media time is that of the segment plus k seconds *)
Lemma edit_skip : forall init l t mts dts cur best, cur + durs init < t -> t < 18446744073709551616 ->
  edit_rate_go (init ++ l) t mts dts cur best = edit_rate_go l t mts dts (cur + durs init) best.
Proof.
  induction init as [|e init IH]; intros l t mts dts cur best H Ht.
  - unfold durs. cbn [app fold_right]. rewrite N.add_0_r. reflexivity.
  - unfold durs in *. cbn [app fold_right edit_rate_go] in *. fold (durs init) in *.
    rewrite w64_small by lia. destruct (N.leb_spec t (cur + e_dur e)); [lia|].
    rewrite IH by lia. f_equal. lia.
Qed.
Theorem C21_last_segment : forall v f init e k t mts dts,
  e_empty e = false -> mts <> 0 -> dts <> 0 -> 
  t = durs init + k * mts -> (init = [] \/ 0 < k) -> k * mts <= e_dur e ->
  durs init + e_dur e < 18446744073709551616 ->
  (0 <= e_time e)%Z -> (e_time e + Z.of_N (k * dts) < 9223372036854775808)%Z ->
  track_to_media (Some (mkElst v f (init ++ [e]))) t mts dts = Ok (e_time e + Z.of_N (k * dts))%Z.
Proof.
  intros v f init e k t mts dts He Hm Hd Et Hk Hle Hw H0 Hb. unfold track_to_media.
  destruct (N.eqb_spec mts 0); [contradiction|]. cbn [el_edits].
  assert (G : edit_time (init ++ [e]) t mts dts = Ok ((e_time e + Z.of_N (k * dts))%Z, e_rate e)).
  { unfold edit_time. destruct (N.eqb_spec mts 0); [contradiction|]. destruct (N.eqb_spec dts 0); [contradiction|]. cbn [orb].
    assert (E : edit_rate_go (init ++ [e]) t mts dts 0 ((-1)%Z, 65536) = edit_rate_go [e] t mts dts (durs init) ((-1)%Z, 65536)).
    { destruct Hk as [-> | Hk]; [reflexivity|]. rewrite edit_skip; [reflexivity| |lia].
      assert (1 * 1 <= k * mts) by (apply N.mul_le_mono; lia). lia. }
    rewrite E. cbn [edit_rate_go]. rewrite w64_small by lia.
    destruct (N.leb_spec t (durs init + e_dur e)); [|lia]. rewrite He. f_equal. f_equal.
    unfold sub64. rewrite (w64_small (durs init)) by lia.
    replace (t + 18446744073709551616 - durs init) with (k * mts + 1 * 18446744073709551616) by lia.
    unfold w64 at 3. rewrite N.mod_add by lia. rewrite N.mod_small by lia. rewrite N.div_mul by assumption.
    unfold u64_of. rewrite Z.mod_small by lia. rewrite (w64_small (k * dts)) by lia. rewrite w64_small by lia.
    unfold s64_of. match goal with |- context[?a <? ?b] => destruct (N.ltb_spec a b) end; lia. }
  destruct (init ++ [e]) as [|x r] eqn:Ex; [destruct init; discriminate|]. rewrite G. reflexivity.
Qed.
Print Assumptions C21_last_segment.
(* without edits *)
Theorem C21_no_edits : forall k mts dts, mts <> 0 -> k * dts < 9223372036854775808 ->
  track_to_media None (k * mts) mts dts = Ok (Z.of_N (k * dts)).
Proof.
  intros k mts dts Hm H. unfold track_to_media. destruct (N.eqb_spec mts 0); [contradiction|].
  rewrite N.div_mul by assumption. rewrite w64_small by lia. unfold s64_of.
  destruct (N.ltb_spec (k * dts) 9223372036854775808); [reflexivity|lia].
Qed.
Print Assumptions C21_no_edits.

(* a track delayed by two seconds, then ten seconds of media from second 1 *)
Example C21_ex :
  let init := [mkEdit 1200 (-1) 1 true] in let e := mkEdit 6000 90000 1 false in
  track_to_media (Some (mkElst 0 0 (init ++ [e]))) (1200 + 5 * 600) 600 90000 = Ok 540000%Z /\
  insert_all None 600 90000 [(0, mkIns 1200 90000 900000 1)] = Ok (Some (mkElst 0 0 (init ++ [e]))) /\
  track_duration (Some (mkElst 0 0 (init ++ [e]))) 0 90000 600 = Ok 7200.
Proof. repeat split; vm_compute; reflexivity. Qed.

(* where the map is wrong: between whole seconds, the fraction is dropped *)
Theorem C21_fractions_refuted : track_to_media None 300 600 90000 = Ok 0%Z.
Proof. reflexivity. Qed.
(* ... in a segment followed by another, the later one is used *)
Theorem C21_later_segment_refuted :
  let l := [mkEdit 6000 0 1 false; mkEdit 6000 9000000 1 false] in
  at_time l 600 600 0 /\ track_to_media (Some (mkElst 0 0 l)) 600 600 90000 = Ok 9090000%Z.
Proof. split; [constructor; reflexivity|vm_compute; reflexivity]. Qed.
(* ... in an empty edit the next entry is read from memory the list does not own *)
Theorem C21_empty_edit_refuted : forall v f e r t mts dts, e_empty e = true -> mts <> 0 -> dts <> 0 ->
  t <= e_dur e -> e_dur e < 18446744073709551616 ->
  track_to_media (Some (mkElst v f (e :: r))) t mts dts = UB.
Proof.
  intros v f e r t mts dts He Hm Hd Ht Hb. unfold track_to_media. destruct (N.eqb_spec mts 0); [contradiction|].
  cbn [el_edits]. unfold edit_time. destruct (N.eqb_spec mts 0); [contradiction|]. destruct (N.eqb_spec dts 0); [contradiction|].
  cbn [orb edit_rate_go]. rewrite w64_small by lia. destruct (N.leb_spec t (0 + e_dur e)); [|lia]. rewrite He. reflexivity.
Qed.
Print Assumptions C21_empty_edit_refuted.

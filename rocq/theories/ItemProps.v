(* ItemProps.v -- C29, C30 and C48 as theorems, about every history of calls. *)
From Verif Require Import Base Codec BitLemmas AtomModel AtomSpec AtomProofs BoxModel BoxSpec BoxProofs Reads HeaderSpec HeaderProofs
  MdatModel SaveSpec TrackModel TrackProofs StreamProofs MediaSpec MediaProofs IlocModel IlocSpec IlocProofs ItemModel ItemSpec ItemProofs.

(* C29: whatever was added to whatever items in whatever order, reading an item gives its value: its pieces in
   order, each of them the bytes added or the part asked for of another item. *)
Theorem C29_data_read_back os m acc : irun os = Ok (m, acc) -> Forall iop_ok os -> NoDup (ids_of m) ->
  len (media acc) < 4294967296 -> len (item_bytes_of acc) < 4294967296 ->
  forall n k d, value n acc k = Some d -> forall n', (n <= n')%nat -> item_data n' m k = Ok d.
Proof.
  intros R F D L1 L2 n k d H n' Hn. pose proof (run_inv os m acc R F L1 L2) as V.
  apply (value_read m acc V D L1 L2 n' k d), (value_mono acc n n' k d Hn H).
Qed.
Print Assumptions C29_data_read_back.
(* items kept in the item data box: exactly the bytes added, one after the other *)
Theorem C29_in_item_data os m acc k ds n : irun os = Ok (m, acc) -> Forall iop_ok os -> NoDup (ids_of m) ->
  len (media acc) < 4294967296 -> len (item_bytes_of acc) < 4294967296 ->
  additions k acc = map PIdat ds -> ds <> [] -> Forall (fun d => d <> []) ds -> item_data (S n) m k = Ok (concat ds).
Proof.
  intros R F D L1 L2 Ha Hn Hd. eapply (C29_data_read_back os m acc R F D L1 L2 1 k); [|lia].
  cbn [value]. cbv zeta. rewrite Ha. rewrite join_idat by exact Hd.
  replace (match map PIdat ds with [] => _ | _ => _ end) with true.
  - unfold small. pose proof (idat_total k acc) as T. rewrite Ha, concat_idat in T. destruct (N.ltb_spec (len (concat ds)) 4294967296); [reflexivity|lia].
  - destruct ds as [|d ds]; [contradiction|]. cbn [map forallb is_idat andb]. symmetry. clear. induction ds; [reflexivity|exact IHds].
Qed.
Print Assumptions C29_in_item_data.
(* an item in the media data, when nothing was put there before its first piece *)
Theorem C29_in_media_data os m acc k ds n : irun os = Ok (m, acc) -> Forall iop_ok os -> NoDup (ids_of m) ->
  len (media acc) < 4294967296 -> len (item_bytes_of acc) < 4294967296 ->
  additions k acc = map PMdat ds -> Forall (fun d => d <> []) ds -> nth_error (created acc) k = Some (0, 0) -> start k acc = 0 ->
  item_data (S n) m k = Ok (concat ds).
Proof.
  intros R F D L1 L2 Ha Hd Hc Hs. eapply (C29_data_read_back os m acc R F D L1 L2 1 k); [|lia].
  cbn [value]. cbv zeta. rewrite Ha, Hc, Hs. rewrite join_mdat by exact Hd.
  replace (match map PMdat ds with [] => _ | _ => _ end) with true.
  - unfold small. pose proof (mdat_total k acc) as T. rewrite Ha, concat_mdat in T. destruct (N.ltb_spec (len (concat ds)) 4294967296); [reflexivity|lia].
  - destruct ds as [|d ds]; [reflexivity|]. cbn [map forallb is_mdat andb]. change (0 =? 0) with true. rewrite !andb_true_r. symmetry. clear. induction ds; [reflexivity|exact IHds].
Qed.
Print Assumptions C29_in_media_data.
(* an item made of parts of other items *)
Theorem C29_parts os m acc k n k' off l w : irun os = Ok (m, acc) -> Forall iop_ok os -> NoDup (ids_of m) ->
  len (media acc) < 4294967296 -> len (item_bytes_of acc) < 4294967296 ->
  additions k acc = [PPart k' off l] -> value n acc k' = Some w -> 0 < l -> off + l <= len w -> item_data (S n) m k = Ok (slice w off l).
Proof.
  intros R F D L1 L2 Ha Hw Hl Ho. eapply (C29_data_read_back os m acc R F D L1 L2 (S n) k); [|lia].
  pose proof (run_inv os m acc R F L1 L2) as V. pose proof (proj2 (value_read m acc V D L1 L2 n k' w Hw)) as Lw.
  cbn [value]. cbv zeta. rewrite Ha. cbn [forallb is_part andb map piece_value join]. rewrite Hw.
  destruct (N.eqb_spec l 0); [lia|]. cbn [andb]. destruct (N.ltb_spec 0 l); [|lia]. destruct (N.leb_spec (off + l) (len w)); [|lia]. cbn [andb].
  unfold small. rewrite app_nil_r. destruct (N.ltb_spec (len (slice w off l)) 4294967296) as [_|X]; [reflexivity|].
  assert (len (slice w off l) = l) by (unfold slice, len in *; rewrite firstn_length, skipn_length; lia). lia.
Qed.
Print Assumptions C29_parts.
Definition story : list iop :=
  [INew 0 0 None; INew 0 0 (Some 7); INew 0 0 None; INew 0 0 (Some 3);
   IIdat 1 [1; 2]; IMdat 0 [10; 11]; IIdat 3 [8]; IOther [90; 91]; IMdat 0 [12]; IIdat 1 [3; 4];
   IPart 2 0 1 2; IPart 2 1 0 0; IPart 2 1 2 1; IRef 2 5 7; IMdat 3 [66]].
Example story_ok : exists m acc, irun story = Ok (m, acc) /\ Forall iop_ok story /\ NoDup (ids_of m) /\ len (media acc) < 4294967296 /\ len (item_bytes_of acc) < 4294967296 /\
  value 2 acc 0 = Some [10; 11; 12] /\ value 2 acc 1 = Some [1; 2; 3; 4] /\ value 2 acc 2 = Some [11; 12; 1; 2; 3; 4; 3] /\ item_data 2 m 2 = Ok [11; 12; 1; 2; 3; 4; 3] /\ ids_of m = [1; 7; 8; 3].
Proof.
  eexists. eexists. split; [vm_compute; reflexivity|]. split; [repeat constructor; cbn; lia|]. split; [vm_compute; repeat constructor; cbn; intuition lia|].
  vm_compute. repeat split; reflexivity.
Qed.

(* An item in the media data that was not the first there: its first piece is taken from twice its offset. Every
   such item, in every history. *)
Theorem C29_later_item_misread os m acc k d ds n : irun os = Ok (m, acc) -> Forall iop_ok os -> NoDup (ids_of m) ->
  len (media acc) < 4294967296 -> len (item_bytes_of acc) < 4294967296 ->
  additions k acc = map PMdat (d :: ds) -> Forall (fun d => d <> []) (d :: ds) -> nth_error (created acc) k = Some (0, 0) ->
  item_data (S n) m k =
    if 2 * start k acc + len d <=? len (media acc) then Ok (slice (media acc) (2 * start k acc) (len d) ++ concat ds) else Err MP4BadParamErr.
Proof. intros R F D L1 L2 Ha Hd Hc. apply later_read; try assumption. exact (run_inv os m acc R F L1 L2). Qed.
Print Assumptions C29_later_item_misread.
Theorem C29_later_item_refuted : exists os m acc, irun os = Ok (m, acc) /\ acc = os /\ Forall iop_ok os /\ NoDup (ids_of m) /\
  additions 1 acc = [PMdat [3; 4]] /\ item_data 1 m 1 = Ok [5; 6] /\
  additions 2 acc = [PMdat [5; 6]] /\ (forall n, item_data (S n) m 2 = Err MP4BadParamErr).
Proof.
  exists [INew 0 0 None; INew 0 0 None; INew 0 0 None; IMdat 0 [1; 2]; IMdat 1 [3; 4]; IMdat 2 [5; 6]]. eexists. eexists.
  split; [vm_compute; reflexivity|]. split; [reflexivity|]. split; [repeat constructor; cbn; lia|]. split; [vm_compute; repeat constructor; cbn; intuition lia|].
  repeat split; try reflexivity.
Qed.
Print Assumptions C29_later_item_refuted.
(* Adding media data to an item kept in the item data box is accepted, and read from the wrong place. *)
Theorem C29_mixed_kinds_refuted : exists os m acc, irun os = Ok (m, acc) /\ acc = os /\ Forall iop_ok os /\ NoDup (ids_of m) /\
  additions 0 acc = [PIdat [1; 2]; PMdat [3; 4]] /\ item_data 1 m 0 = Ok [1; 2; 1; 2].
Proof.
  exists [INew 0 0 None; IIdat 0 [1; 2]; IMdat 0 [3; 4]]. eexists. eexists. split; [vm_compute; reflexivity|]. split; [reflexivity|].
  split; [repeat constructor; cbn; lia|]. split; [vm_compute; repeat constructor; cbn; intuition lia|]. split; reflexivity.
Qed.
Print Assumptions C29_mixed_kinds_refuted.
(* An empty piece is read as everything there is. *)
Theorem C29_empty_piece_refuted : exists os m acc, irun os = Ok (m, acc) /\ acc = os /\ Forall iop_ok os /\ NoDup (ids_of m) /\
  additions 0 acc = [PIdat []] /\ item_data 1 m 0 = Ok [7; 8].
Proof.
  exists [INew 0 0 None; INew 0 0 None; IIdat 0 []; IIdat 1 [7; 8]]. eexists. eexists. split; [vm_compute; reflexivity|]. split; [reflexivity|].
  split; [repeat constructor; cbn; lia|]. split; [vm_compute; repeat constructor; cbn; intuition lia|]. split; reflexivity.
Qed.
Print Assumptions C29_empty_piece_refuted.
(* An item made part of itself is accepted; reading it does not come to an end, however deep it may go. *)
Theorem C29_part_of_itself_refuted : exists os m acc, irun os = Ok (m, acc) /\ acc = os /\ Forall iop_ok os /\ NoDup (ids_of m) /\
  (forall n, item_data n m 0 = Err OutOfFuel).
Proof.
  exists [INew 0 0 None; IPart 0 0 0 0]. eexists. eexists. split; [vm_compute; reflexivity|]. split; [reflexivity|].
  split; [repeat constructor; cbn; lia|]. split; [vm_compute; repeat constructor; cbn; intuition lia|].
  induction n as [|n IH]; [reflexivity|]. unfold item_data in *. destruct n as [|n]; [reflexivity|].
  remember (S n) as n1. cbn [get_data]. unfold items at 1. cbn [m_iloc il_items nth_error i_method i_dref]. change (2 =? 0) with false. change (2 =? 1) with false. cbn [andb].
  cbn [i_exts extents_data]. unfold extent_data. cbn [e_len i_method e_index i_id]. change (0 =? 0) with true. change (2 =? 0) with false. change (2 =? 1) with false. change (2 =? 2) with true. cbv iota.
  match goal with |- context [get_ref ?mm ?a ?b ?c] => replace (get_ref mm a b c) with (@Ok nat 0%nat) by (vm_compute; reflexivity) end. cbn [bind].
  destruct (get_data n1 _ 0) as [p|e|]; cbn [bind] in IH |- *; congruence.
Qed.
Print Assumptions C29_part_of_itself_refuted.
(* Item locations a file may hold: an extent before the first reference, and one beyond the item data. Both are
   in a box that is read without complaint. *)
Theorem C29_untrusted_refuted :
  (exists t m, iloc_ok t /\ m_iloc m = Some t /\ m_iref m <> None /\ item_data 1 m 0 = UB) /\
  (exists t m, iloc_ok t /\ m_iloc m = Some t /\ m_idat m = Some [1; 2] /\ item_data 1 m 0 = UB).
Proof.
  split.
  - exists (mkIloc 1 0 [mkItem 1 2 0 0 [mkExtent 0 0 1]]), (mkMeta 1 (Some (mkIloc 1 0 [mkItem 1 2 0 0 [mkExtent 0 0 1]])) mdat_new None (Some (mkIref 0 0 [mkIref1 T_iloc 1 [1]]))).
    split; [repeat (constructor; try lia); cbv; reflexivity|]. split; [reflexivity|]. split; [discriminate|]. vm_compute. reflexivity.
  - exists (mkIloc 1 0 [mkItem 1 1 0 0 [mkExtent 0 3 1]]), (mkMeta 1 (Some (mkIloc 1 0 [mkItem 1 1 0 0 [mkExtent 0 3 1]])) mdat_new (Some [1; 2]) None).
    split; [repeat (constructor; try lia); cbv; reflexivity|]. split; [reflexivity|]. split; [reflexivity|]. vm_compute. reflexivity.
Qed.
Print Assumptions C29_untrusted_refuted.

(* Saving moves the positions of data in the file up by the place [p] where the media data went, opening moves
   them down again: the two are inverse, when the media data of [s] bytes holds every position. *)
Theorem C29_reopened p s t : p + s < 2147483648 ->
  Forall (fun a => i_method a = 0 -> i_dref a = 0 -> i_base a < s /\ Forall (fun b => e_off b < s) (i_exts a)) (il_items t) ->
  iloc_moved p (p + s) (- Z.of_N p) (iloc_moved 0 s (Z.of_N p) t) = t.
Proof.
  intros L F. unfold iloc_moved. cbn [il_ver il_flags il_items]. destruct t as [v f l]. cbn [il_ver il_flags il_items] in *. f_equal. rewrite map_map.
  assert (P : forall x, x < s -> (if inside p (p + s) (if inside 0 s x then add_s32 x (Z.of_N p) else x) then
    add_s32 (if inside 0 s x then add_s32 x (Z.of_N p) else x) (- Z.of_N p) else (if inside 0 s x then add_s32 x (Z.of_N p) else x)) = x).
  { intros x Hx. unfold inside. destruct (N.leb_spec 0 x); [|lia]. destruct (N.ltb_spec x s); [|lia]. cbn [andb].
    assert (E : add_s32 x (Z.of_N p) = x + p) by (unfold add_s32, u64_of; rewrite Z.mod_small by lia; lia). rewrite E.
    destruct (N.leb_spec p (x + p)); [|lia]. destruct (N.ltb_spec (x + p) (p + s)); [|lia]. cbn [andb]. unfold add_s32, u64_of; rewrite Z.mod_small by lia; lia. }
  rewrite <- (map_id l) at 2. apply map_ext_in. intros a I. rewrite Forall_forall in F. specialize (F a I). unfold item_moved.
  destruct (N.eqb_spec (i_method a) 0) as [Em|Em], (N.eqb_spec (i_dref a) 0) as [Ed|Ed]; cbn [andb];
    try (destruct a as [ai am ad ab ax]; cbn [i_method i_dref] in *; destruct (N.eqb_spec am 0), (N.eqb_spec ad 0); try contradiction; reflexivity).
  destruct (F Em Ed) as [Fb Fe]. cbn [i_method i_dref i_base i_exts i_id]. rewrite Em, Ed. change (0 =? 0) with true. cbn [andb].
  destruct a as [ai am ad ab ax]. cbn [i_method i_dref i_base i_exts i_id] in *. subst am ad. f_equal; [apply P, Fb|].
  rewrite map_map. rewrite <- (map_id ax) at 2. apply map_ext_in. intros b Ib. rewrite Forall_forall in Fe. specialize (Fe b Ib).
  destruct b as [x y z]. cbn [e_off e_index e_len] in *. f_equal. apply P, Fe.
Qed.
Print Assumptions C29_reopened.
Example reopened_example : iloc_moved 0 300 1000 (mkIloc 0 0 [mkItem 1 0 0 0 [mkExtent 0 0 10; mkExtent 0 200 5]]) = mkIloc 0 0 [mkItem 1 0 0 1000 [mkExtent 0 1000 10; mkExtent 0 1200 5]] /\
  Forall (fun a => i_method a = 0 -> i_dref a = 0 -> i_base a < 300 /\ Forall (fun b => e_off b < 300) (i_exts a)) [mkItem 1 0 0 0 [mkExtent 0 0 10; mkExtent 0 200 5]].
Proof. split; [reflexivity|]. repeat constructor; cbn; lia. Qed.
(* What is saved says the wrong place to any other reader: by the standard a piece is at base offset plus extent
   offset, and both have been moved. Item 0, whose data is the first of the media data, at any position in the file. *)
Theorem C29_saved_position_refuted p d : 0 < p < 1073741824 -> 0 < len d < 1073741824 -> exists m acc b x,
  irun [INew 0 0 None; IMdat 0 d] = Ok (m, acc) /\ acc = [INew 0 0 None; IMdat 0 d] /\
  items (meta_moved 0 (len (media acc)) (Z.of_N p) m) = [mkItem 1 0 0 b [x]] /\ b + e_off x = 2 * p /\ e_len x = len d.
Proof.
  intros Hp Hd. change (irun [INew 0 0 None; IMdat 0 d]) with (iadd (Ok (mkMeta 2 (Some (mkIloc 0 0 [mkItem 1 0 0 0 []])) mdat_new None None, [INew 0 0 None])) (IMdat 0 d)).
  unfold iadd. cbn [bind fst snd istep]. unfold add_mdat, items. cbn [m_iloc il_items iloc_new nth_error app i_dref].
  change (negb (0 =? 0)) with false. cbv iota. cbn [m_mdat]. destruct (mdat_add_ok mdat_new d) as (d' & E & Ed); [cbn [mdat_new md_data]; change (len (@nil N)) with 0; lia|]. rewrite E. cbn [bind].
  eexists. eexists. eexists. eexists. split; [reflexivity|]. split; [reflexivity|].
  cbn [app media flat_map]. rewrite app_nil_r. unfold meta_moved, items. cbn [m_iloc option_map with_mdat set_item m_mdat]. unfold iloc_moved. cbn [il_items il_ver il_flags put_at map].
  unfold item_moved, add_extent. cbn [i_method i_dref i_exts i_base i_id e_off e_len e_index app map md_data mdat_new]. change (len (@nil extent) =? 0) with true. change (0 =? 0) with true. cbn [andb]. change (len (@nil N)) with 0. change (w64 (0 + 0)) with 0.
  unfold inside. change (0 <=? 0) with true. destruct (N.ltb_spec 0 (len d)); [|lia]. cbn [andb]. split; [reflexivity|].
  cbn [e_off e_len]. rewrite w32_small by lia. split; [|reflexivity]. unfold add_s32, u64_of. rewrite Z.mod_small by lia. lia.
Qed.
Print Assumptions C29_saved_position_refuted.

(* C30: an automatic id is never one in use, and ids stay distinct, in every history in which no chosen id was in
   use when it was asked for and no id reached 65535. *)
Theorem C30_ids_distinct os m acc : irun os = Ok (m, acc) ->
  (forall pre b d id post m1 acc1, os = pre ++ INew b d (Some id) :: post -> irun pre = Ok (m1, acc1) -> ~ In id (ids_of m1)) ->
  Forall (fun i => i < 65535) (ids_of m) -> NoDup (ids_of m) /\ ~ In 0 (ids_of m).
Proof.
  intros R F L. split; [apply (run_sound os m acc R F L)|].
  clear F L. revert m acc R. induction os as [|o os IH] using rev_ind; intros m acc R; [injection R as <- <-; exact (fun f => f)|].
  rewrite irun_snoc in R. unfold iadd in R. destruct (irun os) as [[m0 acc0]| |]; try discriminate. cbn [bind fst snd] in R. specialize (IH m0 acc0 eq_refl).
  destruct (istep m0 o) as [m1|e|] eqn:E; [|injection R as <- <-; exact IH|discriminate]. injection R as <- <-. pose proof (step_ids m0 o m1 E) as H.
  destruct o; try (destruct H as [-> _]; exact IH). destruct H as (x & _ & -> & Hx & _). intros I. apply in_app_or in I as [I|[I|[]]]; auto.
Qed.
Print Assumptions C30_ids_distinct.
Theorem C30_automatic_fresh os m acc b d : irun os = Ok (m, acc) ->
  (forall pre b d id post m1 acc1, os = pre ++ INew b d (Some id) :: post -> irun pre = Ok (m1, acc1) -> ~ In id (ids_of m1)) ->
  Forall (fun i => i < 65535) (ids_of m) ->
  exists id m', istep m (INew b d None) = Ok m' /\ ids_of m' = ids_of m ++ [id] /\ ~ In id (ids_of m) /\ id <> 0.
Proof.
  intros R F L. destruct (run_sound os m acc R F L) as (S1 & S2 & S3). exists (m_next m).
  destruct (istep m (INew b d None)) as [m'|e|] eqn:E.
  - exists m'. split; [reflexivity|]. destruct (step_ids m (INew b d None) m' E) as (id & -> & H1 & H2 & _). split; [exact H1|]. split; [|exact H2].
    intros I. rewrite Forall_forall in S2. specialize (S2 _ I). lia.
  - exfalso. cbn [istep] in E. unfold new_item, new_item_with, request_item_id in E. destruct (N.eqb_spec (m_next m) 0); [lia|]. rewrite N.leb_refl in E. discriminate.
  - exfalso. cbn [istep] in E. unfold new_item, new_item_with, request_item_id in E. destruct (N.eqb_spec (m_next m) 0); [lia|]. rewrite N.leb_refl in E. discriminate.
Qed.
Print Assumptions C30_automatic_fresh.
Theorem C30_zero_refused m b d : istep m (INew b d (Some 0)) = Err MP4BadParamErr.
Proof. reflexivity. Qed.
Print Assumptions C30_zero_refused.
Example ids_example : exists m acc, irun story = Ok (m, acc) /\ Forall (fun i => i < 65535) (ids_of m) /\ ids_of m = [1; 7; 8; 3].
Proof. eexists. eexists. split; [vm_compute; reflexivity|]. vm_compute. split; [repeat constructor|reflexivity]. Qed.
Example ids_chosen_unused : forall pre b d id post m1 acc1, [INew 0 0 None; INew 0 0 (Some 7); INew 0 0 None] = pre ++ INew b d (Some id) :: post -> irun pre = Ok (m1, acc1) -> ~ In id (ids_of m1).
Proof.
  intros pre b d id post m1 acc1 E R. destruct pre as [|a [|a2 [|a3 pre]]]; try discriminate.
  - injection E as <- <- <- <- <-. vm_compute in R. injection R as <- <-. cbn. lia.
  - destruct pre; discriminate.
Qed.
(* An id in use is not refused: any item already there, unless its id is the last one given. *)
Theorem C30_in_use_accepted_refuted m b d id : In id (ids_of m) -> id <> 0 -> id < m_next m ->
  exists m', istep m (INew b d (Some id)) = Ok m' /\ ids_of m' = ids_of m ++ [id] /\ ~ NoDup (ids_of m').
Proof.
  intros I H0 L. cbn [istep]. unfold new_item_with, request_item_id. destruct (N.eqb_spec id 0); [contradiction|]. destruct (N.leb_spec (m_next m) id); [lia|].
  unfold ids_of, items in *. destruct (m_iloc m) as [t|]; [|destruct I]. cbn [bind]. eexists. split; [reflexivity|]. cbn [m_iloc il_items]. rewrite map_app. split; [reflexivity|].
  cbn [map i_id]. intros N0. apply NoDup_remove_2 in N0. rewrite app_nil_r in N0. contradiction.
Qed.
Print Assumptions C30_in_use_accepted_refuted.
Theorem C30_in_use_refuted : exists os m acc, irun os = Ok (m, acc) /\ acc = os /\ Forall iop_ok os /\ ids_of m = [1; 1].
Proof. exists [INew 0 0 None; INew 0 0 (Some 1)]. eexists. eexists. split; [vm_compute; reflexivity|]. split; [reflexivity|]. split; [repeat constructor; cbn; lia|reflexivity]. Qed.
Print Assumptions C30_in_use_refuted.
(* After id 65535 no id is given automatically, and ids in use are given again to those who ask. *)
Theorem C30_after_the_last_refuted : exists os m acc, irun os = Ok (m, acc) /\ acc = os /\ Forall iop_ok os /\ ids_of m = [65535] /\
  istep m (INew 0 0 None) = Err MP4BadParamErr /\ exists m', istep m (INew 0 0 (Some 65535)) = Ok m' /\ ids_of m' = [65535; 65535].
Proof.
  exists [INew 0 0 (Some 65535)]. eexists. eexists. split; [vm_compute; reflexivity|]. split; [reflexivity|]. split; [repeat constructor; cbn; lia|]. split; [reflexivity|].
  split; [reflexivity|]. eexists. split; reflexivity.
Qed.
Print Assumptions C30_after_the_last_refuted.
(* In a file that was opened the numbering starts again: the box read is the one written, and the next id is 1. *)
Theorem C30_reopened_refuted t : In 1 (map i_id (il_items t)) ->
  exists m', istep (mkMeta 1 (Some t) mdat_new None None) (INew 0 0 None) = Ok m' /\ ~ NoDup (ids_of m').
Proof.
  intros I. cbn [istep]. unfold new_item, new_item_with, request_item_id. cbn [m_next m_iloc]. change (1 =? 0) with false. change (1 <=? 1) with true. cbv iota. cbn [bind].
  eexists. split; [reflexivity|]. unfold ids_of, items. cbn [m_iloc il_items]. rewrite map_app. cbn [map i_id]. intros N0. apply NoDup_remove_2 in N0. rewrite app_nil_r in N0. contradiction.
Qed.
Print Assumptions C30_reopened_refuted.

(* C48: the references of a type are given back in the order they were added, whatever was done to other items
   and with other types. *)
Theorem C48_references_kept os m acc k a ty : irun os = Ok (m, acc) -> Forall iop_ok os -> NoDup (ids_of m) ->
  nth_error (items m) k = Some a -> ty <> T_iloc -> plural_first k ty acc -> m_iref m <> None ->
  get_refs m (i_id a) ty = Ok (added_refs k ty acc).
Proof.
  intros R F D Hk Ht P Hr. destruct (run_refs os m acc R F) as (_ & _ & _ & R4). unfold get_refs.
  rewrite <- (R4 D k (i_id a) ty); try assumption; [|unfold ids_of; rewrite nth_error_map, Hk; reflexivity].
  unfold first_refs, refs. destruct (m_iref m); [reflexivity|contradiction].
Qed.
Print Assumptions C48_references_kept.
(* and the item a reference leads to is the one with that id *)
Theorem C48_reference_leads_to_item os m acc k a ty i k' a' : irun os = Ok (m, acc) -> Forall iop_ok os -> NoDup (ids_of m) ->
  nth_error (items m) k = Some a -> ty <> T_iloc -> plural_first k ty acc -> m_iref m <> None -> i_id a' < 65536 ->
  nth_error (added_refs k ty acc) i = Some (i_id a') -> nth_error (items m) k' = Some a' ->
  get_ref m (i_id a) ty (N.of_nat i + 1) = Ok k'.
Proof.
  intros R F D Hk Ht P Hr Hid Hi Hk'. unfold get_ref. rewrite (C48_references_kept os m acc k a ty R F D Hk Ht P Hr). cbn [bind].
  assert (L : (i < length (added_refs k ty acc))%nat) by (apply nth_error_Some; congruence).
  destruct (N.ltb_spec (len (added_refs k ty acc)) (N.of_nat i + 1)); [unfold len in *; lia|]. destruct (N.eqb_spec (N.of_nat i + 1) 0); [lia|].
  replace (N.to_nat (N.of_nat i + 1 - 1)) with i by lia. erewrite nth_error_nth by exact Hi. rewrite w16_small by exact Hid.
  unfold item_by_id, ids_of, items in *. destruct (m_iloc m) as [t|]; [|destruct k'; discriminate].
  apply (find_item_ok (il_items t) D 0 k' (i_id a')). rewrite nth_error_map, Hk'. reflexivity.
Qed.
Print Assumptions C48_reference_leads_to_item.
Definition refs_story : list iop :=
  [INew 0 0 None; INew 0 0 None; IRef 0 5 2; IRefs 1 5 [1; 2; 1]; IRef 0 6 2; IRef 1 5 2; IRef 0 5 1; INew 0 0 None; IRef 0 5 3].
Example refs_story_ok : exists m acc, irun refs_story = Ok (m, acc) /\ acc = refs_story /\ Forall iop_ok refs_story /\ NoDup (ids_of m) /\ m_iref m <> None /\
  added_refs 0 5 acc = [2; 1; 3] /\ get_refs m 1 5 = Ok [2; 1; 3] /\ get_refs m 2 5 = Ok [1; 2; 1; 2] /\ get_ref m 1 5 3 = Ok 2%nat.
Proof.
  eexists. eexists. split; [vm_compute; reflexivity|]. split; [reflexivity|]. split; [repeat constructor; cbn; try lia; discriminate|].
  split; [vm_compute; repeat constructor; cbn; intuition lia|]. split; [discriminate|]. vm_compute. repeat split; reflexivity.
Qed.
Example refs_story_plural : plural_first 1 5 refs_story.
Proof. intros pre ids post E. unfold refs_story in E. do 9 (destruct pre as [|? pre]; [try discriminate; reflexivity|injection E as <- E]). destruct pre; discriminate. Qed.
(* Several references added at once when there are some already: accepted, and never given back. *)
Theorem C48_second_list_refuted m from ty ids : refs_ok (refs m) -> first_refs (refs m) from ty <> [] ->
  get_refs (add_refs m from ty ids) from ty = Ok (first_refs (refs m) from ty).
Proof.
  intros F H. unfold get_refs, add_refs, with_iref. cbn [m_iref]. assert (E : forall l, ir_list match m_iref m with Some t => mkIref (ir_ver t) (ir_flags t) l | None => mkIref 0 0 l end = l)
    by (intros; destruct (m_iref m); reflexivity). rewrite E. f_equal. fold (first_refs (refs m ++ [mkIref1 ty from ids]) from ty). rewrite first_refs_snoc. unfold first_refs in *.
  destruct (find _ _); [reflexivity|contradiction].
Qed.
Print Assumptions C48_second_list_refuted.
Theorem C48_lost_references_refuted : exists os m acc, irun os = Ok (m, acc) /\ acc = os /\ Forall iop_ok os /\ NoDup (ids_of m) /\
  added_refs 0 5 acc = [1; 2; 3] /\ get_refs m 1 5 = Ok [1].
Proof.
  exists [INew 0 0 None; IRefs 0 5 [1]; IRefs 0 5 [2; 3]]. eexists. eexists. split; [vm_compute; reflexivity|]. split; [reflexivity|]. split; [repeat constructor; cbn; try lia; discriminate|].
  split; [vm_compute; repeat constructor; cbn; intuition lia|]. split; reflexivity.
Qed.
Print Assumptions C48_lost_references_refuted.
(* An empty list hides every reference added after it. *)
Theorem C48_empty_list_refuted : exists os m acc, irun os = Ok (m, acc) /\ acc = os /\ NoDup (ids_of m) /\ added_refs 0 5 acc = [2] /\ get_refs m 1 5 = Ok [].
Proof.
  exists [INew 0 0 None; IRefs 0 5 []; IRef 0 5 2]. eexists. eexists. split; [vm_compute; reflexivity|]. split; [reflexivity|].
  split; [vm_compute; repeat constructor; cbn; intuition lia|]. split; reflexivity.
Qed.
Print Assumptions C48_empty_list_refuted.
(* The number of references has 16 bits: one more than it can count is written outside the array. *)
Theorem C48_too_many_refuted m from ty ids : len ids = 65535 -> m_iref m = Some (mkIref 0 0 [mkIref1 ty from ids]) -> forall id, add_ref m from ty id = UB.
Proof.
  intros L E id. unfold add_ref. cbv zeta. unfold get_refs, with_iref, refs. rewrite E. cbn [ir_list ir_ver ir_flags m_iref bind].
  cbn [find]. unfold ref_fits. cbn [r_from r_type]. rewrite !N.eqb_refl. cbn [andb r_ids]. rewrite L. change (65535 =? 0) with false. cbv iota.
  cbn [ref_append]. unfold ref_fits. cbn [r_from r_type r_ids]. rewrite !N.eqb_refl. cbn [andb]. rewrite L. reflexivity.
Qed.
Print Assumptions C48_too_many_refuted.
(* Reference number 0 is read before the array. *)
Theorem C48_number_zero_refuted m from ty t : m_iref m = Some t -> get_ref m from ty 0 = UB.
Proof.
  intros E. unfold get_ref, get_refs. rewrite E. cbn [bind]. match goal with |- context [?a <? 0] => destruct (N.ltb_spec a 0) as [X|_]; [lia|] end. reflexivity.
Qed.
Print Assumptions C48_number_zero_refuted.

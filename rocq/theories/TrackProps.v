(* TrackProps.v -- C31, C39, C47. *)
From Verif Require Import Base Codec AtomModel AtomSpec AtomProofs BoxModel BoxSpec BoxProofs Reads HeaderSpec KidsModel KidsProofs TrackModel TrackSpec TrackProofs.

(* ------------------------------------------------------------------ *)
(* C31: track ids                                                       *)

(* whatever tracks are created, as long as no id reaches 2^32 - 1 *)
Theorem C31_track_ids_unique :
  forall m cs, sound m -> Forall (fun id => id < 4294967295) (tm_ids (creations m cs)) ->
  NoDup (tm_ids (creations m cs)) /\ Forall (fun id => 0 < id < tm_next (creations m cs)) (tm_ids (creations m cs)).
Proof. intros m cs S F. destruct (creations_sound cs m S F) as (A & B & _). auto. Qed.
Print Assumptions C31_track_ids_unique.
Theorem C31_new_movie_sound : sound tmovie_new.
Proof. split; [constructor|]. split; [constructor|]. cbn. lia. Qed.
(* the answer to every further request: an id in use, or 0, is refused and
   any other is given; an automatic id is new *)
Theorem C31_chosen_id :
  forall m cs id, sound m -> Forall (fun id => id < 4294967295) (tm_ids (creations m cs)) -> id < 4294967296 ->
  let m1 := creations m cs in
  (id = 0 \/ In id (tm_ids m1) -> create m1 (Chosen id) = Err MP4BadParamErr) /\
  (id <> 0 -> ~ In id (tm_ids m1) -> exists m2, create m1 (Chosen id) = Ok m2 /\ tm_ids m2 = tm_ids m1 ++ [id]).
Proof.
  intros m cs id S F L m1. pose proof (creations_sound cs m S F) as S1. fold m1 in S1. cbn [create].
  split; [apply chosen_refused; exact S1|]. intros H0 I. rewrite (chosen_ok m1 id S1 L H0 I). eexists. split; reflexivity.
Qed.
Print Assumptions C31_chosen_id.
Theorem C31_automatic_id :
  forall m cs, sound m -> Forall (fun id => id < 4294967295) (tm_ids (creations m cs)) ->
  let m1 := creations m cs in
  exists m2 id, create m1 Automatic = Ok m2 /\ tm_ids m2 = tm_ids m1 ++ [id] /\ ~ In id (tm_ids m1) /\ 0 < id < 4294967296.
Proof.
  intros m cs S F m1. pose proof (creations_sound cs m S F) as S1. fold m1 in S1. destruct (auto_ok m1 S1) as [E I].
  cbn [create]. rewrite E. do 2 eexists. split; [reflexivity|]. split; [reflexivity|]. split; [exact I|]. destruct S1 as (_ & _ & H). lia.
Qed.
Print Assumptions C31_automatic_id.
(* so the id of a track finds that track, and other ids find nothing *)
Theorem C31_found_by_id :
  forall m cs, sound m -> Forall (fun id => id < 4294967295) (tm_ids (creations m cs)) ->
  (forall i id, nth_error (tm_ids (creations m cs)) i = Some id -> get_track (creations m cs) id = Ok i) /\
  (forall id, ~ In id (tm_ids (creations m cs)) -> get_track (creations m cs) id = Err MP4BadParamErr).
Proof.
  intros m cs S F. destruct (creations_sound cs m S F) as (A & _ & _). unfold get_track. split.
  - intros i id H. rewrite (find_track_ok _ A 0 i id H). reflexivity.
  - intros id H. apply find_track_none. exact H.
Qed.
Print Assumptions C31_found_by_id.
Example C31_case :
  tm_ids (creations tmovie_new [Automatic; Chosen 7; Chosen 3; Chosen 7; Automatic; Chosen 0; Chosen 4294967294]) = [1; 7; 3; 8; 4294967294] /\
  Forall (fun id => id < 4294967295) [1; 7; 3; 8; 4294967294].
Proof. split; [reflexivity|]. repeat constructor; lia. Qed.
(* the id 2^32 - 1 wraps the next id to 0: no automatic id is left, and ids
   in use are given again *)
Theorem C31_last_id_refuted :
  let m := creations tmovie_new [Automatic; Chosen 4294967295] in
  create m Automatic = Err MP4BadParamErr /\ exists m', create m (Chosen 1) = Ok m' /\ ~ NoDup (tm_ids m').
Proof.
  cbv zeta. split; [reflexivity|]. eexists. split; [reflexivity|]. cbn. intros H. inversion_clear H as [|? ? I _]. apply I. right. left. reflexivity.
Qed.
Print Assumptions C31_last_id_refuted.
(* a file whose header lies about the next id *)
Theorem C31_lying_file_refuted :
  exists m, NoDup (tm_ids m) /\ exists m', create m Automatic = Ok m' /\ ~ NoDup (tm_ids m').
Proof.
  exists (mkTmovie 2 [1; 2]). split; [repeat constructor; cbn; intuition discriminate|]. eexists. split; [reflexivity|]. cbn. intros H.
  inversion_clear H as [|? ? _ H']. inversion_clear H' as [|? ? I _]. apply I. left. reflexivity.
Qed.
Print Assumptions C31_lying_file_refuted.

(* ------------------------------------------------------------------ *)
(* C39: track references                                                *)

(* after any additions: the count, and what every index gives *)
Theorem C39_references :
  forall m os ty, ty <> 0 -> Forall ref_ok os ->
  let ids := once (of_type ty os) in
  ref_count (ref_adds None os) ty = Ok (len ids) /\
  forall i, ref_get m (ref_adds None os) ty (N.of_nat i + 1) =
    match nth_error ids i with Some id => get_track m id | None => Err MP4BadParamErr end.
Proof.
  intros m os ty H0 H ids. assert (E : rids (ref_adds None os) ty = ids).
  { rewrite (ref_adds_ids os H). symmetry. apply (once_extend []). }
  pose proof (once_small ty os H) as L. fold ids in L. split.
  - rewrite (ref_count_ok _ _ H0), E, w32_small by exact L. reflexivity.
  - intros i. rewrite ref_get_ok, E by (rewrite ?E; assumption). destruct (nth_error ids i) as [id|] eqn:N; [|reflexivity].
    apply nth_error_In in N. subst ids. apply (proj1 (once_in _ _)) in N. apply in_map_iff in N. destruct N as (o & <- & I). apply filter_In in I.
    rewrite Forall_forall in H. destruct (H o (proj1 I)). destruct (N.eqb_spec (snd o) 0); [lia|reflexivity].
Qed.
Print Assumptions C39_references.
(* the index an addition returns reads that track from then on *)
Theorem C39_index_is_stable :
  forall m before ty id, ty <> 0 -> Forall ref_ok before -> 0 < id < 4294967296 -> ~ In id (of_type ty before) ->
  exists index r, ref_add (ref_adds None before) ty id = Ok (index, r) /\
    forall after, Forall ref_ok after -> ref_get m (ref_adds r after) ty index = get_track m id.
Proof.
  intros m before ty id H0 H Hid I. destruct (ref_add_ok (ref_adds None before) ty id ltac:(lia)) as (r & E & _ & E1 & _).
  assert (B : rids (ref_adds None before) ty = once (of_type ty before)) by (rewrite (ref_adds_ids before H); symmetry; apply (once_extend [])).
  rewrite B in *. assert (N : existsb (fun y => y =? id) (once (of_type ty before)) = false) by (apply existsb_notin; rewrite once_in; exact I).
  unfold snoc1 in *. rewrite N in *. do 2 eexists. split; [exact E|]. intros after Ha.
  assert (Hall : Forall ref_ok (before ++ [(ty, id)] ++ after)).
  { apply Forall_app. split; [exact H|]. constructor; [exact Hid|exact Ha]. }
  pose proof (once_small ty _ Hall) as L. rewrite !of_type_app, once_extend in L.
  assert (T : of_type ty [(ty, id)] = [id]) by (unfold of_type; cbn [filter fst]; rewrite N.eqb_refl; reflexivity).
  rewrite T in L. cbn [extend fold_left app] in L. unfold snoc1 at 2 in L. rewrite N in L.
  assert (R : rids (ref_adds r after) ty = extend (once (of_type ty before) ++ [id]) (of_type ty after)) by (rewrite (ref_adds_ids after Ha), E1; reflexivity).
  destruct (extend_prefix (of_type ty after) (once (of_type ty before) ++ [id])) as [k K].
  assert (L' : len (rids (ref_adds r after) ty) < 4294967296) by (rewrite R; exact L).
  assert (W : w32 (len (once (of_type ty before) ++ [id])) = N.of_nat (length (once (of_type ty before))) + 1).
  { rewrite R, K in L'. lens. rewrite w32_small by lia. reflexivity. }
  rewrite W, ref_get_ok by assumption. rewrite R, K, <- app_assoc, nth_error_app2, Nat.sub_diag by lia. cbn [nth_error app].
  destruct (N.eqb_spec id 0); [lia|reflexivity].
Qed.
Print Assumptions C39_index_is_stable.
(* adding a track again adds nothing *)
Theorem C39_same_again :
  forall m before ty id, ty <> 0 -> Forall ref_ok before -> 0 < id < 4294967296 -> In id (of_type ty before) ->
  exists index r, ref_add (ref_adds None before) ty id = Ok (index, r) /\
    ref_count r ty = ref_count (ref_adds None before) ty /\
    (forall i, ref_get m r ty (N.of_nat i + 1) = ref_get m (ref_adds None before) ty (N.of_nat i + 1)) /\
    (last (once (of_type ty before)) 0 = id -> ref_get m r ty index = get_track m id).
Proof.
  intros m before ty id H0 H Hid I. destruct (ref_add_ok (ref_adds None before) ty id ltac:(lia)) as (r & E & _ & E1 & _).
  assert (B : rids (ref_adds None before) ty = once (of_type ty before)) by (rewrite (ref_adds_ids before H); symmetry; apply (once_extend [])).
  rewrite B in *. assert (N : existsb (fun y => y =? id) (once (of_type ty before)) = true) by (apply existsb_in, once_in; exact I).
  unfold snoc1 in *. rewrite N in *. pose proof (once_small ty before H) as L. do 2 eexists. split; [exact E|].
  split; [rewrite !ref_count_ok, B, E1 by assumption; reflexivity|].
  split; [intros i; rewrite !ref_get_ok, B, E1 by (rewrite ?B, ?E1; assumption); reflexivity|].
  intros La. destruct (exists_last (l := once (of_type ty before))) as (p & x & Ep); [intros En; rewrite En in N; discriminate|].
  rewrite Ep in *. rewrite last_last in La. subst x. rewrite w32_small by exact L.
  replace (len (p ++ [id])) with (N.of_nat (length p) + 1) by (lens; reflexivity).
  rewrite ref_get_ok, E1 by (rewrite ?E1; assumption). rewrite nth_error_app2, Nat.sub_diag by lia. cbn [nth_error].
  destruct (N.eqb_spec id 0); [lia|reflexivity].
Qed.
Print Assumptions C39_same_again.
Example C39_case :
  let r := ref_adds None [(5, 7); (6, 9); (5, 3); (5, 7)] in
  ref_count r 5 = Ok 2 /\ ref_count r 6 = Ok 1 /\ ref_get (mkTmovie 10 [3; 7; 9]) r 5 1 = Ok 1%nat /\
  ref_get (mkTmovie 10 [3; 7; 9]) r 5 2 = Ok 0%nat /\ ref_get (mkTmovie 10 [3; 7; 9]) r 5 3 = Err MP4BadParamErr /\
  Forall ref_ok [(5, 7); (6, 9); (5, 3); (5, 7)].
Proof. do 5 (split; [reflexivity|]). repeat constructor; cbn; lia. Qed.
(* but the index returned is then the one of the track added last *)
Theorem C39_same_again_index_refuted :
  exists os id index r, Forall ref_ok os /\ In id (of_type 5 os) /\ ref_add (ref_adds None os) 5 id = Ok (index, r) /\
    let m := mkTmovie 3 [1; 2] in ref_get m r 5 index <> get_track m id.
Proof.
  exists [(5, 1); (5, 2)], 1, 2. eexists. split; [repeat constructor; cbn; lia|]. split; [left; reflexivity|]. split; [reflexivity|]. discriminate.
Qed.
Print Assumptions C39_same_again_index_refuted.
(* a reference of type 0 is added and never found *)
Theorem C39_type_zero_refuted :
  exists r, ref_add None 0 1 = Ok (1, r) /\ ref_count r 0 = Err MP4BadParamErr /\ ref_get (mkTmovie 2 [1]) r 0 1 = Err MP4BadParamErr.
Proof. eexists. repeat split. Qed.
Print Assumptions C39_type_zero_refuted.

Theorem C39_box_round_trip :
  forall l, l_ok tref_layout l -> 8 + len (l_body tref_layout l) < 4294967296 -> round_trip tref_codec tref_layout l.
Proof. intros l H L. apply faithful_round_trip; [apply tref_faithful|exact H|exact L]. Qed.
Print Assumptions C39_box_round_trip.
Theorem C39_type_box_round_trip :
  forall l, l_ok tref1_layout l -> 8 + len (l_body tref1_layout l) < 4294967296 -> round_trip tref1_codec tref1_layout l.
Proof. intros l H L. apply exact_round_trip; [apply tref1_exact|exact H|exact L]. Qed.
Print Assumptions C39_type_box_round_trip.
Theorem C39_robust : robust tref1_codec /\ robust tref_codec.
Proof. apply conj; [apply tref1_robust|apply boxed_safe, tref1_robust]. Qed.
Print Assumptions C39_robust.
(* whatever reference list a file holds, asking is safe *)
Theorem C39_asking_is_safe :
  forall m r ty index, len (rids r ty) < 4294967296 -> ref_get m r ty index <> UB /\ ref_count r ty <> UB.
Proof.
  intros m r ty index L. destruct (N.eq_dec ty 0) as [->|H0]; [split; discriminate|]. split.
  - destruct (N.eq_dec index 0) as [->|Hi]; [unfold ref_get; rewrite orb_true_r; discriminate|].
    replace index with (N.of_nat (N.to_nat (index - 1)) + 1) by lia. rewrite ref_get_ok by assumption.
    destruct (nth_error _ _) as [id|]; [|discriminate]. destruct (id =? 0); [discriminate|]. unfold get_track.
    generalize (tm_ids m) as l, O as k. induction l as [|x l IH]; intros k; cbn [find_track]; [discriminate|]. destruct (x =? id); [discriminate|apply IH].
  - rewrite ref_count_ok by exact H0. discriminate.
Qed.
Print Assumptions C39_asking_is_safe.
Example C39_box_case :
  let l := [mkTref1 (code "hint") [1; 2]; mkTref1 (code "cdsc") [9]] in
  l_ok tref_layout l /\ len (l_body tref_layout l) = 28.
Proof. split; [|reflexivity]. repeat (apply Forall_cons || apply Forall_nil); (split; [repeat split; try discriminate; reflexivity|repeat constructor; lia]). Qed.

(* ------------------------------------------------------------------ *)
(* C47: track groups                                                    *)

Theorem C47_group_last_set :
  forall os ty, ty <> 0 ->
  group_get (group_adds None os) ty = match of_type ty (rev os) with id :: _ => Ok id | [] => Err MP4BadParamErr end.
Proof. intros os ty H. rewrite group_get_ok, group_adds_ok by exact H. destruct (of_type ty (rev os)); reflexivity. Qed.
Print Assumptions C47_group_last_set.
Theorem C47_group_add_succeeds : forall r id ty, exists r', group_add r id ty = Ok r'.
Proof. intros r id ty. destruct (group_add_ok r ty id) as (r' & E & _). exists r'. exact E. Qed.
Print Assumptions C47_group_add_succeeds.
Theorem C47_box_round_trip :
  forall l, l_ok trgr_layout l -> 8 + len (l_body trgr_layout l) < 4294967296 -> round_trip trgr_codec trgr_layout l.
Proof. intros l H L. apply faithful_round_trip; [apply trgr_faithful|exact H|exact L]. Qed.
Print Assumptions C47_box_round_trip.
Theorem C47_robust : robust trgr1_codec /\ robust trgr_codec.
Proof. apply conj; [apply trgr1_robust|apply boxed_safe, trgr1_robust]. Qed.
Print Assumptions C47_robust.
(* a group of type 0 is set and never found *)
Theorem C47_type_zero_refuted : exists r, group_add None 4 0 = Ok r /\ group_get r 0 = Err MP4BadParamErr.
Proof. eexists. repeat split. Qed.
Print Assumptions C47_type_zero_refuted.
Example C47_case :
  group_get (group_adds None [(5, 100); (6, 200); (5, 300)]) 5 = Ok 300 /\ group_get (group_adds None [(5, 100)]) 6 = Err MP4BadParamErr /\
  l_ok trgr_layout [mkTrgr1 (code "msrc") 0 0 300; mkTrgr1 (code "alte") 0 0 7].
Proof.
  split; [reflexivity|]. split; [reflexivity|].
  repeat (apply Forall_cons || apply Forall_nil); (split; [repeat split; try discriminate; reflexivity|split; [unfold full_ok; cbn; lia|cbn; lia]]).
Qed.

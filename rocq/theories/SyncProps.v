(* SyncProps.v -- sync samples: C16, and the stss and stsh parts of C18. *)
From Verif Require Import Base Codec AtomModel AtomProofs BoxModel BoxSpec BoxProofs SyncSpec SyncModel SyncProofs.

(* Any batches: a sample is reported as a sync sample iff it was marked as
   one when it was added. *)
Theorem C16_sync_as_marked :
  forall bs, Forall mbatch_ok bs -> explicit false bs -> len (flat_map marks bs) < 1073741823 ->
  exists st, sync_run None 0 bs = Ok st /\
    forall n, 1 <= n <= len (flat_map marks bs) ->
      exists b, nth_error (flat_map marks bs) (N.to_nat (n - 1)) = Some b /\ reported_sync st n = Ok b.
Proof.
  intros bs Hb He Hl.
  destruct (sync_run_ok bs None [] false eq_refl Hb ltac:(lens; lia) ltac:(congruence) He) as (st & E & I).
  exists st. split; [exact E|]. cbn [app] in I. intros n Hn.
  destruct (nth_error (flat_map marks bs) (N.to_nat (n - 1))) as [b|] eqn:En.
  - exists b. split; [reflexivity|]. rewrite (reported_ok st _ n I Hn). f_equal. apply nth_error_nth. exact En.
  - apply nth_error_None in En. unfold len in Hn. lia.
Qed.
Print Assumptions C16_sync_as_marked.
Definition ex_mb : list mbatch := [(2, None); (2, Some [1; 2]); (3, Some [1]); (2, Some []); (2, Some [1; 2])].
Example C16_case : Forall mbatch_ok ex_mb /\ explicit false ex_mb /\
  flat_map marks ex_mb = [true; true; true; true; true; false; false; false; false; true; true] /\
  match sync_run None 0 ex_mb with
  | Ok (Some s) => ss_list s = [1; 2; 3; 4; 5; 10; 11]
  | _ => False end.
Proof.
  split; [|split; [|split; vm_compute; reflexivity]].
  - unfold ex_mb. repeat constructor; cbn; try lia; discriminate.
  - cbn. repeat split; discriminate.
Qed.

(* Once there is a table, samples added with no sync list are not reported
   as sync samples, although that is how "all are sync" is said
   (MP4Movies.h:1047). *)
Theorem C16_null_after_table_refuted :
  exists st, sync_run None 0 [(2, Some [1]); (1, None)] = Ok st /\
    flat_map marks [(2, Some [1]); (1, None)] = [true; false; true] /\ reported_sync st 3 = Ok false.
Proof. eexists. repeat split; vm_compute; reflexivity. Qed.
Print Assumptions C16_null_after_table_refuted.
(* The list must be ascending, which the interface does not say. *)
Theorem C16_unordered_list_refuted :
  exists st, sync_run None 0 [(3, Some [2; 1])] = Ok st /\
    flat_map marks [(3, Some [2; 1])] = [true; true; false] /\ reported_sync st 1 = Ok false.
Proof. eexists. repeat split; vm_compute; reflexivity. Qed.
Print Assumptions C16_unordered_list_refuted.
(* A table without entries read from a file is taken for a fresh one: the
   two non-sync samples of the file become sync samples when one is added. *)
Theorem C16_reread_empty_refuted :
  exists st st', sync_run None 0 [(2, Some [])] = Ok (Some st) /\ reported_sync (Some st) 1 = Ok false /\
    read_box stss_codec stss_new
      (match write_box stss_codec st with Ok bs => bs | _ => [] end) = Ok ((ALeaf stss st', 16), []) /\
    reported_sync (Some st') 1 = Ok false /\
    exists st2, stbl_sync (Some st') 2 1 (Some [1]) = Ok st2 /\ reported_sync st2 1 = Ok true.
Proof. do 2 eexists. repeat split; [vm_compute; reflexivity..|]. eexists. split; vm_compute; reflexivity. Qed.
Print Assumptions C16_reread_empty_refuted.

(* ------------------------------------------------------------------ *)
(* C18, stss and stsh                                                  *)

Definition stss_layout : layout stss := mkLayout (fun _ => code "stss")
  (fun s => full (ss_ver s) (ss_flags s) ++ be32 (len (ss_list s)) ++ flat_map be32 (ss_list s))
  (fun s => mkStss (ss_ver s) (ss_flags s) (ss_list s) false)
  (fun s => full_ok (ss_ver s) (ss_flags s) /\ Forall (fun x => x < 4294967296) (ss_list s)).
Lemma stss_exact : exact stss_codec stss_layout.
Proof.
  split; [intros t _; plain|].
  intros t [Hf He] Hl. destruct t as [v f l b]. cbn [stss_codec stss_layout c_size c_w c_rd l_body l_view c_ty ss_ver ss_flags ss_list] in *.
  lens. assert (Hlen : len (flat_map be32 l) = 4 * len l) by (apply (len_flat_map_const _ 4); intros; lens; lia).
  rewrite Hlen in *.
  split; [unfold stss_size; cbn [ss_list]; unfold w32; lia|]. split.
  - unfold stss_write; cbn [ss_ver ss_flags ss_list]. apply writes_full_seq. apply writes_seq; [wstep|]. apply writes_map. intros; wstep.
  - unfold stss_read. pauto. pauto. destruct (N.eqb_spec (len l) 4294967295); [lia|]. pnext.
    + unfold len. rewrite Nat2N.id. apply (parses_rrep _ be32); [|apply w32_lt].
      intros x n0 Hin. rewrite Forall_forall in He. apply parses_get32. auto.
    + pauto.
Qed.
Theorem C18_stss_round_trip :
  forall s, l_ok stss_layout s -> 16 + 4 * len (ss_list s) < 4294967296 -> round_trip stss_codec stss_layout s.
Proof.
  intros s H Hl. apply exact_round_trip; [apply stss_exact|exact H|].
  unfold stss_layout; cbn [l_body]. lens. rewrite (len_flat_map_const _ 4); [lia|]. intros; lens; lia.
Qed.
Print Assumptions C18_stss_round_trip.
Theorem C18_stss_same_answers :
  forall s n, reported_sync (Some (l_view stss_layout s)) n = reported_sync (Some s) n.
Proof. reflexivity. Qed.
Print Assumptions C18_stss_same_answers.
Example C18_stss_case : l_ok stss_layout (mkStss 0 0 [1; 5; 70000] true) /\
  write_box stss_codec (mkStss 0 0 [1; 5; 70000] true) =
  Ok [0;0;0;28; 115;116;115;115; 0;0;0;0; 0;0;0;3; 0;0;0;1; 0;0;0;5; 0;1;17;112].
Proof. split; [repeat constructor|vm_compute; reflexivity]. Qed.

(* Reading arbitrary bytes is safe only if the announced number of entries
   is not 2^32 - 1. *)
Theorem C18_stss_count_refuted :
  exists i, read_box stss_codec stss_new i = UB.
Proof.
  exists [0;0;0;20; 115;116;115;115; 0;0;0;0; 255;255;255;255; 0;0;0;1]. vm_compute. reflexivity.
Qed.
Print Assumptions C18_stss_count_refuted.
Theorem C18_stss_no_ub :
  forall h vf n rest k, len vf = 4 -> n < 4294967295 -> stss_read h (mkR (vf ++ be32 n ++ rest) k) <> UB.
Proof.
  intros h vf n rest k Hv Hn. unfold stss_read, rbind at 1.
  destruct (get_full (mkR (vf ++ be32 n ++ rest) k)) as [[a s1]|e|] eqn:E1; [|discriminate|].
  - assert (Hs : inp s1 = be32 n ++ rest).
    { do 5 (destruct vf as [|? vf]; try discriminate Hv; try (lens; lia)). unfold get_full, rbind, get32 in E1. cbn [inp app] in E1.
      injection E1 as <- <-. reflexivity. }
    unfold rbind at 1. destruct (parses_get32 (rdn s1) n ltac:(lia)) as (P & _). specialize (P rest).
    replace s1 with (mkR (be32 n ++ rest) (rdn s1)) by (destruct s1; cbn in *; congruence).
    rewrite P. destruct (N.eqb_spec n 4294967295); [lia|].
    apply no_ub_bind; [apply no_ub_rrep, no_ub_get32|intros; apply no_ub_ret].
  - exfalso. revert E1. unfold get_full. apply no_ub_bind; [apply no_ub_get32|intros; apply no_ub_ret].
Qed.
Print Assumptions C18_stss_no_ub.

Definition stsh_layout : layout stsh := mkLayout (fun _ => code "stsh")
  (fun s => full (sh_ver s) (sh_flags s) ++ be32 (len (sh_entries s)) ++
            flat_map (fun e => be32 (fst e) ++ be32 (snd e)) (sh_entries s))
  (fun s => s)
  (fun s => full_ok (sh_ver s) (sh_flags s) /\
            Forall (fun e => fst e < 4294967296 /\ snd e < 4294967296) (sh_entries s)).
Lemma stsh_robust : robust stsh_codec.
Proof. robust_tac stsh_read. Qed.
Lemma stsh_exact : exact stsh_codec stsh_layout.
Proof.
  split; [intros t _; plain|].
  intros t [Hf He] Hl. destruct t as [v f es]. cbn [stsh_codec stsh_layout c_size c_w c_rd l_body l_view c_ty sh_ver sh_flags sh_entries] in *.
  lens. assert (Hlen : len (flat_map (fun e : N * N => be32 (fst e) ++ be32 (snd e)) es) = 8 * len es)
    by (apply (len_flat_map_const _ 8); intros; lens; lia).
  rewrite Hlen in *.
  split; [unfold stsh_size; cbn [sh_entries]; unfold w32; lia|]. split.
  - unfold stsh_write; cbn [sh_ver sh_flags sh_entries]. apply writes_full_seq. apply writes_seq; [wstep|]. apply writes_map. intros; wstep.
  - unfold stsh_read. pauto. pauto. pnext.
    + unfold len. rewrite Nat2N.id. apply (parses_rrep _ (fun e => be32 (fst e) ++ be32 (snd e))); [|apply w32_lt].
      intros [c d] n Hin. rewrite Forall_forall in He. specialize (He _ Hin). cbn [fst snd] in *. pauto. pauto. pauto.
    + pauto.
Qed.
Theorem C18_stsh_round_trip :
  forall s, l_ok stsh_layout s -> 16 + 8 * len (sh_entries s) < 4294967296 -> round_trip stsh_codec stsh_layout s.
Proof.
  intros s H Hl. apply exact_round_trip; [apply stsh_exact|exact H|].
  unfold stsh_layout; cbn [l_body]. lens. rewrite (len_flat_map_const _ 8); [lia|]. intros; lens; lia.
Qed.
Print Assumptions C18_stsh_round_trip.
Example C18_stsh_case : l_ok stsh_layout (mkStsh 0 0 [(3, 1); (9, 4294967295)]) /\
  write_box stsh_codec (mkStsh 0 0 [(3, 1); (9, 4294967295)]) =
  Ok [0;0;0;32; 115;116;115;104; 0;0;0;0; 0;0;0;2; 0;0;0;3; 0;0;0;1; 0;0;0;9; 255;255;255;255].
Proof. split; [repeat constructor|vm_compute; reflexivity]. Qed.

(* FragProps.v -- C22, C23. *)
From Verif Require Import MediaProps.
From Verif Require Import Base Codec AtomModel AtomSpec AtomProofs BoxModel BoxSpec BoxProofs Reads HeaderModel HeaderSpec AuxProofs GroupProofs
  FragModel FragSpec FragProofs MdatModel SttsModel SizeModel ChunkModel MediaSpec MediaModel MediaProofs KidsModel KidsProofs
  MoofModel MoofSpec MoofProofs MergeFragProofs.

(* ------------------------------------------------------------------ *)
(* C22: the boxes of a fragment survive writing and reading              *)

Theorem C22_header_round_trip : forall t, l_ok tfhd_layout t -> round_trip tfhd_codec tfhd_layout t.
Proof. intros t H. apply exact_round_trip; [apply tfhd_exact|exact H|]. pose proof (tfhd_len t). lia. Qed.
Print Assumptions C22_header_round_trip.
Theorem C22_run_round_trip : forall r, l_ok trun_layout r -> 8 + len (l_body trun_layout r) < 4294967296 -> round_trip trun_codec trun_layout r.
Proof. intros t H L. apply exact_round_trip; [apply trun_exact|exact H|exact L]. Qed.
Print Assumptions C22_run_round_trip.
Theorem C22_traf_round_trip : forall t, l_ok traf_layout t -> 8 + len (l_body traf_layout t) < 4294967296 -> round_trip traf_codec traf_layout t.
Proof. intros t H L. apply faithful_round_trip; [apply traf_faithful|exact H|exact L]. Qed.
Print Assumptions C22_traf_round_trip.
Theorem C22_moof_round_trip : forall t, l_ok moof_layout t -> 8 + len (l_body moof_layout t) < 4294967296 -> round_trip moof_codec moof_layout t.
Proof. intros t H L. apply faithful_round_trip; [apply moof_faithful|exact H|exact L]. Qed.
Print Assumptions C22_moof_round_trip.
Theorem C22_robust : robust tfhd_codec /\ robust trun_codec.
Proof. apply conj; [apply tfhd_robust|apply trun_robust]. Qed.
Print Assumptions C22_robust.

Definition ex_run : trun := mkTrun 1 2817 16 0 [mkRent 10 3 0 0; mkRent 20 4 0 4294967291].
Definition ex_head : tfhd := mkTfhd 0 57 7 1000 0 10 3 65536.
Definition ex_traf : traf := mkTraf (Some ex_head) (Some (mkTfdt 0 0 90)) [] [] [ex_run] [] [].
Example C22_case :
  l_ok tfhd_layout ex_head /\ l_ok trun_layout ex_run /\ l_ok traf_layout ex_traf /\
  l_ok moof_layout (mkMoof (Some (mkMfhd 0 0 1)) [ALeaf mkid (inr ex_traf)]) /\
  len (l_body trun_layout ex_run) = 36 /\ l_view trun_layout ex_run = ex_run.
Proof.
  assert (H1 : l_ok tfhd_layout ex_head) by (cbn; unfold full_ok; lia).
  assert (H2 : l_ok trun_layout ex_run).
  { cbn [l_ok trun_layout ex_run tr_ver tr_flags tr_off tr_first tr_ents]. split; [unfold full_ok; lia|]. split; [reflexivity|]. split; [lia|]. split; [lia|].
    split; [repeat (apply Forall_cons || apply Forall_nil); unfold rent_ok; cbn [e_dur e_size e_flags e_cto]; lia|repeat constructor]. }
  assert (H3 : l_ok traf_layout ex_traf).
  { split; [constructor; [exact H1|constructor]|]. split; [constructor; [apply tfdt0_ok; lia|constructor]|]. split; [constructor|]. split; [constructor|].
    split; [constructor; [exact H2|constructor]|]. split; constructor. }
  split; [exact H1|]. split; [exact H2|]. split; [exact H3|]. split; [|split; vm_compute; reflexivity].
  split; [constructor; [cbn; unfold full_ok; lia|constructor]|]. constructor; [eexists; split; [reflexivity|exact H3]|constructor].
Qed.

(* ------------------------------------------------------------------ *)
(* C23: the choice of defaults loses nothing                             *)

(* [d]: the track's own defaults, [base]: the base offset put into the header
   once it is known. [r]: as added, [q]: as written, and what the reader makes
   of it. *)
Theorem C23_defaults_lossless :
  forall d t rs, head_ok t -> rs <> [] -> Forall run_ok rs ->
  exists t' rs', traf_prepare d t rs = Ok (Some (t', rs')) /\ l_ok tfhd_layout t' /\
    forall moof prev base,
      let written := mkTfhd (fh_ver t') (fh_flags t') (fh_id t') base (fh_desc t') (fh_dur t') (fh_size t') (fh_sflags t') in
      let u := traf_fill d moof prev (l_view tfhd_layout written) in
      fh_id u = fh_id t /\ fh_base u = base /\ fh_desc u = fh_desc t /\
      Forall2 (fun r q => l_ok trun_layout q /\ 8 + len (l_body trun_layout q) < 4294967296 /\
                 exists s, merge_run u (l_view trun_layout q) = Ok s /\ tells s (tr_ents r) /\
                   r_pos s = w64 (base + u64_of (s32_of (tr_off r)))) rs rs'.
Proof.
  intros d t rs H1 H2 H3. destruct (traf_prepare_ok d t rs H1 H2 H3) as (t' & rs' & A & B & _ & _ & _ & _ & C).
  exists t', rs'. split; [exact A|]. split; [exact B|]. intros moof prev base. cbv zeta. specialize (C moof prev base). cbv zeta in C.
  destruct C as (C1 & C2 & C3 & _ & C5). split; [exact C1|]. split; [exact C2|]. split; [exact C3|].
  remember (traf_fill _ _ _ _) as u. clear -C5. induction C5 as [|r q l l' (K1 & K2 & _ & s & K3 & K4 & K5 & _) _ IH]; constructor; [|exact IH].
  split; [exact K1|]. split; [exact K2|]. exists s. auto.
Qed.
Print Assumptions C23_defaults_lossless.
(* durations all alike, one size that differs, a first sample that is sync and
   one that is padded *)
Definition ex_rs : list trun :=
  [mkTrun 0 0 0 0 [mkRent 10 3 0 0; mkRent 10 3 65536 0; mkRent 10 4 65536 0]; mkTrun 0 0 10 0 [mkRent 10 3 65536 5; mkRent 10 3 458752 0]].
Example C23_defaults_case :
  head_ok (mkTfhd 0 0 1 0 1 0 0 0) /\ Forall run_ok ex_rs /\
  option_map snd (match traf_prepare (mkTdef 1 10 0 0) (mkTfhd 0 0 1 0 1 0 0 0) ex_rs with Ok o => o | _ => None end) =
    Some [mkTrun 0 516 0 0 (tr_ents (nth 0 ex_rs trun_new)); mkTrun 0 3073 10 65536 (tr_ents (nth 1 ex_rs trun_new))].
Proof.
  split; [cbn; unfold head_ok; cbn; lia|]. split; [|vm_compute; reflexivity].
  repeat (apply Forall_cons || apply Forall_nil); (split; [cbn; lia|]); (split; [cbn; lia|]); (split; [discriminate|]);
    (split; [reflexivity|]); repeat (apply Forall_cons || apply Forall_nil); unfold rent_ok; cbn; lia.
Qed.

(* A movie written in any number of fragments, to any tracks, in any number of
   additions. [pre] is the file so far (ftyp and moov). *)
Definition writer_of (a : ftrack) : wtrk := let '(id, d, descs) := a in mkWtrk id d 0.
Definition reader_of (junk drefs : N) (a : ftrack) : rtrk :=
  let '(id, d, descs) := a in
  mkRtrk id d (mkMedia stts_new None None None (stsz_new junk) stco_new stsc_new descs drefs) 0.

Lemma asks_ok d t : len (md_data d) < 4294967296 -> forall ns m, minv m t (md_data d) -> Forall (fun n => 1 <= n <= len (t_smps t)) ns ->
  Forall2 (fun n r => exists x desc, r = Ok (x, desc) /\ answer t n = Some x) ns (media_asks m d ns).
Proof.
  intros Hd. induction ns as [|n ns IH]; intros m I F; cbn [media_asks]; [constructor|]. inversion F as [|? ? F1 F2]; subst.
  destruct (media_get_ok m d t n I Hd F1) as (i & desc & m' & E & A & I' & _). rewrite E. constructor; [|apply IH; assumption].
  exists i, desc. auto.
Qed.
Lemma linked_start junk drefs pre a : ftrack_ok drefs a -> linked pre (writer_of a) (reader_of junk drefs a) track0.
Proof.
  destruct a as [[id d] descs]. intros (H1 & H2 & H3 & H4). constructor; cbn [writer_of reader_of wk_id wk_def wk_time rk_id rk_def rk_media rk_dur me_descs]; try assumption; try reflexivity.
  assert (I : minv (media_new junk drefs) track0 pre) by (apply (minv_grow _ _ [] pre), minv_new).
  destruct I. constructor; cbn [media_new me_stts me_ctts me_stss me_padb me_stsz me_stco me_stsc me_descs me_drefs] in *; try assumption.
  - destruct v_chunks as (ch & gs & A & B & C & D & E & F). destruct gs as [|g gs]; [|exfalso; inversion E; subst; cbn [concat track0 t_smps] in B; destruct g; [congruence|discriminate]].
    destruct ch; [|discriminate]. exists [], []. repeat (split; [assumption|]). constructor.
  - discriminate.
Qed.
Theorem C23_movie_in_fragments_reads_back :
  forall signed pre junk drefs tr fs,
  pre <> [] -> NoDup (map (fun a => fst (fst a)) tr) -> Forall (ftrack_ok drefs) tr ->
  frags_ok (map (fun _ => track0) tr) fs -> len fs < 4294967295 ->
  len pre + frags_cost (len tr) fs < 2147483648 ->
  exists F ks, frags_put signed 1 pre (map writer_of tr) (map calls fs) = Ok (pre ++ F) /\
    read_frags (map (reader_of junk drefs) tr) (len pre) F = Ok ks /\
    forall i t, nth_error (frags_end (map (fun _ => track0) tr) fs) i = Some t ->
    exists k, nth_error ks i = Some k /\ rk_dur k = duration (t_smps t) /\
      forall junk2 ns, Forall (fun n => 1 <= n <= len (t_smps t)) ns ->
      Forall2 (fun n r => exists x desc, r = Ok (x, desc) /\ answer t n = Some x) ns (media_asks (rk_media k) (mkMdat (pre ++ F) junk2) ns).
Proof.
  intros signed pre junk drefs tr fs Hp ND Hok Hf Hn Hsz.
  remember (map (fun a => (writer_of a, reader_of junk drefs a, track0)) tr) as L eqn:EL.
  assert (E1 : map p_w L = map writer_of tr) by (subst L; rewrite map_map; reflexivity).
  assert (E2 : map p_k L = map (reader_of junk drefs) tr) by (subst L; rewrite map_map; reflexivity).
  assert (E3 : map p_t L = map (fun _ => track0) tr) by (subst L; rewrite map_map; reflexivity).
  assert (E4 : @len trip L = len tr) by (subst L; apply len_map).
  destruct (frags_whole signed fs 1 pre L) as (F & l & K & F1 & F2 & F3 & F4 & F5).
  - subst L. rewrite Forall_map. eapply Forall_impl; [|exact Hok]. intros a Ha. apply linked_start, Ha.
  - rewrite E2, map_map. erewrite map_ext; [exact ND|]. intros [[id d] descs]. reflexivity.
  - rewrite E3. exact Hf.
  - lia.
  - exact Hp.
  - rewrite E4. exact Hsz.
  - rewrite E1 in F1. rewrite E2 in F3. rewrite E3 in F4. rewrite E4 in F5. exists F, K. split; [exact F1|]. split.
    + unfold read_frags. rewrite (F2 (length F + 1)%nat ltac:(lia)). cbn [bind]. apply F3. exact I.
    + intros i t Ht. destruct (Forall2_nth _ _ _ _ _ F4 Ht) as (k & Hk & w & Lk).
      exists k. split; [exact Hk|]. split; [exact (n_dur _ _ _ _ Lk)|]. intros j ns Hns.
      apply asks_ok; [cbn [md_data]; lens; lia|exact (n_minv _ _ _ _ Lk)|exact Hns].
Qed.
Print Assumptions C23_movie_in_fragments_reads_back.

(* two tracks, two fragments; in the second one only one track has samples *)
Definition ex_tr : list ftrack := [(1, mkTdef 1 10 3 0, [1]); (2, mkTdef 1 0 0 0, [1])].
Definition fA : list smp := [mkSmp [1; 2; 3] 10 0 true 0; mkSmp [4] 20 0 false 0].
Definition fB : list smp := [mkSmp [9; 9] 7 (-2) true 0; mkSmp [] 7 4 true 0].
Definition fC : list smp := [mkSmp [5; 6] 10 0 false 0].
Definition bA : mbat := mkBat 2 [1; 2; 3; 4] [10; 20] [3; 1] None None (Some [1]) None.
Definition bB : mbat := mkBat 2 [9; 9] [7] [2; 0] None (Some [4294967294; 4]) None None.
Definition bC : mbat := mkBat 1 [5; 6] [10] [2] None None (Some []) None.
Definition ex_fs : list (list fop) := [[(0%nat, fA, bA); (1%nat, fB, bB)]; [(0%nat, fC, bC)]].
Definition ex_read (f : list N) (i : nat) (n : N) : option (info * N) :=
  match read_frags (map (reader_of 0 1) ex_tr) 8 (skipn 8 f) with
  | Ok ks => match nth_error ks i with
             | Some k => match fst (media_get (rk_media k) (mkMdat f 0) n) with Ok x => Some x | _ => None end
             | None => None end
  | _ => None
  end.
Definition ex_pre : list N := [0; 0; 0; 8; 102; 114; 101; 101].
Example C23_movie_case :
  NoDup (map (fun a : ftrack => fst (fst a)) ex_tr) /\ Forall (ftrack_ok 1) ex_tr /\ frags_ok (map (fun _ => track0) ex_tr) ex_fs /\
  len ex_pre + frags_cost (len ex_tr) ex_fs < 2147483648 /\
  match frags_put true 1 ex_pre (map writer_of ex_tr) (map calls ex_fs) with
  | Ok f => len f = 332 /\ ex_read f 0 2 = Some (mkInfo [4] 1 10 0 20 false false 248, 1) /\
            ex_read f 0 3 = Some (mkInfo [5; 6] 2 30 0 10 false false 248, 1) /\
            ex_read f 1 1 = Some (mkInfo [9; 9] 2 0 (-2) 7 true true 248, 1)
  | _ => False end.
Proof.
  split; [repeat constructor; cbn; intuition lia|].
  split; [repeat (apply Forall_cons || apply Forall_nil); (split; [lia|]); (split; [split; vm_compute; discriminate|]); (split; [vm_compute; reflexivity|]); repeat constructor; lia|].
  split; [|split; [vm_compute; reflexivity|vm_compute; repeat split; reflexivity]].
  cbn [frags_ok ex_fs fops_ok].
  split; [split; [|split; [|exact I]]|split; [discriminate|]].
  - exists track0. split; [reflexivity|]. split.
    { constructor; cbn; try discriminate; try reflexivity; try (left; reflexivity); repeat (apply Forall_cons || apply Forall_nil); cbn; (lia || reflexivity). }
    split; [reflexivity|]. split; [reflexivity|]. split; [discriminate|]. split; [split; [intros _; constructor|intros _; right; reflexivity]|].
    split; [repeat constructor; unfold is_byte; lia|]. repeat split; vm_compute; reflexivity.
  - eexists. split; [reflexivity|]. split.
    { constructor; cbn; try discriminate; try reflexivity; try (left; reflexivity); try (right; exists 7; split; [reflexivity|repeat constructor]); repeat (apply Forall_cons || apply Forall_nil); cbn; (lia || reflexivity || auto). }
    split; [reflexivity|]. split; [reflexivity|]. split; [intros l E; injection E as <-; reflexivity|]. split; [split; [intros _; constructor|intros _; right; reflexivity]|].
    split; [repeat constructor; unfold is_byte; lia|]. repeat split; vm_compute; reflexivity.
  - split; [|split; [discriminate|exact I]]. split; [|exact I].
    eexists. split; [reflexivity|]. split.
    { constructor; cbn; try discriminate; try reflexivity; try (left; reflexivity); repeat (apply Forall_cons || apply Forall_nil); cbn; (lia || reflexivity). }
    split; [reflexivity|]. split; [reflexivity|]. split; [discriminate|].
    split; [split; [intros H; inversion H; discriminate|intros H; inversion H as [? ? N|? ? N]; [cbn in N; congruence|inversion N]]|].
    split; [repeat constructor; unfold is_byte; lia|]. repeat split; vm_compute; reflexivity.
Qed.

(* ------------------------------------------------------------------ *)
(* The restrictions are needed.                                          *)

Definition ex_one (fs : list (list fop)) : option (list N) :=
  match frags_put true 1 ex_pre (map writer_of ex_tr) (map calls fs) with Ok f => Some f | _ => None end.
Definition sync_of (x : option (info * N)) : option bool := option_map (fun y => i_sync (fst y)) x.
(* samples that are all sync samples, in a fragment after samples that are
   not: they are read back as non-sync samples *)
Theorem C23_sync_after_other_refuted :
  let s := mkSmp [7] 10 0 true 0 in
  let fs := [[(0%nat, fC, bC)]; [(0%nat, [s], mkBat 1 [7] [10] [1] None None None None)]] in
  describes (mkBat 1 [7] [10] [1] None None None None) [s] /\
  match ex_one fs with Some f => sync_of (ex_read f 0 2) = Some false | None => False end.
Proof.
  split; [|vm_compute; reflexivity].
  constructor; cbn; try discriminate; try reflexivity; try (left; reflexivity); repeat (apply Forall_cons || apply Forall_nil); cbn; (lia || reflexivity).
Qed.
Print Assumptions C23_sync_after_other_refuted.
(* offsets that start after samples without are attached to other samples *)
Theorem C23_late_offset_refuted :
  let s := mkSmp [7] 10 5 true 0 in
  let b := mkBat 1 [7] [10] [1] None (Some [5]) None None in
  let a := mkSmp [8] 10 0 true 0 in
  let c := mkBat 1 [8] [10] [1] None None None None in
  describes b [s] /\ describes c [a] /\
  match ex_one [[(0%nat, [a], c); (0%nat, [s], b)]] with
  | Some f => option_map (fun y => i_off (fst y)) (ex_read f 0 1) = Some 5%Z
  | None => False end.
Proof.
  split; [|split; [|vm_compute; reflexivity]];
  constructor; cbn; try discriminate; try reflexivity; try (left; reflexivity); repeat (apply Forall_cons || apply Forall_nil); cbn; (lia || reflexivity).
Qed.
Print Assumptions C23_late_offset_refuted.
(* padding is read from the wrong memory *)
Theorem C23_padding_refuted :
  forall signed off b l, b_pads b = Some l -> frag_run signed off b = UB.
Proof. intros signed off b l H. unfold frag_run. rewrite H. reflexivity. Qed.
Print Assumptions C23_padding_refuted.
(* one composition offset for all samples: read past its end *)
Theorem C23_one_offset_refuted :
  forall signed off ss x dur sizes, 2 <= len ss -> b_pads (mkBat (len ss) (flat_map m_bytes ss) [dur] sizes None (Some [x]) None None) = None /\
  (per_sample sizes (map (fun s => len (m_bytes s)) ss) ->
   frag_run signed off (mkBat (len ss) (flat_map m_bytes ss) [dur] sizes None (Some [x]) None None) = UB).
Proof.
  intros signed off ss x dur sizes H. split; [reflexivity|]. intros Hs. unfold frag_run. cbn [b_pads b_count b_sync].
  destruct ss as [|a [|b ss]]; try (unfold len in H; cbn in H; lia).
  replace (N.to_nat (len (a :: b :: ss))) with (S (S (length ss))) by (unfold len; cbn [length]; lia). cbn [seq mapm].
  unfold frag_entry at 1 2. cbn [b_durs b_sizes b_offs b_sync pick_at nth_error bind].
  rewrite (pick_per _ _ 0 (len (m_bytes a)) Hs eq_refl), (pick_per _ _ 1 (len (m_bytes b)) Hs eq_refl). reflexivity.
Qed.
Print Assumptions C23_one_offset_refuted.
(* an addition of no samples is accepted; writing the fragment reads a run's
   first sample, which there is none of *)
Theorem C23_empty_run_refuted :
  let b := mkBat 0 [] [] [] None None None None in
  match frag_adds true (frag_start (map writer_of ex_tr)) [(0%nat, b)] with
  | Ok g => frag_put 1 ex_pre g = UB
  | _ => False end.
Proof. vm_compute. reflexivity. Qed.
Print Assumptions C23_empty_run_refuted.
(* the description named by the defaults is not the one reported: samples
   merged from a fragment get the last description of the track *)
Theorem C23_description_refuted :
  let tr := [(1, mkTdef 1 10 3 0, [1; 1]) : ftrack] in
  Forall (ftrack_ok 1) tr /\
  match frags_put true 1 ex_pre (map writer_of tr) [calls [(0%nat, fA, bA)]] with
  | Ok f => match read_frags (map (reader_of 0 1) tr) 8 (skipn 8 f) with
            | Ok [k] => match fst (media_get (rk_media k) (mkMdat f 0) 1) with Ok (_, desc) => desc = 2 | _ => False end
            | _ => False end
  | _ => False end.
Proof.
  split; [|vm_compute; reflexivity].
  repeat (apply Forall_cons || apply Forall_nil); (split; [lia|]); (split; [split; vm_compute; discriminate|]); (split; [vm_compute; reflexivity|]); repeat constructor; lia.
Qed.
Print Assumptions C23_description_refuted.

(* Files of other writers. A run without data offset goes on where the run
   before ended (ISO/IEC 14496-12, 8.8.8); here it starts at the base. *)
Theorem C23_implied_offset_refuted :
  forall u r s, tr_off r = 0 -> merge_run u r = Ok s -> r_pos s = w64 (fh_base u).
Proof.
  intros u r s H E. unfold merge_run in E. destruct (tr_first_present (tr_flags r) && (len (tr_ents r) =? 0)); [discriminate|].
  cbv zeta in E. injection E as <-. cbn [r_pos]. rewrite H. change (u64_of (s32_of 0)) with 0. rewrite N.add_0_r. reflexivity.
Qed.
Print Assumptions C23_implied_offset_refuted.
(* The base of a track fragment that says nothing is the end of the data of
   the one before (8.8.7). With two runs that is counted wrong. *)
Theorem C23_implied_base_refuted :
  let u := mkTfhd 0 1 1 100 1 10 1 0 in
  let r := mkTrun 0 512 0 0 [mkRent 10 10 0 0] in
  traf_end u [r] = 110 /\ traf_end u [r; mkTrun 0 512 0 0 [mkRent 10 5 0 0]] = 125.
Proof. vm_compute. split; reflexivity. Qed.
Print Assumptions C23_implied_base_refuted.
(* a track fragment for a track without defaults *)
Theorem C23_unknown_track_refuted :
  forall pos ks prev t h, f_hdr t = Some h -> Forall (fun k => rk_id k <> fh_id h) ks -> merge_traf pos ks prev t = UB.
Proof.
  intros pos ks prev t h H F. unfold merge_traf. rewrite H. replace (find_trk (fh_id h) ks) with (@None nat); [reflexivity|].
  induction F as [|k ks Hk _ IH]; [reflexivity|]. cbn [find_trk]. destruct (N.eqb_spec (rk_id k) (fh_id h)); [congruence|]. rewrite <- IH. reflexivity.
Qed.
Print Assumptions C23_unknown_track_refuted.

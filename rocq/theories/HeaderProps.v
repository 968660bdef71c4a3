(* HeaderProps.v -- properties C37 and C45. *)
From Verif Require Import Base Codec AtomModel AtomProofs BoxModel BoxSpec BoxProofs HeaderBoxModel HeaderModel HeaderSpec HeaderProofs.

(* C37: the headers of movies, tracks and media *)
Theorem C37_mvhd_round_trip : forall a, l_ok mvhd_layout a -> round_trip mvhd_codec mvhd_layout a.
Proof. intros a H. apply exact_round_trip; [apply mvhd_exact|exact H|apply mvhd_short, H]. Qed.
Print Assumptions C37_mvhd_round_trip.
Theorem C37_tkhd_round_trip : forall a, l_ok tkhd_layout a -> round_trip tkhd_codec tkhd_layout a.
Proof. intros a H. apply exact_round_trip; [apply tkhd_exact|exact H|apply tkhd_short, H]. Qed.
Print Assumptions C37_tkhd_round_trip.
Theorem C37_mdhd_round_trip : forall a, l_ok mdhd_layout a -> round_trip mdhd_codec mdhd_layout a.
Proof. intros a H. apply exact_round_trip; [apply mdhd_exact|exact H|apply mdhd_short, H]. Qed.
Print Assumptions C37_mdhd_round_trip.

(* and the headers the library makes for new movies, tracks and media before
   the year 2040 *)
Theorem C37_new_headers_round_trip : forall now id kind timeScale,
  now < 4294967296 -> id < 4294967296 -> timeScale < 4294967296 ->
  round_trip mvhd_codec mvhd_layout (new_mvhd now) /\
  round_trip tkhd_codec tkhd_layout (new_tkhd now id kind) /\
  round_trip mdhd_codec mdhd_layout (new_mdhd now timeScale).
Proof.
  intros now id kind ts Hn Hi Ht. split; [|split].
  - apply C37_mvhd_round_trip. unfold new_mvhd, mvhd_layout, time_ok, full_ok. cbn [l_ok mv_ver mv_flags mv_created mv_modified mv_timeScale mv_duration mv_rate mv_volume mv_reserved mv_matA mv_matB mv_matU mv_matC mv_matD mv_matV mv_matX mv_matY mv_matW mv_previewTime mv_previewDuration mv_posterTime mv_selectionTime mv_selectionDuration mv_currentTime mv_nextTrackID].
    change (0 =? 1) with false. cbv iota. repeat split; try assumption; reflexivity.
  - apply C37_tkhd_round_trip. unfold new_tkhd, tkhd_layout, time_ok, full_ok. cbn [l_ok tk_ver tk_flags tk_created tk_modified tk_trackID tk_reserved1 tk_duration tk_reserved2 tk_layer tk_altGroup tk_volume tk_reserved3 tk_matA tk_matB tk_matU tk_matC tk_matD tk_matV tk_matX tk_matY tk_matW tk_width tk_height].
    change (0 =? 1) with false. cbv iota. destruct (kind =? 1), (kind =? 2); repeat split; try assumption; reflexivity.
  - apply C37_mdhd_round_trip. unfold new_mdhd, mdhd_layout, time_ok, full_ok. cbn [l_ok md_ver md_flags md_created md_modified md_timeScale md_duration md_lang md_quality].
    change (0 =? 1) with false. cbv iota. repeat split; try assumption; reflexivity.
Qed.
Print Assumptions C37_new_headers_round_trip.

(* the announced 64 bit form is never chosen for new headers: from 2040 on
   the creation time read back is not the one stored *)
Lemma be32_mod v : be32 v = be32 (v mod 4294967296).
Proof. unfold be32. f_equal; [lia|]. f_equal; [lia|]. f_equal; [lia|]. f_equal. lia. Qed.
Theorem C37_late_times_refuted : forall now, 4294967296 <= now < 18446744073709551616 ->
  exists bs, write_box mvhd_codec (new_mvhd now) = Ok bs /\
  forall dflt rest, exists g, read_box mvhd_codec dflt (bs ++ rest) = Ok ((ALeaf mvhd g, len bs), rest) /\
    mv_created g = now mod 4294967296 /\ mv_created g <> mv_created (new_mvhd now).
Proof.
  intros now H.
  assert (E : write_box mvhd_codec (new_mvhd now) = write_box mvhd_codec (new_mvhd (now mod 4294967296))).
  { unfold write_box. cbn [awrite mvhd_codec c_size c_w c_ty]. unfold mvhd_size, mvhd_write, new_mvhd.
    cbn [mv_ver mv_flags mv_created mv_modified]. change (0 =? 1) with false. cbv iota. unfold put32.
    rewrite (be32_mod now). reflexivity. }
  assert (R : round_trip mvhd_codec mvhd_layout (new_mvhd (now mod 4294967296))).
  { apply (C37_new_headers_round_trip (now mod 4294967296) 0 0 0); lia. }
  destruct R as (S & W & R & _). eexists. split; [rewrite E; exact W|].
  intros dflt rest. exists (new_mvhd (now mod 4294967296)). split; [apply R|].
  cbn [new_mvhd mv_created]. split; [reflexivity|]. lia.
Qed.
Print Assumptions C37_late_times_refuted.


(* times beyond 32 bits do survive in the 64 bit form *)
Example C37_version_1_ex :
  let a := mkMdhd 1 0 8000000000 8000000001 90000 12345678901 5575 0 in
  l_ok mdhd_layout a /\
  (do bs <- write_box mdhd_codec a; do r <- read_box mdhd_codec (new_mdhd 0 0) bs; Ok (fst (fst r))) = Ok (ALeaf mdhd a).
Proof. split; [repeat split; reflexivity|vm_compute; reflexivity]. Qed.
Example C37_new_headers_ex : 3913056000 < 4294967296 /\
  (do bs <- write_box tkhd_codec (new_tkhd 3913056000 7 1); Ok (len bs)) = Ok 92.
Proof. split; vm_compute; reflexivity. Qed.

(* C45: the other boxes with a fixed list of fields *)
Theorem C45_smhd_round_trip : forall a, l_ok smhd_layout a -> round_trip smhd_codec smhd_layout a.
Proof. intros a H. apply exact_round_trip; [apply smhd_exact|exact H|apply smhd_short, H]. Qed.
Print Assumptions C45_smhd_round_trip.
Theorem C45_hmhd_round_trip : forall a, l_ok hmhd_layout a -> round_trip hmhd_codec hmhd_layout a.
Proof. intros a H. apply exact_round_trip; [apply hmhd_exact|exact H|apply hmhd_short, H]. Qed.
Print Assumptions C45_hmhd_round_trip.
Theorem C45_nmhd_round_trip : forall a, l_ok nmhd_layout a -> round_trip nmhd_codec nmhd_layout a.
Proof. intros a H. apply exact_round_trip; [apply nmhd_exact|exact H|apply nmhd_short, H]. Qed.
Print Assumptions C45_nmhd_round_trip.
Theorem C45_odhd_round_trip : forall a, l_ok odhd_layout a -> round_trip odhd_codec odhd_layout a.
Proof. intros a H. apply exact_round_trip; [apply odhd_exact|exact H|apply odhd_short, H]. Qed.
Print Assumptions C45_odhd_round_trip.
Theorem C45_crhd_round_trip : forall a, l_ok crhd_layout a -> round_trip crhd_codec crhd_layout a.
Proof. intros a H. apply exact_round_trip; [apply crhd_exact|exact H|apply crhd_short, H]. Qed.
Print Assumptions C45_crhd_round_trip.
Theorem C45_sdhd_round_trip : forall a, l_ok sdhd_layout a -> round_trip sdhd_codec sdhd_layout a.
Proof. intros a H. apply exact_round_trip; [apply sdhd_exact|exact H|apply sdhd_short, H]. Qed.
Print Assumptions C45_sdhd_round_trip.
Theorem C45_vvhd_round_trip : forall a, l_ok vvhd_layout a -> round_trip vvhd_codec vvhd_layout a.
Proof. intros a H. apply exact_round_trip; [apply vvhd_exact|exact H|apply vvhd_short, H]. Qed.
Print Assumptions C45_vvhd_round_trip.
Theorem C45_mfhd_round_trip : forall a, l_ok mfhd_layout a -> round_trip mfhd_codec mfhd_layout a.
Proof. intros a H. apply exact_round_trip; [apply mfhd_exact|exact H|apply mfhd_short, H]. Qed.
Print Assumptions C45_mfhd_round_trip.
Theorem C45_trex_round_trip : forall a, l_ok trex_layout a -> round_trip trex_codec trex_layout a.
Proof. intros a H. apply exact_round_trip; [apply trex_exact|exact H|apply trex_short, H]. Qed.
Print Assumptions C45_trex_round_trip.
Theorem C45_pitm_round_trip : forall a, l_ok pitm_layout a -> round_trip pitm_codec pitm_layout a.
Proof. intros a H. apply exact_round_trip; [apply pitm_exact|exact H|apply pitm_short, H]. Qed.
Print Assumptions C45_pitm_round_trip.
Theorem C45_mere_round_trip : forall a, l_ok mere_layout a -> round_trip mere_codec mere_layout a.
Proof. intros a H. apply exact_round_trip; [apply mere_exact|exact H|apply mere_short, H]. Qed.
Print Assumptions C45_mere_round_trip.
Theorem C45_prft_round_trip : forall a, l_ok prft_layout a -> round_trip prft_codec prft_layout a.
Proof. intros a H. apply exact_round_trip; [apply prft_exact|exact H|apply prft_short, H]. Qed.
Print Assumptions C45_prft_round_trip.
Theorem C45_frma_round_trip : forall a, l_ok frma_layout a -> round_trip frma_codec frma_layout a.
Proof. intros a H. apply exact_round_trip; [apply frma_exact|exact H|apply frma_short, H]. Qed.
Print Assumptions C45_frma_round_trip.
Theorem C45_pcmC_round_trip : forall a, l_ok pcmC_layout a -> round_trip pcmC_codec pcmC_layout a.
Proof. intros a H. apply exact_round_trip; [apply pcmC_exact|exact H|apply pcmC_short, H]. Qed.
Print Assumptions C45_pcmC_round_trip.
Theorem C45_vmhd_round_trip : forall a, l_ok vmhd_layout a -> round_trip vmhd_codec vmhd_layout a.
Proof. intros a H. apply exact_round_trip; [apply vmhd_exact|exact H|apply vmhd_short, H]. Qed.
Print Assumptions C45_vmhd_round_trip.
Theorem C45_tfdt_round_trip : forall a, l_ok tfdt_layout a -> round_trip tfdt_codec tfdt_layout a.
Proof. intros a H. apply exact_round_trip; [apply tfdt_exact|exact H|apply tfdt_short, H]. Qed.
Print Assumptions C45_tfdt_round_trip.
Theorem C45_btrt_round_trip : forall a, l_ok btrt_layout a -> round_trip btrt_codec btrt_layout a.
Proof. intros a H. apply exact_round_trip; [apply btrt_exact|exact H|apply btrt_short, H]. Qed.
Print Assumptions C45_btrt_round_trip.

(* C45: on any input at all the parsers of these boxes return, without undefined
   behaviour and without reading past what they consume *)
Theorem C45_fixed_boxes_robust :
  robust mvhd_codec /\
  robust tkhd_codec /\ robust mdhd_codec /\ robust smhd_codec /\ robust hmhd_codec /\ robust nmhd_codec /\ robust odhd_codec /\ robust crhd_codec /\ robust sdhd_codec /\ robust vvhd_codec /\ robust mfhd_codec /\
  robust trex_codec /\ robust pitm_codec /\ robust mere_codec /\ robust prft_codec /\ robust frma_codec /\ robust pcmC_codec /\ robust vmhd_codec /\
  robust tfdt_codec /\ robust btrt_codec.
Proof.
  repeat apply conj; (first [apply mvhd_robust | apply tkhd_robust | apply mdhd_robust | apply smhd_robust | apply hmhd_robust | apply nmhd_robust | apply odhd_robust | apply crhd_robust | apply sdhd_robust | apply vvhd_robust | apply mfhd_robust | apply trex_robust | apply pitm_robust | apply mere_robust | apply prft_robust | apply frma_robust | apply pcmC_robust | apply vmhd_robust | apply tfdt_robust | apply btrt_robust]).
Qed.
Print Assumptions C45_fixed_boxes_robust.

Example C45_smhd_ex : l_ok smhd_layout (mkSmhd 0 5 60000 60000).
Proof. repeat split; try reflexivity; try (left; reflexivity); try (right; reflexivity). Qed.
Example C45_hmhd_ex : l_ok hmhd_layout (mkHmhd 0 5 60000 60000 4000000000 4000000000 4000000000).
Proof. repeat split; try reflexivity; try (left; reflexivity); try (right; reflexivity). Qed.
Example C45_nmhd_ex : l_ok nmhd_layout (mkNmhd 0 5).
Proof. repeat split; try reflexivity; try (left; reflexivity); try (right; reflexivity). Qed.
Example C45_odhd_ex : l_ok odhd_layout (mkOdhd 0 5).
Proof. repeat split; try reflexivity; try (left; reflexivity); try (right; reflexivity). Qed.
Example C45_crhd_ex : l_ok crhd_layout (mkCrhd 0 5).
Proof. repeat split; try reflexivity; try (left; reflexivity); try (right; reflexivity). Qed.
Example C45_sdhd_ex : l_ok sdhd_layout (mkSdhd 0 5).
Proof. repeat split; try reflexivity; try (left; reflexivity); try (right; reflexivity). Qed.
Example C45_vvhd_ex : l_ok vvhd_layout (mkVvhd 0 5).
Proof. repeat split; try reflexivity; try (left; reflexivity); try (right; reflexivity). Qed.
Example C45_mfhd_ex : l_ok mfhd_layout (mkMfhd 0 5 4000000000).
Proof. repeat split; try reflexivity; try (left; reflexivity); try (right; reflexivity). Qed.
Example C45_trex_ex : l_ok trex_layout (mkTrex 0 5 4000000000 4000000000 4000000000 4000000000 4000000000).
Proof. repeat split; try reflexivity; try (left; reflexivity); try (right; reflexivity). Qed.
Example C45_pitm_ex : l_ok pitm_layout (mkPitm 0 5 60000).
Proof. repeat split; try reflexivity; try (left; reflexivity); try (right; reflexivity). Qed.
Example C45_mere_ex : l_ok mere_layout (mkMere 0 5 4000000000 4000000000 200).
Proof. repeat split; try reflexivity; try (left; reflexivity); try (right; reflexivity). Qed.
Example C45_prft_ex : l_ok prft_layout (mkPrft 0 5 4000000000 9000000000000000000 4000000000).
Proof. repeat split; try reflexivity; try (left; reflexivity); try (right; reflexivity). Qed.
Example C45_frma_ex : l_ok frma_layout (mkFrma 4000000000).
Proof. repeat split; try reflexivity; try (left; reflexivity); try (right; reflexivity). Qed.
Example C45_pcmC_ex : l_ok pcmC_layout (mkPcmC 0 5 200 200).
Proof. repeat split; try reflexivity; try (left; reflexivity); try (right; reflexivity). Qed.
Example C45_vmhd_ex : l_ok vmhd_layout (mkVmhd 0 1 64 10 20 30).
Proof. repeat split; try reflexivity; try (left; reflexivity); try (right; reflexivity). Qed.
Example C45_tfdt_ex : l_ok tfdt_layout (mkTfdt 1 0 90000000000).
Proof. repeat split; try reflexivity; try (left; reflexivity); try (right; reflexivity). Qed.
Example C45_btrt_ex : l_ok btrt_layout (mkBtrt true 0 128000 96000).
Proof. repeat split; try reflexivity; try (left; reflexivity); try (right; reflexivity). Qed.

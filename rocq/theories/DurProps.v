(* DurProps.v -- C78: how long media, tracks and movies last. *)
From Verif Require Import Base Codec AtomModel BoxModel HeaderModel SttsSpec SttsModel SttsProofs EditModel EditSpec EditProps SetModel SetSpec DurModel DurSpec.

(* ------------------------------------------------------------------ *)
(* Lemmas                                                              *)

Lemma total_is m t : dm_stbl m = Some (Some t) -> media_length m < 4294967296 -> stts_total t = media_length m.
Proof.
  unfold media_length. intros -> H. unfold stts_total. rewrite stts_total_ok by lia. lia.
Qed.
Lemma dput_same l : forall i k, nth_error l i = Some k -> dput l i k = l.
Proof. induction l as [|a l IH]; intros [|i] k H; cbn in *; try discriminate; [congruence|]. rewrite (IH _ _ H). reflexivity. Qed.
Lemma dput_length l : forall i k, length (dput l i k) = length l.
Proof. induction l as [|a l IH]; intros [|i] k; cbn; try reflexivity. rewrite IH. reflexivity. Qed.
Lemma dput_at l : forall i k, (i < length l)%nat -> nth_error (dput l i k) i = Some k.
Proof. induction l as [|a l IH]; intros [|i] k H; cbn in *; try lia; [reflexivity|]. apply IH. lia. Qed.
Lemma dput_else l : forall i j k, i <> j -> nth_error (dput l i k) j = nth_error l j.
Proof. induction l as [|a l IH]; intros [|i] [|j] k H; cbn; try reflexivity; try lia. apply IH. lia. Qed.
Lemma nth_ext l : forall l' : list dtrk, length l = length l' -> (forall i, (i < length l)%nat -> nth_error l i = nth_error l' i) -> l = l'.
Proof.
  induction l as [|a l IH]; intros [|b l'] H E; cbn in *; try discriminate; [reflexivity|].
  f_equal; [specialize (E 0%nat ltac:(lia)); cbn in E; congruence|]. apply IH; [lia|]. intros i Hi. exact (E (S i) ltac:(lia)).
Qed.

(* the lengths do not depend on what the headers say about them *)
Lemma length_lasting ts ts' k : track_length ts (lasting ts' k) = track_length ts k.
Proof. reflexivity. Qed.
Lemma media_lasting_media k : track_media (lasting_media k) = track_media k.
Proof. destruct k as [t e [m|]]; reflexivity. Qed.
Lemma scale_lasting_media k : media_scale (lasting_media k) = media_scale k.
Proof. destruct k as [t e [[[h|] b]|]]; reflexivity. Qed.
Lemma length_lasting_media ts k : track_length ts (lasting_media k) = track_length ts k.
Proof. unfold track_length. rewrite media_lasting_media, scale_lasting_media. reflexivity. Qed.
Lemma lasting_twice ts k : lasting ts (lasting ts k) = lasting ts k.
Proof. destruct k as [[h|] e m]; reflexivity. Qed.
Lemma lasting_media_twice k : lasting_media (lasting_media k) = lasting_media k.
Proof. destruct k as [t e [[[h|] b]|]]; reflexivity. Qed.
Lemma settled_lasting_media k : settled (lasting_media k).
Proof. exact (lasting_media_twice k). Qed.
Lemma settled_lasting ts k : settled k -> settled (lasting ts k).
Proof.
  unfold settled. destruct k as [t e m]. unfold lasting_media, lasting. cbn [dk_tkhd dk_edts dk_med]. intros H.
  f_equal. congruence.
Qed.
Lemma whole_lasting_media ts k : whole ts k -> whole ts (lasting_media k).
Proof.
  intros (W1 & (m & h & t & W2 & W3 & W4) & W5 & W6 & W7 & W8 & W9 & W10).
  unfold whole. rewrite media_lasting_media, scale_lasting_media, length_lasting_media.
  split; [exact W1|]. split; [|repeat split; assumption].
  unfold lasting_media. cbn [dk_med]. rewrite W2. eexists _, _, t. split; [reflexivity|]. cbn [dm_mdhd dm_stbl]. rewrite W3. split; [reflexivity|exact W4].
Qed.
Lemma whole_lasting ts k : whole ts k -> whole ts (lasting ts k).
Proof.
  intros (W1 & W2 & W). split; [|split; [exact W2|exact W]].
  unfold lasting. cbn [dk_tkhd]. destruct (dk_tkhd k); [discriminate|congruence].
Qed.
Lemma settled_duration k m h : settled k -> dk_med k = Some m -> dm_mdhd m = Some h -> md_duration h = track_media k.
Proof.
  unfold settled, lasting_media, track_media. intros S E1 E2. rewrite E1 in *. rewrite E2 in S.
  assert (Sm : Some (mkDmed (Some (mdhd_set_duration (media_length m) h)) (dm_stbl m)) = dk_med k) by (rewrite <- S; reflexivity).
  rewrite E1 in Sm. injection Sm as Sm. rewrite <- Sm in E2 at 1. cbn [dm_mdhd] in E2. injection E2 as E2. rewrite <- E2 at 1. reflexivity.
Qed.

Lemma calc_media_ok ts k : whole ts k -> exists m m', dk_med k = Some m /\ calc_media m = Ok m' /\
  get_media_duration m = Ok (track_media k, m') /\ mkDtrk (dk_tkhd k) (dk_edts k) (Some m') = lasting_media k.
Proof.
  intros (W1 & (m & h & t & W2 & W3 & W4) & W5 & W6 & W7 & W8 & W). unfold track_media in *. rewrite W2 in *.
  exists m. eexists. split; [reflexivity|]. unfold get_media_duration, calc_media. rewrite W3, W4. split; [reflexivity|].
  rewrite (total_is m t W4 W8). split; [reflexivity|]. unfold lasting_media. rewrite W2, W3. rewrite W4. reflexivity.
Qed.
Lemma calc_track_ok ts k : whole ts k -> settled k -> calc_track ts k = Ok (lasting ts k) /\ stored_duration (lasting ts k) = Ok (track_length ts k).
Proof.
  intros W S. pose proof W as (W1 & (m & h & t & W2 & W3 & W4) & W5 & W6 & W7 & W8 & W9 & W10).
  pose proof (settled_duration k m h S W2 W3) as D.
  unfold calc_track, stored_duration, lasting. destruct (dk_tkhd k) as [th|] eqn:Et; [|congruence]. rewrite W2, W3. cbn [with_header tk_duration dk_tkhd tkhd_set_duration].
  assert (T : track_duration (match dk_edts k with Some l => l | None => None end) (md_duration h) (md_timeScale h) ts = Ok (track_length ts k)).
  { unfold track_duration. rewrite D. unfold track_length in *. 
    assert (Es : media_scale k = md_timeScale h) by (unfold media_scale; rewrite W2, W3; reflexivity).
    rewrite Es in *.
    assert (E : match (match dk_edts k with Some l => l | None => None end) with Some s => edit_duration (el_edits s) | None => 0 end = edit_length k).
    { unfold edit_length in *. destruct (dk_edts k) as [[e|]|]; [|reflexivity|reflexivity]. unfold edit_duration. rewrite edit_duration_sum by lia. lia. }
    rewrite E. destruct (N.eqb_spec (edit_length k) 0) as [Z|Z]; [|reflexivity].
    destruct (N.eqb_spec (md_timeScale h) 0); [lia|]. f_equal.
    rewrite (w32_small (track_media k)) by exact W8.
    assert (L : track_media k * ts < 18446744073709551616).
    { change 18446744073709551616 with (4294967296 * 4294967296). apply N.mul_lt_mono; assumption. }
    unfold w64. rewrite (N.mod_small _ _ L). apply w32_small. exact W10. }
  split.
  - destruct (dk_edts k) as [[e|]|]; [|congruence|]; rewrite T; cbn [bind]; reflexivity.
  - rewrite w32_small by exact W10. reflexivity.
Qed.
Lemma calc_tracks_ok ts l : forall best, Forall (whole ts) l -> Forall settled l ->
  calc_tracks ts best l = (Ok (N.max best (longest (map (track_length ts) l))), map (lasting ts) l).
Proof.
  induction l as [|k l IH]; intros best W S; cbn [calc_tracks map longest].
  - rewrite N.max_0_r. reflexivity.
  - inversion W; inversion S; subst. destruct (calc_track_ok ts k) as [E1 E2]; [assumption|assumption|]. rewrite E1, E2.
    rewrite IH by assumption. f_equal. f_equal. rewrite N.max_assoc. f_equal. destruct (N.ltb_spec best (track_length ts k)); lia.
Qed.

(* ------------------------------------------------------------------ *)

(* C78: the duration of a media is that of its samples together; it is put
   into the media header and nothing else changes *)
Theorem C78_media : forall v i k, whole_movie v -> nth_error (dv_trks v) i = Some k ->
  ask v (AskMedia i) = (Ok (track_media k), put_track v i (lasting_media k)) /\
  end_edits v i = (Ok tt, put_track v i (lasting_media k)).
Proof.
  intros v i k [_ W] E. rewrite Forall_forall in W. specialize (W k (nth_error_In _ _ E)).
  destruct (calc_media_ok _ k W) as (m & m' & M1 & M2 & M3 & M4). unfold ask, end_edits. rewrite E, M1, M3, M2. unfold put_media. rewrite M4. split; reflexivity.
Qed.
Print Assumptions C78_media.
(* C78: the duration of a track is that of its edits together, or without any
   that of its media in the time scale of the movie; it is put into the header
   of the track, and that of the media into the media header *)
Theorem C78_track : forall v i k, whole_movie v -> nth_error (dv_trks v) i = Some k ->
  ask v (AskTrack i) = (Ok (track_length (scale_of v) k), put_track v i (lasting (scale_of v) (lasting_media k))).
Proof.
  intros v i k [Wv W] E. rewrite Forall_forall in W. specialize (W k (nth_error_In _ _ E)).
  destruct (calc_media_ok _ k W) as (m & m' & M1 & M2 & M3 & M4). unfold ask. rewrite E, M1. unfold scale_of in *.
  destruct (dv_mvhd v) as [h|] eqn:Eh; [|congruence]. cbn [get_movie_scale with_header]. rewrite M3. cbv zeta. rewrite M4.
  destruct (calc_track_ok _ _ (whole_lasting_media _ _ W) (settled_lasting_media k)) as [T1 T2]. rewrite T1, T2, length_lasting_media. reflexivity.
Qed.
Print Assumptions C78_track.
(* C78: a movie lasts as long as its longest track, provided the media headers
   are up to date. Saving puts the same durations into the headers. *)
Theorem C78_movie : forall v, whole_movie v -> Forall settled (dv_trks v) ->
  ask v AskMovie = (Ok (movie_length v), lasting_movie v) /\ calc_movie v = (Ok tt, lasting_movie v).
Proof.
  intros v [Wv W] S. unfold ask, calc_movie, movie_length, lasting_movie, movie_length, scale_of in *.
  destruct (dv_mvhd v) as [h|] eqn:Eh; [|congruence]. rewrite calc_tracks_ok by assumption. rewrite N.max_0_l. split; reflexivity.
Qed.
Print Assumptions C78_movie.
Theorem C78_longest : forall l, Forall (fun d => d <= longest l) l /\ (l <> [] -> In (longest l) l).
Proof.
  induction l as [|a l [IH1 IH2]]; [split; [constructor|congruence]|]. split.
  - constructor; [cbn; lia|]. eapply Forall_impl; [|exact IH1]. cbn. intros. lia.
  - intros _. cbn [longest]. destruct (N.max_spec a (longest l)) as [[L ->]|[L ->]]; [|left; reflexivity].
    right. apply IH2. intros ->. cbn in L. lia.
Qed.
Print Assumptions C78_longest.

(* ending the edits of all media brings their headers up to date *)
Lemma end_all_length v n : length (dv_trks (end_all v n)) = length (dv_trks v).
Proof.
  induction n as [|n IH]; [reflexivity|]. cbn [end_all]. rewrite <- IH. unfold end_edits.
  destruct (nth_error (dv_trks (end_all v n)) n); [|reflexivity]. destruct (dk_med d); [|reflexivity]. destruct (calc_media d0); try reflexivity.
  cbn. apply dput_length.
Qed.
Lemma end_all_some v : whole_movie v -> forall n, (n <= length (dv_trks v))%nat ->
  dv_mvhd (end_all v n) = dv_mvhd v /\
  forall i, nth_error (dv_trks (end_all v n)) i = if (i <? n)%nat then option_map lasting_media (nth_error (dv_trks v) i) else nth_error (dv_trks v) i.
Proof.
  intros [Wv W] n. induction n as [|n IH]; intros Hn; [split; reflexivity|]. destruct (IH ltac:(lia)) as [I1 I2]. clear IH.
  cbn [end_all]. unfold end_edits. pose proof (I2 n) as In. rewrite Nat.ltb_irrefl in In. rewrite In.
  destruct (nth_error (dv_trks v) n) as [k|] eqn:Ek; [|apply nth_error_None in Ek; lia].
  rewrite Forall_forall in W. specialize (W k (nth_error_In _ _ Ek)). destruct (calc_media_ok _ k W) as (m & m' & M1 & M2 & M3 & M4).
  rewrite M1, M2. unfold put_media. rewrite M4. cbn [snd put_track dv_mvhd dv_trks]. split; [exact I1|]. intros i.
  destruct (Nat.eq_dec i n) as [->|D].
  - rewrite dput_at by (rewrite end_all_length; lia). rewrite (proj2 (Nat.ltb_lt _ _)) by lia. rewrite Ek. reflexivity.
  - rewrite dput_else by congruence. rewrite I2. destruct (Nat.ltb_spec i n), (Nat.ltb_spec i (S n)); try lia; reflexivity.
Qed.
Theorem C78_end_edits : forall v, whole_movie v ->
  end_all v (length (dv_trks v)) = mkDmov (dv_mvhd v) (map lasting_media (dv_trks v)) /\
  whole_movie (end_all v (length (dv_trks v))) /\ Forall settled (dv_trks (end_all v (length (dv_trks v)))) /\
  movie_length (end_all v (length (dv_trks v))) = movie_length v.
Proof.
  intros v W. destruct (end_all_some v W (length (dv_trks v)) (le_n _)) as [E1 E2].
  assert (E : end_all v (length (dv_trks v)) = mkDmov (dv_mvhd v) (map lasting_media (dv_trks v))).
  { pose proof (end_all_length v (length (dv_trks v))) as L. destruct (end_all v (length (dv_trks v))) as [h l]. cbn [dv_mvhd dv_trks] in *. f_equal; [exact E1|].
    apply nth_ext; [rewrite map_length; exact L|]. intros i Hi. rewrite E2, nth_error_map. rewrite (proj2 (Nat.ltb_lt _ _)) by lia. reflexivity. }
  split; [exact E|]. rewrite E. destruct W as [Wv W]. split; [|split].
  - split; [exact Wv|]. cbn [dv_trks]. apply Forall_map. eapply Forall_impl; [|exact W]. intros k. apply whole_lasting_media.
  - cbn [dv_trks]. apply Forall_map. apply Forall_forall. intros k _. apply settled_lasting_media.
  - unfold movie_length, scale_of. cbn [dv_mvhd dv_trks]. rewrite map_map. f_equal. apply map_ext. intros k. apply length_lasting_media.
Qed.
Print Assumptions C78_end_edits.

(* C78: from then on any questions in any order get the right answers, which
   stay the same, and change nothing but durations in headers *)
Lemma lasting_put v i k : nth_error (dv_trks v) i = Some k -> map (lasting (scale_of v)) (dput (dv_trks v) i (lasting (scale_of v) k)) = map (lasting (scale_of v)) (dv_trks v).
Proof.
  intros E. apply nth_ext; [rewrite !map_length; apply dput_length|]. intros j Hj. rewrite !nth_error_map.
  destruct (Nat.eq_dec i j) as [->|D].
  - rewrite dput_at by (apply nth_error_Some; congruence). rewrite E. cbn [option_map]. rewrite lasting_twice. reflexivity.
  - rewrite dput_else by exact D. reflexivity.
Qed.
Lemma Forall_put (P : dtrk -> Prop) l i k : Forall P l -> P k -> Forall P (dput l i k).
Proof. revert i. induction l as [|a l IH]; intros [|i] F K; inversion F; subst; cbn; constructor; try assumption. apply IH; assumption. Qed.
Lemma right_lasting v q : right_answer (lasting_movie v) q = right_answer v q.
Proof.
  assert (S : scale_of (lasting_movie v) = scale_of v) by (unfold scale_of, lasting_movie; destruct (dv_mvhd v); reflexivity).
  destruct q as [i|i|]; cbn [right_answer].
  - unfold lasting_movie. cbn [dv_trks]. rewrite nth_error_map. destruct (nth_error (dv_trks v) i); reflexivity.
  - rewrite S. unfold lasting_movie. cbn [dv_trks]. rewrite nth_error_map. destruct (nth_error (dv_trks v) i); reflexivity.
  - unfold movie_length. rewrite S. unfold lasting_movie. cbn [dv_trks]. rewrite map_map. reflexivity.
Qed.
Lemma ask_step v q : whole_movie v -> Forall settled (dv_trks v) ->
  fst (ask v q) = right_answer v q /\ whole_movie (snd (ask v q)) /\ Forall settled (dv_trks (snd (ask v q))) /\
  lasting_movie (snd (ask v q)) = lasting_movie v.
Proof.
  intros W S. pose proof W as [Wv Wl]. destruct q as [i|i|].
  - cbn [right_answer]. destruct (nth_error (dv_trks v) i) as [k|] eqn:E.
    + rewrite (proj1 (C78_media v i k W E)). cbn [fst snd]. rewrite Forall_forall in S. rewrite (S k (nth_error_In _ _ E)).
      unfold put_track. rewrite dput_same by exact E. replace (mkDmov (dv_mvhd v) (dv_trks v)) with v by (destruct v; reflexivity).
      split; [reflexivity|]. split; [exact W|]. split; [apply Forall_forall; exact S|reflexivity].
    + cbn [ask]. rewrite E. cbn [fst snd]. split; [reflexivity|]. split; [exact W|]. split; [exact S|reflexivity].
  - cbn [right_answer]. destruct (nth_error (dv_trks v) i) as [k|] eqn:E.
    + rewrite (C78_track v i k W E). cbn [fst snd]. split; [reflexivity|].
      assert (Sk : settled k) by (rewrite Forall_forall in S; exact (S k (nth_error_In _ _ E))). rewrite Sk.
      assert (Wk : whole (scale_of v) k) by (rewrite Forall_forall in Wl; exact (Wl k (nth_error_In _ _ E))).
      split; [|split].
      * split; [exact Wv|]. apply Forall_put; [exact Wl|]. apply whole_lasting. exact Wk.
      * apply Forall_put; [exact S|]. apply settled_lasting. exact Sk.
      * assert (L : map (lasting (scale_of v)) (dput (dv_trks v) i (lasting (scale_of v) k)) = map (lasting (scale_of v)) (dv_trks v)) by exact (lasting_put v i k E).
        assert (M : movie_length (put_track v i (lasting (scale_of v) k)) = movie_length v).
        { unfold movie_length. change (scale_of (put_track v i (lasting (scale_of v) k))) with (scale_of v). cbn [put_track dv_trks].
          transitivity (longest (map (track_length (scale_of v)) (map (lasting (scale_of v)) (dput (dv_trks v) i (lasting (scale_of v) k))))); [rewrite map_map; reflexivity|].
          rewrite L, map_map. reflexivity. }
        unfold lasting_movie. rewrite M. change (scale_of (put_track v i (lasting (scale_of v) k))) with (scale_of v). cbn [put_track dv_trks dv_mvhd]. rewrite L. reflexivity.
    + cbn [ask]. rewrite E. cbn [fst snd]. split; [reflexivity|]. split; [exact W|]. split; [exact S|reflexivity].
  - rewrite (proj1 (C78_movie v W S)). cbn [fst snd right_answer]. split; [reflexivity|].
    assert (Sc : scale_of (lasting_movie v) = scale_of v) by (unfold scale_of, lasting_movie; destruct (dv_mvhd v); reflexivity).
    split; [|split].
    + split; [unfold lasting_movie; cbn [dv_mvhd]; destruct (dv_mvhd v); [discriminate|congruence]|]. rewrite Sc. unfold lasting_movie. cbn [dv_trks]. apply Forall_map.
      eapply Forall_impl; [|exact Wl]. intros k. apply whole_lasting.
    + unfold lasting_movie. cbn [dv_trks]. apply Forall_map. eapply Forall_impl; [|exact S]. intros k. apply settled_lasting.
    + assert (M : movie_length (lasting_movie v) = movie_length v).
      { pose proof (right_lasting v AskMovie) as R. cbn [right_answer] in R. congruence. }
      unfold lasting_movie at 1. rewrite M, Sc. unfold lasting_movie. cbn [dv_mvhd dv_trks]. rewrite map_map.
      f_equal; [destruct (dv_mvhd v); reflexivity|]. apply map_ext. intros k. apply lasting_twice.
Qed.
Theorem C78_questions : forall qs v, whole_movie v -> Forall settled (dv_trks v) ->
  fst (asks v qs) = map (right_answer v) qs /\ lasting_movie (snd (asks v qs)) = lasting_movie v.
Proof.
  induction qs as [|q qs IH]; intros v W S; [split; reflexivity|]. cbn [asks map].
  destruct (ask_step v q W S) as (E1 & W1 & S1 & L1). destruct (ask v q) as [a v1]. cbn [fst snd] in *.
  destruct (IH v1 W1 S1) as [E2 L2]. destruct (asks v1 qs) as [r v2]. cbn [fst snd] in *. split; [|congruence].
  f_equal; [exact E1|]. rewrite E2. apply map_ext. intros q'. rewrite <- (right_lasting v1), <- (right_lasting v), L1. reflexivity.
Qed.
Print Assumptions C78_questions.

(* ------------------------------------------------------------------ *)
(* Exceptions, and an example                                          *)

Definition sample_track (es : list (N * N)) (edits : option (list edit)) (scale : N) : dtrk :=
  mkDtrk (Some (new_tkhd 0 1 1)) (match edits with Some l => Some (Some (mkElst 0 0 l)) | None => None end)
    (Some (mkDmed (Some (new_mdhd 0 scale)) (Some (Some (mkStts 0 0 es false 0 0 0))))).
Definition sample_movie (l : list dtrk) : dmov := mkDmov (Some (new_mvhd 0)) l.
Example C78_example :
  let v := sample_movie [sample_track [(100, 3000); (1, 1500)] None 90000; sample_track [(50, 1024)] (Some [mkEdit 1200 (-1) 1 true; mkEdit 300 0 1 false]) 48000] in
  whole_movie v /\ map (right_answer (end_all v 2)) [AskMovie; AskTrack 0; AskTrack 1; AskMedia 0; AskMedia 1; AskMovie; AskTrack 2] =
    [Ok 2010; Ok 2010; Ok 1500; Ok 301500; Ok 51200; Ok 2010; Err MP4BadParamErr].
Proof.
  cbv zeta. split; [|vm_compute; reflexivity]. split; [discriminate|].
  apply Forall_cons; [|apply Forall_cons; [|apply Forall_nil]]; unfold whole; (split; [discriminate|]);
    (split; [eexists _, _, _; split; [reflexivity|split; reflexivity]|]); (split; [discriminate|]); vm_compute; repeat split.
Qed.
(* a movie asked (or saved) before the edits of its media have ended: its
   samples do not count *)
Theorem C78_movie_refuted : exists v, whole_movie v /\ fst (ask v AskMovie) = Ok 0 /\ movie_length v = 600 /\
  fst (asks v [AskMovie; AskTrack 0; AskMovie]) = [Ok 0; Ok 600; Ok 600].
Proof.
  exists (sample_movie [sample_track [(30, 3000)] None 90000]). split; [|split; [vm_compute; reflexivity|split; vm_compute; reflexivity]].
  split; [discriminate|]. apply Forall_cons; [|apply Forall_nil]. split; [discriminate|].
  split; [eexists _, _, _; split; [reflexivity|split; reflexivity]|]. split; [discriminate|]. vm_compute. repeat split.
Qed.
Print Assumptions C78_movie_refuted.
(* lengths beyond 32 bits are cut, although the headers have room for 64 *)
Theorem C78_long_media_refuted : exists k, media_scale k = 1000 /\ track_media k = 4294967300 /\
  fst (ask (sample_movie [k]) (AskMedia 0)) = Ok 4.
Proof.
  exists (sample_track [(1, 4294967295); (1, 5)] None 1000). split; [reflexivity|]. split; [vm_compute; reflexivity|vm_compute; reflexivity].
Qed.
Print Assumptions C78_long_media_refuted.
Theorem C78_long_track_refuted : exists k, track_media k = 8589934 /\ track_length 600 k = 5153960400 /\
  fst (ask (sample_movie [k]) (AskTrack 0)) = Ok 858993104.
Proof. exists (sample_track [(1, 8589934)] None 1). split; [vm_compute; reflexivity|]. split; vm_compute; reflexivity. Qed.
Print Assumptions C78_long_track_refuted.
(* a media without a header and an edit box without a list are followed
   through null pointers *)
Theorem C78_missing_refuted :
  fst (ask (sample_movie [mkDtrk (Some (new_tkhd 0 1 1)) None (Some (mkDmed None None))]) AskMovie) = UB /\
  fst (ask (sample_movie [mkDtrk (Some (new_tkhd 0 1 1)) (Some None) (dk_med (sample_track [] None 600))]) AskMovie) = UB.
Proof. split; reflexivity. Qed.
Print Assumptions C78_missing_refuted.

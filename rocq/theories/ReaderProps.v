(* ReaderProps.v -- C33, C34, C50, C51: track readers and packets. *)
From Verif Require Import Base Codec AtomModel BoxModel SttsSpec SttsModel SttsProofs SizeSpec SizeModel SizeProofs EditModel EditSpec EditProps
  MdatModel MediaSpec MediaModel MediaProofs MediaProps ReaderModel ReaderSpec ReaderProofs EditReadProofs.

Ltac evald x := let y := eval vm_compute in x in change x with y.

(* Any number of readers on any tracks (without edits), used in any order,
   for access units or for packets, while samples are added to and read from the
   same movie: each reader delivers the samples its track had when it was
   opened, in order, each once, at its own decoding time, and then reports the
   end; the k-th packet of a reader has number k modulo 32 and carries the
   access unit. *)
Theorem C34_readers_deliver_in_order :
  forall drefs junk k os, rops_ok drefs (repeat track0 k) [] os ->
  exists r, rrun (mkRm (repeat (media_new junk drefs) k, mdat_new) []) os = Ok r /\
    Forall2 agrees r (espec (repeat track0 k) [] os).
Proof.
  intros drefs junk k os H. apply (rrun_ok drefs os _ _ _); [|exact H].
  split; [apply winv_new|]. split; [rewrite stored_new; lia|constructor].
Qed.
Print Assumptions C34_readers_deliver_in_order.

(* two readers on one track, one on the other; one of them makes packets *)
Definition ex_rops : list rop :=
  [ROther (AAdd 0 exA (mkBat 2 [1; 2; 3; 4] [10; 20] [3; 1] (Some 1) (Some [0; 5]) (Some [1]) None));
   RNew 0; RNext 0;
   ROther (AAdd 1 exB (mkBat 2 [9; 9] [7] [2; 0] (Some 1) None None (Some [3; 4])));
   RNew 1; RPacket 1;
   ROther (AAdd 0 exC (mkBat 1 [5; 6] [30] [2] None (Some [4294967292]) (Some [1]) None));
   RNew 0; RNext 2; ROther (AGet 0 3); RNext 0; RNext 0; RPacket 2; RPacket 1; RPacket 2; RPacket 1; RPacket 2].
Example C34_case : rops_ok 1 (repeat track0 2) [] ex_rops /\
  rrun (mkRm (repeat (media_new 0 1) 2, mdat_new) []) ex_rops = Ok
   [OAnswer None; ONew; OUnit (mkAu (Some [1; 2; 3]) true true 0 0 10 248);
    OAnswer None; ONew; OPacket [13; 0; 0; 0; 0; 9; 9];
    OAnswer None; ONew; OUnit (mkAu (Some [1; 2; 3]) true true 0 0 10 248);
    OAnswer (Some (mkInfo [5; 6] 2 30 (-4) 30 true true 248));
    OUnit (mkAu (Some [4]) false true 15 10 20 248); OEnd;
    OPacket [11; 0; 0; 0; 10; 0; 0; 0; 15; 4]; OPacket [21; 0; 0; 0; 7];
    OPacket [23; 0; 0; 0; 30; 0; 0; 0; 26; 5; 6]; OEnd; OEnd].
Proof.
  split; [|vm_compute; reflexivity]. unfold ex_rops. cbn [rops_ok].
  assert (H1 : describes (mkBat 2 [1; 2; 3; 4] [10; 20] [3; 1] (Some 1) (Some [0; 5]) (Some [1]) None) exA).
  { unfold exA. constructor; cbn; try discriminate; try reflexivity; try (left; reflexivity);
      repeat (apply Forall_cons || apply Forall_nil); cbn; lia. }
  assert (H2 : describes (mkBat 2 [9; 9] [7] [2; 0] (Some 1) None None (Some [3; 4])) exB).
  { unfold exB. constructor; cbn; try discriminate; try reflexivity; try (left; reflexivity);
      try (right; exists 7; split; [reflexivity|repeat constructor]);
      repeat (apply Forall_cons || apply Forall_nil); cbn; (lia || reflexivity). }
  assert (H3 : describes (mkBat 1 [5; 6] [30] [2] None (Some [4294967292]) (Some [1]) None) exC).
  { unfold exC. constructor; cbn; try discriminate; try reflexivity; try (left; reflexivity);
      repeat (apply Forall_cons || apply Forall_nil); cbn; lia. }
  repeat match goal with
  | |- True => exact I
  | |- rop_ok _ _ _ _ /\ _ => split
  | |- let '(_, _) := espec1 ?a ?b ?c in _ => let x := eval vm_compute in (espec1 a b c) in change (espec1 a b c) with x; cbv iota beta; cbn [rops_ok]
  end; cbn [rop_ok].
  all: try (eexists; reflexivity).
  all: try (eexists; split; [reflexivity|]; match goal with |- match next_of ?a ?b with _ => _ end =>
        let x := eval vm_compute in (next_of a b) in change (next_of a b) with x; cbv iota beta end;
        try exact I; try (split; [|intros bs Hb; injection Hb as <-; vm_compute; reflexivity]); split; split; vm_compute; congruence).
  all: (split; [|vm_compute; reflexivity]); cbn [aop_ok].
  all: try (eexists; split; [reflexivity|vm_compute; split; congruence]).
  all: eexists; (split; [reflexivity|]); (split; [assumption|]); repeat split; vm_compute; try congruence; auto; try (left; reflexivity); try (right; congruence).
Qed.

(* after any such history: reading a whole track *)
Theorem C34_whole_track :
  forall drefs junk k os, aops_ok drefs (repeat track0 k) os ->
  exists ms d, movie_end (repeat (media_new junk drefs) k, mdat_new) os = Ok (ms, d) /\
  forall i t us mts dts, nth_error (tracks_end (repeat track0 k) os) i = Some t ->
    map Some us = map (fun n => unit_of t (N.of_nat n)) (seq 1 (length (t_smps t))) -> Forall unit_ok us ->
  exists m rd, nth_error ms i = Some m /\ reader_new None mts dts None m = Ok rd /\
    forall j, read_units (length us + j) rd m d = map Ok us ++ repeat (Err MP4EOF) j.
Proof.
  intros drefs junk k os H.
  destruct (run_ok drefs os _ _ (winv_new junk drefs k) ltac:(rewrite stored_new; lia) H) as (r & [ms d] & _ & _ & E & W & Hs).
  exists ms, d. split; [exact E|]. intros i t us mts dts Ht Hus Hok.
  destruct (winv_get _ _ _ _ _ _ W Ht) as (m & Em & I & D). exists m. eexists. split; [exact Em|]. split; [reflexivity|]. intros j.
  assert (Hd : len (md_data d) < 4294967296) by (destruct W as [_ W2]; cbn [snd] in W2; lia).
  assert (Hn : sz_count (me_stsz m) = len (t_smps t)) by (rewrite (proj1 (v_stsz _ _ _ I)); apply len_map). rewrite Hn.
  match goal with |- read_units _ ?r m d = _ => assert (A : at_cursor r (mkCursor i (len (t_smps t)) 0 0)) end.
  { constructor; cbn [r_edits r_segs r_seg r_media r_begin r_seq r_count r_num r_sl r_key c_limit c_done c_packets]; try reflexivity. lia. }
  revert A. match goal with |- at_cursor ?r _ -> _ => generalize r end. clear Hn Em D.
  assert (Hl : length us = length (t_smps t)) by (apply (f_equal (@length _)) in Hus; rewrite !map_length, seq_length in Hus; exact Hus).
  assert (G : forall us' n rd m, map Some us' = map (fun n => unit_of t (N.of_nat n)) (seq (S n) (length us')) -> Forall unit_ok us' ->
    (n + length us' = length (t_smps t))%nat -> minv m t (md_data d) ->
    at_cursor rd (mkCursor i (len (t_smps t)) (N.of_nat n) 0) -> read_units (length us' + j) rd m d = map Ok us' ++ repeat (Err MP4EOF) j).
  { induction us' as [|u us' IH]; intros n rd m' Hm Hu Hlen I' A.
    - cbn [length Nat.add map app]. clear Hm. induction j as [|j IHj]; [reflexivity|]. cbn [read_units repeat].
      rewrite (next_au_end rd _ m' d A) by (cbn [c_done c_limit length] in *; unfold len; lia). rewrite IHj. reflexivity.
    - cbn [map length seq] in Hm. injection Hm as Hu1 Hm. inversion Hu as [|? ? U1 U2]; subst.
      destruct (next_au_ok rd _ m' d t A I' Hd) with (a := u) as (rd' & m2 & E2 & _ & A' & I2 & _); cbn [c_limit c_done c_track c_packets] in *.
      + lia.
      + unfold len. cbn [length] in Hlen. lia.
      + replace (N.of_nat n + 1) with (N.of_nat (S n)) by lia. symmetry. exact Hu1.
      + exact U1.
      + cbn [length Nat.add read_units map app]. rewrite E2. rewrite (IH (S n) rd' m2 Hm U2); [reflexivity|cbn [length] in Hlen; lia|exact I2|].
        replace (N.of_nat (S n)) with (N.of_nat n + 1) by lia. exact A'. }
  intros rd A. apply (G us 0%nat rd m); auto. rewrite Hus, Hl. reflexivity.
Qed.
Print Assumptions C34_whole_track.
Example C34_whole_case :
  match movie_end (repeat (media_new 0 1) 2, mdat_new) ex_aops with
  | Ok (m :: _, d) =>
      let us := [mkAu (Some [1; 2; 3]) true true 0 0 10 248; mkAu (Some [4]) false true 15 10 20 248; mkAu (Some [5; 6]) true true 26 30 30 248] in
      map Some us = map (fun n => unit_of (mkTrack (exA ++ exC) true false true) (N.of_nat n)) (seq 1 3) /\ Forall unit_ok us /\
      (do rd <- reader_new None 600 10 None m; Ok (read_units 5 rd m d)) = Ok (map Ok us ++ [Err MP4EOF; Err MP4EOF])
  | _ => False end.
Proof.
  evald (movie_end (repeat (media_new 0 1) 2, mdat_new) ex_aops). cbv iota beta zeta. split; [vm_compute; reflexivity|]. split; [|vm_compute; reflexivity].
  repeat (apply Forall_cons || apply Forall_nil); repeat split; vm_compute; congruence.
Qed.

(* The times of an access unit are s32. A decoding time of 2^31 or more is
   reported as negative, and a composition time outside the range is undefined
   behaviour. *)
Theorem C34_late_sample_refuted :
  let b := mkBat 3 [1; 2; 3] [1073741824] [1] (Some 1) None None None in
  let b2 := mkBat 2 [1; 2] [2147483647] [1] (Some 1) (Some [0; 1]) None None in
  match media_add (media_new 0 1) mdat_new b with
  | Ok (m, d) => (do rd <- reader_new None 1 1 None m; Ok (read_units 3 rd m d)) =
      Ok [Ok (mkAu (Some [1]) true false 0 0 1073741824 248); Ok (mkAu (Some [2]) true false 1073741824 1073741824 1073741824 248);
          Ok (mkAu (Some [3]) true false (-2147483648) (-2147483648) 1073741824 248)] /\
      i_dts (match fst (media_get m d 3) with Ok (i, _) => i | _ => mkInfo [] 0 0 0 0 false false 0 end) = 2147483648
  | _ => False end /\
  match media_add (media_new 0 1) mdat_new b2 with
  | Ok (m, d) => (do rd <- reader_new None 1 1 None m; Ok (read_units 2 rd m d)) = Ok [Ok (mkAu (Some [1]) true true 0 0 2147483647 248); UB] /\
      match fst (media_get m d 2) with Ok (i, _) => i_dts i = 2147483647 /\ i_off i = 1%Z | _ => False end
  | _ => False end.
Proof. vm_compute. repeat split; reflexivity. Qed.
Print Assumptions C34_late_sample_refuted.

(* ---- C33: packets ---- *)
(* [C34_readers_deliver_in_order] says what the packets of a reader carry.
   A packet asked for by time, after any history: it has the number asked for
   (modulo 32) and carries, before the bytes of the sample being decoded at that
   time, their number. *)
Theorem C33_packet_at_time :
  forall drefs junk k os, aops_ok drefs (repeat track0 k) os ->
  exists ms d, movie_end (repeat (media_new junk drefs) k, mdat_new) os = Ok (ms, d) /\
  forall i t T seq, nth_error (tracks_end (repeat track0 k) os) i = Some t ->
    Forall (fun s => 1 <= m_dur s) (t_smps t) -> T < duration (t_smps t) ->
    (exists s, In s (t_smps t) /\ m_bytes s <> []) -> Forall (fun s => len (m_bytes s) + 13 < 4294967296) (t_smps t) ->
  exists m n x p m', nth_error ms i = Some m /\ stream_packet m d false seq T = (Ok (p, i_dts x, i_dur x), m') /\
    1 <= n /\ answer t n = Some x /\ i_dts x <= T < i_dts x + i_dur x /\
    open_packet p = Some (mkPacket (seq mod 32) (i_sync x) (if i_hasoff x then Some (i_dts x) else None)
                            (Some (mod32 (Z.of_N (i_dts x) + i_off x))) (be32 (len (i_bytes x)) ++ i_bytes x)).
Proof.
  intros drefs junk k os H. destruct (C17_sample_at_time drefs junk k os H) as (ms & d & E & G). exists ms, d. split; [exact E|].
  intros i t T seq Ht Hpos HT Hsome Hsz. destruct (G i t T Ht Hpos HT Hsome) as (m & n & x & j & desc & m' & Em & Ea & Hn & Hx & Ht2 & ->).
  assert (Hlen : len (i_bytes x) + 13 < 4294967296 /\ i_size x = len (i_bytes x)).
  { unfold answer in Hx. destruct (nth_error (t_smps t) (N.to_nat (n - 1))) as [s|] eqn:Es; [|discriminate]. injection Hx as <-. cbn [i_bytes i_size].
    apply nth_error_In in Es. rewrite Forall_forall in Hsz. split; [apply Hsz; exact Es|reflexivity]. }
  destruct Hlen as [Hlen Hsize].
  destruct (run_ok drefs os _ _ (winv_new junk drefs k) ltac:(rewrite stored_new; lia) H) as (r & [ms' d'] & _ & _ & E' & W & Hs).
  rewrite E in E'. injection E' as <- <-. destruct (winv_get _ _ _ _ _ _ W Ht) as (m0 & Em0 & I & D). pose proof (v_dur _ _ _ I) as Hdu.
  exists m, n, x. eexists. exists m'. split; [exact Em|]. split.
  { unfold stream_packet. rewrite Ea. cbn [bind fst j_sync j_hasoff j_dts j_cts j_size j_bytes j_dur]. unfold sl_packet.
    match goal with |- context [len ?h] => match h with sl_flags _ _ _ :: _ => assert (Hh : len h <= 13) end end.
    { destruct (i_hasoff x); lens; rewrite ?len_put32b; lia. }
    rewrite w32_small by lia. rewrite N.ltb_irrefl. reflexivity. }
  split; [exact Hn|]. split; [exact Hx|]. split; [exact Ht2|].
  pose proof (answer_dts _ _ _ Hx) as Hdt.
  assert (Ew : w32 (i_dts x) = i_dts x) by (apply w32_small; lia). rewrite Ew.
  assert (Ec : w32 (u64_of (Z.of_N (i_dts x) + i_off x)) = mod32 (Z.of_N (i_dts x) + i_off x)) by (unfold w32, u64_of, mod32; lia).
  rewrite Ec, (put32b_be (i_size x)), Hsize by lia.
  replace (sl_flags seq (i_sync x) (i_hasoff x) :: (if i_hasoff x then put32b (i_dts x) else []) ++ put32b (mod32 (Z.of_N (i_dts x) + i_off x)) ++ be32 (len (i_bytes x)))
    with ((sl_flags seq (i_sync x) (i_hasoff x) :: (if i_hasoff x then put32b (i_dts x) else []) ++ put32b (mod32 (Z.of_N (i_dts x) + i_off x))) ++ be32 (len (i_bytes x)))
    by (cbn [app]; rewrite <- app_assoc; reflexivity).
  rewrite <- app_assoc. apply packet_ok; [lia|apply mod32_lt].
Qed.
Print Assumptions C33_packet_at_time.
Example C33_time_case :
  match movie_end (repeat (media_new 0 1) 2, mdat_new) ex_aops with
  | Ok (m :: _, d) => fst (stream_packet m d false 37 29) = Ok ([43; 0; 0; 0; 10; 0; 0; 0; 15; 0; 0; 0; 1; 4], 10, 20) /\
      open_packet [43; 0; 0; 0; 10; 0; 0; 0; 15; 0; 0; 0; 1; 4] = Some (mkPacket 5 false (Some 10) (Some 15) [0; 0; 0; 1; 4])
  | _ => False end.
Proof. vm_compute. split; reflexivity. Qed.

(* A sample of more than 2^32 - 10 bytes overflows the packet buffer. *)
Theorem C33_giant_sample_refuted :
  forall h bs, h <> [] -> len bs < 4294967296 -> 4294967296 <= len bs + len h -> len h < 4294967296 -> sl_packet h bs = UB.
Proof.
  intros h bs Hh H1 H2 H3. unfold sl_packet, w32. destruct (N.ltb_spec ((len bs + len h) mod 4294967296) (len bs + len h)); [reflexivity|].
  assert ((len bs + len h) mod 4294967296 < 4294967296) by (apply N.mod_lt; lia). lia.
Qed.
Print Assumptions C33_giant_sample_refuted.
Example C33_giant_case : exists h bs, (h : list N) <> [] /\ len (bs : list N) < 4294967296 /\ 4294967296 <= len bs + len h /\ len h < 4294967296.
Proof.
  assert (G : forall n, n = 4294967290 -> exists h bs, (h : list N) <> [] /\ len (bs : list N) < 4294967296 /\ 4294967296 <= len bs + len h /\ len h < 4294967296).
  { intros n Hn. exists [0; 0; 0; 0; 0; 0; 0; 0; 0], (repeat 0 (N.to_nat n)).
    assert (E : len (repeat 0 (N.to_nat n)) = n) by (unfold len; rewrite repeat_length; apply N2Nat.id). rewrite E. split; [discriminate|]. cbn [len length]. unfold len. cbn [length]. lia. }
  exact (G _ eq_refl).
Qed.
(* Once a configuration is set no packets are made; the access units still come. *)
Theorem C33_configured_no_packets : forall rd m d rd', set_sl rd true = Ok rd' ->
  next_packet rd' m d = (Err MP4NotImplementedErr, (rd', m)) /\ fst (next_au rd' m d) = fst (next_au rd m d).
Proof.
  intros rd m d rd' H. injection H as <-. split; [reflexivity|].
  unfold next_au. cbn [r_edits r_mts r_dts r_segs r_seg r_end r_media r_begin r_seq r_count r_desc r_cur r_num r_sl r_key].
  destruct (r_segs rd <? r_seg rd); [reflexivity|]. destruct ((len (r_edits rd) =? 0) && (r_count rd <? r_num rd)); [reflexivity|].
  destruct (media_get m d (r_num rd)) as [[[i desc]|e|] m1]; try reflexivity.
  destruct (match r_key rd with Some _ => _ | None => _ end); try reflexivity. cbn zeta.
  destruct (i_hasoff i && _); [reflexivity|]. destruct (negb (len (r_edits rd) =? 0) && _); [|reflexivity].
  destruct (w32 (r_seg rd + 1) <=? r_segs rd); [|reflexivity].
  assert (Q : forall sl r, fst (next_segment (mkReader (r_edits r) (r_mts r) (r_dts r) (r_segs r) (r_seg r) (r_end r) (r_media r) (r_begin r)
     (r_seq r) (r_count r) (r_desc r) (r_cur r) (r_num r) sl (r_key r)) m1) = fst (next_segment r m1)).
  { intros sl r. unfold next_segment. cbn [r_edits r_mts r_dts r_segs r_seg r_end r_media r_begin r_seq r_count r_desc r_cur r_num r_sl r_key].
    destruct (skip_empty _ _ _) as [x s]. destruct (do _ <- x; edit_segment (r_edits r) s) as [[[mt med] du]|err|]; try reflexivity.
    destruct (media_time_to_sample (me_stts m1) (u64_of med)) as [[[n ?] ?]|err|]; try reflexivity.
    destruct (r_mts r =? 0); [reflexivity|]. destruct (media_time_to_sample _ _) as [[[n2 ?] ?]|err|]; try reflexivity. destruct (n2 <? n); reflexivity. }
  match goal with |- fst (let '(_, _) := next_segment ?a m1 in _) = fst (let '(_, _) := next_segment ?b m1 in _) =>
    pose proof (Q true b) as Q'; cbn [r_edits r_mts r_dts r_segs r_seg r_end r_media r_begin r_seq r_count r_desc r_cur r_num r_sl r_key] in Q';
    destruct (next_segment a m1) as [y1 z1]; destruct (next_segment b m1) as [y2 z2] end.
  cbn [fst] in *. subst y2. reflexivity.
Qed.
Print Assumptions C33_configured_no_packets.

(* ---- C50: edits ---- *)
(* After any history, a track with an edit list: the reader delivers for each
   edit that presents media the samples decoded in its part of the media, in
   order, moved to the edit's place in the movie, the last one cut at the end of
   the edit, and after the last edit reports the end. [plan] is in
   ReaderSpec.v. *)
Theorem C50_edits_are_followed :
  forall drefs junk k os, aops_ok drefs (repeat track0 k) os ->
  exists ms d, movie_end (repeat (media_new junk drefs) k, mdat_new) os = Ok (ms, d) /\
  forall i t mts dts s, nth_error (tracks_end (repeat track0 k) os) i = Some t ->
    lasting t -> 0 < mts -> len (el_edits s) < 4294967295 -> edits_ok t mts dts 0 (el_edits s) -> ends_with_media (el_edits s) ->
    Forall unit_ok (plan t mts dts 0 (el_edits s)) ->
  exists m rd, nth_error ms i = Some m /\ reader_new (Some s) mts dts None m = Ok rd /\
    let us := plan t mts dts 0 (el_edits s) in
    forall j, read_units (length us + j) rd m d = map Ok us ++ repeat (Err MP4EOF) j.
Proof.
  intros drefs junk k os H.
  destruct (run_ok drefs os _ _ (winv_new junk drefs k) ltac:(rewrite stored_new; lia) H) as (r & [ms d] & _ & _ & E & W & Hs).
  exists ms, d. split; [exact E|]. intros i t mts dts s Ht P M Hb Hok Hend Hu.
  destruct (winv_get _ _ _ _ _ _ W Ht) as (m & Em & I & D). exists m.
  assert (Hd : len (md_data d) < 4294967296) by (destruct W as [_ W2]; cbn [snd] in W2; lia).
  destruct (el_edits s) as [|e0 es0] eqn:Ees; [destruct Hend|].
  destruct (seg_ok mts dts m t (md_data d) [] (e0 :: es0) (mkReader (e0 :: es0) mts dts (len (e0 :: es0)) 1 0 0 0 0 0 1 0 0 false None) I P M)
    as (rd & pre & e & post & n & x & Q1 & Q2 & Q3 & Q4 & Q5 & Q6 & Q7 & Q8 & Q9 & Q10 & _); try reflexivity; try assumption.
  exists rd. split; [exact Em|]. split; [unfold reader_new; rewrite Ees, Q1; reflexivity|]. cbn zeta. intros j.
  change 0 with (durs []). rewrite Q10.
  apply (plan_run mts dts d t (e0 :: es0) P M Hd Hb (length post) pre e post n x rd m); auto.
  rewrite <- Q10. exact Hu.
Qed.
Print Assumptions C50_edits_are_followed.
(* a delay of 5, then the media from 15 to 40, then the first 5 units again *)
Definition ex_edits : elst := mkElst 0 0 [mkEdit 5 (-1) 1 true; mkEdit 25 15 1 false; mkEdit 5 0 1 false].
Definition ex_track : track := mkTrack (exA ++ exC) true false true.
Example C50_case :
  lasting ex_track /\ edits_ok ex_track 10 10 0 (el_edits ex_edits) /\ ends_with_media (el_edits ex_edits) /\
  Forall unit_ok (plan ex_track 10 10 0 (el_edits ex_edits)) /\
  plan ex_track 10 10 0 (el_edits ex_edits) =
    [mkAu (Some [4]) false true 5 0 20 248; mkAu (Some [5; 6]) true true 16 20 10 248; mkAu (Some [1; 2; 3]) true true 30 30 5 248] /\
  match movie_end (repeat (media_new 0 1) 2, mdat_new) ex_aops with
  | Ok (m :: _, d) => (do rd <- reader_new (Some ex_edits) 10 10 None m; Ok (read_units 4 rd m d)) =
      Ok (map Ok (plan ex_track 10 10 0 (el_edits ex_edits)) ++ [Err MP4EOF])
  | _ => False end.
Proof.
  split; [repeat (apply Forall_cons || apply Forall_nil); vm_compute; congruence|].
  split; [cbn [edits_ok ex_edits el_edits e_empty e_time e_dur]; repeat split; intros; vm_compute; congruence|].
  split; [reflexivity|]. split; [|split; vm_compute; reflexivity].
  assert (E : plan ex_track 10 10 0 (el_edits ex_edits) =
    [mkAu (Some [4]) false true 5 0 20 248; mkAu (Some [5; 6]) true true 16 20 10 248; mkAu (Some [1; 2; 3]) true true 30 30 5 248]) by (vm_compute; reflexivity).
  rewrite E. repeat (apply Forall_cons || apply Forall_nil); repeat split; vm_compute; congruence.
Qed.
(* The conditions are needed. With an empty edit at the end the call that
   delivers the last access unit fails; an edit too short for one media time
   unit still presents a sample; an edit that goes on after the media ends with
   an error in place of the end; a movie time scale of 0 is a division by 0. *)
Theorem C50_edge_edits_refuted :
  match movie_end (repeat (media_new 0 1) 2, mdat_new) ex_aops with
  | Ok (m :: _, d) =>
      let read mts es n := do rd <- reader_new (Some (mkElst 0 0 es)) mts 10 None m; Ok (read_units n rd m d) in
      let last := mkAu (Some [5; 6]) true true (-4) 0 30 248 in
      read 10 [mkEdit 30 30 1 false] 2%nat = Ok [Ok last; Err MP4EOF] /\
      read 10 [mkEdit 30 30 1 false; mkEdit 5 (-1) 1 true] 2%nat = Ok [Err MP4InvalidMediaErr; Err MP4BadParamErr] /\
      read 1000 [mkEdit 1 30 1 false] 2%nat = Ok [Ok (mkAu (Some [5; 6]) true true (-4) 0 0 248); Err MP4EOF] /\
      read 10 [mkEdit 40 30 1 false] 2%nat = Ok [Ok last; Err MP4BadParamErr] /\
      reader_new (Some (mkElst 0 0 [mkEdit 30 30 1 false])) 0 10 None m = UB
  | _ => False end.
Proof. vm_compute. repeat split; reflexivity. Qed.
Print Assumptions C50_edge_edits_refuted.

(* ---- C51: boxed metadata tracks ---- *)
(* Where an ordinary reader would deliver samples that are sequences of items
   (up to three stray bytes after the last), the reader of a boxed metadata
   track delivers, at the same times, the payload of the last item that has its
   key, and nothing in place of a sample without such an item. *)
Definition picked (key : N) (u v : au) : Prop :=
  exists l tail, Forall item_ok l /\ len tail < 4 /\ a_bytes u = Some (flat_map item l ++ tail) /\ v = with_bytes u (chosen key l).
Theorem C51_items_by_key :
  forall el mts dts key m d rd us vs j, reader_new el mts dts None m = Ok rd ->
  read_units (length us + j) rd m d = map Ok us ++ repeat (Err MP4EOF) j -> Forall2 (picked key) us vs ->
  exists rk, reader_new el mts dts (Some key) m = Ok rk /\
    read_units (length us + j) rk m d = map Ok vs ++ repeat (Err MP4EOF) j.
Proof.
  intros el mts dts key m d rd us vs j Hr Hu F. eexists. split; [apply reader_new_key; exact Hr|].
  apply (keyed_run key us vs j rd m d).
  - clear -Hr. unfold reader_new in Hr. destruct (match el with Some s => el_edits s | None => [] end) as [|e es]; [injection Hr as <-; reflexivity|].
    match type of Hr with (let '(_, _) := next_segment ?r m in _) = _ => assert (Q : r_key (snd (next_segment r m)) = None) end.
    { unfold next_segment. cbn [r_edits r_mts r_dts r_segs r_seg r_end r_media r_begin r_seq r_count r_desc r_cur r_num r_sl r_key].
      destruct (skip_empty _ _ _) as [x s]. destruct (do _ <- x; edit_segment (e :: es) s) as [[[mt med] du]|err|]; try reflexivity.
      destruct (media_time_to_sample (me_stts m) (u64_of med)) as [[[n ?] ?]|err|]; try reflexivity.
      destruct (mts =? 0); [reflexivity|]. destruct (media_time_to_sample _ _) as [[[n2 ?] ?]|err|]; try reflexivity. destruct (n2 <? n); reflexivity. }
    destruct (next_segment _ m) as [[[]|err|] rd2]; cbn [bind snd] in *; congruence.
  - clear Hu. induction F as [|u v us vs (l & tail & A & B & C & ->) F IH]; constructor; [|exact IH].
    eexists. eexists. split; [exact C|]. split; [|reflexivity]. rewrite (pick_ok key tail B l _ None A (Nat.le_refl _)). destruct (chosen key l); reflexivity.
  - exact Hu.
Qed.
Print Assumptions C51_items_by_key.
Definition ex_items : list (N * list N) := [(1, [7]); (2, [8; 8]); (1, [9; 9; 9])].
Example C51_case :
  let s1 := flat_map item ex_items ++ [0; 0] in let s2 := flat_map item [(2, [5])] in
  match media_add (media_new 0 1) mdat_new (mkBat 2 (s1 ++ s2) [10] [len s1; len s2] (Some 1) None None None) with
  | Ok (m, d) =>
      let us := [mkAu (Some s1) true false 0 0 10 248; mkAu (Some s2) true false 10 10 10 248] in
      let vs := [mkAu (Some [9; 9; 9]) true false 0 0 10 248; mkAu None true false 10 10 10 248] in
      (do rd <- reader_new None 1 1 None m; Ok (read_units (length us + 1) rd m d)) = Ok (map Ok us ++ [Err MP4EOF]) /\
      (do rd <- reader_new None 1 1 (Some 1) m; Ok (read_units (length us + 1) rd m d)) = Ok (map Ok vs ++ [Err MP4EOF]) /\
      Forall2 (picked 1) us vs
  | _ => False end.
Proof.
  cbv zeta. match goal with |- match ?x with _ => _ end => evald x end. cbv iota beta. split; [vm_compute; reflexivity|]. split; [vm_compute; reflexivity|].
  constructor; [|constructor; [|constructor]].
  - exists ex_items, [0; 0]. split; [repeat (apply Forall_cons || apply Forall_nil); split; reflexivity|]. repeat split; reflexivity.
  - exists [(2, [5])], []. split; [repeat (apply Forall_cons || apply Forall_nil); split; reflexivity|]. repeat split; reflexivity.
Qed.
(* The reader trusts the lengths in the sample: an item cut short, one whose
   length says less than the eight bytes before the payload, or more than there
   is, is read past the end; and a packet for a sample without an item of the
   key has an undefined size. *)
Theorem C51_malformed_items_refuted :
  let read bs := match media_add (media_new 0 1) mdat_new (mkBat 1 bs [10] [len bs] (Some 1) None None None) with
                 | Ok (m, d) => do rd <- reader_new None 1 1 (Some 1) m; Ok (read_units 1 rd m d, fst (next_packet rd m d))
                 | Err e => Err e | UB => UB end in
  read [0; 0; 0; 9; 0; 0] = Ok ([UB], UB) /\
  read [0; 0; 0; 7; 0; 0; 0; 1] = Ok ([UB], UB) /\
  read [0; 0; 0; 20; 0; 0; 0; 1; 5; 5] = Ok ([UB], UB) /\
  read (item (2, [5])) = Ok ([Ok (mkAu None true false 0 0 10 248)], UB).
Proof. vm_compute. repeat split; reflexivity. Qed.
Print Assumptions C51_malformed_items_refuted.

(* StreamProps.v -- C03 *)
From Verif Require Import Base Codec StreamModel StreamSpec StreamProofs.

(* C03. For every buffer, either kind of stream and every history of
   requests that does not rewind a memory stream past its start, no access
   outside the buffer happens and every answer is the specified one. *)
Theorem C03_stream_reads :
  forall k base buf os,
    bytes buf -> len buf < 18446744073709551616 ->
    rewinds_ok k ([], buf) os ->
    srun (createStream k base buf) os = Ok (zrun k ([], buf) os).
Proof.
  intros k base buf os Hb Hl Hok. apply srun_refines; [|exact Hok].
  constructor; cbn; auto.
Qed.
Print Assumptions C03_stream_reads.

(* without any rewinding at all *)
Corollary C03_stream_reads_forward :
  forall k base buf os, bytes buf -> len buf < 18446744073709551616 ->
    (forall n, ~ In (SRewind n) os) ->
    srun (createStream k base buf) os = Ok (zrun k ([], buf) os).
Proof.
  intros k base buf os Hb Hl Hn. apply C03_stream_reads; [assumption | assumption |].
  generalize (@nil N, buf). induction os as [|o os IH]; intros z; [exact I|].
  cbn [rewinds_ok]. split.
  - destruct o; try exact I. exfalso. apply (Hn n). left; reflexivity.
  - apply IH. intros n H. apply (Hn n). right; assumption.
Qed.
Print Assumptions C03_stream_reads_forward.

(* a memory stream accepts a rewind past its start (the check compares with
   an address) and the next read leaves the buffer *)
Theorem C03_memory_rewind_refuted :
  forall base buf n, 0 < n -> n <= base -> len buf < 4294967296 -> n < 4294967296 ->
    srun (createStream Mem base buf) [SRewind n; SR8] = UB.
Proof.
  intros base buf n H0 Hn Hl Hn2. unfold srun, sstep, s_rewind, createStream. cbn [sk spos sbase sbuf savail].
  destruct (Z.ltb_spec (Z.of_N base + 0) (Z.of_N n)); [lia|]. cbn [bind out_u].
  unfold s_read8, s_readData. cbn [savail].
  change (negb (N.shiftr 1 32 =? 0)) with false. cbn iota.
  rewrite w64_small by lia. destruct (N.ltb_spec (len buf + n) 1); [lia|].
  unfold fetch. cbn [spos sbuf]. change (1 =? 0) with false. cbn iota.
  destruct (Z.leb_spec 0 (0 - Z.of_N n)); [lia|]. reflexivity.
Qed.
Print Assumptions C03_memory_rewind_refuted.

(* the abstract readers of Base.v are exactly these streams' reads *)
Theorem C03_readers_match_streams :
  forall s k z v, srep s k z ->
    (exists s', s_read32 s = Ok (s', inl v)) <->
    (exists st, get32 (mkR (snd z) 0) = Ok (v, st)).
Proof.
  intros s k z v Hr. pose proof (read32_rep s k z Hr) as R.
  destruct (N.leb_spec 4 (len (snd z))) as [H|H].
  - destruct R as (a & b & c & d & r & s1 & Ez & E & _). rewrite E, Ez. cbn [get32 inp]. unfold get32; cbn [inp].
    split; intros [x Hx].
    + injection Hx as _ Hv. subst v. eauto.
    + injection Hx as Hv _. subst v. eauto.
  - rewrite R. split; intros [x Hx]; [discriminate|].
    exfalso. destruct (snd z) as [|a [|b [|c [|d r]]]]; try discriminate Hx. lens. lia.
Qed.
Print Assumptions C03_readers_match_streams.

Example C03_case :
  let buf := [1; 2; 3; 4; 5; 6; 7] in
  bytes buf /\ rewinds_ok Mem ([], buf) [SR16; SRewind 1; SR32; SR16; SR8; SRData 2; SSkip 1; SR8; SOffset] /\
  srun (createStream Mem 4096 buf) [SR16; SRewind 1; SR32; SR16; SR8; SRData 2; SSkip 1; SR8; SOffset] =
    Ok [SVal 258; SDone; SVal 33752069; SVal 1543; SErr MP4IOErr; SErr MP4IOErr; SErr MP4IOErr; SErr MP4IOErr; SVal 7].
Proof.
  cbv zeta. repeat split; try (repeat constructor; vm_compute; reflexivity); try (vm_compute; congruence).
Qed.

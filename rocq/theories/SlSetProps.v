(* SlSetProps.v -- C88: settings of the synchronization layer. *)
From Verif Require Import Base Codec DescModel DescSpec DescProofs DescProps SlSetSpec SlSetModel.

Lemma last_set s0 ss : fold_left sl_set ss (sl_new s0) = sl_new (last ss s0).
Proof.
  destruct ss as [|a ss] using rev_ind; [reflexivity|]. rewrite fold_left_app, last_last. reflexivity.
Qed.
(* After any settings, those given last are told: all of them but the OCR
   stream, which stays what the caller had. *)
Theorem C88_last_settings : forall s0 ss o, let r := sl_get (fold_left sl_set ss (sl_new s0)) o in let s := last ss s0 in
  r = mkSettings (s_predefined s) (s_austart s) (s_auend s) (s_rap s) (s_rauonly s) (s_padding s) (s_timestamps s) (s_idle s) (s_duration s)
        (s_tsres s) (s_ocrres s) (s_tslen s) (s_ocrlen s) (s_aulen s) (s_bitratelen s) (s_deglen s) (s_auseqlen s) (s_packetseqlen s)
        (s_timescale s) (s_auduration s) (s_cuduration s) (s_startdts s) (s_startcts s) (s_ocresid o).
Proof. intros s0 ss o r s. unfold r, s. rewrite last_set. reflexivity. Qed.
Print Assumptions C88_last_settings.

Lemma one_on x : on (one x) <-> on x.
Proof. unfold one, yes, on. destruct (N.eqb_spec x 0); split; intros; congruence || discriminate. Qed.

(* Settings that a file can carry come back when the configuration is written
   and read again. *)
Theorem C88_written : forall s0 ss, let s := last ss s0 in carried s ->
  exists bs c, sl_save (fold_left sl_set ss (sl_new s0)) = Ok bs /\ sl_load bs = Ok c /\ forall o, same_settings s (sl_get c o).
Proof.
  intros s0 ss. cbv zeta. rewrite last_set. generalize (last ss s0) as s. clear s0 ss. intros s (P & T & H1 & H2 & H3 & H4 & H5 & H6 & H7 & H8 & H9 & H10).
  set (x := cf_sl (sl_new s)). assert (O : sl_ok x).
  { split; [exact T|]. right. repeat (split; [assumption|]). exact H10. }
  assert (W : wf (Desc (HSL x) [])).
  { apply Wf; [exact O|reflexivity|apply Forall_nil|]. cbn [body fields]. unfold x. cbn [cf_sl sl_new sl_set sl_pre sl_dur]. rewrite P. change (0 =? 0) with true. cbv iota.
    cbn. destruct (s_duration s =? 0); lens; reflexivity. }
  destruct (C32_descriptor_round_trip _ W) as (_ & _ & E & R).
  exists (enc (Desc (HSL x) [])), (mkConfig (match head_view (HSL x) with HSL t => t | _ => x end) 0 0).
  split; [exact E|]. split.
  - unfold sl_load. specialize (R [] 0). rewrite app_nil_r in R. rewrite R. reflexivity.
  - intros o. cbn [head_view]. unfold x. cbn [cf_sl sl_new sl_set sl_pre]. rewrite P. change (0 =? 0) with true. cbv iota.
    split; cbn [sl_get cf_sl sl_pre sl_austart sl_auend sl_rap sl_rau sl_pad sl_ts sl_idle sl_dur sl_tsres sl_ocrres sl_tslen sl_ocrlen sl_aulen sl_brlen sl_deg sl_auseq sl_pkseq sl_scale sl_audur sl_cudur
      s_predefined s_austart s_auend s_rap s_rauonly s_padding s_timestamps s_idle s_duration s_tsres s_ocrres s_tslen s_ocrlen s_aulen s_bitratelen s_deglen s_auseqlen s_packetseqlen s_timescale s_auduration s_cuduration];
      try apply one_on; try reflexivity; [symmetry; exact P|].
    intros D. unfold yes. unfold on in D. destruct (N.eqb_spec (s_duration s) 0); [congruence|]. auto.
Qed.
Print Assumptions C88_written.
Definition ex_settings : settings := mkSettings 0 1 7 0 1 0 1 0 1 90000 1000 33 32 16 8 15 31 5 90000 3600 1800 0 0 0.
Example C88_case : carried ex_settings /\ exists c, sl_save (sl_new ex_settings) =
    Ok [6; 128; 128; 128; 24; 0; 213; 0; 1; 95; 144; 0; 0; 3; 232; 33; 32; 16; 8; 255; 151; 0; 1; 95; 144; 14; 16; 7; 8] /\
  sl_load [6; 128; 128; 128; 24; 0; 213; 0; 1; 95; 144; 0; 0; 3; 232; 33; 32; 16; 8; 255; 151; 0; 1; 95; 144; 14; 16; 7; 8] = Ok c /\
  sl_get c ex_settings = mkSettings 0 1 1 0 1 0 1 0 1 90000 1000 33 32 16 8 15 31 5 90000 3600 1800 0 0 0.
Proof.
  split; [repeat split; try discriminate; reflexivity|]. eexists. split; [vm_compute; reflexivity|]. split; [vm_compute; reflexivity|]. vm_compute. reflexivity.
Qed.

(* Without time stamps the configuration cannot be written, whatever else is
   set and whatever start times are given. *)
Theorem C88_no_timestamps_refuted : forall dts cts, let s := mkSettings 0 1 1 0 0 0 0 0 0 1000 0 32 0 0 0 0 5 0 0 0 0 dts cts 0 in
  sl_save (sl_new s) = Err MP4NotImplementedErr.
Proof. intros dts cts s. unfold sl_save, sl_new, s, sl_set. cbn [cf_sl]. vm_compute. reflexivity. Qed.
Print Assumptions C88_no_timestamps_refuted.
(* Start times that were given and told are not in the file. *)
Theorem C88_start_times_refuted : let s := mkSettings 0 1 1 0 0 0 1 0 0 1000 0 32 0 0 0 0 5 0 0 0 0 500 700 0 in
  carried s /\ s_startdts (sl_get (sl_new s) s) = 500 /\ exists bs c, sl_save (sl_new s) = Ok bs /\ sl_load bs = Ok c /\ s_startdts (sl_get c s) = 0 /\ s_startcts (sl_get c s) = 0.
Proof.
  cbv zeta. split; [repeat split; try discriminate; reflexivity|]. split; [reflexivity|]. eexists. eexists. split; [vm_compute; reflexivity|]. split; [vm_compute; reflexivity|]. split; reflexivity.
Qed.
Print Assumptions C88_start_times_refuted.
(* With the predefined configuration of MP4 files the other settings are
   accepted and told, but are gone in the file. *)
Theorem C88_predefined_refuted : let s := mkSettings 2 1 1 0 0 0 1 0 0 1000 0 32 0 0 0 0 5 0 0 0 0 0 0 0 in
  s_tsres (sl_get (sl_new s) s) = 1000 /\ exists bs c, sl_save (sl_new s) = Ok bs /\ sl_load bs = Ok c /\ s_tsres (sl_get c s) = 0 /\ s_auend (sl_get c s) = 0.
Proof.
  cbv zeta. split; [reflexivity|]. eexists. eexists. split; [vm_compute; reflexivity|]. split; [vm_compute; reflexivity|]. split; reflexivity.
Qed.
Print Assumptions C88_predefined_refuted.
(* A length that its field cannot hold runs into the field before: the other
   one comes back changed too. *)
Theorem C88_wide_length_refuted : let s := mkSettings 0 1 1 0 0 0 1 0 0 1000 0 32 0 0 0 0 4 32 0 0 0 0 0 0 in
  s_auseqlen s = 4 /\ s_packetseqlen s = 32 /\
  exists bs c, sl_save (sl_new s) = Ok bs /\ sl_load bs = Ok c /\ s_packetseqlen (sl_get c s) = 0 /\ s_auseqlen (sl_get c s) = 5.
Proof. cbv zeta. split; [reflexivity|]. split; [reflexivity|]. eexists. eexists. split; [vm_compute; reflexivity|]. split; [vm_compute; reflexivity|]. repeat split. Qed.
Print Assumptions C88_wide_length_refuted.

(* SlSetSpec.v -- settings of the synchronization layer, MP4Movies.h:1995-2021. *)
From Verif Require Import Base.

Record settings := mkSettings {
  s_predefined : N; s_austart : N; s_auend : N; s_rap : N; s_rauonly : N; s_padding : N; s_timestamps : N; s_idle : N; s_duration : N;
  s_tsres : N; s_ocrres : N; s_tslen : N; s_ocrlen : N; s_aulen : N; s_bitratelen : N; s_deglen : N; s_auseqlen : N; s_packetseqlen : N;
  s_timescale : N; s_auduration : N; s_cuduration : N; s_startdts : N; s_startcts : N; s_ocresid : N }.

(* the settings an SL configuration can carry in a file: ISO/IEC 14496-1,
   with time stamps and without start times *)
Definition carried (s : settings) : Prop :=
  s_predefined s = 0 /\ s_timestamps s <> 0 /\ s_tsres s < 4294967296 /\ s_ocrres s < 4294967296 /\
  s_tslen s < 256 /\ s_ocrlen s < 256 /\ s_aulen s < 256 /\ s_bitratelen s < 256 /\
  s_deglen s < 16 /\ s_auseqlen s < 32 /\ s_packetseqlen s < 32 /\
  (s_duration s <> 0 -> s_timescale s < 4294967296 /\ s_auduration s < 65536 /\ s_cuduration s < 65536).
(* a flag is on *)
Definition on (x : N) : Prop := x <> 0.
(* [r] has the same flags on as [s], the same lengths and resolutions, and the
   same durations if there are any *)
Record same_settings (s r : settings) : Prop := {
  ss_predefined : s_predefined r = s_predefined s;
  ss_austart : on (s_austart r) <-> on (s_austart s);
  ss_auend : on (s_auend r) <-> on (s_auend s);
  ss_rap : on (s_rap r) <-> on (s_rap s);
  ss_rauonly : on (s_rauonly r) <-> on (s_rauonly s);
  ss_padding : on (s_padding r) <-> on (s_padding s);
  ss_timestamps : on (s_timestamps r) <-> on (s_timestamps s);
  ss_idle : on (s_idle r) <-> on (s_idle s);
  ss_duration : on (s_duration r) <-> on (s_duration s);
  ss_tsres : s_tsres r = s_tsres s;
  ss_ocrres : s_ocrres r = s_ocrres s;
  ss_tslen : s_tslen r = s_tslen s;
  ss_ocrlen : s_ocrlen r = s_ocrlen s;
  ss_aulen : s_aulen r = s_aulen s;
  ss_bitratelen : s_bitratelen r = s_bitratelen s;
  ss_deglen : s_deglen r = s_deglen s;
  ss_auseqlen : s_auseqlen r = s_auseqlen s;
  ss_packetseqlen : s_packetseqlen r = s_packetseqlen s;
  ss_durations : on (s_duration s) -> s_timescale r = s_timescale s /\ s_auduration r = s_auduration s /\ s_cuduration r = s_cuduration s }.

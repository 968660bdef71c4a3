(* SlSetModel.v -- settings of the synchronization layer. *)
From Verif Require Import Base DescModel SlSetSpec.

(* MP4SLConfigDescriptor, MP4Descriptors.h:220-248: the fields that are
   written, and the two start times, which are not. New: all 0
   (SETUP_BASE_DESCRIPTOR in MP4CreateSLConfigDescriptor,
   SLConfigDescriptor.c:236-245) *)
Record config := mkConfig { cf_sl : slc; cf_dts : N; cf_cts : N }.
Definition config_new : config := mkConfig (mkSlc 0 0 0 0 0 0 0 0 0 0 0 0 0 0 0 0 0 0 0 0 0) 0 0.

(* MP4SetSLConfigSettings, SLConfigDescriptor.c:303-341: every field but
   OCRESID. All fields have the width of their settings. *)
Definition sl_set (c : config) (s : settings) : config :=
  mkConfig
    (mkSlc (s_predefined s) (s_austart s) (s_auend s) (s_rap s) (s_rauonly s) (s_padding s) (s_timestamps s) (s_idle s) (s_duration s)
       (s_tsres s) (s_ocrres s) (s_tslen s) (s_ocrlen s) (s_aulen s) (s_bitratelen s) (s_deglen s) (s_auseqlen s) (s_packetseqlen s)
       (s_timescale s) (s_auduration s) (s_cuduration s))
    (s_startdts s) (s_startcts s).
(* MP4NewSLConfig, SLConfigDescriptor.c:247-264 *)
Definition sl_new (s : settings) : config := sl_set config_new s.
(* MP4GetSLConfigSettings, SLConfigDescriptor.c:266-301, into settings [o] of
   the caller, whose OCRESID is not written *)
Definition sl_get (c : config) (o : settings) : settings :=
  let x := cf_sl c in
  mkSettings (sl_pre x) (sl_austart x) (sl_auend x) (sl_rap x) (sl_rau x) (sl_pad x) (sl_ts x) (sl_idle x) (sl_dur x)
    (sl_tsres x) (sl_ocrres x) (sl_tslen x) (sl_ocrlen x) (sl_aulen x) (sl_brlen x) (sl_deg x) (sl_auseq x) (sl_pkseq x)
    (sl_scale x) (sl_audur x) (sl_cudur x) (cf_dts c) (cf_cts c) (s_ocresid o).

(* the descriptor written, SLConfigDescriptor.c:60-112, and read again,
   138-225, by MP4ParseDescriptor: the start times are 0 in a new one *)
Definition sl_save (c : config) : res (list N) := dwrite (Desc (HSL (cf_sl c)) []).
Definition sl_load (bs : list N) : res config :=
  do r <- desc_read (mkR bs 0);
  match fst r with Desc (HSL x) _ => Ok (mkConfig x 0 0) | _ => Err MP4BadDataErr end.

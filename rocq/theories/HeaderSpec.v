(* HeaderSpec.v -- byte layouts of the boxes with a fixed list of fields, after ISO/IEC 14496-12. *)
From Verif Require Import Base AtomModel BoxModel BoxSpec HeaderBoxModel HeaderModel.

(* a time is 64 bits wide in version 1 and 32 bits wide otherwise *)
Definition time_ok (v t : N) : Prop := t < (if v =? 1 then 18446744073709551616 else 4294967296).


Definition mvhd_layout : layout mvhd := mkLayout (fun _ => code "mvhd")
  (fun a =>
    full (mv_ver a) (mv_flags a) ++
    (if mv_ver a =? 1 then be64 (mv_created a) ++ be64 (mv_modified a) ++ be32 (mv_timeScale a) ++ be64 (mv_duration a)
       else be32 (mv_created a) ++ be32 (mv_modified a) ++ be32 (mv_timeScale a) ++ be32 (mv_duration a)) ++
    be32 (mv_rate a) ++ be16 (mv_volume a) ++ mv_reserved a ++ be32 (mv_matA a) ++ be32 (mv_matB a) ++
    be32 (mv_matU a) ++ be32 (mv_matC a) ++ be32 (mv_matD a) ++ be32 (mv_matV a) ++ be32 (mv_matX a) ++
    be32 (mv_matY a) ++ be32 (mv_matW a) ++ be32 (mv_previewTime a) ++ be32 (mv_previewDuration a) ++
    be32 (mv_posterTime a) ++ be32 (mv_selectionTime a) ++ be32 (mv_selectionDuration a) ++
    be32 (mv_currentTime a) ++ be32 (mv_nextTrackID a))
  (fun a => a)
  (fun a =>
    full_ok (mv_ver a) (mv_flags a) /\ time_ok (mv_ver a) (mv_created a) /\
    time_ok (mv_ver a) (mv_modified a) /\ mv_timeScale a < 4294967296 /\
    time_ok (mv_ver a) (mv_duration a) /\ mv_rate a < 4294967296 /\ mv_volume a < 65536 /\
    len (mv_reserved a) = 10 /\ mv_matA a < 4294967296 /\ mv_matB a < 4294967296 /\
    mv_matU a < 4294967296 /\ mv_matC a < 4294967296 /\ mv_matD a < 4294967296 /\ mv_matV a < 4294967296 /\
    mv_matX a < 4294967296 /\ mv_matY a < 4294967296 /\ mv_matW a < 4294967296 /\
    mv_previewTime a < 4294967296 /\ mv_previewDuration a < 4294967296 /\ mv_posterTime a < 4294967296 /\
    mv_selectionTime a < 4294967296 /\ mv_selectionDuration a < 4294967296 /\
    mv_currentTime a < 4294967296 /\ mv_nextTrackID a < 4294967296).

Definition tkhd_layout : layout tkhd := mkLayout (fun _ => code "tkhd")
  (fun a =>
    full (tk_ver a) (tk_flags a) ++
    (if tk_ver a =? 1 then be64 (tk_created a) ++ be64 (tk_modified a) ++ be32 (tk_trackID a) ++ be32 (tk_reserved1 a) ++ be64 (tk_duration a)
       else be32 (tk_created a) ++ be32 (tk_modified a) ++ be32 (tk_trackID a) ++ be32 (tk_reserved1 a) ++ be32 (tk_duration a)) ++
    tk_reserved2 a ++ be16 (tk_layer a) ++ be16 (tk_altGroup a) ++ be16 (tk_volume a) ++
    be16 (tk_reserved3 a) ++ be32 (tk_matA a) ++ be32 (tk_matB a) ++ be32 (tk_matU a) ++ be32 (tk_matC a) ++
    be32 (tk_matD a) ++ be32 (tk_matV a) ++ be32 (tk_matX a) ++ be32 (tk_matY a) ++ be32 (tk_matW a) ++
    be32 (tk_width a) ++ be32 (tk_height a))
  (fun a => a)
  (fun a =>
    full_ok (tk_ver a) (tk_flags a) /\ time_ok (tk_ver a) (tk_created a) /\
    time_ok (tk_ver a) (tk_modified a) /\ tk_trackID a < 4294967296 /\ tk_reserved1 a < 4294967296 /\
    time_ok (tk_ver a) (tk_duration a) /\ len (tk_reserved2 a) = 8 /\ tk_layer a < 65536 /\
    tk_altGroup a < 65536 /\ tk_volume a < 65536 /\ tk_reserved3 a < 65536 /\ tk_matA a < 4294967296 /\
    tk_matB a < 4294967296 /\ tk_matU a < 4294967296 /\ tk_matC a < 4294967296 /\ tk_matD a < 4294967296 /\
    tk_matV a < 4294967296 /\ tk_matX a < 4294967296 /\ tk_matY a < 4294967296 /\ tk_matW a < 4294967296 /\
    tk_width a < 4294967296 /\ tk_height a < 4294967296).

Definition mdhd_layout : layout mdhd := mkLayout (fun _ => code "mdhd")
  (fun a =>
    full (md_ver a) (md_flags a) ++
    (if md_ver a =? 1 then be64 (md_created a) ++ be64 (md_modified a) ++ be32 (md_timeScale a) ++ be64 (md_duration a)
       else be32 (md_created a) ++ be32 (md_modified a) ++ be32 (md_timeScale a) ++ be32 (md_duration a)) ++
    be16 (md_lang a) ++ be16 (md_quality a))
  (fun a => a)
  (fun a =>
    full_ok (md_ver a) (md_flags a) /\ time_ok (md_ver a) (md_created a) /\
    time_ok (md_ver a) (md_modified a) /\ md_timeScale a < 4294967296 /\
    time_ok (md_ver a) (md_duration a) /\ md_lang a < 65536 /\ md_quality a < 65536).

Definition smhd_layout : layout smhd := mkLayout (fun _ => code "smhd")
  (fun a =>
    full (sm_ver a) (sm_flags a) ++ be16 (sm_balance a) ++ be16 (sm_reserved a))
  (fun a => a)
  (fun a =>
    full_ok (sm_ver a) (sm_flags a) /\ sm_balance a < 65536 /\ sm_reserved a < 65536).

Definition hmhd_layout : layout hmhd := mkLayout (fun _ => code "hmhd")
  (fun a =>
    full (hm_ver a) (hm_flags a) ++ be16 (hm_maxPDU a) ++ be16 (hm_avgPDU a) ++ be32 (hm_maxRate a) ++
    be32 (hm_avgRate a) ++ be32 (hm_slidingAvgRate a))
  (fun a => a)
  (fun a =>
    full_ok (hm_ver a) (hm_flags a) /\ hm_maxPDU a < 65536 /\ hm_avgPDU a < 65536 /\
    hm_maxRate a < 4294967296 /\ hm_avgRate a < 4294967296 /\ hm_slidingAvgRate a < 4294967296).

Definition nmhd_layout : layout nmhd := mkLayout (fun _ => code "nmhd")
  (fun a =>
    full (nm_ver a) (nm_flags a))
  (fun a => a)
  (fun a =>
    full_ok (nm_ver a) (nm_flags a)).

Definition odhd_layout : layout odhd := mkLayout (fun _ => code "odhd")
  (fun a =>
    full (oh_ver a) (oh_flags a))
  (fun a => a)
  (fun a =>
    full_ok (oh_ver a) (oh_flags a)).

Definition crhd_layout : layout crhd := mkLayout (fun _ => code "crhd")
  (fun a =>
    full (ch_ver a) (ch_flags a))
  (fun a => a)
  (fun a =>
    full_ok (ch_ver a) (ch_flags a)).

Definition sdhd_layout : layout sdhd := mkLayout (fun _ => code "sdhd")
  (fun a =>
    full (sh_ver a) (sh_flags a))
  (fun a => a)
  (fun a =>
    full_ok (sh_ver a) (sh_flags a)).

Definition vvhd_layout : layout vvhd := mkLayout (fun _ => code "vvhd")
  (fun a =>
    full (vh_ver a) (vh_flags a))
  (fun a => a)
  (fun a =>
    full_ok (vh_ver a) (vh_flags a)).

Definition mfhd_layout : layout mfhd := mkLayout (fun _ => code "mfhd")
  (fun a =>
    full (mf_ver a) (mf_flags a) ++ be32 (mf_sequence a))
  (fun a => a)
  (fun a =>
    full_ok (mf_ver a) (mf_flags a) /\ mf_sequence a < 4294967296).

Definition trex_layout : layout trex := mkLayout (fun _ => code "trex")
  (fun a =>
    full (tx_ver a) (tx_flags a) ++ be32 (tx_trackID a) ++ be32 (tx_descIndex a) ++ be32 (tx_duration a) ++
    be32 (tx_size a) ++ be32 (tx_sflags a))
  (fun a => a)
  (fun a =>
    full_ok (tx_ver a) (tx_flags a) /\ tx_trackID a < 4294967296 /\ tx_descIndex a < 4294967296 /\
    tx_duration a < 4294967296 /\ tx_size a < 4294967296 /\ tx_sflags a < 4294967296).

Definition pitm_layout : layout pitm := mkLayout (fun _ => code "pitm")
  (fun a =>
    full (pi_ver a) (pi_flags a) ++ be16 (pi_item a))
  (fun a => a)
  (fun a =>
    full_ok (pi_ver a) (pi_flags a) /\ pi_item a < 65536).

Definition mere_layout : layout mere := mkLayout (fun _ => code "mere")
  (fun a =>
    full (me_ver a) (me_flags a) ++ be32 (me_first a) ++ be32 (me_second a) ++ be8 (me_relation a))
  (fun a => a)
  (fun a =>
    full_ok (me_ver a) (me_flags a) /\ me_first a < 4294967296 /\ me_second a < 4294967296 /\
    me_relation a < 256).

Definition prft_layout : layout prft := mkLayout (fun _ => code "prft")
  (fun a =>
    full (pr_ver a) (pr_flags a) ++ be32 (pr_track a) ++ be64 (pr_ntp a) ++ be32 (pr_mediaTime a))
  (fun a => a)
  (fun a =>
    full_ok (pr_ver a) (pr_flags a) /\ pr_track a < 4294967296 /\ pr_ntp a < 18446744073709551616 /\
    pr_mediaTime a < 4294967296).

Definition frma_layout : layout frma := mkLayout (fun _ => code "frma")
  (fun a =>
    be32 (fo_format a))
  (fun a => a)
  (fun a =>
    fo_format a < 4294967296).

Definition pcmC_layout : layout pcmC := mkLayout (fun _ => code "pcmC")
  (fun a =>
    full (pc_ver a) (pc_flags a) ++ be8 (pc_format a) ++ be8 (pc_bits a))
  (fun a => a)
  (fun a =>
    full_ok (pc_ver a) (pc_flags a) /\ pc_format a < 256 /\ pc_bits a < 256).

Definition vmhd_layout : layout vmhd := mkLayout (fun _ => code "vmhd")
  (fun a => full (vm_ver a) (vm_flags a) ++ be16 (vm_mode a) ++ be16 (vm_r a) ++ be16 (vm_g a) ++ be16 (vm_b a))
  (fun a => a)
  (fun a => full_ok (vm_ver a) (vm_flags a) /\ vm_mode a < 65536 /\ vm_r a < 65536 /\ vm_g a < 65536 /\ vm_b a < 65536).

Definition tfdt_layout : layout tfdt := mkLayout (fun _ => code "tfdt")
  (fun a => full (td_ver a) (td_flags a) ++ (if td_ver a =? 1 then be64 (td_time a) else be32 (td_time a)))
  (fun a => a)
  (fun a => (td_ver a = 0 \/ td_ver a = 1) /\ td_flags a < 16777216 /\ time_ok (td_ver a) (td_time a)).

(* the 3GPP form has no buffer size *)
Definition btrt_layout : layout btrt := mkLayout (fun a => if bt_3gpp a then code "bitr" else code "btrt")
  (fun a => if bt_3gpp a then be32 (bt_avg a) ++ be32 (bt_max a)
            else be32 (bt_buffer a) ++ be32 (bt_max a) ++ be32 (bt_avg a))
  (fun a => a)
  (fun a => bt_buffer a < 4294967296 /\ bt_max a < 4294967296 /\ bt_avg a < 4294967296 /\
            (bt_3gpp a = true -> bt_buffer a = 0)).


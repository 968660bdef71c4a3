(* HeaderModel.v -- the boxes with a fixed list of fields. *)
From Verif Require Import Base AtomModel BoxModel HeaderBoxModel.

(* Conventions: the C structures have one member per field, here one record
   field each. [*_ver] and [*_flags] are the members of the full box header,
   which the parser reads as one 32 bit word (FullAtom.c). PUT32 of a u64
   member keeps its low 32 bits (MP4Impl.h:332-362). All asserts are taken as
   compiled out. *)

(* MP4MovieHeaderAtom in MP4Atoms.h; box 'mvhd' *)
Record mvhd := mkMvhd { mv_ver : N; mv_flags : N; mv_created : N; mv_modified : N; mv_timeScale : N;
  mv_duration : N; mv_rate : N; mv_volume : N; mv_reserved : list N; mv_matA : N; mv_matB : N; mv_matU : N;
  mv_matC : N; mv_matD : N; mv_matV : N; mv_matX : N; mv_matY : N; mv_matW : N; mv_previewTime : N;
  mv_previewDuration : N; mv_posterTime : N; mv_selectionTime : N; mv_selectionDuration : N;
  mv_currentTime : N; mv_nextTrackID : N }.
(* serialize, MovieHeaderAtom.c:36-87, after the common header *)
Definition mvhd_write (a : mvhd) : wr :=
  put8 (mv_ver a) ;; put24 (mv_flags a) ;;
  (if mv_ver a =? 1
   then put64 (mv_created a) ;; put64 (mv_modified a) ;; put32 (mv_timeScale a) ;; put64 (mv_duration a)
   else put32 (mv_created a) ;; put32 (mv_modified a) ;; put32 (mv_timeScale a) ;; put32 (mv_duration a)) ;;
  put32 (mv_rate a) ;; put16 (mv_volume a) ;; putl (mv_reserved a) ;; put32 (mv_matA a) ;;
  put32 (mv_matB a) ;; put32 (mv_matU a) ;; put32 (mv_matC a) ;; put32 (mv_matD a) ;; put32 (mv_matV a) ;;
  put32 (mv_matX a) ;; put32 (mv_matY a) ;; put32 (mv_matW a) ;; put32 (mv_previewTime a) ;;
  put32 (mv_previewDuration a) ;; put32 (mv_posterTime a) ;; put32 (mv_selectionTime a) ;;
  put32 (mv_selectionDuration a) ;; put32 (mv_currentTime a) ;; put32 (mv_nextTrackID a).
(* calculateSize, MovieHeaderAtom.c:89-105 *)
Definition mvhd_size (a : mvhd) : N := 92 + (if mv_ver a =? 1 then 28 else 16).
(* createFromInputStream, MovieHeaderAtom.c:107-162 *)
Definition mvhd_read (h : hdr) : rd mvhd :=
  let* vf := get_full in
  let* (created, modified, timeScale, duration) :=
    (if fst vf =? 1
     then let* created := get64 in let* modified := get64 in let* timeScale := get32 in let* duration := get64 in rret (created, modified, timeScale, duration)
     else let* created := get32 in let* modified := get32 in let* timeScale := get32 in let* duration := get32 in rret (created, modified, timeScale, duration)) in
  let* rate := get32 in let* volume := get16 in let* reserved := take 10%nat in let* matA := get32 in
  let* matB := get32 in let* matU := get32 in let* matC := get32 in let* matD := get32 in
  let* matV := get32 in let* matX := get32 in let* matY := get32 in let* matW := get32 in
  let* previewTime := get32 in let* previewDuration := get32 in let* posterTime := get32 in
  let* selectionTime := get32 in let* selectionDuration := get32 in let* currentTime := get32 in
  let* nextTrackID := get32 in
  rret (mkMvhd (fst vf) (snd vf) created modified timeScale duration rate volume reserved matA matB matU matC
    matD matV matX matY matW previewTime previewDuration posterTime selectionTime selectionDuration
    currentTime nextTrackID).
Definition mvhd_codec : codec mvhd :=
  mkCodec (fun ty => ty =? 1836476516) (fun _ => 1836476516) mvhd_size mvhd_write mvhd_read. (* 'mvhd' *)

(* MP4TrackHeaderAtom in MP4Atoms.h; box 'tkhd' *)
Record tkhd := mkTkhd { tk_ver : N; tk_flags : N; tk_created : N; tk_modified : N; tk_trackID : N;
  tk_reserved1 : N; tk_duration : N; tk_reserved2 : list N; tk_layer : N; tk_altGroup : N; tk_volume : N;
  tk_reserved3 : N; tk_matA : N; tk_matB : N; tk_matU : N; tk_matC : N; tk_matD : N; tk_matV : N;
  tk_matX : N; tk_matY : N; tk_matW : N; tk_width : N; tk_height : N }.
(* serialize, TrackHeaderAtom.c:36-86, after the common header *)
Definition tkhd_write (a : tkhd) : wr :=
  put8 (tk_ver a) ;; put24 (tk_flags a) ;;
  (if tk_ver a =? 1
   then put64 (tk_created a) ;; put64 (tk_modified a) ;; put32 (tk_trackID a) ;; put32 (tk_reserved1 a) ;; put64 (tk_duration a)
   else put32 (tk_created a) ;; put32 (tk_modified a) ;; put32 (tk_trackID a) ;; put32 (tk_reserved1 a) ;; put32 (tk_duration a)) ;;
  putl (tk_reserved2 a) ;; put16 (tk_layer a) ;; put16 (tk_altGroup a) ;; put16 (tk_volume a) ;;
  put16 (tk_reserved3 a) ;; put32 (tk_matA a) ;; put32 (tk_matB a) ;; put32 (tk_matU a) ;;
  put32 (tk_matC a) ;; put32 (tk_matD a) ;; put32 (tk_matV a) ;; put32 (tk_matX a) ;; put32 (tk_matY a) ;;
  put32 (tk_matW a) ;; put32 (tk_width a) ;; put32 (tk_height a).
(* calculateSize, TrackHeaderAtom.c:88-102 *)
Definition tkhd_size (a : tkhd) : N := 72 + (if tk_ver a =? 1 then 32 else 20).
(* createFromInputStream, TrackHeaderAtom.c:104-163 *)
Definition tkhd_read (h : hdr) : rd tkhd :=
  let* vf := get_full in
  let* (created, modified, trackID, reserved1, duration) :=
    (if fst vf =? 1
     then let* created := get64 in let* modified := get64 in let* trackID := get32 in let* reserved1 := get32 in let* duration := get64 in rret (created, modified, trackID, reserved1, duration)
     else let* created := get32 in let* modified := get32 in let* trackID := get32 in let* reserved1 := get32 in let* duration := get32 in rret (created, modified, trackID, reserved1, duration)) in
  let* reserved2 := take 8%nat in let* layer := get16 in let* altGroup := get16 in let* volume := get16 in
  let* reserved3 := get16 in let* matA := get32 in let* matB := get32 in let* matU := get32 in
  let* matC := get32 in let* matD := get32 in let* matV := get32 in let* matX := get32 in
  let* matY := get32 in let* matW := get32 in let* width := get32 in let* height := get32 in
  rret (mkTkhd (fst vf) (snd vf) created modified trackID reserved1 duration reserved2 layer altGroup volume
    reserved3 matA matB matU matC matD matV matX matY matW width height).
Definition tkhd_codec : codec tkhd :=
  mkCodec (fun ty => ty =? 1953196132) (fun _ => 1953196132) tkhd_size tkhd_write tkhd_read. (* 'tkhd' *)

(* MP4MediaHeaderAtom in MP4Atoms.h; box 'mdhd' *)
Record mdhd := mkMdhd { md_ver : N; md_flags : N; md_created : N; md_modified : N; md_timeScale : N;
  md_duration : N; md_lang : N; md_quality : N }.
(* serialize, MediaHeaderAtom.c:36-66, after the common header *)
Definition mdhd_write (a : mdhd) : wr :=
  put8 (md_ver a) ;; put24 (md_flags a) ;;
  (if md_ver a =? 1
   then put64 (md_created a) ;; put64 (md_modified a) ;; put32 (md_timeScale a) ;; put64 (md_duration a)
   else put32 (md_created a) ;; put32 (md_modified a) ;; put32 (md_timeScale a) ;; put32 (md_duration a)) ;;
  put16 (md_lang a) ;; put16 (md_quality a).
(* calculateSize, MediaHeaderAtom.c:68-82 *)
Definition mdhd_size (a : mdhd) : N := 16 + (if md_ver a =? 1 then 28 else 16).
(* createFromInputStream, MediaHeaderAtom.c:84-118 *)
Definition mdhd_read (h : hdr) : rd mdhd :=
  let* vf := get_full in
  let* (created, modified, timeScale, duration) :=
    (if fst vf =? 1
     then let* created := get64 in let* modified := get64 in let* timeScale := get32 in let* duration := get64 in rret (created, modified, timeScale, duration)
     else let* created := get32 in let* modified := get32 in let* timeScale := get32 in let* duration := get32 in rret (created, modified, timeScale, duration)) in
  let* lang := get16 in let* quality := get16 in
  rret (mkMdhd (fst vf) (snd vf) created modified timeScale duration lang quality).
Definition mdhd_codec : codec mdhd :=
  mkCodec (fun ty => ty =? 1835296868) (fun _ => 1835296868) mdhd_size mdhd_write mdhd_read. (* 'mdhd' *)

(* MP4SoundMediaHeaderAtom in MP4Atoms.h; box 'smhd' *)
Record smhd := mkSmhd { sm_ver : N; sm_flags : N; sm_balance : N; sm_reserved : N }.
(* serialize, SoundMediaHeaderAtom.c:36-52, after the common header *)
Definition smhd_write (a : smhd) : wr :=
  put8 (sm_ver a) ;; put24 (sm_flags a) ;; put16 (sm_balance a) ;; put16 (sm_reserved a).
(* calculateSize, SoundMediaHeaderAtom.c:54-67 *)
Definition smhd_size (a : smhd) : N := 16.
(* createFromInputStream, SoundMediaHeaderAtom.c:69-85 *)
Definition smhd_read (h : hdr) : rd smhd :=
  let* vf := get_full in
  let* balance := get16 in let* reserved := get16 in
  rret (mkSmhd (fst vf) (snd vf) balance reserved).
Definition smhd_codec : codec smhd :=
  mkCodec (fun ty => ty =? 1936549988) (fun _ => 1936549988) smhd_size smhd_write smhd_read. (* 'smhd' *)

(* MP4HintMediaHeaderAtom in MP4Atoms.h; box 'hmhd' *)
Record hmhd := mkHmhd { hm_ver : N; hm_flags : N; hm_maxPDU : N; hm_avgPDU : N; hm_maxRate : N;
  hm_avgRate : N; hm_slidingAvgRate : N }.
(* serialize, HintMediaHeaderAtom.c:36-55, after the common header *)
Definition hmhd_write (a : hmhd) : wr :=
  put8 (hm_ver a) ;; put24 (hm_flags a) ;; put16 (hm_maxPDU a) ;; put16 (hm_avgPDU a) ;;
  put32 (hm_maxRate a) ;; put32 (hm_avgRate a) ;; put32 (hm_slidingAvgRate a).
(* calculateSize, HintMediaHeaderAtom.c:57-70 *)
Definition hmhd_size (a : hmhd) : N := 28.
(* createFromInputStream, HintMediaHeaderAtom.c:72-91 *)
Definition hmhd_read (h : hdr) : rd hmhd :=
  let* vf := get_full in
  let* maxPDU := get16 in let* avgPDU := get16 in let* maxRate := get32 in let* avgRate := get32 in
  let* slidingAvgRate := get32 in
  rret (mkHmhd (fst vf) (snd vf) maxPDU avgPDU maxRate avgRate slidingAvgRate).
Definition hmhd_codec : codec hmhd :=
  mkCodec (fun ty => ty =? 1752000612) (fun _ => 1752000612) hmhd_size hmhd_write hmhd_read. (* 'hmhd' *)

(* MP4MPEGMediaHeaderAtom in MP4Atoms.h; box 'nmhd' *)
Record nmhd := mkNmhd { nm_ver : N; nm_flags : N }.
(* serialize, MPEGMediaHeaderAtom.c:36-50, after the common header *)
Definition nmhd_write (a : nmhd) : wr :=
  put8 (nm_ver a) ;; put24 (nm_flags a).
(* calculateSize, MPEGMediaHeaderAtom.c:52-64 *)
Definition nmhd_size (a : nmhd) : N := 12.
(* createFromInputStream, MPEGMediaHeaderAtom.c:66-79 *)
Definition nmhd_read (h : hdr) : rd nmhd :=
  let* vf := get_full in
  rret (mkNmhd (fst vf) (snd vf)).
Definition nmhd_codec : codec nmhd :=
  mkCodec (fun ty => ty =? 1852663908) (fun _ => 1852663908) nmhd_size nmhd_write nmhd_read. (* 'nmhd' *)

(* MP4ObjectDescriptorMediaHeaderAtom in MP4Atoms.h; box 'odhd' *)
Record odhd := mkOdhd { oh_ver : N; oh_flags : N }.
(* serialize, ObjectDescriptorMediaHeader.c:36-50, after the common header *)
Definition odhd_write (a : odhd) : wr :=
  put8 (oh_ver a) ;; put24 (oh_flags a).
(* calculateSize, ObjectDescriptorMediaHeader.c:52-64 *)
Definition odhd_size (a : odhd) : N := 12.
(* createFromInputStream, ObjectDescriptorMediaHeader.c:66-79 *)
Definition odhd_read (h : hdr) : rd odhd :=
  let* vf := get_full in
  rret (mkOdhd (fst vf) (snd vf)).
Definition odhd_codec : codec odhd :=
  mkCodec (fun ty => ty =? 1868851300) (fun _ => 1868851300) odhd_size odhd_write odhd_read. (* 'odhd' *)

(* MP4ClockReferenceMediaHeaderAtom in MP4Atoms.h; box 'crhd' *)
Record crhd := mkCrhd { ch_ver : N; ch_flags : N }.
(* serialize, ClockReferenceMediaHeader.c:36-51, after the common header *)
Definition crhd_write (a : crhd) : wr :=
  put8 (ch_ver a) ;; put24 (ch_flags a).
(* calculateSize, ClockReferenceMediaHeader.c:53-65 *)
Definition crhd_size (a : crhd) : N := 12.
(* createFromInputStream, ClockReferenceMediaHeader.c:67-80 *)
Definition crhd_read (h : hdr) : rd crhd :=
  let* vf := get_full in
  rret (mkCrhd (fst vf) (snd vf)).
Definition crhd_codec : codec crhd :=
  mkCodec (fun ty => ty =? 1668442212) (fun _ => 1668442212) crhd_size crhd_write crhd_read. (* 'crhd' *)

(* MP4SceneDescriptionMediaHeaderAtom in MP4Atoms.h; box 'sdhd' *)
Record sdhd := mkSdhd { sh_ver : N; sh_flags : N }.
(* serialize, SceneDescriptionMediaHeader.c:36-50, after the common header *)
Definition sdhd_write (a : sdhd) : wr :=
  put8 (sh_ver a) ;; put24 (sh_flags a).
(* calculateSize, SceneDescriptionMediaHeader.c:52-64 *)
Definition sdhd_size (a : sdhd) : N := 12.
(* createFromInputStream, SceneDescriptionMediaHeader.c:66-79 *)
Definition sdhd_read (h : hdr) : rd sdhd :=
  let* vf := get_full in
  rret (mkSdhd (fst vf) (snd vf)).
Definition sdhd_codec : codec sdhd :=
  mkCodec (fun ty => ty =? 1935960164) (fun _ => 1935960164) sdhd_size sdhd_write sdhd_read. (* 'sdhd' *)

(* MP4VolumetricVisualMediaHeaderAtom in MP4Atoms.h; box 'vvhd' *)
Record vvhd := mkVvhd { vh_ver : N; vh_flags : N }.
(* serialize, VolumetricVisualMediaHeaderAtom.c:51-67, after the common header *)
Definition vvhd_write (a : vvhd) : wr :=
  put8 (vh_ver a) ;; put24 (vh_flags a).
(* calculateSize, VolumetricVisualMediaHeaderAtom.c:37-49 *)
Definition vvhd_size (a : vvhd) : N := 12.
(* createFromInputStream, VolumetricVisualMediaHeaderAtom.c:69-85 *)
Definition vvhd_read (h : hdr) : rd vvhd :=
  let* vf := get_full in
  rret (mkVvhd (fst vf) (snd vf)).
Definition vvhd_codec : codec vvhd :=
  mkCodec (fun ty => ty =? 1987471460) (fun _ => 1987471460) vvhd_size vvhd_write vvhd_read. (* 'vvhd' *)

(* MP4MovieFragmentHeaderAtom in MP4Atoms.h; box 'mfhd' *)
Record mfhd := mkMfhd { mf_ver : N; mf_flags : N; mf_sequence : N }.
(* serialize, MovieFragmentHeaderAtom.c:36-52, after the common header *)
Definition mfhd_write (a : mfhd) : wr :=
  put8 (mf_ver a) ;; put24 (mf_flags a) ;; put32 (mf_sequence a).
(* calculateSize, MovieFragmentHeaderAtom.c:54-67 *)
Definition mfhd_size (a : mfhd) : N := 16.
(* createFromInputStream, MovieFragmentHeaderAtom.c:69-84 *)
Definition mfhd_read (h : hdr) : rd mfhd :=
  let* vf := get_full in
  let* sequence := get32 in
  rret (mkMfhd (fst vf) (snd vf) sequence).
Definition mfhd_codec : codec mfhd :=
  mkCodec (fun ty => ty =? 1835427940) (fun _ => 1835427940) mfhd_size mfhd_write mfhd_read. (* 'mfhd' *)

(* MP4TrackExtendsAtom in MP4Atoms.h; box 'trex' *)
Record trex := mkTrex { tx_ver : N; tx_flags : N; tx_trackID : N; tx_descIndex : N; tx_duration : N;
  tx_size : N; tx_sflags : N }.
(* serialize, TrackExtendsAtom.c:36-56, after the common header *)
Definition trex_write (a : trex) : wr :=
  put8 (tx_ver a) ;; put24 (tx_flags a) ;; put32 (tx_trackID a) ;; put32 (tx_descIndex a) ;;
  put32 (tx_duration a) ;; put32 (tx_size a) ;; put32 (tx_sflags a).
(* calculateSize, TrackExtendsAtom.c:58-71 *)
Definition trex_size (a : trex) : N := 32.
(* createFromInputStream, TrackExtendsAtom.c:73-93 *)
Definition trex_read (h : hdr) : rd trex :=
  let* vf := get_full in
  let* trackID := get32 in let* descIndex := get32 in let* duration := get32 in let* size := get32 in
  let* sflags := get32 in
  rret (mkTrex (fst vf) (snd vf) trackID descIndex duration size sflags).
Definition trex_codec : codec trex :=
  mkCodec (fun ty => ty =? 1953654136) (fun _ => 1953654136) trex_size trex_write trex_read. (* 'trex' *)

(* ISOPrimaryItemAtom in MP4Atoms.h; box 'pitm' *)
Record pitm := mkPitm { pi_ver : N; pi_flags : N; pi_item : N }.
(* serialize, PrimaryItemAtom.c:35-51, after the common header *)
Definition pitm_write (a : pitm) : wr :=
  put8 (pi_ver a) ;; put24 (pi_flags a) ;; put16 (pi_item a).
(* calculateSize, PrimaryItemAtom.c:53-66 *)
Definition pitm_size (a : pitm) : N := 14.
(* createFromInputStream, PrimaryItemAtom.c:68-84 *)
Definition pitm_read (h : hdr) : rd pitm :=
  let* vf := get_full in
  let* item := get16 in
  rret (mkPitm (fst vf) (snd vf) item).
Definition pitm_codec : codec pitm :=
  mkCodec (fun ty => ty =? 1885959277) (fun _ => 1885959277) pitm_size pitm_write pitm_read. (* 'pitm' *)

(* ISOMetaboxRelationAtom in MP4Atoms.h; box 'mere' *)
Record mere := mkMere { me_ver : N; me_flags : N; me_first : N; me_second : N; me_relation : N }.
(* serialize, MetaboxRelationAtom.c:38-57, after the common header *)
Definition mere_write (a : mere) : wr :=
  put8 (me_ver a) ;; put24 (me_flags a) ;; put32 (me_first a) ;; put32 (me_second a) ;; put8 (me_relation a).
(* calculateSize, MetaboxRelationAtom.c:59-72 *)
Definition mere_size (a : mere) : N := 21.
(* createFromInputStream, MetaboxRelationAtom.c:74-94 *)
Definition mere_read (h : hdr) : rd mere :=
  let* vf := get_full in
  let* first := get32 in let* second := get32 in let* relation := get8 in
  rret (mkMere (fst vf) (snd vf) first second relation).
Definition mere_codec : codec mere :=
  mkCodec (fun ty => ty =? 1835364965) (fun _ => 1835364965) mere_size mere_write mere_read. (* 'mere' *)

(* MP4ProducerReferenceTimeAtom in MP4Atoms.h; box 'prft' *)
Record prft := mkPrft { pr_ver : N; pr_flags : N; pr_track : N; pr_ntp : N; pr_mediaTime : N }.
(* serialize, ProducerReferenceTimeAtom.c:45-64, after the common header *)
Definition prft_write (a : prft) : wr :=
  put8 (pr_ver a) ;; put24 (pr_flags a) ;; put32 (pr_track a) ;; put64 (pr_ntp a) ;; put32 (pr_mediaTime a).
(* calculateSize, ProducerReferenceTimeAtom.c:66-82 *)
Definition prft_size (a : prft) : N := 28.
(* createFromInputStream, ProducerReferenceTimeAtom.c:84-104 *)
Definition prft_read (h : hdr) : rd prft :=
  let* vf := get_full in
  let* track := get32 in let* ntp := get64 in let* mediaTime := get32 in
  rret (mkPrft (fst vf) (snd vf) track ntp mediaTime).
Definition prft_codec : codec prft :=
  mkCodec (fun ty => ty =? 1886545524) (fun _ => 1886545524) prft_size prft_write prft_read. (* 'prft' *)

(* MP4OriginalFormatAtom in MP4Atoms.h; box 'frma' *)
Record frma := mkFrma { fo_format : N }.
(* serialize, OriginalFormatAtom.c:40-56, after the common header *)
Definition frma_write (a : frma) : wr :=
  put32 (fo_format a).
(* calculateSize, OriginalFormatAtom.c:58-71 *)
Definition frma_size (a : frma) : N := 12.
(* createFromInputStream, OriginalFormatAtom.c:73-89 *)
Definition frma_read (h : hdr) : rd frma :=
  let* format := get32 in
  rret (mkFrma format).
Definition frma_codec : codec frma :=
  mkCodec (fun ty => ty =? 1718775137) (fun _ => 1718775137) frma_size frma_write frma_read. (* 'frma' *)

(* MP4PCMConfigAtom in MP4Atoms.h; box 'pcmC' *)
Record pcmC := mkPcmC { pc_ver : N; pc_flags : N; pc_format : N; pc_bits : N }.
(* serialize, PCMConfigAtom.c:35-56, after the common header *)
Definition pcmC_write (a : pcmC) : wr :=
  put8 (pc_ver a) ;; put24 (pc_flags a) ;; put8 (pc_format a) ;; put8 (pc_bits a).
(* calculateSize, PCMConfigAtom.c:58-73 *)
Definition pcmC_size (a : pcmC) : N := 14.
(* createFromInputStream, PCMConfigAtom.c:75-96 *)
Definition pcmC_read (h : hdr) : rd pcmC :=
  let* vf := get_full in
  let* format := get8 in let* bits := get8 in
  rret (mkPcmC (fst vf) (snd vf) format bits).
Definition pcmC_codec : codec pcmC :=
  mkCodec (fun ty => ty =? 1885564227) (fun _ => 1885564227) pcmC_size pcmC_write pcmC_read. (* 'pcmC' *)

(* the video header, HeaderBoxModel.v; 'vmhd' *)
Definition vmhd_codec : codec vmhd :=
  mkCodec (fun ty => ty =? 1986881636) (fun _ => 1986881636) vmhd_size vmhd_write vmhd_read.

(* MP4TrackFragmentDecodeTimeAtom in MP4Atoms.h; box 'tfdt' *)
Record tfdt := mkTfdt { td_ver : N; td_flags : N; td_time : N }.
(* serialize, TrackFragmentDecodeTimeAtom.c:38-64. For other versions
   calculateSize (66-89) already fails with the same error, before any byte
   is written; here the error comes from the writer. *)
Definition tfdt_write (a : tfdt) : wr :=
  put8 (td_ver a) ;; put24 (td_flags a) ;;
  if td_ver a =? 1 then put64 (td_time a)
  else if td_ver a =? 0 then put32 (td_time a)
  else werr MP4NotImplementedErr.
(* calculateSize, TrackFragmentDecodeTimeAtom.c:66-89 *)
Definition tfdt_size (a : tfdt) : N := 12 + (if td_ver a =? 1 then 8 else 4).
(* createFromInputStream, TrackFragmentDecodeTimeAtom.c:91-117 *)
Definition tfdt_read (h : hdr) : rd tfdt :=
  let* vf := get_full in
  if fst vf =? 1 then let* t := get64 in rret (mkTfdt (fst vf) (snd vf) t)
  else if fst vf =? 0 then let* t := get32 in rret (mkTfdt (fst vf) (snd vf) t)
  else rerr MP4NotImplementedErr.
Definition tfdt_codec : codec tfdt :=
  mkCodec (fun ty => ty =? 1952867444) (fun _ => 1952867444) tfdt_size tfdt_write tfdt_read.

(* MP4BitRateAtom in MP4Atoms.h; boxes 'btrt' and 'bitr', told apart by the
   type member (MP4Atoms.c creates the same structure for both) *)
Record btrt := mkBtrt { bt_3gpp : bool; bt_buffer : N; bt_max : N; bt_avg : N }.
Definition btrt_type (a : btrt) : N := if bt_3gpp a then 1651078258 else 1651798644.
(* serialize, BitRateAtom.c:38-64 *)
Definition btrt_write (a : btrt) : wr :=
  if btrt_type a =? 1651798644
  then put32 (bt_buffer a) ;; put32 (bt_max a) ;; put32 (bt_avg a)
  else put32 (bt_avg a) ;; put32 (bt_max a).
(* calculateSize, BitRateAtom.c:66-80 *)
Definition btrt_size (a : btrt) : N := 16 + (if btrt_type a =? 1651798644 then 4 else 0).
(* createFromInputStream, BitRateAtom.c:82-107 *)
Definition btrt_read (h : hdr) : rd btrt :=
  if h_type h =? 1651798644
  then let* b := get32 in let* m := get32 in let* a := get32 in rret (mkBtrt false b m a)
  else let* a := get32 in let* m := get32 in rret (mkBtrt true 0 m a).
Definition btrt_codec : codec btrt :=
  mkCodec (fun ty => (ty =? 1651798644) || (ty =? 1651078258)) btrt_type btrt_size btrt_write btrt_read.

(* headers of new movies, tracks and media; [now] is MP4GetCurrentTime, u64
   seconds since 1904. The version member stays 0 (MP4CreateFullAtom,
   MP4Atoms.c:146, and no other assignment to it for these boxes).
   MP4CreateMovieHeaderAtom MovieHeaderAtom.c:164-195, MP4NewMovieExt
   MP4Movies.c:1338-1349 *)
Definition new_mvhd (now : N) : mvhd :=
  mkMvhd 0 0 now now 600 0 65536 256 (repeat 0 10) 65536 0 0 0 65536 0 0 0 1073741824 0 0 0 0 0 0 1.
(* MP4CreateTrackHeaderAtom TrackHeaderAtom.c:165-193, newTrackWithID
   MovieAtom.c:135-151; kind 1: visual, 2: audio, else neither *)
Definition new_tkhd (now id kind : N) : tkhd :=
  mkTkhd 0 7 now now id 0 0 (repeat 0 8) 0 0 (if kind =? 2 then 256 else 0) 0 65536 0 0 0 65536 0 0 0 1073741824
    (if kind =? 1 then 20971520 else 0) (if kind =? 1 then 15728640 else 0).
(* MP4CreateMediaHeaderAtom MediaHeaderAtom.c:120-142, setupNew MediaAtom.c:151-156 *)
Definition new_mdhd (now timeScale : N) : mdhd := mkMdhd 0 0 now now timeScale 0 21956 0.


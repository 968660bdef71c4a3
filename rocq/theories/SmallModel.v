(* SmallModel.v -- boxes of a few fields: codec parameters, protection, track
   and segment types, stereo video, audio layout and loudness, JPEG 2000. *)
From Verif Require Import Base AtomModel BoxModel KidsModel TextModel EntryModel.

(* ------------------------------------------------------------------ *)
(* Codec parameters of 3GPP                                            *)

Definition T_damr := fourcc 100 97 109 114.
Definition T_dawp := fourcc 100 97 119 112.
Definition T_d263 := fourcc 100 50 54 51.
(* AMRSpecificInfoAtom.c: serialize 38-58, calculateSize 60-73,
   createFromInputStream 75-95; the fields are all u32 *)
Record damr := mkDamr { am_vendor : N; am_version : N; am_modes : N; am_period : N; am_frames : N }.
Definition damr_w (a : damr) : wr :=
  put32 (am_vendor a) ;; put8 (am_version a) ;; put16 (am_modes a) ;; put8 (am_period a) ;; put8 (am_frames a).
Definition damr_rd (h : hdr) : rd damr :=
  let* a := get32 in let* b := get8 in let* c := get16 in let* d := get8 in let* e := get8 in rret (mkDamr a b c d e).
Definition damr_codec : codec damr := mkCodec (N.eqb T_damr) (fun _ => T_damr) (fun _ => 8 + 9) damr_w damr_rd.
(* AMRWPSpecificInfoAtom.c: serialize 38-54, calculateSize 56-69,
   createFromInputStream 71-88 *)
Record dawp := mkDawp { aw_vendor : N; aw_version : N }.
Definition dawp_w (a : dawp) : wr := put32 (aw_vendor a) ;; put8 (aw_version a).
Definition dawp_rd (h : hdr) : rd dawp := let* a := get32 in let* b := get8 in rret (mkDawp a b).
Definition dawp_codec : codec dawp := mkCodec (N.eqb T_dawp) (fun _ => T_dawp) (fun _ => 8 + 5) dawp_w dawp_rd.

(* while(bytesRead < size) { MP4ParseAtom; bytesRead += atom->size; addAtom }:
   free space boxes are kept here; the recursion is bounded by the input *)
Fixpoint all_loop {T} (c : codec T) (dflt : T) (fuel : nat) (size : N) (acc : list (atom T)) : rd (list (atom T)) := fun s =>
  if rdn s <? size then
    match fuel with
    | O => Err OutOfFuel
    | S f => do ar <- box_at c dflt s; all_loop c dflt f size (acc ++ [fst ar]) (snd ar)
    end
  else Ok (acc, s).
Definition all_rd {T} (c : codec T) (dflt : T) (h : hdr) : rd (list (atom T)) := fun s =>
  all_loop c dflt (length (inp s) + 1) (h_size h) [] s.
(* H263SpecificInfoAtom.c: serialize 60-80, calculateSize 82-96,
   createFromInputStream 98-127 *)
Record d263 (T : Type) := mkD263 { hx_vendor : N; hx_version : N; hx_level : N; hx_profile : N; hx_kids : list (atom T) }.
Arguments mkD263 {T}. Arguments hx_vendor {T}. Arguments hx_version {T}. Arguments hx_level {T}. Arguments hx_profile {T}. Arguments hx_kids {T}.
Definition d263_w {T} (c : codec T) (a : d263 T) : wr :=
  put32 (hx_vendor a) ;; put8 (hx_version a) ;; put8 (hx_level a) ;; put8 (hx_profile a) ;; boxes_w c (hx_kids a).
Definition d263_rd {T} (c : codec T) (dflt : T) (h : hdr) : rd (d263 T) :=
  let* a := get32 in let* b := get8 in let* l := get8 in let* p := get8 in
  let* k := all_rd c dflt h in
  let* br := getrdn in
  if br =? h_size h then rret (mkD263 a b l p k) else rerr MP4BadDataErr.
Definition d263_codec {T} (c : codec T) (dflt : T) : codec (d263 T) :=
  mkCodec (N.eqb T_d263) (fun _ => T_d263) (fun a => boxes_size c (8 + 7) (hx_kids a)) (d263_w c) (d263_rd c dflt).

(* ------------------------------------------------------------------ *)
(* ISMA protection                                                     *)

Definition T_iSFM := fourcc 105 83 70 77.
Definition T_iSLT := fourcc 105 83 76 84.
Definition T_iKMS := fourcc 105 75 77 83.
Definition T_csch := fourcc 99 115 99 104.
(* ISMASampleFormatAtom.c: serialize 40-58, calculateSize 60-73,
   createFromInputStream 75-93 *)
Record isfm := mkIsfm { if_ver : N; if_flags : N; if_selective : N; if_klen : N; if_ivlen : N }.
Definition isfm_w (a : isfm) : wr :=
  put8 (if_ver a) ;; put24 (if_flags a) ;; put8 (if_selective a) ;; put8 (if_klen a) ;; put8 (if_ivlen a).
Definition isfm_rd (h : hdr) : rd isfm :=
  let* vf := get_full in let* a := get8 in let* b := get8 in let* c := get8 in rret (mkIsfm (fst vf) (snd vf) a b c).
Definition isfm_codec : codec isfm := mkCodec (N.eqb T_iSFM) (fun _ => T_iSFM) (fun _ => 12 + 3) isfm_w isfm_rd.
(* ISMASaltAtom.c: serialize 40-56, calculateSize 58-71,
   createFromInputStream 73-89 *)
Definition islt_codec : codec N :=
  mkCodec (N.eqb T_iSLT) (fun _ => T_iSLT) (fun _ => 8 + 8) put64 (fun _ => get64).
(* ISMAKMSAtom.c: serialize 46-71, calculateSize 73-86,
   createFromInputStream 88-113; [km_url] is the buffer kms_url points to. The
   test for a negative number of bytes (101) never holds: the difference is
   unsigned. *)
Record ikms := mkIkms { km_ver : N; km_flags : N; km_url : option (list N) }.
Definition ikms_size (a : ikms) : N := w32 (12 + 1 + match km_url a with Some b => slen b | None => 0 end).
Definition ikms_w (a : ikms) : wr :=
  put8 (km_ver a) ;; put24 (km_flags a) ;; match km_url a with Some b => put_str b | None => put8 0 end.
Definition ikms_rd (h : hdr) : rd ikms :=
  let* vf := get_full in
  let* br := getrdn in
  let n := sub32 (h_size h) br in
  if n =? 0 then rret (mkIkms (fst vf) (snd vf) None)
  else let* b := take (N.to_nat n) in rret (mkIkms (fst vf) (snd vf) (Some b)).
Definition ikms_codec : codec ikms := mkCodec (N.eqb T_iKMS) (fun _ => T_iKMS) ikms_size ikms_w ikms_rd.
(* CompatibleSchemeTypeAtom.c: serialize 42-64, calculateSize 66-86 and
   createFromInputStream 88-139 are those of SchemeTypeAtom.c. The type of a
   box that was read is that of the file; a new one (141-165) is an schm box. *)
Record csch := mkCsch { cs_ty : N; cs_body : schm }.
Definition csch_new (ty ve : N) (url : option (list N)) : csch := mkCsch T_schm (mkSchm 0 0 ty ve url).
Definition csch_codec : codec csch :=
  mkCodec (N.eqb T_csch) cs_ty (fun a => schm_size (cs_body a)) (fun a => schm_write (cs_body a))
    (fun h => rmap (mkCsch (h_type h)) (schm_read h)).

(* ------------------------------------------------------------------ *)
(* Types of tracks and segments                                        *)

Definition T_ttyp := fourcc 116 116 121 112.
Definition T_styp := fourcc 115 116 121 112.
(* TrackTypeAtom.c, SegmentTypeAtom.c (the same lines): full boxes with the
   contents of MJ2FileTypeAtom.c; getStandard 100-116, addStandard 119-136 and
   setBrand 138-157 are the code modelled by [ftyp_get], [ftyp_add] and
   [ftyp_set]. serialize 49-74, calculateSize 76-90, createFromInputStream
   159-210. *)
Record typed := mkTyped { ty_ver : N; ty_flags : N; ty_brands : ftyp }.
Definition typed_w (a : typed) : wr := put8 (ty_ver a) ;; put24 (ty_flags a) ;; ftyp_write (ty_brands a).
Definition typed_size (a : typed) : N := w32 (12 + 8 + len (ft_list (ty_brands a)) * 4).
Definition typed_rd (h : hdr) : rd typed :=
  let* vf := get_full in let* b := ftyp_read h in rret (mkTyped (fst vf) (snd vf) b).
Definition typed_codec (ty : N) : codec typed := mkCodec (N.eqb ty) (fun _ => ty) typed_size typed_w typed_rd.

(* TrackExtensionPropertiesAtom.c: serialize 76-93, calculateSize 95-110,
   createFromInputStream 112-130 *)
Definition T_trep := fourcc 116 114 101 112.
Record trep (T : Type) := mkTrep { tp_ver : N; tp_flags : N; tp_track : N; tp_kids : list (atom T) }.
Arguments mkTrep {T}. Arguments tp_ver {T}. Arguments tp_flags {T}. Arguments tp_track {T}. Arguments tp_kids {T}.
Definition trep_w {T} (c : codec T) (a : trep T) : wr :=
  put8 (tp_ver a) ;; put24 (tp_flags a) ;; put32 (tp_track a) ;; boxes_w c (tp_kids a).
Definition trep_rd {T} (c : codec T) (dflt : T) (h : hdr) : rd (trep T) :=
  let* vf := get_full in let* t := get32 in let* l := exts_rd c dflt h in rret (mkTrep (fst vf) (snd vf) t l).
Definition trep_codec {T} (c : codec T) (dflt : T) : codec (trep T) :=
  mkCodec (N.eqb T_trep) (fun _ => T_trep) (fun a => boxes_size c (12 + 4) (tp_kids a)) (trep_w c) (trep_rd c dflt).
(* getAtom, 38-62: the first box of the type; outAtom is left alone when
   there is none *)
Definition trep_get {T} (c : codec T) (a : trep T) (ty : N) (out : option (atom T)) : option (atom T) :=
  match find (fun x => atype T (c_ty c) x =? ty) (tp_kids a) with Some x => Some x | None => out end.
(* addAtom, 64-74 *)
Definition trep_add {T} (a : trep T) (x : atom T) : trep T := mkTrep (tp_ver a) (tp_flags a) (tp_track a) (tp_kids a ++ [x]).

(* AdditionalMetaDataContainerAtom.c: addAtom 46-69 keeps meta and mere boxes,
   serialize 71-94, calculateSize 96-115, createFromInputStream 117-124 *)
Definition T_mere := fourcc 109 101 114 101.
Record meco (T : Type) := mkMeco { mc_metas : list (atom T); mc_rels : list (atom T) }.
Arguments mkMeco {T}. Arguments mc_metas {T}. Arguments mc_rels {T}.
Definition meco_sort {T} (c : codec T) (l : list (atom T)) : meco T :=
  mkMeco (filter (fun x => atype T (c_ty c) x =? T_meta) l) (filter (fun x => atype T (c_ty c) x =? T_mere) l).
Definition meco_codec {T} (c : codec T) (dflt : T) : codec (meco T) :=
  boxed c dflt T_meco (fun a => mc_metas a ++ mc_rels a) (meco_sort c).
(* addMeta, 126-150: a box of the type of one that is there already -- that
   is, any second meta box -- is refused *)
Definition meco_add {T} (c : codec T) (a : meco T) (m : atom T) : res (meco T) :=
  if existsb (fun x => atype T (c_ty c) x =? atype T (c_ty c) m) (mc_metas a) then Err MP4BadParamErr
  else Ok (mkMeco (mc_metas a ++ [m]) (mc_rels a)).

(* ------------------------------------------------------------------ *)
(* Stereo video                                                        *)

Definition T_stvi := fourcc 115 116 118 105.
Definition T_ster := fourcc 115 116 101 114.
(* StereoVideoGroupAtom.c: serialize 43-70, calculateSize 72-88,
   createFromInputStream 90-112. The error of reading version and flags is
   overwritten by the next read, which fails at the end of the stream, too. *)
Record ster := mkSter { sv_ver : N; sv_flags : N; sv_group : N; sv_left : N }.
Definition ster_w (a : ster) : wr :=
  put8 (sv_ver a) ;; put24 (sv_flags a) ;; put32 (sv_group a) ;; put32 (w32 (sv_left a * 2147483648)).
Definition ster_rd (h : hdr) : rd ster :=
  let* vf := get_full in let* g := get32 in let* l := get32 in rret (mkSter (fst vf) (snd vf) g (l / 2147483648)).
Definition ster_codec : codec ster := mkCodec (N.eqb T_ster) (fun _ => T_ster) (fun _ => 12 + 8) ster_w ster_rd.

(* read8 through a pointer into an array of [n] bytes stores four: the first
   store that ends after the array is that of element n-3, or of the first
   one (memory streams store even when the read fails; here the stream is a
   file). *)
Definition get_bytes_wide (n : N) : rd (list N) :=
  if n =? 0 then rret [] else let* _ := take (N.to_nat (N.max 1 (n - 2))) in rub.
(* StereoVideoAtom.c: serialize 70-106 (with the boxes of atomList),
   calculateSize 108-123 (without), createFromInputStream 125-154 (without) *)
Record stvi (T : Type) := mkStvi { st_ver : N; st_flags : N; st_reserved : N; st_single : N; st_scheme : N; st_ind : list N; st_kids : list (atom T) }.
Arguments mkStvi {T}. Arguments st_ver {T}. Arguments st_flags {T}. Arguments st_reserved {T}. Arguments st_single {T}.
Arguments st_scheme {T}. Arguments st_ind {T}. Arguments st_kids {T}.
Definition stvi_size {T} (a : stvi T) : N := w32 (12 + 12 + len (st_ind a)).
Definition stvi_w {T} (c : codec T) (a : stvi T) : wr :=
  put8 (st_ver a) ;; put24 (st_flags a) ;; put32 (w32 (st_reserved a * 4 + st_single a)) ;; put32 (st_scheme a) ;;
  put32 (len (st_ind a)) ;; putl (st_ind a) ;; boxes_w c (st_kids a).
Definition stvi_rd {T} (h : hdr) : rd (stvi T) :=
  let* vf := get_full in let* t := get32 in let* s := get32 in let* n := get32 in
  let* b := get_bytes_wide n in
  rret (mkStvi (fst vf) (snd vf) (N.land (t / 4) 16383) (N.land t 3) s b []).
Definition stvi_codec {T} (c : codec T) : codec (stvi T) :=
  mkCodec (N.eqb T_stvi) (fun _ => T_stvi) stvi_size (stvi_w c) stvi_rd.

(* DegradationPriorityAtom.c: serialize 44-63, calculateSize 65-78,
   createFromInputStream 80-107: half of the remaining bytes is the number of
   priorities *)
Record stdp := mkStdp { dp_ver : N; dp_flags : N; dp_prio : list N }.
Definition stdp_w (a : stdp) : wr := put8 (dp_ver a) ;; put24 (dp_flags a) ;; wmap put16 (dp_prio a).
Definition stdp_rd (h : hdr) : rd stdp :=
  let* vf := get_full in
  let* br := getrdn in
  let* l := rrep (N.to_nat (sub32 (h_size h) br / 2)) get16 in
  rret (mkStdp (fst vf) (snd vf) l).
Definition stdp_codec : codec stdp :=
  mkCodec (N.eqb T_stdp) (fun _ => T_stdp) (fun a => w32 (12 + len (dp_prio a) * 2)) stdp_w stdp_rd.

(* ------------------------------------------------------------------ *)
(* Audio: loudness, channel layout, downmix                            *)

Definition T_ludt := fourcc 108 117 100 116.
Definition T_tlou := fourcc 116 108 111 117.
Definition T_alou := fourcc 97 108 111 117.
Definition T_chnl := fourcc 99 104 110 108.
Definition T_dmix := fourcc 100 109 105 120.
(* a number of 12 bits, with sign, in its two's complement code and back:
   LoudnessBaseAtom.c:74-80 and 146-158 *)
Definition u12 (p : Z) : N := Z.to_N (p mod 4096)%Z.
Definition s12 (x : N) : Z := if x <? 2048 then Z.of_N x else (Z.of_N x - 4096)%Z.
Record meas := mkMeas { me_def : N; me_val : N; me_sys : N; me_rel : N }.
(* LoudnessBaseAtom.c, for the types tlou and alou; the number of measurements
   is taken to be that of the list *)
Record lou := mkLou { lo_ty : N; lo_ver : N; lo_flags : N; lo_reserved : N; lo_downmix : N; lo_drc : N; lo_peak : Z; lo_true : Z;
  lo_sys : N; lo_rel : N; lo_meas : list meas }.
(* serialize, 57-99 *)
Definition meas_w (m : meas) : wr := put8 (me_def m) ;; put8 (me_val m) ;; put8 (w8 (me_sys m * 16 + me_rel m)).
Definition lou_w (a : lou) : wr :=
  put8 (lo_ver a) ;; put24 (lo_flags a) ;;
  put8 (w8 (lo_reserved a * 32 + lo_downmix a / 4)) ;;
  put8 (w8 (lo_downmix a * 64 + lo_drc a)) ;;
  put8 (u12 (lo_peak a) / 16) ;;
  put8 (u12 (lo_peak a) mod 16 * 16 + u12 (lo_true a) / 256) ;;
  put8 (u12 (lo_true a) mod 256) ;;
  put8 (w8 (lo_sys a * 16 + lo_rel a)) ;;
  put8 (len (lo_meas a)) ;; wmap meas_w (lo_meas a).
(* calculateSize, 101-117 *)
Definition lou_size (a : lou) : N := w32 (12 + 7 + 3 * len (lo_meas a)).
(* createFromInputStream, 119-180. A measurement is an object of four bytes:
   the value, its second byte, is stored as four bytes (169). *)
Definition lou_rd (h : hdr) : rd lou :=
  let* vf := get_full in
  let* a := get8 in let* b := get8 in let* c := get8 in let* d := get8 in let* e := get8 in let* f := get8 in
  let* n := get8 in
  if n =? 0 then
    rret (mkLou (h_type h) (fst vf) (snd vf) (a / 32) (a mod 32 * 4 + b / 64) (b mod 64) (s12 (c * 16 + d / 16)) (s12 (d mod 16 * 256 + e))
      (f / 16) (f mod 16) [])
  else let* _ := take 2 in rub.
Definition lou_codec : codec lou :=
  mkCodec (fun t => (t =? T_tlou) || (t =? T_alou)) lo_ty lou_size lou_w lou_rd.

(* LoudnessAtom.c: addAtom 52-66 keeps tlou and alou boxes; serialize 68-86,
   calculateSize 127-144, createFromInputStream 146-172: a child that ends
   after the box is not noticed *)
Record ludt (T : Type) := mkLudt { lu_tracks : list (atom T); lu_albums : list (atom T) }.
Arguments mkLudt {T}. Arguments lu_tracks {T}. Arguments lu_albums {T}.
Definition ludt_sort {T} (c : codec T) (l : list (atom T)) : ludt T :=
  mkLudt (filter (fun x => atype T (c_ty c) x =? T_tlou) l) (filter (fun x => atype T (c_ty c) x =? T_alou) l).
Definition ludt_codec {T} (c : codec T) (dflt : T) : codec (ludt T) :=
  mkCodec (N.eqb T_ludt) (fun _ => T_ludt) (fun a => boxes_size c (boxes_size c 8 (lu_tracks a)) (lu_albums a))
    (fun a => boxes_w c (lu_tracks a) ;; boxes_w c (lu_albums a))
    (fun h => rmap (ludt_sort c) (all_rd c dflt h)).

(* ChannelLayoutAtom.c. Angles are kept as their two's complement codes. *)
Record speaker := mkSpk { sp_pos : N; sp_az : N; sp_el : N }.
Record chnl := mkChnl { ch_ver : N; ch_flags : N; ch_count : N; ch_struct : N; ch_layout : N; ch_spk : list speaker; ch_omit : N;
  ch_objects : N; ch_format : N; ch_base : N; ch_lcount : N; ch_order : N; ch_present : N }.
Definition has_channels (s : N) : bool := negb (N.land s 1 =? 0).
Definition has_objects (s : N) : bool := negb (N.land s 2 =? 0).
Definition EXPLICIT : N := 126.
Definition spk_w (p : speaker) : wr :=
  put8 (sp_pos p) ;; (if sp_pos p =? EXPLICIT then put16 (sp_az p) ;; put8 (sp_el p) else wret).
Definition spk_size (p : speaker) : N := if sp_pos p =? EXPLICIT then 4 else 1.
(* the first [n] positions of the list; calculateSize uses an uninitialised
   pointer when there are fewer (160, 189) *)
Definition spks_w (n : N) (l : list speaker) : wr :=
  if len l <? n then wub else wmap spk_w (firstn (N.to_nat n) l).
Definition spks_size (n : N) (l : list speaker) : N := fold_left (fun a p => a + spk_size p) (firstn (N.to_nat n) l) 0.
(* serialize, ChannelLayoutAtom.c:55-137 *)
Definition chnl_w (a : chnl) : wr :=
  put8 (ch_ver a) ;; put24 (ch_flags a) ;;
  (if ch_ver a =? 0 then
     put8 (ch_struct a) ;;
     (if has_channels (ch_struct a) then
        put8 (ch_layout a) ;;
        (if ch_layout a =? 0 then spks_w (ch_count a) (ch_spk a) else put64 (ch_omit a))
      else wret) ;;
     (if has_objects (ch_struct a) then put8 (ch_objects a) else wret)
   else
     put8 (w8 (ch_struct a * 16 + ch_format a)) ;; put8 (ch_base a) ;;
     (if has_channels (ch_struct a) then
        put8 (ch_layout a) ;;
        (if ch_layout a =? 0 then put8 (ch_lcount a) ;; spks_w (ch_lcount a) (ch_spk a)
         else put8 (w8 (ch_order a * 2 + ch_present a)) ;; (if ch_present a =? 0 then wret else put64 (ch_omit a)))
      else wret)).
(* calculateSize, 139-212 *)
Definition chnl_size (a : chnl) : N :=
  w32 (12 +
    (if ch_ver a =? 0 then
       1 + (if has_channels (ch_struct a) then 1 + (if ch_layout a =? 0 then spks_size (ch_count a) (ch_spk a) else 8) else 0) +
       (if has_objects (ch_struct a) then 1 else 0)
     else
       2 + (if has_channels (ch_struct a) then
              1 + (if ch_layout a =? 0 then 1 + spks_size (ch_lcount a) (ch_spk a) else 1 + (if ch_present a =? 0 then 0 else 8))
            else 0))).
(* createFromInputStream, 214-310. A position is an object of six bytes, of
   which the elevation is the fifth: it is stored as four bytes (239, 287). In
   version 0 the positions go on to the end of the box. *)
Definition spk_rd : rd speaker :=
  let* p := get8 in if p =? EXPLICIT then let* _ := take 3 in rub else rret (mkSpk p 0 0).
Fixpoint spk_loop (fuel : nat) (size : N) (acc : list speaker) : rd (list speaker) := fun s =>
  if rdn s <? size then
    match fuel with
    | O => Err OutOfFuel
    | S f => do ps <- spk_rd s; spk_loop f size (acc ++ [fst ps]) (snd ps)
    end
  else Ok (acc, s).
Definition chnl_rd (h : hdr) : rd chnl :=
  let* vf := get_full in
  if fst vf =? 0 then
    let* st := get8 in
    let* lp := (if has_channels st then
                  let* l := get8 in
                  if l =? 0 then let* p := (fun s => spk_loop (length (inp s) + 1) (h_size h) [] s) in rret (0, p, 0)
                  else let* o := get64 in rret (l, [], o)
                else rret (0, [], 0)) in
    let* ob := (if has_objects st then get8 else rret 0) in
    rret (mkChnl 0 (snd vf) 0 st (fst (fst lp)) (snd (fst lp)) (snd lp) ob 0 0 0 0 0)
  else
    let* t := get8 in
    let* b := get8 in
    if has_channels (t / 16) then
      let* l := get8 in
      if l =? 0 then
        let* n := get8 in
        let* p := rrep (N.to_nat n) spk_rd in
        rret (mkChnl (fst vf) (snd vf) 0 (t / 16) 0 p 0 0 (t mod 16) b n 0 0)
      else
        let* q := get8 in
        let pr := N.land q 1 in
        let* o := (if pr =? 0 then rret 0 else get64) in
        rret (mkChnl (fst vf) (snd vf) 0 (t / 16) l [] o 0 (t mod 16) b 0 (N.land (q / 2) 7) pr)
    else rret (mkChnl (fst vf) (snd vf) 0 (t / 16) 0 [] 0 0 (t mod 16) b 0 0 0).
Definition chnl_codec : codec chnl := mkCodec (N.eqb T_chnl) (fun _ => T_chnl) chnl_size chnl_w chnl_rd.

(* DownMixInstructionsAtom.c; [dm_coef] is the buffer of coefficients *)
Record dmix := mkDmix { dm_ver : N; dm_flags : N; dm_base : N; dm_layout : N; dm_reserved : N; dm_count : N; dm_stream : N; dm_id : N; dm_coef : list N }.
(* the coefficients two to a byte; an odd one is followed by 15 *)
Fixpoint nibbles_w (l : list N) : wr :=
  match l with
  | x :: y :: r => put8 (w8 (w8 (x * 16) + y)) ;; nibbles_w r
  | [x] => put8 (w8 (w8 (x * 16) + 15))
  | [] => wret
  end.
(* serialize 40-89, calculateSize 91-112 *)
Definition dmix_n (a : dmix) : N := dm_base a * dm_count a.
Definition dmix_w (a : dmix) : wr :=
  put8 (dm_ver a) ;; put24 (dm_flags a) ;; put8 (dm_layout a) ;; put8 (w8 (dm_reserved a * 128 + dm_count a)) ;;
  put8 (w8 (dm_stream a * 128 + dm_id a)) ;;
  (if dm_stream a =? 0 then
     if len (dm_coef a) <? dmix_n a then wub else nibbles_w (firstn (N.to_nat (dmix_n a)) (dm_coef a))
   else wret).
Definition dmix_size (a : dmix) : N :=
  w32 (12 + 3 + (if dm_stream a =? 0 then dmix_n a / 2 + dmix_n a mod 2 else 0)).
(* createFromInputStream, 114-149: the count of 16 bits starts again after
   65536 coefficients, and the buffer with it. The number of channels of the
   entry is not set. *)
Fixpoint nibbles_loop (fuel : nat) (size : N) (buf : list N) (count : N) : rd (list N) := fun s =>
  if rdn s <? size then
    match fuel with
    | O => Err OutOfFuel
    | S f =>
        do bs <- get8 s;
        nibbles_loop f size (firstn (N.to_nat count) buf ++ [fst bs / 16; fst bs mod 16]) (w16 (count + 2)) (snd bs)
    end
  else Ok (buf, s).
Definition dmix_rd (h : hdr) : rd dmix :=
  let* vf := get_full in
  let* l := get8 in let* a := get8 in let* b := get8 in
  let* co := (fun s => nibbles_loop (length (inp s) + 1) (h_size h) [] 0 s) in
  rret (mkDmix (fst vf) (snd vf) 0 l (a / 128) (a mod 128) (b / 128) (b mod 128) co).
Definition dmix_codec : codec dmix := mkCodec (N.eqb T_dmix) (fun _ => T_dmix) dmix_size dmix_w dmix_rd.

(* ------------------------------------------------------------------ *)
(* JPEG 2000                                                           *)

Definition T_jp := fourcc 106 80 32 32.
(* a number stored as it is in memory: little endian *)
Definition le32 (v : N) : list N := rev (be32 v).
Definition le16 (v : N) : list N := rev (be16 v).
(* MJ2SignatureAtom.c: serialize 38-53 copies the number as it is in memory,
   calculateSize 55-68, createFromInputStream 70-84 *)
Definition jp_codec : codec N :=
  mkCodec (N.eqb T_jp) (fun _ => T_jp) (fun _ => 8 + 4) (fun s => putl (le32 s)) (fun _ => get32).
(* MJ2CreateSignatureAtom, MJ2SignatureAtom.c:86-112 *)
Definition jp_new : N := 218793738.
(* MJ2ImageHeaderAtom.c: serialize 38-62 copies the fields as they are in
   memory, calculateSize 64-79, createFromInputStream 81-103 *)
Record ihdr := mkIhdr { ih_height : N; ih_width : N; ih_comps : N; ih_bpc : N; ih_ctype : N; ih_csunk : N; ih_ip : N }.
Definition ihdr_w (a : ihdr) : wr :=
  putl (le32 (ih_height a)) ;; putl (le32 (ih_width a)) ;; putl (le16 (ih_comps a)) ;;
  put8 (ih_bpc a) ;; put8 (ih_ctype a) ;; put8 (ih_csunk a) ;; put8 (ih_ip a).
Definition ihdr_rd (h : hdr) : rd ihdr :=
  let* a := get32 in let* b := get32 in let* c := get16 in let* d := get8 in let* e := get8 in let* f := get8 in let* g := get8 in
  rret (mkIhdr a b c d e f g).
Definition ihdr_codec : codec ihdr := mkCodec (N.eqb T_ihdr) (fun _ => T_ihdr) (fun _ => 8 + 14) ihdr_w ihdr_rd.
(* MJ2BitsPerComponentAtom.c: serialize 43-65, calculateSize 67-80,
   createFromInputStream 97-130 *)
Definition bpcc_codec : codec (list N) :=
  mkCodec (N.eqb T_bpcc) (fun _ => T_bpcc) (fun l => w32 (8 + len l)) (wmap put8)
    (fun h => let* br := getrdn in
              let n := sub32 (h_size h) br in
              if n =? 0 then rerr MP4BadDataErr else get_bytes_wide n).
(* addbpcItem, MJ2BitsPerComponentAtom.c:83-95 *)
Definition bpcc_add (l : list N) (x : N) : list N := l ++ [x].
(* MJ2ColorSpecificationAtom.c: serialize 43-72, calculateSize 74-97,
   createFromInputStream 99-129: of other methods than the two nothing more is
   read *)
Record colr := mkColr { co_method : N; co_prec : N; co_approx : N; co_enum : N; co_profile : list N }.
Definition colr_w (a : colr) : wr :=
  put8 (co_method a) ;; put8 (co_prec a) ;; put8 (co_approx a) ;;
  (if co_method a =? 1 then put32 (co_enum a) else if co_method a =? 2 then putl (co_profile a) else wret).
Definition colr_size (a : colr) : N :=
  w32 (8 + 3 + (if co_method a =? 1 then 4 else if co_method a =? 2 then len (co_profile a) else 0)).
Definition colr_rd (h : hdr) : rd colr :=
  let* m := get8 in let* p := get8 in let* x := get8 in
  if m =? 1 then let* e := get32 in rret (mkColr m p x e [])
  else if m =? 2 then
    let* br := getrdn in
    let* b := take (N.to_nat (sub32 (h_size h) br)) in rret (mkColr m p x 0 b)
  else rret (mkColr m p x 0 []).
Definition colr_codec : codec colr := mkCodec (N.eqb T_colr) (fun _ => T_colr) colr_size colr_w colr_rd.

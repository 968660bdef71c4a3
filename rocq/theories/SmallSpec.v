(* SmallSpec.v -- the boxes of SmallModel.v as their specifications lay them
   out (3GPP TS 26.244, ISMACryp, ISO/IEC 14496-12, 15444-3, 23003-4). *)
From Verif Require Import Base BoxSpec BoxModel AtomModel KidsModel KidsProofs TextModel TextSpec EntryModel EntrySpec SmallModel.

Definition same {A} (a : A) : A := a.
Definition damr_layout : layout damr := mkLayout (fun _ => code "damr")
  (fun a => be32 (am_vendor a) ++ be8 (am_version a) ++ be16 (am_modes a) ++ be8 (am_period a) ++ be8 (am_frames a)) same
  (fun a => am_vendor a < 4294967296 /\ am_version a < 256 /\ am_modes a < 65536 /\ am_period a < 256 /\ am_frames a < 256).
Definition dawp_layout : layout dawp := mkLayout (fun _ => code "dawp")
  (fun a => be32 (aw_vendor a) ++ be8 (aw_version a)) same (fun a => aw_vendor a < 4294967296 /\ aw_version a < 256).
Definition d263_layout {T} (c : codec T) (y : layout T) : layout (d263 T) := mkLayout (fun _ => code "d263")
  (fun a => be32 (hx_vendor a) ++ be8 (hx_version a) ++ be8 (hx_level a) ++ be8 (hx_profile a) ++ kids_bytes c y (hx_kids a))
  (fun a => mkD263 (hx_vendor a) (hx_version a) (hx_level a) (hx_profile a) (map (strip T (l_view y)) (hx_kids a)))
  (fun a => hx_vendor a < 4294967296 /\ hx_version a < 256 /\ hx_level a < 256 /\ hx_profile a < 256 /\ Forall (kid_ok c y) (hx_kids a)).

Definition isfm_layout : layout isfm := mkLayout (fun _ => code "iSFM")
  (fun a => full (if_ver a) (if_flags a) ++ be8 (if_selective a) ++ be8 (if_klen a) ++ be8 (if_ivlen a)) same
  (fun a => full_ok (if_ver a) (if_flags a) /\ if_selective a < 256 /\ if_klen a < 256 /\ if_ivlen a < 256).
Definition islt_layout : layout N := mkLayout (fun _ => code "iSLT") be64 same (fun s => s < 18446744073709551616).
(* no address is an empty one *)
Definition ikms_layout : layout ikms := mkLayout (fun _ => code "iKMS")
  (fun a => full (km_ver a) (km_flags a) ++ match km_url a with Some b => b | None => [0] end)
  (fun a => mkIkms (km_ver a) (km_flags a) (Some (match km_url a with Some b => b | None => [0] end)))
  (fun a => full_ok (km_ver a) (km_flags a) /\ match km_url a with Some b => exists s, text s /\ b = cstr s | None => True end).
Definition csch_layout : layout csch := mkLayout (fun _ => code "csch")
  (fun a => l_body schm_layout (cs_body a)) (fun a => mkCsch (code "csch") (l_view schm_layout (cs_body a)))
  (fun a => cs_ty a = code "csch" /\ l_ok schm_layout (cs_body a)).

(* version and flags, then what a file type box has *)
Definition typed_layout (ty : N) : layout typed := mkLayout (fun _ => ty)
  (fun a => full (ty_ver a) (ty_flags a) ++ l_body ftyp_layout (ty_brands a)) same
  (fun a => full_ok (ty_ver a) (ty_flags a) /\ l_ok ftyp_layout (ty_brands a)).
Definition trep_layout {T} (c : codec T) (y : layout T) : layout (trep T) := mkLayout (fun _ => code "trep")
  (fun a => full (tp_ver a) (tp_flags a) ++ be32 (tp_track a) ++ kids_bytes c y (tp_kids a))
  (fun a => mkTrep (tp_ver a) (tp_flags a) (tp_track a) (kid_view y (tp_kids a)))
  (fun a => full_ok (tp_ver a) (tp_flags a) /\ tp_track a < 4294967296 /\ Forall (kid_ok c y) (tp_kids a)).
(* meco: meta boxes, then relations *)
Definition of_type {T} (c : codec T) (ty : N) (l : list (atom T)) : Prop := Forall (fun x => atype T (c_ty c) x = ty) l.
Definition meco_layout {T} (c : codec T) (y : layout T) : layout (meco T) := mkLayout (fun _ => code "meco")
  (fun a => kids_bytes c y (mc_metas a) ++ kids_bytes c y (mc_rels a))
  (fun a => mkMeco (map (strip T (l_view y)) (mc_metas a)) (map (strip T (l_view y)) (mc_rels a)))
  (fun a => Forall (kid_ok c y) (mc_metas a) /\ Forall (kid_ok c y) (mc_rels a) /\
     of_type c (code "meta") (mc_metas a) /\ of_type c (code "mere") (mc_rels a)).

Definition ster_layout : layout ster := mkLayout (fun _ => code "ster")
  (fun a => full (sv_ver a) (sv_flags a) ++ be32 (sv_group a) ++ [sv_left a * 128; 0; 0; 0]) same
  (fun a => full_ok (sv_ver a) (sv_flags a) /\ sv_group a < 4294967296 /\ sv_left a < 2).
(* without indication bytes and boxes (see C67_stereo_refuted) *)
Definition stvi_layout {T} : layout (stvi T) := mkLayout (fun _ => code "stvi")
  (fun a => full (st_ver a) (st_flags a) ++ be32 (st_reserved a * 4 + st_single a) ++ be32 (st_scheme a) ++ be32 0) same
  (fun a => full_ok (st_ver a) (st_flags a) /\ st_reserved a < 16384 /\ st_single a < 4 /\ st_scheme a < 4294967296 /\ st_ind a = [] /\ st_kids a = []).
Definition stdp_layout : layout stdp := mkLayout (fun _ => code "stdp")
  (fun a => full (dp_ver a) (dp_flags a) ++ flat_map be16 (dp_prio a)) same
  (fun a => full_ok (dp_ver a) (dp_flags a) /\ Forall (fun p => p < 65536) (dp_prio a)).

(* loudness: 3 bits, 7 and 6; two numbers of 12 bits with sign; 4 bits and 4;
   the measurements. Without measurements (see C67_loudness_refuted). *)
Definition bits12 (p : Z) : N := if (p <? 0)%Z then Z.to_N (p + 4096) else Z.to_N p.
Definition lou_body (a : lou) : list N :=
  full (lo_ver a) (lo_flags a) ++ be16 (lo_reserved a * 8192 + lo_downmix a * 64 + lo_drc a) ++
  be24 (bits12 (lo_peak a) * 4096 + bits12 (lo_true a)) ++ be8 (lo_sys a * 16 + lo_rel a) ++ be8 (len (lo_meas a)) ++
  flat_map (fun m => [me_def m; me_val m; me_sys m * 16 + me_rel m]) (lo_meas a).
Definition peak (p : Z) : Prop := (-2048 <= p < 2048)%Z.
Definition lou_fields (a : lou) : Prop :=
  (lo_ty a = code "tlou" \/ lo_ty a = code "alou") /\ full_ok (lo_ver a) (lo_flags a) /\
  lo_reserved a < 8 /\ lo_downmix a < 128 /\ lo_drc a < 64 /\ peak (lo_peak a) /\ peak (lo_true a) /\ lo_sys a < 16 /\ lo_rel a < 16 /\
  len (lo_meas a) < 256 /\ Forall (fun m => me_def m < 256 /\ me_val m < 256 /\ me_sys m < 16 /\ me_rel m < 16) (lo_meas a).
Definition lou_layout : layout lou := mkLayout lo_ty lou_body same (fun a => lou_fields a /\ lo_meas a = []).
Definition ludt_layout {T} (c : codec T) (y : layout T) : layout (ludt T) := mkLayout (fun _ => code "ludt")
  (fun a => kids_bytes c y (lu_tracks a) ++ kids_bytes c y (lu_albums a))
  (fun a => mkLudt (map (strip T (l_view y)) (lu_tracks a)) (map (strip T (l_view y)) (lu_albums a)))
  (fun a => Forall (kid_ok c y) (lu_tracks a) /\ Forall (kid_ok c y) (lu_albums a) /\
     of_type c (code "tlou") (lu_tracks a) /\ of_type c (code "alou") (lu_albums a)).

(* channel layout: positions, by number or (126) by angles *)
Definition spk_bytes (p : speaker) : list N := if sp_pos p =? 126 then be8 126 ++ be16 (sp_az p) ++ be8 (sp_el p) else be8 (sp_pos p).
Definition spks_bytes (l : list speaker) : list N := flat_map spk_bytes l.
Definition channels (s : N) : bool := N.testbit s 0.
Definition objects (s : N) : bool := N.testbit s 1.
Definition chnl_body (a : chnl) : list N :=
  full (ch_ver a) (ch_flags a) ++
  (if ch_ver a =? 0 then
     be8 (ch_struct a) ++
     (if channels (ch_struct a) then be8 (ch_layout a) ++ (if ch_layout a =? 0 then spks_bytes (ch_spk a) else be64 (ch_omit a)) else []) ++
     (if objects (ch_struct a) then be8 (ch_objects a) else [])
   else
     be8 (ch_struct a * 16 + ch_format a) ++ be8 (ch_base a) ++
     (if channels (ch_struct a) then
        be8 (ch_layout a) ++
        (if ch_layout a =? 0 then be8 (len (ch_spk a)) ++ spks_bytes (ch_spk a)
         else be8 (ch_order a * 2 + ch_present a) ++ (if ch_present a =? 1 then be64 (ch_omit a) else []))
      else [])).
(* fields the layout has no place for are not read back; the number of
   channels comes from the sample entry *)
Definition chnl_view (a : chnl) : chnl :=
  if ch_ver a =? 0 then
    if channels (ch_struct a) then
      if ch_layout a =? 0 then mkChnl 0 (ch_flags a) 0 (ch_struct a) 0 (ch_spk a) 0 0 0 0 0 0 0
      else mkChnl 0 (ch_flags a) 0 (ch_struct a) (ch_layout a) [] (ch_omit a) (if objects (ch_struct a) then ch_objects a else 0) 0 0 0 0 0
    else mkChnl 0 (ch_flags a) 0 (ch_struct a) 0 [] 0 (if objects (ch_struct a) then ch_objects a else 0) 0 0 0 0 0
  else if channels (ch_struct a) then
    if ch_layout a =? 0 then mkChnl (ch_ver a) (ch_flags a) 0 (ch_struct a) 0 (ch_spk a) 0 0 (ch_format a) (ch_base a) (len (ch_spk a)) 0 0
    else mkChnl (ch_ver a) (ch_flags a) 0 (ch_struct a) (ch_layout a) [] (if ch_present a =? 1 then ch_omit a else 0) 0 (ch_format a) (ch_base a) 0
           (ch_order a) (ch_present a)
  else mkChnl (ch_ver a) (ch_flags a) 0 (ch_struct a) 0 [] 0 0 (ch_format a) (ch_base a) 0 0 0.
(* positions by number *)
Definition numbered (p : speaker) : Prop := sp_pos p < 256 /\ sp_pos p <> 126 /\ sp_az p = 0 /\ sp_el p = 0.
Definition chnl_layout : layout chnl := mkLayout (fun _ => code "chnl") chnl_body chnl_view
  (fun a => full_ok (ch_ver a) (ch_flags a) /\ ch_layout a < 256 /\ Forall numbered (ch_spk a) /\ ch_omit a < 18446744073709551616 /\
     ch_objects a < 256 /\ ch_format a < 16 /\ ch_base a < 256 /\ ch_order a < 8 /\ ch_present a < 2 /\
     (if ch_ver a =? 0 then
        ch_struct a < 256 /\ ch_count a = len (ch_spk a) /\ (channels (ch_struct a) = true -> ch_layout a = 0 -> objects (ch_struct a) = false)
      else ch_struct a < 16 /\ len (ch_spk a) < 256 /\ ch_lcount a = len (ch_spk a))).

(* downmix: coefficients of four bits, for each target channel one for each
   channel of the entry *)
Fixpoint nibbles (l : list N) : list N :=
  match l with x :: y :: r => (x * 16 + y) :: nibbles r | [x] => [x * 16 + 15] | [] => [] end.
Fixpoint padded (l : list N) : list N :=
  match l with x :: y :: r => x :: y :: padded r | [x] => [x; 15] | [] => [] end.
Definition dmix_layout : layout dmix := mkLayout (fun _ => code "dmix")
  (fun a => full (dm_ver a) (dm_flags a) ++ be8 (dm_layout a) ++ be8 (dm_reserved a * 128 + dm_count a) ++ be8 (dm_stream a * 128 + dm_id a) ++
     (if dm_stream a =? 0 then nibbles (dm_coef a) else []))
  (fun a => mkDmix (dm_ver a) (dm_flags a) 0 (dm_layout a) (dm_reserved a) (dm_count a) (dm_stream a) (dm_id a)
     (if dm_stream a =? 0 then padded (dm_coef a) else []))
  (fun a => full_ok (dm_ver a) (dm_flags a) /\ dm_layout a < 256 /\ dm_reserved a < 2 /\ dm_count a < 128 /\ dm_stream a < 2 /\ dm_id a < 128 /\
     Forall (fun x => x < 16) (dm_coef a) /\ (dm_stream a = 0 -> len (dm_coef a) = dm_base a * dm_count a) /\ len (dm_coef a) < 65536).

Definition bpcc_body (l : list N) : list N := flat_map be8 l.
(* the numbers as the standard has them, most significant byte first *)
Definition ihdr_body (a : ihdr) : list N :=
  be32 (ih_height a) ++ be32 (ih_width a) ++ be16 (ih_comps a) ++ be8 (ih_bpc a) ++ be8 (ih_ctype a) ++ be8 (ih_csunk a) ++ be8 (ih_ip a).
Definition ihdr_ok (a : ihdr) : Prop :=
  ih_height a < 4294967296 /\ ih_width a < 4294967296 /\ ih_comps a < 65536 /\ ih_bpc a < 256 /\ ih_ctype a < 256 /\ ih_csunk a < 256 /\ ih_ip a < 256.
(* the same number with its bytes in the other order *)
Definition turned32 (v : N) : N := v mod 256 * 16777216 + v / 256 mod 256 * 65536 + v / 65536 mod 256 * 256 + v / 16777216 mod 256.
Definition turned16 (v : N) : N := v mod 256 * 256 + v / 256 mod 256.
Definition colr_layout : layout colr := mkLayout (fun _ => code "colr")
  (fun a => be8 (co_method a) ++ be8 (co_prec a) ++ be8 (co_approx a) ++
     (if co_method a =? 1 then be32 (co_enum a) else co_profile a)) same
  (fun a => (co_method a = 1 /\ co_profile a = [] \/ co_method a = 2 /\ co_enum a = 0) /\
     co_prec a < 256 /\ co_approx a < 256 /\ co_enum a < 4294967296).

(* ParamSpec.v -- decoder configuration boxes as in ISO/IEC 14496-15, and the
   beginning of sequence parameter sets as in ITU-T H.264 (7.3.2.1.1), H.265
   (7.3.2.2, 7.3.3) and H.266 (7.3.2.4, 7.3.3). *)
From Verif Require Import Base Codec AtomModel AtomSpec BoxModel BoxSpec EntryModel BitSpec ParamModel.

Definition set_bytes (b : list N) : list N := be16 (len b) ++ b.
Definition sets (l : list (list N)) : list N := flat_map set_bytes l.
Definition set_ok (b : list N) : Prop := len b < 65536.

(* the i-th of a list, counted from one *)
Definition kth_set (l : list (list N)) (i : N) : res (list N) :=
  if i =? 0 then Err MP4BadParamErr else match nthN l (i - 1) with Some b => Ok b | None => Err MP4BadParamErr end.
Definition listed {A} (x : option A) : list A := match x with Some v => [v] | None => [] end.

(* AVCDecoderConfigurationRecord *)
Definition is_high (p : N) : bool := existsb (N.eqb p) [100; 110; 122; 144].
Definition avcc_layout : layout avcc := mkLayout (fun _ => code "avcC")
  (fun a => [1; ac_prof a; ac_compat a; ac_level a; (if ac_complete a then 252 else 124) + (ac_len a - 1); 224 + len (ac_sps a)] ++
     sets (ac_sps a) ++ [len (ac_pps a)] ++ sets (ac_pps a) ++
     (if is_high (ac_prof a) then [252 + ac_chroma a; 248 + ac_luma a; 248 + ac_cdepth a; len (ac_ext a)] ++ sets (ac_ext a) else []))
  (fun a => a)
  (fun a => ac_prof a < 256 /\ ac_compat a < 256 /\ ac_level a < 256 /\ 1 <= ac_len a <= 4 /\
     len (ac_sps a) < 32 /\ len (ac_pps a) < 32 /\ Forall set_ok (ac_sps a) /\ Forall set_ok (ac_pps a) /\
     if is_high (ac_prof a) then ac_chroma a < 4 /\ ac_luma a < 8 /\ ac_cdepth a < 8 /\ len (ac_ext a) < 256 /\ Forall set_ok (ac_ext a)
     else ac_chroma a = 0 /\ ac_luma a = 0 /\ ac_cdepth a = 0 /\ ac_ext a = []).

(* HEVCDecoderConfigurationRecord, profile space and tier 0, no constraint
   flags, one temporal layer *)
Definition arr_bytes (r : narr) : list N := [128 * na_complete r + na_type r] ++ be16 (len (na_nals r)) ++ sets (na_nals r).
Definition used (a : hvcc) : list narr := firstn (N.to_nat (hc_num a)) (hc_arrs a).
Definition hvcc_layout : layout hvcc := mkLayout (fun _ => code "hvcC")
  (fun a => [1; hc_idc a] ++ be32 (hc_compat a) ++ repeat 0 6 ++
     [hc_level a; 240; 0; 252; 252 + hc_chroma a; 248 + hc_luma a; 248 + hc_cdepth a] ++ be16 (hc_rate a) ++
     [8 + 4 * hc_nest a + hc_len1 a; hc_num a] ++ flat_map arr_bytes (used a))
  (fun a => mkHvcc (hc_idc a) (hc_compat a) (hc_level a) (hc_chroma a) (hc_luma a) (hc_cdepth a) (hc_rate a) (hc_nest a) (hc_len1 a)
     (hc_num a) (used a ++ skipn (N.to_nat (hc_num a)) hevc_arrs))
  (fun a => hc_idc a < 32 /\ hc_compat a < 4294967296 /\ hc_level a < 256 /\ hc_chroma a < 4 /\ hc_luma a < 8 /\ hc_cdepth a < 8 /\
     hc_rate a < 65536 /\ hc_nest a < 2 /\ hc_len1 a < 4 /\ len (hc_arrs a) = 8 /\ hc_num a <= 8 /\
     Forall (fun r => na_complete r < 2 /\ na_type r < 64 /\ len (na_nals r) < 32 /\ Forall set_ok (na_nals r)) (used a)).

(* VvcDecoderConfigurationRecord *)
Definition is_some {A} (x : option A) : bool := match x with Some _ => true | None => false end.
Definition somes {A} (l : list (option A)) : list A := flat_map (fun x => match x with Some v => [v] | None => [] end) l.
Definition lower (p : vptl) : list N := firstn (N.to_nat (vp_bytes p - 1)) (vp_lower p).
Definition vptl_bytes (p : vptl) : list N :=
  be16 (128 * vp_ols p + 16 * vp_nsl p + 4 * vp_rate p + vp_chroma p) ++
  [32 * vp_depth p + 31; vp_bytes p; 2 * vp_idc p + vp_tier p; vp_level p; 128 * vp_frame p + 64 * vp_multi p + vp_upper p] ++ lower p ++
  (if 2 <=? vp_nsl p then [value (map is_some (vp_subs p) ++ repeat false (8 - length (vp_subs p)))] else []) ++ somes (vp_subs p) ++
  [0] ++ be16 (vp_w p) ++ be16 (vp_h p) ++ be16 (vp_avg p).
Definition vptl_view (p : vptl) : vptl :=
  mkPtl (vp_ols p) (vp_nsl p) (vp_rate p) (vp_chroma p) (vp_depth p) (vp_bytes p) (vp_idc p) (vp_tier p) (vp_level p) (vp_frame p) (vp_multi p)
    (vp_upper p) (lower p) (vp_subs p) (vp_nprof p) (vp_w p) (vp_h p) (vp_avg p).
Definition vptl_ok (p : vptl) : Prop :=
  vp_ols p < 512 /\ vp_nsl p < 8 /\ vp_rate p < 4 /\ vp_chroma p < 4 /\ vp_depth p < 8 /\ 1 <= vp_bytes p < 64 /\ vp_idc p < 128 /\
  vp_tier p < 2 /\ vp_level p < 256 /\ vp_frame p < 2 /\ vp_multi p < 2 /\ vp_upper p < 64 /\ vp_bytes p - 1 <= len (vp_lower p) /\
  len (vp_subs p) = vp_nsl p - 1 /\ Forall (fun o => match o with Some v => v < 256 | None => True end) (vp_subs p) /\
  vp_nprof p = 0 /\ vp_w p < 65536 /\ vp_h p < 65536 /\ vp_avg p < 65536.
(* arrays of decoding capability (13) and operating point (12) units have no
   count *)
Definition no_count (ty : N) : bool := existsb (N.eqb ty) [12; 13].
Definition full_arr (r : narr) : bool := negb (len (na_nals r) =? 0).
Definition varr_bytes (r : narr) : list N :=
  [128 * na_complete r + na_type r] ++ (if no_count (na_type r) then [] else be16 (len (na_nals r))) ++ sets (na_nals r).
Definition varr_ok (r : narr) : Prop :=
  na_complete r < 2 /\ len (na_nals r) < 65536 /\ (no_count (na_type r) = true -> len (na_nals r) <= 1) /\ Forall set_ok (na_nals r).
Definition varr_view (r : narr) : narr := if full_arr r then r else mkArr 0 (na_type r) [].
Definition vvcc_layout : layout vvcc := mkLayout (fun _ => code "vvcC")
  (fun a => full (vc_ver a) (vc_flags a) ++
     match vc_ptl a with Some p => [248 + 2 * vc_len1 a + 1] ++ vptl_bytes p | None => [248 + 2 * vc_len1 a] end ++
     [vc_num a] ++ flat_map varr_bytes (filter full_arr (vc_arrs a)))
  (fun a => mkVvcc (vc_ver a) (vc_flags a) (vc_len1 a) (match vc_ptl a with Some p => Some (vptl_view p) | None => None end) (vc_num a)
     (map varr_view (vc_arrs a)))
  (fun a => full_ok (vc_ver a) (vc_flags a) /\ vc_len1 a < 4 /\ match vc_ptl a with Some p => vptl_ok p | None => True end /\
     map na_type (vc_arrs a) = [15; 16; 14; 12; 13; 17; 23] /\ Forall varr_ok (vc_arrs a) /\ vc_num a = len (filter full_arr (vc_arrs a))).
Definition vvnc_layout : layout vvnc := mkLayout (fun _ => code "vvnC")
  (fun a => full (vn_ver a) (vn_flags a) ++ [vn_len1 a]) (fun a => a) (fun a => full_ok (vn_ver a) (vn_flags a) /\ vn_len1 a < 4).

(* ------------------------------------------------------------------ *)
(* seq_parameter_set_data of H.264 up to the bit depths                *)

Record avc_syntax := mkAvcS { i_prof : N; i_compat : N; i_level : N; i_id : N; i_chroma : N; i_sep : bool; i_luma : N; i_cdepth : N }.
Definition avc_bits (s : avc_syntax) : list bool :=
  u 8 (i_prof s) ++ u 8 (i_compat s) ++ u 8 (i_level s) ++ ue (i_id s) ++
  (if is_high (i_prof s) then
     ue (i_chroma s) ++ (if i_chroma s =? 3 then [i_sep s] else []) ++ ue (i_luma s) ++ ue (i_cdepth s)
   else []).
Definition avc_ok (s : avc_syntax) : Prop :=
  i_prof s < 256 /\ i_compat s < 256 /\ i_level s < 256 /\ i_id s < 32 /\ i_chroma s < 4 /\ i_luma s <= 6 /\ i_cdepth s <= 6.

(* seq_parameter_set_rbsp of H.265 up to the bit depths *)
Record hevc_syntax := mkHevcS { e_vps : N; e_nest : N; e_space : N; e_tier : N; e_idc : N; e_compat : N; e_constraints : N; e_level : N;
  e_subs : list (option N * option N); e_id : N; e_chroma : N; e_sep : bool; e_w : N; e_h : N; e_crop : option (N * N * (N * N));
  e_luma : N; e_cdepth : N }.
Definition opt_bits {A} (f : A -> list bool) (x : option A) : list bool := match x with Some v => f v | None => [] end.
Definition hevc_bits (s : hevc_syntax) : list bool :=
  u 4 (e_vps s) ++ u 3 (len (e_subs s)) ++ u 1 (e_nest s) ++
  u 2 (e_space s) ++ u 1 (e_tier s) ++ u 5 (e_idc s) ++ u 32 (e_compat s) ++ u 48 (e_constraints s) ++ u 8 (e_level s) ++
  flat_map (fun x => [is_some (fst x); is_some (snd x)]) (e_subs s) ++
  (if 0 <? len (e_subs s) then repeat false (2 * (8 - length (e_subs s))) else []) ++
  flat_map (fun x => opt_bits (u 88) (fst x) ++ opt_bits (u 8) (snd x)) (e_subs s) ++
  ue (e_id s) ++ ue (e_chroma s) ++ (if e_chroma s =? 3 then [e_sep s] else []) ++ ue (e_w s) ++ ue (e_h s) ++
  match e_crop s with Some (a, b, (c, d)) => [true] ++ ue a ++ ue b ++ ue c ++ ue d | None => [false] end ++
  ue (e_luma s) ++ ue (e_cdepth s).
Definition hevc_ok (s : hevc_syntax) : Prop :=
  e_vps s < 16 /\ len (e_subs s) <= 7 /\ e_nest s < 2 /\ e_space s < 4 /\ e_tier s < 2 /\ e_idc s < 32 /\ e_compat s < 4294967296 /\
  e_level s < 256 /\ e_id s < 16 /\ e_chroma s < 4 /\ e_w s < 65536 /\ e_h s < 65536 /\
  match e_crop s with Some (a, b, (c, d)) => a < 65536 /\ b < 65536 /\ c < 65536 /\ d < 65536 | None => True end /\
  e_luma s < 8 /\ e_cdepth s < 8.
(* the configuration a set announces, with the sets of units of type 32, 33
   and 34 *)
Definition hevc_config (s : hevc_syntax) (length_size : N) (vps sps : list N) (pps : option (list N)) : hvcc :=
  mkHvcc (e_idc s) (e_compat s) (e_level s) (e_chroma s) (e_luma s) (e_cdepth s) 0 (e_nest s) (length_size - 1)
    (match pps with Some _ => 3 | None => 2 end)
    ([mkArr 1 32 [vps]; mkArr 1 33 [sps]; mkArr 1 34 (match pps with Some q => [q] | None => [] end)] ++
     map (fun t => mkArr 1 t []) [35; 36; 37; 38; 39]).

(* seq_parameter_set_rbsp of H.266 up to the bit depth *)
Record vvc_ptl_syntax := mkVPtl { q_idc : N; q_tier : N; q_level : N; q_frame : bool; q_multi : bool;
  q_gci : option (list bool) (* 71 constraint bits *); q_subs : list (option N) (* from the highest sublayer but one down *) }.
Record subpic := mkPic { p_x : N; p_y : N; p_w : N; p_h : N; p_flags : N }.
Record subpics := mkPics { u_indep : bool; u_same : bool; u_pics : list subpic; u_idlen : N; u_ids : option (option (list N)) }.
Record vvc_syntax := mkVvcS { w_ids : N; w_sub : N; w_chroma : N; w_ctu : N; w_ptl : option vvc_ptl_syntax; w_gdr : bool;
  w_resample : option bool; w_w : N; w_h : N; w_win : option (N * N * (N * N)); w_pics : option subpics; w_depth : N }.
Definition vptl_bits (p : vvc_ptl_syntax) : list bool :=
  u 7 (q_idc p) ++ u 1 (q_tier p) ++ u 8 (q_level p) ++ [q_frame p; q_multi p] ++
  match q_gci p with Some g => [true] ++ g ++ u 8 0 ++ repeat false 6 | None => [false] ++ repeat false 5 end ++
  map is_some (q_subs p) ++ (if 0 <? len (q_subs p) then repeat false (8 - length (q_subs p)) else []) ++
  flat_map (u 8) (somes (q_subs p)) ++ u 8 0.
Definition cdiv (a b : N) : N := (a + b - 1) / b.
(* the bits of a position or size along a side of [size] samples, in coding
   tree blocks of [ctb] *)
Definition along (size ctb v : N) : list bool := if ctb <? size then u (N.to_nat (N.log2_up (cdiv size ctb))) v else [].
Fixpoint pics_bits (w h ctb : N) (indep same first : bool) (l : list subpic) : list bool :=
  match l with
  | [] => []
  | p :: r =>
      let last := match r with [] => true | _ => false end in
      (if same && negb first then []
       else (if first then [] else along w ctb (p_x p) ++ along h ctb (p_y p)) ++
            (if last then [] else along w ctb (p_w p) ++ along h ctb (p_h p))) ++
      (if indep then [] else u 2 (p_flags p)) ++ pics_bits w h ctb indep same false r
  end.
Definition info_bits (w h ctb : N) (x : subpics) : list bool :=
  ue (len (u_pics x) - 1) ++
  (if 1 <? len (u_pics x) then [u_indep x; u_same x] ++ pics_bits w h ctb (u_indep x) (u_same x) true (u_pics x) else []) ++
  ue (u_idlen x) ++
  match u_ids x with
  | None => [false]
  | Some None => [true; false]
  | Some (Some l) => [true; true] ++ flat_map (u (N.to_nat (u_idlen x + 1))) l
  end.
Definition vvc_bits (s : vvc_syntax) : list bool :=
  let ctb := 2 ^ (w_ctu s + 5) in
  u 8 (w_ids s) ++ u 3 (w_sub s) ++ u 2 (w_chroma s) ++ u 2 (w_ctu s) ++
  match w_ptl s with Some p => [true] ++ vptl_bits p | None => [false] end ++
  [w_gdr s] ++ match w_resample s with Some b => [true; b] | None => [false] end ++ ue (w_w s) ++ ue (w_h s) ++
  match w_win s with Some (a, b, (c, d)) => [true] ++ ue a ++ ue b ++ ue c ++ ue d | None => [false] end ++
  match w_pics s with Some x => [true] ++ info_bits (w_w s) (w_h s) ctb x | None => [false] end ++
  ue (w_depth s).
Definition vvc_ptl_ok (sub : N) (p : vvc_ptl_syntax) : Prop :=
  q_idc p < 128 /\ q_tier p < 2 /\ q_level p < 256 /\ match q_gci p with Some g => len g = 71 | None => True end /\
  len (q_subs p) = sub /\ Forall (fun o => match o with Some v => v < 256 | None => True end) (q_subs p).
Definition subpics_ok (x : subpics) : Prop :=
  0 < len (u_pics x) < 65536 /\ u_idlen x < 16 /\ match u_ids x with Some (Some l) => len l = len (u_pics x) | _ => True end.
Definition vvc_ok (s : vvc_syntax) : Prop :=
  w_ids s < 256 /\ w_sub s < 7 /\ w_chroma s < 4 /\ w_ctu s < 3 /\ match w_ptl s with Some p => vvc_ptl_ok (w_sub s) p | None => True end /\
  w_w s < 65536 /\ w_h s < 65536 /\
  match w_win s with Some (a, b, (c, d)) => a < 65536 /\ b < 65536 /\ c < 65536 /\ d < 65536 | None => True end /\
  match w_pics s with Some x => subpics_ok x | None => True end /\ w_depth s < 8.
Definition b2n (b : bool) : N := if b then 1 else 0.
(* the profile, tier and level record; the constraint bits without the last
   ones *)
Definition vvc_record (s : vvc_syntax) (p : vvc_ptl_syntax) : vptl :=
  mkPtl 0 (w_sub s + 1) 0 (w_chroma s) (w_depth s) (match q_gci p with Some _ => 10 | None => 1 end) (q_idc p) (q_tier p) (q_level p)
    (b2n (q_frame p)) (b2n (q_multi p))
    (match q_gci p with Some g => 32 + value (firstn 5 g) | None => 0 end)
    (match q_gci p with Some g => map (fun i => value (firstn 8 (skipn (5 + 8 * i) (g ++ repeat false 6)))) (seq 0 9) | None => [] end)
    (q_subs p) 0 (w_w s) (w_h s) 0.
(* the configuration with the sets [l ty] of each type *)
Definition vvc_config (s : vvc_syntax) (length_size : N) (l : N -> list (list N)) : vvcc :=
  let arrays := map (fun ty => mkArr 0 ty (l ty)) [15; 16; 14; 12; 13; 17; 23] in
  mkVvcc 0 0 (length_size - 1) (match w_ptl s with Some p => Some (vvc_record s p) | None => None end) (len (filter full_arr arrays)) arrays.
(* of decoding capability and operating point units there is one at most *)
Definition at_most (ty : N) (l : list (list N)) : list (list N) := if no_count ty then firstn 1 l else l.

(* ------------------------------------------------------------------ *)
(* Histories of calls on a description                                 *)

(* the configuration announced by a set of H.264 *)
Definition avc_config (s : avc_syntax) (length_size : N) (sps pps ext : list (list N)) : avcc :=
  if is_high (i_prof s) then mkAvcc (i_prof s) (i_compat s) (i_level s) true length_size sps pps (i_chroma s) (i_luma s) (i_cdepth s) ext
  else mkAvcc (i_prof s) (i_compat s) (i_level s) true length_size sps pps 0 0 0 ext.

(* a parameter set, another box, or a size is given; [B]: the boxes *)
Inductive dop (B : Type) := AddSet (ps : list N) (wh : N) | AddBox (x : B) | SetSize (w h : N).
Arguments AddSet {B}. Arguments AddBox {B}. Arguments SetSize {B}.
Definition boxes_of {B} (ops : list (dop B)) : list B := flat_map (fun op => match op with AddBox x => [x] | _ => [] end) ops.
(* the sets given for a list; [sel wh]: what the argument chooses *)
Definition given {B} (sel : N -> N) (k : N) (ops : list (dop B)) : list (list N) :=
  flat_map (fun op => match op with AddSet ps wh => if sel wh =? k then [ps] else [] | _ => [] end) ops.
Fixpoint last_size {B} (wh : N * N) (ops : list (dop B)) : N * N :=
  match ops with [] => wh | SetSize w h :: r => last_size (w, h) r | _ :: r => last_size wh r end.

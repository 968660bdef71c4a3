(* ParamModel.v -- the decoder configuration boxes avcC, hvcC, vvcC, vvnC and
   the calls on parameter sets of sample descriptions. *)
From Verif Require Import Base AtomModel BoxModel KidsModel EntryModel BitModel.

Definition T_avcC := fourcc 97 118 99 67.
Definition T_hvcC := fourcc 104 118 99 67.
Definition T_vvcC := fourcc 118 118 99 67.
Definition T_vvnC := fourcc 118 118 110 67.
Definition T_avc1 := fourcc 97 118 99 49.
Definition T_hvc1 := fourcc 104 118 99 49.
Definition T_hvc2 := fourcc 104 118 99 50.
Definition T_vvc1 := fourcc 118 118 99 49.
Definition T_vvi1 := fourcc 118 118 105 49.
Definition T_vvs1 := fourcc 118 118 115 49.
Definition T_resv := fourcc 114 101 115 118.

(* a list of parameter sets: sixteen bits of length and the bytes of each
   (VCConfigAtom.c:83-93, HEVCConfigAtom.c:108-119, VVCConfigAtom.c:149-160);
   the linked lists are modelled in LListModel.v, the handles in
   HandleModel.v *)
Definition sets_w (l : list (list N)) : wr := wmap (fun b => put16 (len b) ;; putl b) l.
Definition sets_size (sz : N) (l : list (list N)) : N := fold_left (fun n b => w32 (n + w32 (2 + len b))) l sz.
Definition set_rd : rd (list N) := let* n := get16 in take (N.to_nat n).
(* MP4GetListEntry, MP4LinkedList.c:150-181, with the number index - 1 *)
Definition set_at (l : list (list N)) (index : N) : res (list N) :=
  let k := sub32 index 1 in
  if len l <=? k then Err MP4BadParamErr else match nthN l k with Some b => Ok b | None => UB end.

(* ------------------------------------------------------------------ *)
(* avcC, VCConfigAtom.c                                                *)

Record avcc := mkAvcc { ac_prof : N; ac_compat : N; ac_level : N; ac_complete : bool; ac_len : N;
  ac_sps : list (list N); ac_pps : list (list N); ac_chroma : N; ac_luma : N; ac_cdepth : N; ac_ext : list (list N) }.
Definition high (p : N) : bool := (p =? 100) || (p =? 110) || (p =? 122) || (p =? 144).
(* calculateSize, VCConfigAtom.c:167-243; the error it returns for 32 sets or
   more is in the writer here *)
Definition avcc_size (a : avcc) : N :=
  let n := sets_size (sets_size (8 + 7) (ac_sps a)) (ac_pps a) in
  if high (ac_prof a) then sets_size (w32 (n + 4)) (ac_ext a) else n.
(* serialize, VCConfigAtom.c:61-165 *)
Definition avcc_w (a : avcc) : wr :=
  if (32 <=? len (ac_sps a)) || (32 <=? len (ac_pps a)) then werr MP4BadParamErr else
  put8 1 ;; put8 (ac_prof a) ;; put8 (ac_compat a) ;; put8 (ac_level a) ;;
  put8 (N.lor (N.lor (if ac_complete a then 128 else 0) 124) (N.land (sub32 (ac_len a) 1) 3)) ;;
  put8 (N.lor 224 (N.land (len (ac_sps a)) 31)) ;; sets_w (ac_sps a) ;;
  put8 (len (ac_pps a)) ;; sets_w (ac_pps a) ;;
  if high (ac_prof a) then
    put8 (N.lor 252 (N.land (ac_chroma a) 3)) ;; put8 (N.lor 248 (N.land (ac_luma a) 7)) ;; put8 (N.lor 248 (N.land (ac_cdepth a) 7)) ;;
    put8 (len (ac_ext a)) ;; sets_w (ac_ext a)
  else wret.
(* createFromInputStream, VCConfigAtom.c:245-320 *)
Definition avcc_rd (h : hdr) : rd avcc :=
  let* v := get8 in
  if negb (v =? 1) then rerr MP4BadDataErr else
  let* p := get8 in let* cp := get8 in let* lv := get8 in let* x := get8 in
  let* n := get8 in let* sps := rrep (N.to_nat (N.land n 31)) set_rd in
  let* m := get8 in let* pps := rrep (N.to_nat m) set_rd in
  let cfg := mkAvcc p cp lv (negb (N.land x 128 =? 0)) (N.land x 3 + 1) sps pps in
  if high p then
    let* a := get8 in let* b := get8 in let* c := get8 in
    let* k := get8 in let* ext := rrep (N.to_nat k) set_rd in
    rret (cfg (N.land a 3) (N.land b 7) (N.land c 7) ext)
  else rret (cfg 0 0 0 []).
Definition avcc_codec : codec avcc := mkCodec (N.eqb T_avcC) (fun _ => T_avcC) avcc_size avcc_w avcc_rd.
(* addParameterSet, VCConfigAtom.c:322-357 *)
Definition avcc_add (a : avcc) (ps : list N) (wh : N) : res avcc :=
  let k := N.land wh 3 in
  let cfg := mkAvcc (ac_prof a) (ac_compat a) (ac_level a) (ac_complete a) (ac_len a) in
  if k =? 1 then Ok (cfg (ac_sps a ++ [ps]) (ac_pps a) (ac_chroma a) (ac_luma a) (ac_cdepth a) (ac_ext a))
  else if k =? 2 then Ok (cfg (ac_sps a) (ac_pps a ++ [ps]) (ac_chroma a) (ac_luma a) (ac_cdepth a) (ac_ext a))
  else if k =? 3 then Ok (cfg (ac_sps a) (ac_pps a) (ac_chroma a) (ac_luma a) (ac_cdepth a) (ac_ext a ++ [ps]))
  else Err MP4BadParamErr.
(* getParameterSet, VCConfigAtom.c:359-397 *)
Definition avcc_get (a : avcc) (wh index : N) : res (list N) :=
  let k := N.land wh 3 in
  if k =? 1 then set_at (ac_sps a) index else if k =? 2 then set_at (ac_pps a) index
  else if k =? 3 then set_at (ac_ext a) index else Err MP4BadParamErr.

(* ------------------------------------------------------------------ *)
(* hvcC, HEVCConfigAtom.c                                              *)

(* one of arrays[]: array_completeness, NALtype, nalList *)
Record narr := mkArr { na_complete : N; na_type : N; na_nals : list (list N) }.
Record hvcc := mkHvcc { hc_idc : N; hc_compat : N; hc_level : N; hc_chroma : N; hc_luma : N; hc_cdepth : N; hc_rate : N;
  hc_nest : N; hc_len1 : N; hc_num : N; hc_arrs : list narr }.
(* MP4CreateHEVCConfigAtom, HEVCConfigAtom.c:349-387 *)
Definition hevc_arrs : list narr := map (fun i => mkArr 1 (32 + i) []) [0; 1; 2; 3; 4; 5; 6; 7].
(* calculateSize, HEVCConfigAtom.c:134-171; its error for 32 units or more is
   in the writer *)
Definition hvcc_size (a : hvcc) : N :=
  fold_left (fun n r => sets_size n (na_nals r)) (firstn (N.to_nat (hc_num a)) (hc_arrs a)) (w32 (8 + 23 + 3 * hc_num a)).
(* serialize, HEVCConfigAtom.c:49-132; beyond the eight arrays undefined *)
Definition hvcc_w (a : hvcc) : wr :=
  if len (hc_arrs a) <? hc_num a then (fun _ => UB) else
  if existsb (fun r => 32 <=? len (na_nals r)) (firstn (N.to_nat (hc_num a)) (hc_arrs a)) then werr MP4BadParamErr else
  put8 1 ;; put8 (hc_idc a) ;; put32 (hc_compat a) ;; put32 0 ;; put16 0 ;; put8 (hc_level a) ;; put16 61440 ;; put8 252 ;;
  put8 (N.lor 252 (hc_chroma a)) ;; put8 (N.lor 248 (hc_luma a)) ;; put8 (N.lor 248 (hc_cdepth a)) ;; put16 (hc_rate a) ;;
  put8 (N.lor (N.lor 8 (w32 (N.shiftl (hc_nest a) 2))) (N.land (hc_len1 a) 3)) ;; put8 (hc_num a) ;;
  wmap (fun r => put8 (N.lor (w32 (N.shiftl (na_complete r) 7)) (na_type r)) ;; put16 (len (na_nals r)) ;; sets_w (na_nals r))
    (firstn (N.to_nat (hc_num a)) (hc_arrs a)).
(* the loop of createFromInputStream, HEVCConfigAtom.c:228-252: arrays[8] has
   eight members *)
Definition arr_set (l : list narr) (i : N) (r : narr) : list narr :=
  firstn (N.to_nat i) l ++ [r] ++ skipn (S (N.to_nat i)) l.
Fixpoint harrs_rd (k : nat) (i : N) (l : list narr) : rd (list narr) :=
  match k with
  | O => rret l
  | S k' =>
      let* x := get8 in
      if len l <=? i then rub else
      let* n := get16 in let* nals := rrep (N.to_nat n) set_rd in
      harrs_rd k' (i + 1) (arr_set l i (mkArr (if N.land x 128 =? 0 then 0 else 1) (N.land x 63) nals))
  end.
(* createFromInputStream, HEVCConfigAtom.c:173-258 *)
Definition hvcc_rd (h : hdr) : rd hvcc :=
  let* v := get8 in
  if negb (v =? 1) then rerr MP4BadDataErr else
  let* p := get8 in let* cp := get32 in let* _ := get32 in let* _ := get16 in let* lv := get8 in let* _ := get16 in let* _ := get8 in
  let* ch := get8 in let* lu := get8 in let* cd := get8 in let* fr := get16 in let* x := get8 in
  let* n := get8 in
  let* arrs := harrs_rd (N.to_nat n) 0 hevc_arrs in
  rret (mkHvcc (N.land p 31) cp lv (N.land ch 3) (N.land lu 7) (N.land cd 7) fr (N.land (N.shiftr x 2) 1) (N.land x 3) n arrs).
Definition hvcc_codec : codec hvcc := mkCodec (N.eqb T_hvcC) (fun _ => T_hvcC) hvcc_size hvcc_w hvcc_rd.
(* addParameterSet, HEVCConfigAtom.c:260-294: the first array of the type; no
   array of the type is no error. The same loop, with an error for an unknown
   type, in VVCConfigAtom.c:389-429. *)
Fixpoint arrs_add (l : list narr) (ps : list N) (ty : N) : option (list narr * bool) :=
  match l with
  | [] => None
  | r :: t =>
      if na_type r =? ty then
        Some (mkArr (na_complete r) (na_type r) (na_nals r ++ [ps]) :: t, len (na_nals r) =? 0)
      else match arrs_add t ps ty with Some (t', b) => Some (r :: t', b) | None => None end
  end.
Definition hvcc_add (a : hvcc) (ps : list N) (ty : N) : hvcc :=
  match arrs_add (hc_arrs a) ps ty with
  | Some (l, new) =>
      mkHvcc (hc_idc a) (hc_compat a) (hc_level a) (hc_chroma a) (hc_luma a) (hc_cdepth a) (hc_rate a) (hc_nest a) (hc_len1 a)
        (if new then w32 (hc_num a + 1) else hc_num a) l
  | None => a
  end.
(* getParameterSet, HEVCConfigAtom.c:296-325: no array of the type leaves the
   handle NULL, which MP4GetHandleSize refuses *)
Definition hvcc_get (a : hvcc) (ty index : N) : res (list N) :=
  if len (hc_arrs a) <? hc_num a then UB else
  match find (fun r => na_type r =? ty) (firstn (N.to_nat (hc_num a)) (hc_arrs a)) with
  | Some r => set_at (na_nals r) index
  | None => Err MP4BadParamErr
  end.

(* ------------------------------------------------------------------ *)
(* vvcC, VVCConfigAtom.c                                               *)

(* what follows ptl_present_flag. [vp_subs]: of subPTL[] the members
   num_sublayers - 2 down to 0, None where the flag is 0.
   general_sub_profile_idc is a NULL pointer always: only its number is
   kept. *)
Record vptl := mkPtl { vp_ols : N; vp_nsl : N; vp_rate : N; vp_chroma : N; vp_depth : N;
  vp_bytes : N; vp_idc : N; vp_tier : N; vp_level : N; vp_frame : N; vp_multi : N; vp_upper : N; vp_lower : list N;
  vp_subs : list (option N); vp_nprof : N; vp_w : N; vp_h : N; vp_avg : N }.
(* [vc_ptl]: None when ptl_present_flag is 0; what the structure holds then is
   neither written nor returned by any call *)
Record vvcc := mkVvcc { vc_ver : N; vc_flags : N; vc_len1 : N; vc_ptl : option vptl; vc_num : N; vc_arrs : list narr }.
(* MP4CreateVVCConfigAtom, VVCConfigAtom.c:474-516 *)
Definition vvc_types : list N := [15; 16; 14; 12; 13; 17; 23].
Definition vvc_arrs : list narr := map (fun t => mkArr 0 t []) vvc_types.
(* types 13 and 12 have no count *)
Definition single (ty : N) : bool := (ty =? 13) || (ty =? 12).
(* the units written of an array: of types 13 and 12 the first *)
Definition arr_out (r : narr) : list (list N) := if single (na_type r) then firstn 1 (na_nals r) else na_nals r.
Definition sub_count (l : list (option N)) : N := len (flat_map (fun o => match o with Some v => [v] | None => [] end) l).
(* calculateSize, VVCConfigAtom.c:168-245 *)
Definition vvcc_size (a : vvcc) : N :=
  let n := match vc_ptl a with
           | None => 13
           | Some p => w32 (13 + 3 + 3 + vp_bytes p + (if 2 <=? vp_nsl p then 1 else 0) + sub_count (vp_subs p) + 1 + 4 * vp_nprof p + 6)
           end in
  if vc_num a =? 0 then w32 (n + 1)
  else fold_left (fun n r => if len (na_nals r) =? 0 then n
                             else sets_size (w32 (n + (if single (na_type r) then 1 else 3))) (arr_out r)) (vc_arrs a) (w32 (n + 1)).
(* the flags of the sublayers, VVCConfigAtom.c:96-107 *)
Fixpoint sub_flags (cnt : N) (l : list (option N)) : N :=
  match l with
  | [] => 0
  | o :: r => N.lor (match o with Some _ => N.shiftl 1 cnt | None => 0 end) (sub_flags (cnt - 1) r)
  end.
(* serialize, VVCConfigAtom.c:49-166. The lower constraint bytes come from a
   handle. *)
Definition vptl_w (p : vptl) : wr :=
  put16 (N.lor (N.lor (N.lor (w32 (N.shiftl (vp_ols p) 7)) (w32 (N.shiftl (vp_nsl p) 4))) (w32 (N.shiftl (vp_rate p) 2))) (vp_chroma p)) ;;
  put8 (N.lor (w32 (N.shiftl (vp_depth p) 5)) 31) ;;
  put8 (vp_bytes p) ;; put8 (N.lor (w32 (N.shiftl (vp_idc p) 1)) (vp_tier p)) ;; put8 (vp_level p) ;;
  put8 (N.lor (N.lor (w32 (N.shiftl (vp_frame p) 7)) (w32 (N.shiftl (vp_multi p) 6))) (vp_upper p)) ;;
  (if 1 <? vp_bytes p then
     if len (vp_lower p) <? vp_bytes p - 1 then (fun _ => UB) else putl (firstn (N.to_nat (vp_bytes p - 1)) (vp_lower p))
   else wret) ;;
  (if 2 <=? vp_nsl p then put8 (sub_flags 7 (vp_subs p)) else wret) ;;
  wmap (fun o => match o with Some v => put8 v | None => wret end) (vp_subs p) ;;
  put8 (vp_nprof p) ;; (if 0 <? vp_nprof p then (fun _ => UB) else wret) ;;
  put16 (vp_w p) ;; put16 (vp_h p) ;; put16 (vp_avg p).
Definition varr_w (r : narr) : wr :=
  if len (na_nals r) =? 0 then wret
  else put8 (N.lor (w32 (N.shiftl (na_complete r) 7)) (na_type r)) ;;
       (if single (na_type r) then wret else put16 (len (na_nals r))) ;; sets_w (arr_out r).
Definition vvcc_w (a : vvcc) : wr :=
  put8 (vc_ver a) ;; put24 (vc_flags a) ;;
  put8 (N.lor (N.lor 248 (w32 (N.shiftl (vc_len1 a) 1))) (match vc_ptl a with Some _ => 1 | None => 0 end)) ;;
  match vc_ptl a with Some p => vptl_w p | None => wret end ;;
  put8 (vc_num a) ;; wmap varr_w (vc_arrs a).
(* createFromInputStream, VVCConfigAtom.c:247-387 *)
Fixpoint sub_list (k : nat) (helper x : N) : list bool :=
  match k with O => [] | S k' => negb (N.land x helper =? 0) :: sub_list k' (N.shiftr helper 1) x end.
Fixpoint subs_rd (l : list bool) : rd (list (option N)) :=
  match l with
  | [] => rret []
  | true :: r => let* v := get8 in let* t := subs_rd r in rret (Some v :: t)
  | false :: r => let* t := subs_rd r in rret (None :: t)
  end.
Definition vptl_rd : rd vptl :=
  let* x := get16 in let* d := get8 in let* nb := get8 in let* pi := get8 in let* lv := get8 in let* y := get8 in
  let nsl := N.shiftr (N.land x 112) 4 in
  let nb := N.land nb 63 in
  let* lower := (if 1 <? nb then take (N.to_nat (nb - 1)) else rret []) in
  let* fl := (if 2 <=? nsl then get8 else rret 0) in
  let* subs := subs_rd (sub_list (N.to_nat (nsl - 1)) 128 fl) in
  let* np := get8 in
  let* _ := (if 0 <? np then let* _ := get32 in rub else rret tt) in
  let* w := get16 in let* h := get16 in let* av := get16 in
  rret (mkPtl (N.shiftr (N.land x 65408) 7) nsl (N.shiftr (N.land x 12) 2) (N.land x 3) (N.shiftr (N.land d 224) 5)
          nb (N.shiftr (N.land pi 254) 1) (N.land pi 1) lv (N.shiftr (N.land y 128) 7) (N.shiftr (N.land y 64) 6) (N.land y 63) lower subs np w h av).
Fixpoint lut_find (l : list N) (j ty : N) : option N :=
  match l with [] => None | t :: r => if ty =? t then Some j else lut_find r (j + 1) ty end.
Fixpoint varrs_rd (k : nat) (ui : N) (l : list narr) : rd (list narr) :=
  match k with
  | O => rret l
  | S k' =>
      let* x := get8 in
      let ty := N.land x 31 in
      let i := match lut_find vvc_types 0 ty with Some j => j | None => ui end in
      if len l <=? i then rub else
      let* n := (if single ty then rret 1 else get16) in
      let* nals := rrep (N.to_nat n) set_rd in
      varrs_rd k' (ui + 1) (arr_set l i (mkArr (if N.land x 128 =? 0 then 0 else 1) ty nals))
  end.
Definition vvcc_rd (h : hdr) : rd vvcc :=
  let* vf := get_full in
  let* x := get8 in
  let* p := (if N.land x 1 =? 0 then rret None else let* p := vptl_rd in rret (Some p)) in
  let* n := get8 in
  let* arrs := varrs_rd (N.to_nat n) 0 vvc_arrs in
  rret (mkVvcc (fst vf) (snd vf) (N.shiftr (N.land x 6) 1) p n arrs).
Definition vvcc_codec : codec vvcc := mkCodec (N.eqb T_vvcC) (fun _ => T_vvcC) vvcc_size vvcc_w vvcc_rd.
(* addParameterSet, VVCConfigAtom.c:389-429 *)
Definition vvcc_add (a : vvcc) (ps : list N) (ty : N) : res vvcc :=
  match arrs_add (vc_arrs a) ps ty with
  | Some (l, new) => Ok (mkVvcc (vc_ver a) (vc_flags a) (vc_len1 a) (vc_ptl a) (if new then w32 (vc_num a + 1) else vc_num a) l)
  | None => Err MP4BadParamErr
  end.
(* getParameterSet, VVCConfigAtom.c:431-472 *)
Definition vvcc_get (a : vvcc) (ty index : N) : res (list N) :=
  match find (fun r => na_type r =? ty) (vc_arrs a) with
  | Some r => set_at (na_nals r) index
  | None => Err MP4BadParamErr
  end.

(* vvnC, VVCNALUConfigAtom.c:34-86 *)
Record vvnc := mkVvnc { vn_ver : N; vn_flags : N; vn_len1 : N }.
Definition vvnc_rd (h : hdr) : rd vvnc :=
  let* vf := get_full in let* x := get8 in rret (mkVvnc (fst vf) (snd vf) (N.land x 3)).
Definition vvnc_codec : codec vvnc := mkCodec (N.eqb T_vvnC) (fun _ => T_vvnC) (fun _ => 13)
  (fun a => put8 (vn_ver a) ;; put24 (vn_flags a) ;; put8 (vn_len1 a)) vvnc_rd.

(* ------------------------------------------------------------------ *)
(* Sequence parameter sets                                             *)

(* ISONewAVCSampleDescription, ISOSampleDescriptions.c:1018-1055: profile,
   compatibility, level, chroma format and bit depths *)
Definition avc_sps : br (N * N * N * (N * N * N)) :=
  get! x := get_byte false in
  if negb (N.land x 31 =? 7) then berr MP4BadParamErr else
  get! p := get_byte false in get! c := get_byte false in get! l := get_byte false in
  get! _ := golomb false in
  if high p then
    get! cf := golomb false in get! lu := golomb false in get! cd := golomb false in bret (p, c, l, (cf, lu, cd))
  else bret (p, c, l, (0, 0, 0)).

(* ISONewHEVCSampleDescription, ISOSampleDescriptions.c:1516-1645 *)
Record hsps := mkHsps { sp_nest : N; sp_idc : N; sp_compat : N; sp_level : N; sp_chroma : N; sp_w : N; sp_h : N; sp_luma : N; sp_cdepth : N }.
Definition sub_present (pe : bool) : br (N * N) := get! a := get_bits pe 1 in get! b := get_bits pe 1 in bret (w8 a, w8 b).
Fixpoint sub_levels (l : list (N * N)) : br unit :=
  match l with
  | [] => bret tt
  | (a, b) :: r =>
      get! _ := (if negb (a =? 0) then times 11 (get_byte true) else bret []) in
      get! _ := (if negb (b =? 0) then get! _ := get_byte true in bret tt else bret tt) in
      sub_levels r
  end.
Definition hevc_sps : br hsps :=
  get! x := get_byte true in
  if negb (N.shiftr x 1 =? 33) then berr MP4BadParamErr else
  get! _ := get_byte true in
  get! x := get_byte true in
  let msl := N.shiftr (N.land x 15) 1 + 1 in
  let nest := N.land x 1 in
  get! x := get_byte true in
  let idc := N.land x 31 in
  get! c := times 4 (get_byte true) in
  let compat := N.lor (N.lor (N.lor (w32 (N.shiftl (nth 0 c 0) 24)) (N.shiftl (nth 1 c 0) 16)) (N.shiftl (nth 2 c 0) 8)) (nth 3 c 0) in
  get! _ := times 6 (get_byte true) in
  get! level := get_byte true in
  get! fl := times (N.to_nat (msl - 1)) (sub_present true) in
  get! _ := (if 1 <? msl then get_bits true (16 - (msl - 1) * 2) else bret 0) in
  get! _ := sub_levels fl in
  get! _ := golomb true in
  get! cf := golomb true in
  get! _ := (if cf =? 3 then get_bits true 1 else bret 0) in
  get! w := golomb true in
  get! h := golomb true in
  get! x := get_bits true 1 in
  get! _ := (if negb (w8 x =? 0) then times 4 (golomb true) else bret []) in
  get! lu := golomb true in
  get! cd := golomb true in
  bret (mkHsps nest idc compat level cf w h lu cd).

(* ISONewVVCSampleDescription, ISOSampleDescriptions.c:1919-2180 *)
(* general_constraints_info, 1962-2000: upper bits, number of bytes, lower
   bytes. gciBuffer has ten bytes, of which as many are copied as the number
   says. The error of one read, 1990, is not looked at; it is returned
   here. *)
Definition vvc_gci : br (N * N * list N) :=
  get! present := get_bits true 1 in
  if w8 present =? 0 then bret (0, 1, [])
  else
    get! x := get_bits true 5 in
    get! l := times 9 (get_byte true) in
    get! y := get_bits true 3 in
    let r := N.lor (N.shiftl (N.land (nth 8 l 0) 31) 3) (w8 y) in
    let n := 10 + (r + 3) / 8 in
    if 10 <? n then (fun _ => UB) else bret (N.lor (w8 x) (N.shiftl 1 5), n, l ++ [w8 (N.shiftl (w8 y) 5)]).
(* 2001-2006 *)
Definition align : br (list N) := fun s => times (N.to_nat (b_cur s mod 8)) (get_bits true 1) s.
Fixpoint vvc_sub_levels (l : list N) : br (list (option N)) :=
  match l with
  | [] => bret []
  | f :: r =>
      get! v := (if w8 f =? 0 then bret None else get! v := get_byte true in bret (Some v)) in
      get! t := vvc_sub_levels r in bret (v :: t)
  end.
(* 1943-2045 *)
Definition vvc_ptl (nsl chroma : N) : br (N -> N -> N -> vptl) :=
  get! x := get_byte true in
  get! level := get_byte true in
  get! frame := get_bits true 1 in
  get! multi := get_bits true 1 in
  get! gci := vvc_gci in
  get! _ := align in
  get! fl := times (N.to_nat (nsl - 1)) (get_bits true 1) in
  get! _ := (if 1 <? nsl then times (N.to_nat (9 - nsl)) (get_bits true 1) else bret []) in
  get! subs := vvc_sub_levels fl in
  get! np := get_byte true in
  get! _ := (if 0 <? np then get! _ := get_bits true 32 in (fun _ => UB) else bret tt) in
  bret (fun w h depth => mkPtl 0 nsl 0 chroma depth (snd (fst gci)) (N.shiftr x 1) (N.land x 1) level (w8 frame) (w8 multi)
          (fst (fst gci)) (snd gci) subs np w h 0).
(* the number of bits of a position, 2096-2150 *)
Definition uv_bits (size ctb : N) : N := N.log2_up (w32 (size + ctb - 1) / ctb).
Definition vvc_subpic (w h ctb num ui : N) (indep same : bool) : br unit :=
  get! _ := (if negb same || (ui =? 0) then
               get! _ := (if (0 <? ui) && (ctb <? w) then get_bits true (uv_bits w ctb) else bret 0) in
               get! _ := (if (0 <? ui) && (ctb <? h) then get_bits true (uv_bits h ctb) else bret 0) in
               get! _ := (if (ui <? num) && (ctb <? w) then get_bits true (uv_bits w ctb) else bret 0) in
               get! _ := (if (ui <? num) && (ctb <? h) then get_bits true (uv_bits h ctb) else bret 0) in
               bret tt
             else bret tt) in
  if indep then bret tt else get! _ := get_bits true 2 in bret tt.
Fixpoint vvc_subpics (w h ctb num : N) (k : nat) (ui : N) (indep same : bool) : br unit :=
  match k with
  | O => bret tt
  | S k' => get! _ := vvc_subpic w h ctb num ui indep same in vvc_subpics w h ctb num k' (ui + 1) indep same
  end.
Definition flag : br bool := get! x := get_bits true 1 in bret (negb (w8 x =? 0)).
(* 2075-2175; the loop over 2^32 subpictures never ends in C *)
Definition vvc_subpic_info (w h ctb : N) : br unit :=
  get! num := golomb true in
  get! fs := (if 0 <? num then get! a := flag in get! b := flag in bret (a, b) else bret (false, false)) in
  get! _ := (if 0 <? num then vvc_subpics w h ctb num (N.to_nat (num + 1)) 0 (fst fs) (snd fs) else bret tt) in
  get! idlen := golomb true in
  get! explicit := flag in
  if explicit then
    get! present := flag in
    if present then get! _ := times (N.to_nat (num + 1)) (get_bits true (w32 (idlen + 1))) in bret tt else bret tt
  else bret tt.
(* width, height, and the rest of the configuration *)
Definition vvc_sps : br (N * N * option vptl) :=
  get! _ := get_byte true in
  get! x := get_byte true in
  if negb (N.shiftr x 3 =? 15) then berr MP4BadParamErr else
  get! _ := get_byte true in
  get! x := get_byte true in
  let nsl := N.shiftr x 5 + 1 in
  let chroma := N.shiftr (N.land x 31) 3 in
  let ctb := N.shiftl 1 (N.shiftr (N.land x 6) 1 + 5) in
  get! ptl := (if N.land x 1 =? 0 then bret None else get! p := vvc_ptl nsl chroma in bret (Some p)) in
  get! _ := get_bits true 1 in
  get! resample := flag in
  get! _ := (if resample then get_bits true 1 else bret 0) in
  get! w := golomb true in
  get! h := golomb true in
  get! window := flag in
  get! _ := (if window then times 4 (golomb true) else bret []) in
  get! sub := flag in
  get! _ := (if sub then vvc_subpic_info w h ctb else bret tt) in
  get! depth := golomb true in
  bret (w, h, match ptl with Some p => Some (p w h depth) | None => None end).

(* ------------------------------------------------------------------ *)
(* The calls                                                           *)

Section Calls.
(* [c]: the other boxes with a parser that can be in an entry; [o]: the other
   kinds of entries *)
Context {X O : Type} (c : codec X) (o : codec O).
Notation T := (avcc + (hvcc + (vvcc + (vvnc + X))))%type.
Definition pcodec : codec T := csum avcc_codec (csum hvcc_codec (csum vvcc_codec (csum vvnc_codec c))).
Definition pdflt : T := inr (inr (inr (inl (mkVvnc 0 0 0)))).
Notation ent := (ent T O).

(* a visual entry with width and height *)
Definition sized (f : vfix) (w h : N) : vfix :=
  mkV (v_res f) (v_dri f) (v_res2 f) w h (v_r4 f) (v_r5 f) (v_r6 f) (v_r7 f) (v_nlen f) (v_name f) (v_r8 f) (v_r9 f).

(* ISONewAVCSampleDescription, ISOSampleDescriptions.c:987-1087; [visual]:
   newTrackFlags & MP4NewTrackIsVisual *)
Definition new_avc (visual : bool) (dri length_size : N) (sps pps ext : option (list N)) : res (list N) :=
  if negb visual then Err MP4BadParamErr else
  match sps with
  | None => Err MP4BadParamErr
  | Some p =>
      do st <- bb_init p;
      do r <- avc_sps st;
      let '(pr, cp, lv, (cf, lu, cd)) := fst r in
      let cfg := mkAvcc pr cp lv true length_size
                   (match pps with Some _ => [p] | None => [] end) (match pps with Some q => [q] | None => [] end) cf lu cd
                   (match ext with Some q => [q] | None => [] end) in
      entry_w pcodec o (EVis T_avc1 (vfix_new dri) [ALeaf T (inl cfg)])
  end.
(* ISONewHEVCSampleDescription, ISOSampleDescriptions.c:1470-1672, with what
   setDimensions puts into the track header (TrackAtom.c:274-287). A track
   changed by a call that fails afterwards is not modelled. *)
Definition new_hevc (visual : bool) (dri length_size : N) (sps pps vps : option (list N)) : res (list N * (N * N)) :=
  if negb ((length_size =? 1) || (length_size =? 2) || (length_size =? 4)) then Err MP4BadParamErr else
  if negb visual then Err MP4BadParamErr else
  match sps with
  | None => Err MP4BadParamErr
  | Some p =>
      do st <- bb_init p;
      do r <- hevc_sps st;
      let s := fst r in
      let cfg := mkHvcc (sp_idc s) (sp_compat s) (sp_level s) (sp_chroma s) (sp_luma s) (sp_cdepth s) 0 (sp_nest s) (length_size - 1) 0 hevc_arrs in
      let cfg := match vps with Some q => hvcc_add cfg q 32 | None => cfg end in
      let cfg := hvcc_add cfg p 33 in
      let cfg := match pps with Some q => hvcc_add cfg q 34 | None => cfg end in
      do b <- entry_w pcodec o (EVis T_hvc1 (sized (vfix_new dri) (sp_w s) (sp_h s)) [ALeaf T (inr (inl cfg))]);
      Ok (b, (w32 (N.shiftl (sp_w s) 16), w32 (N.shiftl (sp_h s) 16)))
  end.
(* ISONewVVCSampleDescription, ISOSampleDescriptions.c:1872-2213 *)
Definition new_vvc (visual : bool) (dri length_size : N) (sps pps : option (list N)) : res (list N * (N * N)) :=
  if negb ((length_size =? 1) || (length_size =? 2) || (length_size =? 4)) then Err MP4BadParamErr else
  match sps with
  | None => Err MP4BadParamErr
  | Some p =>
      if negb visual then Err MP4BadParamErr else
      do st <- bb_init p;
      do r <- vvc_sps st;
      let '(w, h, ptl) := fst r in
      do cfg <- vvcc_add (mkVvcc 0 0 (length_size - 1) ptl 0 vvc_arrs) p 15;
      do cfg <- match pps with
                | None => Ok cfg
                | Some q =>
                    do st <- bb_init q;
                    do x <- (get! _ := get_byte true in get_byte true) st;
                    if negb (N.shiftr (fst x) 3 =? 16) then Err MP4BadParamErr else vvcc_add cfg q 16
                end;
      do b <- entry_w pcodec o (EVis T_vvc1 (sized (vfix_new dri) w h) [ALeaf T (inr (inr (inl cfg)))]);
      Ok (b, (w32 (N.shiftl w 16), w32 (N.shiftl h 16)))
  end.
(* ISONewVVCSubpicSampleDescription, ISOSampleDescriptions.c:2215-2256 *)
Definition new_subpic (visual : bool) (dri w h length_size : N) : res (list N * (N * N)) :=
  if negb ((length_size =? 1) || (length_size =? 2) || (length_size =? 4)) then Err MP4BadParamErr else
  if negb visual then Err MP4BadParamErr else
  do b <- entry_w pcodec o (EVis T_vvs1 (sized (vfix_new dri) w h) [ALeaf T (inr (inr (inr (inl (mkVvnc 0 0 (length_size - 1))))))]);
  Ok (b, (w32 (N.shiftl w 16), w32 (N.shiftl h 16))).

(* the entry of a handle, if it is of one of the types; [vis]: the visual
   entry is the default *)
Definition entry_of (vis : bool) (types : list N) (b : list N) : res (N * vfix * list (atom T)) :=
  do e <- of_handle pcodec pdflt o vis b;
  if negb (existsb (N.eqb (ent_ty o e)) types) then Err MP4BadParamErr
  else match e with EVis ty f l => Ok (ty, f, l) | _ => UB end.
(* MP4GetListEntryAtom, MP4Atoms.c:710-738 *)
Definition ext_of (l : list (atom T)) (ty : N) : option (atom T) := find (fun x => atype T (c_ty pcodec) x =? ty) l.
(* the box found, taken for the structure of its type *)
Definition avc_of (l : list (atom T)) : res avcc :=
  match ext_of l T_avcC with Some (ALeaf _ (inl a)) => Ok a | Some _ => UB | None => Err MP4BadDataErr end.
Definition hevc_of (l : list (atom T)) : res hvcc :=
  match ext_of l T_hvcC with Some (ALeaf _ (inr (inl a))) => Ok a | Some _ => UB | None => Err MP4BadDataErr end.
Definition vvc_of (l : list (atom T)) : res vvcc :=
  match ext_of l T_vvcC with Some (ALeaf _ (inr (inr (inl a)))) => Ok a | Some _ => UB | None => Err MP4BadDataErr end.
Definition vvn_of (l : list (atom T)) : res vvnc :=
  match ext_of l T_vvnC with Some (ALeaf _ (inr (inr (inr (inl a))))) => Ok a | Some _ => UB | None => Err MP4BadDataErr end.
(* the first box of the type replaced, as the structure is changed in place *)
Fixpoint put_ext (l : list (atom T)) (ty : N) (x : T) : list (atom T) :=
  match l with
  | [] => []
  | a :: r => if atype T (c_ty pcodec) a =? ty then ALeaf T x :: r else a :: put_ext r ty x
  end.

(* ISOAddVCSampleDescriptionPS, ISOSampleDescriptions.c:1089-1116 *)
Definition add_vc (b ps : list N) (wh : N) : res (list N) :=
  do e <- entry_of false [T_avc1] b;
  let '(ty, f, l) := e in
  do a <- avc_of l;
  do a' <- avcc_add a ps wh;
  entry_w pcodec o (EVis ty f (put_ext l T_avcC (inl a'))).
(* ISOGetAVCSampleDescription, ISOSampleDescriptions.c:1118-1148 *)
Definition get_avc (b : list N) : res (N * N * (N * N * N)) :=
  do e <- entry_of true [T_avc1] b;
  let '(ty, f, l) := e in
  do a <- avc_of l;
  Ok (v_dri f, ac_len a, (len (ac_sps a), len (ac_pps a), len (ac_ext a))).
(* ISOGetVCSampleDescriptionPS, ISOSampleDescriptions.c:1150-1173 *)
Definition get_vc_ps (b : list N) (wh index : N) : res (list N) :=
  do e <- entry_of true [T_avc1] b;
  let '(ty, f, l) := e in
  do a <- avc_of l; avcc_get a wh index.
(* ISOGetHEVCSampleDescriptionPS, ISOSampleDescriptions.c:1175-1199 *)
Definition get_hevc_ps (b : list N) (wh index : N) : res (list N) :=
  do e <- entry_of true [T_hvc1; T_hvc2] b;
  let '(ty, f, l) := e in
  do a <- hevc_of l; hvcc_get a wh index.
(* ISOAddVVCSampleDescriptionPS, ISOSampleDescriptions.c:1201-1231 *)
Definition add_vvc (b ps : list N) (wh : N) : res (list N) :=
  do e <- entry_of false [T_vvc1; T_vvi1] b;
  let '(ty, f, l) := e in
  do a <- vvc_of l;
  do a' <- vvcc_add a ps wh;
  entry_w pcodec o (EVis ty f (put_ext l T_vvcC (inr (inr (inl a'))))).
(* ISOGetVVCSampleDescriptionPS, ISOSampleDescriptions.c:1233-1258 *)
Definition get_vvc_ps (b : list N) (wh index : N) : res (list N) :=
  do e <- entry_of true [T_vvc1; T_vvi1] b;
  let '(ty, f, l) := e in
  do a <- vvc_of l; vvcc_get a wh index.
(* ISOGetVVCNaluNums, ISOSampleDescriptions.c:1260-1299, and the count of
   ISOGetVVCSampleDescription *)
Definition vvc_count (a : vvcc) (ty : N) : res N :=
  match find (fun r => na_type r =? ty) (vc_arrs a) with Some r => Ok (len (na_nals r)) | None => Err MP4BadParamErr end.
Definition get_vvc_nums (b : list N) (wh : N) : res N :=
  do e <- entry_of true [T_vvc1; T_vvi1] b;
  let '(ty, f, l) := e in
  do a <- vvc_of l; vvc_count a wh.
(* ISOGetVVCSampleDescription, ISOSampleDescriptions.c:2258-2299 *)
Definition get_vvc (b : list N) (nalu : N) : res (N * N * N) :=
  do e <- entry_of true [T_vvc1; T_vvi1] b;
  let '(ty, f, l) := e in
  do a <- vvc_of l;
  do n <- vvc_count a nalu; Ok (v_dri f, vc_len1 a + 1, n).
(* ISOGetVVCSubpicSampleDescription, ISOSampleDescriptions.c:2301-2327 *)
Definition get_subpic (b : list N) : res (N * N) :=
  do e <- entry_of true [T_vvs1] b;
  let '(ty, f, l) := e in
  do a <- vvn_of l; Ok (v_dri f, vn_len1 a + 1).
(* ISOGetNALUnitLength, ISOSampleDescriptions.c:1331-1391 *)
Definition nal_length (b : list N) : res N :=
  do e <- entry_of true [T_resv; T_hvc1; T_avc1; T_vvc1; T_vvi1] b;
  let '(ty, f, l) := e in
  match ext_of l T_vvnC with
  | Some (ALeaf _ (inr (inr (inr (inl a))))) => Ok (vn_len1 a + 1)
  | Some _ => UB
  | None =>
      match ext_of l T_hvcC with
      | Some (ALeaf _ (inr (inl a))) => Ok (hc_len1 a + 1)
      | Some _ => UB
      | None =>
          match ext_of l T_avcC with
          | Some (ALeaf _ (inl a)) => Ok (ac_len a)
          | Some _ => UB
          | None => do a <- vvc_of l; Ok (vc_len1 a + 1)
          end
      end
  end.
End Calls.

(* GroupModel.v -- sample groups: descriptions, and the map of samples to them. *)
From Verif Require Import Base AtomModel BoxModel.

(* ------------------------------------------------------------------ *)
(* 'sgpd', SampleGroupDescriptionAtom.c                                 *)

(* MP4SampleGroupDescriptionAtom in MP4Atoms.h; groupCount is the length of
   the list, default_length is recomputed before every use *)
Record sgpd := mkSgpd { sd_ver : N; sd_flags : N; sd_type : N; sd_defidx : N; sd_groups : list (list N) }.
(* MP4CreateSampleGroupDescriptionAtom, SampleGroupDescriptionAtom.c:275-306,
   with the grouping type stored by the caller (SampleTableAtom.c:536-540) *)
Definition sgpd_new (ty : N) : sgpd := mkSgpd 1 0 ty 0 [].

Fixpoint eqbl (a b : list N) : bool :=
  match a, b with
  | [], [] => true
  | x :: a, y :: b => (x =? y) && eqbl a b
  | _, _ => false
  end.
(* the loop of findGroupDescriptionIdx: sizes, then memcmp *)
Fixpoint find_from (i : N) (l : list (list N)) (d : list N) : option N :=
  match l with
  | [] => None
  | g :: r => if eqbl g d then Some (i + 1) else find_from (i + 1) r d
  end.
(* findGroupDescriptionIdx, SampleGroupDescriptionAtom.c:100-130 *)
Definition sgpd_find (s : sgpd) (d : list N) : res N :=
  match d with
  | [] => Err MP4BadParamErr
  | _ => match find_from 0 (sd_groups s) d with Some i => Ok i | None => Err MP4NotFoundErr end
  end.
(* addGroupDescription, SampleGroupDescriptionAtom.c:45-77; groupCount is a
   u32, the model does not run out of indices *)
Definition sgpd_add (s : sgpd) (d : list N) : res (N * sgpd) :=
  match sgpd_find s d with
  | Err e => if (e =? MP4NotFoundErr)%Z
             then Ok (len (sd_groups s) + 1,
                      mkSgpd (sd_ver s) (sd_flags s) (sd_type s) (sd_defidx s) (sd_groups s ++ [d]))
             else Err MP4BadParamErr
  | Ok _ => Err MP4BadParamErr
  | UB => UB
  end.
(* getGroupDescription, SampleGroupDescriptionAtom.c:79-98 *)
Definition sgpd_get (s : sgpd) (i : N) : res (list N) :=
  if (i <? 1) || (len (sd_groups s) <? i) then Err MP4BadParamErr
  else match nthN (sd_groups s) (i - 1) with Some d => Ok d | None => UB end.

(* calculateSize, SampleGroupDescriptionAtom.c:169-205: the loop setting default_length *)
Definition default_length (l : list (list N)) : N :=
  match l with [] => 0 | g :: r => fold_left (fun d x => if len x =? d then d else 0) r (len g) end.
Definition sgpd_size (s : sgpd) : N :=
  let body := fold_left (fun n x => w32 (n + len x)) (sd_groups s) 24 in
  if default_length (sd_groups s) =? 0 then w32 (body + len (sd_groups s) * 4) else body.
(* serialize, SampleGroupDescriptionAtom.c:132-167; with no description at all
   calculateSize has read groups[0] through a NULL pointer before *)
Definition sgpd_write (s : sgpd) : wr :=
  match sd_groups s with [] => wub | _ =>
  put8 (sd_ver s) ;; put24 (sd_flags s) ;;
  put32 (sd_type s) ;; put32 (default_length (sd_groups s)) ;; put32 (len (sd_groups s)) ;;
  wmap (fun g => (if default_length (sd_groups s) =? 0 then put32 (len g) else wret) ;; putl g) (sd_groups s)
  end.
(* createFromInputStream, SampleGroupDescriptionAtom.c:207-273; malloc(count)
   is assumed to succeed *)
Definition sgpd_read (h : hdr) : rd sgpd :=
  let* (v, f) := get_full in
  let* ty := get32 in
  let* dl := (if 1 <=? v then get32 else rret 0) in
  let* di := (if 2 <=? v then get32 else rret 0) in
  let* n := get32 in
  let* gs := rrep (N.to_nat n)
    (let* c := (if 1 <=? v then (if dl =? 0 then get32 else rret dl)
                else let* br := getrdn in rret (sub32 (h_size h) br)) in
     take (N.to_nat c)) in
  rret (mkSgpd v f ty di gs).
Definition sgpd_codec : codec sgpd :=
  mkCodec (fun ty => ty =? 1936158820) (fun _ => 1936158820) sgpd_size sgpd_write sgpd_read. (* 'sgpd' *)

(* mergeSampleGroupDescriptions, SampleTableAtom.c:568-619: the descriptions
   of a fragment added to those of the track ([None]: the track has none of
   this type yet). Errors of the additions stay in [err] only for the last
   description; they are ignored by the caller (MovieFragmentAtom.c:140). *)
Definition merge_one (s : sgpd) (d : list N) : sgpd :=
  match sgpd_find s d with
  | Err e => if (e =? MP4NotFoundErr)%Z then match sgpd_add s d with Ok (_, s') => s' | _ => s end else s
  | _ => s
  end.
Definition sgpd_merge (s : option sgpd) (other : sgpd) : option sgpd :=
  match s with
  | Some s => Some (fold_left merge_one (sd_groups other) s)
  | None => match sd_groups other with
            | [] => None
            | _ => Some (fold_left (fun s d => match sgpd_add s d with Ok (_, s') => s' | _ => s end)
                                   (sd_groups other) (sgpd_new (sd_type other)))
            end
  end.

(* ------------------------------------------------------------------ *)
(* 'sbgp' and 'csgp', SampleToGroupAtom.c                               *)

(* the result of CreateCompactSampleGroups kept in compressedGroup *)
Record cinfo := mkCinfo { ci_pats : list (N * N); ci_desc : list N; ci_psz : N; ci_csz : N }.
(* sampleToGroupType_t *)
Inductive kind := Normal | Compact | Auto.
(* MP4SampletoGroupAtom: sampleCount is the length of [sg_idx]; [sg_local] is
   index_msb_indicates_fragment_local_description, [sg_isz] index_size_code,
   [sg_pp] grouping_type_parameter_present, [sg_done] is Some once
   isSampleGroupCompressed is 1 *)
Record sbgp := mkSbgp { sg_kind : kind; sg_ver : N; sg_type : N; sg_param : N; sg_idx : list N;
  sg_frag : bool; sg_local : bool; sg_isz : N; sg_pp : bool; sg_done : option cinfo }.
(* MP4CreateSampletoGroupAtom, SampleToGroupAtom.c:999-1050 *)
Definition sbgp_new (k : kind) (ty : N) (frag : bool) : sbgp := mkSbgp k 0 ty 0 [] frag false 4 false None.
Definition set_idx (s : sbgp) (l : list N) : sbgp :=
  mkSbgp (sg_kind s) (sg_ver s) (sg_type s) (sg_param s) l (sg_frag s) (sg_local s) (sg_isz s) (sg_pp s) (sg_done s).

(* GetFieldSize, SampleToGroupAtom.c:89-129 *)
Definition field_size (v : N) (local : bool) : N :=
  if local then (if v <? 8 then 4 else if v <? 128 then 8 else if v <? 32768 then 16 else 32)
  else (if v <? 16 then 4 else if v <? 256 then 8 else if v <? 65536 then 16 else 32).

(* addSamples, SampleToGroupAtom.c:456-475. ensureSize gets the byte count
   as u32: from 2^30 samples on the table is too small for what is stored. *)
Definition sbgp_addSamples (s : sbgp) (n : N) : res sbgp :=
  if n =? 0 then Ok s
  else if 1073741824 <=? len (sg_idx s) + n then UB
  else Ok (set_idx s (sg_idx s ++ repeat 0 (N.to_nat n))).

(* elements [i .. i+n) replaced by [v] *)
Definition fill (l : list N) (i n v : N) : list N :=
  firstn (N.to_nat i) l ++ repeat v (N.to_nat n) ++ skipn (N.to_nat (i + n)) l.
(* mapSamplestoGroup, SampleToGroupAtom.c:477-521. [i] is an s32; the range
   check is in u32 arithmetic. Writing outside the table is UB, and so is the
   negation of the smallest s32. *)
Definition sbgp_map (s : sbgp) (g : N) (i : Z) (n : N) : res sbgp :=
  let cnt := len (sg_idx s) in
  let start := u32_of (Z.of_N cnt + i) in
  let '(bad, first) :=
    if (i <? 0)%Z then (u32_of (- i) <? n, start) else (cnt <? w32 (n + Z.to_N i), Z.to_N i) in
  if (i =? -2147483648)%Z then UB
  else if bad then Err MP4BadParamErr
  else if negb (n =? 0) && (cnt <? first + n) then UB
  else
    let local := sg_local s || (sg_frag s && (65536 <=? g)) in
    Ok (mkSbgp (sg_kind s) (sg_ver s) (sg_type s) (sg_param s)
          (if n =? 0 then sg_idx s else fill (sg_idx s) first n g)
          (sg_frag s) local (N.max (sg_isz s) (field_size g local)) (sg_pp s) (sg_done s)).
(* getSampleGroupMap, SampleToGroupAtom.c:557-573 *)
Definition sbgp_get (s : sbgp) (n : N) : res N :=
  if n <? 1 then Err MP4BadParamErr
  else if len (sg_idx s) <? n then Ok 0
  else match nthN (sg_idx s) (n - 1) with Some g => Ok g | None => UB end.
(* changeSamplestoGroupType, SampleToGroupAtom.c:523-555 *)
Definition sbgp_setKind (s : sbgp) (k : kind) : sbgp :=
  mkSbgp k (sg_ver s) (sg_type s) (sg_param s) (sg_idx s) (sg_frag s) (sg_local s) (sg_isz s) (sg_pp s) (sg_done s).

(* ------------------------------------------------------------------ *)
(* the pattern search                                                   *)

(* PatternTracker, SampleToGroupAtom.c:63-85 (nextEfficientIndex is the order
   of the list [segments] returns) *)
Record trk := mkTrk { pt_start : N; pt_len : N; pt_cnt : N; pt_cost : Z; pt_prev : Z }.
Definition trk0 : trk := mkTrk 0 0 0 0 0.
Definition tget (t : list trk) (i : N) : trk := nth (N.to_nat i) t trk0.
Fixpoint upd {A} (l : list A) (i : nat) (v : A) : list A :=
  match l, i with
  | [], _ => []
  | _ :: r, O => v :: r
  | x :: r, S k => x :: upd r k v
  end.
(* s32 arithmetic, overflow wraps (in C it is undefined; it needs more than
   2^26 samples) *)
Definition s32 (z : Z) : Z := s32_of (u32_of z).

(* SetMemoryCostForPattern, SampleToGroupAtom.c:174-200 *)
Definition cost_pattern (fs : N) (t : list trk) (p start last : N) : list trk :=
  let base := if start =? 0 then pt_cost (tget t 0) else pt_cost (tget t (start - 1)) in
  let cost := s32 (base + Z.of_N (p * fs)) in
  if (cost <? pt_cost (tget t last))%Z
  then upd t (N.to_nat last) (mkTrk start p (last - start + 1) cost (Z.of_N start - 1))
  else t.
(* SetMemoryCostForNonPattern, SampleToGroupAtom.c:202-220 *)
Definition cost_single (fs : N) (t : list trk) (i : N) : list trk :=
  let base := if i <? 1 then pt_cost (tget t 0) else pt_cost (tget t (i - 1)) in
  let cost := s32 (base + Z.of_N fs) in
  if (cost <? pt_cost (tget t i))%Z then upd t (N.to_nat i) (mkTrk i 1 1 cost (Z.of_N i - 1)) else t.
(* the inner loop of FindPatternsStartingAtIndex, SampleToGroupAtom.c:264-274;
   [fuel] is the number of samples from i on *)
Fixpoint extend (fuel : nat) (fs : N) (g : list N) (p start i : N) (t : list trk) : list trk :=
  match fuel with
  | O => t
  | S f =>
      match nthN g i, nthN g (i - p) with
      | Some a, Some b => if a =? b then extend f fs g p start (i + 1) (cost_pattern fs t p start i) else t
      | _, _ => t
      end
  end.
(* FindPatternsStartingAtIndex, SampleToGroupAtom.c:253-277: lengths 1..32 *)
Fixpoint lengths (n : nat) (p : N) (fs : N) (g : list N) (i : N) (t : list trk) : list trk :=
  match n with
  | O => t
  | S k => if i <? p then t
           else lengths k (p + 1) fs g i (extend (length g) fs g p (i - p) i t)
  end.
Definition find_patterns (fs : N) (g : list N) (t : list trk) (i : N) : list trk :=
  lengths 32 1 fs g i (cost_single fs t i).
(* the loop "expanding" the indices in InitializeSampleGroupInput,
   SampleToGroupAtom.c:291-304, which stores a value equal to the one there;
   [start] is startValue, [prev] group_index[i - 1] *)
Fixpoint expand_runs (start prev : N) (l : list N) : list N :=
  match l with
  | [] => [start]
  | x :: r => if prev =? x then start :: expand_runs start x r else prev :: expand_runs x x r
  end.
Definition init_groups (l : list N) : list N := match l with [] => [] | x :: r => expand_runs x x r end.
(* SampleToGroupAtom.c:306-316 *)
Definition init_trackers (fs : N) (n : nat) : list trk :=
  map (fun i => mkTrk (N.of_nat i) 1 1 (s32 (Z.of_N ((N.of_nat i + 1) * fs))) (Z.of_nat i - 1)) (seq 0 n).
(* the loop of CreateCompactSampleGroups, SampleToGroupAtom.c:336-340 *)
Definition search (fs : N) (g : list N) : list trk :=
  fold_left (find_patterns fs g) (map N.of_nat (seq 0 (length g))) (init_trackers fs (length g)).

(* how many single samples in a row end at [i], and the index before them:
   the inner loop of CombineNonPatterns, SampleToGroupAtom.c:233-239 *)
Fixpoint singles (fuel : nat) (t : list trk) (i : Z) : N * Z :=
  match fuel with
  | O => (0, i)
  | S f =>
      if (0 <=? i)%Z && (i <? Z.of_N (len t))%Z then
        let e := tget t (Z.to_N i) in
        if (pt_len e =? 1) && (pt_cnt e =? 1) then
          let '(c, j) := singles f t (pt_prev e) in (c + 1, j)
        else (0, i)
      else (0, i)
  end.
(* CombineNonPatterns, SampleToGroupAtom.c:222-251: the segments from the
   last to the first, put in order by the accumulator *)
Fixpoint segments (fuel : nat) (t : list trk) (i : Z) (acc : list (N * N * N)) : list (N * N * N) :=
  match fuel with
  | O => acc
  | S f =>
      if (0 <=? i)%Z && (i <? Z.of_N (len t))%Z then
        let e := tget t (Z.to_N i) in
        let '(c, j) := singles (length t) t i in
        if c =? 0 then segments f t (pt_prev e) ((pt_start e, pt_len e, pt_cnt e) :: acc)
        else segments f t j ((pt_start e - (c - 1), c, c) :: acc)
      else acc
  end.

(* SampleToGroupAtom.c:377-385 *)
Definition stored_index (s : sbgp) (g : N) : N :=
  if sg_frag s && (65536 <=? g) then
    let g' := g - 65536 in
    if sg_local s then N.lor g' (N.shiftl 1 (sg_isz s - 1)) else g'
  else g.
Definition widest (l : list N) : N := fold_left (fun m v => N.max m (field_size v false)) l 4.
(* CreateCompactSampleGroups, SampleToGroupAtom.c:319-403. The index array
   read is the one InitializeSampleGroupInput has stored back. *)
Definition compact (s : sbgp) : cinfo :=
  let g := init_groups (sg_idx s) in
  let t := search (sg_isz s) g in
  let segs := segments (length g) t (Z.of_N (len g) - 1) [] in
  let pats := map (fun x => (snd (fst x), snd x)) segs in
  let desc := flat_map (fun x => map (stored_index s)
                (firstn (N.to_nat (snd (fst x))) (skipn (N.to_nat (fst (fst x))) g))) segs in
  let psz := widest (map fst pats) in
  let csz := widest (map snd pats) in
  if (psz + csz) mod 8 =? 0 then mkCinfo pats desc psz csz
  else if psz =? 4 then mkCinfo pats desc 8 csz else mkCinfo pats desc psz 8.
Definition compacted (s : sbgp) : cinfo := match sg_done s with Some c => c | None => compact s end.

(* runs of equal indices: the loops of serialize (SampleToGroupAtom.c:700-717) and calculateSize *)
Fixpoint runs_from (cur cnt : N) (l : list N) : list (N * N) :=
  match l with
  | [] => [(cnt, cur)]
  | x :: r => if cur =? x then runs_from cur (w32 (cnt + 1)) r else (cnt, cur) :: runs_from x 1 r
  end.
Definition runs (l : list N) : list (N * N) := match l with [] => [] | x :: r => runs_from x 1 r end.

(* calculateSize, SampleToGroupAtom.c:755-839; an empty map counts one entry *)
Definition normal_size (s : sbgp) : N :=
  w32 (12 + (N.max 1 (len (runs (sg_idx s))) * 8 + 8) + (if sg_ver s =? 1 then 4 else 0)).
Definition bits (s : sbgp) : N :=
  let c := compacted s in w32 (len (ci_pats c) * (ci_psz c + ci_csz c) + len (ci_desc c) * sg_isz s).
Definition compact_size (s : sbgp) : N :=
  w32 (20 + (if sg_pp s then 4 else 0) + w32 (bits s + 4) / 8).
(* the automatic choice compares the sizes without the optional parameters *)
Definition sbgp_kind (s : sbgp) : kind :=
  match sg_kind s with
  | Auto => if w32 (12 + (N.max 1 (len (runs (sg_idx s))) * 8 + 8)) <=? w32 (20 + w32 (bits s + 4) / 8)
            then Normal else Compact
  | k => k
  end.
Definition sbgp_size (s : sbgp) : N :=
  match sg_kind s, sbgp_kind s with
  | Auto, Normal => w32 (12 + (N.max 1 (len (runs (sg_idx s))) * 8 + 8))
  | Auto, _ => w32 (20 + w32 (bits s + 4) / 8)
  | _, Normal => normal_size s
  | _, _ => compact_size s
  end.

(* the box as calculateSize leaves it: the form chosen, and the patterns kept
   for good (SampleToGroupAtom.c:325, 399) *)
Definition sbgp_saved (s : sbgp) : sbgp :=
  mkSbgp (sbgp_kind s) (sg_ver s) (sg_type s) (sg_param s) (sg_idx s) (sg_frag s) (sg_local s) (sg_isz s) (sg_pp s)
    (match sg_kind s with Normal => sg_done s | _ => Some (compacted s) end).

(* PackData, SampleToGroupAtom.c:619-660, for a sequence of values of one
   width starting at a byte boundary; a second nibble is or-ed into the byte
   before it *)
Fixpoint nibbles (l : list N) : list N :=
  match l with
  | a :: b :: r => be8 (N.lor (N.shiftl a 4 mod 256) (N.land b 15)) ++ nibbles r
  | [a] => be8 (N.shiftl a 4)
  | [] => []
  end.
Definition pack (sz : N) (l : list N) : list N :=
  if sz =? 4 then nibbles l
  else if sz =? 8 then flat_map be8 l
  else if sz =? 16 then flat_map be16 l
  else flat_map be32 l.
(* SetFieldSize, SampleToGroupAtom.c:131-151 *)
Definition size_code (sz : N) : N := if sz =? 8 then 1 else if sz =? 16 then 2 else if sz =? 32 then 3 else 0.
(* one pattern entry, SampleToGroupAtom.c:733-742 *)
Definition pack_pat (psz csz : N) (p : N * N) : list N :=
  if (psz =? 4) && (csz =? 4) then pack 4 [fst p; snd p] else pack psz [fst p] ++ pack csz [snd p].

(* serialize, SampleToGroupAtom.c:662-753; an empty map reads group_index[0] *)
Definition sbgp_write (s : sbgp) : wr :=
  match sg_idx s with [] => wub | _ =>
  match sbgp_kind s with
  | Normal =>
      put8 (sg_ver s) ;; put24 0 ;; put32 (sg_type s) ;;
      (if sg_ver s =? 1 then put32 (sg_param s) else wret) ;;
      put32 (len (runs (sg_idx s))) ;;
      wmap (fun r => put32 (fst r) ;; put32 (snd r)) (runs (sg_idx s))
  | _ =>
      let c := compacted s in
      put8 (sg_ver s) ;;
      put24 (size_code (sg_isz s) + 4 * size_code (ci_csz c) + 16 * size_code (ci_psz c) +
             (if sg_pp s then 64 else 0) + (if sg_local s then 128 else 0)) ;;
      put32 (sg_type s) ;;
      (if sg_pp s then put32 (sg_param s) else wret) ;;
      put32 (len (ci_pats c)) ;;
      wmap (fun p => putl (pack_pat (ci_psz c) (ci_csz c) p)) (ci_pats c) ;;
      putl (pack (sg_isz s) (ci_desc c))
  end end.

(* ------------------------------------------------------------------ *)
(* reading                                                              *)

(* the runs of an 'sbgp', SampleToGroupAtom.c:877-897: each run is stored
   after ensureSize got the u32 byte count *)
Fixpoint read_runs (n : nat) (acc : list N) : rd (list N) :=
  match n with
  | O => rret acc
  | S k =>
      let* c := get32 in
      let* i := get32 in
      if negb (c =? 0) && (1073741824 <=? len acc + c) then rub
      else read_runs k (acc ++ repeat i (N.to_nat c))
  end.

(* a value whose read failed is an uninitialised variable: the callers of
   GetData ignore its error *)
Definition or_ub {A} (m : rd A) : rd A := fun s => match m s with Ok r => Ok r | _ => UB end.
(* GetData, SampleToGroupAtom.c:575-617; [up] is upperNibble without its
   presence flag *)
Definition get_data (sz : N) (up : option N) : rd (N * option N) :=
  if sz =? 4 then
    match up with
    | Some n => rret (n, None)
    | None => let* b := or_ub get8 in rret (N.shiftr b 4, Some (N.land b 15))
    end
  else let* v := or_ub (if sz =? 8 then get8 else if sz =? 16 then get16 else get32) in rret (v, up).
(* the pattern entries, SampleToGroupAtom.c:945-958 *)
Fixpoint get_pats (n : nat) (psz csz : N) (up : option N) : rd (list (N * N) * option N) :=
  match n with
  | O => rret ([], up)
  | S k =>
      let* (l, up) := get_data psz up in
      let* (c, up) := get_data csz up in
      let* (r, up) := get_pats k psz csz up in
      rret ((l, c) :: r, up)
  end.
(* characters printed by "%d " with its terminating NUL, for a u32 printed as int *)
Definition printed (v : N) : N :=
  2 + (let a := if v <? 2147483648 then v else 4294967296 - v in
       let s := if v <? 2147483648 then 0 else 1 in
       s + (if a <? 10 then 1 else if a <? 100 then 2 else if a <? 1000 then 3 else if a <? 10000 then 4
            else if a <? 100000 then 5 else if a <? 1000000 then 6 else if a <? 10000000 then 7
            else if a <? 100000000 then 8 else if a <? 1000000000 then 9 else 10)).
(* the indices of one pattern, SampleToGroupAtom.c:970-985; the debug line is
   printed at msgString + 2 i, a buffer of 80 bytes *)
Fixpoint get_descs (n : nat) (i isz : N) (local : bool) (up : option N) : rd (list N * option N) :=
  match n with
  | O => rret ([], up)
  | S k =>
      let* (v, up) := get_data isz up in
      let top := N.shiftl 1 (isz - 1) in
      let v' := if local then (if N.testbit v (isz - 1) then v mod top + 65536 else v) else v in
      if 80 <? 2 * i + printed v' then rub
      else let* (r, up) := get_descs k i isz local up in rret (v' :: r, up)
  end.
(* one pattern repeated over [cnt] samples; j % 0 is undefined *)
Definition cycle (vs : list N) (plen cnt : N) : list N :=
  map (fun j => nth (N.to_nat (N.of_nat j mod plen)) vs 0) (seq 0 (N.to_nat cnt)).
Fixpoint get_groups (l : list (N * N)) (i isz : N) (local : bool) (up : option N) : rd (list N) :=
  match l with
  | [] => rret []
  | (p, c) :: r =>
      let* (vs, up) := get_descs (N.to_nat (N.min p c)) i isz local up in
      if (p =? 0) && negb (c =? 0) then rub
      else let* rest := get_groups r (i + 1) isz local up in
           rret (cycle vs p c ++ rest)
  end.
Definition total (l : list (N * N)) : N := fold_right (fun p n => snd p + n) 0 l.
(* createFromInputStream, SampleToGroupAtom.c:841-997. index_size_code of the
   structure keeps its initial value 4, groupIsInFragment is 0. *)
Definition sbgp_read (h : hdr) : rd sbgp :=
  let* (v, f) := get_full in
  if h_type h =? 1935828848 then (* 'sbgp' *)
    let* ty := get32 in
    let* p := (if v =? 1 then get32 else rret 0) in
    let* n := get32 in
    let* l := read_runs (N.to_nat n) [] in
    rret (mkSbgp Normal v ty p l false false 4 false None)
  else
    let isz := N.shiftl 4 (N.land f 3) in
    let csz := N.shiftl 4 (N.land (N.shiftr f 2) 3) in
    let psz := N.shiftl 4 (N.land (N.shiftr f 4) 3) in
    if negb ((psz + csz) mod 8 =? 0) then rerr MP4BadParamErr
    else
    let local := N.testbit f 7 in
    let pp := N.testbit f 6 in
    let* ty := get32 in
    let* p := (if pp then get32 else rret 0) in
    let* n := get32 in
    let* (pats, up) := get_pats (N.to_nat n) psz csz None in
    if 1073741824 <=? total pats then rub
    else
    let* l := get_groups pats 0 isz local up in
    rret (mkSbgp Compact v ty p l false local 4 pp None).
Definition sbgp_codec : codec sbgp :=
  mkCodec (fun ty => (ty =? 1935828848) || (ty =? 1668507504)) (* 'sbgp', 'csgp' *)
    (fun s => match sbgp_kind s with Normal => 1935828848 | _ => 1668507504 end) sbgp_size sbgp_write sbgp_read.

(* ------------------------------------------------------------------ *)
(* the groups of a track, SampleTableAtom.c                             *)

(* groupDescriptionList, sampletoGroupList and stsz->sampleCount *)
Record gtab := mkGtab { gt_descs : list sgpd; gt_maps : list sbgp; gt_count : N }.
(* MP4FindGroupAtom, SampleTableAtom.c:56-85: the first box of the type *)
Fixpoint find_by {A} (f : A -> N) (ty : N) (l : list A) : option A :=
  match l with [] => None | x :: r => if f x =? ty then Some x else find_by f ty r end.
(* the box found is changed in place *)
Fixpoint put_by {A} (f : A -> N) (ty : N) (v : A) (l : list A) : list A :=
  match l with [] => [] | x :: r => if f x =? ty then v :: r else x :: put_by f ty v r end.
(* addGroupDescription, SampleTableAtom.c:527-549; a refused description
   leaves a new empty box behind *)
Definition gt_addDesc (t : gtab) (ty : N) (d : list N) : res N * gtab :=
  let '(l, s) := match find_by sd_type ty (gt_descs t) with
                 | Some s => (gt_descs t, s)
                 | None => (gt_descs t ++ [sgpd_new ty], sgpd_new ty)
                 end in
  match sgpd_add s d with
  | Ok (i, s') => (Ok i, mkGtab (put_by sd_type ty s' l) (gt_maps t) (gt_count t))
  | Err e => (Err e, mkGtab l (gt_maps t) (gt_count t))
  | UB => (UB, t)
  end.
(* getGroupDescription, SampleTableAtom.c:551-566 *)
Definition gt_getDesc (t : gtab) (ty i : N) : res (list N) :=
  match find_by sd_type ty (gt_descs t) with Some s => sgpd_get s i | None => Err MP4BadParamErr end.
(* the part of addSamples keeping the maps, SampleTableAtom.c:404-416 *)
Fixpoint add_each (l : list sbgp) (n : N) : res (list sbgp) :=
  match l with [] => Ok [] | s :: r => do s' <- sbgp_addSamples s n; do r' <- add_each r n; Ok (s' :: r') end.
Definition gt_addSamples (t : gtab) (n : N) : res gtab :=
  do l <- add_each (gt_maps t) n; Ok (mkGtab (gt_descs t) l (gt_count t + n)).
(* mapSamplestoGroup, SampleTableAtom.c:648-687, with the media's samples in stsz *)
Definition gt_map (t : gtab) (ty g : N) (i : Z) (n : N) (k : kind) : res unit * gtab :=
  match find_by sd_type ty (gt_descs t) with
  | None => (Err MP4BadParamErr, t)
  | Some d =>
      if len (sd_groups d) <? g then (Err MP4BadParamErr, t)
      else
        match match find_by sg_type ty (gt_maps t) with
              | Some s => Ok (gt_maps t, s)
              | None => do s <- sbgp_addSamples (sbgp_new k ty false) (gt_count t); Ok (gt_maps t ++ [s], s)
              end with
        | Ok (l, s) =>
            match sbgp_map s g i n with
            | Ok s' => (Ok tt, mkGtab (gt_descs t) (put_by sg_type ty s' l) (gt_count t))
            | Err e => (Err e, mkGtab (gt_descs t) l (gt_count t))
            | UB => (UB, t)
            end
        | Err e => (Err e, t)
        | UB => (UB, t)
        end
  end.
(* getSampleGroupMap, SampleTableAtom.c:689-708 *)
Definition gt_get (t : gtab) (ty n : N) : res N :=
  match find_by sg_type ty (gt_maps t) with Some s => sbgp_get s n | None => Err MP4BadParamErr end.
(* the loop of getSampleGroupSampleNumbers, SampleTableAtom.c:722-739; [cur]
   is cur_index, [prev] group_index[i - 1] *)
Fixpoint last_numbers (g cur prev i : N) (l : list N) : list N :=
  match l with
  | [] => if cur =? g then [i] else []
  | x :: r => if prev =? x then last_numbers g cur x (i + 1) r
              else (if cur =? g then [i] else []) ++ last_numbers g x x (i + 1) r
  end.
(* getSampleGroupSampleNumbers, SampleTableAtom.c:710-744; group_index[0] is
   read even of an empty table *)
Definition gt_numbers (t : gtab) (ty g : N) : res (list N) :=
  match find_by sg_type ty (gt_maps t) with
  | None => Ok []
  | Some s => match sg_idx s with [] => UB | x :: r => Ok (last_numbers g x x 1 r) end
  end.

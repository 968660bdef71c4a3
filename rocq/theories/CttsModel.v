(* CttsModel.v -- composition offsets: the ctts and cslg boxes. *)
From Verif Require Import Base AtomModel BoxModel SttsModel CttsSpec.

(* MP4CompositionOffsetAtom, MP4Atoms.h:804-813; cttsEntry DecodingOffsetAtom.c:30-34
   as (sampleCount, decodingOffset). [ct_cur]: currentEntry != NULL, and then it
   is the last entry (it is only assigned after an append, line 121). *)
Record ctts := mkCtts { ct_ver : N; ct_flags : N; ct_entries : list (N * N); ct_cur : bool; ct_final : N }.
(* MP4CreateCompositionOffsetAtom, DecodingOffsetAtom.c:275-302 *)
Definition ctts_new : ctts := mkCtts 0 0 [] false 0.

(* getOffsetForSampleNumber, DecodingOffsetAtom.c:68-101; None: *outOffset is
   not written (and MP4NoErr is returned) *)
Fixpoint ctts_find (n : N) (es : list (N * N)) (cur : N) : option N :=
  match es with
  | [] => None
  | (c, o) :: r => if n <=? w32 (cur + c) then Some o else ctts_find n r (w32 (cur + c))
  end.

(* addSample, DecodingOffsetAtom.c:103-129 *)
Definition ctts_add (c : ctts) (o : N) : ctts :=
  mkCtts (ct_ver c) (ct_flags c)
    (if ct_cur c then add_run (ct_entries c) o else ct_entries c ++ [(1, o)])
    true (w32 (ct_final c + 1)).
Fixpoint ctts_add_list (c : ctts) (os : list N) : ctts :=
  match os with [] => c | o :: r => ctts_add_list (ctts_add c o) r end.

(* addSamples, DecodingOffsetAtom.c:131-190. [offs] are the u32 values in
   the handle, None the NULL handle. A one-element handle is used for every
   sample; when also sampleCount = 1 the other branch reads that element. *)
Definition ctts_addSamples (c : ctts) (sn count : N) (offs : option (list N)) : res ctts :=
  do c1 <-
    (if negb (ct_final c =? 0) then
       if sn <=? ct_final c then Err MP4BadParamErr
       else let skip := s32_of (sub32 (sub32 sn (ct_final c)) 1) in
            Ok (ctts_add_list c (repeat 0 (Z.to_nat skip)))
     else Ok c);
  match offs with
  | None => Ok (ctts_add_list c1 (repeat 0 (N.to_nat count)))
            (* sampleCount = 0 = offsetCount would dereference NULL inside an
               empty loop: no access; same result *)
  | Some os =>
      if len os =? 1 then
        if count =? 1 then Ok (ctts_add_list c1 os)
        else Ok (ctts_add_list c1 (repeat (nth 0 os 0) (N.to_nat count)))
      else if negb (len os =? count) then Err MP4BadParamErr
      else Ok (ctts_add_list c1 os)
  end.

(* the ctts part of addSamples of the sample table, SampleTableAtom.c:297-324
   and 350-358; [n] samples are already there *)
Definition stbl_offsets (st : option ctts) (n count : N) (offs : option (list N)) : res (option ctts) :=
  match offs with
  | None => Ok st
  | Some _ =>
      let c := match st with Some c => c | None => ctts_new end in
      do c' <- ctts_addSamples c (w32 (n + 1)) count offs; Ok (Some c')
  end.
Fixpoint offsets_run (st : option ctts) (n : N) (bs : list (N * option (list N))) : res (option ctts) :=
  match bs with
  | [] => Ok st
  | (count, offs) :: r => do st' <- stbl_offsets st n count offs; offsets_run st' (w32 (n + count)) r
  end.

(* the composition offset a sample query adds, MP4Media.c:2137-2147: the
   variable starts at 0 *)
Definition comp_offset (st : option ctts) (n : N) : Z :=
  match st with
  | None => 0
  | Some c => match ctts_find n (ct_entries c) 0 with Some o => s32_of o | None => 0 end
  end.

(* serialize 192-221, calculateSize 223-239, createFromInputStream 241-273 *)
Definition ctts_write (s : ctts) : wr :=
  put8 (ct_ver s) ;; put24 (ct_flags s) ;; put32 (len (ct_entries s)) ;;
  wmap (fun e => put32 (fst e) ;; put32 (snd e)) (ct_entries s).
Definition ctts_size (s : ctts) : N := w32 (12 + w32 (4 + w32 (8 * len (ct_entries s)))).
Definition ctts_read (h : hdr) : rd ctts :=
  let* vf := get_full in
  let* n := get32 in
  let* es := rrep (N.to_nat n) (let* c := get32 in let* d := get32 in rret (c, d)) in
  rret (mkCtts (fst vf) (snd vf) es false 0).
Definition ctts_codec : codec ctts :=
  mkCodec (N.eqb T_ctts) (fun _ => T_ctts) ctts_size ctts_write ctts_read.

(* ------------------------------------------------------------------ *)
(* CompositionToDecodeAtom.c                                           *)

(* MP4CompositionToDecodeAtom, MP4Atoms.h:815-826; s32 fields as integers *)
Record cslg := mkCslg { cs_ver : N; cs_flags : N; cs_shift : Z; cs_least : Z; cs_great : Z;
                        cs_start : Z; cs_end : Z; cs_total : Z }.
(* MP4CreateCompositionToDecodeAtom, CompositionToDecodeAtom.c:170-201 *)
Definition cslg_new : cslg := mkCslg 0 0 0 2147483647 (-2147483648) 2147483647 (-2147483648) 0.

(* one round of the loop of updateFields, CompositionToDecodeAtom.c:93-118.
   The negation of INT_MIN in line 107 is undefined. *)
Definition cslg_step (s : cslg) (d o : Z) : res cslg :=
  let least := if (o <? cs_least s)%Z then o else cs_least s in
  let great := if (cs_great s <? o)%Z then o else cs_great s in
  if (least =? -2147483648)%Z then UB else
  let shift := if (least <? 0)%Z then (- least)%Z else cs_shift s in
  let t := (cs_total s + o)%Z in   (* s64 *)
  let start := if (t <? cs_start s)%Z then s32_of (u32_of t) else cs_start s in
  let fin := if (cs_end s <? t)%Z then s32_of (u32_of t) else cs_end s in
  Ok (mkCslg (cs_ver s) (cs_flags s) shift least great start fin (cs_total s + d)).
Fixpoint cslg_loop (s : cslg) (l : list (Z * Z)) : res cslg :=
  match l with [] => Ok s | (d, o) :: r => do s' <- cslg_step s d o; cslg_loop s' r end.
(* updateFields, CompositionToDecodeAtom.c:59-123: one value for all samples
   or one each (as signed 32-bit values) *)
Definition spread (count : N) (l : list N) : res (list Z) :=
  if len l =? 1 then Ok (repeat (s32_of (nth 0 l 0)) (N.to_nat count))
  else if negb (len l =? count) then Err MP4BadParamErr
  else Ok (map s32_of l).
Definition cslg_update (s : cslg) (count : N) (durs offs : list N) : res cslg :=
  do os <- spread count offs; do ds <- spread count durs; cslg_loop s (combine ds os).

(* serialize 39-57, calculateSize 125-138, createFromInputStream 140-160 *)
Definition cslg_write (s : cslg) : wr :=
  put8 (cs_ver s) ;; put24 (cs_flags s) ;; put32 (u32_of (cs_shift s)) ;; put32 (u32_of (cs_least s)) ;;
  put32 (u32_of (cs_great s)) ;; put32 (u32_of (cs_start s)) ;; put32 (u32_of (cs_end s)).
Definition cslg_size (s : cslg) : N := 32.
(* the assertion bytesRead == size at the end of the parser is compiled out
   with NDEBUG and not modelled *)
Definition cslg_read (h : hdr) : rd cslg :=
  let* vf := get_full in
  let* a := get32 in let* b := get32 in let* c := get32 in let* d := get32 in let* e := get32 in
  rret (mkCslg (fst vf) (snd vf) (s32_of a) (s32_of b) (s32_of c) (s32_of d) (s32_of e) 0).
Definition cslg_codec : codec cslg :=
  mkCodec (N.eqb T_cslg) (fun _ => T_cslg) cslg_size cslg_write cslg_read.

(* successive batches as the sample table passes them on,
   SampleTableAtom.c:353-358 *)
Fixpoint cslg_run (s : cslg) (bs : list CttsSpec.cbatch) : res cslg :=
  match bs with
  | [] => Ok s
  | b :: r => do s' <- cslg_update s (CttsSpec.cb_count b) (CttsSpec.cb_durs b) (CttsSpec.cb_offs b); cslg_run s' r
  end.
(* the same for batches with or without offsets: only those with offsets
   reach updateFields, SampleTableAtom.c:350-358; its error code is ignored
   there, which makes no difference as ctts has already checked the counts *)
Fixpoint summary_run (s : cslg) (bs : list (N * list N * option (list N))) : res cslg :=
  match bs with
  | [] => Ok s
  | (count, durs, Some offs) :: r => do s' <- cslg_update s count durs offs; summary_run s' r
  | (_, _, None) :: r => summary_run s r
  end.

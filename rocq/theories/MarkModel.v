(* MarkModel.v -- per-sample bytes: the sdtp, stdp and padb boxes. *)
From Verif Require Import Base AtomModel BoxModel MarkSpec.

(* ------------------------------------------------------------------ *)
(* SampleDependencyAtom.c                                              *)

(* MP4SampleDependencyAtom; [sd_list] is dependency[0..sampleCount).
   MP4CreateSampleDependencyAtom SampleDependencyAtom.c:193-223 *)
Record sdtp := mkSdtp { sd_ver : N; sd_flags : N; sd_list : list N }.
Definition sdtp_new : sdtp := mkSdtp 0 0 [].
(* addSamples, SampleDependencyAtom.c:68-87, with ensureSize 43-66; the buffer
   size sampleCount + count is computed in 32 bits *)
Definition sdtp_add (s : sdtp) (count : N) : res sdtp :=
  if 4294967296 <=? len (sd_list s) + count then UB
  else Ok (mkSdtp (sd_ver s) (sd_flags s) (sd_list s ++ repeat 0 (N.to_nat count))).
(* setSampleDependency, SampleDependencyAtom.c:89-126: [i] is a signed 32-bit
   number. That computing the address alone is already undefined when it lies
   outside the array is disregarded; storing there is not. *)
Definition sdtp_set (s : sdtp) (i : Z) (d : list N) : res sdtp :=
  let n := len (sd_list s) in
  if (i <? 0)%Z then
    if Z.to_N (- i) <? len d then Err MP4BadParamErr
    else if n <? Z.to_N (- i) then (if len d =? 0 then Ok s else UB)
    else Ok (mkSdtp (sd_ver s) (sd_flags s) (overwrite (sd_list s) (N.to_nat (n - Z.to_N (- i))) d))
  else
    if n <? w32 (len d + Z.to_N i) then Err MP4BadParamErr
    else if n <? len d + Z.to_N i then UB
    else Ok (mkSdtp (sd_ver s) (sd_flags s) (overwrite (sd_list s) (Z.to_nat i) d)).
(* getSampleDependency, SampleDependencyAtom.c:128-145 *)
Definition sdtp_get (s : sdtp) (n : N) : res N :=
  if n <? 1 then Err MP4BadParamErr
  else if len (sd_list s) <? n then Ok 0
  else match nth_error (sd_list s) (N.to_nat (n - 1)) with Some v => Ok v | None => UB end.

(* the sample table around it: SampleTableAtom.c:422-428 (addSamples),
   746-780 (setSampleDependency), 782-804 (getSampleDependency); the second
   component is the sample count of the sample size box *)
Definition dstate := (option sdtp * N)%type.
Definition dep_step (st : dstate) (o : dop) : dstate * res (option N) :=
  let '(t, n) := st in
  match o with
  | DAdd c =>
      match t with
      | None => ((None, w32 (n + c)), Ok None)
      | Some s => match sdtp_add s c with
                  | Ok s' => ((Some s', w32 (n + c)), Ok None)
                  | Err e => ((Some s, w32 (n + c)), Err e)
                  | UB => (st, UB) end
      end
  | DSet i d =>
      match (match t with Some s => Ok s | None => if 0 <? n then sdtp_add sdtp_new n else Ok sdtp_new end) with
      | Ok s => match sdtp_set s i d with
                | Ok s' => ((Some s', n), Ok None)
                | Err e => ((Some s, n), Err e)
                | UB => (st, UB) end
      | Err e => (st, Err e)
      | UB => (st, UB)
      end
  | DGet k =>
      match t with
      | None => (st, Ok (Some 0))
      | Some s => match sdtp_get s k with Ok v => (st, Ok (Some v)) | Err e => (st, Err e) | UB => (st, UB) end
      end
  end.
Definition dep_out (r : res (option N)) : option dout :=
  match r with Ok None => Some DDone | Ok (Some v) => Some (DVal v) | Err e => Some (DErr e) | UB => None end.
Fixpoint dep_run (st : dstate) (os : list dop) : list (option dout) :=
  match os with
  | [] => []
  | o :: r => let '(st', x) := dep_step st o in dep_out x :: dep_run st' r
  end.

(* serialize 147-165, calculateSize 167-182, createFromInputStream 184-... :
   the number of bytes is what the 32-bit size field leaves *)
Definition sdtp_write (s : sdtp) : wr := put8 (sd_ver s) ;; put24 (sd_flags s) ;; putl (sd_list s).
Definition sdtp_size (s : sdtp) : N := w32 (12 + len (sd_list s)).
Definition sdtp_read (h : hdr) : rd sdtp :=
  let* vf := get_full in
  let* r := getrdn in
  let* l := take (N.to_nat (sub32 (h_size h) r)) in
  rret (mkSdtp (fst vf) (snd vf) l).
Definition sdtp_codec : codec sdtp :=
  mkCodec (N.eqb T_sdtp) (fun _ => T_sdtp) sdtp_size sdtp_write sdtp_read.

(* ------------------------------------------------------------------ *)
(* DegradationPriorityAtom.c: serialize 43-62, calculateSize 64-77,
   createFromInputStream 79-107                                        *)
Record stdp := mkStdp { dp_ver : N; dp_flags : N; dp_list : list N }.
Definition stdp_write (s : stdp) : wr := put8 (dp_ver s) ;; put24 (dp_flags s) ;; wmap put16 (dp_list s).
Definition stdp_size (s : stdp) : N := w32 (12 + w32 (2 * len (dp_list s))).
Definition stdp_read (h : hdr) : rd stdp :=
  let* vf := get_full in
  let* r := getrdn in
  let* l := rrep (N.to_nat (sub32 (h_size h) r / 2)) get16 in
  rret (mkStdp (fst vf) (snd vf) l).
Definition stdp_codec : codec stdp :=
  mkCodec (N.eqb T_stdp) (fun _ => T_stdp) stdp_size stdp_write stdp_read.

(* ------------------------------------------------------------------ *)
(* PaddingBitsAtom.c                                                   *)

(* MP4PaddingBitsAtom; [pb_list] is pads[0..sampleCount), [pb_tail] the one
   byte allocated after them, pads[sampleCount] *)
Record padb := mkPadb { pb_ver : N; pb_flags : N; pb_list : list N; pb_tail : N }.
Definition padb_new : padb := mkPadb 0 0 [] 0.
(* addSamplePads, PaddingBitsAtom.c:43-103. More than one value but not one
   per sample: assertion, or a copy past the end; counted as undefined. *)
Definition padb_add (s : padb) (count : N) (h : option (list N)) : res padb :=
  if 4294967295 <=? len (pb_list s) + count then UB else
  let fill v := Ok (mkPadb (pb_ver s) (pb_flags s) (pb_list s ++ repeat v (N.to_nat count)) 0) in
  match h with
  | None | Some [] => fill 0
  | Some [v] => fill v
  | Some l => if len l =? count then Ok (mkPadb (pb_ver s) (pb_flags s) (pb_list s ++ l) 0) else UB
  end.
(* getPaddingBits, PaddingBitsAtom.c:105-124 *)
Definition padb_get (s : padb) (n : N) : res N :=
  if (len (pb_list s) <? n) || (n =? 0) then Err MP4BadParamErr
  else match nth_error (pb_list s) (N.to_nat (n - 1)) with Some v => Ok v | None => UB end.
(* the padb part of addSamples of the sample table, SampleTableAtom.c:372-396 *)
Definition stbl_pads (st : option padb) (n count : N) (h : option (list N)) : res (option padb) :=
  match h with
  | Some _ =>
      do s <- (match st with
               | Some s => Ok s
               | None => if 0 <? n then padb_add padb_new n None else Ok padb_new end);
      do s' <- padb_add s count h; Ok (Some s')
  | None =>
      match st with
      | None => Ok None
      | Some s => do s' <- padb_add s count None; Ok (Some s')
      end
  end.
Fixpoint pads_run (st : option padb) (n : N) (bs : list (N * option (list N))) : res (option padb) :=
  match bs with
  | [] => Ok st
  | (count, h) :: r => do st' <- stbl_pads st n count h; pads_run st' (w32 (n + count)) r
  end.
(* what a sample query reports, MP4Media.c:1656-1665 and 1824-1833; without
   a table the value is 0xF8 *)
Definition reported_pad (st : option padb) (n : N) : res N :=
  match st with None => Ok 248 | Some s => padb_get s n end.

(* serialize PaddingBitsAtom.c:126-146, calculateSize 148-161,
   createFromInputStream 163-194 *)
Definition pad_pair (a b : N) : N := N.lor (N.land a 7) (N.shiftl (N.land b 7) 4).
Fixpoint pad_pairs (l : list N) (tail : N) : list N :=
  match l with
  | [] => []
  | [a] => [pad_pair a tail]
  | a :: b :: r => pad_pair a b :: pad_pairs r tail
  end.
Definition pad_split (x : N) : list N := [N.land x 7; N.land (N.shiftr x 4) 7].
Definition padb_write (s : padb) : wr :=
  put8 (pb_ver s) ;; put24 (pb_flags s) ;; put32 (len (pb_list s)) ;; wmap put8 (pad_pairs (pb_list s) (pb_tail s)).
Definition padb_size (s : padb) : N := w32 (12 + w32 (w32 (len (pb_list s) + 1) / 2 + 4)).
(* as for stss: 2^32 - 1 samples give an empty buffer *)
Definition padb_read (h : hdr) : rd padb :=
  let* vf := get_full in
  let* n := get32 in
  if n =? 4294967295 then (let* _ := get8 in rub) else
  let* bs := rrep (N.to_nat ((n + 1) / 2)) get8 in
  let l := flat_map pad_split bs in
  rret (mkPadb (fst vf) (snd vf) (firstn (N.to_nat n) l) (nth (N.to_nat n) l 0)).
Definition padb_codec : codec padb :=
  mkCodec (N.eqb T_padb) (fun _ => T_padb) padb_size padb_write padb_read.

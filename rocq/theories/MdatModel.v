(* MdatModel.v -- the media data box (MediaDataAtom.c) and reading from it
   (MdatDataHandler.c). *)
From Verif Require Import Base AtomModel BoxModel.

Definition T_mdat := fourcc 109 100 97 116.

(* MP4MediaDataAtom: the first dataSize bytes of the buffer, and
   allocatedSize. dataSize is 64 bit. *)
Record mdat := mkMdat { md_data : list N; md_alloc : N }.
(* MP4CreateMediaDataAtom, MediaDataAtom.c:290-321; FORCE_OFFSET is not defined *)
Definition mdat_new : mdat := mkMdat [] 0.

(* grow the buffer, MediaDataAtom.c:172-190 and 220-231; memcpy past the
   allocation is undefined *)
Definition mdat_grow (m : mdat) (n : N) : N :=
  let new := w64 (len (md_data m) + n) in
  if md_alloc m <? new then
    let a := w64 (md_alloc m + 6291456) in
    if a <? new then new else a
  else md_alloc m.
(* addData, MediaDataAtom.c:155-201: the handle's bytes, at most 2^32-1 *)
Definition mdat_add (m : mdat) (block : list N) : res mdat :=
  if 0 <? len block then
    let a := mdat_grow m (len block) in
    if a <? len (md_data m) + len block then UB
    else Ok (mkMdat (md_data m ++ block) a)
  else Ok m.
(* addMdat, MediaDataAtom.c:203-239 *)
Definition mdat_merge (m o : mdat) : res mdat :=
  if negb (N.shiftr (w64 (len (md_data o) + len (md_data m))) 32 =? 0) then Err MP4NotImplementedErr
  else mdat_add m (md_data o).

(* copyData, MdatDataHandler.c:48-72; data is NULL until something was added *)
Definition mdat_copy (m : mdat) (off n : N) : res (list N) :=
  if (len (md_data m) =? 0) || (len (md_data m) <? w64 (off + n)) then Err MP4BadParamErr
  else if negb (N.shiftr off 32 =? 0) then Err MP4NotImplementedErr
  else if len (md_data m) <? off + n then UB
  else Ok (firstn (N.to_nat n) (skipn (N.to_nat off) (md_data m))).

(* calculateSize, MediaDataAtom.c:126-153: (size, size64) *)
Definition mdat_size (m : mdat) : N * N :=
  if len (md_data m) =? 0 then (0, 0)
  else if negb (N.shiftr (len (md_data m)) 32 =? 0) then (1, w64 (len (md_data m) + 8 + 8))
  else (w32 (8 + w32 (len (md_data m))), 0).
(* writeToFile, MediaDataAtom.c:76-112 *)
Definition mdat_file (m : mdat) : res (list N) :=
  let '(s, s64) := mdat_size m in
  if 0 <? s then do h <- wrun 16 (write_base s s64 T_mdat); Ok (h ++ md_data m)
  else Ok [].
(* serialize, MediaDataAtom.c:52-74 *)
Definition mdat_serialize (m : mdat) : res (list N) :=
  let '(s, s64) := mdat_size m in
  if s =? 1 then Err MP4NotImplementedErr
  else if 0 <? s then wrun s (write_base s s64 T_mdat ;; putl (md_data m))
  else Ok [].
(* createFromInputStream, MediaDataAtom.c:241-288; more than 2 GiB are
   skipped *)
Definition mdat_read (h : hdr) : rd mdat :=
  let n := if h_size h =? 1 then sub64 (h_size64 h) (h_read h) else sub32 (h_size h) (h_read h) in
  if negb (N.shiftr n 31 =? 0) then let* _ := take (N.to_nat n) in rret mdat_new
  else let* d := take (N.to_nat n) in rret (mkMdat d n).

Definition mdat_codec : codec mdat :=
  mkCodec (N.eqb T_mdat) (fun _ => T_mdat) (fun m => fst (mdat_size m)) (fun m => putl (md_data m)) mdat_read.

(* histories: appending returns the offset the data went to (getOffset,
   MediaInformationAtom.c:495-500 with the data handler's getDataSize) *)
Inductive mop := MAppend (block : list N) | MCopy (off n : N).
Inductive mout := MOff (o : N) | MBytes (l : list N) | MErr.
Fixpoint mdat_run (m : mdat) (os : list mop) : res (list mout) :=
  match os with
  | [] => Ok []
  | MAppend b :: r => do m' <- mdat_add m b; do x <- mdat_run m' r; Ok (MOff (len (md_data m)) :: x)
  | MCopy o n :: r =>
      match mdat_copy m o n with
      | Ok l => do x <- mdat_run m r; Ok (MBytes l :: x)
      | Err _ => do x <- mdat_run m r; Ok (MErr :: x)
      | UB => UB
      end
  end.

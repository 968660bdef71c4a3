(* StreamModel.v -- the two input streams: MP4MemoryInputStream.c and
   MP4FileMappingInputStream.c. *)
From Verif Require Import Base.

(* MP4InputStream.h:56-69.  [spos] is ptr - base (memory stream) or
   current_offset (file stream); [sbase] is the numeric address of base,
   which the memory stream's rewindData compares against because it views
   its own record through the other stream's layout (ptr occupies the place
   of current_offset, 64-bit pointers assumed). The file stream is modelled
   over a mapping without a copyData callback (MP4FileMappingInputStream.c:206-209). *)
Inductive skind := Mem | File.
Record strm := mkS { sk : skind; sbuf : list N; sbase : N; spos : Z; savail : N }.

(* MP4CreateMemoryInputStream MP4MemoryInputStream.c:228-259;
   MP4CreateFileMappingInputStream MP4FileMappingInputStream.c:231-259 *)
Definition createStream (k : skind) (base : N) (buf : list N) : strm :=
  mkS k buf base 0 (len buf).

(* memcpy(outData, self->ptr, n): outside the buffer is UB *)
Definition fetch (s : strm) (n : N) : res (list N) :=
  if n =? 0 then Ok []
  else if (0 <=? spos s)%Z && (spos s + Z.of_N n <=? Z.of_N (len (sbuf s)))%Z
  then Ok (firstn (N.to_nat n) (skipn (Z.to_nat (spos s)) (sbuf s)))
  else UB.

(* the result of a call: an error leaves a stream state behind too *)
Definition sres A := res (strm * (A + Z)).
Definition adv (s : strm) (n : N) : strm :=
  mkS (sk s) (sbuf s) (sbase s) (spos s + Z.of_N n) (sub64 (savail s) n).

(* readData, MP4MemoryInputStream.c:194-220, MP4FileMappingInputStream.c:184-223 *)
Definition s_readData (s : strm) (n : N) : sres (list N) :=
  if negb (N.shiftr n 32 =? 0) then Ok (s, inr MP4NotImplementedErr)
  else if savail s <? n then Ok (s, inr MP4IOErr)
  else do l <- fetch s n; Ok (adv s n, inl l).

(* read8, MP4MemoryInputStream.c:72-91, MP4FileMappingInputStream.c:63-83 *)
Definition s_read8 (s : strm) : sres N :=
  do (s', r) <- s_readData s 1;
  Ok (s', match r with inl l => inl (hd 0 l) | inr e => inr e end).

(* read16, MP4MemoryInputStream.c:93-117, MP4FileMappingInputStream.c:85-111 *)
Definition s_read16 (s : strm) : sres N :=
  if savail s <? 2 then Ok (s, inr MP4IOErr)
  else
    do (s1, r1) <- s_readData s 1;
    match r1 with
    | inr e => Ok (s1, inr e)
    | inl l1 =>
        do (s2, r2) <- s_readData s1 1;
        match r2 with
        | inr e => Ok (s2, inr e)
        | inl l2 => Ok (s2, inl (N.lor (N.shiftl (hd 0 l1) 8) (hd 0 l2)))
        end
    end.

(* read32, MP4MemoryInputStream.c:119-141, MP4FileMappingInputStream.c:113-136 *)
Definition s_read32 (s : strm) : sres N :=
  if savail s <? 4 then Ok (s, inr MP4IOErr)
  else
    do (s1, r1) <- s_read16 s;
    match r1 with
    | inr e => Ok (s1, inr e)
    | inl h =>
        do (s2, r2) <- s_read16 s1;
        match r2 with
        | inr e => Ok (s2, inr e)
        | inl l => Ok (s2, inl (N.lor (w32 (N.shiftl h 16)) l))
        end
    end.

(* skipData, MP4MemoryInputStream.c:143-169, MP4FileMappingInputStream.c:138-159 *)
Definition s_skip (s : strm) (n : N) : sres unit :=
  match sk s with
  | Mem => if negb (N.shiftr n 32 =? 0) then Ok (s, inr MP4NotImplementedErr)
           else if savail s <? n then Ok (s, inr MP4IOErr)
           else Ok (adv s n, inl tt)
  | File => if savail s <? n then Ok (s, inr MP4IOErr)
            else Ok (adv s n, inl tt)
  end.

(* rewindData, MP4MemoryInputStream.c:171-192, MP4FileMappingInputStream.c:161-182 *)
Definition s_rewind (s : strm) (n : N) : sres unit :=
  let cur := match sk s with
             | Mem => (Z.of_N (sbase s) + spos s)%Z
             | File => spos s end in
  if (cur <? Z.of_N n)%Z then Ok (s, inr MP4BadParamErr)
  else Ok (mkS (sk s) (sbuf s) (sbase s) (spos s - Z.of_N n) (w64 (savail s + n)), inl tt).

(* getStreamOffset, MP4MemoryInputStream.c:222-226, MP4FileMappingInputStream.c:225-229 *)
Definition s_offset (s : strm) : N := Z.to_N (spos s).

Inductive sop := SR8 | SR16 | SR32 | SRData (n : N) | SSkip (n : N) | SRewind (n : N) | SOffset.
Inductive sout := SVal (v : N) | SBytes (l : list N) | SDone | SErr (e : Z).

Definition out_n (r : N + Z) : sout := match r with inl v => SVal v | inr e => SErr e end.
Definition out_l (r : list N + Z) : sout := match r with inl v => SBytes v | inr e => SErr e end.
Definition out_u (r : unit + Z) : sout := match r with inl _ => SDone | inr e => SErr e end.
Definition sstep (s : strm) (o : sop) : res (strm * sout) :=
  match o with
  | SR8 => do (s', r) <- s_read8 s; Ok (s', out_n r)
  | SR16 => do (s', r) <- s_read16 s; Ok (s', out_n r)
  | SR32 => do (s', r) <- s_read32 s; Ok (s', out_n r)
  | SRData n => do (s', r) <- s_readData s n; Ok (s', out_l r)
  | SSkip n => do (s', r) <- s_skip s n; Ok (s', out_u r)
  | SRewind n => do (s', r) <- s_rewind s n; Ok (s', out_u r)
  | SOffset => Ok (s, SVal (s_offset s))
  end.
Fixpoint srun (s : strm) (os : list sop) : res (list sout) :=
  match os with
  | [] => Ok []
  | o :: t => do (s', r) <- sstep s o; do rs <- srun s' t; Ok (r :: rs)
  end.

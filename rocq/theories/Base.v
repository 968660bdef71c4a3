(* Base.v -- outcomes, machine words, byte readers and writers.

   Models the conventions shared by every file of
   /repo/IsoLib/libisomediafile/src: the MP4Err result type, the GETn/PUTn
   macros and the two counters bytesRead / bytesWritten. *)
From Coq Require Export List NArith ZArith Lia Bool.
From Coq Require Export ZifyBool ZifyNat ZifyN.
Export ListNotations.
Ltac Zify.zify_post_hook ::= Z.div_mod_to_equations.
Open Scope N_scope.

Arguments N.add : simpl never.
Arguments N.sub : simpl never.
Arguments N.mul : simpl never.
Arguments N.div : simpl never.
Arguments N.modulo : simpl never.
Arguments N.pow : simpl never.
Arguments N.leb : simpl never.
Arguments N.ltb : simpl never.
Arguments N.eqb : simpl never.
Arguments N.shiftr : simpl never.
Arguments N.shiftl : simpl never.
Arguments N.land : simpl never.
Arguments N.lor : simpl never.
Arguments N.of_nat : simpl never.
Arguments N.to_nat : simpl never.

(* ------------------------------------------------------------------ *)
(* Outcomes                                                            *)

(* The MP4Err codes (MP4Movies.h:40-59).  A function returns MP4NoErr and
   its results (Ok), another code (Err), or runs into undefined behaviour
   of the C language (UB): out-of-bounds access, NULL dereference,
   division by zero, use of an indeterminate value. *)
Inductive res (A : Type) : Type :=
| Ok (a : A)
| Err (code : Z)
| UB.
Arguments Ok {A} a.
Arguments Err {A} code.
Arguments UB {A}.

Definition MP4EOF : Z := 1.                       (* MP4Movies.h:44 *)
Definition MP4FileNotFoundErr : Z := -1.          (* MP4Movies.h:46 *)
Definition MP4BadParamErr : Z := -2.              (* MP4Movies.h:47 *)
Definition MP4NoMemoryErr : Z := -3.              (* MP4Movies.h:48 *)
Definition MP4IOErr : Z := -4.                    (* MP4Movies.h:49 *)
Definition MP4NoLargeAtomSupportErr : Z := -5.    (* MP4Movies.h:50 *)
Definition MP4BadDataErr : Z := -6.               (* MP4Movies.h:51 *)
Definition MP4VersionNotSupportedErr : Z := -7.   (* MP4Movies.h:52 *)
Definition MP4InvalidMediaErr : Z := -8.          (* MP4Movies.h:53 *)
Definition MP4InternalErr : Z := -9.              (* MP4Movies.h:54 *)
Definition MP4NotFoundErr : Z := -10.             (* MP4Movies.h:55 *)
Definition MP4NotImplementedErr : Z := -1000.     (* MP4Movies.h:58 *)

Definition bind {A B} (m : res A) (k : A -> res B) : res B :=
  match m with Ok a => k a | Err e => Err e | UB => UB end.

Notation "'do' x <- m ; k" := (bind m (fun x => k))
  (at level 200, x pattern, m at level 100, k at level 200).

Definition is_ok {A} (m : res A) : bool := match m with Ok _ => true | _ => false end.
Definition is_err {A} (m : res A) : bool := match m with Err _ => true | _ => false end.
Definition is_ub {A} (m : res A) : bool := match m with UB => true | _ => false end.

(* ------------------------------------------------------------------ *)
(* Machine words                                                       *)

Definition w8 (x : N) : N := x mod 256.
Definition w16 (x : N) : N := x mod 65536.
Definition w32 (x : N) : N := x mod 4294967296.
Definition w64 (x : N) : N := x mod 18446744073709551616.
(* u32 subtraction *)
Definition sub32 (a b : N) : N := w32 (a + 4294967296 - w32 b).
(* u64 subtraction *)
Definition sub64 (a b : N) : N := w64 (a + 18446744073709551616 - w64 b).

(* two's complement reinterpretation of an unsigned word as a signed one *)
Definition s32_of (x : N) : Z :=
  if x <? 2147483648 then Z.of_N x else (Z.of_N x - 4294967296)%Z.
Definition s64_of (x : N) : Z :=
  if x <? 9223372036854775808 then Z.of_N x else (Z.of_N x - 18446744073709551616)%Z.
Definition s16_of (x : N) : Z :=
  if x <? 32768 then Z.of_N x else (Z.of_N x - 65536)%Z.
(* conversion of a signed value to an unsigned word *)
Definition u32_of (z : Z) : N := Z.to_N (z mod 4294967296).
Definition u64_of (z : Z) : N := Z.to_N (z mod 18446744073709551616).
Definition u16_of (z : Z) : N := Z.to_N (z mod 65536).

(* ------------------------------------------------------------------ *)
(* Byte strings                                                        *)

Definition len {A} (l : list A) : N := N.of_nat (length l).
Definition is_byte (b : N) : Prop := b < 256.
Definition bytes (l : list N) : Prop := Forall is_byte l.

(* big-endian encodings (the PUTn macros, MP4Impl.h:250-410) *)
Definition be8 (v : N) : list N := [v mod 256].
Definition be16 (v : N) : list N := [v / 256 mod 256; v mod 256].
Definition be24 (v : N) : list N := [v / 65536 mod 256; v / 256 mod 256; v mod 256].
Definition be32 (v : N) : list N :=
  [v / 16777216 mod 256; v / 65536 mod 256; v / 256 mod 256; v mod 256].
Definition be64 (v : N) : list N := be32 (v / 4294967296) ++ be32 (v mod 4294967296).

(* n-th element with 0-based N index *)
Definition nthN {A} (l : list A) (i : N) : option A := nth_error l (N.to_nat i).

(* ------------------------------------------------------------------ *)
(* Readers: the GETn macros over an input stream                       *)

(* What a createFromInputStream routine sees: the unread bytes of the
   input stream and its own self->bytesRead counter (a u32).
   MP4Impl.h:71-243. The refinement of the real stream record (base
   pointer, ptr, available) to "the unread bytes" is StreamModel.v. *)
Record rst := mkR { inp : list N; rdn : N }.
Definition rd (A : Type) := rst -> res (A * rst).

Definition rret {A} (a : A) : rd A := fun s => Ok (a, s).
Definition rerr {A} (e : Z) : rd A := fun _ => Err e.
Definition rub {A} : rd A := fun _ => UB.
Definition rbind {A B} (m : rd A) (k : A -> rd B) : rd B :=
  fun s => match m s with Ok (a, s') => k a s' | Err e => Err e | UB => UB end.

Notation "'let*' x := m 'in' k" := (rbind m (fun x => k))
  (at level 200, x pattern, m at level 100, k at level 200).

(* read n bytes: readData (MP4MemoryInputStream.c:194-220) through GETBYTES
   (MP4Impl.h:71-89): error MP4IOErr if fewer than n are available. *)
Definition take (n : nat) : rd (list N) := fun s =>
  if Nat.leb n (length (inp s))
  then Ok (firstn n (inp s), mkR (skipn n (inp s)) (w32 (rdn s + N.of_nat n)))
  else Err MP4IOErr.
(* GET8 MP4Impl.h:191-209, read8 MP4MemoryInputStream.c:72-91 *)
Definition get8 : rd N := fun s =>
  match inp s with
  | b :: t => Ok (b, mkR t (w32 (rdn s + 1)))
  | _ => Err MP4IOErr end.
(* GET16 MP4Impl.h:171-189, read16 MP4MemoryInputStream.c:93-117 *)
Definition get16 : rd N := fun s =>
  match inp s with
  | a :: b :: t => Ok (a * 256 + b, mkR t (w32 (rdn s + 2)))
  | _ => Err MP4IOErr end.
(* GET32 MP4Impl.h:151-169, read32 MP4MemoryInputStream.c:119-141 *)
Definition get32 : rd N := fun s =>
  match inp s with
  | a :: b :: c :: d :: t =>
      Ok (a * 16777216 + b * 65536 + c * 256 + d, mkR t (w32 (rdn s + 4)))
  | _ => Err MP4IOErr end.
(* GET64 MP4Impl.h:91-149: two read32, high word first *)
Definition get64 : rd N :=
  let* hi := get32 in
  let* lo := get32 in
  rret (hi * 4294967296 + lo).

(* the current value of self->bytesRead *)
Definition getrdn : rd N := fun s => Ok (rdn s, s).

(* a counted loop of reads *)
Fixpoint rrep {A} (n : nat) (m : rd A) : rd (list A) :=
  match n with
  | O => rret []
  | S k => let* a := m in let* l := rrep k m in rret (a :: l)
  end.

(* ------------------------------------------------------------------ *)
(* Writers: the PUTn macros into a buffer of self->size bytes           *)

(* wout: bytes written so far; wsz: self->size.  bytesWritten is
   len wout. MP4Impl.h:250-410: each PUTn first checks
   self->bytesWritten + n > self->size (u32 arithmetic) => MP4IOErr. *)
Record wst := mkW { wout : list N; wsz : N }.
Definition wr := wst -> res wst.

(* PUTBYTES MP4Impl.h:250-258 *)
Definition putl (bs : list N) : wr := fun s =>
  if wsz s <? w32 (len (wout s) + len bs) then Err MP4IOErr
  else Ok (mkW (wout s ++ bs) (wsz s)).
Definition put8 (v : N) : wr := putl (be8 v).       (* MP4Impl.h:260-278 *)
Definition put16 (v : N) : wr := putl (be16 v).     (* MP4Impl.h:280-302 *)
Definition put24 (v : N) : wr := putl (be24 v).     (* MP4Impl.h:304-330 *)
Definition put32 (v : N) : wr := putl (be32 v).     (* MP4Impl.h:332-362 *)
Definition put64 (v : N) : wr := putl (be64 v).     (* MP4Impl.h:364-410 *)
Definition wret : wr := fun s => Ok s.
Definition werr (e : Z) : wr := fun _ => Err e.
Definition wub : wr := fun _ => UB.
Definition wseq (a b : wr) : wr := fun s => do s' <- a s; b s'.
Notation "a ;; b" := (wseq a b) (at level 199, right associativity).
Fixpoint wmap {A} (f : A -> wr) (l : list A) : wr :=
  match l with [] => wret | a :: t => f a ;; wmap f t end.

(* run a serializer for an atom whose calculateSize gave [sz] *)
Definition wrun (sz : N) (w : wr) : res (list N) :=
  do s <- w (mkW [] sz); Ok (wout s).

(* BitModel.v -- the bit reader used on parameter sets
   (ISOSampleDescriptions.c). *)
From Verif Require Import Base AtomModel.

(* BitBuffer, ISOSampleDescriptions.c:837-850: the bytes after *cptr, cbyte,
   curbits, bits_left, emulation_position. *)
Record bb := mkBB { b_rest : list N; b_byte : N; b_cur : N; b_left : N; b_emu : N }.
Definition br (A : Type) := bb -> res (A * bb).
Definition bret {A} (a : A) : br A := fun s => Ok (a, s).
Definition berr {A} (e : Z) : br A := fun _ => Err e.
Definition bbind {A B} (m : br A) (k : A -> br B) : br B := fun s => do x <- m s; k (fst x) (snd x).
Notation "'get!' x := m 'in' k" := (bbind m (fun x => k)) (at level 200, x pattern, m at level 100, k at level 200).

(* BitBuffer_Init, ISOSampleDescriptions.c:852-878, called with eight times
   the size of the handle (1019, 1520, 1916): bits_left becomes sixty-four
   times the size. The first byte is read whatever the size. *)
Definition bb_init (p : list N) : res bb :=
  let length := w32 (8 * len p) in
  if 268435455 <? length then Err MP4BadParamErr
  else match p with
       | [] => UB
       | b :: r => Ok (mkBB r b 8 (w32 (length * 8)) (if b =? 0 then 1 else 0))
       end.

(* the next byte is fetched, ISOSampleDescriptions.c:893-916; [pe]:
   prevent_emulation. Nothing but bits_left stops the pointer: past the end of
   the handle it is undefined. *)
Definition fetch (pe : bool) (n : N) (s : bb) : res bb :=
  match b_rest s with
  | [] => UB
  | b :: r =>
      if pe then
        if (2 <=? b_emu s) && (b =? 3) then
          match r with
          | [] => UB
          | b' :: r' =>
              let left := sub32 (b_left s) 8 in
              if left <? n then Err MP4EOF else Ok (mkBB r' b' 8 left (if b' =? 0 then 1 else 0))
          end
        else Ok (mkBB r b 8 (b_left s) (if b =? 0 then w8 (b_emu s + 1) else 0))
      else Ok (mkBB r b 8 (b_left s) (b_emu s))
  end.
(* GetBits, ISOSampleDescriptions.c:880-945; the recursion is bounded by the
   number of bits. A shift by 32 or more is undefined; a left shift of a
   signed number is taken to wrap. *)
Fixpoint bits_loop (pe : bool) (fuel : nat) (n : N) : br N := fun s =>
  if b_left s <? n then Err MP4EOF
  else do s1 <- (if b_cur s =? 0 then fetch pe n s else Ok s);
  let my := if b_cur s1 <? n then b_cur s1 else n in
  let v := N.shiftr (b_byte s1) (8 - my) in
  let left := n - my in
  let s2 := mkBB (b_rest s1) (N.land (N.shiftl (b_byte s1) my) 255) (b_cur s1 - my) (sub32 (b_left s1) my) (b_emu s1) in
  if left =? 0 then Ok (v, s2)
  else match fuel with
       | O => Err OutOfFuel
       | S f =>
           if 32 <=? left then UB
           else do x <- bits_loop pe f left s2; Ok (N.lor (w32 (N.shiftl v left)) (fst x), snd x)
       end.
Definition get_bits (pe : bool) (n : N) : br N := fun s => bits_loop pe (N.to_nat n) n s.
(* GetBytes of one byte, ISOSampleDescriptions.c:947-959 *)
Definition get_byte (pe : bool) : br N := get! x := get_bits pe 8 in bret (w8 x).
(* read_golomb_uev, ISOSampleDescriptions.c:961-990; the loop is bounded by
   the bits there are *)
Fixpoint zeros (pe : bool) (fuel : nat) (power nbits : N) : br (N * N) :=
  get! leading := get_bits pe 1 in
  if leading =? 0 then
    match fuel with O => berr OutOfFuel | S f => zeros pe f (w32 (N.shiftl power 1)) (w32 (nbits + 1)) end
  else bret (power, nbits).
Definition golomb (pe : bool) : br N := fun s =>
  (get! pn := zeros pe (8 * length (b_rest s) + N.to_nat (b_cur s)) 1 0 in
   get! v := (if 0 <? snd pn then get_bits pe (snd pn) else bret 0) in
   bret (w32 (w32 (fst pn + 4294967295) + v))) s.
(* [m] done n times, the results in order *)
Fixpoint times {A} (n : nat) (m : br A) : br (list A) :=
  match n with O => bret [] | S k => get! a := m in get! l := times k m in bret (a :: l) end.

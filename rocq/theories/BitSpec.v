(* BitSpec.v -- bits, Exp-Golomb codes and emulation prevention, as in
   ITU-T H.264 and H.265, clauses 7.2, 7.3.1 and 9.1/9.2. *)
From Verif Require Import Base.

(* u(n): n bits, the most significant first *)
Fixpoint u (n : nat) (v : N) : list bool :=
  match n with O => [] | S k => N.testbit v (N.of_nat k) :: u k v end.
Definition bits_of (l : list N) : list bool := flat_map (u 8) l.
(* the number a string of bits stands for *)
Definition value (l : list bool) : N := fold_left (fun n (b : bool) => 2 * n + (if b then 1 else 0)) l 0.
(* ue(v): v + 1 in binary, after as many zeros as it has digits after the
   first *)
Definition ue (v : N) : list bool :=
  let k := N.to_nat (N.log2 (v + 1)) in repeat false k ++ u (S k) (v + 1).

(* A NAL unit: after two zero bytes, a byte up to 3 is preceded by a byte 3.
   [z] counts the zero bytes before. *)
Fixpoint escaped (z : N) (l : list N) : list N :=
  match l with
  | [] => []
  | b :: r =>
      if (z =? 2) && (b <=? 3) then 3 :: b :: escaped (if b =? 0 then 1 else 0) r
      else b :: escaped (if b =? 0 then z + 1 else 0) r
  end.
Definition nal (l : list N) : list N := escaped 0 l.

(* SizeSpec.v -- sample sizes. *)
From Verif Require Import Base.

Inductive zop :=
| ZAdd (count : N) (sizes : list N)   (* one size for all samples, or one each *)
| ZField (f : N).                     (* choice of the field width in the file *)
Definition zop_ok (o : zop) : Prop :=
  match o with
  | ZAdd count sizes => 1 <= count /\ (len sizes = 1 \/ len sizes = count) /\ Forall (fun x => x < 4294967296) sizes
  | ZField _ => True
  end.
Definition sizes_of (o : zop) : list N :=
  match o with
  | ZAdd count [x] => repeat x (N.to_nat count)
  | ZAdd _ l => l
  | ZField _ => []
  end.
Definition sum (l : list N) : N := fold_right N.add 0 l.
(* total size of the samples a .. b-1, numbered from 1 *)
Definition size_between (l : list N) (a b : N) : N :=
  sum (firstn (N.to_nat (b - a)) (skipn (N.to_nat (a - 1)) l)).

(* the size table of a file: field widths 4, 8, 16 and 32 bits; with 4 bits
   the first of two samples takes the low half, [t] fills a last odd half *)
Fixpoint halves (l : list N) (t : N) : list N :=
  match l with
  | [] => []
  | [a] => [a + 16 * t]
  | a :: b :: r => (a + 16 * b) :: halves r t
  end.
Definition packed (f : N) (l : list N) (t : N) : list N :=
  if f =? 4 then halves l t
  else if f =? 8 then flat_map be8 l
  else if f =? 16 then flat_map be16 l
  else flat_map be32 l.

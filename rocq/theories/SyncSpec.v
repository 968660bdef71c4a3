(* SyncSpec.v -- which samples are sync samples. *)
From Verif Require Import Base.

(* a batch: number of samples and either nothing (all of them are sync
   samples) or the numbers, from 1, of those that are *)
Definition mbatch := (N * option (list N))%type.
Fixpoint ascending (lo : N) (l : list N) : Prop :=
  match l with [] => True | x :: r => lo <= x /\ ascending (x + 1) r end.
Definition mbatch_ok (b : mbatch) : Prop :=
  1 <= fst b /\ match snd b with None => True | Some l => ascending 1 l /\ Forall (fun x => x <= fst b) l end.
Definition marks (b : mbatch) : list bool :=
  match snd b with
  | None => repeat true (N.to_nat (fst b))
  | Some l => map (fun i => existsb (N.eqb (N.of_nat i)) l) (seq 1 (N.to_nat (fst b)))
  end.
(* some sample of the batch is said not to be a sync sample *)
Definition partial (b : mbatch) : bool := negb (forallb (fun x => x) (marks b)).
(* once a batch contained a non-sync sample, every batch says which of its
   samples are sync *)
Fixpoint explicit (seen : bool) (bs : list mbatch) : Prop :=
  match bs with
  | [] => True
  | b :: r => (seen = true -> snd b <> None) /\ explicit (seen || partial b) r
  end.

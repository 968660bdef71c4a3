(* SaveSpec.v -- chunk offsets when the media data moves. *)
From Verif Require Import Base ChunkSpec.

(* what a shift by [d] of the media data does to the offsets of the chunks
   kept in it; [own] tells by description index whether a chunk lies in the
   movie's own media data *)
Definition shift_own (own : N -> bool) (d : Z) (ch : list chunk) (l : list N) : list N :=
  map (fun p => if own (snd (fst p)) then Z.to_N (Z.of_N (snd p) + d) else snd p) (combine ch l).
Definition own_inside (own : N -> bool) (lo hi : N) (ch : list chunk) (l : list N) : Prop :=
  Forall (fun p => own (snd (fst p)) = true -> lo <= snd p < hi) (combine ch l).

(* bytes [o, o+n) *)
Definition slice (data : list N) (o n : N) : list N := firstn (N.to_nat n) (skipn (N.to_nat o) data).

(* CttsSpec.v -- composition offsets of samples. *)
From Verif Require Import Base.

(* a batch: number of samples and, optionally, one offset for all of them or
   one each *)
Definition obatch := (N * option (list N))%type.
Definition obatch_ok (b : obatch) : Prop :=
  1 <= fst b /\
  match snd b with
  | None => True
  | Some os => (len os = 1 \/ len os = fst b) /\ Forall (fun o => o < 4294967296) os
  end.
(* the offset of each sample of a batch *)
Definition given (b : obatch) : list N :=
  match snd b with
  | None => repeat 0 (N.to_nat (fst b))
  | Some [o] => repeat o (N.to_nat (fst b))
  | Some os => os
  end.
Definition has_offsets (b : obatch) : bool := match snd b with Some _ => true | None => false end.

(* extremes of a list of numbers *)
Definition is_min (l : list Z) (m : Z) : Prop := In m l /\ Forall (fun x => (m <= x)%Z) l.
Definition is_max (l : list Z) (m : Z) : Prop := In m l /\ Forall (fun x => (x <= m)%Z) l.

(* composition times: decoding time plus offset, for samples given as
   (duration, offset) *)
Fixpoint ctimes (t : Z) (l : list (Z * Z)) : list Z :=
  match l with [] => [] | (d, o) :: r => (t + o)%Z :: ctimes (t + d)%Z r end.

(* batches carrying both durations and offsets *)
Record cbatch := mkCB { cb_count : N; cb_durs : list N; cb_offs : list N }.
Definition each (count : N) (l : list N) : list Z :=
  match l with [x] => repeat (s32_of x) (N.to_nat count) | _ => map s32_of l end.
Definition cb_samples (b : cbatch) : list (Z * Z) := combine (each (cb_count b) (cb_durs b)) (each (cb_count b) (cb_offs b)).
(* the offset -2^31 is excluded: its negation does not fit *)
Definition cb_ok (b : cbatch) : Prop :=
  1 <= cb_count b /\ (len (cb_durs b) = 1 \/ len (cb_durs b) = cb_count b) /\
  (len (cb_offs b) = 1 \/ len (cb_offs b) = cb_count b) /\
  Forall (fun o => o < 4294967296 /\ o <> 2147483648) (cb_offs b).

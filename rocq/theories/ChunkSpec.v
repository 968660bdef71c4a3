(* ChunkSpec.v -- chunks of samples. *)
From Verif Require Import Base.

(* a chunk: number of samples, sample description index *)
Notation chunk := (N * N)%type (only parsing).
Definition samples (ch : list chunk) : N := fold_right (fun c a => fst c + a) 0 ch.
(* position of the chunk that contains the sample at position m, both
   counted from 0, the number of samples before that chunk, and its
   description index *)
Fixpoint locate (ch : list chunk) (m : N) : option (N * N * N) :=
  match ch with
  | [] => None
  | (s, d) :: r =>
      if m <? s then Some (0, 0, d)
      else match locate r (m - s) with Some (j, b, d') => Some (1 + j, s + b, d') | None => None end
  end.
(* chunk number, first sample of the chunk, description index; from 1 *)
Definition chunk_of_sample (ch : list chunk) (n : N) : option (N * N * N) :=
  match locate ch (n - 1) with Some (j, b, d) => Some (j + 1, b + 1, d) | None => None end.
Definition description_of_sample (ch : list chunk) (n : N) : option N :=
  match locate ch (n - 1) with Some (_, _, d) => Some d | None => None end.

(* The chunks described by a table of runs (first chunk, samples per chunk,
   description) when [k] is the number of the first chunk that does not
   exist. *)
Notation run := (N * N * N)%type (only parsing).
Fixpoint chunks_of (es : list run) (k : N) : list chunk :=
  match es with
  | [] => []
  | (f, s, d) :: r =>
      match r with
      | [] => repeat (s, d) (N.to_nat (k - f))
      | (f2, _, _) :: _ => repeat (s, d) (N.to_nat (f2 - f)) ++ chunks_of r k
      end
  end.
Fixpoint rising (es : list run) (k : N) : Prop :=
  match es with
  | [] => True
  | (f, s, d) :: r => 1 <= s /\ match r with [] => f < k | (f2, _, _) :: _ => f < f2 /\ rising r k end
  end.
Definition table_ok (es : list run) (k : N) : Prop :=
  rising es k /\ k < 4294967296 /\
  match es with [] => k = 1 | (f, _, _) :: _ => f = 1 end.

(* histories *)
Inductive cop := CAdd (count desc : N) | CLook (n : N).
Definition cgrow (ch : list chunk) (o : cop) : list chunk :=
  match o with CAdd s d => ch ++ [(s, d)] | CLook _ => ch end.
Definition cop_ok (ch : list chunk) (o : cop) : Prop :=
  match o with
  | CAdd s d => 1 <= s /\ samples ch + s < 4294967295 /\ len ch < 4294967294
  | CLook n => 1 <= n < 4294967296 /\ ch <> []
  end.
Fixpoint cops_ok (ch : list chunk) (os : list cop) : Prop :=
  match os with [] => True | o :: r => cop_ok ch o /\ cops_ok (cgrow ch o) r end.

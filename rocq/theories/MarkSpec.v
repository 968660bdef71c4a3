(* MarkSpec.v -- one small value per sample: dependency flags, padding bits. *)
From Verif Require Import Base.

Definition overwrite (l : list N) (i : nat) (d : list N) : list N :=
  firstn i l ++ d ++ skipn (i + length d) l.

(* dependency flags: a sequence with one byte per sample *)
Inductive dop :=
| DAdd (count : N)                 (* samples are added: their flags are 0 *)
| DSet (i : Z) (d : list N)        (* from position i (from 0), or -i from the end *)
| DGet (n : N).                    (* sample number, from 1 *)
Inductive dout := DDone | DErr (e : Z) | DVal (v : N).
Definition dstart (l : list N) (i : Z) : Z := if (i <? 0)%Z then (Z.of_N (len l) + i)%Z else i.
Definition dstep (l : list N) (o : dop) : list N * dout :=
  match o with
  | DAdd c => (l ++ repeat 0 (N.to_nat c), DDone)
  | DSet i d =>
      if (Z.of_N (len l) <? dstart l i + Z.of_N (len d))%Z then (l, DErr MP4BadParamErr)
      else (overwrite l (Z.to_nat (dstart l i)) d, DDone)
  | DGet n => (l, DVal (nth (N.to_nat (n - 1)) l 0))
  end.
(* a position before the first sample is excluded, and sample number 0 *)
Definition dvalid (l : list N) (o : dop) : Prop :=
  match o with
  | DAdd c => len l + c < 2147483648
  | DSet i d => (- Z.of_N (len l) <= i)%Z /\ (i + Z.of_N (len d) < 4294967296)%Z
  | DGet n => 1 <= n
  end.
Fixpoint dspec (l : list N) (os : list dop) : list dout :=
  match os with [] => [] | o :: r => snd (dstep l o) :: dspec (fst (dstep l o)) r end.
Fixpoint dvalids (l : list N) (os : list dop) : Prop :=
  match os with [] => True | o :: r => dvalid l o /\ dvalids (fst (dstep l o)) r end.

(* padding bits: batches of (number of samples, padding) where the padding is
   absent, empty, one value for all samples or one each *)
Definition pbatch := (N * option (list N))%type.
Definition pbatch_ok (b : pbatch) : Prop :=
  1 <= fst b /\ match snd b with Some ((_ :: _ :: _) as l) => len l = fst b | _ => True end.
Definition pads_of (b : pbatch) : list N :=
  match snd b with
  | None | Some [] => repeat 0 (N.to_nat (fst b))
  | Some [x] => repeat x (N.to_nat (fst b))
  | Some l => l
  end.

(* StreamSpec.v -- an input stream is a position in a byte string. *)
From Verif Require Import Base StreamModel.

(* value of a big-endian byte string *)
Definition be_value (l : list N) : N := fold_left (fun a b => a * 256 + b) l 0.

(* state: (bytes already consumed, bytes left) *)
Definition zst := (list N * list N)%type.
Definition zmove (z : zst) (n : N) : zst :=
  (fst z ++ firstn (N.to_nat n) (snd z), skipn (N.to_nat n) (snd z)).
Definition zback (z : zst) (n : N) : zst :=
  let k := (length (fst z) - N.to_nat n)%nat in
  (firstn k (fst z), skipn k (fst z) ++ snd z).
Definition ztake (z : zst) (n : N) (f : list N -> sout) : zst * sout :=
  if n <=? len (snd z) then (zmove z n, f (firstn (N.to_nat n) (snd z))) else (z, SErr MP4IOErr).

Definition zstep (k : skind) (z : zst) (o : sop) : zst * sout :=
  match o with
  | SR8 => ztake z 1 (fun l => SVal (be_value l))
  | SR16 => ztake z 2 (fun l => SVal (be_value l))
  | SR32 => ztake z 4 (fun l => SVal (be_value l))
  | SRData n => if n <? 4294967296 then ztake z n SBytes else (z, SErr MP4NotImplementedErr)
  | SSkip n =>
      match k with
      | Mem => if n <? 4294967296 then ztake z n (fun _ => SDone) else (z, SErr MP4NotImplementedErr)
      | File => ztake z n (fun _ => SDone)
      end
  | SRewind n => if n <=? len (fst z) then (zback z n, SDone) else (z, SErr MP4BadParamErr)
  | SOffset => (z, SVal (len (fst z)))
  end.
Fixpoint zrun (k : skind) (z : zst) (os : list sop) : list sout :=
  match os with [] => [] | o :: t => let (z', r) := zstep k z o in r :: zrun k z' t end.

(* histories in which a memory stream is never rewound past its start *)
Fixpoint rewinds_ok (k : skind) (z : zst) (os : list sop) : Prop :=
  match os with
  | [] => True
  | o :: t => match o, k with SRewind n, Mem => n <= len (fst z) | _, _ => True end
              /\ rewinds_ok k (fst (zstep k z o)) t
  end.

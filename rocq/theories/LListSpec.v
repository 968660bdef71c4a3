(* LListSpec.v -- what a linked list is expected to be: a finite sequence. *)
From Verif Require Import Base LListModel.

Fixpoint remove_at {A} (i : nat) (l : list A) : list A :=
  match l, i with
  | [], _ => []
  | _ :: t, O => t
  | x :: t, S j => x :: remove_at j t
  end.

Definition seq_step (l : list N) (o : lop) : list N * lout :=
  match o with
  | LPrepend x => (x :: l, LDone)
  | LAdd x => (l ++ [x], LDone)
  | LGet i => (l, match nthN l i with Some x => LVal x | None => LErr MP4BadParamErr end)
  | LCount => (l, LVal (len l))
  | LDelete i => if i <? len l then (remove_at (N.to_nat i) l, LDone)
                 else (l, LErr MP4BadParamErr)
  end.
Fixpoint seq_run (l : list N) (os : list lop) : list lout :=
  match os with [] => [] | o :: t => let (l', r) := seq_step l o in r :: seq_run l' t end.

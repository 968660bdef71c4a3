(* MmetaSpec.v -- which meta boxes there are after a sequence of calls, and
   what is written of them (ISO/IEC 14496-12, 8.11). *)
From Verif Require Import Base BoxSpec BoxModel AtomModel TextSpec.

(* of the types asked for, those for which a box is made: the first, and the
   first of the others that is not 'meta' *)
Fixpoint second (tys : list N) : list N :=
  match tys with [] => [] | ty :: r => if ty =? code "meta" then second r else [ty] end.
Definition accepted (tys : list N) : list N := match tys with [] => [] | ty :: r => ty :: second r end.
(* whether a further call with a type is accepted *)
Definition accepts (tys : list N) (ty : N) : bool :=
  match accepted tys with [] => true | [_] => negb (ty =? code "meta") | _ => false end.

(* the name is the type in characters, with a dot for those that cannot be
   printed *)
Definition shown (b : N) : N := if (31 <? b) && (b <? 127) then b else 46.
Definition meta_bytes (ty : N) : list N :=
  box (code "meta") (full 0 0 ++ box (code "hdlr") (full 0 0 ++ be32 0 ++ be32 ty ++ be32 0 ++ be32 0 ++ be32 0 ++ map shown (be32 ty) ++ [0])).
Definition mere_bytes (r : N * N * N) : list N :=
  box (code "mere") (full 0 0 ++ be32 (fst (fst r)) ++ be32 (snd (fst r)) ++ be8 (snd r)).

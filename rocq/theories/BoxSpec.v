(* BoxSpec.v -- what it means for a box type to round trip. *)
From Coq Require String.
Export String.StringSyntax.
From Verif Require Export AtomSpec.
From Verif Require Import Base Codec AtomModel AtomProofs BoxModel.

(* The four character code, the byte layout of the contents, what a reader should see, and the values
   the layout can carry. *)
Record layout (T : Type) := mkLayout { l_ty : T -> N; l_body : T -> list N; l_view : T -> T; l_ok : T -> Prop }.
Arguments mkLayout {T}. Arguments l_ty {T}. Arguments l_body {T}. Arguments l_view {T}. Arguments l_ok {T}.

Definition plain_type (ty : N) : Prop :=
  ty < 4294967296 /\ ty <> T_uuid /\ is_container ty = false /\ is_free ty = false.

(* Round trip of one value [t]: announced size, bytes written, and reading
   them back out of a longer stream; every proper prefix is rejected. *)
Definition round_trip {T} (c : codec T) (y : layout T) (t : T) : Prop :=
  let bs := box (l_ty y t) (l_body y t) in
  c_size c t = len bs /\
  write_box c t = Ok bs /\
  (forall dflt rest, read_box c dflt (bs ++ rest) = Ok ((ALeaf T (l_view y t), len bs), rest)) /\
  (forall dflt p q, bs = p ++ q -> q <> [] -> exists e, read_box c dflt p = Err e).

(* Any input at all: the parser returns, without undefined behaviour, and
   leaves a suffix of its input. *)
Definition robust {T} (c : codec T) : Prop :=
  forall h, safe (c_rd c h).

Definition exact {T} (c : codec T) (y : layout T) : Prop :=
  (forall t, l_ok y t -> plain_type (c_ty c t) /\ c_known c (c_ty c t) = true /\ c_ty c (l_view y t) = c_ty c t /\
     c_ty c t = l_ty y t) /\
  (forall t, l_ok y t -> 8 + len (l_body y t) < 4294967296 ->
     c_size c t = 8 + len (l_body y t) /\ writes (c_w c t) (l_body y t) /\
     parses 8 (c_rd c (mkH (8 + len (l_body y t)) 0 (c_ty c t) [] 8)) (l_body y t) (l_view y t)).

Definition lsum {A B} (a : layout A) (b : layout B) : layout (A + B) :=
  mkLayout (fun x => match x with inl t => l_ty a t | inr t => l_ty b t end)
    (fun x => match x with inl t => l_body a t | inr t => l_body b t end)
    (fun x => match x with inl t => inl (l_view a t) | inr t => inr (l_view b t) end)
    (fun x => match x with inl t => l_ok a t | inr t => l_ok b t end).

(* version and flags of a full box *)
Definition full (v f : N) : list N := be8 v ++ be24 f.
Definition full_ok (v f : N) : Prop := v < 256 /\ f < 16777216.

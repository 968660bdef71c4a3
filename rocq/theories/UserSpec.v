(* UserSpec.v -- user data: for every type the list of the data added. *)
From Verif Require Import Base Codec AtomModel AtomSpec BoxModel BoxSpec.

Inductive uop :=
| UAdd (ty : N) (data : list N)      (* add data of a type *)
| UDelete (ty i : N)                 (* delete the i-th item of a type *)
| USave.                             (* write the box and read it back *)
Inductive uout := UIndex (n : N) | UDone | URefused.

(* the types in use, in the order they came, and the data of every type *)
Record store := mkStore { s_types : list N; s_data : N -> list (list N) }.
Definition store0 : store := mkStore [] (fun _ => []).
Fixpoint without {A} (k : nat) (l : list A) : list A :=
  match l, k with [], _ => [] | _ :: r, O => r | x :: r, S k' => x :: without k' r end.
Definition put (s : store) (ty : N) (l : list (list N)) : N -> list (list N) := fun t => if t =? ty then l else s_data s t.
Definition known (s : store) (ty : N) : bool := existsb (N.eqb ty) (s_types s).
Definition user_spec (s : store) (o : uop) : uout * store :=
  match o with
  | UAdd ty d =>
      if ty =? 0 then (URefused, s)
      else let l := s_data s ty ++ [d] in
           (UIndex (len l), mkStore (if known s ty then s_types s else s_types s ++ [ty]) (put s ty l))
  | UDelete ty i =>
      if (1 <=? i) && (i <=? len (s_data s ty))
      then (UDone, mkStore (s_types s) (put s ty (without (N.to_nat (i - 1)) (s_data s ty))))
      else (URefused, s)
  | USave => (UDone, mkStore (filter (fun t => 0 <? len (s_data s t)) (s_types s)) (s_data s))
  end.
Fixpoint users_spec (s : store) (os : list uop) : list uout * store :=
  match os with [] => ([], s) | o :: r => let (a, s1) := user_spec s o in let (l, s2) := users_spec s1 r in (a :: l, s2) end.

(* the box: every item is a box of its type *)
Definition item_box (ty : N) (d : list N) : list N := box ty ((if ty =? code "uuid" then repeat 0 16 else []) ++ d).
Definition store_bytes (s : store) : list N := flat_map (fun t => flat_map (item_box t) (s_data s t)) (s_types s).

(* What can be saved: types that are not those of boxes the library reads in
   its own way ([c] and the containers) and not free space; data that are
   bytes; all of it below 4 GiB. *)
Definition foreign {T} (c : codec T) (ty : N) : Prop :=
  ty < 4294967296 /\ holds_boxes ty = false /\ free_type ty = false /\ c_known c ty = false.
Definition saveable_now {T} (c : codec T) (s : store) : Prop :=
  Forall (fun t => s_data s t <> [] -> foreign c t /\ Forall bytes (s_data s t)) (s_types s) /\ 8 + len (store_bytes s) < 4294967296.
Fixpoint uops_ok {T} (c : codec T) (s : store) (os : list uop) : Prop :=
  match os with [] => True | o :: r => (o = USave -> saveable_now c s) /\ uops_ok c (snd (user_spec s o)) r end.

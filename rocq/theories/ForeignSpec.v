(* ForeignSpec.v -- boxes of one's own in a movie and its tracks. *)
From Coq Require String.
Export String.StringSyntax.
From Verif Require Import Base AtomModel AtomSpec.

(* a box: its type, its payload; or 16 bytes of a uuid and its payload *)
Inductive fbox := FBox (ty : N) (data : list N) | FUuid (uuid data : list N).
(* what is told about a box: type, uuid (only for uuid boxes), payload *)
Definition told : Type := (N * list N * list N)%type.
Definition tell (b : fbox) : told :=
  match b with
  | FBox ty d => (ty, (if ty =? code "uuid" then repeat 0 16 else []), d)
  | FUuid u d => (code "uuid", u, d)
  end.
Inductive fop := FMovie (b : fbox) | FTrack (i : nat) (b : fbox).   (* tracks counted from 0 *)

Section View.
Context {L : Type}.
Notation atom := (atom L).
(* the boxes of one's own directly in a container *)
Definition own (kids : list atom) : list told :=
  flat_map (fun k => match k with AOpaque _ ty u d => [(ty, u, d)] | _ => [] end) kids.
Definition is_own (a : atom) : bool := match a with AOpaque _ _ _ _ => true | _ => false end.
Definition kids_of (a : atom) : list atom := match a with ABoxes _ _ ks => ks | _ => [] end.
Definition is_track (a : atom) : bool := match a with ABoxes _ ty _ => ty =? code "trak" | _ => false end.
Definition tracks (m : atom) : list atom := filter is_track (kids_of m).
(* of the movie, and of each of its tracks *)
Definition view (m : atom) : list told * list (list told) := (own (kids_of m), map (fun t => own (kids_of t)) (tracks m)).
(* everything else *)
Definition rest_of_track (a : atom) : atom :=
  match a with ABoxes _ ty ks => if ty =? code "trak" then ABoxes _ ty (filter (fun k => negb (is_own k)) ks) else a | _ => a end.
Definition rest_of (m : atom) : list atom := map rest_of_track (filter (fun k => negb (is_own k)) (kids_of m)).
End View.

Fixpoint append_at (i : nat) (x : told) (l : list (list told)) : list (list told) :=
  match l, i with [], _ => [] | t :: r, O => (t ++ [x]) :: r | t :: r, S j => t :: append_at j x r end.
Definition fop_spec (v : list told * list (list told)) (o : fop) : list told * list (list told) :=
  match o with
  | FMovie b => (fst v ++ [tell b], snd v)
  | FTrack i b => (fst v, append_at i (tell b) (snd v))
  end.

(* A box that can be kept: bytes, a type that is not one of those the library
   reads in its own way, not free space, and not one of which the container has
   at most one. *)
Definition keepable (leafKnown : N -> bool) (c : N) (b : fbox) : Prop :=
  match tell b with
  | (ty, u, d) => ty < 4294967296 /\ holds_boxes ty = false /\ free_type ty = false /\ leafKnown ty = false /\
      len u = (if ty =? code "uuid" then 16 else 0) /\ bytes u /\ bytes d /\ (forall g, In g (single c) -> one_of ty g = false)
  end.
Definition fop_ok (leafKnown : N -> bool) (n : nat) (o : fop) : Prop :=
  match o with
  | FMovie b => keepable leafKnown (code "moov") b
  | FTrack i b => (i < n)%nat /\ keepable leafKnown (code "trak") b
  end.

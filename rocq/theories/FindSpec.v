(* FindSpec.v -- which item a name or a type leads to, and which data box *)
From Verif Require Import Base Codec AtomModel AtomSpec AtomProofs BoxModel BoxSpec HeaderModel TextSpec KidsModel KidsProofs MboxModel MboxSpec FindModel.

(* two characters are alike if they are the same or the two forms of a letter
   of the Latin alphabet *)
Definition capital (c d : N) : bool := (65 <=? c) && (c <=? 90) && (d =? c + 32).
Definition alike (c d : N) : bool := (c =? d) || capital c d || capital d c.
Fixpoint alike_all (a b : list N) : bool :=
  match a, b with [], [] => true | c :: a', d :: b' => alike c d && alike_all a' b' | _, _ => false end.
Definition goes_by (exact : bool) (name : list N) (i : info) : Prop :=
  if exact then f_name i = name else alike_all name (f_name i) = true.
(* the first of a list for which something holds *)
Definition first_with {A} (P : A -> Prop) (l : list A) (a : A) : Prop :=
  exists l1 l2, l = l1 ++ a :: l2 /\ P a /\ Forall (fun b => ~ P b) l1.
(* the type of an item with that id, when it has one *)
Definition type_of (s : mstate) (id : N) : option N :=
  match info_of s id with Some i => match f_form i with Typed ty _ => Some ty | _ => None end | None => None end.
Fixpoint positions (s : mstate) (ids : list N) (k : nat) (ty : N) : list nat :=
  match ids with
  | [] => []
  | id :: r => (match type_of s id with Some t => if t =? ty then [k] else [] | None => [] end) ++ positions s r (S k) ty
  end.

(* histories: the calls of MboxSpec.v, and putting a box of data into the meta
   box. [pd_full]: with a version and flags of zero before the data. *)
Record pdata := mkPdata { pd_type : N; pd_full : bool; pd_data : list N }.
Inductive pop := PCall (o : mop) | PData (b : pdata).
Definition pd_bytes (b : pdata) : list N := (if pd_full b then [0; 0; 0; 0] else []) ++ pd_data b.
Definition pd_box {X} (b : pdata) : atom (kid (X:=X)) := AOpaque _ (pd_type b) [] (pd_bytes b).
Definition pd_len (l : list pdata) : N := len (flat_map (fun b => box (pd_type b) (pd_bytes b)) l).
Fixpoint prun_spec (s : mstate) (l : list pdata) (os : list pop) : mstate * list pdata :=
  match os with
  | [] => (s, l)
  | PCall o :: r => prun_spec (snd (mstep_spec s o)) l r
  | PData b :: r => prun_spec s (l ++ [b]) r
  end.
(* data boxes are of types that are not read in a special way and of which
   there may be several; what is saved fits into 32 bits; [used] is the length
   of the boxes there from the start *)
Definition pdata_ok {X} (x : codec X) (b : pdata) : Prop :=
  pd_type b < 4294967296 /\ holds_boxes (pd_type b) = false /\ free_type (pd_type b) = false /\ pd_type b <> code "uuid" /\
  c_known x (pd_type b) = false /\ ~ In (pd_type b) once_codes /\ bytes (pd_data b).
Definition pop_ok {X} (x : codec X) (used : N) (s : mstate) (l : list pdata) (o : pop) : Prop :=
  match o with
  | PCall o => mop_ok x (4294967295 - (12 + used + pd_len l)) s o
  | PData b => pdata_ok x b /\ 12 + used + pd_len (l ++ [b]) < 4294967296
  end.
Fixpoint pops_ok {X} (x : codec X) (used : N) (s : mstate) (l : list pdata) (os : list pop) : Prop :=
  match os with
  | [] => True
  | o :: r => pop_ok x used s l o /\ let (s', l') := prun_spec s l [o] in pops_ok x used s' l' r
  end.
Fixpoint prun {X} (x : codec X) (dx : X) (m : mbox (X:=X)) (os : list pop) : res (mbox (X:=X)) :=
  match os with
  | [] => Ok m
  | PCall o :: r => do a <- mstep x dx m o; prun x dx (snd a) r
  | PData b :: r => do m' <- add_pdata x m (pd_type b) (pd_data b) (pd_full b); prun x dx m' r
  end.

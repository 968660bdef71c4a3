(* ElsewhereSpec.v -- what items in other files should be. *)
From Coq Require Import String Ascii.
From Verif Require Import Base AtomSpec TextSpec EntryModel EntrySpec ElsewhereModel SaveSpec.

(* what was made: references, and items as their base offset, the number of
   their reference and their extents *)
Record made := mkMade { given : list dspec; its : list (N * N * list (N * N)) }.
Definition nothing : made := mkMade [] [].
Fixpoint at_item (l : list (N * N * list (N * N))) (k : nat) (b : N * N) : list (N * N * list (N * N)) :=
  match l, k with
  | [], _ => []
  | (p, e) :: r, O => (p, if snd p =? 0 then e else e ++ [b]) :: r
  | i :: r, S k' => i :: at_item r k' b
  end.
Definition makes (s : made) (c : xcall) : made :=
  match c with
  | Make (XRef u n) => mkMade (given s ++ [match n with None => Url u | Some n => Urn u n end]) (its s)
  | Make (XItem base ref) => mkMade (given s) (its s ++ [(base, ref, [])])
  | Make (XExt k off n) => match given s with [] => s | _ => mkMade (given s) (at_item (its s) k (off, n)) end
  | Read _ => s
  end.
Definition story (cs : list xcall) : made := fold_left makes cs nothing.

(* the arguments are in their ranges, and extents are of items that are there *)
Definition call_ok (s : made) (c : xcall) : Prop :=
  match c with
  | Make (XRef _ _) => True
  | Make (XItem base ref) => base < 18446744073709551616 /\ ref < 65536
  | Make (XExt k off n) => (k < length (its s))%nat /\ off < 18446744073709551616 /\ n < 18446744073709551616
  | Read k => True
  end.
Fixpoint calls_ok (s : made) (cs : list xcall) : Prop :=
  match cs with [] => True | c :: r => call_ok s c /\ calls_ok (makes s c) r end.

(* the location of a reference *)
Definition place (d : dspec) : list N := match d with Here => [] | Url u => u | Urn u _ => u end.
Fixpoint word (s : string) : list N := match s with EmptyString => [] | String a r => N_of_ascii a :: word r end.
Definition begins (p s : list N) : Prop := exists r, s = p ++ r.
Definition scheme (s : list N) : Prop := begins (word "file://") s \/ begins (word "file|//") s.
(* the file of a location: after file://, or next to the file of the movie *)
Inductive located (e : around) : list N -> list N -> Prop :=
| Absolute p f : ~ scheme p -> disk e p = Some f -> located e (word "file://" ++ p) f
| Beside d dir p f : own e = Some (d, Some dir) -> ~ scheme p -> ~ scheme (dir ++ p) -> disk e (dir ++ p) = Some f -> located e p f
| Bare p f : (forall d dir, own e <> Some (d, Some dir)) -> ~ scheme p -> disk e p = Some f -> located e p f.

(* the bytes of an item: its extents, one after the other *)
Definition wanted (f : list N) (base : N) (xs : list (N * N)) : list N := flat_map (fun x => slice f (base + fst x) (snd x)) xs.
Definition inside (f : list N) (base : N) (x : N * N) : Prop := 0 < snd x /\ base + fst x + snd x <= len f.
Definition total (xs : list (N * N)) : N := fold_right (fun x a => snd x + a) 0 xs.
(* the file of a reference is there *)
Definition there (e : around) (d : dspec) : Prop := exists loc f, place d = cstr loc /\ text loc /\ located e loc f.

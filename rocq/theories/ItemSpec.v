(* ItemSpec.v -- what metadata items hold, from the calls that succeeded. *)
From Verif Require Import Base SaveSpec IlocModel ItemModel.

Inductive piece := PMdat (d : list N) | PIdat (d : list N) | PPart (k : nat) (off n : N).
(* what was added to item [k], in order *)
Definition piece_of (k : nat) (o : iop) : list piece :=
  match o with
  | IMdat k' d => if Nat.eqb k' k then [PMdat d] else []
  | IIdat k' d => if Nat.eqb k' k then [PIdat d] else []
  | IPart k' j off n => if Nat.eqb k' k then [PPart j off n] else []
  | _ => []
  end.
Definition additions (k : nat) (acc : list iop) : list piece := flat_map (piece_of k) acc.
(* the items created: base offset and data reference asked for *)
Definition created (acc : list iop) : list (N * N) :=
  flat_map (fun o => match o with INew b d _ => [(b, d)] | _ => [] end) acc.
(* everything put into the media data box, and into the item data box *)
Definition media (acc : list iop) : list N := flat_map (fun o => match o with IMdat _ d | IOther d => d | _ => [] end) acc.
Definition item_bytes_of (acc : list iop) : list N := flat_map (fun o => match o with IIdat _ d => d | _ => [] end) acc.
(* how much media data there was before the first addition to item [k] *)
Fixpoint start (k : nat) (acc : list iop) : N :=
  match acc with
  | [] => 0
  | IMdat k' d :: r => if Nat.eqb k' k then 0 else len d + start k r
  | IOther d :: r => len d + start k r
  | _ :: r => start k r
  end.

(* the value of an item: pieces of one kind, none of them empty; pieces in the
   media data only if the item was the first to go there. [n] bounds how deeply
   items are made of items. *)
Definition is_mdat (p : piece) : bool := match p with PMdat _ => true | _ => false end.
Definition is_idat (p : piece) : bool := match p with PIdat _ => true | _ => false end.
Definition is_part (p : piece) : bool := match p with PPart _ _ _ => true | _ => false end.
Definition nonempty (d : list N) : option (list N) := match d with [] => None | _ => Some d end.
Definition piece_value (value : nat -> option (list N)) (p : piece) : option (list N) :=
  match p with
  | PMdat d | PIdat d => nonempty d
  | PPart k off n =>
      match value k with
      | Some w =>
          if (n =? 0) && (off =? 0) then Some w
          else if (0 <? n) && (off + n <=? len w) then Some (slice w off n) else None
      | None => None
      end
  end.
Fixpoint join (l : list (option (list N))) : option (list N) :=
  match l with
  | [] => Some []
  | Some d :: r => match join r with Some e => Some (d ++ e) | None => None end
  | None :: _ => None
  end.
Definition small (v : option (list N)) : option (list N) :=
  match v with Some d => if len d <? 4294967296 then Some d else None | None => None end.
Fixpoint value (n : nat) (acc : list iop) (k : nat) : option (list N) :=
  match n with
  | O => None
  | S n' =>
      let ps := additions k acc in
      let fresh := match nth_error (created acc) k with Some (0, 0) => true | _ => false end in
      if match ps with
         | PIdat _ :: _ => forallb is_idat ps
         | PPart _ _ _ :: _ => forallb is_part ps
         | PMdat _ :: _ => forallb is_mdat ps && (start k acc =? 0) && fresh
         | [] => fresh
         end
      then small (join (map (piece_value (value n' acc)) ps))
      else None
  end.

(* arguments within the types of the calls *)
Definition iop_ok (o : iop) : Prop :=
  match o with
  | INew b d id => b < 18446744073709551616 /\ d < 65536 /\ match id with Some i => i < 65536 | None => True end
  | IMdat _ d | IIdat _ d | IOther d => len d < 4294967296
  | IPart _ _ off n => off < 4294967296 /\ n < 4294967296
  | IRef _ ty id => id < 4294967296
  | IRefs _ ty ids => ids <> [] /\ len ids < 65536
  end.
Definition ids_of (m : meta) : list N := map i_id (items m).

(* the references of type [ty] added to item [k] *)
Definition ref_of (k : nat) (ty : N) (o : iop) : list N :=
  match o with
  | IRef k' ty' id => if Nat.eqb k' k && (ty' =? ty) then [id] else []
  | IRefs k' ty' ids => if Nat.eqb k' k && (ty' =? ty) then ids else []
  | _ => []
  end.
Definition added_refs (k : nat) (ty : N) (acc : list iop) : list N := flat_map (ref_of k ty) acc.
(* several at once were added only when there were none yet *)
Definition plural_first (k : nat) (ty : N) (acc : list iop) : Prop :=
  forall pre ids post, acc = pre ++ IRefs k ty ids :: post -> added_refs k ty pre = [].

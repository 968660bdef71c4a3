(* ItemModel.v -- metadata items: creating, adding data, references, reading (ISOMeta.c). *)
From Verif Require Import Base AtomModel BoxModel MdatModel TrackModel IlocModel.

(* ISOMetaAtom, MP4Atoms.h: the fields used here. An item is the position of
   its MetaItemLocation in the list. The data of an idat box is kept in a
   handle, whose functions are in HandleModel.v; here it is the bytes. *)
Record meta := mkMeta { m_next : N; m_iloc : option iloc; m_mdat : mdat; m_idat : option (list N); m_iref : option iref }.
(* ISOCreateMetaAtom, MetaAtom.c:362-400: next_item_ID is 1, whatever is
   parsed into the box afterwards *)
Definition meta_new : meta := mkMeta 1 None mdat_new None None.
Definition items (m : meta) : list item := match m_iloc m with Some t => il_items t | None => [] end.
Definition refs (m : meta) : list iref1 := match m_iref m with Some t => ir_list t | None => [] end.
Definition idata (m : meta) : list N := match m_idat m with Some d => d | None => [] end.

(* requestItemID, ISOMeta.c:350-387: an id in use is found, and the error is
   then still that of MP4GetListEntry, that is none *)
Definition request_item_id (m : meta) (id : N) : res N :=
  if id =? 0 then Err MP4BadParamErr
  else if m_next m <=? id then Ok (w16 (id + 1))
  else match m_iloc m with None => Err MP4NotFoundErr | Some _ => Ok (m_next m) end.
(* ISOAddMetaItemWithID, ISOMeta.c:398-440 *)
Definition new_item_with (m : meta) (base dref id : N) : res meta :=
  do n <- request_item_id m id;
  let t := match m_iloc m with Some t => t | None => iloc_new end in
  Ok (mkMeta n (Some (mkIloc (il_ver t) (il_flags t) (il_items t ++ [mkItem id 0 dref base []]))) (m_mdat m) (m_idat m) (m_iref m)).
(* ISOAddMetaItem, ISOMeta.c:389-396 *)
Definition new_item (m : meta) (base dref : N) : res meta := new_item_with m base dref (m_next m).

Definition set_item (m : meta) (k : nat) (a : item) (v1 : bool) : meta :=
  mkMeta (m_next m)
    (match m_iloc m with Some t => Some (mkIloc (if v1 then 1 else il_ver t) (il_flags t) (put_at (il_items t) k a)) | None => None end)
    (m_mdat m) (m_idat m) (m_iref m).
Definition with_mdat (m : meta) (d : mdat) : meta := mkMeta (m_next m) (m_iloc m) d (m_idat m) (m_iref m).
Definition with_idat (m : meta) (d : list N) : meta := mkMeta (m_next m) (m_iloc m) (m_mdat m) (Some d) (m_iref m).
Definition with_iref (m : meta) (l : list iref1) : meta :=
  mkMeta (m_next m) (m_iloc m) (m_mdat m) (m_idat m)
    (Some (match m_iref m with Some t => mkIref (ir_ver t) (ir_flags t) l | None => mkIref 0 0 l end)).
(* "if(extents == 0) base_offset += extent_offset", then MP4AddListEntry *)
Definition add_extent (a : item) (x : extent) : item :=
  mkItem (i_id a) (i_method a) (i_dref a)
    (if len (i_exts a) =? 0 then w64 (i_base a + e_off x) else i_base a) (i_exts a ++ [x]).
Definition with_method (a : item) (v : N) : item := mkItem (i_id a) v (i_dref a) (i_base a) (i_exts a).

(* ISOAddItemExtent, ISOMeta.c:442-492. Items in other files (dref_index not
   0) are not modelled: the data information box is taken as absent. *)
Definition add_mdat (m : meta) (k : nat) (d : list N) : res meta :=
  match nth_error (items m) k with
  | None => UB
  | Some a =>
      if negb (i_dref a =? 0) then Err MP4BadParamErr
      else
        do md <- mdat_add (m_mdat m) d;
        Ok (with_mdat (set_item m k (add_extent a (mkExtent 0 (len (md_data (m_mdat m))) (w32 (len d)))) false) md)
  end.
(* ISOAddItemExtentUsingItemData, ISOMeta.c:537-596 *)
Definition add_idat (m : meta) (k : nat) (d : list N) : res meta :=
  match nth_error (items m) k with
  | None => UB
  | Some a =>
      let x := mkExtent 0 (w32 (len (idata m))) (w32 (len d)) in
      if len (i_exts a) =? 0 then Ok (with_idat (set_item m k (add_extent (with_method a 1) x) true) (idata m ++ d))
      else if negb (i_method a =? 1) then Err MP4BadParamErr
      else Ok (with_idat (set_item m k (add_extent a x) false) (idata m ++ d))
  end.

(* ISOGetItemReferences, ISOMeta.c:689-725: the first entry that fits *)
Definition ref_fits (from ty : N) (r : iref1) : bool := (r_from r =? from) && (r_type r =? ty).
Definition get_refs (m : meta) (from ty : N) : res (list N) :=
  match m_iref m with
  | None => Err MP4BadParamErr
  | Some t => Ok (match find (ref_fits from ty) (ir_list t) with Some r => r_ids r | None => [] end)
  end.
(* ISOAddItemReferences, ISOMeta.c:827-868 *)
Definition add_refs (m : meta) (from ty : N) (ids : list N) : meta := with_iref m (refs m ++ [mkIref1 ty from ids]).
(* the loop of ISOAddItemReference; reference_count has 16 bits, and when it
   wraps the id is written before the array *)
Fixpoint ref_append (l : list iref1) (from ty id : N) : res (N * list iref1) :=
  match l with
  | [] => Ok (1, [])
  | r :: l' =>
      if ref_fits from ty r then
        if 65535 <=? len (r_ids r) then UB
        else Ok (len (r_ids r) + 1, mkIref1 (r_type r) (r_from r) (r_ids r ++ [id]) :: l')
      else do p <- ref_append l' from ty id; Ok (fst p, r :: snd p)
  end.
(* ISOAddItemReference, ISOMeta.c:761-825 *)
Definition add_ref (m : meta) (from ty id : N) : res (N * meta) :=
  let m := with_iref m (refs m) in
  do ids <- get_refs m from ty;
  if len ids =? 0 then Ok (1, add_refs m from ty [id])
  else do p <- ref_append (refs m) from ty id; Ok (fst p, with_iref m (snd p)).

Definition T_iloc : N := 1768714083.
(* ISOAddItemExtentItem, ISOMeta.c:598-645; off and n have 32 bits *)
Definition add_part (m : meta) (k k' : nat) (off n : N) : res meta :=
  match nth_error (items m) k, nth_error (items m) k' with
  | Some a, Some a' =>
      let go a v1 :=
        do p <- add_ref m (i_id a) T_iloc (i_id a');
        Ok (set_item (snd p) k (add_extent a (mkExtent (fst p) off n)) v1) in
      if len (i_exts a) =? 0 then go (with_method a 2) true
      else if negb (i_method a =? 2) then Err MP4BadParamErr
      else go a false
  | _, _ => UB
  end.

(* ISOFindItemByID, ISOMeta.c:1405-1452 *)
Fixpoint find_item (l : list item) (k : nat) (id : N) : res nat :=
  match l with
  | [] => Err MP4NotFoundErr
  | a :: l' => if i_id a =? id then Ok k else find_item l' (S k) id
  end.
Definition item_by_id (m : meta) (id : N) : res nat :=
  match m_iloc m with None => Err MP4NotFoundErr | Some t => find_item (il_items t) 0 id end.
(* ISOGetItemReference, ISOMeta.c:727-759; index 0 reads before the array *)
Definition get_ref (m : meta) (from ty idx : N) : res nat :=
  do ids <- get_refs m from ty;
  if len ids <? idx then Err MP4BadParamErr
  else if idx =? 0 then UB
  else item_by_id m (w16 (nth (N.to_nat (idx - 1)) ids 0)).

(* getData, ItemDataAtom.c:118-138; the difference has 32 bits *)
Definition idat_copy (d : list N) (off n : N) : res (list N) :=
  if sub32 (len d) off <? n then Err MP4BadParamErr
  else if len d <? off + n then UB
  else Ok (firstn (N.to_nat n) (skipn (N.to_nat off) d)).
(* one extent of ISOGetItemData, ISOMeta.c:1548-1695. [self]: the call for
   the referenced item. The handle grows to the sum of the lengths in 32 bits;
   copying past its end is undefined. Methods over 2 copy nothing, and leave
   the bytes as the allocation has them. *)
Definition extent_data (self : nat -> res (list N)) (m : meta) (a : item) (base got : N) (b : extent) : res (list N) :=
  do n <- (if e_len b =? 0 then
             do n <- (if i_method a =? 0 then
                        (if negb (N.shiftr (len (md_data (m_mdat m))) 32 =? 0) then Err MP4NoLargeAtomSupportErr else Ok (len (md_data (m_mdat m))))
                      else if i_method a =? 1 then Ok (len (idata m))
                      else if i_method a =? 2 then
                        do k <- get_ref m (i_id a) T_iloc (w16 (e_index b));
                        do d <- self k; Ok (len d)
                      else Ok 0);
             if negb (e_off b =? 0) then Err MP4BadDataErr else Ok n
           else if negb (N.shiftr (e_len b) 32 =? 0) then Err MP4NoLargeAtomSupportErr
           else Ok (w32 (e_len b)));
  if 4294967295 <? got + n then UB
  else if i_method a =? 0 then mdat_copy (m_mdat m) (w64 (e_off b + base)) n
  else if i_method a =? 1 then idat_copy (idata m) (w32 (e_off b)) n
  else if i_method a =? 2 then
    do k <- get_ref m (i_id a) T_iloc (w16 (e_index b));
    do d <- self k;
    if sub64 (len d) (e_off b) <? n then Err MP4BadDataErr
    else if len d <? e_off b + n then UB
    else Ok (firstn (N.to_nat n) (skipn (N.to_nat (e_off b)) d))
  else UB.
Fixpoint extents_data (self : nat -> res (list N)) (m : meta) (a : item) (base : N) (first : bool) (acc : list N) (l : list extent) : res (list N * N) :=
  match l with
  | [] => Ok (acc, base)
  | b :: l' =>
      do d <- extent_data self m a base (len acc) b;
      extents_data self m a (if first then sub64 base (e_off b) else base) false (acc ++ d) l'
  end.
(* the item's data and base offset. The fuel bounds the depth of items made of
   items. *)
Fixpoint get_data (fuel : nat) (m : meta) (k : nat) : res (list N * N) :=
  match fuel with
  | O => Err OutOfFuel
  | S f =>
      match nth_error (items m) k with
      | None => UB
      | Some a =>
          if (i_method a =? 0) && negb (i_dref a =? 0) then Err MP4InvalidMediaErr
          else if (i_method a =? 1) && match m_idat m with None => true | Some _ => false end then Err MP4BadDataErr
          else extents_data (fun k' => do p <- get_data f m k'; Ok (fst p)) m a (i_base a) true [] (i_exts a)
      end
  end.
Definition item_data (fuel : nat) (m : meta) (k : nat) : res (list N) := do p <- get_data fuel m k; Ok (fst p).

(* mdatMoved, MetaAtom.c:349-361 *)
Definition meta_moved (base fin : N) (off : Z) (m : meta) : meta :=
  mkMeta (m_next m) (option_map (iloc_moved base fin off) (m_iloc m)) (m_mdat m) (m_idat m) (m_iref m).

(* histories *)
Inductive iop :=
| INew (base dref : N) (id : option N)         (* create an item, with an automatic or a chosen id *)
| IMdat (k : nat) (d : list N)                 (* add data in the media data box *)
| IIdat (k : nat) (d : list N)                 (* add data in the item data box *)
| IPart (k k' : nat) (off n : N)               (* add a part of another item *)
| IRef (k : nat) (ty id : N)                   (* add a reference *)
| IRefs (k : nat) (ty : N) (ids : list N)      (* add references *)
| IOther (d : list N).                         (* media data of the movie's tracks *)
Definition istep (m : meta) (o : iop) : res meta :=
  match o with
  | INew base dref None => new_item m base dref
  | INew base dref (Some id) => new_item_with m base dref id
  | IMdat k d => add_mdat m k d
  | IIdat k d => add_idat m k d
  | IPart k k' off n => add_part m k k' off n
  | IRef k ty id => match nth_error (items m) k with Some a => do p <- add_ref m (i_id a) ty id; Ok (snd p) | None => UB end
  | IRefs k ty ids => match nth_error (items m) k with Some a => Ok (add_refs m (i_id a) ty ids) | None => UB end
  | IOther d => do md <- mdat_add (m_mdat m) d; Ok (with_mdat m md)
  end.
(* A history: the calls made, and those of them that succeeded. A call that
   fails leaves the box as it was (an empty idat box it may have added is
   ignored); undefined behaviour ends everything. *)
Definition iadd (r : res (meta * list iop)) (o : iop) : res (meta * list iop) :=
  do p <- r;
  match istep (fst p) o with
  | Ok m' => Ok (m', snd p ++ [o])
  | Err _ => Ok p
  | UB => UB
  end.
Definition irun (os : list iop) : res (meta * list iop) := fold_left iadd os (Ok (meta_new, [])).

(* FindModel.v -- finding items by name and by type, and the data boxes kept
   in the meta box itself (ISOMeta.c, MetaAtom.c) *)
From Verif Require Import Base AtomModel BoxModel KidsModel HeaderModel TextModel TrackModel MboxModel IlocModel ItemModel.

Section Find.
Context {X : Type} (x : codec X).
Notation mbox := (mbox (X:=X)).

(* tolower in the C locale, as strcasecmp uses it *)
Definition lower (c : N) : N := if (65 <=? c) && (c <=? 90) then c + 32 else c.
(* strcmp(name, item_name) == 0 or strcasecmp(name, item_name) == 0; [name] is
   the characters of the first argument, [b] the buffer *)
Definition eq_bytes (a b : list N) : bool := if list_eq_dec N.eq_dec a b then true else false.
Definition same_name (exact : bool) (name b : list N) : bool :=
  if exact then eq_bytes name (chars b) else eq_bytes (map lower name) (map lower (chars b)).
(* the loop of ISOFindItemByName, ISOMeta.c:1524-1537: an entry without a name
   is a null pointer given to strcmp, a box that is not an entry is taken for
   one; a name without a zero is read past its end *)
Fixpoint named (l : list (atom (infe + X))) (exact : bool) (name : list N) : res (option N) :=
  match l with
  | [] => Ok None
  | ALeaf _ (inl e) :: r =>
      match in_name e with
      | None => UB
      | Some b => if negb (terminated b) then UB else if same_name exact name b then Ok (Some (w16 (in_id e))) else named r exact name
      end
  | _ :: _ => UB
  end.
(* ISOFindItemByName, ISOMeta.c:1507-1546; the items are those of [t] *)
Definition find_by_name (m : mbox) (t : meta) (exact : bool) (name : list N) : res nat :=
  match member as_iinf (mb_kids m) with
  | None => Err MP4NotFoundErr
  | Some i => do o <- named (ii_kids i) exact name; match o with Some id => item_by_id t id | None => Err MP4NotFoundErr end
  end.
(* ISOGetAllItemsWithType, ISOMeta.c:1456-1504; [k] is the number of the first
   item of the list *)
Fixpoint with_type (m : mbox) (l : list item) (k : nat) (ty : N) : res (list nat) :=
  match l with
  | [] => Ok []
  | a :: r => do p <- get_type m (i_id a); do ks <- with_type m r (S k) ty; Ok (if ty =? fst p then k :: ks else ks)
  end.
Definition all_with_type (m : mbox) (t : meta) (ty : N) : res (list nat) :=
  match m_iloc t with None => Err MP4NotFoundErr | Some l => with_type m (il_items l) 0 ty end.

(* ISOAddPrimaryData, ISOMeta.c:648-686, for a handle that holds [d]; the
   length has 32 bits *)
Definition add_pdata (m : mbox) (ty : N) (d : list N) (full : bool) : res mbox :=
  let b := if full then [0; 0; 0; 0] ++ d else d in
  if 4294967296 <=? len b then UB
  else do kids <- mbox_add x (mb_kids m) (AOpaque _ ty [] b); Ok (mkMbox (mb_ver m) (mb_flags m) kids).
(* getData, MetaAtom.c:247-287: whatever box has the type is taken for an
   unknown one; the difference has 32 bits *)
Definition kid_type (k : atom (kid (X:=X))) : N := atype kid (c_ty (kid_codec x)) k.
Definition get_pdata (m : mbox) (ty : N) (full : bool) : res (list N) :=
  match find (fun k => kid_type k =? ty) (mb_kids m) with
  | None => Err MP4NotFoundErr
  | Some (AOpaque _ _ _ d) =>
      if full then if len d <? 4 then UB else if len d =? 4 then Err MP4BadDataErr else Ok (skipn 4 d)
      else if len d =? 0 then Err MP4BadDataErr else Ok d
  | Some _ => UB
  end.
(* ISOGetPrimaryItemData, ISOMeta.c:905-926 *)
Definition primary_data (fuel : nat) (m : mbox) (t : meta) (ty : N) (full : bool) : res (list N) :=
  match get_pdata m ty full with
  | Err e => if Z.eqb e MP4NotFoundErr then do id <- get_primary m; do k <- item_by_id t id; item_data fuel t k else Err e
  | r => r
  end.
(* ISOAddItemRelation, ISOMeta.c:871-885, with ISOGetItemID, 978-994 *)
Definition add_relation (t : meta) (k k' : nat) (ty : N) : res meta :=
  match nth_error (items t) k, nth_error (items t) k' with
  | Some a, Some a' => do p <- add_ref t (i_id a) ty (w16 (i_id a')); Ok (snd p)
  | _, _ => UB
  end.
End Find.

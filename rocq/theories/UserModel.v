(* UserModel.v -- user data of a movie or a track (UserDataAtom.c,
   MP4UserData.c). *)
From Verif Require Import Base AtomModel BoxModel KidsModel UserSpec.

Section User.
(* [c]: the boxes with their own parser that can be inside *)
Context {T : Type} (c : codec T) (dflt : T).
Notation item := (atom T).

(* recordList of MP4UserDataAtom: for every type the list of its boxes,
   UserDataAtom.c:33-37. The linked lists are modelled in LListModel.v. *)
Definition udta : Type := list (N * list item).

(* findEntryForAtomType, UserDataAtom.c:116-141: the first record *)
Fixpoint records (u : udta) (ty : N) : option (list item) :=
  match u with [] => None | (t, l) :: r => if t =? ty then Some l else records r ty end.
(* what is done to the record found: UserDataAtom.c:96-107, 265-277, or a new
   record *)
Fixpoint add_item (u : udta) (ty : N) (a : item) : udta :=
  match u with
  | [] => [(ty, [a])]
  | (t, l) :: r => if t =? ty then (t, l ++ [a]) :: r else (t, l) :: add_item r ty a
  end.
Fixpoint set_record (u : udta) (ty : N) (l' : list item) : udta :=
  match u with [] => [] | (t, l) :: r => if t =? ty then (t, l') :: r else (t, l) :: set_record r ty l' end.

(* MP4AddUserData, MP4UserData.c:30-46, addUserData, UserDataAtom.c:74-114:
   the box made is an MP4UnknownAtom whose uuid is zero. *)
Definition add_data (u : udta) (data : list N) (ty : N) : res (N * udta) :=
  if ty =? 0 then Err MP4BadParamErr
  else let u' := add_item u ty (AOpaque _ ty (if ty =? T_uuid then repeat 0 16 else []) data) in
       Ok (match records u' ty with Some l => len l | None => 0 end, u').
(* MP4GetUserDataEntryCount, MP4UserData.c:48-68, getEntryCount,
   UserDataAtom.c:154-178 *)
Definition entry_count (u : udta) (ty : N) : res N :=
  if ty =? 0 then Err MP4BadParamErr else Ok (match records u ty with Some l => len l | None => 0 end).
(* MP4GetUserDataTypeCount, MP4UserData.c:92-112 *)
Definition type_count (u : udta) : N := len u.
(* MP4GetIndUserDataType, MP4UserData.c:70-90, getIndType,
   UserDataAtom.c:180-199 *)
Definition ind_type (u : udta) (i : N) : res N :=
  if (i =? 0) || (len u <? i) then Err MP4BadParamErr
  else match nth_error u (N.to_nat (i - 1)) with Some (t, _) => Ok t | None => UB end.
(* MP4GetUserDataItem, MP4UserData.c:114-134, getItem,
   UserDataAtom.c:201-225: the box is taken for an MP4UnknownAtom. For a box of
   another type its data pointer and data size are fields of another
   structure: undefined. *)
Definition get_item (u : udta) (ty i : N) : res (list N) :=
  if (ty =? 0) || (i =? 0) then Err MP4BadParamErr
  else match records u ty with
       | None => Err MP4BadParamErr
       | Some l =>
           if len l <=? i - 1 then Err MP4BadParamErr
           else match nth_error l (N.to_nat (i - 1)) with Some (AOpaque _ _ _ d) => Ok d | _ => UB end
       end.
(* MP4GetAtomFromUserData, MP4UserData.c:136-161, getAtom,
   UserDataAtom.c:227-248 *)
Definition get_atom (u : udta) (ty i : N) : res item :=
  if (ty =? 0) || (i =? 0) then Err MP4BadParamErr
  else match records u ty with
       | None => Err MP4BadParamErr
       | Some l =>
           if len l <=? i - 1 then Err MP4BadParamErr
           else match nth_error l (N.to_nat (i - 1)) with Some a => Ok a | None => UB end
       end.
(* MP4DeleteUserDataItem, MP4UserData.c:163-183, deleteItem,
   UserDataAtom.c:250-266, MP4DeleteListEntry: the record stays when its last
   item goes. *)
Definition remove {A} (k : nat) (l : list A) : list A := firstn k l ++ skipn (S k) l.
Definition delete_item (u : udta) (ty i : N) : res udta :=
  if (ty =? 0) || (i =? 0) then Err MP4BadParamErr
  else match records u ty with
       | None => Err MP4BadParamErr
       | Some l =>
           if len l <=? i - 1 then Err MP4BadParamErr
           else Ok (set_record u ty (remove (N.to_nat (i - 1)) l))
       end.

(* the boxes in the order they are written: calculateSize and serialize,
   UserDataAtom.c:290-343 *)
Definition all_items (u : udta) : list item := flat_map snd u.
(* addAtom, UserDataAtom.c:268-288, for the boxes read *)
Definition grouped (l : list item) : udta := fold_left (fun u a => add_item u (atype T (c_ty c) a) a) l [].
(* the loop of createFromInputStream, UserDataAtom.c:356-371; [br] is
   bytesRead *)
Fixpoint items_rd (fuel : nat) (size br : N) (l : list item) (i : list N) : res (list item * N * list N) :=
  if br <? sub32 size 4 then
    match fuel with
    | O => Err OutOfFuel
    | S f =>
        do asr <- snd (parse_atom T (c_leaf c) (c_ty c) (fun _ => dflt) f i);
        let a := fst (fst asr) in
        let br' := w32 (br + snd (fst asr)) in
        if is_free (atype T (c_ty c) a) then items_rd f size br' l (snd asr)
        else items_rd f size br' (l ++ [a]) (snd asr)
    end
  else Ok (l, br, i).
(* UserDataAtom.c:345-384: four bytes at the end are skipped *)
Definition udta_rd (h : hdr) : rd udta := fun s =>
  do x <- items_rd (length (inp s) + 3) (h_size h) (rdn s) [] (inp s);
  let '(l, br, r) := x in
  let s1 := mkR r br in
  do y <- (if sub32 (h_size h) br =? 4 then do z <- get32 s1; Ok (snd z) else Ok s1);
  if rdn y =? h_size h then Ok (grouped l, y) else Err MP4BadDataErr.
Definition udta_codec : codec udta :=
  mkCodec (N.eqb T_udta) (fun _ => T_udta) (fun u => boxes_size c 8 (all_items u)) (fun u => boxes_w c (all_items u)) udta_rd.

(* histories: a call that returns an error changes nothing; saving writes the
   box and reads it back *)
Definition user_step (u : udta) (o : uop) : res (uout * udta) :=
  match o with
  | UAdd ty d => match add_data u d ty with Ok (n, u') => Ok (UIndex n, u') | Err _ => Ok (URefused, u) | UB => UB end
  | UDelete ty i => match delete_item u ty i with Ok u' => Ok (UDone, u') | Err _ => Ok (URefused, u) | UB => UB end
  | USave =>
      do b <- write_box udta_codec u;
      do r <- read_box udta_codec [] b;
      match fst (fst r) with ALeaf _ u' => Ok (UDone, u') | _ => UB end
  end.
Fixpoint user_run (u : udta) (os : list uop) : res (list uout * udta) :=
  match os with
  | [] => Ok ([], u)
  | o :: r => do x <- user_step u o; do y <- user_run (snd x) r; Ok (fst x :: fst y, snd y)
  end.
End User.

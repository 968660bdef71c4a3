(* KidsModel.v -- boxes inside a box that is not in the container list of AtomModel.v. *)
From Verif Require Import Base AtomModel BoxModel.

(* PARSE_ATOM_INCLUDES, MP4Impl.h:605-620, for a box which keeps what it
   needs of the children itself: the children read up to the announced size.
   [c] knows the child boxes with their own parser. *)
Definition boxes_rd {T} (c : codec T) (dflt : T) (h : hdr) : rd (list (atom T)) := fun s =>
  do kr <- snd (parse_kids T (c_leaf c) (c_ty c) (fun _ => dflt) (length (inp s) + 3) (h_type h) (h_size h) (rdn s) [] (inp s));
  Ok (fst kr, mkR (snd kr) (h_size h)).
(* ADD_ATOM_SIZE and ADD_ATOM_LIST_SIZE, MP4Impl.h:420-465 *)
Definition kid_size {T} (c : codec T) : atom T -> N := asize T (c_ty c) (c_size c).
Definition boxes_size {T} (c : codec T) (sz : N) (l : list (atom T)) : N :=
  fold_left (fun a k => w32 (a + kid_size c k)) l sz.
(* SERIALIZE_ATOM and SERIALIZE_ATOM_LIST, MP4Impl.h:502-568 *)
Definition boxes_w {T} (c : codec T) (l : list (atom T)) : wr :=
  wmap (fun k => embed (kid_size c k) (awrite T (c_ty c) (c_size c) (c_w c) k)) l.
(* a box [ty] whose whole contents are boxes: [pack] lists the children in
   the order they are written, [unpack] says what becomes of those read *)
Definition boxed {T R} (c : codec T) (dflt : T) (ty : N) (pack : R -> list (atom T)) (unpack : list (atom T) -> R) : codec R :=
  mkCodec (N.eqb ty) (fun _ => ty) (fun r => boxes_size c 8 (pack r)) (fun r => boxes_w c (pack r))
    (fun h => rmap unpack (boxes_rd c dflt h)).

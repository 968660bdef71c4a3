(* BoxModel.v -- the four routines every box type supplies, bundled. *)
From Verif Require Import Base AtomModel.

(* calculateSize, serialize (the part after size and type), and
   createFromInputStream of one box structure, with the four character codes
   MP4CreateAtom dispatches to it (MP4Atoms.c:156-693) *)
Record codec (T : Type) := mkCodec {
  c_known : N -> bool;
  c_ty : T -> N;
  c_size : T -> N;
  c_w : T -> wr;
  c_rd : hdr -> rd T }.
Arguments mkCodec {T}. Arguments c_known {T}. Arguments c_ty {T}.
Arguments c_size {T}. Arguments c_w {T}. Arguments c_rd {T}.

Definition c_leaf {T} (c : codec T) (ty : N) : option (hdr -> rd T) :=
  if c_known c ty then Some (c_rd c) else None.

(* MP4ParseAtom on a stream of the bytes [i] where the only box type with
   its own parser is this one *)
Definition read_box {T} (c : codec T) (dflt : T) (i : list N) : res ((atom T * N) * list N) :=
  snd (parse_top T (c_leaf c) (c_ty c) (fun _ => dflt) i).
(* calculateSize, then serialize into a buffer of that size *)
Definition write_box {T} (c : codec T) (t : T) : res (list N) :=
  awrite T (c_ty c) (c_size c) (c_w c) (ALeaf T t).

(* two kinds of boxes in one tree *)
Definition rmap {A B} (f : A -> B) (m : rd A) : rd B := let* a := m in rret (f a).
Definition csum {A B} (a : codec A) (b : codec B) : codec (A + B) :=
  mkCodec (fun ty => c_known a ty || c_known b ty)
    (fun x => match x with inl t => c_ty a t | inr t => c_ty b t end)
    (fun x => match x with inl t => c_size a t | inr t => c_size b t end)
    (fun x => match x with inl t => c_w a t | inr t => c_w b t end)
    (fun h => if c_known a (h_type h) then rmap inl (c_rd a h) else rmap inr (c_rd b h)).

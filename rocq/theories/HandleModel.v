(* HandleModel.v -- MP4Handle.c: growable byte blocks. *)
From Verif Require Import Base.

(* A byte of a C block: None while indeterminate (malloc/realloc growth). *)
Notation obyte := (option N) (only parsing).

(* handleStruct, MP4Handle.c:27-35.  [blk] is the block truedata points to
   (None = NULL); data == truedata + hoff whenever blk is not NULL.  The
   signature check is not modelled (all handles are live and valid);
   allocation never fails. *)
Record hdl := mkHdl { blk : option (list obyte); hsz : N; halc : N; hoff : N }.

(* MP4NewHandle, MP4Handle.c:43-78 *)
Definition newHandle (n : N) : hdl :=
  if n =? 0 then mkHdl None 0 0 0
  else mkHdl (Some (repeat (Some 0) (N.to_nat n))) n n 0.

(* realloc(block, n): keeps the common prefix, the rest is indeterminate *)
Definition realloc (b : list obyte) (n : N) : list obyte :=
  firstn (N.to_nat n) b ++ repeat None (N.to_nat n - length b).

(* MP4SetHandleSize, MP4Handle.c:97-128 *)
Definition setHandleSize (h : hdl) (req : N) : hdl :=
  if req <=? halc h then mkHdl (blk h) req (halc h) (hoff h)
  else
    let n := w32 (req + hoff h) in
    let p := match blk h with
             | None => repeat None (N.to_nat n)           (* malloc *)
             | Some b => realloc b n
             end in
    mkHdl (Some p) req req (hoff h).

(* MP4SetHandleOffset, MP4Handle.c:130-161; adjust is an s32 *)
Definition setHandleOffset (h : hdl) (off : N) : res hdl :=
  let adjust := s32_of (sub32 off (hoff h)) in
  if (adjust =? 0)%Z then Ok h
  else if (w32 (hsz h + hoff h) <? off) && negb (hsz h =? 0) then Err MP4BadParamErr
  else
    let h1 := if (hsz h =? 0) && (0 <? adjust)%Z
              then setHandleSize h (u32_of adjust) else h in
    Ok (mkHdl (blk h1) (sub32 (hsz h1) (u32_of adjust)) (sub32 (halc h1) (u32_of adjust)) off).

(* read [n] bytes at [i] of a block; outside the block: UB *)
Definition bread (b : option (list obyte)) (i n : N) : res (list obyte) :=
  if n =? 0 then Ok []
  else match b with
       | None => UB
       | Some l => if i + n <=? len l then Ok (firstn (N.to_nat n) (skipn (N.to_nat i) l)) else UB
       end.
(* store [bs] at [i] *)
Definition bwrite (b : option (list obyte)) (i : N) (bs : list obyte) : res (option (list obyte)) :=
  match bs with
  | [] => Ok b
  | _ => match b with
         | None => UB
         | Some l => if i + len bs <=? len l
                     then Ok (Some (firstn (N.to_nat i) l ++ bs ++ skipn (N.to_nat i + length bs) l))
                     else UB
         end
  end.

(* MP4HandleCat, MP4Handle.c:177-222.  [src = None] is the call with the
   same handle twice, where the fields of src are read after dst is resized
   (memcpy on overlapping or out-of-range blocks is UB; a 0-byte memcpy on
   a NULL block is taken as a no-op). *)
Definition handleCat (dst : hdl) (src : option hdl) : res hdl :=
  let ssz0 := match src with Some s => hsz s | None => hsz dst end in
  let req := w32 (hsz dst + ssz0) in
  let offset := hsz dst in
  let d1 :=
    if req <=? halc dst then mkHdl (blk dst) req (halc dst) (hoff dst)
    else
      let p := match blk dst with
               | None => repeat None (N.to_nat (w32 (ssz0 + hoff dst)))
               | Some b => realloc b (w32 (req + hoff dst))
               end in
      mkHdl (Some p) req req (hoff dst) in
  match src with
  | Some s =>
      do bs <- bread (blk s) (hoff s) (hsz s);
      do b <- bwrite (blk d1) (hoff d1 + offset) bs;
      Ok (mkHdl b (hsz d1) (halc d1) (hoff d1))
  | None =>
      (* copies hsz d1 bytes from data to data+offset of one block *)
      if hsz d1 =? 0 then Ok d1 else UB
  end.

(* the bytes a user sees through *handle: data[0 .. size) *)
Definition contents (h : hdl) : res (list obyte) := bread (blk h) (hoff h) (hsz h).
(* a user store through *handle: data[i] = v *)
Definition poke (h : hdl) (i v : N) : res hdl :=
  do b <- bwrite (blk h) (hoff h + i) [Some v];
  Ok (mkHdl b (hsz h) (halc h) (hoff h)).

(* ---- histories over a pool of handles ----------------------------- *)
Inductive hop :=
| HNew (n : N)                  (* a new handle at the next pool index *)
| HSetSize (h : nat) (n : N)
| HSetOffset (h : nat) (o : N)
| HPoke (h : nat) (i v : N)
| HCat (d s : nat)
| HGetSize (h : nat)
| HRead (h : nat).
Inductive hout := HDone | HNum (n : N) | HBytes (b : list obyte) | HErr (e : Z).

Fixpoint setn {A} (l : list A) (i : nat) (x : A) : list A :=
  match l, i with
  | [], _ => []
  | _ :: t, O => x :: t
  | y :: t, S j => y :: setn t j x
  end.

Definition hstep (p : list hdl) (o : hop) : res (list hdl * hout) :=
  match o with
  | HNew n => Ok (p ++ [newHandle n], HDone)
  | HSetSize i n => match nth_error p i with
                    | None => UB
                    | Some h => Ok (setn p i (setHandleSize h n), HDone) end
  | HSetOffset i o => match nth_error p i with
                      | None => UB
                      | Some h => match setHandleOffset h o with
                                  | Ok h' => Ok (setn p i h', HDone)
                                  | Err e => Ok (p, HErr e)
                                  | UB => UB end end
  | HPoke i k v => match nth_error p i with
                   | None => UB
                   | Some h => do h' <- poke h k v; Ok (setn p i h', HDone) end
  | HCat d s => match nth_error p d, nth_error p s with
                | Some hd, Some hs =>
                    do h' <- handleCat hd (if Nat.eqb d s then None else Some hs);
                    Ok (setn p d h', HDone)
                | _, _ => UB end
  | HGetSize i => match nth_error p i with None => UB | Some h => Ok (p, HNum (hsz h)) end
  | HRead i => match nth_error p i with
               | None => UB
               | Some h => do b <- contents h; Ok (p, HBytes b) end
  end.
Fixpoint hrun (p : list hdl) (os : list hop) : res (list hout) :=
  match os with
  | [] => Ok []
  | o :: t => do (p', r) <- hstep p o; do rs <- hrun p' t; Ok (r :: rs)
  end.

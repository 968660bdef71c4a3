(* LListModel.v -- the pointer-linked list of MP4LinkedList.c. *)
From Verif Require Import Base.

(* Addresses of MP4ListItem records; None is NULL. *)
Notation addr := N (only parsing).
(* MP4ListItem, MP4LinkedList.h:32-36: link and data (a void pointer,
   modelled as an opaque number). *)
Record cell := mkCell { link : option addr; data : N }.
(* The C heap restricted to list items: [None] for a never allocated or
   freed block.  [hnext] is the next fresh address: malloc returns blocks
   that are distinct from all live ones (simplification: an address is
   never reused after free, so a dangling access is always detected). *)
Record heap := mkHeap { hcell : addr -> option cell; hnext : addr }.
Definition heap0 : heap := mkHeap (fun _ => None) 1.
Definition hset (h : heap) (a : addr) (c : option cell) : heap :=
  mkHeap (fun x => if x =? a then c else hcell h x) (hnext h).
(* calloc(1, sizeof(MP4ListItem)) followed by the stores; never fails *)
Definition halloc (h : heap) (c : cell) : addr * heap :=
  (hnext h, mkHeap (fun x => if x =? hnext h then Some c else hcell h x) (hnext h + 1)).

(* MP4List, MP4LinkedList.h:38-45.  foundEntryNumber is a C int whose only
   uses convert it to u32 (MP4LinkedList.c:159,166); it is kept as that u32,
   so -1 is 2^32-1. *)
Record mlist := mkList {
  head : option addr; tail : option addr; entryCount : N;
  foundEntryNumber : N; foundEntry : option addr }.

(* MP4MakeLinkedList, MP4LinkedList.c:31-44 *)
Definition makeLinkedList : mlist := mkList None None 0 4294967295 None.

(* MP4PrependListEntry, MP4LinkedList.c:46-72 *)
Definition prependListEntry (h : heap) (l : mlist) (item : N) : res (heap * mlist) :=
  match head l with
  | None =>
      let (e, h') := halloc h (mkCell None item) in
      Ok (h', mkList (Some e) (Some e) 1 0 (Some e))
  | Some hd =>
      let (e, h') := halloc h (mkCell (Some hd) item) in
      Ok (h', mkList (Some e) (tail l) (w32 (entryCount l + 1)) 0 (Some e))
  end.

(* MP4AddListEntry, MP4LinkedList.c:74-104 (list != NULL) *)
Definition addListEntry (h : heap) (l : mlist) (item : N) : res (heap * mlist) :=
  let (e, h1) := halloc h (mkCell None item) in
  match head l with
  | None => Ok (h1, mkList (Some e) (Some e) 1 0 (Some e))
  | Some _ =>
      let cnt := w32 (entryCount l + 1) in
      match tail l with
      | None => UB                                  (* list->tail->link, tail NULL *)
      | Some t =>
          match hcell h1 t with
          | None => UB                              (* dangling tail *)
          | Some c =>
              let h2 := hset h1 t (Some (mkCell (Some e) (data c))) in
              Ok (h2, mkList (head l) (Some e) cnt (sub32 cnt 1) (Some e))
          end
      end
  end.

(* the "entry = entry->link" loop of MP4GetListEntry/MP4DeleteListEntry
   (MP4LinkedList.c:166-170, 195-200): [k] steps from [entry], also returning
   the cell before the one reached.  NULL or dangling entries are UB (the
   assert on entry->link is compiled out under NDEBUG; a NULL link is then
   dereferenced by the next access). *)
Fixpoint walk (h : heap) (k : nat) (previous entry : option addr)
  : res (option addr * option addr) :=
  match k with
  | O => Ok (previous, entry)
  | S k' =>
      match entry with
      | None => UB
      | Some a => match hcell h a with
                  | None => UB
                  | Some c => walk h k' entry (link c)
                  end
      end
  end.

(* MP4GetListEntry, MP4LinkedList.c:150-181 (list, outItem != NULL) *)
Definition getListEntry (h : heap) (l : mlist) (itemNumber : N) : res (N * mlist) :=
  if entryCount l <=? itemNumber then Err MP4BadParamErr
  else
    let '(fnum, fent) :=
      if itemNumber <? foundEntryNumber l then (0, head l)
      else (foundEntryNumber l, foundEntry l) in
    do (_, e) <- walk h (N.to_nat (itemNumber - fnum)) None fent;
    match e with
    | None => UB
    | Some a =>
        match hcell h a with
        | None => UB
        | Some c => Ok (data c, mkList (head l) (tail l) (entryCount l) itemNumber e)
        end
    end.

(* MP4GetListEntryCount, MP4LinkedList.c:134-148 *)
Definition getListEntryCount (l : mlist) : N := entryCount l.

(* MP4DeleteListEntry, MP4LinkedList.c:183-218 *)
Definition deleteListEntry (h : heap) (l : mlist) (itemNumber : N) : res (heap * mlist) :=
  if entryCount l <=? itemNumber then Err MP4BadParamErr
  else
    do (prev, e) <- walk h (N.to_nat itemNumber) (head l) (head l);
    match e with
    | None => UB
    | Some a =>
        match hcell h a with
        | None => UB
        | Some c =>
            let lnk := link c in
            let h1 := hset h a None in                          (* free(entry) *)
            do (h2, hd) <-
              (if itemNumber =? 0 then Ok (h1, lnk)
               else match prev with
                    | None => UB
                    | Some p => match hcell h1 p with
                                | None => UB
                                | Some pc => Ok (hset h1 p (Some (mkCell lnk (data pc))), head l)
                                end
                    end);
            let tl' := if itemNumber =? sub32 (entryCount l) 1 then prev else tail l in
            Ok (h2, mkList hd tl' (sub32 (entryCount l) 1) 0 hd)
        end
    end.

(* ---- histories ---------------------------------------------------- *)
Inductive lop :=
| LPrepend (x : N) | LAdd (x : N) | LGet (i : N) | LCount | LDelete (i : N).
(* what one call reports back: the value or count, the error code *)
Inductive lout := LDone | LVal (x : N) | LErr (e : Z).

Definition lstep (st : heap * mlist) (o : lop) : res ((heap * mlist) * lout) :=
  let (h, l) := st in
  match o with
  | LPrepend x => do st' <- prependListEntry h l x; Ok (st', LDone)
  | LAdd x => do st' <- addListEntry h l x; Ok (st', LDone)
  | LGet i => match getListEntry h l i with
              | Ok (v, l') => Ok ((h, l'), LVal v)
              | Err e => Ok ((h, l), LErr e)
              | UB => UB end
  | LCount => Ok ((h, l), LVal (getListEntryCount l))
  | LDelete i => match deleteListEntry h l i with
                 | Ok st' => Ok (st', LDone)
                 | Err e => Ok ((h, l), LErr e)
                 | UB => UB end
  end.

(* the outputs of a history; UB as soon as one call is undefined *)
Fixpoint lrun (st : heap * mlist) (os : list lop) : res (list lout) :=
  match os with
  | [] => Ok []
  | o :: t => do (st', r) <- lstep st o; do rs <- lrun st' t; Ok (r :: rs)
  end.

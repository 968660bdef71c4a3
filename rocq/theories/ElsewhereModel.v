(* ElsewhereModel.v -- items whose data are in other files: data references of
   a meta box, extents in them, and reading such items (ISOMeta.c). *)
From Verif Require Import Base AtomModel BoxModel MdatModel TrackModel IlocModel ItemModel TextModel EntryModel.

(* What the library finds around it: the contents of the file a name opens (on
   Linux the whole file is read into memory, linux/SimpleFileMappingObject.c:
   53-92; files of 2 GiB and more are not modelled), and the file a movie was
   read from, with the directory of its name ([None]: not read from a file).
   The files do not change meanwhile. *)
Record around := mkAround { disk : list N -> option (list N); own : option (list N * option (list N)) }.

(* ISOMetaAtom, MP4Atoms.h:1920-1953: the data information box with its data
   reference box, the items and the media data, and the number of the entry
   whose file is open (dataEntryIndex, -1: none). *)
Record xmeta := mkX { x_dinf : option (option (dref (durl + durn))); x_meta : meta; x_open : option (N * list N) }.
Definition x_new : xmeta := mkX None meta_new None.

(* ISOAddMetaDataReference, ISOMeta.c:276-348; the number has 16 bits.
   [urn]: the handle with the name, if any *)
Definition add_reference (x : xmeta) (url : list N) (urn : option (list N)) : res (xmeta * N) :=
  do d <- match x_dinf x with
          | Some None => Err MP4InvalidMediaErr
          | Some (Some d) => Ok d
          | None => Ok (mkDref 0 0 [])
          end;
  let r := dref_add d (match urn with None => Url url | Some n => Urn url n end) in
  Ok (mkX (Some (Some (fst r))) (x_meta x) (x_open x), w16 (snd r)).
(* ISOAddMetaItem, ISOMeta.c:389-396 *)
Definition add_item (x : xmeta) (base ref : N) : res xmeta := do m <- new_item (x_meta x) base ref; Ok (mkX (x_dinf x) m (x_open x)).
(* ISOAddItemExtentReference, ISOMeta.c:494-535; [k] is the item *)
Definition add_elsewhere (x : xmeta) (k : nat) (off n : N) : res xmeta :=
  match nth_error (items (x_meta x)) k with
  | None => UB
  | Some a =>
      if i_dref a =? 0 then Err MP4BadParamErr
      else match x_dinf x with
           | None => Err MP4BadParamErr
           | Some _ => Ok (mkX (x_dinf x) (set_item (x_meta x) k (add_extent a (mkExtent 0 off n)) false) (x_open x))
           end
  end.

(* a C string in a block: the bytes before the first zero *)
Fixpoint c_string (b : list N) : option (list N) :=
  match b with [] => None | v :: r => if v =? 0 then Some [] else option_map (cons v) (c_string r) end.
Fixpoint starts (p b : list N) : bool :=
  match p, b with [], _ => true | v :: p', w :: b' => (v =? w) && starts p' b' | _, [] => false end.
(* "file://" and "file|//" *)
Definition schemed (b : list N) : bool := starts [102; 105; 108; 101; 58; 47; 47] b || starts [102; 105; 108; 101; 124; 47; 47] b.
(* createCanonicalPathName, FileMappingDataHandler.c:37-82. A location that
   has no end is read past it. *)
Definition path_name (e : around) (loc : option (list N)) : res (list N) :=
  match loc with
  | None => UB
  | Some b =>
      match c_string b with
      | None => UB
      | Some s =>
          Ok (if schemed s then skipn 7 s
              else match own e with Some (_, Some p) => p ++ s | _ => s end)
      end
  end.
(* MP4CreateFileMappingObject, linux/SimpleFileMappingObject.c:140-148 *)
Definition open_file (e : around) (p : list N) : res (list N) :=
  match disk e (if schemed p then skipn 7 p else p) with Some d => Ok d | None => Err MP4FileNotFoundErr end.
(* MP4CreateDataHandler, MP4DataHandler.c:32-39, for an entry whose mdat is not
   set, and doOpen, FileMappingDataHandler.c:85-119 *)
Definition open_entry (e : around) (flags : N) (loc : option (list N)) : res (list N) :=
  if flags =? 1 then match own e with None => Err MP4BadParamErr | Some (d, _) => Ok d end
  else do p <- path_name e loc; open_file e p.
(* flags and location of an entry; other boxes are not modelled *)
Definition entry_place (a : atom (durl + durn)) : res (N * option (list N)) :=
  match a with ALeaf _ (inl u) => Ok (ul_flags u, ul_loc u) | ALeaf _ (inr u) => Ok (un_flags u, un_loc u) | _ => UB end.
(* openDataHandler, MetaAtom.c:98-134, for an entry that is not 0 *)
Definition open_source (e : around) (x : xmeta) (n : N) : res (list N) :=
  match x_dinf x with
  | None => Err MP4InvalidMediaErr
  | Some None => Err MP4InvalidMediaErr
  | Some (Some d) =>
      if len (dr_kids d) <? n then Err MP4BadParamErr
      else do a <- dref_get d n; do p <- entry_place a; open_entry e (fst p) (snd p)
  end.

(* copyData, FileMappingDataHandler.c:131-160: the block is not checked *)
Definition file_copy (d : list N) (off n : N) : res (list N) :=
  if negb (N.shiftr off 32 =? 0) then Err MP4NotImplementedErr
  else if len d <? off + n then UB
  else Ok (firstn (N.to_nat n) (skipn (N.to_nat off) d)).
(* one extent of ISOGetItemData, ISOMeta.c:1604-1693, construction method 0 *)
Definition file_extent (d : list N) (base got : N) (b : extent) : res (list N) :=
  do n <- (if e_len b =? 0 then
             if negb (N.shiftr (len d) 32 =? 0) then Err MP4NoLargeAtomSupportErr
             else if negb (e_off b =? 0) then Err MP4BadDataErr
             else Ok (len d)
           else if negb (N.shiftr (e_len b) 32 =? 0) then Err MP4NoLargeAtomSupportErr
           else Ok (e_len b));
  if 4294967295 <? got + n then UB else file_copy d (w64 (e_off b + base)) n.
Fixpoint file_extents (d : list N) (base : N) (first : bool) (acc : list N) (l : list extent) : res (list N * N) :=
  match l with
  | [] => Ok (acc, base)
  | b :: l' =>
      do p <- file_extent d base (len acc) b;
      file_extents d (if first then sub64 base (e_off b) else base) false (acc ++ p) l'
  end.
(* ISOGetItemData, ISOMeta.c:1546-1695, for items of construction method 0 in
   other files: the file is opened when another entry was open, or none, and
   stays open (closeDataHandler, MetaAtom.c:59-96). When it cannot be opened no
   entry is. *)
Definition read_item (e : around) (x : xmeta) (k : nat) : res (list N * N) * xmeta :=
  match nth_error (items (x_meta x)) k with
  | None => (UB, x)
  | Some a =>
      if negb (i_method a =? 0) || (i_dref a =? 0) then (UB, x)
      else
        match (match x_open x with
               | Some (n, d) => if n =? i_dref a then Ok d else open_source e x (i_dref a)
               | None => open_source e x (i_dref a)
               end) with
        | Ok d => (file_extents d (i_base a) true [] (i_exts a), mkX (x_dinf x) (x_meta x) (Some (i_dref a, d)))
        | Err r => (Err r, mkX (x_dinf x) (x_meta x) None)
        | UB => (UB, x)
        end
  end.
Fixpoint read_items (e : around) (x : xmeta) (ks : list nat) : list (res (list N * N)) :=
  match ks with [] => [] | k :: r => let (d, x') := read_item e x k in d :: read_items e x' r end.

(* ISOCheckMetaDataReferences, ISOMeta.c:1773-1807: MP4PreflightDataHandler,
   MP4DataHandler.c:49-53, on every entry until one fails *)
Definition check_entry (e : around) (a : atom (durl + durn)) : res unit :=
  do p <- entry_place a;
  if fst p =? 1 then Ok tt
  else do n <- path_name e (snd p); match disk e n with Some _ => Ok tt | None => Err MP4FileNotFoundErr end.
Fixpoint check_entries (e : around) (l : list (atom (durl + durn))) : res unit :=
  match l with [] => Ok tt | a :: r => do _ <- check_entry e a; check_entries e r end.
Definition check_references (e : around) (x : xmeta) : res unit :=
  match x_dinf x with None => Ok tt | Some None => Err MP4InvalidMediaErr | Some (Some d) => check_entries e (dr_kids d) end.

(* the calls, one after the other *)
Inductive xop := XRef (url : list N) (urn : option (list N)) | XItem (base ref : N) | XExt (k : nat) (off n : N).
Definition xstep (x : xmeta) (o : xop) : res xmeta :=
  match o with
  | XRef u n => do r <- add_reference x u n; Ok (fst r)
  | XItem b r => add_item x b r
  | XExt k off n => add_elsewhere x k off n
  end.
(* calls that make references, items and extents, and calls that read items,
   in any order; a call that is refused changes nothing that was made *)
Inductive xcall := Make (o : xop) | Read (k : nat).
Definition xdo (e : around) (x : xmeta) (c : xcall) : res xmeta :=
  match c with
  | Make o => match xstep x o with Ok y => Ok y | Err _ => Ok x | UB => UB end
  | Read k => match read_item e x k with (UB, _) => UB | (_, y) => Ok y end
  end.
Fixpoint xcalls (e : around) (x : xmeta) (cs : list xcall) : res xmeta :=
  match cs with [] => Ok x | c :: r => do y <- xdo e x c; xcalls e y r end.

(* PropertyModel.v -- item properties: ItemPropertyAssociationAtom.c, ItemPropertiesAtom.c, ISOMeta.c. *)
From Verif Require Import Base AtomModel BoxModel TrackModel.

(* MP4ItemPropertyAssociationEntryPropertyIndex and -Entry, MP4Atoms.h *)
Record assoc := mkAssoc { as_ess : N; as_idx : N }.
Record pentry := mkPentry { pe_item : N; pe_list : list assoc }.
Record ipma := mkIpma { pm_ver : N; pm_flags : N; pm_list : list pentry }.
Definition ipma_new : ipma := mkIpma 0 0 [].

(* serialize, ItemPropertyAssociationAtom.c:67-121 *)
Definition wide (flags : N) : bool := negb (N.land flags 1 =? 0).
Definition assoc_write (w : bool) (a : assoc) : wr :=
  if w then put16 (N.lor (as_idx a) (N.shiftl (as_ess a) 15)) else put8 (N.lor (as_idx a) (N.shiftl (as_ess a) 7)).
Definition pentry_write (ver : N) (w : bool) (e : pentry) : wr :=
  (if ver <? 1 then put16 (pe_item e) else put32 (pe_item e)) ;; put8 (len (pe_list e)) ;; wmap (assoc_write w) (pe_list e).
(* calculateSize, ItemPropertyAssociationAtom.c:123-163 *)
Definition pentry_size (ver : N) (w : bool) (e : pentry) : N :=
  (if ver <? 1 then 2 else 4) + 1 + (if w then 2 * len (pe_list e) else len (pe_list e)).
(* createFromInputStream, ItemPropertyAssociationAtom.c:165-238: in the wide
   form "(u8)(property_index & (1 << 15))" is 0 whatever was read *)
Definition assoc_read (w : bool) : rd assoc :=
  if w then let* x := get16 in rret (mkAssoc 0 x)
  else let* x := get8 in rret (if negb (N.land x 128 =? 0) then mkAssoc 1 (N.land x 127) else mkAssoc 0 x).
Definition pentry_read (ver : N) (w : bool) : rd pentry :=
  let* i := (if ver <? 1 then get16 else get32) in
  let* n := get8 in
  let* l := rrep (N.to_nat n) (assoc_read w) in
  rret (mkPentry i l).
Definition ipma_read (h : hdr) : rd ipma :=
  let* vf := get_full in
  let* n := get32 in
  let* l := rrep (N.to_nat n) (pentry_read (fst vf) (wide (snd vf))) in
  rret (mkIpma (fst vf) (snd vf) l).
Definition ipma_codec : codec ipma :=
  mkCodec (N.eqb 1768975713) (fun _ => 1768975713) (* 'ipma' *)
    (fun t => fold_left (fun s e => w32 (s + pentry_size (pm_ver t) (wide (pm_flags t)) e)) (pm_list t) 16)
    (fun t => put8 (pm_ver t) ;; put24 (pm_flags t) ;; put32 (len (pm_list t)) ;;
       wmap (pentry_write (pm_ver t) (wide (pm_flags t))) (pm_list t))
    ipma_read.

(* ItemPropertiesAtom: the properties in the container (box pointers, here
   numbers) and the association box *)
Record iprp := mkIprp { pr_props : list N; pr_ma : option ipma }.
Definition iprp_new : iprp := mkIprp [] None.
(* the loop over the entries keeps the last one that fits *)
Fixpoint last_entry (l : list pentry) (id : N) (k : nat) (found : option nat) : option nat :=
  match l with
  | [] => found
  | e :: r => last_entry r id (S k) (if id =? pe_item e then Some k else found)
  end.
(* addItemProperty, ItemPropertiesAtom.c:64-125; ISOAddMetaItemProperty,
   ISOMeta.c:1994-2028 passes the 16-bit item id and an u8 *)
Definition add_property (p : iprp) (prop id ess : N) : iprp :=
  let ma := match pr_ma p with Some t => t | None => ipma_new end in
  let a := mkAssoc ess (w16 (len (pr_props p) + 1)) in
  let l :=
    match last_entry (pm_list ma) id 0 None with
    | Some k => match nth_error (pm_list ma) k with
                | Some e => put_at (pm_list ma) k (mkPentry (pe_item e) (pe_list e ++ [a]))
                | None => pm_list ma
                end
    | None => pm_list ma ++ [mkPentry id [a]]
    end in
  mkIprp (pr_props p ++ [prop]) (Some (mkIpma (pm_ver ma) (pm_flags ma) l)).
(* getPropertiesOfItem, ItemPropertiesAtom.c:127-173, through
   ISOGetProperitesOfMetaItem, ISOMeta.c:2030-2084; the index is u16, one less
   of 0 is the largest u32 and not in the list *)
Fixpoint lookup_props (props : list N) (l : list assoc) : res (list N) :=
  match l with
  | [] => Ok []
  | a :: r =>
      do x <- (if as_idx a =? 0 then Err MP4BadParamErr
               else match nth_error props (N.to_nat (as_idx a - 1)) with Some x => Ok x | None => Err MP4BadParamErr end);
      do xs <- lookup_props props r; Ok (x :: xs)
  end.
Definition get_properties (p : iprp) (id : N) : res (list N) :=
  match pr_ma p with
  | None => UB
  | Some ma =>
      match last_entry (pm_list ma) id 0 None with
      | Some k => match nth_error (pm_list ma) k with Some e => lookup_props (pr_props p) (pe_list e) | None => UB end
      | None => Ok []
      end
  end.
(* a history of associations: property, item id, essential *)
Definition prop_run (l : list (N * N * N)) : iprp := fold_left (fun p x => add_property p (fst (fst x)) (snd (fst x)) (snd x)) l iprp_new.

(* MboxModel.v -- the meta box (MetaAtom.c) and what ISOMeta.c keeps in it
   besides the items: primary item, item information, protection and entity
   groups. An item is named by its item_ID. *)
From Verif Require Import Base AtomModel BoxModel KidsModel HeaderModel TextModel TrackModel.

(* ------------------------------------------------------------------ *)
(* Entity groups: EntityToGroupBox.c, GroupsListBox.c                  *)

(* EntityToGroupBox, MP4Atoms.h:2198-2230; num_entities_in_group is always
   the number of ids (addEntityId, EntityToGroupBox.c:155-179); [eg_rest] is
   remainingData *)
Record egrp := mkEgrp { eg_type : N; eg_ver : N; eg_flags : N; eg_id : N; eg_ids : list N; eg_rest : list N }.
(* calculateSize, EntityToGroupBox.c:57-75: the remaining data is not counted *)
Definition egrp_size (g : egrp) : N := w32 (12 + 8 + 4 * len (eg_ids g)).
(* serialize, EntityToGroupBox.c:77-106 *)
Definition egrp_write (g : egrp) : wr :=
  put8 (eg_ver g) ;; put24 (eg_flags g) ;; put32 (eg_id g) ;; put32 (len (eg_ids g)) ;; wmap put32 (eg_ids g) ;; putl (eg_rest g).
(* createFromInputStream, EntityToGroupBox.c:108-153 *)
Definition egrp_read (h : hdr) : rd egrp :=
  let* vf := get_full in
  let* id := get32 in
  let* n := get32 in
  let* ids := rrep (N.to_nat n) get32 in
  let* br := getrdn in
  let* d := take (N.to_nat (sub32 (h_size h) br)) in
  rret (mkEgrp (h_type h) (fst vf) (snd vf) id ids d).
Definition egrp_codec : codec egrp := mkCodec (fun _ => true) eg_type egrp_size egrp_write egrp_read.
Definition egrp_none : egrp := mkEgrp 0 0 0 0 [] [].
(* GroupsListBox.c:41-70, 82-117: every box inside is taken for this one (the
   default of the list of prototypes is of the same kind); types AtomModel.v
   treats as containers, free space or uuid are read that way here instead *)
Definition T_grpl := fourcc 103 114 112 108.
Definition grpl_codec : codec (list egrp) := boxed egrp_codec egrp_none T_grpl (map (ALeaf egrp)) leaves.

(* ------------------------------------------------------------------ *)
(* Item information: ItemInfoEntryAtom.c, ItemInfoAtom.c               *)

Definition T_infe := fourcc 105 110 102 101.
Definition T_iinf := fourcc 105 105 110 102.
Definition T_mime := fourcc 109 105 109 101.
Definition T_urit := fourcc 117 114 105 32.   (* 'uri ' *)
(* ISOItemInfoEntryAtom. The strings are the heap buffers, None for NULL. *)
Record infe := mkInfe { in_ver : N; in_flags : N; in_id : N; in_prot : N; in_type : N;
  in_name : option (list N); in_ct : option (list N); in_ce : option (list N); in_uri : option (list N);
  in_exttype : N; in_ext : option (list N) }.
(* strlen, 0 for NULL *)
Definition olen (b : option (list N)) : N := match b with Some s => slen s | None => 0 end.
(* PUTBYTES of the string and its zero, or one zero *)
Definition put_ostr (b : option (list N)) : wr := match b with Some s => put_str s | None => put8 0 end.
(* calculateSize, ItemInfoEntryAtom.c:161-217 *)
Definition infe_size (a : infe) : N :=
  w32 (12 +
    (if in_ver a <? 2 then 7 + olen (in_name a) + olen (in_ct a) + olen (in_ce a) else 0) +
    (if in_ver a =? 1 then
       (if in_exttype a =? 0 then 0 else 4) + match in_ext a with Some d => len d | None => 0 end
     else 0) +
    (if 2 <=? in_ver a then
       (if in_ver a =? 2 then 2 else if in_ver a =? 3 then 4 else 0) + 7 + olen (in_name a) +
       (if in_type a =? T_mime then 2 + olen (in_ct a) + olen (in_ce a)
        else if in_type a =? T_urit then 1 + olen (in_uri a) else 0)
     else 0)).
(* serialize, ItemInfoEntryAtom.c:68-159 *)
Definition infe_write (a : infe) : wr :=
  put8 (in_ver a) ;; put24 (in_flags a) ;;
  (if in_ver a =? 3 then put32 (in_id a) else put16 (in_id a)) ;;
  put16 (in_prot a) ;;
  (if 2 <=? in_ver a then put32 (in_type a) else wret) ;;
  put_ostr (in_name a) ;;
  (if (in_ver a <? 2) || (in_type a =? T_mime) then put_ostr (in_ct a) ;; put_ostr (in_ce a)
   else if in_type a =? T_urit then put_ostr (in_uri a) else wret) ;;
  (if in_ver a =? 1 then
     (if in_exttype a =? 0 then wret else put32 (in_exttype a)) ;;
     match in_ext a with Some d => putl d | None => wret end
   else wret).
(* one string of createFromInputStream, ItemInfoEntryAtom.c:261-323: what is
   left of the buffer, empty when bytesToRead is 0. Without a zero in it
   strlen runs into bytes that were never written. *)
Definition next_str (b : list N) : res (option (list N) * list N) :=
  match b with
  | [] => Ok (None, [])
  | _ => match after_zero b with Some r => Ok (Some (chars b ++ [0]), r) | None => UB end
  end.
(* memcpy into a u32, ItemInfoEntryAtom.c:330; little-endian machine *)
Definition le32v (a b c d : N) : N := a + 256 * b + 65536 * c + 16777216 * d.
(* ItemInfoEntryAtom.c:325-340: with 2 or 3 bytes left a negative length goes
   to MP4NewHandle and memcpy *)
Definition ext_part (ver : N) (b : list N) : res (N * option (list N)) :=
  if ver =? 1 then
    match b with
    | x1 :: x2 :: x3 :: x4 :: r => Ok (le32v x1 x2 x3 x4, Some r)
    | [] => Ok (0, None)
    | [_] => Err MP4BadDataErr
    | _ => UB
    end
  else match b with [] => Ok (0, None) | _ => Err MP4BadDataErr end.
Definition rlift {A} (r : res A) : rd A := fun s => do a <- r; Ok (a, s).
(* createFromInputStream, ItemInfoEntryAtom.c:219-351. bytesToRead is computed
   in u32, so it is never negative. The bytes go into a buffer of 4096 on the
   stack (255). *)
Definition infe_read (h : hdr) : rd infe :=
  let* vf := get_full in
  let ver := fst vf in
  let* id := if ver =? 3 then get32 else get16 in
  let* prot := get16 in
  let* ty := if 2 <=? ver then get32 else rret 0 in
  let* br := getrdn in
  let n := sub32 (h_size h) br in
  let* b := take (N.to_nat n) in
  if 4096 <? n then rub
  else
    let* (name, b1) := rlift (next_str b) in
    if (ver <? 2) || (ty =? T_mime) then
      let* (ct, b2) := rlift (next_str b1) in
      let* (ce, b3) := rlift (next_str b2) in
      let* (et, ex) := rlift (ext_part ver b3) in
      rret (mkInfe ver (snd vf) id prot ty name ct ce None et ex)
    else if ty =? T_urit then
      let* (u, b2) := rlift (next_str b1) in
      let* (et, ex) := rlift (ext_part ver b2) in
      rret (mkInfe ver (snd vf) id prot ty name None None u et ex)
    else
      let* (et, ex) := rlift (ext_part ver b1) in
      rret (mkInfe ver (snd vf) id prot ty name None None None et ex).
Definition infe_codec : codec infe := mkCodec (N.eqb T_infe) (fun _ => T_infe) infe_size infe_write infe_read.
Definition infe_none : infe := mkInfe 0 0 0 0 0 None None None None 0 None.

Section Mbox.
(* [x]: all other boxes with their own parser *)
Context {X : Type} (x : codec X) (dx : X).

Definition iinf_kid : codec (infe + X) := csum infe_codec x.
(* ISOItemInfoAtom *)
Record iinf := mkIinf { ii_ver : N; ii_flags : N; ii_kids : list (atom (infe + X)) }.
(* calculateSize, ItemInfoAtom.c:104-125 *)
Definition iinf_size (a : iinf) : N :=
  boxes_size iinf_kid (12 + (if ii_ver a =? 0 then 2 else 4)) (ii_kids a).
(* serialize, ItemInfoAtom.c:74-102 *)
Definition iinf_write (a : iinf) : wr :=
  put8 (ii_ver a) ;; put24 (ii_flags a) ;;
  (if ii_ver a =? 0 then put16 (len (ii_kids a)) else put32 (len (ii_kids a))) ;;
  boxes_w iinf_kid (ii_kids a).
(* createFromInputStream, ItemInfoAtom.c:127-177 *)
Definition iinf_read (h : hdr) : rd iinf :=
  let* vf := get_full in
  let* n := if fst vf =? 0 then get16 else get32 in
  let* l := boxes_rd iinf_kid (inl infe_none) h in
  if len l =? n then rret (mkIinf (fst vf) (snd vf) l) else rerr MP4BadDataErr.
Definition iinf_codec : codec iinf := mkCodec (N.eqb T_iinf) (fun _ => T_iinf) iinf_size iinf_write iinf_read.

(* ------------------------------------------------------------------ *)
(* Protection: SecurityInfoAtom.c, SchemeInfoAtom.c, ItemProtectionAtom.c *)

Definition T_sinf := fourcc 115 105 110 102.
Definition T_ipro := fourcc 105 112 114 111.
(* the boxes inside a sinf; a schi is a container of AtomModel.v *)
Definition sub : Type := frma + (schm + X).
Definition sub_codec : codec sub := csum frma_codec (csum schm_codec x).
(* MP4SecurityInfoAtom *)
Record sinf := mkSinf { sf_frma : option frma; sf_schm : option schm; sf_schi : option (list (atom sub)) }.
Definition opt_list {A} (o : option A) : list A := match o with Some a => [a] | None => [] end.
(* the order of SecurityInfoAtom.c:66-68, 86-88 *)
Definition sinf_pack (s : sinf) : list (atom sub) :=
  opt_list (option_map (fun f => ALeaf sub (inl f)) (sf_frma s)) ++
  opt_list (option_map (fun m => ALeaf sub (inr (inl m))) (sf_schm s)) ++
  opt_list (option_map (fun l => ABoxes sub T_schi l) (sf_schi s)).
(* addAtom, SecurityInfoAtom.c:95-119 *)
Definition sinf_add (s : sinf) (a : atom sub) : res sinf :=
  match a with
  | ALeaf _ (inl f) => match sf_frma s with Some _ => Err MP4BadDataErr | None => Ok (mkSinf (Some f) (sf_schm s) (sf_schi s)) end
  | ALeaf _ (inr (inl m)) => match sf_schm s with Some _ => Err MP4BadDataErr | None => Ok (mkSinf (sf_frma s) (Some m) (sf_schi s)) end
  | ABoxes _ ty l =>
      if ty =? T_schi then match sf_schi s with Some _ => Err MP4BadDataErr | None => Ok (mkSinf (sf_frma s) (sf_schm s) (Some l)) end
      else Err MP4InvalidMediaErr
  | _ => Err MP4InvalidMediaErr
  end.
Fixpoint sinf_unpack (s : sinf) (l : list (atom sub)) : res sinf :=
  match l with [] => Ok s | a :: r => do s' <- sinf_add s a; sinf_unpack s' r end.
(* createFromInputStream, SecurityInfoAtom.c:121-158. Simplified: a child
   that cannot be added is refused after all children are read, not before
   the next one. *)
Definition sinf_read (h : hdr) : rd sinf :=
  let* l := boxes_rd sub_codec (inl (mkFrma 0)) h in rlift (sinf_unpack (mkSinf None None None) l).
(* serialize, calculateSize, SecurityInfoAtom.c:53-93 *)
Definition sinf_codec : codec sinf :=
  mkCodec (N.eqb T_sinf) (fun _ => T_sinf) (fun s => boxes_size sub_codec 8 (sinf_pack s))
    (fun s => boxes_w sub_codec (sinf_pack s)) sinf_read.

Definition ipro_kid : codec (sinf + X) := csum sinf_codec x.
(* ISOItemProtectionAtom *)
Record ipro := mkIpro { ip_ver : N; ip_flags : N; ip_kids : list (atom (sinf + X)) }.
(* calculateSize 81-96, serialize 58-79, createFromInputStream 98-125 of
   ItemProtectionAtom.c *)
Definition ipro_size (a : ipro) : N := boxes_size ipro_kid 14 (ip_kids a).
Definition ipro_write (a : ipro) : wr :=
  put8 (ip_ver a) ;; put24 (ip_flags a) ;; put16 (len (ip_kids a)) ;; boxes_w ipro_kid (ip_kids a).
Definition ipro_read (h : hdr) : rd ipro :=
  let* vf := get_full in
  let* n := get16 in
  let* l := boxes_rd ipro_kid (inl (mkSinf None None None)) h in
  if len l =? n then rret (mkIpro (fst vf) (snd vf) l) else rerr MP4BadDataErr.
Definition ipro_codec : codec ipro := mkCodec (N.eqb T_ipro) (fun _ => T_ipro) ipro_size ipro_write ipro_read.

(* ------------------------------------------------------------------ *)
(* The meta box: MetaAtom.c                                            *)

Inductive kid := KPitm (a : pitm) | KIinf (a : iinf) | KIpro (a : ipro) | KGrpl (a : list egrp) | KOther (a : X).
Definition kid_codec : codec kid :=
  mkCodec (fun ty => c_known pitm_codec ty || c_known iinf_codec ty || c_known ipro_codec ty || c_known grpl_codec ty || c_known x ty)
    (fun k => match k with KPitm a => c_ty pitm_codec a | KIinf a => c_ty iinf_codec a | KIpro a => c_ty ipro_codec a
                      | KGrpl a => c_ty grpl_codec a | KOther a => c_ty x a end)
    (fun k => match k with KPitm a => c_size pitm_codec a | KIinf a => c_size iinf_codec a | KIpro a => c_size ipro_codec a
                      | KGrpl a => c_size grpl_codec a | KOther a => c_size x a end)
    (fun k => match k with KPitm a => c_w pitm_codec a | KIinf a => c_w iinf_codec a | KIpro a => c_w ipro_codec a
                      | KGrpl a => c_w grpl_codec a | KOther a => c_w x a end)
    (fun h => if c_known pitm_codec (h_type h) then rmap KPitm (c_rd pitm_codec h)
              else if c_known iinf_codec (h_type h) then rmap KIinf (c_rd iinf_codec h)
              else if c_known ipro_codec (h_type h) then rmap KIpro (c_rd ipro_codec h)
              else if c_known grpl_codec (h_type h) then rmap KGrpl (c_rd grpl_codec h)
              else rmap KOther (c_rd x h)).
Notation item := (atom kid).
Notation kty := (atype kid (c_ty kid_codec)).
(* ISOMetaAtom: version, flags and atomList. The members are the children of
   their types. *)
Record mbox := mkMbox { mb_ver : N; mb_flags : N; mb_kids : list item }.

(* the cases of addAtom, MetaAtom.c:147-248: hdlr, dinf, iloc, pitm, iinf,
   iref, idat, ipro, iprp, grpl *)
Definition T_pitm := fourcc 112 105 116 109.
Definition once_types : list N :=
  [T_hdlr; T_dinf; fourcc 105 108 111 99; T_pitm; T_iinf; fourcc 105 114 101 102; fourcc 105 100 97 116; T_ipro; T_iprp; T_grpl].
(* addAtom, MetaAtom.c:147-248; telling an iloc about its meta box is not
   modelled here *)
Definition taken (kids : list item) (ty : N) : bool :=
  existsb (N.eqb ty) once_types && existsb (fun k => kty k =? ty) kids.
Definition mbox_add (kids : list item) (a : item) : res (list item) :=
  if taken kids (kty a) then Err MP4BadParamErr else Ok (kids ++ [a]).
(* MP4ParseAtom, on the rest of the stream *)
Definition parse_kid (i : list N) : res ((item * N) * list N) :=
  snd (parse_top kid (c_leaf kid_codec) (c_ty kid_codec) (fun _ => KOther dx) i).
(* the loop of createFromInputStream, MetaAtom.c:299-335. [i0] is the stream
   when the contents begin, so that the stream can be put back four bytes;
   [vf] version and flags; [br] bytesRead. *)
Fixpoint mbox_loop (fuel : nat) (size : N) (i0 : list N) (vf : N * N) (br : N) (kids : list item) (i : list N)
  : res ((N * N) * list item * list N) :=
  if br <? size then
    match fuel with
    | O => Err OutOfFuel
    | S f =>
        do y <- match parse_kid i with
                | Ok t => Ok (t, br, vf)
                | Err e =>
                    if (e =? MP4BadDataErr)%Z && (br =? 12)
                    then do t <- parse_kid (skipn (length i0 - length i - 4) i0); Ok (t, 8, (0, 0))
                    else Err e
                | UB => UB
                end;
        let '(t, br1, vf1) := y in
        let a := fst (fst t) in
        let br2 := w32 (br1 + snd (fst t)) in
        if is_free (kty a) then mbox_loop f size i0 vf1 br2 kids (snd t)
        else do kids' <- mbox_add kids a; mbox_loop f size i0 vf1 br2 kids' (snd t)
    end
  else if br =? size then Ok (vf, kids, i) else Err MP4BadDataErr.
(* createFromInputStream, MetaAtom.c:287-341 *)
Definition mbox_read (h : hdr) : rd mbox := fun s =>
  do (vf, s1) <- get_full s;
  do y <- mbox_loop (length (inp s) + 1) (h_size h) (inp s) vf (rdn s1) [] (inp s1);
  let '(vf', kids, i) := y in
  Ok (mkMbox (fst vf') (snd vf') kids, mkR i (h_size h)).
(* calculateSize 132-145, serialize 42-57 *)
Definition mbox_codec : codec mbox :=
  mkCodec (N.eqb T_meta) (fun _ => T_meta) (fun m => boxes_size kid_codec 12 (mb_kids m))
    (fun m => put8 (mb_ver m) ;; put24 (mb_flags m) ;; boxes_w kid_codec (mb_kids m)) mbox_read.

(* the members: the first child of the type, and what writing through the
   pointer does *)
Definition as_pitm (k : item) : option pitm := match k with ALeaf _ (KPitm a) => Some a | _ => None end.
Definition as_iinf (k : item) : option iinf := match k with ALeaf _ (KIinf a) => Some a | _ => None end.
Definition as_ipro (k : item) : option ipro := match k with ALeaf _ (KIpro a) => Some a | _ => None end.
Definition as_grpl (k : item) : option (list egrp) := match k with ALeaf _ (KGrpl a) => Some a | _ => None end.
Fixpoint member {A} (sel : item -> option A) (l : list item) : option A :=
  match l with [] => None | k :: r => match sel k with Some a => Some a | None => member sel r end end.
Fixpoint set_member {A} (sel : item -> option A) (l : list item) (k' : item) : list item :=
  match l with
  | [] => []
  | k :: r => match sel k with Some _ => k' :: r | None => k :: set_member sel r k' end
  end.
(* the member is put in its place, or added when there is none *)
Definition place {A} (sel : item -> option A) (m : mbox) (k' : item) : mbox :=
  mkMbox (mb_ver m) (mb_flags m)
    (match member sel (mb_kids m) with Some _ => set_member sel (mb_kids m) k' | None => mb_kids m ++ [k'] end).

(* ------------------------------------------------------------------ *)
(* The primary item                                                    *)

(* ISOSetPrimaryItem, ISOMeta.c:928-953 *)
Definition set_primary (m : mbox) (id : N) : mbox :=
  place as_pitm m (ALeaf _ (KPitm (match member as_pitm (mb_kids m) with
                                   | Some p => mkPitm (pi_ver p) (pi_flags p) id | None => mkPitm 0 0 id end))).
(* ISOGetPrimaryItemID, ISOMeta.c:955-975 *)
Definition get_primary (m : mbox) : res N :=
  match member as_pitm (mb_kids m) with Some p => Ok (w16 (pi_item p)) | None => Err MP4NotFoundErr end.

(* ------------------------------------------------------------------ *)
(* Item information                                                    *)

Definition put_iinf (m : mbox) (i : iinf) : mbox := place as_iinf m (ALeaf _ (KIinf i)).
(* ISOSetItemInfo, ISOMeta.c:996-1070; the arguments are the characters of
   the strings, None for NULL. The buffers of content type and encoding have
   no room for the zero (1042, 1054). *)
Definition set_info (m : mbox) (id prot : N) (name ct ce : option (list N)) : mbox :=
  let i := match member as_iinf (mb_kids m) with Some i => i | None => mkIinf 0 0 [] end in
  let bare (s : option (list N)) := Some (match s with Some b => b | None => [0] end) in
  let e := mkInfe 0 0 id (w16 prot) 0 (Some (match name with Some b => b ++ [0] | None => [0] end)) (bare ct) (bare ce) None 0 None in
  put_iinf m (mkIinf (ii_ver i) (ii_flags i) (ii_kids i ++ [ALeaf _ (inl e)])).
(* getEntry, ItemInfoAtom.c:52-72: the last entry of the item *)
Definition is_entry (id : N) (k : atom (infe + X)) : bool := match k with ALeaf _ (inl e) => in_id e =? id | _ => false end.
Fixpoint get_entry (l : list (atom (infe + X))) (id : N) : option infe :=
  match l with
  | [] => None
  | k :: r => match get_entry r id with
              | Some e => Some e
              | None => match k with ALeaf _ (inl e) => if in_id e =? id then Some e else None | _ => None end
              end
  end.
(* writing through the pointer it returns *)
Fixpoint put_entry (l : list (atom (infe + X))) (id : N) (e' : infe) : list (atom (infe + X)) :=
  match l with
  | [] => []
  | k :: r => if existsb (is_entry id) r then k :: put_entry r id e'
              else if is_entry id k then ALeaf _ (inl e') :: r else k :: r
  end.
Definition with_entry {A} (m : mbox) (id : N) (err : Z) (f : iinf -> infe -> res A) : res A :=
  match member as_iinf (mb_kids m) with
  | None => Err err
  | Some i => match get_entry (ii_kids i) id with None => Err err | Some e => f i e end
  end.
Definition change_entry (m : mbox) (id : N) (err : Z) (f : infe -> infe) : res mbox :=
  with_entry m id err (fun i e => Ok (put_iinf m (mkIinf (ii_ver i) (ii_flags i) (put_entry (ii_kids i) id (f e))))).
(* ISOSetItemInfoExtension, ISOMeta.c:1072-1105 *)
Definition set_ext (m : mbox) (id : N) (d : list N) (ty : N) : res mbox :=
  change_entry m id MP4BadParamErr (fun e =>
    mkInfe 1 (in_flags e) (in_id e) (in_prot e) (in_type e) (in_name e) (in_ct e) (in_ce e) (in_uri e) ty (Some d)).
(* ISOGetItemInfoExtension, ISOMeta.c:1107-1137: the type, and what is put at
   the end of the handle *)
Definition get_ext_info (m : mbox) (id : N) : res (N * list N) :=
  with_entry m id MP4BadParamErr (fun _ e =>
    if negb (in_ver e =? 1) then Err MP4InvalidMediaErr
    else match in_ext e with Some d => Ok (in_exttype e, d) | None => Err MP4BadParamErr end).
(* ISOSetItemInfoItemType, ISOMeta.c:1139-1177 *)
Definition set_type (m : mbox) (id ty : N) (uri : option (list N)) : res mbox :=
  change_entry m id MP4BadParamErr (fun e =>
    mkInfe 2 (in_flags e) (in_id e) (in_prot e) ty (in_name e) (in_ct e) (in_ce e)
      (Some (match uri with Some b => b ++ [0] | None => [0] end)) (in_exttype e) (in_ext e)).
(* ISOGetItemInfoItemType, ISOMeta.c:1240-1277; the second result is None
   when the pointer is left alone *)
Definition get_type (m : mbox) (id : N) : res (N * option (list N)) :=
  with_entry m id MP4BadParamErr (fun _ e =>
    if negb (in_ver e =? 2) then Err MP4InvalidMediaErr
    else match in_uri e with
         | None => Ok (in_type e, None)
         | Some b => if terminated b then Ok (in_type e, Some (chars b)) else UB
         end).
(* ISOHideItem, ISOMeta.c:1179-1209: the primary item box is used without
   asking whether there is one *)
Definition hide (m : mbox) (id : N) : res mbox :=
  match member as_iinf (mb_kids m) with
  | None => Err MP4InvalidMediaErr
  | Some _ =>
      match member as_pitm (mb_kids m) with
      | None => UB
      | Some p =>
          if pi_item p =? id then Err MP4InvalidMediaErr
          else change_entry m id MP4InvalidMediaErr (fun e =>
            mkInfe (in_ver e) (N.lor (in_flags e) 1) (in_id e) (in_prot e) (in_type e) (in_name e) (in_ct e) (in_ce e) (in_uri e)
              (in_exttype e) (in_ext e))
      end
  end.
(* ISOIsItemHidden, ISOMeta.c:1211-1238: true for MP4NoErr, false for
   MP4NotFoundErr *)
Definition is_hidden (m : mbox) (id : N) : res bool :=
  with_entry m id MP4InvalidMediaErr (fun _ e => Ok (negb (N.land (in_flags e) 1 =? 0))).
(* memcpy(out, s, strlen(s) + 1): the characters of the caller's string *)
Definition copy_out (b : list N) : res (list N) := if terminated b then Ok (chars b) else UB.
(* ISOGetItemInfo, ISOMeta.c:1697-1769: the first child whose item_ID is that
   of the item; other boxes have no such field. [wn], [wt], [we]: whether the
   caller gave buffers for name, content type and encoding. The results are
   protection index, name, content type and encoding, None for a buffer left
   alone. The missing content type ends the name instead (1753). *)
Record info_out := mkOut { o_prot : N; o_name : option (list N); o_ct : option (list N); o_ce : option (list N) }.
Definition wanted (w : bool) (b : option (list N)) : res (option (list N)) :=
  if w then match b with Some s => do c <- copy_out s; Ok (Some c) | None => Ok (Some []) end else Ok None.
Fixpoint find_info (l : list (atom (infe + X))) (id : N) : res (option infe) :=
  match l with
  | [] => Ok None
  | ALeaf _ (inl e) :: r => if in_id e =? id then Ok (Some e) else find_info r id
  | _ :: _ => UB
  end.
Definition get_info (m : mbox) (id : N) (wn wt we : bool) : res info_out :=
  match member as_iinf (mb_kids m) with
  | None => Err MP4NotFoundErr
  | Some i =>
      do o <- find_info (ii_kids i) id;
      match o with
      | None => Err MP4NotFoundErr
      | Some e =>
          do name <- wanted wn (in_name e);
          do ce <- wanted we (in_ce e);
          match in_ct e with
          | Some s => do ct <- wanted wt (Some s); Ok (mkOut (w16 (in_prot e)) name ct ce)
          | None => if wt then (if wn then Ok (mkOut (w16 (in_prot e)) (Some []) None ce) else UB)
                    else Ok (mkOut (w16 (in_prot e)) name None ce)
          end
      end
  end.

(* ------------------------------------------------------------------ *)
(* Protection                                                          *)

Definition put_ipro (m : mbox) (i : ipro) : mbox := place as_ipro m (ALeaf _ (KIpro i)).
(* ISONewMetaProtection, ISOMeta.c:1809-1877 *)
Definition new_prot (m : mbox) (ty ver : N) (url : option (list N)) : N * mbox :=
  let i := match member as_ipro (mb_kids m) with Some i => i | None => mkIpro 0 0 [] end in
  let s := mkSinf None (Some (mkSchm 0 0 ty ver (option_map (fun b => b ++ [0]) url))) (Some []) in
  (w16 (len (ip_kids i) + 1), put_ipro m (mkIpro (ip_ver i) (ip_flags i) (ip_kids i ++ [ALeaf _ (inl s)]))).
(* MP4GetListEntry with protection_index - 1, an int made unsigned; a child
   that is not a sinf is taken for one *)
Definition nth_prot (m : mbox) (k : N) : res (ipro * sinf) :=
  match member as_ipro (mb_kids m) with
  | None => Err MP4BadParamErr
  | Some i =>
      if (k =? 0) || (len (ip_kids i) <=? k - 1) then Err MP4BadParamErr
      else match nth_error (ip_kids i) (N.to_nat (k - 1)) with Some (ALeaf _ (inl s)) => Ok (i, s) | _ => UB end
  end.
(* ISOAddMetaProtectionInfo, ISOMeta.c:1879-1905 *)
Definition add_prot (m : mbox) (k : N) (a : atom sub) : res mbox :=
  do (i, s) <- nth_prot m k;
  match sf_schi s with
  | None => Err MP4BadParamErr
  | Some l => Ok (put_ipro m (mkIpro (ip_ver i) (ip_flags i)
                (put_at (ip_kids i) (N.to_nat (k - 1)) (ALeaf _ (inl (mkSinf (sf_frma s) (sf_schm s) (Some (l ++ [a]))))))))
  end.
(* ISOGetMetaProtection, ISOMeta.c:1907-1940: the scheme type box is used
   without asking whether there is one *)
Definition get_prot (m : mbox) (k : N) : res (N * N * option (list N)) :=
  do (i, s) <- nth_prot m k;
  match sf_schm s with
  | None => UB
  | Some c => match sm_url c with
              | None => Ok (sm_type c, sm_version c, None)
              | Some b => if terminated b then Ok (sm_type c, sm_version c, Some (chars b)) else UB
              end
  end.
(* ISOGetMetaProtectionInfo, ISOMeta.c:1942-1992 *)
Definition get_prot_info (m : mbox) (k ty : N) : res (atom sub) :=
  do (i, s) <- nth_prot m k;
  match sf_schi s with
  | None => Err MP4BadParamErr
  | Some l => match find (fun a => atype sub (c_ty sub_codec) a =? ty) l with Some a => Ok a | None => Err MP4NotFoundErr end
  end.

(* ------------------------------------------------------------------ *)
(* Entity groups                                                       *)

Definition put_grpl (m : mbox) (l : list egrp) : mbox := place as_grpl m (ALeaf _ (KGrpl l)).
(* ISONewEntityGroup, ISOMeta.c:2086-2126 *)
Definition new_group (m : mbox) (ty id : N) : res mbox :=
  let l := match member as_grpl (mb_kids m) with Some l => l | None => [] end in
  if existsb (fun g => eg_id g =? id) l then Err MP4BadParamErr
  else Ok (put_grpl m (l ++ [mkEgrp ty 0 0 id [] []])).
(* ISOAddEntityIDToGroup, ISOMeta.c:2128-2160: the first group of that id *)
Fixpoint add_to_group (l : list egrp) (id e : N) : option (list egrp) :=
  match l with
  | [] => None
  | g :: r => if eg_id g =? id then Some (mkEgrp (eg_type g) (eg_ver g) (eg_flags g) (eg_id g) (eg_ids g ++ [e]) (eg_rest g) :: r)
              else option_map (cons g) (add_to_group r id e)
  end.
Definition add_entity (m : mbox) (id e : N) : res mbox :=
  match member as_grpl (mb_kids m) with
  | None => Err MP4NotFoundErr
  | Some l => match add_to_group l id e with Some l' => Ok (put_grpl m l') | None => Err MP4NotFoundErr end
  end.
(* ISOGetEntityIDCnt, ISOMeta.c:2162-2193 *)
Definition entity_count (m : mbox) (id : N) : res N :=
  match member as_grpl (mb_kids m) with
  | None => Err MP4NotFoundErr
  | Some l => match find (fun g => eg_id g =? id) l with Some g => Ok (w32 (len (eg_ids g))) | None => Err MP4NotFoundErr end
  end.
(* ISOGetEntityGroupEntries, ISOMeta.c:2195-2252: type, id and members of
   every group *)
Definition all_groups (m : mbox) : res (list (N * N * list N)) :=
  match member as_grpl (mb_kids m) with
  | None => Err MP4NotFoundErr
  | Some l => Ok (map (fun g => (eg_type g, eg_id g, eg_ids g)) l)
  end.
End Mbox.

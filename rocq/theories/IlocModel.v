(* IlocModel.v -- boxes of metadata items: item location, item data, item references. *)
From Verif Require Import Base AtomModel BoxModel.

(* MetaExtentLocation and MetaItemLocation, MP4Atoms.h:2004-2019; the
   pointer to the meta box is left out *)
Record extent := mkExtent { e_index : N; e_off : N; e_len : N }.
Record item := mkItem { i_id : N; i_method : N; i_dref : N; i_base : N; i_exts : list extent }.
(* ISOItemLocationAtom; the field widths are computed by calculateSize
   before they are used *)
Record iloc := mkIloc { il_ver : N; il_flags : N; il_items : list item }.
Definition iloc_new : iloc := mkIloc 0 0 [].

(* the widths: offset_size, length_size, base_offset_size, index_size *)
Record widths := mkWidths { w_off : N; w_len : N; w_base : N; w_idx : N }.
(* "if((v >> 32) > 0) w = 8; else if((w < 4) && (v > 0)) w = 4;" *)
Definition need (w v : N) : N :=
  if negb (N.shiftr v 32 =? 0) then 8 else if (w <? 4) && (0 <? v) then 4 else w.
Definition at_least4 (w : N) : N := if w <? 4 then 4 else w.
Definition wd_extent (w : widths) (b : extent) : widths :=
  mkWidths (need (w_off w) (e_off b)) (need (w_len w) (e_len b)) (w_base w) (need (w_idx w) (e_index b)).
Definition wd_item (w : widths) (a : item) : widths :=
  let b := need (w_base w) (i_base a) in
  let w1 := if i_dref a =? 0
            then mkWidths (at_least4 (w_off w)) (w_len w) (at_least4 b) (w_idx w)
            else mkWidths (w_off w) (w_len w) b (w_idx w) in
  fold_left wd_extent (i_exts a) w1.
(* calculateSize, ItemLocationAtom.c:201-280; extentList is never NULL *)
Definition iloc_widths (t : iloc) : widths := fold_left wd_item (il_items t) (mkWidths 0 0 0 0).
Definition extent_total (t : iloc) : N := len (flat_map i_exts (il_items t)).
Definition iloc_size_with (w : widths) (t : iloc) : N :=
  w32 (12 + 4 + len (il_items t) * (w_base w + 6) + extent_total t * (w_off w + w_len w) +
       (if il_ver t =? 1 then len (il_items t) * 2 + extent_total t * w_idx w else 0)).

(* serialize, ItemLocationAtom.c:76-199, with the widths found before. The
   bytes have 8 bits: (offset_size << 4) | length_size. *)
Definition put_w (w v : N) : wr := if w =? 8 then put64 v else if w =? 4 then put32 (w32 v) else wret.
Definition extent_write (v1 : bool) (w : widths) (b : extent) : wr :=
  (if v1 then put_w (w_idx w) (e_index b) else wret) ;; put_w (w_off w) (e_off b) ;; put_w (w_len w) (e_len b).
Definition item_write (v1 : bool) (w : widths) (a : item) : wr :=
  put16 (i_id a) ;; (if v1 then put8 0 ;; put8 (i_method a) else wret) ;; put16 (i_dref a) ;;
  put_w (w_base w) (i_base a) ;; put16 (len (i_exts a)) ;; wmap (extent_write v1 w) (i_exts a).
Definition iloc_write_with (w : widths) (t : iloc) : wr :=
  put8 (il_ver t) ;; put24 (il_flags t) ;;
  put8 (N.lor (N.shiftl (w_off w) 4) (w_len w)) ;; put8 (N.lor (N.shiftl (w_base w) 4) (w_idx w)) ;;
  put16 (len (il_items t)) ;; wmap (item_write (il_ver t =? 1) w) (il_items t).

(* createFromInputStream, ItemLocationAtom.c:354-482 *)
Definition get_w (w : N) : rd N :=
  if w =? 8 then get64 else if w =? 4 then get32 else if w =? 0 then rret 0 else rerr MP4BadDataErr.
Definition extent_read (v1 : bool) (w : widths) : rd extent :=
  let* i := (if v1 then get_w (w_idx w) else rret 0) in
  let* o := get_w (w_off w) in
  let* l := get_w (w_len w) in
  rret (mkExtent i o l).
Definition item_read (v1 : bool) (w : widths) : rd item :=
  let* id := get16 in
  let* m := (if v1 then (let* x := get16 in rret (w8 x)) else rret 0) in
  let* d := get16 in
  let* b := get_w (w_base w) in
  let* n := get16 in
  let* es := rrep (N.to_nat n) (extent_read v1 w) in
  rret (mkItem id m d b es).
Definition iloc_read (h : hdr) : rd iloc :=
  let* vf := get_full in
  let* x := get8 in
  let* y := get8 in
  let w := mkWidths (N.shiftr x 4) (N.land x 15) (N.shiftr y 4) (N.land y 15) in
  let* n := get16 in
  let* l := rrep (N.to_nat n) (item_read (fst vf =? 1) w) in
  rret (mkIloc (fst vf) (snd vf) l).
Definition iloc_codec : codec iloc :=
  mkCodec (N.eqb 1768714083) (fun _ => 1768714083) (* 'iloc' *)
    (fun t => iloc_size_with (iloc_widths t) t) (fun t => iloc_write_with (iloc_widths t) t) iloc_read.
(* When a movie is saved the sizes are computed, then the offsets are moved,
   then the boxes are written (MP4MovieFile.c:100-165): the widths are those of
   the box before the move. *)
Definition iloc_codec_with (w : widths) : codec iloc :=
  mkCodec (N.eqb 1768714083) (fun _ => 1768714083) (iloc_size_with w) (iloc_write_with w) iloc_read.

(* mdatMoved, ItemLocationAtom.c:282-328; called through MetaAtom.c:349-361.
   u64 plus s32. *)
Definition add_s32 (v : N) (off : Z) : N := u64_of (Z.of_N v + off).
Definition inside (base fin v : N) : bool := (base <=? v) && (v <? fin).
Definition item_moved (base fin : N) (off : Z) (a : item) : item :=
  if (i_method a =? 0) && (i_dref a =? 0) then
    mkItem (i_id a) (i_method a) (i_dref a)
      (if inside base fin (i_base a) then add_s32 (i_base a) off else i_base a)
      (map (fun b => mkExtent (e_index b) (if inside base fin (e_off b) then add_s32 (e_off b) off else e_off b) (e_len b)) (i_exts a))
  else a.
Definition iloc_moved (base fin : N) (off : Z) (t : iloc) : iloc :=
  mkIloc (il_ver t) (il_flags t) (map (item_moved base fin off) (il_items t)).

(* the item data box: serialize, calculateSize, createFromInputStream,
   ItemDataAtom.c:48-115 *)
Definition idat_read (h : hdr) : rd (list N) :=
  let* n := getrdn in take (N.to_nat (sub32 (h_size h) n)).
Definition idat_codec : codec (list N) :=
  mkCodec (N.eqb 1768186228) (fun _ => 1768186228) (* 'idat' *) (fun d => w32 (8 + len d)) putl idat_read.

(* ISOSingleItemTypeReferenceAtom; reference_count is the number of ids *)
Record iref1 := mkIref1 { r_type : N; r_from : N; r_ids : list N }.
Record iref := mkIref { ir_ver : N; ir_flags : N; ir_list : list iref1 }.
Definition iref_new : iref := mkIref 0 0 [].
(* serialize and calculateSize, SingleItemTypeReferenceAtom.c:28-88; [big]:
   isLarge, version 1 of the iref box the entry was made for *)
Definition iref1_size (big : bool) (r : iref1) : N :=
  if big then w32 (8 + 6 + 4 * len (r_ids r)) else w32 (8 + 4 + 2 * len (r_ids r)).
Definition iref1_write (big : bool) (r : iref1) : wr :=
  write_base (iref1_size big r) 0 (r_type r) ;;
  (if big then put32 (r_from r) else put16 (r_from r)) ;; put16 (len (r_ids r)) ;;
  wmap (if big then put32 else put16) (r_ids r).
(* createFromInputStream, SingleItemTypeReferenceAtom.c:90-145: the short form
   allocates two bytes for each id and writes four *)
Definition iref1_read (big : bool) : rd (N * iref1) :=
  let* size := get32 in
  let* ty := get32 in
  if big then
    let* f := get32 in
    let* n := get16 in
    let* ids := rrep (N.to_nat n) get32 in
    rret (size, mkIref1 ty f ids)
  else
    let* f := get16 in
    let* n := get16 in
    if n =? 0 then rret (size, mkIref1 ty f [])
    else let* _ := get16 in rub.
(* the loop of createFromInputStream, ItemReferenceAtom.c:82-101. Simplified: in
   the code the error of an entry is overwritten, the entry is kept as far as
   it was read and the loop goes on; the model stops with the error. *)
Fixpoint iref_loop (fuel : nat) (big : bool) (size br : N) : rd (list iref1) :=
  if br <? size then
    match fuel with
    | O => rerr OutOfFuel
    | S f =>
        let* (s, r) := iref1_read big in
        let* l := iref_loop f big size (w32 (br + s)) in
        rret (if is_free (r_type r) then l else r :: l)
    end
  else rret [].
Definition iref_read (h : hdr) : rd iref := fun s =>
  (let* vf := get_full in
   if 1 <? fst vf then rerr MP4NotImplementedErr
   else
     let* n := getrdn in
     let* l := iref_loop (length (inp s) + 1) (fst vf =? 1) (h_size h) n in
     rret (mkIref (fst vf) (snd vf) l)) s.
(* serialize and calculateSize, ItemReferenceAtom.c:38-71 *)
Definition iref_codec : codec iref :=
  mkCodec (N.eqb 1769104742) (fun _ => 1769104742) (* 'iref' *)
    (fun t => fold_left (fun a r => w32 (a + iref1_size (ir_ver t =? 1) r)) (ir_list t) 12)
    (fun t => put8 (ir_ver t) ;; put24 (ir_flags t) ;;
       wmap (fun r => embed (iref1_size (ir_ver t =? 1) r) (wrun (iref1_size (ir_ver t =? 1) r) (iref1_write (ir_ver t =? 1) r))) (ir_list t))
    iref_read.

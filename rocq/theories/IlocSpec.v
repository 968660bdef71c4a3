(* IlocSpec.v -- layout of the item location, item data and item reference boxes. *)
From Verif Require Import Base AtomModel BoxModel BoxSpec HeaderSpec IlocModel.

(* ISO/IEC 14496-12, 8.11.3: a field of 0, 4 or 8 bytes *)
Definition be_w (w v : N) : list N := if w =? 8 then be64 v else if w =? 4 then be32 v else [].
Definition opt1 (b : bool) (l : list N) : list N := if b then l else [].
Definition extent_bytes (v1 : bool) (w : widths) (b : extent) : list N :=
  opt1 v1 (be_w (w_idx w) (e_index b)) ++ be_w (w_off w) (e_off b) ++ be_w (w_len w) (e_len b).
Definition item_bytes (v1 : bool) (w : widths) (a : item) : list N :=
  be16 (i_id a) ++ opt1 v1 (be16 (i_method a)) ++ be16 (i_dref a) ++ be_w (w_base w) (i_base a) ++
  be16 (len (i_exts a)) ++ flat_map (extent_bytes v1 w) (i_exts a).
Definition iloc_bytes (w : widths) (t : iloc) : list N :=
  full (il_ver t) (il_flags t) ++ be8 (16 * w_off w + w_len w) ++ be8 (16 * w_base w + w_idx w) ++
  be16 (len (il_items t)) ++ flat_map (item_bytes (il_ver t =? 1) w) (il_items t).

(* widths that lose nothing *)
Definition is_width (w : N) : Prop := w = 0 \/ w = 4 \/ w = 8.
Definition fits_w (w v : N) : Prop := v < (if w =? 8 then 18446744073709551616 else if w =? 4 then 4294967296 else 1).
Definition extent_fits (w : widths) (b : extent) : Prop :=
  fits_w (w_idx w) (e_index b) /\ fits_w (w_off w) (e_off b) /\ fits_w (w_len w) (e_len b).
Definition wide_enough (w : widths) (t : iloc) : Prop :=
  is_width (w_off w) /\ is_width (w_len w) /\ is_width (w_base w) /\ is_width (w_idx w) /\
  Forall (fun a => fits_w (w_base w) (i_base a) /\ Forall (extent_fits w) (i_exts a)) (il_items t).
(* the values themselves: 16-bit ids and references, 4-bit methods, 64-bit positions *)
Definition extent_ok (b : extent) : Prop :=
  e_index b < 18446744073709551616 /\ e_off b < 18446744073709551616 /\ e_len b < 18446744073709551616.
Definition item_ok (a : item) : Prop :=
  i_id a < 65536 /\ i_method a < 16 /\ i_dref a < 65536 /\ i_base a < 18446744073709551616 /\
  len (i_exts a) < 65536 /\ Forall extent_ok (i_exts a).
(* version 0 has no methods and no indices *)
Definition plain_item (a : item) : item :=
  mkItem (i_id a) 0 (i_dref a) (i_base a) (map (fun b => mkExtent 0 (e_off b) (e_len b)) (i_exts a)).
Definition iloc_view (t : iloc) : iloc :=
  if il_ver t =? 1 then t else mkIloc (il_ver t) (il_flags t) (map plain_item (il_items t)).
Definition iloc_ok (t : iloc) : Prop :=
  full_ok (il_ver t) (il_flags t) /\ len (il_items t) < 65536 /\ Forall item_ok (il_items t).
(* the widths chosen: 8 if some value needs it, else 4 if some value is not 0; offsets and base offsets at
   least 4 if some item is in this file *)
Definition width_of (vs : list N) : N :=
  if existsb (fun v => 4294967296 <=? v) vs then 8 else if existsb (fun v => 0 <? v) vs then 4 else 0.
Definition chosen_widths (t : iloc) : widths :=
  let es := flat_map i_exts (il_items t) in
  let here := existsb (fun a => i_dref a =? 0) (il_items t) in
  let low := if here then 4 else 0 in
  mkWidths (N.max low (width_of (map e_off es))) (width_of (map e_len es))
    (N.max low (width_of (map i_base (il_items t)))) (width_of (map e_index es)).
Definition iloc_layout : layout iloc := mkLayout (fun _ => code "iloc") (fun t => iloc_bytes (chosen_widths t) t) iloc_view iloc_ok.
(* the same box with other widths *)
Definition iloc_layout_with (w : widths) : layout iloc :=
  mkLayout (fun _ => code "iloc") (iloc_bytes w) iloc_view (fun t => wide_enough w t /\ iloc_ok t).

(* 8.11.11 *)
Definition idat_layout : layout (list N) := mkLayout (fun _ => code "idat") (fun d => d) (fun d => d) bytes.

(* 8.11.12 *)
Definition iref1_bytes (big : bool) (r : iref1) : list N :=
  (if big then be32 (r_from r) else be16 (r_from r)) ++ be16 (len (r_ids r)) ++
  flat_map (if big then be32 else be16) (r_ids r).
Definition iref1_ok (big : bool) (r : iref1) : Prop :=
  let top := if big then 4294967296 else 65536 in
  plain_type (r_type r) /\ r_from r < top /\ len (r_ids r) < 65536 /\ Forall (fun i => i < top) (r_ids r).
Definition iref_ok (t : iref) : Prop :=
  full_ok (ir_ver t) (ir_flags t) /\ Forall (iref1_ok (ir_ver t =? 1)) (ir_list t).
Definition iref_layout : layout iref := mkLayout (fun _ => code "iref")
  (fun t => full (ir_ver t) (ir_flags t) ++ flat_map (fun r => box (r_type r) (iref1_bytes (ir_ver t =? 1) r)) (ir_list t))
  (fun t => t)
  (fun t => ir_ver t = 1 /\ iref_ok t).

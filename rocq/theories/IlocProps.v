(* IlocProps.v -- C28: item location boxes; C48: item reference boxes. *)
From Verif Require Import Base Codec AtomModel AtomSpec AtomProofs BoxModel BoxSpec BoxProofs Reads HeaderSpec IlocModel IlocSpec IlocProofs.

(* C28: size, bytes with the narrowest widths, reading back, refusal of truncation *)
Theorem C28_round_trip t : iloc_ok t -> 8 + len (iloc_bytes (chosen_widths t) t) < 4294967296 ->
  round_trip iloc_codec iloc_layout t.
Proof. intros H L. apply exact_round_trip; [exact iloc_exact|exact H|exact L]. Qed.
Print Assumptions C28_round_trip.

(* the widths chosen lose nothing *)
Theorem C28_widths_wide_enough t : iloc_ok t -> iloc_widths t = chosen_widths t /\ wide_enough (iloc_widths t) t.
Proof. intros H. rewrite iloc_widths_chosen. split; [reflexivity|apply chosen_wide, H]. Qed.
Print Assumptions C28_widths_wide_enough.
(* and are the narrowest that lose nothing, but for the room left for positions in this file *)
Theorem C28_widths_narrowest t w : wide_enough w t -> w_len (iloc_widths t) <= w_len w /\ w_idx (iloc_widths t) <= w_idx w /\
  w_off (iloc_widths t) <= N.max 4 (w_off w) /\ w_base (iloc_widths t) <= N.max 4 (w_base w).
Proof.
  intros (W1 & W2 & W3 & W4 & F). rewrite iloc_widths_chosen. unfold chosen_widths. cbn [w_off w_len w_base w_idx].
  assert (K : forall l x, is_width x -> Forall (fits_w x) l -> width_of l <= x).
  { intros l x Hx Fx. rewrite Forall_forall in Fx. unfold width_of.
    destruct (existsb (fun v => 4294967296 <=? v) l) eqn:E1.
    - apply existsb_exists in E1 as (v & Iv & Lv). apply N.leb_le in Lv. specialize (Fx v Iv). destruct Hx as [->|[->| ->]]; cbv [fits_w N.eqb Pos.eqb] in Fx; lia.
    - destruct (existsb (fun v => 0 <? v) l) eqn:E2; [|lia].
      apply existsb_exists in E2 as (v & Iv & Lv). apply N.ltb_lt in Lv. specialize (Fx v Iv). destruct Hx as [->|[->| ->]]; cbv [fits_w N.eqb Pos.eqb] in Fx; lia. }
  rewrite Forall_forall in F.
  assert (Fe : forall b, In b (flat_map i_exts (il_items t)) -> extent_fits w b).
  { intros b Ib. apply in_flat_map in Ib as (a & Ia & Ib). destruct (F a Ia) as [_ G]. rewrite Forall_forall in G. apply G, Ib. }
  assert (Kx : forall f x, is_width x -> (forall b, extent_fits w b -> fits_w x (f b)) -> width_of (map f (flat_map i_exts (il_items t))) <= x).
  { intros f x Hx Hf. apply K; [exact Hx|]. apply Forall_forall. intros v Iv. apply in_map_iff in Iv as (b & <- & Ib). apply Hf, Fe, Ib. }
  pose proof (Kx e_len _ W2 (fun b h => proj2 (proj2 h))). pose proof (Kx e_index _ W4 (fun b h => proj1 h)). pose proof (Kx e_off _ W1 (fun b h => proj1 (proj2 h))).
  assert (width_of (map i_base (il_items t)) <= w_base w).
  { apply K; [exact W3|]. apply Forall_forall. intros v Iv. apply in_map_iff in Iv as (a & <- & Ia). apply (F a Ia). }
  destruct (existsb (fun a => i_dref a =? 0) (il_items t)); lia.
Qed.
Print Assumptions C28_widths_narrowest.

(* any other widths the values fit in work as well: a file written elsewhere *)
Theorem C28_any_widths w t : wide_enough w t -> iloc_ok t -> 8 + len (iloc_bytes w t) < 4294967296 ->
  round_trip (iloc_codec_with w) (iloc_layout_with w) t.
Proof. intros H O L. apply exact_round_trip; [apply iloc_with_exact|split; assumption|exact L]. Qed.
Print Assumptions C28_any_widths.

(* a movie being saved: sized, then moved, then written *)
Theorem C28_moved_after_sizing base fin off t : iloc_ok t -> (0 <= off)%Z ->
  Forall (fun a => i_method a = 0 -> i_dref a = 0 -> room off (i_base a) /\ Forall (fun b => room off (e_off b)) (i_exts a)) (il_items t) ->
  8 + len (iloc_bytes (chosen_widths t) t) < 4294967296 ->
  iloc_size_with (iloc_widths t) t = 8 + len (iloc_bytes (iloc_widths t) (iloc_moved base fin off t)) /\
  round_trip (iloc_codec_with (iloc_widths t)) (iloc_layout_with (iloc_widths t)) (iloc_moved base fin off t).
Proof.
  intros O H R L. destruct (moved_wide base fin off t H O R) as (W & O'). split.
  - rewrite iloc_moved_len, iloc_widths_chosen. destruct iloc_exact as [_ X]. destruct (X t O L) as (S & _). unfold iloc_codec in S. cbn [c_size iloc_layout l_body] in S.
    rewrite iloc_widths_chosen in S. exact S.
  - apply C28_any_widths; [exact W|exact O'|]. rewrite iloc_moved_len, iloc_widths_chosen. exact L.
Qed.
Print Assumptions C28_moved_after_sizing.
(* without that room a position is cut to 32 bits, whatever was to be written *)
Definition far_item : iloc := mkIloc 0 0 [mkItem 1 0 0 0 [mkExtent 0 4294967000 10]].
Theorem C28_position_cut_refuted : iloc_ok far_item /\
  let t := iloc_moved 0 4294967010 1000 far_item in
  i_exts (hd (mkItem 0 0 0 0 []) (il_items t)) = [mkExtent 0 4294968000 10] /\
  exists bs, write_box (iloc_codec_with (iloc_widths far_item)) t = Ok bs /\
    read_box iloc_codec iloc_new bs = Ok ((ALeaf iloc (mkIloc 0 0 [mkItem 1 0 0 1000 [mkExtent 0 704 10]]), len bs), []).
Proof.
  split.
  - repeat (constructor; try lia); cbv; reflexivity.
  - cbv zeta. split; [reflexivity|]. eexists. split; [vm_compute; reflexivity|vm_compute; reflexivity].
Qed.
Print Assumptions C28_position_cut_refuted.

(* any input: no undefined behaviour *)
Theorem C28_any_input : robust iloc_codec.
Proof. exact iloc_robust. Qed.
Print Assumptions C28_any_input.

(* the item data box *)
Theorem C28_item_data_round_trip d : bytes d -> 8 + len d < 4294967296 -> round_trip idat_codec idat_layout d.
Proof. intros H L. apply exact_round_trip; [exact idat_exact|exact H|exact L]. Qed.
Print Assumptions C28_item_data_round_trip.
Theorem C28_item_data_any_input : robust idat_codec.
Proof. exact idat_robust. Qed.
Print Assumptions C28_item_data_any_input.

Definition three_items : iloc := mkIloc 1 0
  [mkItem 1 0 0 4096 [mkExtent 0 0 100; mkExtent 0 200 5000000000]; mkItem 2 1 0 0 [mkExtent 0 7 9]; mkItem 5 2 0 0 [mkExtent 1 0 20; mkExtent 2 10 20]].
Example three_items_ok : iloc_ok three_items /\ chosen_widths three_items = mkWidths 4 8 4 4 /\
  iloc_bytes (chosen_widths three_items) three_items = [1;0;0;0; 72; 68; 0;3;
    0;1;0;0;0;0;0;0;16;0;0;2; 0;0;0;0; 0;0;0;0; 0;0;0;0;0;0;0;100; 0;0;0;0; 0;0;0;200; 0;0;0;1;42;5;242;0;
    0;2;0;1;0;0;0;0;0;0;0;1; 0;0;0;0; 0;0;0;7; 0;0;0;0;0;0;0;9;
    0;5;0;2;0;0;0;0;0;0;0;2; 0;0;0;1; 0;0;0;0; 0;0;0;0;0;0;0;20; 0;0;0;2; 0;0;0;10; 0;0;0;0;0;0;0;20].
Proof. split; [repeat (constructor; try lia); cbv; reflexivity|]. split; reflexivity. Qed.
Example three_items_back : round_trip iloc_codec iloc_layout three_items.
Proof. apply C28_round_trip; [apply three_items_ok|]. vm_compute. reflexivity. Qed.
Example room_example : Forall (fun a => i_method a = 0 -> i_dref a = 0 -> room 1000 (i_base a) /\ Forall (fun b => room 1000 (e_off b)) (i_exts a)) (il_items three_items).
Proof. unfold room. repeat constructor; cbn; intros; lia. Qed.

(* C48: item references in the large form, written and read *)
Theorem C48_large_round_trip t : ir_ver t = 1 -> iref_ok t -> 8 + len (l_body iref_layout t) < 4294967296 -> round_trip iref_codec iref_layout t.
Proof. intros V H L. apply faithful_round_trip; [exact iref_faithful|split; assumption|exact L]. Qed.
Print Assumptions C48_large_round_trip.
(* in either form the size is exact and the bytes are those of the layout *)
Theorem C48_written_as_specified t : iref_ok t -> 8 + len (l_body iref_layout t) < 4294967296 ->
  c_size iref_codec t = 8 + len (l_body iref_layout t) /\ write_box iref_codec t = Ok (box (code "iref") (l_body iref_layout t)).
Proof.
  intros H L. pose proof H as (Hf & F). assert (S : c_size iref_codec t = 8 + len (l_body iref_layout t)).
  { unfold iref_codec, iref_layout in *. cbn [c_size l_body] in *. rewrite len_app, len_full in *. rewrite iref_size_ok by (try assumption; lia). lia. }
  split; [exact S|]. unfold write_box. cbn [awrite].
  rewrite S. apply writes_run; [|rewrite len_box; lia|lia].
  eapply writes_eq; [eapply writes_seq; [apply writes_base; lia|apply iref_writes, H]|].
    unfold box. rewrite <- !app_assoc. reflexivity.
Qed.
Print Assumptions C48_written_as_specified.
(* the small form, which is what the library writes: reading any entry that refers to something writes past
   the end of an allocation *)
Theorem C48_small_read_refuted : forall f ty from id ids l rest, let t := mkIref 0 f (mkIref1 ty from (id :: ids) :: l) in
  iref_ok t -> 8 + len (l_body iref_layout t) < 4294967296 ->
  write_box iref_codec t = Ok (box (code "iref") (l_body iref_layout t)) /\
  c_rd iref_codec (mkH (8 + len (l_body iref_layout t)) 0 (code "iref") [] 8) (mkR (l_body iref_layout t ++ rest) 8) = UB.
Proof.
  intros f ty from id ids l rest t Ht Hl. split; [apply C48_written_as_specified; assumption|].
  pose proof Ht as (Hf & F). subst t. cbn [ir_ver ir_flags] in Hf. clear Ht. unfold iref_layout in *. cbn [l_body ir_ver ir_flags ir_list flat_map] in *.
  change (0 =? 1) with false in *. inversion_clear F as [|? ? (P & H1 & H2 & H3) _]. cbn [r_from r_ids r_type] in *. inversion_clear H3 as [|? ? H3' _].
  remember (8 + len _) as size eqn:Es. rewrite <- !app_assoc. remember (flat_map _ l ++ rest) as rest' eqn:Er. clear Er.
  unfold iref_codec. cbn [c_rd]. unfold iref_read. remember (length _ + 1)%nat as fuel eqn:Ef.
  assert (Hn : fuel <> O) by lia. destruct fuel as [|fuel]; [contradiction|]. clear Ef Hn.
  unfold rbind at 1. rewrite (proj1 (parses_full 8 0 f Hf)). cbn [fst snd]. change (1 <? 0) with false. change (0 =? 1) with false. cbv iota.
  rewrite len_full. change (w32 (8 + 4)) with 12. unfold rbind at 1. unfold getrdn at 1. cbn [rdn]. unfold rbind at 1. cbn [iref_loop h_size].
  pose proof (iref1_box_len false (mkIref1 ty from (id :: ids))) as L1. cbn [r_type r_ids] in L1. rewrite !len_app, len_full in Es. 
  destruct (N.ltb_spec 12 size) as [_|]; [|lia].
  unfold rbind at 1. unfold iref1_read. rewrite len_box in L1. unfold box at 1. rewrite <- !app_assoc.
  unfold rbind at 1. rewrite (proj1 (parses_get32 _ (8 + len (iref1_bytes false (mkIref1 ty from (id :: ids)))) ltac:(rewrite len_box in Es; lia))).
  unfold rbind at 1. rewrite (proj1 (parses_get32 _ ty ltac:(destruct P; lia))).
  unfold iref1_bytes. cbn [r_from r_ids flat_map]. rewrite <- !app_assoc.
  unfold rbind at 1. rewrite (proj1 (parses_get16 _ from H1)). unfold rbind at 1. rewrite (proj1 (parses_get16 _ _ H2)).
  destruct (N.eqb_spec (len (id :: ids)) 0) as [E|_]; [rewrite len_cons in E; lia|].
  unfold rbind at 1. rewrite (proj1 (parses_get16 _ id H3')). reflexivity.
Qed.
Print Assumptions C48_small_read_refuted.
Example two_refs : iref := mkIref 1 0 [mkIref1 (code "cdsc") 1 [2; 70000]; mkIref1 (code "thmb") 3 [1]].
Example two_refs_ok : iref_ok two_refs /\ round_trip iref_codec iref_layout two_refs.
Proof.
  assert (H : iref_ok two_refs).
  { repeat (constructor; try lia); cbv; try reflexivity; discriminate. }
  split; [exact H|]. apply C48_large_round_trip; [reflexivity|exact H|vm_compute; reflexivity].
Qed.
Example small_refs : exists bs, write_box iref_codec (mkIref 0 0 [mkIref1 (code "cdsc") 1 [2]]) = Ok bs /\ len bs = 26 /\ read_box iref_codec iref_new bs = UB.
Proof. eexists. split; [vm_compute; reflexivity|]. split; vm_compute; reflexivity. Qed.

(* IlocProofs.v -- lemmas for C28. *)
From Verif Require Import Base Codec BitLemmas AtomModel AtomSpec AtomProofs BoxModel BoxSpec BoxProofs Reads HeaderSpec HeaderProofs
  GroupProofs CsgpProofs MediaProofs IlocModel IlocSpec.

(* ------------------------------------------------------------------ *)
(* the widths                                                           *)
Definition wmax (a b : widths) : widths :=
  mkWidths (N.max (w_off a) (w_off b)) (N.max (w_len a) (w_len b)) (N.max (w_base a) (w_base b)) (N.max (w_idx a) (w_idx b)).
Definition ws_ok (w : widths) : Prop := is_width (w_off w) /\ is_width (w_len w) /\ is_width (w_base w) /\ is_width (w_idx w).
Lemma is_width_max a b : is_width a -> is_width b -> is_width (N.max a b).
Proof. unfold is_width. lia. Qed.
Lemma ws_ok_max a b : ws_ok a -> ws_ok b -> ws_ok (wmax a b).
Proof. intros (A1 & A2 & A3 & A4) (B1 & B2 & B3 & B4). repeat apply conj; apply is_width_max; assumption. Qed.
Lemma width_of_ok l : is_width (width_of l).
Proof. unfold width_of, is_width. destruct (existsb _ l); [lia|]. destruct (existsb _ l); lia. Qed.
Lemma width_of_cons v l : width_of (v :: l) = N.max (width_of [v]) (width_of l).
Proof.
  unfold width_of. cbn [existsb]. rewrite !orb_false_r.
  destruct (existsb (fun v => 4294967296 <=? v) l), (existsb (fun v => 0 <? v) l), (N.leb_spec 4294967296 v), (N.ltb_spec 0 v); cbn [orb]; lia.
Qed.
Lemma width_of_app a b : width_of (a ++ b) = N.max (width_of a) (width_of b).
Proof.
  induction a as [|x a IH]; [cbn [app]; unfold width_of at 2; cbn [existsb]; lia|].
  cbn [app]. rewrite width_of_cons, IH, (width_of_cons x a). lia.
Qed.
Lemma need_max w v : is_width w -> need w v = N.max w (width_of [v]).
Proof.
  intros H. unfold need, width_of, is_width in *. cbn [existsb]. rewrite !orb_false_r, shiftr_div. change (2 ^ 32) with 4294967296.
  destruct (N.leb_spec 4294967296 v) as [L|L].
  - destruct (N.eqb_spec (v / 4294967296) 0) as [E|E]; cbn [negb]; [pose proof (N.div_str_pos v 4294967296); lia|lia].
  - rewrite N.div_small by lia. change (0 =? 0) with true; cbn [negb]. destruct (N.ltb_spec w 4), (N.ltb_spec 0 v); cbn [andb]; lia.
Qed.
Lemma at_least4_max w : at_least4 w = N.max w 4.
Proof. unfold at_least4. destruct (N.ltb_spec w 4); lia. Qed.

Definition ext_wd (es : list extent) : widths := mkWidths (width_of (map e_off es)) (width_of (map e_len es)) 0 (width_of (map e_index es)).
Lemma ext_wd_ok es : ws_ok (ext_wd es).
Proof. repeat apply conj; try apply width_of_ok. left. reflexivity. Qed.
Lemma wd_extents es : forall w, ws_ok w -> fold_left wd_extent es w = wmax w (ext_wd es).
Proof.
  induction es as [|b es IH]; intros w H; cbn [fold_left].
  - destruct w as [a b c d]. unfold wmax, ext_wd, width_of. cbn [map existsb w_off w_len w_base w_idx]. f_equal; lia.
  - assert (E : wd_extent w b = wmax w (ext_wd [b])).
    { destruct H as (H1 & H2 & H3 & H4). unfold wd_extent, wmax, ext_wd. cbn [map w_off w_len w_base w_idx].
      rewrite !need_max by assumption. f_equal; lia. }
    rewrite E, IH by (apply ws_ok_max; [exact H|apply ext_wd_ok]). unfold wmax, ext_wd. cbn [map w_off w_len w_base w_idx].
    rewrite (width_of_cons (e_off b) (map e_off es)), (width_of_cons (e_len b) (map e_len es)), (width_of_cons (e_index b) (map e_index es)). f_equal; lia.
Qed.
Definition cw (l : list item) : widths := chosen_widths (mkIloc 0 0 l).
Lemma cw_ok l : ws_ok (cw l).
Proof.
  unfold cw, chosen_widths. cbn [il_items]. repeat apply conj; cbn [w_off w_len w_base w_idx]; try apply width_of_ok;
    (apply is_width_max; [destruct (existsb _ l); [right; left|left]; reflexivity|apply width_of_ok]).
Qed.
Lemma cw_cons a l : cw (a :: l) = wmax (cw [a]) (cw l).
Proof.
  unfold cw, chosen_widths, wmax. cbn [il_items flat_map existsb map w_off w_len w_base w_idx]. rewrite app_nil_r, !map_app, !width_of_app, orb_false_r.
  rewrite (width_of_cons (i_base a) (map i_base l)).
  destruct (i_dref a =? 0), (existsb (fun a => i_dref a =? 0) l); cbn [orb]; f_equal; lia.
Qed.
Lemma wd_items l : forall w, ws_ok w -> fold_left wd_item l w = wmax w (cw l).
Proof.
  induction l as [|a l IH]; intros w H; cbn [fold_left].
  - destruct w as [a b c d]. unfold wmax, cw, chosen_widths, width_of. cbn [il_items flat_map map existsb w_off w_len w_base w_idx]. f_equal; lia.
  - assert (E : wd_item w a = wmax w (cw [a])).
    { unfold wd_item. cbv zeta. pose proof H as (H1 & H2 & H3 & H4). rewrite need_max by assumption. rewrite wd_extents.
      - unfold cw, chosen_widths. cbn [il_items flat_map existsb map]. rewrite app_nil_r, orb_false_r.
        destruct (i_dref a =? 0); rewrite ?at_least4_max; unfold wmax, ext_wd; cbn [w_off w_len w_base w_idx]; f_equal; lia.
      - destruct (i_dref a =? 0); rewrite ?at_least4_max; repeat apply conj; cbn [w_off w_len w_base w_idx];
          repeat apply is_width_max; try assumption; try apply width_of_ok; right; left; reflexivity. }
    rewrite E, IH by (apply ws_ok_max; [exact H|apply cw_ok]). rewrite (cw_cons a l). unfold wmax. cbn [w_off w_len w_base w_idx]. f_equal; lia.
Qed.
Lemma iloc_widths_chosen t : iloc_widths t = chosen_widths t.
Proof.
  unfold iloc_widths. rewrite wd_items by (repeat apply conj; left; reflexivity).
  assert (E : chosen_widths t = cw (il_items t)) by reflexivity. rewrite E. unfold wmax. cbn [w_off w_len w_base w_idx].
  destruct (cw (il_items t)) as [a b c d]. cbn [w_off w_len w_base w_idx]. f_equal; lia.
Qed.
Lemma width_of_in v l : v < 18446744073709551616 -> In v l -> forall w, is_width w -> width_of l <= w -> fits_w w v.
Proof.
  intros Hv I w Hw. unfold width_of, fits_w, is_width in *. destruct (existsb (fun v => 4294967296 <=? v) l) eqn:E1.
  - intros. destruct Hw as [->|[->| ->]]; [lia|lia|exact Hv].
  - assert (v < 4294967296).
    { apply N.nle_gt. intros L. assert (X : existsb (fun v => 4294967296 <=? v) l = true); [|congruence].
      apply existsb_exists. exists v. split; [exact I|]. apply N.leb_le, L. }
    destruct (existsb (fun v => 0 <? v) l) eqn:E2.
    + intros. destruct Hw as [->|[->| ->]]; [lia|assumption|exact Hv].
    + assert (v = 0).
      { destruct (N.eq_0_gt_0_cases v) as [|L]; [assumption|]. assert (X : existsb (fun v => 0 <? v) l = true); [|congruence].
        apply existsb_exists. exists v. split; [exact I|]. apply N.ltb_lt, L. }
      subst v. intros _. destruct (w =? 8), (w =? 4); lia.
Qed.
Lemma chosen_wide t : iloc_ok t -> wide_enough (chosen_widths t) t.
Proof.
  intros (_ & _ & F). pose proof (cw_ok (il_items t)) as (A & B & C & D). fold (chosen_widths t) in *.
  change (cw (il_items t)) with (chosen_widths t) in *.
  split; [exact A|]. split; [exact B|]. split; [exact C|]. split; [exact D|].
  rewrite Forall_forall in *. intros a Ia. pose proof (F a Ia) as (_ & _ & _ & Hb & _ & He). split.
  - apply (width_of_in _ (map i_base (il_items t))); [exact Hb|apply in_map, Ia|exact C|].
    unfold chosen_widths. cbn [w_base]. lia.
  - rewrite Forall_forall in *. intros b Ib. pose proof (He b Ib) as (E1 & E2 & E3).
    assert (I : In b (flat_map i_exts (il_items t))) by (apply in_flat_map; exists a; auto).
    repeat apply conj.
    + apply (width_of_in _ (map e_index (flat_map i_exts (il_items t)))); [exact E1|apply in_map, I|exact D|reflexivity].
    + apply (width_of_in _ (map e_off (flat_map i_exts (il_items t)))); [exact E2|apply in_map, I|exact A|]. unfold chosen_widths. cbn [w_off]. lia.
    + apply (width_of_in _ (map e_len (flat_map i_exts (il_items t)))); [exact E3|apply in_map, I|exact B|reflexivity].
Qed.

(* ------------------------------------------------------------------ *)
(* the bytes                                                            *)
Lemma len_be_w w v : is_width w -> len (be_w w v) = w.
Proof. intros [->|[->| ->]]; reflexivity. Qed.
Lemma writes_w w v : writes (put_w w v) (be_w w (if w =? 8 then v else w32 v)).
Proof. unfold put_w, be_w. destruct (w =? 8); [wstep|]. destruct (w =? 4); wstep. Qed.
Lemma writes_fit w v : fits_w w v -> writes (put_w w v) (be_w w v).
Proof.
  intros H. unfold put_w, be_w, fits_w in *. destruct (w =? 8); [wstep|]. destruct (w =? 4); [|wstep].
  rewrite w32_small by exact H. wstep.
Qed.
Lemma parses_w n w v : n < 4294967296 -> is_width w -> fits_w w v -> parses n (get_w w) (be_w w v) v.
Proof.
  intros Hn [->|[->| ->]] H; cbv [get_w be_w fits_w N.eqb Pos.eqb] in *.
  - pnext. lia.
  - apply parses_get32, H.
  - apply parses_get64, H.
Qed.
Lemma parses_rrep_in {A B} (m : rd B) (enc : A -> list N) (f : A -> B) l :
  (forall a n, In a l -> n < 4294967296 -> parses n m (enc a) (f a)) ->
  forall n, n < 4294967296 -> parses n (rrep (length l) m) (flat_map enc l) (map f l).
Proof.
  induction l as [|a l IH]; intros H n Hn; cbn [rrep length flat_map map].
  - apply parses_ret; assumption.
  - pnext; [apply H; [left; reflexivity|exact Hn]|]. eapply parses_bind_last; [apply IH; [intros; apply H; [right|]; assumption|apply w32_lt]|]. pnext.
Qed.
Definition view_ext (v1 : bool) (b : extent) : extent := if v1 then b else mkExtent 0 (e_off b) (e_len b).
Definition view_item (v1 : bool) (a : item) : item := if v1 then a else plain_item a.
Lemma extent_parses v1 w b n : n < 4294967296 -> ws_ok w -> extent_fits w b -> parses n (extent_read v1 w) (extent_bytes v1 w b) (view_ext v1 b).
Proof.
  intros Hn (W1 & W2 & W3 & W4) (F1 & F2 & F3). unfold extent_read, extent_bytes, opt1.
  destruct v1.
  - pnext; [apply parses_w; assumption|]. pnext; [apply parses_w; [apply w32_lt|assumption..]|]. pnext; [apply parses_w; [apply w32_lt|assumption..]|].
    pnext. destruct b. reflexivity.
  - cbn [app]. eapply parses_bind_nil; [intros s _; reflexivity|].
    pnext; [apply parses_w; assumption|]. pnext; [apply parses_w; [apply w32_lt|assumption..]|]. pnext.
Qed.
Lemma extent_writes v1 w b : extent_fits w b -> writes (extent_write v1 w b) (extent_bytes v1 w b).
Proof.
  intros (F1 & F2 & F3). unfold extent_write, extent_bytes, opt1. destruct v1; [|cbn [app]; change (be_w (w_off w) (e_off b) ++ be_w (w_len w) (e_len b)) with ([] ++ be_w (w_off w) (e_off b) ++ be_w (w_len w) (e_len b))].
  - repeat apply writes_seq; apply writes_fit; assumption.
  - apply writes_seq; [wstep|]. apply writes_seq; apply writes_fit; assumption.
Qed.
Lemma len_extent v1 w b : ws_ok w -> len (extent_bytes v1 w b) = (if v1 then w_idx w else 0) + w_off w + w_len w.
Proof. intros (W1 & W2 & W3 & W4). unfold extent_bytes, opt1. destruct v1; lens; rewrite ?len_be_w by assumption; lia. Qed.
Definition item_fits (w : widths) (a : item) : Prop := fits_w (w_base w) (i_base a) /\ Forall (extent_fits w) (i_exts a).
Lemma item_parses v1 w a n : n < 4294967296 -> ws_ok w -> item_fits w a -> item_ok a -> parses n (item_read v1 w) (item_bytes v1 w a) (view_item v1 a).
Proof.
  intros Hn W (F1 & F2) (O1 & O2 & O3 & O4 & O5 & O6). pose proof W as (W1 & W2 & W3 & W4). unfold item_read, item_bytes.
  pauto.
  assert (M : forall m, m < 4294967296 -> parses m (if v1 then let* x := get16 in rret (w8 x) else rret 0) (opt1 v1 (be16 (i_method a))) (if v1 then i_method a else 0)).
  { intros m Hm. unfold opt1. destruct v1; [|pnext]. pnext; [apply parses_get16; lia|]. pnext. unfold w8. apply N.mod_small. lia. }
  pnext; [apply M, w32_lt|]. pauto. pnext; [apply parses_w; [apply w32_lt|assumption..]|]. pauto.
  eapply parses_bind_last.
  - rewrite len_nat. apply (parses_rrep_in _ _ (view_ext v1)); [|apply w32_lt]. intros b m Ib Hm.
    apply extent_parses; [exact Hm|exact W|]. rewrite Forall_forall in F2. apply F2, Ib.
  - pnext. destruct a as [q1 q2 q3 q4 q5], v1; unfold view_item, plain_item; cbn [i_id i_dref i_base i_exts i_method]; [|reflexivity]. f_equal. apply map_id.
Qed.
Lemma item_writes v1 w a : ws_ok w -> item_fits w a -> item_ok a -> writes (item_write v1 w a) (item_bytes v1 w a).
Proof.
  intros W (F1 & F2) (O1 & O2 & O3 & O4 & O5 & O6). unfold item_write, item_bytes.
  apply writes_seq; [wstep|]. apply writes_seq.
  { unfold opt1. destruct v1; [|wstep]. eapply writes_eq; [wstep|]. unfold be16, be8. cbn [app].
    repeat f_equal; lia. }
  apply writes_seq; [wstep|]. apply writes_seq; [apply writes_fit; assumption|]. apply writes_seq; [wstep|].
  apply writes_map. intros b Ib. apply extent_writes. rewrite Forall_forall in F2. apply F2, Ib.
Qed.
Lemma len_item v1 w a : ws_ok w -> len (item_bytes v1 w a) = (if v1 then 2 else 0) + 6 + w_base w + ((if v1 then w_idx w else 0) + w_off w + w_len w) * len (i_exts a).
Proof.
  intros W. pose proof W as (W1 & W2 & W3 & W4). unfold item_bytes, opt1. lens. rewrite (len_flat_map_const _ ((if v1 then w_idx w else 0) + w_off w + w_len w)) by (intros; apply len_extent, W).
  rewrite len_be_w by assumption. destruct v1; lens; lia.
Qed.
Lemma len_items v1 w l : ws_ok w -> len (flat_map (item_bytes v1 w) l) =
  len l * ((if v1 then 2 else 0) + 6 + w_base w) + len (flat_map i_exts l) * ((if v1 then w_idx w else 0) + w_off w + w_len w).
Proof.
  intros W. induction l as [|a l IH]; cbn [flat_map]; lens; [lia|]. rewrite IH, len_item by exact W. lia.
Qed.
Lemma len_iloc w t : ws_ok w -> 8 + len (iloc_bytes w t) =
  12 + 4 + len (il_items t) * (w_base w + 6) + extent_total t * (w_off w + w_len w) +
       (if il_ver t =? 1 then len (il_items t) * 2 + extent_total t * w_idx w else 0).
Proof.
  intros W. unfold iloc_bytes. lens. rewrite len_items by exact W. unfold extent_total. destruct (il_ver t =? 1); lia.
Qed.
Lemma ws_bits w : is_width w -> w < 16.
Proof. unfold is_width. lia. Qed.
Lemma nibbles a b : a < 16 -> b < 16 -> N.lor (N.shiftl a 4) b = 16 * a + b.
Proof. intros Ha Hb. rewrite lor_add by exact Hb. change (2 ^ 4) with 16. lia. Qed.
Lemma iloc_writes w t : wide_enough w t -> iloc_ok t -> writes (iloc_write_with w t) (iloc_bytes w t).
Proof.
  intros (W1 & W2 & W3 & W4 & F) (O1 & O2 & O3). assert (W : ws_ok w) by (repeat apply conj; assumption).
  unfold iloc_write_with, iloc_bytes. rewrite !nibbles by (apply ws_bits; assumption).
  apply writes_full_seq. repeat (apply writes_seq; [wstep|]). apply writes_map. intros a Ia.
  rewrite Forall_forall in F, O3. apply item_writes; [exact W|exact (F a Ia)|exact (O3 a Ia)].
Qed.
Lemma iloc_parses w t h n : n < 4294967296 -> wide_enough w t -> iloc_ok t -> parses n (iloc_read h) (iloc_bytes w t) (iloc_view t).
Proof.
  intros Hn (W1 & W2 & W3 & W4 & F) (O1 & O2 & O3). assert (W : ws_ok w) by (repeat apply conj; assumption).
  pose proof (ws_bits _ W1). pose proof (ws_bits _ W2). pose proof (ws_bits _ W3). pose proof (ws_bits _ W4).
  unfold iloc_read, iloc_bytes. pauto. pauto. pauto. cbv zeta.
  assert (E : mkWidths (N.shiftr (16 * w_off w + w_len w) 4) (N.land (16 * w_off w + w_len w) 15) (N.shiftr (16 * w_base w + w_idx w) 4) (N.land (16 * w_base w + w_idx w) 15) = w).
  { rewrite !shiftr_div, !land15. change (2 ^ 4) with 16. destruct w as [a b c d]. cbn [w_off w_len w_base w_idx] in *. f_equal; lia. }
  rewrite E. pauto. eapply parses_bind_last.
  - rewrite len_nat. apply (parses_rrep_in _ _ (view_item (il_ver t =? 1))); [|apply w32_lt]. intros a m Ia Hm.
    rewrite Forall_forall in F, O3. apply item_parses; [exact Hm|exact W|exact (F a Ia)|exact (O3 a Ia)].
  - pnext. unfold iloc_view. destruct t as [v f l]. cbn [il_ver il_flags il_items]. destruct (v =? 1); [|reflexivity]. f_equal. apply map_id.
Qed.
Lemma iloc_exact : exact iloc_codec iloc_layout.
Proof.
  split; [intros t _; plain; unfold iloc_layout, iloc_view; cbn [l_view iloc_codec c_ty]; reflexivity|].
  intros t Ht Hl. unfold iloc_codec, iloc_layout in *. cbn [c_size c_w c_rd l_body l_view l_ok c_ty] in *.
  rewrite iloc_widths_chosen. pose proof (chosen_wide t Ht) as C. pose proof C as (W1 & W2 & W3 & W4 & _).
  assert (W : ws_ok (chosen_widths t)) by (repeat apply conj; assumption). split; [|split].
  - unfold iloc_size_with. rewrite <- len_iloc by exact W. apply w32_small, Hl.
  - apply iloc_writes; assumption.
  - apply iloc_parses; [lia|assumption..].
Qed.
Lemma iloc_with_exact w : exact (iloc_codec_with w) (iloc_layout_with w).
Proof.
  split; [intros t _; plain; unfold iloc_layout_with, iloc_view; cbn [l_view iloc_codec c_ty]; reflexivity|].
  intros t (C & Ht) Hl. unfold iloc_codec_with, iloc_layout_with in *. cbn [c_size c_w c_rd l_body l_view l_ok c_ty] in *.
  pose proof C as (W1 & W2 & W3 & W4 & _).
  assert (W : ws_ok w) by (repeat apply conj; assumption). split; [|split].
  - unfold iloc_size_with. rewrite <- len_iloc by exact W. apply w32_small, Hl.
  - apply iloc_writes; assumption.
  - apply iloc_parses; [lia|assumption..].
Qed.
Lemma iloc_moved_len w base fin off t : len (iloc_bytes w (iloc_moved base fin off t)) = len (iloc_bytes w t).
Proof.
  unfold iloc_bytes, iloc_moved. cbn [il_ver il_flags il_items]. lens.
  assert (B : forall x y, len (be_w x y) = if x =? 8 then 8 else if x =? 4 then 4 else 0).
  { intros x y. unfold be_w. destruct (x =? 8); [reflexivity|]. destruct (x =? 4); reflexivity. }
  assert (E : len (flat_map (item_bytes (il_ver t =? 1) w) (map (item_moved base fin off) (il_items t))) = len (flat_map (item_bytes (il_ver t =? 1) w) (il_items t))).
  { induction (il_items t) as [|a l IH]; [reflexivity|]. cbn [map flat_map]. rewrite !len_app, IH. f_equal.
    unfold item_moved. destruct ((i_method a =? 0) && (i_dref a =? 0)); [|reflexivity]. unfold item_bytes. cbn [i_id i_method i_dref i_base i_exts].
    rewrite !len_app, !B. do 4 f_equal. f_equal.
    induction (i_exts a) as [|b es IHe]; [reflexivity|]. cbn [map flat_map]. rewrite !len_app, IHe. f_equal. unfold extent_bytes.
    cbn [e_index e_off e_len]. rewrite !len_app, !B. reflexivity. }
  rewrite E. reflexivity.
Qed.
(* room for the move *)
Definition room (off : Z) (v : N) : Prop := (Z.of_N v + off < 4294967296)%Z.
Lemma moved_value base fin off v : (0 <= off)%Z -> room off v -> (if inside base fin v then add_s32 v off else v) < 4294967296.
Proof. intros H R. unfold room, add_s32, u64_of in *. destruct (inside base fin v); [|lia]. rewrite Z.mod_small by lia. lia. Qed.
Lemma moved_wide base fin off t : (0 <= off)%Z -> iloc_ok t ->
  Forall (fun a => i_method a = 0 -> i_dref a = 0 -> room off (i_base a) /\ Forall (fun b => room off (e_off b)) (i_exts a)) (il_items t) ->
  wide_enough (iloc_widths t) (iloc_moved base fin off t) /\ iloc_ok (iloc_moved base fin off t).
Proof.
  intros Ho Ht R. rewrite iloc_widths_chosen. pose proof (chosen_wide t Ht) as (W1 & W2 & W3 & W4 & F).
  assert (L4 : forall a, In a (il_items t) -> i_dref a = 0 -> 4 <= w_off (chosen_widths t) /\ 4 <= w_base (chosen_widths t)).
  { intros a Ia Ea. unfold chosen_widths. cbn [w_off w_base].
    assert (X : existsb (fun a => i_dref a =? 0) (il_items t) = true) by (apply existsb_exists; exists a; split; [exact Ia|apply N.eqb_eq, Ea]).
    rewrite X. lia. }
  assert (Fit : forall w v, 4 <= w -> is_width w -> v < 4294967296 -> fits_w w v).
  { intros w v H4 [->|[->| ->]] Hv; cbv [fits_w N.eqb Pos.eqb]; lia. }
  rewrite Forall_forall in R, F. destruct Ht as (O1 & O2 & O3). rewrite Forall_forall in O3. split.
  - repeat (apply conj; [assumption|]). apply Forall_forall. intros a' Ia'. cbn [iloc_moved il_items] in Ia'. apply in_map_iff in Ia' as (a & <- & Ia).
    pose proof (F a Ia) as (Fb & Fe). unfold item_moved. destruct (N.eqb_spec (i_method a) 0) as [Em|]; [|split; assumption].
    destruct (N.eqb_spec (i_dref a) 0) as [Ed|]; [|split; assumption]. cbn [andb i_base i_exts].
    destruct (R a Ia Em Ed) as (Rb & Re). destruct (L4 a Ia Ed) as (La & Lb).
    split; [apply Fit; [exact Lb|exact W3|apply moved_value; assumption]|].
    apply Forall_forall. intros b' Ib'. apply in_map_iff in Ib' as (b & <- & Ib). rewrite Forall_forall in Fe, Re. destruct (Fe b Ib) as (E1 & E2 & E3).
    repeat apply conj; cbn [e_index e_off e_len]; try assumption. apply Fit; [exact La|exact W1|apply moved_value; [assumption|apply Re, Ib]].
  - split; [exact O1|]. cbn [iloc_moved il_items]. split; [unfold len in *; rewrite map_length; exact O2|].
    apply Forall_forall. intros a' Ia'. apply in_map_iff in Ia' as (a & <- & Ia). pose proof (O3 a Ia) as (P1 & P2 & P3 & P4 & P5 & P6).
    unfold item_moved. destruct (N.eqb_spec (i_method a) 0) as [Em|]; [|repeat apply conj; assumption].
    destruct (N.eqb_spec (i_dref a) 0) as [Ed|]; [|repeat apply conj; assumption]. cbn [andb].
    destruct (R a Ia Em Ed) as (Rb & Re). unfold item_ok. cbn [i_id i_method i_dref i_base i_exts].
    pose proof (moved_value base fin off (i_base a) Ho Rb). repeat (apply conj; [first [assumption|lia|unfold len in *; rewrite map_length; assumption]|]).
    apply Forall_forall. intros b' Ib'. apply in_map_iff in Ib' as (b & <- & Ib). rewrite Forall_forall in P6, Re. destruct (P6 b Ib) as (E1 & E2 & E3).
    pose proof (moved_value base fin off (e_off b) Ho (Re b Ib)). repeat apply conj; cbn [e_index e_off e_len]; (assumption || lia).
Qed.
Lemma iloc_robust : robust iloc_codec.
Proof.
  assert (G : forall w, consumes (get_w w) /\ tame (get_w w)).
  { intros w. unfold get_w. destruct (w =? 8), (w =? 4), (w =? 0); (split; [cons_step|tame_step]). }
  assert (Ge : forall v1 w, consumes (extent_read v1 w) /\ tame (extent_read v1 w)).
  { intros v1 w. unfold extent_read. split; destruct v1; repeat first [apply G|progress cons_step|progress tame_step]. }
  assert (Gi : forall v1 w, consumes (item_read v1 w) /\ tame (item_read v1 w)).
  { intros v1 w. unfold item_read. split; repeat first [apply G|apply Ge|progress cons_step|progress tame_step]. }
  intros h. apply safe_of.
  - change (consumes (iloc_read h)). unfold iloc_read. repeat first [apply Gi|progress cons_step].
  - change (tame (iloc_read h)). unfold iloc_read. repeat first [apply Gi|progress tame_step].
Qed.

(* ------------------------------------------------------------------ *)
(* item data and item references                                        *)
Lemma idat_exact : exact idat_codec idat_layout.
Proof.
  split; [intros t _; plain|]. intros t Ht Hl. unfold idat_codec, idat_layout in *. cbn [c_size c_w c_rd l_body l_view l_ok c_ty] in *.
  split; [apply w32_small, Hl|]. split; [wstep|]. unfold idat_read. apply parses_getrdn. cbn [h_size]. rewrite sub32_le by lia.
  apply parses_take_eq. unfold len. lia.
Qed.
Lemma idat_robust : robust idat_codec.
Proof. robust_tac idat_read. Qed.
Lemma iref1_box_len big r : len (box (r_type r) (iref1_bytes big r)) = if big then 14 + 4 * len (r_ids r) else 12 + 2 * len (r_ids r).
Proof.
  rewrite len_box. unfold iref1_bytes. destruct big; lens; [rewrite (len_flat_map_const be32 4) by reflexivity|rewrite (len_flat_map_const be16 2) by reflexivity]; lia.
Qed.
Lemma iref1_size_ok big r : len (r_ids r) < 65536 -> iref1_size big r = len (box (r_type r) (iref1_bytes big r)).
Proof. intros H. rewrite iref1_box_len. unfold iref1_size. destruct big; rewrite w32_small by lia; lia. Qed.
Lemma iref1_writes big r : iref1_ok big r -> wrun (iref1_size big r) (iref1_write big r) = Ok (box (r_type r) (iref1_bytes big r)).
Proof.
  intros (P & F & L & I). rewrite iref1_size_ok by exact L. pose proof (iref1_box_len big r) as E.
  apply writes_run; [|reflexivity|destruct big; lia].
  unfold iref1_write. rewrite iref1_size_ok by exact L.
  assert (N1 : len (box (r_type r) (iref1_bytes big r)) <> 1) by (destruct big; lia).
  eapply writes_eq; [apply writes_seq; [apply writes_base, N1|]|].
  - instantiate (1 := iref1_bytes big r). unfold iref1_bytes. apply writes_seq; [destruct big; wstep|]. apply writes_seq; [wstep|].
    destruct big; apply writes_map; intros x _; wstep.
  - rewrite len_box. unfold box. rewrite <- app_assoc. reflexivity.
Qed.
Lemma iref_size_ok big l : forall acc, Forall (iref1_ok big) l ->
  acc + len (flat_map (fun r => box (r_type r) (iref1_bytes big r)) l) < 4294967296 ->
  fold_left (fun a r => w32 (a + iref1_size big r)) l acc = acc + len (flat_map (fun r => box (r_type r) (iref1_bytes big r)) l).
Proof.
  induction l as [|r l IH]; intros acc F H; cbn [fold_left flat_map] in *; [lens; lia|]. inversion_clear F as [|? ? Hr Fl].
  rewrite len_app in *. rewrite iref1_size_ok by apply Hr. rewrite w32_small by lia. rewrite IH by (try assumption; lia). lia.
Qed.
Lemma iref_writes t : iref_ok t -> writes (c_w iref_codec t) (l_body iref_layout t).
Proof.
  intros (Fl & F). unfold iref_codec, iref_layout. cbn [c_w l_body]. apply writes_full_seq. apply writes_map. intros r Ir.
  rewrite Forall_forall in F. rewrite iref1_writes by exact (F r Ir). apply writes_embed. symmetry. apply iref1_size_ok, (F r Ir).
Qed.
Lemma iref1_reads n r : n < 4294967296 -> iref1_ok true r -> parses n (iref1_read true) (box (r_type r) (iref1_bytes true r)) (len (box (r_type r) (iref1_bytes true r)), r).
Proof.
  intros Hn (P & F & L & I). pose proof (iref1_box_len true r) as E. rewrite len_box in E. rewrite len_box. unfold iref1_read, box. destruct P as [P _].
  remember (8 + len (iref1_bytes true r)) as sz eqn:Es. clear Es.
  pauto. pauto. unfold iref1_bytes. pauto. pauto. eapply parses_bind_last; [rewrite len_nat; apply parses_rrep; [|apply w32_lt]|].
  - intros x m Ix. apply parses_get32. rewrite Forall_forall in I. apply I, Ix.
  - pnext. destruct r. reflexivity.
Qed.
Lemma iref_loop_reads l : forall fuel size n, Forall (iref1_ok true) l ->
  (length l <= fuel)%nat -> size = n + len (flat_map (fun r => box (r_type r) (iref1_bytes true r)) l) -> size < 4294967296 ->
  reads n (iref_loop fuel true size n) (flat_map (fun r => box (r_type r) (iref1_bytes true r)) l) l.
Proof.
  induction l as [|r l IH]; intros fuel size n F Hf Hs Hl; cbn [flat_map] in *.
  - lens. assert (E : n <? size = false) by (apply N.ltb_ge; lia). destruct fuel; cbn [iref_loop]; rewrite E; apply reads_ret; (lia || reflexivity).
  - inversion_clear F as [|? ? Hr Fl]. cbn [length] in Hf. destruct fuel as [|fuel]; [lia|]. rewrite len_app in Hs. pose proof (iref1_box_len true r) as L1. cbv iota in L1.
    assert (E : n <? size = true) by (apply N.ltb_lt; lia). cbn [iref_loop]. rewrite E.
    eapply reads_bind; [apply reads_of, iref1_reads; [lia|exact Hr]|]. cbv beta iota. rewrite w32_small by lia.
    eapply reads_bind_last; [apply IH; [exact Fl|lia|lia|exact Hl]|]. destruct Hr as ((_ & _ & _ & NF) & _). rewrite NF. apply reads_ret; [apply w32_lt|reflexivity].
Qed.
Lemma iref_faithful : faithful iref_codec iref_layout.
Proof.
  split; [intros t _; plain|]. intros t (V & Ht) Hl. pose proof Ht as (Fl & F). split; [|split].
  - unfold iref_codec, iref_layout in *. cbn [c_size l_body] in *. rewrite len_app, len_full in *. rewrite iref_size_ok by (try assumption; lia). lia.
  - apply iref_writes, Ht.
  - unfold iref_codec, iref_layout in *. cbn [c_rd l_body l_view] in *. rewrite len_app, len_full in *. rewrite V in F. rewrite V in Hl |- *. change (1 =? 1) with true in *.
    intros r. unfold iref_read.
    remember (length (inp {| inp := (full 1 (ir_flags t) ++ flat_map (fun r0 => box (r_type r0) (iref1_bytes true r0)) (ir_list t)) ++ r; rdn := 8 |}) + 1)%nat as fuel eqn:Ef.
    assert (Hf : (length (ir_list t) <= fuel)%nat).
    { subst fuel. cbn [inp]. rewrite !app_length. clear. induction (ir_list t) as [|a l IH]; cbn [length flat_map]; [lia|]. rewrite app_length.
      pose proof (iref1_box_len true a) as E. unfold len in E. lia. }
    clear Ef. revert r. eapply reads_bind; [apply reads_of, parses_full; rewrite <- V; exact Fl|]. cbn [fst snd]. change (1 <? 1) with false. change (1 =? 1) with true. cbv iota.
    rewrite len_full. change (w32 (8 + 4)) with 12.
    eapply reads_bind_nil; [intros s Es; unfold getrdn; rewrite Es; reflexivity|]. cbn [h_size].
    eapply reads_bind_last; [apply iref_loop_reads; [exact F|exact Hf|lia|lia]|]. apply reads_ret; [apply w32_lt|]. destruct t. cbn in V. subst. reflexivity.
Qed.

(* AuxProps.v -- property C35. *)
From Verif Require Import Base Codec AtomModel AtomProofs BoxModel BoxSpec BoxProofs HeaderSpec HeaderProofs SaveSpec MdatModel HandleProofs GroupProofs MediaProofs IndexProofs AuxModel AuxSpec AuxProofs.

(* after any legal history: for every kind of information the bytes given for
   each sample, end of file past them *)
Theorem C35_information_per_sample : forall os, xall xhist0 os ->
  exists t, xsteps aux0 os = Ok t /\
    forall k n, 1 <= n ->
      aux_get t k n = match xh_infos (fold_left xgrow os xhist0) k with
                      | None => Err MP4BadParamErr
                      | Some (_, l) => match nth_error l (N.to_nat (n - 1)) with Some b => Ok b | None => Err MP4EOF end
                      end.
Proof.
  intros os L. destruct (xsteps_ok os aux0 xhist0 xinv0 L) as (t & E & I). exists t. split; [exact E|]. intros k n Hn.
  rewrite (aux_get_ok t _ k n I) by (apply xlimit; [exact L|reflexivity]).
  destruct (xh_infos (fold_left xgrow os xhist0) k) as [[d l]|]; [|reflexivity].
  destruct (N.ltb_spec (len l) n) as [H|H]; destruct (nth_error l (N.to_nat (n - 1))) eqn:En.
  - assert (Q : (N.to_nat (n - 1) < length l)%nat) by (apply nth_error_Some; congruence). unfold len in H. lia.
  - reflexivity.
  - destruct (N.eqb_spec n 0); [lia|]. rewrite (nth_error_nth _ _ _ En). reflexivity.
  - apply nth_error_None in En. unfold len in H. lia.
Qed.
Print Assumptions C35_information_per_sample.
(* a kind is set up once *)
Theorem C35_second_setup_rejected : forall os k d, xall xhist0 os -> xh_infos (fold_left xgrow os xhist0) k <> None ->
  exists t, xsteps aux0 os = Ok t /\ aux_setup t k d = Err MP4BadParamErr.
Proof.
  intros os k d L Hk. destruct (xsteps_ok os aux0 xhist0 xinv0 L) as (t & E & (zs & Ez & Eo & ND & HP & HK & _)). exists t. split; [exact E|].
  assert (Hkk : Forall (fun zo => zkey (fst zo) = okey (snd zo)) zs) by (eapply Forall_impl; [|exact HP]; intros zo Hzo; exact (proj1 Hzo)).
  unfold aux_setup. destruct (aux_find_ok t zs k Ez Eo Hkk ND) as [[NI F]|(a & z & o & b & _ & _ & F)]; rewrite F; [|reflexivity].
  exfalso. apply NI, HK. exact Hk.
Qed.
Print Assumptions C35_second_setup_rejected.
Example C35_ex :
  let os := [XSetup (1, 7, 0) 0; XData [9; 9]; XSetup (0, 0, 0) 2; XAdd (1, 7, 0) [[1; 2; 3]; []] [3; 0];
             XAdd (0, 0, 0) [[4; 5]; [6; 7]] [2]; XData [8]; XAdd (1, 7, 0) [[5]] [1]] in
  xall xhist0 os /\ (do t <- xsteps aux0 os; aux_get t (1, 7, 0) 3) = Ok [5] /\
  (do t <- xsteps aux0 os; aux_get t (0, 0, 0) 2) = Ok [6; 7] /\ (do t <- xsteps aux0 os; aux_get t (1, 7, 0) 4) = Err MP4EOF.
Proof.
  split; [|vm_compute; auto]. cbn [xall]. repeat match goal with |- xlegal _ _ /\ _ => split end; try exact I; (split; [|reflexivity]); try exact I.
  - split; [reflexivity|]. split; [reflexivity|]. left; reflexivity.
  - split; [reflexivity|]. split; [reflexivity|]. right. repeat split.
  - exists 0, []. split; [reflexivity|]. split; [discriminate|]. split; [left; reflexivity|].
    split; [|reflexivity]. repeat (apply Forall_cons; [split; [reflexivity|intros; contradiction]|]). apply Forall_nil.
  - exists 2, []. split; [reflexivity|]. split; [discriminate|]. split; [right; exists 2; split; [reflexivity|repeat constructor]|].
    split; [|reflexivity]. repeat (apply Forall_cons; [split; [reflexivity|intros; reflexivity]|]). apply Forall_nil.
  - exists 0, [[1; 2; 3]; []]. split; [reflexivity|]. split; [discriminate|]. split; [left; reflexivity|].
    split; [|reflexivity]. repeat (apply Forall_cons; [split; [reflexivity|intros; contradiction]|]). apply Forall_nil.
Qed.

(* the two boxes, written and read back; the individual sizes only if the
   array they are read into has room for the reader's stray stores *)
Theorem C35_saiz_round_trip : forall room s, l_ok (saiz_layout_in room) s -> 8 + len (l_body (saiz_layout_in room) s) < 4294967296 ->
  round_trip (saiz_codec_in room) (saiz_layout_in room) s.
Proof. intros room s. apply exact_round_trip. apply saiz_exact. Qed.
Print Assumptions C35_saiz_round_trip.
Theorem C35_saio_round_trip : forall s, l_ok saio_layout s -> 8 + len (l_body saio_layout s) < 4294967296 ->
  round_trip saio_codec saio_layout s.
Proof. intros s. apply exact_round_trip. exact saio_exact. Qed.
Print Assumptions C35_saio_round_trip.
Theorem C35_boxes_robust : robust (saiz_codec_in true) /\ robust saio_codec.
Proof. split; [exact saiz_robust|exact saio_robust]. Qed.
Print Assumptions C35_boxes_robust.
(* any box with individual sizes, read by the library *)
Theorem C35_individual_sizes_overrun_refuted : forall s rest, l_ok (saiz_layout_in true) s ->
  8 + len (l_body (saiz_layout_in true) s) < 4294967296 -> z_def s = 0 -> z_count s <> 0 ->
  read_box saiz_codec saiz_new (box (code "saiz") (l_body (saiz_layout_in true) s) ++ rest) = UB.
Proof.
  intros s rest (Hf & Hn & Hd & Hc & Hs & _) Hl D C. rewrite (read_box_is saiz_codec saiz_new (code "saiz")) by (reflexivity || exact Hl || plain).
  cbn [saiz_layout_in l_body] in *. set (h := mkH _ _ _ _ _). unfold saiz_codec, saiz_codec_in. cbn [c_rd].
  destruct s as [v f ty pa d n l]. cbn [z_ver z_flags z_type z_param z_def z_count z_sizes] in *. subst d.
  change (0 =? 0) with true in *. cbv iota in *. destruct Hs as [-> Hs]. unfold saiz_read_in.
  rewrite <- !app_assoc. rewrite (parses_then _ _ _ _ _ _ (parses_full _ _ _ Hf)). cbv beta iota.
  rewrite (parses_then _ _ _ _ _ _ (parses_named _ _ _ _ (w32_lt _) Hn)). cbv beta iota.
  rewrite (parses_then _ _ _ _ _ _ (parses_get8 _ 0 Hd)). cbv beta.
  rewrite (parses_then _ _ _ _ _ _ (parses_get32 _ _ Hc)). cbv beta.
  change (0 =? 0) with true. cbn [orb]. destruct (N.eqb_spec (len l) 0) as [Z|_]; [contradiction|].
  unfold rbind at 1. assert (L3 : length (firstn (N.to_nat (len l - 3)) l) = N.to_nat (len l - 3)) by (rewrite firstn_length; unfold len in *; lia).
  destruct (skipn (N.to_nat (len l - 3)) l) as [|x t] eqn:S.
  { exfalso. assert (S' : length (skipn (N.to_nat (len l - 3)) l) = 0%nat) by (rewrite S; reflexivity). rewrite skipn_length in S'. unfold len in *. lia. }
  assert (Q : flat_map be8 l = flat_map be8 (firstn (N.to_nat (len l - 3)) l) ++ be8 x ++ flat_map be8 t).
  { rewrite <- (firstn_skipn (N.to_nat (len l - 3)) l) at 1. rewrite S, flat_map_app. reflexivity. }
  assert (F : forall y, In y l -> y < 256) by (apply Forall_forall; exact Hs).
  rewrite Q, <- !app_assoc. pose proof (parses_rrep get8 be8 _ (fun y n I => parses_get8 n y (F y ltac:(rewrite <- (firstn_skipn (N.to_nat (len l - 3)) l); apply in_or_app; left; exact I)))) as PR.
  rewrite L3 in PR. rewrite (parses_then _ _ _ _ _ _ (PR _ (w32_lt _))). clear PR.
  cbv beta. rewrite (parses_then _ _ _ _ _ _ (parses_get8 _ x (F x ltac:(rewrite <- (firstn_skipn (N.to_nat (len l - 3)) l), S; apply in_or_app; right; left; reflexivity)))).
  reflexivity.
Qed.
Print Assumptions C35_individual_sizes_overrun_refuted.
Example C35_individual_sizes_case : l_ok (saiz_layout_in true) (mkSaiz 0 0 0 0 0 3 [4; 0; 9]) /\
  read_box saiz_codec saiz_new (box (code "saiz") (l_body (saiz_layout_in true) (mkSaiz 0 0 0 0 0 3 [4; 0; 9]))) = UB.
Proof.
  split; [|reflexivity]. split; [split; reflexivity|]. split; [split; [reflexivity|split; [reflexivity|split; reflexivity]]|].
  split; [reflexivity|]. split; [reflexivity|]. split; [|discriminate]. split; [reflexivity|repeat constructor].
Qed.
(* the boxes of a history can be written *)
Theorem C35_boxes_writable : forall os, xall xhist0 os ->
  Forall (fun o => match o with XSetup k _ => snd (fst k) < 4294967296 /\ snd k < 4294967296 | _ => True end) os ->
  exists t, xsteps aux0 os = Ok t /\ Forall (fun s => round_trip (saiz_codec_in true) (saiz_layout_in true) s) (x_saiz t) /\
    Forall (fun s => z_def s <> 0 -> round_trip saiz_codec saiz_layout s) (x_saiz t) /\
    Forall (fun s => 8 + len (l_body saio_layout s) < 4294967296 -> round_trip saio_codec saio_layout s) (x_saio t).
Proof.
  intros os L K. destruct (xsteps_ok os aux0 xhist0 xinv0 L) as (t & E & I). exists t. split; [exact E|].
  assert (Q : Forall (fun s => z_ver s = 0 /\ (z_flags s = 1 \/ z_flags s = 0 /\ z_type s = 0 /\ z_param s = 0) /\ z_type s < 4294967296 /\ z_param s < 4294967296 /\
               (z_def s <> 0 -> z_sizes s = [])) (x_saiz t) /\
              Forall (fun s => o_ver s = 0 /\ o_extra s = 0 /\ (o_flags s = 1 \/ o_flags s = 0 /\ o_type s = 0 /\ o_param s = 0) /\ o_type s < 4294967296 /\ o_param s < 4294967296) (x_saio t)).
  { clear I. assert (L0 : xall xhist0 os) by exact L. clear L. revert E L0 K.
    assert (Q0 : Forall (fun s => z_ver s = 0 /\ (z_flags s = 1 \/ z_flags s = 0 /\ z_type s = 0 /\ z_param s = 0) /\ z_type s < 4294967296 /\ z_param s < 4294967296 /\
               (z_def s <> 0 -> z_sizes s = [])) (x_saiz aux0) /\
              Forall (fun s => o_ver s = 0 /\ o_extra s = 0 /\ (o_flags s = 1 \/ o_flags s = 0 /\ o_type s = 0 /\ o_param s = 0) /\ o_type s < 4294967296 /\ o_param s < 4294967296) (x_saio aux0)) by (split; constructor).
    revert Q0. generalize aux0 xhist0. induction os as [|o os IH]; intros t0 h0 Q0 E L K; cbn [xsteps] in E; [injection E as <-; exact Q0|].
    destruct (xstep t0 o) as [t1| |] eqn:E1; cbn [bind] in E; try discriminate. destruct L as [L1 L2]. inversion K as [|? ? K1 K2]; subst.
    apply (IH t1 (xgrow h0 o)); [|exact E|exact L2|exact K2]. clear IH E L2 K2. destruct Q0 as [QZ QO].
    assert (SI : forall A (P : A -> Prop) (l : list A) i v, Forall P l -> P v -> Forall P (set_ix l i v)).
    { clear. intros A P. induction l as [|x l IH]; intros [|i] v F Hv; cbn [set_ix]; inversion F; subst; constructor; auto. }
    destruct o as [k d|k l sizes|b]; cbn [xstep] in E1.
    - unfold aux_setup in E1. destruct (aux_find t0 k) as [[i j]| |]; cbn [bind fst] in E1; try discriminate. destruct i; [discriminate|].
      injection E1 as <-. cbn [x_saiz x_saio]. split; apply Forall_app; (split; [assumption|]); constructor; constructor || idtac.
      + destruct (fst (fst k) =? 0); reflexivity.
      + destruct (fst (fst k) =? 0); cbn [z_flags z_type z_param z_sizes z_def]; repeat split; auto; lia.
      + destruct (fst (fst k) =? 0); reflexivity.
      + destruct (fst (fst k) =? 0); cbn [o_flags o_type o_param o_extra saio_new]; repeat split; auto; lia.
    - destruct (aux_add t0 k (concat l) (len l) sizes) as [r t1'] eqn:Ea. destruct r; try discriminate. injection E1 as <-.
      unfold aux_add in Ea. destruct (len l =? 0); [injection Ea as _ <-; split; assumption|].
      destruct (aux_find t0 k) as [[[i|] [j|]]| |]; try discriminate.
      destruct (nth_error (x_saiz t0) i) as [z|] eqn:Ni; [|discriminate]. destruct (nth_error (x_saio t0) j) as [o|] eqn:Nj; [|discriminate].
      destruct (mdat_add (x_mdat t0) (concat l)) as [m| |]; try discriminate.
      destruct (saiz_add z (len l) sizes) as [z'| |] eqn:Az; try discriminate.
      destruct (saio_add (set_total o (len (md_data (x_mdat t0)))) (len l) sizes) as [o'| |] eqn:Ao; try discriminate. injection Ea as _ <-. cbn [x_saiz x_saio].
      apply nth_error_In in Ni, Nj. split; apply SI; try assumption.
      + rewrite Forall_forall in QZ. specialize (QZ z Ni). unfold saiz_add in Az. destruct (N.eqb_spec (z_def z) 0) as [E0|E0].
        * destruct (each_size (len l) sizes); [|discriminate]. destruct (4294967296 <=? z_count z + len l); [discriminate|]. injection Az as <-.
          cbn [z_ver z_flags z_type z_param z_def z_sizes]. destruct QZ as (A1 & A2 & A3 & A4 & _). repeat (split; [assumption|]). intros; contradiction.
        * injection Az as <-. exact QZ.
      + rewrite Forall_forall in QO. specialize (QO o Nj). unfold saio_add in Ao. destruct (each_size (len l) sizes); [|discriminate].
        destruct (_ <=? _); [discriminate|]. destruct (running _ _). injection Ao as <-. exact QO.
    - destruct (mdat_add (x_mdat t0) b); cbn [bind] in E1; try discriminate. injection E1 as <-. split; assumption. }
  destruct Q as [QZ QO]. destruct I as (zs & Ez & Eo & ND & HP & HK & HC & HD). rewrite Forall_forall in HP, HC, QZ, QO.
  assert (HD4 : xh_data (fold_left xgrow os xhist0) < 4294967296) by (apply xlimit; [exact L|reflexivity]).
  assert (HC4 : forall os h, xall h os -> xh_count h < 536870912 -> xh_count (fold_left xgrow os h) < 536870912).
  { clear. induction os as [|o os IH]; intros h L H; cbn [fold_left]; [exact H|]. destruct L as [[L1 _] L2]. apply IH; [exact L2|].
    destruct o as [k d|k l sizes|b]; cbn [xgrow]; try exact H. destruct L1 as (d & l0 & Hk & _ & _ & _ & Hc). rewrite Hk. exact Hc. }
  specialize (HC4 os xhist0 L eq_refl).
  assert (ZL : forall room s, In s (x_saiz t) -> (room = false -> z_def s <> 0) -> round_trip (saiz_codec_in room) (saiz_layout_in room) s).
  { intros room s Is Hr. specialize (QZ s Is). rewrite Ez in Is. apply in_map_iff in Is. destruct Is as ([z o] & Es & Izo). cbn [fst] in Es. subst z.
    destruct (HP _ Izo) as [_ (d & l & H1 & H2 & H3 & H4 & H5 & H6 & H7)]. specialize (HC _ Izo). cbn [fst snd] in *.
    pose proof (Forall2_len _ _ _ H7) as L7. destruct QZ as (A1 & A2 & A3 & A4 & A5).
    assert (Lok : l_ok (saiz_layout_in room) s).
    { unfold saiz_layout_in. cbn [l_ok]. split; [split; [lia|destruct A2 as [->|(-> & _)]; lia]|].
      split; [split; [exact A3|]; split; [exact A4|]; intros T; destruct A2 as [A2|(_ & ? & ?)]; [rewrite A2 in T; discriminate|auto]|].
      split; [lia|]. split; [lia|]. split; [|intros R D; destruct (Hr R D)]. destruct (N.eqb_spec (z_def s) 0) as [E0|E0]; [|exact (A5 E0)].
      rewrite H5 by congruence. split; [unfold len; rewrite map_length; exact H3|].
      apply Forall_forall. intros x Ix. apply in_map_iff in Ix. destruct Ix as (b & <- & Ib). rewrite Forall_forall in H6. apply (H6 b Ib). }
    apply C35_saiz_round_trip; [exact Lok|]. rewrite saiz_body_len by exact Lok.
    destruct (N.testbit (z_flags s) 0), (z_def s =? 0); lia. }
  split; [|split]; apply Forall_forall; intros s Is.
  - apply (ZL true); [exact Is|discriminate].
  - intros Hd. apply (ZL false); [exact Is|auto].
  - intros Hl. apply C35_saio_round_trip; [|exact Hl]. specialize (QO s Is). rewrite Eo in Is. apply in_map_iff in Is. destruct Is as ([z o] & Es & Izo). cbn [snd] in Es. subst o.
    destruct (HP _ Izo) as [_ (d & l & H1 & H2 & H3 & H4 & H5 & H6 & H7)]. specialize (HC _ Izo). cbn [fst snd] in *.
    destruct QO as (A1 & A2 & A3 & A4 & A5).
    unfold saio_layout. cbn [l_ok]. split; [split; [lia|destruct A3 as [->|(-> & _)]; lia]|].
    split; [split; [exact A4|]; split; [exact A5|]; intros T; destruct A3 as [A3|(_ & ? & ?)]; [rewrite A3 in T; discriminate|auto]|].
    split; [lia|]. split; [intros _; exact A2|]. rewrite A1. change (0 =? 0) with true. cbv iota.
    clear -H7 HD HD4. induction H7 as [|p b ps bs [Hp _] _ IH]; constructor; [lia|exact IH].
Qed.
Print Assumptions C35_boxes_writable.

(* joining a fragment's boxes with the track's *)
Theorem C35_merge_sizes : forall s o,
  (z_def s = 0 -> z_count s = len (z_sizes s)) -> (z_def o = 0 -> z_count o = len (z_sizes o)) ->
  z_count s + z_count o < 4294967296 ->
  exists s', saiz_merge s o = Ok s' /\ sizes_of s' = sizes_of s ++ sizes_of o /\ z_count s' = z_count s + z_count o /\
    (z_def s' = 0 -> z_count s' = len (z_sizes s')) /\ z_type s' = z_type s /\ z_param s' = z_param s /\ z_flags s' = z_flags s.
Proof.
  intros s o Hs Ho Hc. unfold saiz_merge, sizes_of.
  destruct (N.eqb_spec (z_def s) 0) as [E|E]; cbn [negb andb].
  - destruct (N.leb_spec 4294967296 (z_count s + z_count o)); [lia|]. cbn [orb].
    assert (L : len (if z_def o =? 0 then z_sizes o else repeat (z_def o) (N.to_nat (z_count o))) = z_count o).
    { destruct (N.eqb_spec (z_def o) 0); [symmetry; auto|]. unfold len. rewrite repeat_length. lia. }
    rewrite L. destruct (N.ltb_spec (z_count o) (z_count o)); [lia|].
    eexists. split; [reflexivity|]. cbn [z_def z_sizes z_count z_type z_param z_flags]. change (0 =? 0) with true. cbv iota.
    repeat split; auto. intros _. rewrite len_app, L, <- Hs by exact E. reflexivity.
  - destruct (N.eqb_spec (z_def s) (z_def o)) as [E2|E2].
    + eexists. split; [reflexivity|]. cbn [z_def z_sizes z_count z_type z_param z_flags]. unfold w32. rewrite N.mod_small by lia.
      destruct (N.eqb_spec (z_def s) 0); [contradiction|]. rewrite <- E2. destruct (N.eqb_spec (z_def s) 0); [contradiction|].
      repeat split; auto; [|intros; contradiction]. rewrite <- repeat_app. f_equal. lia.
    + destruct (N.leb_spec 4294967296 (z_count s + z_count o)); [lia|]. cbn [orb].
      assert (L : len (if z_def o =? 0 then z_sizes o else repeat (z_def o) (N.to_nat (z_count o))) = z_count o).
      { destruct (N.eqb_spec (z_def o) 0); [symmetry; auto|]. unfold len. rewrite repeat_length. lia. }
      rewrite L. destruct (N.ltb_spec (z_count o) (z_count o)); [lia|].
      eexists. split; [reflexivity|]. cbn [z_def z_sizes z_count z_type z_param z_flags]. change (0 =? 0) with true. cbv iota.
      repeat split; auto. intros _. rewrite len_app, L. unfold len. rewrite repeat_length. lia.
Qed.
Print Assumptions C35_merge_sizes.
Theorem C35_merge_offsets : forall s o base, len (o_offs s) + len (o_offs o) < 536870912 ->
  Forall (fun x => base + x < 18446744073709551616) (o_offs o) ->
  exists s', saio_merge s o base = Ok s' /\ o_offs s' = o_offs s ++ map (N.add base) (o_offs o).
Proof.
  intros s o base H F. unfold saio_merge. destruct (N.leb_spec 536870912 (len (o_offs s) + len (o_offs o))); [lia|].
  eexists. split; [reflexivity|]. cbn [o_offs]. f_equal. apply map_ext_in. intros x Ix. rewrite Forall_forall in F. unfold w64. apply N.mod_small. apply F. exact Ix.
Qed.
Print Assumptions C35_merge_offsets.

(* where it fails. The library never chooses 64-bit offsets: *)
Theorem C35_far_offsets_refuted : exists s bs s', o_ver s = 0 /\ o_offs s = [4294967300] /\
  saio_add (set_total saio_new 4294967300) 1 [3] = Ok s /\
  write_box saio_codec s = Ok bs /\ read_box saio_codec saio_new bs = Ok ((ALeaf _ s', len bs), []) /\ o_offs s' = [4].
Proof.
  eexists _, _, _. split; [|split; [|split; [vm_compute; reflexivity|split; [vm_compute; reflexivity|split; [vm_compute; reflexivity|reflexivity]]]]]; reflexivity.
Qed.
Print Assumptions C35_far_offsets_refuted.
(* a size of 256 or more is cut off *)
Theorem C35_long_information_refuted : exists t, aux_setup aux0 (0, 0, 0) 0 = Ok t /\
  exists t', aux_add t (0, 0, 0) (repeat 1 259) 1 [259] = (Ok tt, t') /\ aux_get t' (0, 0, 0) 1 = Ok [1; 1; 1].
Proof. eexists. split; [reflexivity|]. eexists. split; [vm_compute; reflexivity|]. vm_compute. reflexivity. Qed.
Print Assumptions C35_long_information_refuted.
(* a call refused for its number of sizes has counted its samples already:
   asking for them reads outside the offsets *)
Theorem C35_refused_call_refuted : exists t, aux_setup aux0 (0, 0, 0) 2 = Ok t /\
  exists t', aux_add t (0, 0, 0) [1; 2; 3; 4; 5; 6] 3 [2; 2] = (Err MP4BadParamErr, t') /\ aux_get t' (0, 0, 0) 1 = UB.
Proof. eexists. split; [reflexivity|]. eexists. split; [vm_compute; reflexivity|]. vm_compute. reflexivity. Qed.
Print Assumptions C35_refused_call_refuted.
(* a file with sizes but no offsets: an uninitialised pointer is used *)
Theorem C35_missing_offsets_refuted : forall z k n m, aux_get (mkAuxs [z] [] m) k n = UB.
Proof. reflexivity. Qed.
Print Assumptions C35_missing_offsets_refuted.

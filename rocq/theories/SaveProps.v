(* SaveProps.v -- C15 (saving does not change the movie), C38 (media data). *)
From Verif Require Import Base Codec BitLemmas StreamProofs AtomModel AtomSpec AtomProofs BoxModel BoxSpec BoxProofs ChunkSpec ChunkModel ChunkProofs
  SaveSpec SaveModel SaveProofs MdatModel.

(* ------------------------------------------------------------------ *)
(* C38                                                                 *)

(* Specification: all bytes appended so far, in order. *)
Fixpoint mdat_spec (all : list N) (os : list mop) (rs : list mout) : Prop :=
  match os, rs with
  | [], [] => True
  | MAppend b :: os', r :: rs' => r = MOff (len all) /\ mdat_spec (all ++ b) os' rs'
  | MCopy o n :: os', r :: rs' =>
      (o + n <= len all -> all <> [] -> o < 4294967296 -> r = MBytes (slice all o n)) /\
      (len all < o + n \/ all = [] -> r = MErr) /\ mdat_spec all os' rs'
  | _, _ => False
  end.
Definition appended (o : mop) : list N := match o with MAppend b => b | MCopy _ _ => [] end.
Definition mop_ok (o : mop) : Prop :=
  match o with MAppend b => len b < 4294967296 | MCopy o n => o < 18446744073709551616 /\ n < 4294967296 end.

Theorem C38_media_data_history :
  forall os, Forall mop_ok os -> len (flat_map appended os) < 9223372036854775808 ->
  exists rs, mdat_run mdat_new os = Ok rs /\ mdat_spec [] os rs.
Proof.
  intros os Ho Hl.
  assert (G : forall m, len (md_data m) + len (flat_map appended os) < 9223372036854775808 -> len (md_data m) <= md_alloc m <= len (md_data m) + 6291456 ->
     exists rs, mdat_run m os = Ok rs /\ mdat_spec (md_data m) os rs).
  { clear Hl. induction Ho as [|o os Ho _ IH]; intros m Hl Ha; [exists []; split; reflexivity|].
    destruct o as [b|o n]; cbn [mdat_run flat_map appended app] in *.
    - rewrite len_app in Hl. unfold mdat_add. destruct (N.ltb_spec 0 (len b)) as [Hb|Hb].
      + set (a := mdat_grow m (len b)).
        assert (Hg : len (md_data m) + len b <= a <= len (md_data m) + len b + 6291456).
        { unfold a, mdat_grow. unfold w64. rewrite !N.mod_small by lia.
          destruct (N.ltb_spec (md_alloc m) (len (md_data m) + len b)); [|lia].
          destruct (N.ltb_spec (md_alloc m + 6291456) (len (md_data m) + len b)); lia. }
        destruct (N.ltb_spec a (len (md_data m) + len b)); [lia|]. cbn [bind].
        destruct (IH (mkMdat (md_data m ++ b) a)) as (rs & E & S).
        * cbn [md_data]. rewrite len_app. lia.
        * cbn [md_data md_alloc]. rewrite len_app. lia.
        * rewrite E. cbn [bind]. eexists. split; [reflexivity|]. cbn [mdat_spec]. split; [reflexivity|exact S].
      + assert (b = []) by (destruct b; [reflexivity|rewrite len_cons in Hb; lia]). subst b. cbn [bind].
        destruct (IH m ltac:(lens; lia) Ha) as (rs & E & S). rewrite E. cbn [bind]. eexists. split; [reflexivity|].
        cbn [mdat_spec]. rewrite app_nil_r. split; [reflexivity|exact S].
    - destruct (IH m Hl Ha) as (rs & E & S). rewrite E. destruct Ho as [Ho Hn].
      unfold mdat_copy. rewrite shiftr32. unfold w64.
      destruct (N.eqb_spec (len (md_data m)) 0) as [E0|E0]; cbn [orb].
      + cbn [bind]. eexists. split; [reflexivity|]. cbn [mdat_spec].
        assert (md_data m = []) by (destruct (md_data m); [reflexivity|rewrite len_cons in E0; lia]).
        split; [congruence|]. split; [reflexivity|exact S].
      + assert (Hne : md_data m <> []) by (intros X; rewrite X in E0; apply E0; reflexivity).
        destruct (N.ltb_spec (len (md_data m)) ((o + n) mod 18446744073709551616)) as [H|H].
        * cbn [bind]. eexists. split; [reflexivity|]. cbn [mdat_spec]. split; [intros H1; lia|]. split; [reflexivity|exact S].
        * destruct (N.ltb_spec o 4294967296) as [H2|H2]; cbn [negb].
          -- rewrite N.mod_small in H by lia. destruct (N.ltb_spec (len (md_data m)) (o + n)); [lia|].
             cbn [bind]. eexists. split; [reflexivity|]. cbn [mdat_spec]. split; [reflexivity|]. split; [|exact S].
             intros [X|X]; [lia|congruence].
          -- cbn [bind]. eexists. split; [reflexivity|]. cbn [mdat_spec]. split; [lia|]. split; [reflexivity|exact S]. }
  apply (G mdat_new); cbn [mdat_new md_data md_alloc]; lens; lia.
Qed.
Print Assumptions C38_media_data_history.
Example C38_case :
  let os := [MAppend [1; 2; 3]; MCopy 1 2; MAppend []; MAppend [4; 5]; MCopy 3 2; MCopy 2 2; MCopy 4 2] in
  Forall mop_ok os /\ mdat_run mdat_new os = Ok [MOff 0; MBytes [2; 3]; MOff 3; MOff 3; MBytes [4; 5]; MBytes [3; 4]; MErr].
Proof. cbv zeta. split; [repeat constructor; cbn; lia|vm_compute; reflexivity]. Qed.

(* appending never changes bytes already there *)
Theorem C38_append_keeps :
  forall m b m' o n, mdat_add m b = Ok m' -> o + n <= len (md_data m) ->
  slice (md_data m') o n = slice (md_data m) o n /\
  (len b < 4294967296 -> slice (md_data m') (len (md_data m)) (len b) = b).
Proof.
  intros m b m' o n H Hl.
  assert (E : md_data m' = md_data m ++ b).
  { unfold mdat_add in H. destruct (N.ltb_spec 0 (len b)) as [Hb|Hb].
    - destruct (_ <? _); [discriminate|]. injection H as <-. reflexivity.
    - injection H as <-. destruct b; [rewrite app_nil_r; reflexivity|rewrite len_cons in Hb; lia]. }
  rewrite E. unfold slice. split.
  - rewrite skipn_app, firstn_app. rewrite skipn_length.
    replace (N.to_nat n - (length (md_data m) - N.to_nat o))%nat with 0%nat by (unfold len in Hl; lia).
    rewrite firstn_O, app_nil_r. reflexivity.
  - intros _. unfold len. rewrite !Nat2N.id. rewrite skipn_app, skipn_all, Nat.sub_diag. cbn [skipn app]. apply firstn_all.
Qed.
Print Assumptions C38_append_keeps.
Example C38_keeps_case : mdat_add (mkMdat [1; 2] 6291456) [3] = Ok (mkMdat [1; 2; 3] 6291456) /\ 1 + 1 <= len [1; 2].
Proof. split; [reflexivity|]. unfold len; cbn; lia. Qed.

(* the box *)
Definition mdat_layout : layout mdat := mkLayout (fun _ => code "mdat") md_data (fun m => mkMdat (md_data m) (len (md_data m)))
  (fun m => bytes (md_data m) /\ 0 < len (md_data m) < 2147483648).
Lemma mdat_exact : exact mdat_codec mdat_layout.
Proof.
  split; [intros t _; plain|].
  intros [d a] [Hb Hd] Hl. cbn [mdat_codec mdat_layout c_size c_w c_rd l_body l_view c_ty md_data md_alloc] in *.
  split; [|split; [apply writes_putl|]].
  - unfold mdat_size. cbn [md_data]. destruct (N.eqb_spec (len d) 0); [lia|]. rewrite shiftr32. destruct (N.ltb_spec (len d) 4294967296); [|lia].
    cbn [negb fst]. unfold w32. lia.
  - unfold mdat_read. cbn [h_size h_read]. destruct (N.eqb_spec (8 + len d) 1); [lia|].
    replace (sub32 (8 + len d) 8) with (len d) by (unfold sub32, w32; lia).
    rewrite shiftr_div. change (2 ^ 31) with 2147483648. rewrite N.div_small by lia. cbn [N.eqb negb].
    apply parses_bind_last with (a := d); [|pnext].
    apply parses_take_eq. unfold len. lia.
Qed.
Theorem C38_box_round_trip :
  forall m, l_ok mdat_layout m ->
  mdat_file m = Ok (box T_mdat (md_data m)) /\ mdat_serialize m = Ok (box T_mdat (md_data m)) /\
  round_trip mdat_codec mdat_layout m.
Proof.
  intros m H. assert (R : round_trip mdat_codec mdat_layout m).
  { apply exact_round_trip; [apply mdat_exact|exact H|]. cbn [mdat_layout l_body]. destruct H as [_ H]. lia. }
  split; [|split; [|exact R]]; destruct H as [Hb Hd]; unfold mdat_file, mdat_serialize, mdat_size;
    (destruct (N.eqb_spec (len (md_data m)) 0); [lia|]); rewrite shiftr32; (destruct (N.ltb_spec (len (md_data m)) 4294967296); [|lia]); cbn [negb];
    rewrite (w32_small (len (md_data m))) by lia; rewrite (w32_small (8 + len (md_data m))) by lia.
  - destruct (N.ltb_spec 0 (8 + len (md_data m))); [|lia].
    assert (W : wrun 16 (write_base (8 + len (md_data m)) 0 T_mdat) = Ok (be32 (8 + len (md_data m)) ++ be32 T_mdat)).
    { apply writes_run; [|lens; lia|lia]. apply writes_base. lia. }
    rewrite W. cbn [bind]. unfold box. rewrite <- app_assoc. reflexivity.
  - destruct (N.eqb_spec (8 + len (md_data m)) 1); [lia|]. destruct (N.ltb_spec 0 (8 + len (md_data m))); [|lia].
    apply writes_run; [|unfold box; lens; lia|lia]. unfold box. rewrite app_assoc. apply writes_seq; [apply writes_base; lia|apply writes_putl].
Qed.
Print Assumptions C38_box_round_trip.
Example C38_box_case : l_ok mdat_layout (mkMdat [7; 8; 9] 3) /\ mdat_file (mkMdat [7; 8; 9] 3) = Ok [0; 0; 0; 11; 109; 100; 97; 116; 7; 8; 9].
Proof. split; [split; [repeat constructor; unfold is_byte; lia|unfold len; cbn; lia]|vm_compute; reflexivity]. Qed.
(* data of 2^32-8 up to 2^32-1 bytes: the 32-bit size field wraps *)
Theorem C38_size_wrap_refuted :
  forall m, 4294967288 <= len (md_data m) < 4294967296 -> fst (mdat_size m) = len (md_data m) - 4294967288.
Proof.
  intros m H. unfold mdat_size. destruct (N.eqb_spec (len (md_data m)) 0); [lia|]. rewrite shiftr32.
  destruct (N.ltb_spec (len (md_data m)) 4294967296); [|lia]. cbn [negb fst]. unfold w32. lia.
Qed.
Print Assumptions C38_size_wrap_refuted.

(* ------------------------------------------------------------------ *)
(* C15                                                                 *)

(* [trk_own k d]: description d of track k refers to data in this file. *)
Theorem C15_save_keeps_movie :
  forall include head data ks,
  Forall trk_fine ks -> Forall (trk_within 0 data) ks ->
  head + 16 < 2147483648 -> data < 18446744069414584320 ->
  (include = true -> data < 4294967296) ->
  let u := head + 8 + (if data <? 4294967296 then 0 else 8) in
  save_tables include head data ks = Ok (map (trk_shifted (Z.of_N u)) ks, ks).
Proof.
  intros include head data ks Hk Hi Hh Hd Hinc u. unfold save_tables, large. rewrite shiftr32.
  assert (E : include && negb (data <? 4294967296) = false).
  { destruct include; [|reflexivity]. destruct (N.ltb_spec data 4294967296); [reflexivity|]. specialize (Hinc eq_refl). lia. }
  rewrite E. clear E.
  assert (Eu : move_up head data = u).
  { unfold move_up, large, u. rewrite shiftr32. rewrite (w32_small (head + 8)) by lia. destruct (N.ltb_spec data 4294967296); cbn [negb]; rewrite w32_small by lia; reflexivity. }
  rewrite Eu. assert (Hu : u < 2147483648) by (unfold u; destruct (data <? _); lia). clearbody u. clear Eu.
  assert (Es : s32_of u = Z.of_N u) by (unfold s32_of; destruct (N.ltb_spec u 2147483648); lia).
  unfold neg_s32. rewrite Es. rewrite moov_moved_shift by (try assumption; intros; lia). cbn [bind].
  destruct (Z.eqb_spec (Z.of_N u) (-2147483648)); [lia|]. cbn [bind].
  assert (Ew : w64 (data + u) = data + u) by (unfold w64; apply N.mod_small; lia). rewrite Ew.
  rewrite moov_moved_shift.
  - cbn [bind]. do 2 f_equal. rewrite map_map. rewrite <- (map_id ks) at 2. apply map_ext_in. intros k Hin.
    apply trk_shift_back; [rewrite Forall_forall in Hk; apply Hk; exact Hin|]. intros; lia.
  - apply Forall_forall. intros k' Hin. apply in_map_iff in Hin. destruct Hin as (k & <- & Hin).
    apply trk_shifted_fine. rewrite Forall_forall in Hk. auto.
  - apply Forall_forall. intros k' Hin. apply in_map_iff in Hin. destruct Hin as (k & <- & Hin).
    rewrite Forall_forall in Hk, Hi. unfold trk_within, trk_inside, trk_shifted. rewrite trk_shift_chunks by (apply Hk; exact Hin).
    cbn [trk_shift tk_offs co_list]. apply (shift_own_inside (trk_own k) _ 0 data); [apply Hi; exact Hin|]. intros; lia.
  - intros; lia.
Qed.
Print Assumptions C15_save_keeps_movie.
Definition ex_trk : trk := mkTrk [(1, 2, 1); (2, 1, 2); (3, 3, 1)] (mkStco 0 0 [0; 70; 40; 55])
  (fun d => if d =? 0 then Err MP4BadParamErr else if 2 <? d then Err MP4BadParamErr else Ok (d =? 1)) 0.
(* a second track, whose descriptions are the other way round *)
Definition ex_trk2 : trk := mkTrk [(1, 2, 1); (2, 1, 2)] (mkStco 0 0 [9; 7])
  (fun d => if d =? 0 then Err MP4BadParamErr else if 2 <? d then Err MP4BadParamErr else Ok (d =? 2)) 0.
Example C15_case : Forall trk_fine [ex_trk; ex_trk2] /\ Forall (trk_within 0 60) [ex_trk; ex_trk2] /\
  match save_tables true 100 60 [ex_trk; ex_trk2] with
  | Ok ([a; a2], [b; b2]) => co_list (tk_offs a) = [108; 70; 148; 163] /\ co_list (tk_offs b) = [0; 70; 40; 55] /\
      co_list (tk_offs a2) = [9; 115] /\ co_list (tk_offs b2) = [9; 7]
  | _ => False end.
Proof.
  split; [|split; [|vm_compute; repeat split]].
  - apply Forall_cons; [|apply Forall_cons; [|apply Forall_nil]]; (split; [cbn; repeat split; lia|]; split; [|reflexivity]); intros g s d H; cbn in H;
      repeat destruct H as [H|H]; try (injection H as <- <- <-); try contradiction; (split; [lia|reflexivity]).
  - unfold trk_within, trk_inside, own_inside. cbn. repeat constructor; cbn; intros; try lia; discriminate.
Qed.

(* What is written points to the data: the file is the boxes before the media
   data, the media data header and the data. *)
Theorem C15_offsets_point_to_data :
  forall before m file o n, 0 < len (md_data m) < 4294967288 -> len before + 16 < 2147483648 ->
  mdat_file m = Ok file -> o + n <= len (md_data m) ->
  slice (before ++ file) (move_up (len before) (len (md_data m)) + o) n = slice (md_data m) o n.
Proof.
  intros before m file o n Hd Hb E Ho.
  assert (Ef : exists h, file = h ++ md_data m /\ len h = 8).
  { unfold mdat_file, mdat_size in E. destruct (N.eqb_spec (len (md_data m)) 0); [lia|]. rewrite shiftr32 in E.
    destruct (N.ltb_spec (len (md_data m)) 4294967296); [|lia]. cbn [negb] in E.
    rewrite (w32_small (len (md_data m))) in E by lia. rewrite (w32_small (8 + len (md_data m))) in E by lia.
    destruct (N.ltb_spec 0 (8 + len (md_data m))); [|lia].
    assert (W : wrun 16 (write_base (8 + len (md_data m)) 0 T_mdat) = Ok (be32 (8 + len (md_data m)) ++ be32 T_mdat)).
    { apply writes_run; [|lens; lia|lia]. apply writes_base. lia. }
    rewrite W in E. cbn [bind] in E. injection E as <-. exists (be32 (8 + len (md_data m)) ++ be32 T_mdat). split; reflexivity. }
  destruct Ef as (h & -> & Hh).
  unfold move_up, large. rewrite shiftr32. destruct (N.ltb_spec (len (md_data m)) 4294967296); [|lia]. cbn [negb].
  rewrite (w32_small (len before + 8)) by lia. rewrite w32_small by lia.
  unfold slice. rewrite app_assoc. rewrite skipn_app.
  rewrite (skipn_all2 (before ++ h)) by (rewrite app_length; unfold len in *; lia). cbn [app].
  do 2 f_equal. rewrite app_length. unfold len in *. lia.
Qed.
Print Assumptions C15_offsets_point_to_data.
Example C15_points_case : exists file, mdat_file (mkMdat [7; 8; 9] 3) = Ok file /\
  slice ([1; 2] ++ file) (move_up 2 3 + 1) 2 = [8; 9].
Proof. eexists. split; vm_compute; reflexivity. Qed.

(* Opening the saved file moves the offsets back to the media data. *)
Theorem C15_open_after_save :
  forall head data ks,
  Forall trk_fine ks -> Forall (trk_within 0 data) ks ->
  head + 8 < 2147483648 -> data < 4294967296 ->
  open_tables (head + 8) data (map (trk_shifted (Z.of_N (head + 8))) ks) = Ok ks.
Proof.
  intros head data ks Hk Hi Hh Hd. unfold open_tables. rewrite (w32_small (head + 8)) by lia.
  remember (head + 8) as u eqn:Eu. clear Eu head.
  unfold neg_s32. assert (Es : s32_of u = Z.of_N u) by (unfold s32_of; destruct (N.ltb_spec u 2147483648); lia). rewrite Es.
  destruct (Z.eqb_spec (Z.of_N u) (-2147483648)); [lia|]. cbn [bind].
  assert (Ew : w64 (data + u) = data + u) by (unfold w64; apply N.mod_small; lia). rewrite Ew.
  rewrite moov_moved_shift.
  - f_equal. rewrite map_map. rewrite <- (map_id ks) at 2. apply map_ext_in. intros k Hin.
    apply trk_shift_back; [rewrite Forall_forall in Hk; apply Hk; exact Hin|]. intros; lia.
  - apply Forall_forall. intros k' Hin. apply in_map_iff in Hin. destruct Hin as (k & <- & Hin).
    apply trk_shifted_fine. rewrite Forall_forall in Hk. auto.
  - apply Forall_forall. intros k' Hin. apply in_map_iff in Hin. destruct Hin as (k & <- & Hin).
    rewrite Forall_forall in Hk, Hi. unfold trk_within, trk_inside, trk_shifted. rewrite trk_shift_chunks by (apply Hk; exact Hin).
    cbn [trk_shift tk_offs co_list]. apply (shift_own_inside (trk_own k) _ 0 data); [apply Hi; exact Hin|]. intros; lia.
  - intros; lia.
Qed.
Print Assumptions C15_open_after_save.

(* Where the code breaks the claim. *)
(* An own chunk outside the media data: 8 bytes at offset 30 of 20 bytes of
   data, header 20 bytes, is moved down by the save. *)
Theorem C15_outside_refuted :
  let k := mkTrk [(1, 1, 1)] (mkStco 0 0 [30]) (fun _ => Ok true) 0 in
  match save_tables true 12 20 [k] with Ok (_, [k2]) => co_list (tk_offs k2) = [10] | _ => False end.
Proof. vm_compute. reflexivity. Qed.
Print Assumptions C15_outside_refuted.
(* any track with auxiliary information offsets reads past the end of its table *)
Theorem C15_saio_refuted :
  forall own k include head data ks, trk_ok own (mkTrk (tk_runs k) (tk_offs k) (tk_self k) 0) -> tk_saio k <> 0 ->
  (include = true -> data < 4294967296) ->
  save_tables include head data (k :: ks) = UB.
Proof.
  intros own k include head data ks Hk Hs Hinc. unfold save_tables, large. rewrite shiftr32.
  assert (E : include && negb (data <? 4294967296) = false).
  { destruct include; [|reflexivity]. destruct (N.ltb_spec data 4294967296); [reflexivity|]. specialize (Hinc eq_refl). lia. }
  rewrite E. cbn [moov_moved]. pose proof (trk_moved_ok own _ 0 data (s32_of (move_up head data)) Hk) as P.
  unfold trk_moved in *. cbn [tk_runs tk_offs tk_self tk_saio] in P.
  destruct (runs_moved _ _ _ _ _ _ _ _) as [t| |]; cbn [bind] in P; [|discriminate|discriminate]. cbn [bind].
  destruct (N.eqb_spec (tk_saio k) 0); [contradiction|]. reflexivity.
Qed.
Print Assumptions C15_saio_refuted.
(* The box type is chosen before the offsets are moved: an offset just below
   4 GiB is cut to 32 bits when written. Media data of 2^32 + 100 bytes,
   chunk at 2^32 - 10, 100 bytes of boxes: 106 is written instead of
   2^32 + 106. *)
Theorem C15_late_promotion_refuted :
  let k := mkTrk [(1, 1, 1)] (mkStco 0 0 [4294967286]) (fun _ => Ok true) 0 in
  match save_tables false 100 4294967396 [k] with
  | Ok ([k1], _) =>
      co_list (tk_offs k1) = [4294967402] /\ stco_type (tk_offs k) = T_stco /\
      wrun 100 (stco_write_as (stco_type (tk_offs k)) (tk_offs k1)) = Ok ([0; 0; 0; 0] ++ be32 1 ++ be32 106)
  | _ => False end.
Proof. vm_compute. repeat split. Qed.
Print Assumptions C15_late_promotion_refuted.
(* boxes of 2 GiB and more before the media data: the shift changes sign *)
Theorem C15_large_header_refuted :
  let k := mkTrk [(1, 1, 1)] (mkStco 0 0 [5]) (fun _ => Ok true) 0 in
  match save_tables true 2147483648 20 [k] with
  | Ok ([k1], _) => co_list (tk_offs k1) = [5 + 2147483656 + 18446744069414584320]
  | _ => False end.
Proof. vm_compute. reflexivity. Qed.
Print Assumptions C15_large_header_refuted.

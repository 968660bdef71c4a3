(* SetProps.v -- C77: settings of movies, tracks and media. *)
From Verif Require Import Base Codec AtomModel AtomProofs BoxModel BoxSpec BoxProofs HeaderBoxModel HeaderModel HeaderSpec HeaderProofs BitLemmas ParamProofs SetModel SetSpec.

Local Ltac Zify.zify_post_hook ::= Z.div_mod_to_equations.

(* ------------------------------------------------------------------ *)
(* Lemmas                                                              *)

Lemma s16_there_and_back z : is16 z -> u32_s16 (s16_u32 z) = z.
Proof.
  unfold is16, u32_s16, s16_u32, w16. intros H.
  assert (E : Z.of_N (Z.to_N (z mod 4294967296) mod 65536) = (z mod 65536)%Z).
  { rewrite N2Z.inj_mod, Z2N.id by (apply Z.mod_pos_bound; lia). change (Z.of_N 65536) with 65536%Z. lia. }
  set (m := Z.to_N (z mod 4294967296) mod 65536) in *. destruct (N.ltb_spec m 32768); lia.
Qed.
Lemma s16_32 z : s16_u32 z < 4294967296.
Proof. unfold s16_u32. pose proof (Z.mod_pos_bound z 4294967296). lia. Qed.
Lemma low16 n : u32_s16 (n mod 65536) = u32_s16 n.
Proof. unfold u32_s16, w16. rewrite N.mod_mod by lia. reflexivity. Qed.
Lemma put16_low n : put16 n = put16 (n mod 65536).
Proof. unfold put16. f_equal. unfold be16. f_equal; [|f_equal]; lia. Qed.
Lemma shift16 n : n < 65536 -> N.shiftr (w32 (N.shiftl n 16)) 16 = n.
Proof.
  intros H. rewrite N.shiftl_mul_pow2, N.shiftr_div_pow2. change (2 ^ 16) with 65536. unfold w32.
  rewrite N.mod_small by lia. apply N.div_mul. lia.
Qed.
Lemma same_writer {T} (c : codec T) a b :
  c_ty c a = c_ty c b -> c_size c a = c_size c b -> c_w c a = c_w c b -> write_box c a = write_box c b.
Proof. intros E1 E2 E3. unfold write_box. cbn [awrite]. rewrite E1, E2, E3. reflexivity. Qed.

(* ------------------------------------------------------------------ *)
(* Tracks                                                              *)

(* the header with the 16 bit fields as they are written *)
Definition tlow (a : tkhd) : tkhd :=
  mkTkhd (tk_ver a) (tk_flags a) (tk_created a) (tk_modified a) (tk_trackID a) (tk_reserved1 a) (tk_duration a)
    (tk_reserved2 a) (tk_layer a mod 65536) (tk_altGroup a) (tk_volume a mod 65536) (tk_reserved3 a)
    (tk_matA a) (tk_matB a) (tk_matU a) (tk_matC a) (tk_matD a) (tk_matV a) (tk_matX a) (tk_matY a) (tk_matW a) (tk_width a) (tk_height a).
Lemma tlow_answers a v i : answers (Some a) v i -> answers (Some (tlow a)) v i.
Proof.
  unfold answers, get_track_layer, get_track_volume, get_track_matrix, get_track_dims, with_header. cbn [tlow tk_layer tk_volume].
  rewrite !low16. exact (fun H => H).
Qed.
Lemma tlow_ok a : l_ok tkhd_layout a -> l_ok tkhd_layout (tlow a).
Proof.
  cbn [l_ok tkhd_layout tlow tk_ver tk_flags tk_created tk_modified tk_trackID tk_reserved1 tk_duration tk_reserved2 tk_layer tk_altGroup tk_volume tk_reserved3 tk_matA tk_matB tk_matU tk_matC tk_matD tk_matV tk_matX tk_matY tk_matW tk_width tk_height].
  intros H. assert (tk_layer a mod 65536 < 65536) by (apply N.mod_lt; discriminate).
  assert (tk_volume a mod 65536 < 65536) by (apply N.mod_lt; discriminate). tauto.
Qed.
Lemma tlow_saved a : l_ok tkhd_layout (tlow a) -> saved tkhd_codec a (if tk_ver a =? 1 then 104 else 92) (tlow a).
Proof.
  intros H. destruct (exact_round_trip _ _ _ tkhd_exact H (tkhd_short _ H)) as (S & W & R & _).
  eexists. split; [|split; [|exact R]].
  - rewrite <- W. apply same_writer; [reflexivity|reflexivity|]. cbn [tkhd_codec c_w]. unfold tkhd_write.
    cbn [tlow tk_ver tk_flags tk_created tk_modified tk_trackID tk_reserved1 tk_duration tk_reserved2 tk_layer tk_altGroup tk_volume tk_reserved3 tk_matA tk_matB tk_matU tk_matC tk_matD tk_matV tk_matX tk_matY tk_matW tk_width tk_height].
    rewrite (put16_low (tk_layer a)), (put16_low (tk_volume a)). reflexivity.
  - rewrite <- S. cbn [tkhd_codec c_size]. unfold tkhd_size. cbn [tlow tk_ver]. destruct (tk_ver a =? 1); reflexivity.
Qed.
Lemma flag_on f : f < 16777216 -> N.lor f 1 < 16777216 /\ N.div2 (N.lor f 1) = N.div2 f /\ N.land (N.lor f 1) 1 = 1.
Proof.
  intros H. assert (E : N.lor f 1 = 2 * N.div2 f + 1) by (destruct f as [|[p|p|]]; reflexivity).
  rewrite E. rewrite !N.div2_div. split; [lia|]. split; [lia|].
  change 1 with (N.ones 1) at 2. rewrite N.land_ones. change (2 ^ 1) with 2. lia.
Qed.
Lemma flag_off f : f < 16777216 -> N.land f 4294967294 < 16777216 /\ N.div2 (N.land f 4294967294) = N.div2 f /\ N.land (N.land f 4294967294) 1 = 0.
Proof.
  intros H.
  assert (E : N.land f 4294967294 = 2 * N.div2 f).
  { apply N.bits_inj. intros i. rewrite N.land_spec. destruct (N.eq_dec i 0) as [->|Hi].
    - rewrite N.testbit_even_0. change (N.testbit 4294967294 0) with false. apply Bool.andb_false_r.
    - replace i with (N.succ (i - 1)) by lia. rewrite N.testbit_even_succ by lia. rewrite N.div2_spec, N.shiftr_spec by lia.
      replace (i - 1 + 1) with (N.succ (i - 1)) by lia.
      destruct (N.ltb_spec i 32) as [L|L].
      + replace (N.testbit 4294967294 (N.succ (i - 1))) with true; [apply Bool.andb_true_r|].
        replace 4294967294 with (2 * N.ones 31) by reflexivity. rewrite N.testbit_even_succ by lia. symmetry. apply N.ones_spec_low. lia.
      + rewrite (N.bits_above_log2 f); [reflexivity|]. apply N.le_lt_trans with 23; [|lia].
        change 23 with (N.log2 16777215). apply N.log2_le_mono. lia. }
  rewrite E. rewrite !N.div2_div. split; [lia|]. split; [lia|].
  change 1 with (N.ones 1) at 1. rewrite N.land_ones. change (2 ^ 1) with 2. lia.
Qed.
Ltac tk := cbn [tlow l_ok tkhd_layout tk_ver tk_flags tk_created tk_modified tk_trackID tk_reserved1 tk_duration tk_reserved2 tk_layer tk_altGroup tk_volume tk_reserved3 tk_matA tk_matB tk_matU tk_matC tk_matD tk_matV tk_matX tk_matY tk_matW tk_width tk_height
  tkhd_set_matrix tkhd_set_layer tkhd_set_dims tkhd_set_volume tkhd_set_enabled tkhd_set_flags
  mxA mxB mxU mxC mxD mxV mxX mxY mxW] in *.
Lemma track_step a c v i :
  l_ok tkhd_layout (tlow a) -> tcall_ok c -> answers (Some a) v i ->
  exists b, track_call c (Some a) = Ok b /\ l_ok tkhd_layout (tlow b) /\ answers (Some b) (tset c v) i /\ track_rest b = track_rest a.
Proof.
  intros W K A. destruct v as [vm vl vd vv ve]. destruct A as (A1 & A2 & A3 & A4 & A5 & A6). 
  cbn [v_matrix v_layer v_dims v_volume v_enabled] in *.
  assert (D : default_matrix = identity) by reflexivity. assert (Di : matrix_ok identity) by (vm_compute; repeat split).
  destruct c as [[m|]|z|w h|z|e]; (eexists; split; [reflexivity|]); unfold answers, get_track_matrix, get_track_layer, get_track_dims, get_track_volume, get_track_enabled, get_track_id, with_header, track_rest in *;
    cbn [tset v_matrix v_layer v_dims v_volume v_enabled tcall_ok the_matrix] in *.
  - tk. split; [|split; [|reflexivity]].
    + destruct K as (K1 & K2 & K3 & K4 & K5 & K6 & K7 & K8 & K9). unfold is32 in *. tauto.
    + repeat split; try assumption. destruct m; reflexivity.
  - rewrite D. tk. split; [|split; [|reflexivity]].
    + destruct Di as (K1 & K2 & K3 & K4 & K5 & K6 & K7 & K8 & K9). unfold is32 in *. tauto.
    + repeat split; try assumption.
  - tk. split; [|split; [|reflexivity]].
    + assert (s16_u32 z mod 65536 < 65536) by (apply N.mod_lt; discriminate). tauto.
    + repeat split; try assumption. rewrite s16_there_and_back by exact K. reflexivity.
  - tk. split; [|split; [|reflexivity]].
    + assert (w32 (N.shiftl w 16) < 4294967296) by (apply N.mod_lt; discriminate).
      assert (w32 (N.shiftl h 16) < 4294967296) by (apply N.mod_lt; discriminate). tauto.
    + repeat split; try assumption. destruct K. rewrite !shift16 by assumption. reflexivity.
  - tk. split; [|split; [|reflexivity]].
    + assert (s16_u32 z mod 65536 < 65536) by (apply N.mod_lt; discriminate). tauto.
    + repeat split; try assumption. rewrite s16_there_and_back by exact K. reflexivity.
  - unfold tkhd_set_enabled. tk. unfold full_ok in *. assert (F : tk_flags a < 16777216) by tauto.
    destruct (flag_on _ F) as (F1 & F2 & F3). destruct (flag_off _ F) as (F4 & F5 & F6).
    destruct (N.eqb_spec e 0) as [->|E]; cbn [negb].
    + split; [tauto|]. split; [|rewrite F5; reflexivity]. repeat split; try assumption. rewrite F6. reflexivity.
    + split; [tauto|]. split; [|rewrite F2; reflexivity]. repeat split; try assumption. rewrite F3. reflexivity.
Qed.

(* C77, tracks: every header answers some values *)
Theorem C77_track_values : forall a, l_ok tkhd_layout a -> exists v, answers (Some a) v (tk_trackID a) /\
  is16 (v_layer v) /\ is16 (v_volume v) /\ fst (v_dims v) < 65536 /\ snd (v_dims v) < 65536.
Proof.
  intros a W. exists (mkTview (tkhd_get_matrix a) (u32_s16 (tk_layer a)) (N.shiftr (tk_width a) 16, N.shiftr (tk_height a) 16) (u32_s16 (tk_volume a)) (negb (N.land (tk_flags a) 1 =? 0))).
  cbn [v_layer v_volume v_dims fst snd]. tk. split; [|split; [|split; [|split]]].
  - unfold answers. cbn. repeat split.
  - unfold is16, u32_s16, w16. destruct (N.ltb_spec (tk_layer a mod 65536) 32768); lia.
  - unfold is16, u32_s16, w16. destruct (N.ltb_spec (tk_volume a mod 65536) 32768); lia.
  - rewrite N.shiftr_div_pow2. apply N.div_lt_upper_bound; [discriminate|]. change (2 ^ 16 * 65536) with 4294967296. tauto.
  - rewrite N.shiftr_div_pow2. apply N.div_lt_upper_bound; [discriminate|]. change (2 ^ 16 * 65536) with 4294967296. tauto.
Qed.
Print Assumptions C77_track_values.

Lemma track_run cs : forall a v i,
  l_ok tkhd_layout (tlow a) -> Forall tcall_ok cs -> answers (Some a) v i ->
  exists b, track_calls cs a = Ok b /\ l_ok tkhd_layout (tlow b) /\ answers (Some b) (fold_left (fun v c => tset c v) cs v) i /\ track_rest b = track_rest a.
Proof.
  induction cs as [|c cs IH]; intros a v i W K A.
  - exists a. split; [reflexivity|]. split; [exact W|]. split; [exact A|reflexivity].
  - inversion K as [|? ? K1 K2]; subst. destruct (track_step a c v i W K1 A) as (b & E & W' & A' & R').
    destruct (IH b _ i W' K2 A') as (d & E2 & W2 & A2 & R2). exists d. cbn [track_calls]. rewrite E. cbn [bind].
    split; [exact E2|]. split; [exact W2|]. split; [exact A2|]. congruence.
Qed.
(* C77, tracks: after any sequence of calls the track answers what was set last
   and the rest is as it was, before and after the header is written and read *)
Theorem C77_track : forall a cs v, l_ok tkhd_layout a -> Forall tcall_ok cs -> answers (Some a) v (tk_trackID a) ->
  exists b c, track_calls cs a = Ok b /\
    answers (Some b) (fold_left (fun v c => tset c v) cs v) (tk_trackID a) /\ track_rest b = track_rest a /\
    saved tkhd_codec b (if tk_ver a =? 1 then 104 else 92) c /\
    answers (Some c) (fold_left (fun v c => tset c v) cs v) (tk_trackID a) /\ track_rest c = track_rest a.
Proof.
  intros a cs v W K A. destruct (track_run cs a v _ (tlow_ok a W) K A) as (b & E & W' & A' & R').
  exists b, (tlow b). split; [exact E|]. split; [exact A'|]. split; [exact R'|].
  replace (tk_ver a) with (tk_ver b) by (unfold track_rest in R'; congruence).
  split; [exact (tlow_saved b W')|]. split; [exact (tlow_answers _ _ _ A')|exact R'].
Qed.
Print Assumptions C77_track.

(* without a header: refused, nothing invented *)
Theorem C77_no_track_header : forall c,
  track_call c None = Err MP4InvalidMediaErr /\ get_track_matrix None = Err MP4InvalidMediaErr /\
  get_track_layer None = Err MP4InvalidMediaErr /\ get_track_dims None = Err MP4InvalidMediaErr /\
  get_track_volume None = Err MP4InvalidMediaErr.
Proof. intros [m|z|w h|z|e]; repeat split. Qed.
Print Assumptions C77_no_track_header.
(* but two calls read it all the same *)
Theorem C77_no_track_header_refuted : get_track_enabled None = UB /\ get_track_id None = UB.
Proof. split; reflexivity. Qed.
Print Assumptions C77_no_track_header_refuted.
(* a width of 65536 or more is accepted and its upper half is lost *)
Theorem C77_dimensions_refuted : exists a w h b, l_ok tkhd_layout a /\ is32 w /\ is32 h /\
  set_track_dims w h (Some a) = Ok b /\ get_track_dims (Some b) <> Ok (w, h).
Proof.
  exists (new_tkhd 0 1 1), 65537, 480. eexists. split; [vm_compute; repeat split; auto; lia|].
  split; [reflexivity|]. split; [reflexivity|]. split; [reflexivity|]. vm_compute. discriminate.
Qed.
Print Assumptions C77_dimensions_refuted.

Example C77_track_example :
  let a := new_tkhd 1000 7 1 in
  let cs := [TLayer (-3); TVolume 256; TEnabled 0; TDims 640 480; TLayer 2; TMatrix (Some (mkMx 0 65536 0 4294901760 0 0 0 31457280 1073741824)); TVolume (-1); TMatrix None; TEnabled 5] in
  l_ok tkhd_layout a /\ Forall tcall_ok cs /\
  answers (Some a) (mkTview identity 0 (320, 240) 0 true) 7 /\
  fold_left (fun v c => tset c v) cs (mkTview identity 0 (320, 240) 0 true) = mkTview identity 2 (640, 480) (-1) true.
Proof.
  cbv zeta. split; [vm_compute; repeat split; auto; lia|]. split.
  - repeat (apply Forall_cons; [vm_compute; repeat split; auto; try lia; try discriminate|]). apply Forall_nil.
  - split; [vm_compute; repeat split|reflexivity].
Qed.

(* ------------------------------------------------------------------ *)
(* Movies                                                              *)

Definition mlow (a : mvhd) : mvhd :=
  mkMvhd (mv_ver a) (mv_flags a) (mv_created a) (mv_modified a) (mv_timeScale a) (mv_duration a) (mv_rate a) (mv_volume a mod 65536) (mv_reserved a)
    (mv_matA a) (mv_matB a) (mv_matU a) (mv_matC a) (mv_matD a) (mv_matV a) (mv_matX a) (mv_matY a) (mv_matW a)
    (mv_previewTime a) (mv_previewDuration a) (mv_posterTime a) (mv_selectionTime a) (mv_selectionDuration a)
    (mv_currentTime a) (mv_nextTrackID a).
Ltac mv := cbn [mlow l_ok mvhd_layout mv_ver mv_flags mv_created mv_modified mv_timeScale mv_duration mv_rate mv_volume mv_reserved
  mv_matA mv_matB mv_matU mv_matC mv_matD mv_matV mv_matX mv_matY mv_matW mv_previewTime mv_previewDuration mv_posterTime mv_selectionTime
  mv_selectionDuration mv_currentTime mv_nextTrackID mvhd_set_scale mvhd_set_matrix mvhd_set_rate mvhd_set_volume
  mxA mxB mxU mxC mxD mxV mxX mxY mxW] in *.
Lemma mlow_answers a v : movie_answers (Some a) v -> movie_answers (Some (mlow a)) v.
Proof.
  unfold movie_answers, get_movie_scale, get_movie_matrix, get_movie_rate, get_movie_volume, with_header. mv.
  rewrite !low16. exact (fun H => H).
Qed.
Lemma mlow_ok a : l_ok mvhd_layout a -> l_ok mvhd_layout (mlow a).
Proof. mv. intros H. assert (mv_volume a mod 65536 < 65536) by (apply N.mod_lt; discriminate). tauto. Qed.
Lemma mlow_saved a : l_ok mvhd_layout (mlow a) -> saved mvhd_codec a (if mv_ver a =? 1 then 120 else 108) (mlow a).
Proof.
  intros H. destruct (exact_round_trip _ _ _ mvhd_exact H (mvhd_short _ H)) as (S & W & R & _).
  eexists. split; [|split; [|exact R]].
  - rewrite <- W. apply same_writer; [reflexivity|reflexivity|]. cbn [mvhd_codec c_w]. unfold mvhd_write. mv.
    rewrite (put16_low (mv_volume a)). reflexivity.
  - rewrite <- S. cbn [mvhd_codec c_size]. unfold mvhd_size. cbn [mlow mv_ver]. destruct (mv_ver a =? 1); reflexivity.
Qed.
Lemma movie_step a c v :
  l_ok mvhd_layout (mlow a) -> mcall_ok c -> movie_answers (Some a) v ->
  let b := match movie_call c (Some a) with Ok b => b | _ => a end in
  l_ok mvhd_layout (mlow b) /\ movie_answers (Some b) (mset c v) /\ movie_rest b = movie_rest a.
Proof.
  intros W K A. destruct v as [vs vm vr vv]. destruct A as (A1 & A2 & A3 & A4).
  cbn [w_scale w_matrix w_rate w_volume] in *.
  assert (D : default_matrix = identity) by reflexivity. assert (Di : matrix_ok identity) by (vm_compute; repeat split).
  destruct c as [n|[m|]|n|z]; cbn [movie_call]; unfold set_movie_scale, set_movie_matrix, set_movie_rate, set_movie_volume, movie_answers, get_movie_scale, get_movie_matrix, get_movie_rate, get_movie_volume, with_header, movie_rest in *;
    cbn [mset w_scale w_matrix w_rate w_volume mcall_ok the_matrix] in *; unfold is32 in *.
  - destruct (N.eqb_spec n 0) as [->|E]; cbv zeta.
    + split; [exact W|]. split; [|reflexivity]. repeat split; assumption.
    + mv. split; [tauto|]. split; [|reflexivity]. repeat split; assumption.
  - cbv zeta. mv. split; [|split; [|reflexivity]].
    + destruct K as (K1 & K2 & K3 & K4 & K5 & K6 & K7 & K8 & K9). unfold is32 in *. tauto.
    + repeat split; try assumption. destruct m; reflexivity.
  - cbv zeta. rewrite D. mv. split; [|split; [|reflexivity]].
    + destruct Di as (K1 & K2 & K3 & K4 & K5 & K6 & K7 & K8 & K9). unfold is32 in *. tauto.
    + repeat split; try assumption.
  - cbv zeta. mv. split; [tauto|]. split; [|reflexivity]. repeat split; assumption.
  - cbv zeta. mv. split; [|split; [|reflexivity]].
    + assert (s16_u32 z mod 65536 < 65536) by (apply N.mod_lt; discriminate). tauto.
    + repeat split; try assumption. rewrite s16_there_and_back by exact K. reflexivity.
Qed.
Lemma movie_run cs : forall a v,
  l_ok mvhd_layout (mlow a) -> Forall mcall_ok cs -> movie_answers (Some a) v ->
  l_ok mvhd_layout (mlow (movie_calls cs a)) /\ movie_answers (Some (movie_calls cs a)) (fold_left (fun v c => mset c v) cs v) /\
  movie_rest (movie_calls cs a) = movie_rest a.
Proof.
  induction cs as [|c cs IH]; intros a v W K A.
  - split; [exact W|]. split; [exact A|reflexivity].
  - inversion K as [|? ? K1 K2]; subst. destruct (movie_step a c v W K1 A) as (W' & A' & R').
    cbn [movie_calls fold_left]. destruct (IH _ _ W' K2 A') as (W2 & A2 & R2).
    split; [exact W2|]. split; [exact A2|]. congruence.
Qed.

(* C77, movies: the same; a time scale of zero is refused and nothing else is *)
Theorem C77_movie : forall a cs v, l_ok mvhd_layout a -> Forall mcall_ok cs -> movie_answers (Some a) v ->
  exists c,
    movie_answers (Some (movie_calls cs a)) (fold_left (fun v c => mset c v) cs v) /\ movie_rest (movie_calls cs a) = movie_rest a /\
    saved mvhd_codec (movie_calls cs a) (if mv_ver a =? 1 then 120 else 108) c /\
    movie_answers (Some c) (fold_left (fun v c => mset c v) cs v) /\ movie_rest c = movie_rest a.
Proof.
  intros a cs v W K A. destruct (movie_run cs a v (mlow_ok a W) K A) as (W' & A' & R').
  exists (mlow (movie_calls cs a)). split; [exact A'|]. split; [exact R'|].
  replace (mv_ver a) with (mv_ver (movie_calls cs a)) by (unfold movie_rest in R'; congruence).
  split; [exact (mlow_saved _ W')|]. split; [exact (mlow_answers _ _ A')|exact R'].
Qed.
Print Assumptions C77_movie.
Theorem C77_movie_refusals : forall c t,
  (forall b, movie_call c t = Ok b -> c <> MScale 0 /\ t <> None) /\
  (movie_call (MScale 0) t = Err MP4BadParamErr) /\
  (c <> MScale 0 -> t <> None -> exists b, movie_call c t = Ok b) /\
  (c <> MScale 0 -> t = None -> movie_call c t = Err MP4InvalidMediaErr).
Proof.
  intros c t. split; [|split; [reflexivity|split]].
  - intros b H. destruct c as [n|m|n|z], t as [a|]; cbn in H; unfold set_movie_scale in H; cbn [with_header] in H; try discriminate;
      try (split; discriminate); destruct (N.eqb_spec n 0); try discriminate; split; congruence.
  - intros H1 H2. destruct t as [a|]; [|congruence]. destruct c as [n|m|n|z]; cbn; unfold set_movie_scale; cbn; eauto.
    destruct (N.eqb_spec n 0) as [->|E]; [congruence|eauto].
  - intros H ->. destruct c as [n|m|n|z]; cbn; unfold set_movie_scale; cbn; try reflexivity.
    destruct (N.eqb_spec n 0) as [->|E]; [congruence|reflexivity].
Qed.
Print Assumptions C77_movie_refusals.
Theorem C77_movie_values : forall a, exists v, movie_answers (Some a) v /\ is16 (w_volume v).
Proof.
  intros a. exists (mkMview (mv_timeScale a) (mvhd_get_matrix a) (mv_rate a) (u32_s16 (mv_volume a))). split; [repeat split|].
  cbn [w_volume]. unfold is16, u32_s16, w16. destruct (N.ltb_spec (mv_volume a mod 65536) 32768); lia.
Qed.
Print Assumptions C77_movie_values.
Example C77_movie_example :
  let a := new_mvhd 1000 in
  let cs := [MScale 90000; MVolume (-256); MScale 0; MRate 131072; MMatrix None; MScale 48000] in
  l_ok mvhd_layout a /\ Forall mcall_ok cs /\
  movie_answers (Some a) (mkMview 600 identity 65536 256) /\
  fold_left (fun v c => mset c v) cs (mkMview 600 identity 65536 256) = mkMview 48000 identity 131072 (-256).
Proof.
  cbv zeta. split; [vm_compute; repeat split; auto; lia|]. split.
  - repeat (apply Forall_cons; [vm_compute; repeat split; auto; try lia; try discriminate|]). apply Forall_nil.
  - split; [vm_compute; repeat split|reflexivity].
Qed.

(* ------------------------------------------------------------------ *)
(* Media                                                               *)

(* C77, visual media: the mode (16 bits) and colour set are the ones reported,
   before and after saving *)
Theorem C77_graphics_mode : forall a mode r g b, l_ok vmhd_layout a -> mode < 65536 -> r < 65536 -> g < 65536 -> b < 65536 ->
  exists a' c,
    set_graphics_mode mode r g b (Ok (code "vide")) (Some (HVideo a)) = Ok a' /\
    (vm_ver a', vm_flags a') = (vm_ver a, vm_flags a) /\
    get_graphics_mode (Ok (code "vide")) (Some (HVideo a')) = Ok (mode, (r, g, b)) /\
    saved vmhd_codec a' 20 c /\
    get_graphics_mode (Ok (code "vide")) (Some (HVideo c)) = Ok (mode, (r, g, b)) /\
    (vm_ver c, vm_flags c) = (vm_ver a, vm_flags a).
Proof.
  intros a mode r g b W H1 H2 H3 H4. set (a' := mkVmhd (vm_ver a) (vm_flags a) mode r g b).
  assert (W' : l_ok vmhd_layout a') by (destruct W as (W1 & _); exact (conj W1 (conj H1 (conj H2 (conj H3 H4))))).
  assert (G : get_graphics_mode (Ok (code "vide")) (Some (HVideo a')) = Ok (mode, (r, g, b))).
  { unfold get_graphics_mode. change (on_video (Ok (code "vide")) (Some (HVideo a')) (fun a => (vm_mode a, (w16 (vm_r a), w16 (vm_g a), w16 (vm_b a))))) with (Ok (mode, (w16 r, w16 g, w16 b))).
    unfold w16. rewrite !N.mod_small by assumption. reflexivity. }
  destruct (exact_round_trip _ _ _ vmhd_exact W' ltac:(vm_compute; reflexivity)) as (S & Wr & R & _).
  exists a', a'. split; [reflexivity|]. split; [reflexivity|]. split; [exact G|]. split; [|split; [exact G|reflexivity]].
  eexists. split; [exact Wr|]. split; [rewrite <- S; reflexivity|exact R].
Qed.
Print Assumptions C77_graphics_mode.
(* C77, sound: the balance *)
Theorem C77_sound_balance : forall a z, l_ok smhd_layout a -> is16 z ->
  exists a' c,
    set_sound_balance z (Ok (code "soun")) (Some (HSound a)) = Ok a' /\
    (sm_ver a', sm_flags a', sm_reserved a') = (sm_ver a, sm_flags a, sm_reserved a) /\
    get_sound_balance (Ok (code "soun")) (Some (HSound a')) = Ok z /\
    saved smhd_codec a' 16 c /\
    get_sound_balance (Ok (code "soun")) (Some (HSound c)) = Ok z /\
    (sm_ver c, sm_flags c, sm_reserved c) = (sm_ver a, sm_flags a, sm_reserved a).
Proof.
  intros a z W H. set (a' := mkSmhd (sm_ver a) (sm_flags a) (s16_u32 z) (sm_reserved a)).
  set (c := mkSmhd (sm_ver a) (sm_flags a) (s16_u32 z mod 65536) (sm_reserved a)).
  assert (W' : l_ok smhd_layout c) by (destruct W as (W1 & _ & W2); split; [exact W1|split; [apply N.mod_lt; discriminate|exact W2]]).
  destruct (exact_round_trip _ _ _ smhd_exact W' ltac:(vm_compute; reflexivity)) as (S & Wr & R & _).
  exists a', c. split; [reflexivity|]. split; [reflexivity|]. split.
  - change (get_sound_balance (Ok (code "soun")) (Some (HSound a'))) with (Ok (u32_s16 (s16_u32 z))). rewrite s16_there_and_back by exact H. reflexivity.
  - split; [|split; [|reflexivity]].
    + eexists. split; [|split; [|exact R]].
      * rewrite <- Wr. apply same_writer; [reflexivity|reflexivity|]. cbn [smhd_codec c_w]. unfold smhd_write, a', c. cbn [sm_ver sm_flags sm_balance sm_reserved].
        rewrite (put16_low (s16_u32 z)). reflexivity.
      * rewrite <- S. reflexivity.
    + change (get_sound_balance (Ok (code "soun")) (Some (HSound c))) with (Ok (u32_s16 (s16_u32 z mod 65536))). rewrite low16, s16_there_and_back by exact H. reflexivity.
Qed.
Print Assumptions C77_sound_balance.
(* C77: other media refuse, and so do media without a header *)
Theorem C77_media_refusals : forall ty h mode r g b z,
  (ty <> code "vide" -> set_graphics_mode mode r g b (Ok ty) h = Err MP4NotImplementedErr /\ get_graphics_mode (Ok ty) h = Err MP4NotImplementedErr) /\
  (ty <> code "soun" -> set_sound_balance z (Ok ty) h = Err MP4NotImplementedErr /\ get_sound_balance (Ok ty) h = Err MP4NotImplementedErr) /\
  set_graphics_mode mode r g b (Ok (code "vide")) None = Err MP4InvalidMediaErr /\
  get_graphics_mode (Ok (code "vide")) None = Err MP4InvalidMediaErr /\
  set_sound_balance z (Ok (code "soun")) None = Err MP4InvalidMediaErr /\
  get_sound_balance (Ok (code "soun")) None = Err MP4InvalidMediaErr /\
  get_media_scale None = Err MP4InvalidMediaErr /\ (forall d, get_media_scale (Some d) = Ok (md_timeScale d)).
Proof.
  intros. unfold set_graphics_mode, get_graphics_mode, set_sound_balance, get_sound_balance, on_video, on_sound.
  change T_vide with (code "vide"). change T_soun with (code "soun"). cbn [bind]. repeat split; intros;
    try (rewrite (proj2 (N.eqb_neq _ _)) by assumption; reflexivity); reflexivity.
Qed.
Print Assumptions C77_media_refusals.
(* a mode that needs more than 16 bits is reported until the file is saved *)
Theorem C77_graphics_mode_refuted : exists a mode a' c, l_ok vmhd_layout a /\ is32 mode /\
  set_graphics_mode mode 0 0 0 (Ok (code "vide")) (Some (HVideo a)) = Ok a' /\
  get_graphics_mode (Ok (code "vide")) (Some (HVideo a')) = Ok (mode, (0, 0, 0)) /\
  saved vmhd_codec a' 20 c /\ get_graphics_mode (Ok (code "vide")) (Some (HVideo c)) <> Ok (mode, (0, 0, 0)).
Proof.
  exists (mkVmhd 0 1 0 0 0 0), 65600, (mkVmhd 0 1 65600 0 0 0), (mkVmhd 0 1 64 0 0 0).
  split; [vm_compute; repeat split; auto; lia|]. split; [reflexivity|]. split; [reflexivity|]. split; [reflexivity|].
  split; [|vm_compute; discriminate].
  assert (W' : l_ok vmhd_layout (mkVmhd 0 1 64 0 0 0)) by (vm_compute; repeat split; auto; lia).
  destruct (exact_round_trip _ _ _ vmhd_exact W' ltac:(vm_compute; reflexivity)) as (S & Wr & R & _).
  eexists. split; [|split; [|exact R]]; [rewrite <- Wr; vm_compute; reflexivity|reflexivity].
Qed.
Print Assumptions C77_graphics_mode_refuted.
(* a media header that does not belong to the handler is used as if it did *)
Theorem C77_media_header_refuted : forall a, get_graphics_mode (Ok (code "vide")) (Some (HSound a)) = UB.
Proof. reflexivity. Qed.
Print Assumptions C77_media_header_refuted.

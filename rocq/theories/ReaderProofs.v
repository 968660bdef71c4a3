(* ReaderProofs.v -- lemmas for ReaderProps.v. *)
From Verif Require Import Base Codec BitLemmas AtomModel BoxModel SttsSpec SttsModel SttsProofs CttsSpec CttsModel CttsProofs SizeSpec SizeModel SizeProofs EditModel EditSpec EditProps
  MdatModel MediaSpec MediaModel MediaProofs MediaProps ReaderModel ReaderSpec.

(* ---- packets ---- *)
Lemma put32b_be x : x < 4294967296 -> put32b x = be32 x.
Proof. intros H. unfold put32b, be32. rewrite !N.shiftr_div_pow2, !land255. change (2 ^ 24) with 16777216. change (2 ^ 16) with 65536. change (2 ^ 8) with 256. reflexivity. Qed.
Lemma word_put x r : x < 4294967296 -> word (put32b x ++ r) = Some (x, r).
Proof.
  intros H. unfold put32b. cbn [app word]. rewrite !N.shiftr_div_pow2, !land255. change (2 ^ 24) with 16777216. change (2 ^ 16) with 65536. change (2 ^ 8) with 256.
  do 2 f_equal. lia.
Qed.
Lemma flags_ok q sync off : let v := sl_flags q sync off in
  v / 8 = q mod 32 /\ N.odd (v / 4) = sync /\ N.odd (v / 2) = off /\ N.odd v = true.
Proof.
  cbn zeta. assert (E : sl_flags q sync off = sl_flags (q mod 32) sync off).
  { unfold sl_flags. rewrite !land31. rewrite N.mod_mod by lia. reflexivity. }
  rewrite E. assert (H : q mod 32 < 32) by (apply N.mod_lt; lia). revert H. generalize (q mod 32) as x. intros x H. clear E.
  assert (C : forallb (fun n => let v := sl_flags (N.of_nat n) sync off in (v / 8 =? N.of_nat n) && Bool.eqb (N.odd (v / 4)) sync && Bool.eqb (N.odd (v / 2)) off && Bool.eqb (N.odd v) true) (seq 0 32) = true)
    by (destruct sync, off; vm_compute; reflexivity).
  rewrite forallb_forall in C. specialize (C (N.to_nat x)). rewrite N2Nat.id in C.
  specialize (C ltac:(apply in_seq; lia)). cbn zeta in C. rewrite !andb_true_iff in C. destruct C as [[[C1 C2] C3] C4].
  apply N.eqb_eq in C1. apply eqb_prop in C2, C3, C4. auto.
Qed.
Lemma u32_mod32 z : u32_of z = mod32 z.
Proof. unfold u32_of, mod32. reflexivity. Qed.
Lemma mod32_lt z : mod32 z < 4294967296.
Proof. unfold mod32. lia. Qed.

Lemma packet_ok (q : N) (sync off : bool) dts cts rest :
  dts < 4294967296 -> cts < 4294967296 ->
  open_packet ((sl_flags q sync off :: (if off then put32b dts else []) ++ put32b cts) ++ rest) =
  Some (mkPacket (q mod 32) sync (if off then Some dts else None) (Some cts) rest).
Proof.
  intros H1 H2. cbn [app open_packet]. destruct (flags_ok q sync off) as (F1 & F2 & F3 & F4). rewrite F1, F2, F3, F4.
  destruct off; cbn [word_if]; rewrite <- ?app_assoc; cbn [app].
  - rewrite word_put by assumption. cbn [option_map fst snd]. rewrite word_put by assumption. reflexivity.
  - rewrite word_put by assumption. reflexivity.
Qed.
Lemma len_put32b x : len (put32b x) = 4. Proof. reflexivity. Qed.

(* ---- reading without edits ---- *)
Record at_cursor (rd : reader) (c : cursor) : Prop := {
  ac_edits : r_edits rd = []; ac_segs : r_segs rd = 1; ac_seg : r_seg rd = 0; ac_media : r_media rd = 0%Z; ac_begin : r_begin rd = 0;
  ac_seq : r_seq rd = c_packets c mod 32; ac_count : r_count rd = c_limit c; ac_num : r_num rd = c_done c + 1;
  ac_sl : r_sl rd = false; ac_key : r_key rd = None; ac_le : c_done c <= c_limit c }.

Lemma s32_ocs z : s32_ok z -> s32_of (u32_of z) = z.
Proof. intros H. apply s32_u32. exact H. Qed.
Lemma s32_odts z : s32_ok z -> s32_of (w32 (u64_of z)) = z.
Proof. intros H. rewrite <- (s32_ocs z H) at 2. f_equal. unfold s32_ok in H. unfold w32, u64_of, u32_of. lia. Qed.

Lemma answer_dts t n i : answer t n = Some i -> i_dts i <= duration (t_smps t).
Proof.
  unfold answer. destruct (nth_error _ _) as [s|] eqn:E; [|discriminate]. injection 1 as <-. cbn [i_dts].
  rewrite <- (firstn_skipn (N.to_nat (n - 1)) (t_smps t)) at 2. rewrite !duration_total, map_app, total_app. lia.
Qed.
Lemma answer_dur t n i : Forall (fun s => m_dur s < 2147483648 /\ (-2147483648 <= m_off s < 2147483648)%Z) (t_smps t) ->
  answer t n = Some i -> i_dur i < 2147483648.
Proof.
  unfold answer. intros F. destruct (nth_error _ _) as [s|] eqn:E; [|discriminate]. injection 1 as <-. cbn [i_dur].
  apply nth_error_In in E. rewrite Forall_forall in F. apply (F _ E).
Qed.
Lemma answer_nooff m t D n i : minv m t D -> answer t n = Some i -> i_hasoff i = false -> i_off i = 0%Z.
Proof.
  intros I. unfold answer. destruct (nth_error _ _) as [s|] eqn:E; [|discriminate]. injection 1 as <-. cbn [i_hasoff i_off]. intros Hf.
  pose proof (v_ctts _ _ _ I) as V. pose proof (v_hasoff _ _ _ I) as W. rewrite Hf in W. destruct (me_ctts m); [discriminate|].
  destruct V as [k V]. pose proof (v_range _ _ _ I) as R. apply nth_error_In in E. rewrite Forall_forall in R. specialize (R _ E).
  assert (Hin : In (u32_of (m_off s)) (repeat 0 k)) by (rewrite <- V; apply (in_map (fun s => u32_of (m_off s))); exact E).
  apply repeat_spec in Hin. unfold u32_of in Hin. lia.
Qed.
Lemma next_au_ok rd c m d t : at_cursor rd c -> minv m t (md_data d) -> len (md_data d) < 4294967296 ->
  c_limit c <= len (t_smps t) -> c_done c < c_limit c ->
  forall a, unit_of t (c_done c + 1) = Some a -> unit_ok a ->
  exists rd' m', next_au rd m d = (Ok a, (rd', m')) /\ r_seq rd' = r_seq rd /\
    at_cursor rd' (mkCursor (c_track c) (c_limit c) (c_done c + 1) (c_packets c)) /\
    minv m' t (md_data d) /\ me_drefs m' = me_drefs m.
Proof.
  intros [A1 A2 A3 A4 A5 A6 A7 A8 A9 A10 A11] I Hd Hl Hlt a Ha [Hu1 Hu2]. unfold next_au. rewrite A1, A2, A3, A7, A8.
  change (1 <? 0) with false. change (len (@nil edit) =? 0) with true. cbn [andb].
  destruct (N.ltb_spec (c_limit c) (c_done c + 1)); [lia|].
  destruct (media_get_ok m d t (c_done c + 1) I Hd ltac:(lia)) as (i & desc & m' & E & Ea & I' & D'). rewrite E, A10. cbn [negb].
  unfold unit_of in Ha. rewrite Ea in Ha. cbn [option_map] in Ha. injection Ha as <-. cbn [unit_at a_dts a_cts] in Hu1, Hu2.
  pose proof (answer_dts _ _ _ Ea) as Hdt. pose proof (v_dur _ _ _ I) as Hdu. pose proof (answer_dur _ _ _ (v_range _ _ _ I) Ea) as Hds.
  assert (Eo : s32_of (w32 (w64 (sub64 (i_dts i) (u64_of (r_media rd)) + r_begin rd))) = Z.of_N (i_dts i)).
  { rewrite A4, A5. change (u64_of 0) with 0. unfold sub64. unfold s32_ok in Hu1. unfold s32_of, w32, w64.
    destruct (N.ltb_spec ((((i_dts i + 18446744073709551616 - 0 mod 18446744073709551616) mod 18446744073709551616 + 0) mod 18446744073709551616) mod 4294967296) 2147483648); lia. }
  rewrite Eo.
  assert (Es : i_hasoff i && ((Z.of_N (i_dts i) + i_off i <? -2147483648)%Z || (2147483648 <=? Z.of_N (i_dts i) + i_off i)%Z) = false).
  { unfold s32_ok in Hu2. destruct (i_hasoff i); [|reflexivity]. cbn [andb].
    destruct (Z.ltb_spec (Z.of_N (i_dts i) + i_off i) (-2147483648)); [lia|]. destruct (Z.leb_spec 2147483648 (Z.of_N (i_dts i) + i_off i)); [lia|]. reflexivity. }
  rewrite Es.
  assert (Ec : (if i_hasoff i then s32_of (u32_of (Z.of_N (i_dts i) + i_off i)) else Z.of_N (i_dts i)) = (Z.of_N (i_dts i) + i_off i)%Z).
  { destruct (i_hasoff i) eqn:Eh; [apply s32_ocs; exact Hu2|]. rewrite (answer_nooff m t _ _ i I Ea Eh). lia. }
  rewrite Ec, (w32_small (i_dur i)) by lia. do 2 eexists. split; [|split; [|split; [|split; [exact I'|exact D']]]].
  - reflexivity.
  - reflexivity.
  - constructor; cbn [r_edits r_segs r_seg r_media r_begin r_seq r_count r_num r_sl r_key c_limit c_done c_packets]; auto; try lia.
    rewrite w32_small; [lia|]. pose proof (v_count _ _ _ I). lia.
Qed.
Lemma next_au_end rd c m d : at_cursor rd c -> c_done c = c_limit c -> next_au rd m d = (Err MP4EOF, (rd, m)).
Proof.
  intros [A1 A2 A3 A4 A5 A6 A7 A8 A9 A10 A11] E. unfold next_au. rewrite A1, A2, A3, A7, A8.
  change (1 <? 0) with false. change (len (@nil edit) =? 0) with true. cbn [andb]. destruct (N.ltb_spec (c_limit c) (c_done c + 1)); [reflexivity|lia].
Qed.
Lemma next_packet_ok rd c m d t : at_cursor rd c -> minv m t (md_data d) -> len (md_data d) < 4294967296 ->
  c_limit c <= len (t_smps t) -> c_done c < c_limit c ->
  forall a, unit_of t (c_done c + 1) = Some a -> unit_ok a -> (forall bs, a_bytes a = Some bs -> len bs + 9 < 4294967296) ->
  exists p rd' m', next_packet rd m d = (Ok p, (rd', m')) /\ carries p (c_packets c + 1) a /\
    at_cursor rd' (mkCursor (c_track c) (c_limit c) (c_done c + 1) (c_packets c + 1)) /\
    minv m' t (md_data d) /\ me_drefs m' = me_drefs m.
Proof.
  intros A I Hd Hl Hlt a Ha Hu Hb. unfold next_packet. rewrite (ac_sl _ _ A).
  destruct (next_au_ok rd c m d t A I Hd Hl Hlt a Ha Hu) as (rd' & m' & E & Es & A' & I' & D'). rewrite E.
  assert (Hbs : exists bs, a_bytes a = Some bs).
  { unfold unit_of in Ha. destruct (answer t (c_done c + 1)); [|discriminate]. injection Ha as <-. eexists. reflexivity. }
  destruct Hbs as [bs Ebs]. rewrite Ebs. specialize (Hb _ Ebs).
  assert (Eq : N.land (w32 (r_seq rd' + 1)) 31 = (c_packets c + 1) mod 32).
  { rewrite land31, Es, (ac_seq _ _ A). unfold w32. lia. }
  rewrite Eq. unfold sl_packet.
  match goal with |- context [len ?h] => match h with sl_flags _ _ _ :: _ => assert (Hh : len h <= 9) end end.
  { destruct (a_hasoff a); lens; rewrite ?len_put32b; lia. }
  rewrite w32_small by lia. rewrite N.ltb_irrefl. do 3 eexists. split; [reflexivity|]. split.
  - exists bs. split; [exact Ebs|]. rewrite packet_ok by (rewrite u32_mod32; apply mod32_lt). rewrite N.mod_mod, !u32_mod32 by lia. reflexivity.
  - split; [|auto]. destruct A'. constructor; cbn [r_edits r_segs r_seg r_media r_begin r_seq r_count r_num r_sl r_key c_limit c_done c_packets] in *; auto.
Qed.
Lemma next_packet_end rd c m d : at_cursor rd c -> c_done c = c_limit c -> next_packet rd m d = (Err MP4EOF, (rd, m)).
Proof. intros A E. unfold next_packet. rewrite (ac_sl _ _ A), (next_au_end rd c m d A E). reflexivity. Qed.

Definition rinv (drefs : N) (w : rmovie) (ts : list track) (cs : list cursor) : Prop :=
  winv drefs (rm_movie w) ts /\ stored ts < 4294967296 /\
  Forall2 (fun ir c => fst ir = c_track c /\ at_cursor (snd ir) c /\
             exists t, nth_error ts (c_track c) = Some t /\ c_limit c <= len (t_smps t)) (rm_readers w) cs.

Lemma nth_upd_other {A} (l : list A) i j x : i <> j -> nth_error (upd l i x) j = nth_error l j.
Proof. revert i j; induction l as [|y l IH]; intros [|i] [|j] H; try congruence; cbn [upd nth_error]; auto. Qed.
Lemma agrow_le ts o j t : nth_error ts j = Some t -> exists t', nth_error (agrow ts o) j = Some t' /\ len (t_smps t) <= len (t_smps t').
Proof.
  intros H. destruct o as [i ss b|i n]; cbn [agrow]; [|exists t; split; [exact H|lia]].
  destruct (nth_error ts i) as [t0|] eqn:E; [|exists t; split; [exact H|lia]].
  destruct (Nat.eq_dec i j) as [->|Hne].
  - rewrite E in H. injection H as ->. exists (tadd t ss b). split; [apply (upd_same _ _ _ _ E)|]. cbn [tadd t_smps]. lens. lia.
  - exists t. rewrite nth_upd_other by exact Hne. split; [exact H|lia].
Qed.
Lemma Forall2_nth' {A B} (R : A -> B -> Prop) a b i x : Forall2 R a b -> nth_error b i = Some x -> exists y, nth_error a i = Some y /\ R y x.
Proof. apply Forall2_nth. Qed.
Lemma winv_get drefs ms d ts i t : winv drefs (ms, d) ts -> nth_error ts i = Some t ->
  exists m, nth_error ms i = Some m /\ minv m t (md_data d) /\ me_drefs m = drefs.
Proof. intros [F S] H. destruct (Forall2_nth _ _ _ _ _ F H) as (m & E & I & D). eauto. Qed.
Lemma winv_put drefs ms d ts i t m' : winv drefs (ms, d) ts -> nth_error ts i = Some t ->
  minv m' t (md_data d) -> me_drefs m' = drefs -> winv drefs (upd ms i m', d) ts.
Proof.
  intros [F S] H I D. split; [|exact S]. cbn [fst snd] in *. rewrite <- (upd_id ts i t H). apply Forall2_upd; [exact F|]. split; assumption.
Qed.

Lemma rstep_ok drefs w ts cs o : rinv drefs w ts cs -> rop_ok drefs ts cs o ->
  exists x w', rstep w o = Ok (x, w') /\ agrees x (fst (espec1 ts cs o)) /\
    rinv drefs w' (fst (snd (espec1 ts cs o))) (snd (snd (espec1 ts cs o))).
Proof.
  destruct w as [[ms d] rs]. intros (W & S & F) Ho. unfold rstep. cbn [rm_movie rm_readers] in *.
  assert (Hd : len (md_data d) < 4294967296) by (destruct W as [_ W2]; cbn [snd] in W2; lia).
  destruct o as [i|k|k|o]; cbn [rop_ok espec1] in *.
  - destruct Ho as (t & Ht). destruct (winv_get _ _ _ _ _ _ W Ht) as (m & Em & I & D). rewrite Em, Ht. cbn [reader_new bind].
    do 2 eexists. split; [reflexivity|]. split; [exact Logic.I|]. cbn [fst snd]. split; [exact W|]. split; [exact S|].
    apply Forall2_app2; [exact F|]. constructor; [|constructor]. cbn [fst snd c_track c_limit]. split; [reflexivity|]. split.
    + constructor; cbn [r_edits r_segs r_seg r_media r_begin r_seq r_count r_num r_sl r_key c_limit c_done c_packets]; try reflexivity; [|lia].
      rewrite (proj1 (v_stsz _ _ _ I)). apply len_map.
    + exists t. split; [exact Ht|lia].
  - destruct Ho as (c & Hc & Hu). rewrite Hc. destruct (Forall2_nth _ _ _ _ _ F Hc) as ([j rd] & Er & Ej & A & t & Ht & Hl). cbn [fst snd] in *. subst j.
    rewrite Er. destruct (winv_get _ _ _ _ _ _ W Ht) as (m & Em & I & D). rewrite Em.
    unfold next_of in *. rewrite Ht in *. destruct (N.ltb_spec (c_done c) (c_limit c)) as [Hlt|Hge].
    + assert (Hex : exists a, unit_of t (c_done c + 1) = Some a).
      { unfold unit_of, answer. destruct (nth_error (t_smps t) (N.to_nat (c_done c + 1 - 1))) eqn:E; [eexists; reflexivity|].
        apply nth_error_None in E. unfold len in Hl. lia. }
      destruct Hex as [a Ea]. rewrite Ea in *.
      destruct (next_au_ok rd c m d t A I Hd Hl Hlt a Ea Hu) as (rd' & m' & E & Es & A' & I' & D'). rewrite E.
      do 2 eexists. split; [reflexivity|]. split; [reflexivity|]. cbn [fst snd rm_movie rm_readers]. split; [|split; [exact S|]].
      * apply (winv_put _ _ _ _ _ t _ W Ht I'). congruence.
      * apply Forall2_upd; [exact F|]. cbn [fst snd c_track c_limit]. split; [reflexivity|]. split; [exact A'|]. exists t. auto.
    + rewrite (next_au_end rd c m d A) by (destruct A; lia). cbn [Z.eqb]. change (MP4EOF =? MP4EOF)%Z with true. cbv iota.
      do 2 eexists. split; [reflexivity|]. split; [exact Logic.I|]. cbn [fst snd rm_movie rm_readers]. rewrite (upd_id ms _ m Em), (upd_id rs k _ Er).
      split; [exact W|split; [exact S|exact F]].
  - destruct Ho as (c & Hc & Hu). rewrite Hc. destruct (Forall2_nth _ _ _ _ _ F Hc) as ([j rd] & Er & Ej & A & t & Ht & Hl). cbn [fst snd] in *. subst j.
    rewrite Er. destruct (winv_get _ _ _ _ _ _ W Ht) as (m & Em & I & D). rewrite Em.
    unfold next_of in *. rewrite Ht in *. destruct (N.ltb_spec (c_done c) (c_limit c)) as [Hlt|Hge].
    + assert (Hex : exists a, unit_of t (c_done c + 1) = Some a).
      { unfold unit_of, answer. destruct (nth_error (t_smps t) (N.to_nat (c_done c + 1 - 1))) eqn:E; [eexists; reflexivity|].
        apply nth_error_None in E. unfold len in Hl. lia. }
      destruct Hex as [a Ea]. rewrite Ea in *. destruct Hu as [Hu Hb].
      destruct (next_packet_ok rd c m d t A I Hd Hl Hlt a Ea Hu Hb) as (p & rd' & m' & E & Es & A' & I' & D'). rewrite E.
      do 2 eexists. split; [reflexivity|]. split; [exact Es|]. cbn [fst snd rm_movie rm_readers]. split; [|split; [exact S|]].
      * apply (winv_put _ _ _ _ _ t _ W Ht I'). congruence.
      * apply Forall2_upd; [exact F|]. cbn [fst snd c_track c_limit]. split; [reflexivity|]. split; [exact A'|]. exists t. auto.
    + rewrite (next_packet_end rd c m d A) by (destruct A; lia). change (MP4EOF =? MP4EOF)%Z with true. cbv iota.
      do 2 eexists. split; [reflexivity|]. split; [exact Logic.I|]. cbn [fst snd rm_movie rm_readers]. rewrite (upd_id ms _ m Em), (upd_id rs k _ Er).
      split; [exact W|split; [exact S|exact F]].
  - destruct Ho as [Ho Hg]. destruct (step_ok drefs (ms, d) ts o W S Ho Hg) as (x & w' & E & W' & Ex). rewrite E. cbn [bind].
    do 2 eexists. split; [reflexivity|]. split; [cbn [fst snd agrees]; exact Ex|]. cbn [fst snd rm_movie rm_readers].
    split; [exact W'|split; [exact Hg|]]. clear -F. induction F as [|x y l l' (H1 & H2 & t & H3 & H4) _ IH]; constructor; [|exact IH].
    split; [exact H1|]. split; [exact H2|]. destruct (agrow_le ts o _ _ H3) as (t' & G1 & G2). exists t'. split; [exact G1|lia].
Qed.

Lemma rrun_ok drefs os : forall w ts cs, rinv drefs w ts cs -> rops_ok drefs ts cs os ->
  exists r, rrun w os = Ok r /\ Forall2 agrees r (espec ts cs os).
Proof.
  induction os as [|o os IH]; intros w ts cs R Ho; [exists []; split; [reflexivity|constructor]|].
  cbn [rops_ok espec rrun] in *. destruct Ho as [H1 H2]. destruct (rstep_ok _ _ _ _ _ R H1) as (x & w' & E & Ag & R').
  destruct (espec1 ts cs o) as [e [ts' cs']]. cbn [fst snd] in *. rewrite E. cbn [bind].
  destruct (IH _ _ _ R' H2) as (r & Er & Fr). cbn [fst snd]. rewrite Er. cbn [bind]. eexists. split; [reflexivity|]. constructor; assumption.
Qed.

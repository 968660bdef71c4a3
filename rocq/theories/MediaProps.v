(* MediaProps.v -- C17: samples are read back as they were added. *)
From Verif Require Import Base Codec AtomModel BoxModel SttsSpec SttsModel SttsProofs CttsSpec CttsModel CttsProofs
  SyncModel SizeModel MarkModel ChunkModel MdatModel SaveSpec StreamProofs MediaSpec MediaModel MediaProofs.

Lemma upd_same {A} (l : list A) i x y : nth_error l i = Some y -> nth_error (upd l i x) i = Some x.
Proof. revert i; induction l as [|z l IH]; intros [|i] H; try discriminate; cbn [upd nth_error] in *; auto. Qed.
Lemma Forall2_nth {A B} (R : A -> B -> Prop) a b i y : Forall2 R a b -> nth_error b i = Some y -> exists x, nth_error a i = Some x /\ R x y.
Proof. intros H; revert i; induction H; intros [|i] E; try discriminate; cbn [nth_error] in *; [injection E as <-; eauto|eauto]. Qed.
Lemma Forall2_upd {A B} (R : A -> B -> Prop) a b i x y : Forall2 R a b -> R x y -> Forall2 R (upd a i x) (upd b i y).
Proof. intros H; revert i; induction H; intros [|i] Hr; cbn [upd]; constructor; auto. Qed.
Lemma upd_id {A} (l : list A) i x : nth_error l i = Some x -> upd l i x = l.
Proof. revert i; induction l as [|y l IH]; intros [|i] H; try discriminate; cbn [upd nth_error] in *; [congruence|f_equal; auto]. Qed.
Lemma stored_upd ts i t t' : nth_error ts i = Some t ->
  stored (upd ts i t') + len (flat_map m_bytes (t_smps t)) = stored ts + len (flat_map m_bytes (t_smps t')).
Proof.
  revert i; induction ts as [|x ts IH]; intros [|i] H; try discriminate; cbn [upd nth_error stored fold_right] in *; fold (stored ts) in *.
  - injection H as ->. lia.
  - fold (stored (upd ts i t')). specialize (IH _ H). lia.
Qed.

Definition winv (drefs : N) (w : movie) (ts : list track) : Prop :=
  Forall2 (fun m t => minv m t (md_data (snd w)) /\ me_drefs m = drefs) (fst w) ts /\ len (md_data (snd w)) = stored ts.

Lemma step_ok drefs w ts o : winv drefs w ts -> stored ts < 4294967296 -> aop_ok drefs ts o -> stored (agrow ts o) < 4294967296 ->
  exists x w', movie_step w o = Ok (x, w') /\ winv drefs w' (agrow ts o) /\
    option_map fst x = match o with AAdd _ _ _ => None | AGet i n => match nth_error ts i with Some t => answer t n | None => None end end.
Proof.
  destruct w as [ms d]. intros [F S] Hs Ho Hg. cbn [fst snd] in *. destruct o as [i ss b|i n]; cbn [aop_ok agrow movie_step] in *.
  - destruct Ho as (t & Ht & H1 & H2 & H3 & H4 & H5 & H6 & H7). rewrite Ht in *.
    destruct (Forall2_nth _ _ _ _ _ F Ht) as (m & Em & Im & Dm). rewrite Em. subst drefs.
    pose proof (stored_upd ts i t (tadd t ss b) Ht) as Hst. cbn [tadd t_smps] in Hst. rewrite flat_map_app in Hst. rewrite len_app in Hst.
    assert (Hle : len (flat_map m_bytes (t_smps t)) <= stored ts).
    { clear -Ht. revert i Ht. induction ts as [|x ts IH]; intros [|i] H; try discriminate; cbn [nth_error stored fold_right] in *; fold (stored ts).
      - injection H as ->. lia.
      - specialize (IH _ H). lia. }
    destruct (media_add_ok m d t ss b Im H1 H2 H3 H4) as (m' & d' & E & Ed & I' & D'); try assumption; try (rewrite flat_map_app; lens); try lia.
    rewrite E. cbn [bind fst snd]. do 2 eexists. split; [reflexivity|]. split; [|reflexivity]. split; cbn [fst snd].
    + apply Forall2_upd; [|split; [exact I'|exact D']]. clear -F Ed. rewrite Ed. induction F as [|x y l l' [A B] _ IH]; constructor; [|exact IH].
      split; [apply minv_grow; exact A|exact B].
    + rewrite Ed. lens. lia.
  - destruct Ho as (t & Ht & Hn). destruct (Forall2_nth _ _ _ _ _ F Ht) as (m & Em & Im & Dm). rewrite Em, Ht.
    destruct (media_get_ok m d t n Im ltac:(lia) Hn) as (a & desc & m' & E & Ea & I' & D'). rewrite E. cbn [bind].
    do 2 eexists. split; [reflexivity|]. split; [|symmetry; exact Ea]. split; [|exact S]. cbn [fst snd].
    rewrite <- (upd_id ts i t Ht). apply Forall2_upd; [exact F|]. split; [exact I'|congruence].
Qed.

(* the state after a history *)
Fixpoint movie_end (w : movie) (os : list aop) : res movie :=
  match os with [] => Ok w | o :: r => do x <- movie_step w o; movie_end (snd x) r end.
Fixpoint tracks_end (ts : list track) (os : list aop) : list track :=
  match os with [] => ts | o :: r => tracks_end (agrow ts o) r end.

Lemma run_ok drefs os : forall w ts, winv drefs w ts -> stored ts < 4294967296 -> aops_ok drefs ts os ->
  exists r w', movie_run w os = Ok r /\ map (option_map fst) r = aspec ts os /\ movie_end w os = Ok w' /\
    winv drefs w' (tracks_end ts os) /\ stored (tracks_end ts os) < 4294967296.
Proof.
  induction os as [|o os IH]; intros w ts I Hs Ho.
  - exists [], w. repeat split; try reflexivity; [apply I|apply I|exact Hs].
  - cbn [aops_ok] in Ho. destruct Ho as (H1 & H2 & H3).
    destruct (step_ok drefs w ts o I Hs H1 H2) as (x & w1 & E & I1 & Ex).
    destruct (IH w1 _ I1 H2 H3) as (r & w2 & E2 & Er & Ee & I2 & H4).
    cbn [movie_run movie_end tracks_end]. rewrite E. cbn [bind snd fst]. rewrite E2, Ee. cbn [bind].
    exists (x :: r), w2. split; [reflexivity|]. split; [|auto]. cbn [map]. rewrite Ex, Er. destruct o; reflexivity.
Qed.
Lemma winv_new junk drefs k : winv drefs (repeat (media_new junk drefs) k, mdat_new) (repeat track0 k).
Proof.
  split; cbn [fst snd].
  - induction k as [|k IH]; cbn [repeat]; constructor; [split; [apply minv_new|reflexivity]|exact IH].
  - induction k as [|k IH]; [reflexivity|]. cbn [repeat stored fold_right track0 t_smps flat_map] in *. exact IH.
Qed.
Lemma stored_new k : stored (repeat track0 k) = 0.
Proof. induction k as [|k IH]; [reflexivity|]. cbn [repeat stored fold_right track0 t_smps flat_map] in *. exact IH. Qed.

(* For any number of tracks sharing the movie's media data, any interleaving
   of batches added to them and of questions about samples: every question is
   answered with the bytes, size, decoding time, composition offset, duration,
   sync flag and padding of the sample as it was added. *)
Theorem C17_samples_read_back :
  forall drefs junk k os, aops_ok drefs (repeat track0 k) os ->
  exists r, movie_run (repeat (media_new junk drefs) k, mdat_new) os = Ok r /\
    map (option_map fst) r = aspec (repeat track0 k) os.
Proof.
  intros drefs junk k os H.
  destruct (run_ok drefs os _ _ (winv_new junk drefs k) ltac:(rewrite stored_new; lia) H) as (r & w & E & Er & _). eauto.
Qed.
Print Assumptions C17_samples_read_back.

(* two tracks, three batches, questions in between *)
Definition exA : list smp := [mkSmp [1; 2; 3] 10 0 true 0; mkSmp [4] 20 5 false 0].
Definition exB : list smp := [mkSmp [9; 9] 7 0 true 3; mkSmp [] 7 0 true 4].
Definition exC : list smp := [mkSmp [5; 6] 30 (-4) true 0].
Definition ex_aops : list aop :=
  [AAdd 0 exA (mkBat 2 [1; 2; 3; 4] [10; 20] [3; 1] (Some 1) (Some [0; 5]) (Some [1]) None);
   AGet 0 2;
   AAdd 1 exB (mkBat 2 [9; 9] [7] [2; 0] (Some 1) None None (Some [3; 4]));
   AAdd 0 exC (mkBat 1 [5; 6] [30] [2] None (Some [4294967292]) (Some [1]) None);
   AGet 0 3; AGet 1 1; AGet 1 2; AGet 0 1].
Example C17_case : aops_ok 1 (repeat track0 2) ex_aops /\
  aspec (repeat track0 2) ex_aops =
   [None; Some (mkInfo [4] 1 10 5 20 true false 248); None; None;
    Some (mkInfo [5; 6] 2 30 (-4) 30 true true 248); Some (mkInfo [9; 9] 2 0 0 7 false true 3);
    Some (mkInfo [] 0 7 0 7 false true 4); Some (mkInfo [1; 2; 3] 3 0 0 10 true true 248)].
Proof.
  split; [|vm_compute; reflexivity]. unfold ex_aops. cbn [aops_ok].
  repeat match goal with
  | |- _ /\ _ => split
  | |- True => exact I
  | |- stored _ < _ => vm_compute; reflexivity
  end; cbn [aop_ok].
  all: try (eexists; split; [reflexivity|vm_compute; split; congruence]).
  all: eexists; (split; [reflexivity|]); (split; [|repeat split; vm_compute; try congruence; auto; try (left; reflexivity); try (right; congruence)]).
  - unfold exA. constructor; cbn; try discriminate; try reflexivity; try (left; reflexivity);
      repeat (apply Forall_cons || apply Forall_nil); cbn; lia.
  - unfold exB. constructor; cbn; try discriminate; try reflexivity; try (left; reflexivity);
      try (right; exists 7; split; [reflexivity|repeat constructor]);
      repeat (apply Forall_cons || apply Forall_nil); cbn; (lia || reflexivity).
  - unfold exC. constructor; cbn; try discriminate; try reflexivity; try (left; reflexivity);
      repeat (apply Forall_cons || apply Forall_nil); cbn; lia.
Qed.

Lemma media_at_ok m d t T : minv m t (md_data d) -> 0 < len (md_data d) < 4294967296 ->
  Forall (fun s => 1 <= m_dur s) (t_smps t) -> T < duration (t_smps t) ->
  exists n x j desc m', media_at m d T = (Ok (j, desc), m') /\
    1 <= n /\ answer t n = Some x /\ i_dts x <= T < i_dts x + i_dur x /\
    j = mkTinfo (i_bytes x) (i_size x) (i_dts x) (u64_of (Z.of_N (i_dts x) + i_off x)) (i_dur x) (i_hasoff x) (i_sync x) (i_pad x).
Proof.
  intros I [Hne Hs] Hpos HT.
  pose proof (v_dur _ _ _ I) as Hdu. rewrite duration_total in Hdu, HT. pose proof (v_count _ _ _ I) as Hct.
  pose proof (v_stts _ _ _ I) as [R1 R2 R3 R4].
  assert (FT : find_tab (st_entries (me_stts m))).
  { constructor; [exact R2| |rewrite R1; exact Hdu|rewrite R1, len_map; lia]. unfold durs_pos. apply Forall_forall. intros [c e] Hin. cbn [snd].
    assert (Hx : In e (map m_dur (t_smps t))).
    { rewrite <- R1. unfold expand. apply in_flat_map. exists (c, e). split; [exact Hin|]. cbn [fst snd].
      unfold all_pos in R2. rewrite Forall_forall in R2. specialize (R2 _ Hin). cbn [fst] in R2.
      destruct (N.to_nat c) eqn:Ec; [lia|]. left. reflexivity. }
    apply in_map_iff in Hx. destruct Hx as (s & <- & Hx). rewrite Forall_forall in Hpos. auto. }
  destruct (stts_find_ok (me_stts m) T FT ltac:(rewrite R1; exact HT)) as (n & e & K1 & K2 & K3 & K). rewrite R1 in *.
  unfold dur in K2. rewrite nth_error_map in K2. destruct (nth_error (t_smps t) (N.to_nat (n - 1))) as [s|] eqn:Hsn; [|discriminate].
  cbn [option_map] in K2. injection K2 as <-.
  destruct (media_locate m d t n s I ltac:(lia) ltac:(lia) Hsn) as (c & desc & fs & sc & o & off & L1 & L2 & L3 & L4 & L5 & L6 & L7 & L8 & L9 & L10 & L11).
  pose proof (v_range _ _ _ I) as V. rewrite Forall_forall in V. destruct (V _ (nth_error_In _ _ Hsn)) as [V1 V2].
  assert (Hdt : dts (map m_dur (t_smps t)) n = duration (firstn (N.to_nat (n - 1)) (t_smps t)))
    by (unfold dts; rewrite firstn_map; symmetry; apply duration_total).
  assert (Hcopy : mdat_copy d (w64 (off + o)) (len (m_bytes s)) = Ok (m_bytes s)).
  { replace (w64 (off + o)) with (off + o) by (unfold w64; symmetry; apply N.mod_small; lia).
    unfold mdat_copy. destruct (N.eqb_spec (len (md_data d)) 0); [lia|].
    assert (E2 : w64 (off + o + len (m_bytes s)) = off + o + len (m_bytes s)) by (unfold w64; apply N.mod_small; lia). rewrite E2.
    destruct (N.ltb_spec (len (md_data d)) (off + o + len (m_bytes s))); [lia|]. cbn [orb]. rewrite shiftr32.
    destruct (N.ltb_spec (off + o) 4294967296); [|lia]. cbn [negb]. f_equal. exact L8. }
  exists n. eexists. exists (mkTinfo (m_bytes s) (len (m_bytes s)) (dts (map m_dur (t_smps t)) n)
     (u64_of (Z.of_N (dts (map m_dur (t_smps t)) n) + m_off s)) (m_dur s) (t_offs t) (m_sync s) (if t_pads t then m_pad s else 248)).
  exists desc, (mkMedia (me_stts m) (me_ctts m) (me_stss m) (me_padb m) (me_stsz m) (me_stco m) sc (me_descs m) (me_drefs m)).
  split.
  { assert (Hlt : dts (map m_dur (t_smps t)) n < 4294967296) by lia.
    assert (Eu : forall x, x < 4294967296 -> u64_of (Z.of_N x) = x) by (intros x Hx; unfold u64_of; lia).
    assert (Fn : f_num (stts_find (me_stts m) T) = n /\ f_dur (stts_find (me_stts m) T) = Some (s32_of (m_dur s)) /\
       (if negb (f_exact (stts_find (me_stts m) T) =? -1)%Z then u64_of (f_exact (stts_find (me_stts m) T))
        else if negb (f_prior (stts_find (me_stts m) T) =? -1)%Z then u64_of (f_prior (stts_find (me_stts m) T))
        else u64_of (f_next (stts_find (me_stts m) T))) = dts (map m_dur (t_smps t)) n).
    { destruct K as [(A1 & A2 & ->)|(A1 & ->)]; cbn [f_num f_dur f_exact f_prior f_next]; (split; [reflexivity|]); (split; [reflexivity|]).
      - destruct (Z.eqb_spec (Z.of_N T) (-1)); [lia|]. cbn [negb]. rewrite Eu by lia. exact A2.
      - change (-1 =? -1)%Z with true. cbn [negb].
        destruct (Z.eqb_spec (Z.of_N (dts (map m_dur (t_smps t)) n)) (-1)); [lia|]. cbn [negb]. apply Eu. exact Hlt. }
    destruct Fn as (Fn1 & Fn2 & Fn3). unfold media_at. rewrite Fn1, Fn2, Fn3, L1, L3. cbn [bind fst snd]. rewrite L4. cbn [bind]. rewrite L5. cbn [bind].
    rewrite L6. cbn [bind]. rewrite Hcopy. cbn [bind]. rewrite L9. cbn [bind]. rewrite L10, L11.
    unfold u64_dur. rewrite s32_small by exact V1. rewrite Eu by lia. reflexivity. }
  split; [lia|]. split; [unfold answer; rewrite Hsn; reflexivity|]. cbn [i_dts i_dur i_bytes i_size i_off i_hasoff i_sync i_pad].
  rewrite <- Hdt. split; [lia|reflexivity].
Qed.
(* Asking by time, after any such history: at every time before the end of the
   track the sample being decoded at that time is returned, with its decoding
   time and its composition time. Every sample must last at least one unit. *)
Theorem C17_sample_at_time :
  forall drefs junk k os, aops_ok drefs (repeat track0 k) os ->
  exists ms d, movie_end (repeat (media_new junk drefs) k, mdat_new) os = Ok (ms, d) /\
  forall i t T, nth_error (tracks_end (repeat track0 k) os) i = Some t ->
    Forall (fun s => 1 <= m_dur s) (t_smps t) -> T < duration (t_smps t) ->
    (exists s, In s (t_smps t) /\ m_bytes s <> []) ->
  exists m n x j desc m', nth_error ms i = Some m /\ media_at m d T = (Ok (j, desc), m') /\
    1 <= n /\ answer t n = Some x /\ i_dts x <= T < i_dts x + i_dur x /\
    j = mkTinfo (i_bytes x) (i_size x) (i_dts x) (u64_of (Z.of_N (i_dts x) + i_off x)) (i_dur x) (i_hasoff x) (i_sync x) (i_pad x).
Proof.
  intros drefs junk k os H.
  destruct (run_ok drefs os _ _ (winv_new junk drefs k) ltac:(rewrite stored_new; lia) H) as (r & [ms d] & _ & _ & E & [F S] & Hs).
  exists ms, d. split; [exact E|]. intros i t T Ht Hpos HT Hsome. cbn [fst snd] in *.
  destruct (Forall2_nth _ _ _ _ _ F Ht) as (m & Em & I & Dm). exists m.
  assert (Hne : 0 < len (md_data d)).
  { rewrite S. destruct Hsome as (s' & Hin & Hb). clear -Hin Hb Ht. revert i Ht.
    induction (tracks_end (repeat track0 k) os) as [|y ts IH]; intros [|i] Ht; try discriminate; cbn [nth_error stored fold_right] in *; fold (stored ts).
    - injection Ht as ->. clear IH. induction (t_smps t) as [|z l IH]; [destruct Hin|]. cbn [flat_map]. lens.
      destruct Hin as [->|Hin]; [destruct (m_bytes s'); [congruence|lens; lia]|]. specialize (IH Hin). lia.
    - specialize (IH _ Ht). lia. }
  destruct (media_at_ok m d t T I ltac:(lia) Hpos HT) as (n & x & j & desc & m' & Q). exists n, x, j, desc, m'. split; [exact Em|exact Q].
Qed.
Print Assumptions C17_sample_at_time.
Example C17_time_case :
  tracks_end (repeat track0 2) ex_aops = [mkTrack (exA ++ exC) true false true; mkTrack exB false true true] /\
  match movie_end (repeat (media_new 0 1) 2, mdat_new) ex_aops with
  | Ok (ms, d) => match nth_error ms 0 with
                  | Some m => fst (media_at m d 29) = Ok (mkTinfo [4] 1 10 15 20 true false 248, 1)
                  | None => False end
  | _ => False end.
Proof. split; vm_compute; reflexivity. Qed.

(* The restrictions are needed. A question about a sample that does not exist
   yet changes a later answer (C08), offsets that start late are attached to
   earlier samples (C10), a batch without sync list after one with a non-sync
   sample is taken to be non-sync (C16). In a movie whose media data is empty an
   empty sample can be read by number but not by time. *)
Theorem C17_empty_by_time_refuted :
  let b := mkBat 1 [] [10] [0] (Some 1) None None None in
  aops_ok 1 [track0] [AAdd 0 [mkSmp [] 10 0 true 0] b; AGet 0 1] /\
  match movie_end ([media_new 0 1], mdat_new) [AAdd 0 [mkSmp [] 10 0 true 0] b] with
  | Ok ([m], d) => fst (media_get m d 1) = Ok (mkInfo [] 0 0 0 10 false true 248, 1) /\ fst (media_at m d 0) = Err MP4BadParamErr
  | _ => False end.
Proof.
  split; [|vm_compute; split; reflexivity]. cbn [aops_ok aop_ok].
  split; [|split; [vm_compute; reflexivity|split; [|split; [vm_compute; reflexivity|exact I]]]].
  - exists track0. split; [reflexivity|]. split.
    + constructor; cbn; try discriminate; try reflexivity; try (left; reflexivity); repeat (apply Forall_cons || apply Forall_nil); cbn; (lia || reflexivity).
    + repeat split; vm_compute; try congruence; auto. right; congruence.
  - eexists. split; [reflexivity|]. vm_compute. split; congruence.
Qed.
Print Assumptions C17_empty_by_time_refuted.
(* Sizes that do not add up to the bytes supplied are not noticed when the
   samples are added. *)
Theorem C17_sizes_unchecked_refuted :
  let b := mkBat 1 [1; 2] [10] [3] (Some 1) None None None in
  match movie_end ([media_new 0 1], mdat_new) [AAdd 0 [mkSmp [1; 2] 10 0 true 0] b] with
  | Ok ([m], d) => fst (media_get m d 1) = Err MP4BadParamErr
  | _ => False end.
Proof. vm_compute. reflexivity. Qed.
Print Assumptions C17_sizes_unchecked_refuted.

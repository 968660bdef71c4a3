(* ReopenProps.v *)
From Verif Require Import Base Codec AtomModel AtomSpec AtomProofs AtomProps BoxModel BoxSpec BoxProofs Reads KidsProofs SttsModel SttsProps CttsModel CttsProps
  SyncModel SyncProps SizeModel SizeProps MarkModel MarkProps ChunkSpec ChunkModel ChunkProofs ChunkProps MdatModel SaveSpec SaveModel SaveProofs SaveProps
  TextModel TextSpec EntryModel EntrySpec EntryProofs EntryProps MediaSpec MediaModel MediaProofs MediaProps FileModel FileSpec FileProofs FileProps
  HeaderModel HeaderSpec HeaderProofs ShapeProofs ReopenModel ReopenSpec ReopenProofs.

(* C59: samples added to a movie are answered for in the same way before it
   is saved, in the file opened again, and after more samples were added to
   the opened movie, for any number of savings. *)
Theorem C59_samples_kept :
  forall T E X (ct : codec T) (yt : layout T) (dt : T) (ce : codec E) (ye : layout E) (edri : E -> N) (cx : codec X) (yx : layout X),
  faithful ct yt -> faithful ce ye -> faithful cx yx -> apart cx yx -> (forall x, l_ok ye x -> edri (l_view ye x) = edri x) ->
  forall drefs saved w ts, reach ct yt dt ce ye cx yx edri drefs saved w ts ->
  forall i t n, nth_error ts i = Some t -> 1 <= n <= len (t_smps t) ->
  exists x desc w', opened_step w (AGet i n) = Ok (Some (x, desc), w') /\ answer t n = Some x.
Proof.
  intros T E X ct yt dt ce ye edri cx yx FT FE FX AX VE drefs saved w ts R i t n Ht Hn.
  pose proof (reach_inv ct yt dt ce ye edri cx yx FT FE FX AX VE drefs saved w ts R) as I.
  destruct (rinv_step drefs saved w ts (AGet i n) I) as (x & w' & A & _ & B).
  - exists t. split; assumption.
  - cbn [agrow]. exact (r_st _ _ _ _ I).
  - intros _. exact Logic.I.
  - rewrite Ht in B. assert (Q : exists y, answer t n = Some y).
    { unfold answer. destruct (nth_error (t_smps t) (N.to_nat (n - 1))) eqn:Q; [eauto|]. apply nth_error_None in Q. unfold len in Hn. lia. }
    destruct Q as [y Q]. rewrite Q in B. destruct x as [[z desc]|]; [|discriminate]. cbn [option_map fst] in B. injection B as ->.
    exists y, desc, w'. split; assumption.
Qed.
Print Assumptions C59_samples_kept.

(* asking by time *)
Theorem C59_sample_at_time :
  forall T E X (ct : codec T) (yt : layout T) (dt : T) (ce : codec E) (ye : layout E) (edri : E -> N) (cx : codec X) (yx : layout X),
  faithful ct yt -> faithful ce ye -> faithful cx yx -> apart cx yx -> (forall x, l_ok ye x -> edri (l_view ye x) = edri x) ->
  forall drefs saved ms d cur ts, reach ct yt dt ce ye cx yx edri drefs saved ((ms, d), cur) ts ->
  forall i t time, nth_error ts i = Some t -> Forall (fun s => 1 <= m_dur s) (t_smps t) -> time < duration (t_smps t) -> 0 < stored ts ->
  exists m n x j desc m', nth_error ms i = Some m /\ media_at m d time = (Ok (j, desc), m') /\
    1 <= n /\ answer t n = Some x /\ i_dts x <= time < i_dts x + i_dur x /\
    j = mkTinfo (i_bytes x) (i_size x) (i_dts x) (u64_of (Z.of_N (i_dts x) + i_off x)) (i_dur x) (i_hasoff x) (i_sync x) (i_pad x).
Proof.
  intros T E X ct yt dt ce ye edri cx yx FT FE FX AX VE drefs saved ms d cur ts R i t time Ht Hp Hd Hs.
  destruct (reach_inv ct yt dt ce ye edri cx yx FT FE FX AX VE drefs saved _ ts R) as [_ [F S] _ _ _ St]. cbn [fst snd] in *.
  destruct (Forall2_nth _ _ _ _ _ F Ht) as (mm & Em & I & _). destruct (nth_map_some _ _ _ _ Em) as (m & Em' & ->).
  destruct (media_at_ok (mended m) d t time I ltac:(rewrite S; lia) Hp Hd) as (n & x & j & desc & m' & A & B).
  rewrite mended_at in A. destruct (media_at m d time) as [r m1] eqn:Q. cbn [fst snd] in A. injection A as -> _.
  exists m, n, x, j, desc, m1. split; [exact Em'|]. split; [exact Q|exact B].
Qed.
Print Assumptions C59_sample_at_time.

(* more can be added *)
Theorem C59_samples_added :
  forall T E X (ct : codec T) (yt : layout T) (dt : T) (ce : codec E) (ye : layout E) (edri : E -> N) (cx : codec X) (yx : layout X),
  faithful ct yt -> faithful ce ye -> faithful cx yx -> apart cx yx -> (forall x, l_ok ye x -> edri (l_view ye x) = edri x) ->
  forall drefs saved w ts, reach ct yt dt ce ye cx yx edri drefs saved w ts ->
  forall i ss b, let o := AAdd i ss b in
  aop_ok drefs ts o -> stored (agrow ts o) < 4294967296 -> (saved = true -> grow_ok ts o) ->
  exists w', opened_step w o = Ok (None, w').
Proof.
  intros T E X ct yt dt ce ye edri cx yx FT FE FX AX VE drefs saved w ts R i ss b o Ho Hs Hg.
  pose proof (reach_inv ct yt dt ce ye edri cx yx FT FE FX AX VE drefs saved w ts R) as I.
  destruct (rinv_step drefs saved w ts o I Ho Hs Hg) as (x & w' & A & _ & B). exists w'. rewrite A. destruct x; [discriminate|reflexivity].
Qed.
Print Assumptions C59_samples_added.

(* it can be saved, which leaves it as it was, and opened *)
Theorem C59_saved :
  forall T E X (ct : codec T) (yt : layout T) (dt : T) (ce : codec E) (ye : layout E) (edri : E -> N) (cx : codec X) (yx : layout X),
  faithful ct yt -> faithful ce ye -> faithful cx yx -> apart cx yx -> (forall x, l_ok ye x -> edri (l_view ye x) = edri x) ->
  forall drefs saved w ts, reach ct yt dt ce ye cx yx edri drefs saved w ts ->
  forall f ks, saveable ct yt dt ce ye cx yx f ks -> movie_of edri f = Ok (fst w) -> fits_file ct yt dt ce ye cx yx f ks ts ->
  exists out f' w', to_file ct dt ce edri cx f = Ok (out, f) /\ to_handle ct dt ce edri cx f = Ok (out, f) /\ open_movie ct dt ce edri cx out = Ok f' /\
    opened_of edri f' = Ok w' /\ reach ct yt dt ce ye cx yx edri drefs true w' (map reopened ts).
Proof.
  intros T E X ct yt dt ce ye edri cx yx FT FE FX AX VE drefs saved w ts R f ks S M F.
  pose proof (reach_inv ct yt dt ce ye edri cx yx FT FE FX AX VE drefs saved w ts R) as I.
  destruct (rinv_save ct yt dt ce ye edri cx yx FT FE FX AX VE drefs saved w ts f ks I S M F) as (out & f' & w' & A & B & C & D & _).
  exists out, f', w'. repeat (split; [assumption|]). exact (reach_open _ _ _ _ _ _ _ _ _ _ _ _ _ _ _ _ _ _ R S M F A C D).
Qed.
Print Assumptions C59_saved.

(* A batch without a sample description is refused by a track that was
   opened and not given one since, although the track has descriptions. *)
Theorem C59_description_needed :
  forall T E X (edri : E -> N) (f : file (T:=T) (E:=E) (X:=X)) w i ss b, opened_of edri f = Ok w -> (i < length (fst (fst w)))%nat ->
  0 < b_count b -> b_entry b = None -> opened_step w (AAdd i ss b) = Err MP4InvalidMediaErr.
Proof.
  intros T E X edri f w i ss b H Hi Hc He. unfold opened_of in H. destruct (movie_of edri f) as [m| |]; try discriminate. cbn [bind] in H. injection H as <-.
  unfold opened_step. cbn [fst snd] in *. rewrite nth_error_map. destruct (nth_error (fst m) i) eqn:Q; [|apply nth_error_None in Q; lia].
  cbn [option_map]. rewrite He. cbn [given_to orb negb]. destruct (N.ltb_spec 0 (b_count b)); [|lia]. reflexivity.
Qed.
Print Assumptions C59_description_needed.

(* The tables of a movie in a file, for the cases below: data references
   lead to the movie's own media data. *)
Definition ex_tables (m : media) : atom ex_leaf :=
  ABoxes _ (code "stbl") ([ALeaf _ (L_stsd (mkStsd 0 0 (map (fun d => EGen (code "tx3g") [0;0;0;0;0;0] d [5] []) (me_descs m)))); ALeaf _ (L_stts (me_stts m))] ++
    opt (option_map (fun x => ALeaf _ (L_ctts x)) (me_ctts m)) ++ opt (option_map (fun x => ALeaf _ (L_stss x)) (me_stss m)) ++
    opt (option_map (fun x => ALeaf _ (L_padb x)) (me_padb m)) ++
    [ALeaf _ (L_stsz (me_stsz m)); ALeaf _ (L_stsc (me_stsc m)); ALeaf _ (L_stco (me_stco m))]).
Definition ex_placed (m : media) : atom ex_leaf := ex_trak (repeat (mkUrl (code "url ") 0 1 None) (N.to_nat (me_drefs m))) (ex_tables m).
Definition ex_put (w : movie) : file :=
  mkFile None (Some (AOpaque _ (code "ftyp") [] [105; 115; 111; 109; 0; 0; 0; 0])) None None None
    (Some (AOpaque _ (code "mvhd") [] [9; 9] :: map ex_placed (fst w))) (Some (snd w)).
Definition ex_cycle (w : movie * list bool) : res (movie * list bool) :=
  do r <- to_file btrt_codec (mkBtrt false 0 0 0) no_codec nowhere no_codec (ex_put (fst w));
  do f <- open_movie btrt_codec (mkBtrt false 0 0 0) no_codec nowhere no_codec (fst r);
  opened_of nowhere f.
Definition ex_run (w : movie * list bool) (os : list aop) : res (list (option info)) := do r <- opened_run w os; Ok (map (option_map fst) r).
Definition ex_end (w : movie * list bool) (os : list aop) : res (movie * list bool) :=
  fold_left (fun a o => do w <- a; do x <- opened_step w o; Ok (snd x)) os (Ok w).
Definition ex_more : list aop :=
  [AAdd 0 [mkSmp [7; 7; 7] 2 0 true 0; mkSmp [8] 2 0 false 0] (mkBat 2 [7; 7; 7; 8] [2] [3; 1] (Some 1) None (Some [1]) None);
   AAdd 1 [mkSmp [1] 7 0 true 0] (mkBat 1 [1] [7] [1] (Some 1) None None None); AGet 0 4; AGet 0 5; AGet 1 3; AGet 0 2].
Definition ex_new (k : nat) : movie * list bool := ((repeat (media_new 0 1) k, mdat_new), repeat false k).

Notation ex_reach := (reach btrt_codec btrt_layout (mkBtrt false 0 0 0) no_codec no_layout no_codec no_layout nowhere).
Notation ex_saveable := (saveable btrt_codec btrt_layout (mkBtrt false 0 0 0) no_codec no_layout no_codec no_layout).
Lemma ex_reach_end drefs os : forall saved w ts w', ex_reach drefs saved w ts -> aops_ok drefs ts os -> Forall storable os -> (saved = true -> grows_ok ts os) ->
  ex_end w os = Ok w' -> ex_reach drefs saved w' (tracks_end ts os).
Proof.
  induction os as [|o os IH]; intros saved w ts w' R Ho S G H; unfold ex_end in H; cbn [fold_left tracks_end aops_ok] in *; [injection H as <-; exact R|].
  destruct Ho as (H1 & H2 & H3). inversion S as [|? ? S1 S2]; subst. cbn [bind] in H. destruct (opened_step w o) as [[x w1]| |] eqn:E; cbn [bind snd] in H.
  - unfold tracks_end. cbn [fold_left]. refine (IH saved w1 _ w' _ H3 S2 _ H); [|intros Q; apply G, Q]. eapply reach_step; eauto. intros Q. apply G, Q.
  - exfalso. clear -H. induction os; [discriminate|]. cbn [fold_left bind] in H. auto.
  - exfalso. clear -H. induction os; [discriminate|]. cbn [fold_left bind] in H. auto.
Qed.
Lemma ex_reach_cycle drefs saved w ts w' ks : ex_reach drefs saved w ts -> f_moov (ex_put (fst w)) = Some ks -> ex_saveable (ex_put (fst w)) ks ->
  movie_of nowhere (ex_put (fst w)) = Ok (fst w) ->
  fits_file btrt_codec btrt_layout (mkBtrt false 0 0 0) no_codec no_layout no_codec no_layout (ex_put (fst w)) ks ts ->
  ex_cycle w = Ok w' -> ex_reach drefs true w' (map reopened ts).
Proof.
  intros R K S M F H. unfold ex_cycle in H. destruct (to_file _ _ _ _ _ _) as [[out f1]| |] eqn:E1; try discriminate. cbn [bind fst] in H.
  destruct (open_movie _ _ _ _ _ _) as [f2| |] eqn:E2; try discriminate. cbn [bind] in H. exact (reach_open _ _ _ _ _ _ _ _ _ _ _ _ _ _ _ _ _ _ R S M F E1 E2 H).
Qed.
(* the boxes of such a file *)
Ltac ex_saves :=
  let W := fresh in
  match goal with |- ex_saveable ?f ?ks =>
    assert (W : tree_ok btrt_codec btrt_layout (mkBtrt false 0 0 0) no_codec no_layout no_codec no_layout (ABoxes _ (code "moov") ks));
    [apply shape_ok; [vm_compute; reflexivity|];
     cbn [leaves ex_placed ex_tables ex_trak flat_map app map repeat opt option_map me_descs me_stts me_ctts me_stss me_padb me_stsz me_stsc me_stco me_drefs N.to_nat Pos.to_nat Pos.iter_op Nat.add];
     repeat apply Forall_cons; try apply Forall_nil; repeat split; cbn; try match goal with |- _ \/ _ => lia end; repeat constructor; cbn; try lia; try discriminate
    |constructor; try (split; reflexivity); try reflexivity; try exact W;
     [split; [apply shape_ok; [vm_compute; reflexivity|constructor]|reflexivity]
     |repeat constructor; discriminate
     |let l := fresh "l" in let Hl := fresh in intros l Hl; cbn [In ex_placed ex_trak map] in Hl; repeat destruct Hl as [Hl|Hl]; try discriminate; try contradiction; injection Hl as <-; repeat constructor; discriminate]]
  end.
Ltac ex_ops := cbn [aops_ok];
  repeat match goal with
  | |- _ /\ _ => split
  | |- True => exact I
  | |- stored _ < _ => vm_compute; reflexivity
  end; cbn [aop_ok];
  first [eexists; split; [reflexivity|vm_compute; split; congruence]
        |eexists; (split; [reflexivity|]); (split; [|repeat split; vm_compute; try congruence; auto; try (left; reflexivity); try (right; congruence)]);
         constructor; cbn; try discriminate; try reflexivity; try (left; reflexivity); try (right; eexists; split; [reflexivity|repeat constructor]);
           repeat (apply Forall_cons || apply Forall_nil); cbn; (lia || reflexivity)].
Definition ex_w1 : movie * list bool := Eval vm_compute in match ex_end (ex_new 2) ex_aops with Ok w => w | _ => ex_new 0 end.
Definition ex_w2 : movie * list bool := Eval vm_compute in match ex_cycle ex_w1 with Ok w => w | _ => ex_new 0 end.
Definition ex_ts : list track := tracks_end (repeat track0 2) ex_aops.
Lemma ex_saves1 : exists ks, f_moov (ex_put (fst ex_w1)) = Some ks /\ ex_saveable (ex_put (fst ex_w1)) ks /\ movie_of nowhere (ex_put (fst ex_w1)) = Ok (fst ex_w1).
Proof.
  eexists. split; [reflexivity|]. split; [|vm_compute; reflexivity]. unfold ex_w1. cbn [fst map]. ex_saves.
Qed.

Example C59_case :
  ex_reach 1 true ex_w2 (map reopened ex_ts) /\ aops_ok 1 (map reopened ex_ts) ex_more /\ grows_ok (map reopened ex_ts) ex_more /\
  (exists w3, ex_end ex_w2 ex_more = Ok w3 /\ ex_reach 1 true w3 (tracks_end (map reopened ex_ts) ex_more)) /\
  ex_run ex_w2 ex_more = Ok (aspec (map reopened ex_ts) ex_more) /\
  aspec (map reopened ex_ts) ex_more =
    [None; None; Some (mkInfo [7; 7; 7] 3 60 0 2 true true 248); Some (mkInfo [8] 1 62 0 2 true false 248);
     Some (mkInfo [1] 1 14 0 7 false true 0); Some (mkInfo [4] 1 10 5 20 true false 248)].
Proof.
  assert (A : ex_reach 1 true ex_w2 (map reopened ex_ts)).
  { destruct ex_saves1 as (ks & K & S & M). apply (ex_reach_cycle 1 false ex_w1 ex_ts ex_w2 ks); [|exact K|exact S|exact M| |vm_compute; reflexivity].
    - apply (ex_reach_end 1 ex_aops false (ex_new 2) (repeat track0 2) ex_w1); [apply reach_new|apply C17_case| |discriminate|vm_compute; reflexivity].
      repeat constructor; cbn; try lia; try (eexists; split; [left; reflexivity|discriminate]).
    - injection K as <-. split; vm_compute; reflexivity. }
  assert (B : aops_ok 1 (map reopened ex_ts) ex_more) by (unfold ex_more; ex_ops).
  assert (C : grows_ok (map reopened ex_ts) ex_more).
  { unfold ex_more. cbn [grows_ok grow_ok]. repeat split; eexists; (split; [vm_compute; reflexivity|]); apply Exists_cons_hd; reflexivity. }
  split; [exact A|]. split; [exact B|]. split; [exact C|]. split; [|split; vm_compute; reflexivity].
  destruct (ex_end ex_w2 ex_more) as [w3| |] eqn:Q; [|vm_compute in Q; discriminate..]. exists w3. split; [reflexivity|].
  apply (ex_reach_end 1 ex_more true ex_w2 _ w3 A B); [|intros _; exact C|exact Q].
  unfold ex_more. repeat constructor; cbn; try lia; try (eexists; split; [left; reflexivity|discriminate]).
Qed.

(* What is left out of [grow_ok] fails: two batches with offsets (the
   composition offset of the second is lost), *)
Definition ex_off1 : list aop := [AAdd 0 [mkSmp [1] 10 3 true 0] (mkBat 1 [1] [10] [1] (Some 1) (Some [3]) None None)].
Definition ex_off2 : list aop :=
  [AAdd 0 [mkSmp [2] 10 4 true 0] (mkBat 1 [2] [10] [1] (Some 1) (Some [4]) None None);
   AAdd 0 [mkSmp [3] 10 5 true 0] (mkBat 1 [3] [10] [1] None (Some [5]) None None); AGet 0 3].
Ltac ex_store := repeat constructor; cbn; try lia; try (eexists; split; [left; reflexivity|discriminate]).
Ltac ex_reaches k os w w' :=
  eapply (ex_reach_cycle 1 false w (tracks_end (repeat track0 k) os) w');
  [apply (ex_reach_end 1 os false (ex_new k) (repeat track0 k) w);
     [apply reach_new|unfold os; ex_ops|unfold os; ex_store|discriminate|vm_compute; reflexivity]
  |reflexivity|unfold w; cbn [fst map]; ex_saves|vm_compute; reflexivity|split; vm_compute; reflexivity|vm_compute; reflexivity].
Definition ex_offw : movie * list bool := Eval vm_compute in match ex_end (ex_new 1) ex_off1 with Ok w => w | _ => ex_new 0 end.
Definition ex_offw' : movie * list bool := Eval vm_compute in match ex_cycle ex_offw with Ok w => w | _ => ex_new 0 end.
Theorem C59_offsets_refuted :
  exists w ts os r, ex_reach 1 true w ts /\ aops_ok 1 ts os /\ (forall i ss b, In (AAdd i ss b) os -> exists t, nth_error ts i = Some t /\ Exists (fun s => m_sync s = true) (t_smps t)) /\
    opened_run w os = Ok r /\ map (option_map fst) r <> aspec ts os.
Proof.
  exists ex_offw', (map reopened (tracks_end (repeat track0 1) ex_off1)), ex_off2. eexists. split; [ex_reaches 1%nat ex_off1 ex_offw ex_offw'|].
  split; [unfold ex_off2; ex_ops|]. split; [|split; [vm_compute; reflexivity|vm_compute; discriminate]].
  intros i ss b H. unfold ex_off2 in H. cbn [In] in H. destruct H as [H|[H|[H|[]]]]; try discriminate; injection H as <- <- <-;
    (exists (mkTrack [mkSmp [1] 10 3 true 0] true false false); split; [reflexivity|]); apply Exists_cons_hd; reflexivity.
Qed.
Print Assumptions C59_offsets_refuted.
(* a track without sync sample (its earlier samples turn into sync samples), *)
Definition ex_syn1 : list aop := [AAdd 0 [mkSmp [1] 10 0 false 0] (mkBat 1 [1] [10] [1] (Some 1) None (Some []) None)].
Definition ex_syn2 : list aop := [AGet 0 1; AAdd 0 [mkSmp [2] 10 0 true 0] (mkBat 1 [2] [10] [1] (Some 1) None (Some [1]) None); AGet 0 1].
Definition ex_synw : movie * list bool := Eval vm_compute in match ex_end (ex_new 1) ex_syn1 with Ok w => w | _ => ex_new 0 end.
Definition ex_synw' : movie * list bool := Eval vm_compute in match ex_cycle ex_synw with Ok w => w | _ => ex_new 0 end.
Theorem C59_no_sync_refuted :
  exists w ts os r, ex_reach 1 true w ts /\ aops_ok 1 ts os /\ (forall i ss b, In (AAdd i ss b) os -> b_offs b = None) /\
    (forall t, In t ts -> t_smps t <> []) /\ opened_run w os = Ok r /\ map (option_map fst) r <> aspec ts os.
Proof.
  exists ex_synw', (map reopened (tracks_end (repeat track0 1) ex_syn1)), ex_syn2. eexists. split; [ex_reaches 1%nat ex_syn1 ex_synw ex_synw'|].
  split; [unfold ex_syn2; ex_ops|]. split; [|split; [|split; [vm_compute; reflexivity|vm_compute; discriminate]]].
  - intros i ss b H. unfold ex_syn2 in H. cbn [In] in H. destruct H as [H|[H|[H|[]]]]; try discriminate; injection H as <- <- <-; reflexivity.
  - intros t H. cbn in H. destruct H as [<-|[]]. discriminate.
Qed.
Print Assumptions C59_no_sync_refuted.
(* and a track without samples, when samples of one size are followed by
   samples of another size: the sizes of the first are lost. *)
Definition ex_siz1 : list aop := [AAdd 0 [mkSmp [1] 10 0 true 0] (mkBat 1 [1] [10] [1] (Some 1) None None None)].
Definition ex_siz2 : list aop :=
  [AAdd 1 [mkSmp [2; 3] 10 0 true 0] (mkBat 1 [2; 3] [10] [2] (Some 1) None None None);
   AAdd 1 [mkSmp [4; 5; 6] 10 0 true 0] (mkBat 1 [4; 5; 6] [10] [3] None None None None); AGet 1 1].
Definition ex_sizw : movie * list bool := Eval vm_compute in match ex_end (ex_new 2) ex_siz1 with Ok w => w | _ => ex_new 0 end.
Definition ex_sizw' : movie * list bool := Eval vm_compute in match ex_cycle ex_sizw with Ok w => w | _ => ex_new 0 end.
Theorem C59_no_sample_refuted :
  exists w ts os r, ex_reach 1 true w ts /\ aops_ok 1 ts os /\ (forall i ss b, In (AAdd i ss b) os -> b_offs b = None /\ Forall (fun s => m_sync s = true) ss) /\
    opened_run w os = Ok r /\ map (option_map fst) r <> aspec ts os.
Proof.
  exists ex_sizw', (map reopened (tracks_end (repeat track0 2) ex_siz1)), ex_siz2. eexists. split; [ex_reaches 2%nat ex_siz1 ex_sizw ex_sizw'|].
  split; [unfold ex_siz2; ex_ops|]. split; [|split; [vm_compute; reflexivity|vm_compute; discriminate]].
  intros i ss b H. unfold ex_siz2 in H. cbn [In] in H. destruct H as [H|[H|[H|[]]]]; try discriminate; injection H as <- <- <-; (split; [reflexivity|]); repeat constructor.
Qed.
Print Assumptions C59_no_sample_refuted.
(* A padding of more than seven bits is answered as it was given until the
   movie is saved, and cut to three bits in the file. *)
Definition ex_pad1 : list aop := [AAdd 0 [mkSmp [1] 10 0 true 9] (mkBat 1 [1] [10] [1] (Some 1) None None (Some [9]))].
Definition ex_padw : movie * list bool := Eval vm_compute in match ex_end (ex_new 1) ex_pad1 with Ok w => w | _ => ex_new 0 end.
Definition ex_padw' : movie * list bool := Eval vm_compute in match ex_cycle ex_padw with Ok w => w | _ => ex_new 0 end.
Theorem C59_padding_refuted :
  aops_ok 1 (repeat track0 1) ex_pad1 /\
  (exists w w', ex_end (ex_new 1) ex_pad1 = Ok w /\ ex_cycle w = Ok w' /\
     ex_run w [AGet 0 1] = Ok [Some (mkInfo [1] 1 0 0 10 false true 9)] /\ ex_run w' [AGet 0 1] = Ok [Some (mkInfo [1] 1 0 0 10 false true 1)]).
Proof. split; [unfold ex_pad1; ex_ops|]. exists ex_padw, ex_padw'. split; [|split; [|split]]; vm_compute; reflexivity. Qed.
Print Assumptions C59_padding_refuted.

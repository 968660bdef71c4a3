(* OdProps.v -- C73 (commands of object descriptor streams) and C74 (samples
   of object descriptor tracks). *)
From Verif Require Import Base Codec Reads AtomModel AtomProofs BoxModel BoxSpec BoxProofs DescModel DescSpec DescProofs OdModel OdSpec OdProofs.

Local Ltac Zify.zify_post_hook ::= Z.div_mod_to_equations.

(* ------------------------------------------------------------------ *)
(* C73                                                                  *)

(* a command is written with the size it counts, as tag, length, fields and
   its lists of descriptors, and read back from any input that starts with it;
   cut short anywhere it is an I/O error *)
Theorem C73_command : forall c, cwf c ->
  csize c = len (cenc c) /\ cwrite c = Ok (cenc c) /\
  (forall rest n, cread (mkR (cenc c ++ rest) n) = Ok (cview c, mkR rest (len (cenc c)))) /\
  (forall p q n, cenc c = p ++ q -> q <> [] -> cread (mkR p n) = Err MP4IOErr).
Proof.
  intros c W. split; [exact (csize_ok c W)|]. split; [exact (cwrite_ok c W)|]. split; [intros rest n; exact (cread_ok c rest n W)|].
  intros p q n E NE. rewrite cread_eq. exact (proj2 (cread_parses c W) p q E NE).
Qed.
Print Assumptions C73_command.
(* a sample is its commands one after the other *)
Theorem C73_sample : forall cs, Forall cwf cs -> frame_read (fenc cs) = Ok (map cview cs) /\
  (len (fenc cs) < 4294967296 -> frame_write cs = Ok (fenc cs)).
Proof. intros cs W. split; [exact (frame_read_ok cs W)|exact (frame_write_ok cs W)]. Qed.
Print Assumptions C73_sample.
(* what was read is read again *)
Theorem C73_reread : forall cs, Forall as_read cs -> frame_read (fenc cs) = Ok cs.
Proof.
  intros cs R. rewrite frame_read_ok by (eapply Forall_impl; [|exact R]; intros c X; exact (proj1 X)). f_equal.
  induction R as [|c cs X R IH]; cbn [map]; [reflexivity|]. rewrite (as_read_view c X), IH. reflexivity.
Qed.
Print Assumptions C73_reread.
(* any bytes are read to an end, and undefined behaviour needs a byte that is
   the tag of an IPMP tool *)
Theorem C73_total : forall i n, cread (mkR i n) <> Err OutOfFuel /\ frame_read i <> Err OutOfFuel /\
  (clean i -> cread (mkR i n) <> UB /\ frame_read i <> UB).
Proof.
  intros i n. destruct (cread_total i n) as (A & B & _). destruct (frame_rd_total (S (length i)) i (Nat.lt_succ_diag_r _)) as [C D].
  split; [exact A|]. split; [exact C|]. intros X. split; [exact (B X)|exact (D X)].
Qed.
Print Assumptions C73_total.

(* an example: an object descriptor with two streams and a pointer to a
   protection stream, a stream update, and a command of another kind *)
Definition x_sl (media movie : N) : desc := Desc (HSL (sl_mp4 movie media)) [].
Definition x_slr (media movie : N) : desc :=
  Desc (HSL (mkSlc 0 0 0 1 0 0 1 0 0 media movie 32 0 0 0 0 0 5 0 0 0)) [].
Definition x_es (id media : N) : desc :=
  Desc (HES id 0 16 0 []) [(0, Desc (HDec 64 5 0 6144 128000 64000) [(0, Desc (HOther 5 [18; 16]) [])]); (1, x_slr media 600)].
Definition x_od : desc := Desc (HOD 1 10 []) [(0, x_es 201 44100); (0, x_es 101 90000); (3, Desc (HOther 64 [1; 2]) []); (4, Desc (HPtr 10 255 0 301) [])].
Definition x_cmds : list cmd := [mkCmd KOD [(0, x_od)]; mkCmd (KES 10) [(0, x_es 202 48000); (2, Desc (HOther 7 [9]) [])]; mkCmd (KOther 2 [2; 128]) []].
Lemma x_wf_es id media : id < 65536 -> media < 4294967296 -> wf (x_es id media).
Proof.
  intros A B. assert (K : head_ok (HES id 0 16 0 [])) by (repeat split; assumption || reflexivity).
  constructor; [exact K|split; [repeat constructor|]| |vm_compute; reflexivity].
  - apply Forall_forall. intros t T. repeat (destruct T as [<-|T]; [cbv; repeat constructor|]); contradiction T.
  - constructor; [|constructor; [|constructor]]; cbn [snd].
    + constructor; [repeat split|right; eexists; split; reflexivity| |vm_compute; reflexivity].
      constructor; [|constructor]. constructor; [split; reflexivity|reflexivity|constructor|vm_compute; reflexivity].
    + constructor; [|reflexivity|constructor|vm_compute; reflexivity]. split; [discriminate|]. right.
      do 10 (split; [assumption || reflexivity|]). intros X; elim X; reflexivity.
Qed.
Lemma x_still_es id media : still (x_es id media).
Proof. repeat (constructor; cbn [fst snd]); reflexivity. Qed.
Lemma x_as_read : Forall as_read x_cmds.
Proof.
  assert (W : wf x_od).
  { constructor; [repeat split; try reflexivity; left; reflexivity| | |vm_compute; reflexivity].
    - apply Forall_forall. intros k K. cbn [In] in K. repeat (destruct K as [<-|K]; [cbn; tauto|]). contradiction K.
    - repeat (constructor; [cbn [snd]; try (apply x_wf_es; reflexivity)|]); [| |constructor];
      (constructor; [|reflexivity|constructor|vm_compute; reflexivity]); [split; reflexivity|repeat split; try reflexivity; left; reflexivity]. }
  assert (S : still x_od).
  { constructor; [reflexivity|reflexivity|]. repeat (constructor; [cbn [fst snd]; split; [try apply x_still_es|reflexivity]|]); [| |constructor];
    constructor; try reflexivity; constructor. }
  constructor; [|constructor; [|constructor; [|constructor]]].
  - split; [split; [repeat constructor|split; [constructor; [exact W|constructor]|vm_compute; reflexivity]]|]. split; [reflexivity|]. constructor; [split; [exact S|reflexivity]|constructor].
  - split; [split; [split; [reflexivity|repeat constructor]|split; [|vm_compute; reflexivity]]|split; [reflexivity|]].
    + constructor; [apply x_wf_es; reflexivity|]. constructor; [|constructor]. constructor; [split; reflexivity|reflexivity|constructor|vm_compute; reflexivity].
    + constructor; [split; [apply x_still_es|reflexivity]|]. constructor; [split; [constructor; [reflexivity|reflexivity|constructor]|reflexivity]|constructor].
  - split; [split; [repeat split; discriminate || reflexivity|split; [constructor|reflexivity]]|]. split; [reflexivity|constructor].
Qed.
Example C73_ex : Forall as_read x_cmds /\ Forall cwf x_cmds /\ len (fenc x_cmds) = 211 /\ frame_write x_cmds = Ok (fenc x_cmds) /\ frame_read (fenc x_cmds) = Ok x_cmds.
Proof.
  split; [exact x_as_read|]. split; [eapply Forall_impl; [|exact x_as_read]; intros c X; exact (proj1 X)|]. vm_compute. repeat split.
Qed.
(* a stream update whose object descriptor does not fit ten bits names another *)
Theorem C73_long_id_refuted : exists c id c', c = mkCmd (KES id) [] /\ 1024 <= id /\
  rmap (fun b => cread (mkR b 0)) (fun s => match cwrite c with Ok b => Ok (b, s) | Err e => Err e | UB => UB end) (mkR [] 0) = Ok (Ok (c', mkR [] 7), mkR [] 0) /\
  c' = mkCmd (KES (id - 1024)) [].
Proof. exists (mkCmd (KES 1027) []), 1027, (mkCmd (KES 3) []). vm_compute. repeat split; discriminate. Qed.
Print Assumptions C73_long_id_refuted.
(* nor is the announced length kept to: a descriptor may go beyond the end of
   its command *)
Theorem C73_length_refuted : exists i c s, inp s = [] /\ cread (mkR i 0) = Ok (c, s) /\ firstn 2 i = [1; 1] /\ c_ds c = [(2, Desc (HOther 5 [7; 7; 7]) [])].
Proof. exists [1; 1; 5; 3; 7; 7; 7], (mkCmd KOD [(2, Desc (HOther 5 [7; 7; 7]) [])]), (mkR [] 7). vm_compute. repeat split. Qed.
Print Assumptions C73_length_refuted.

(* ------------------------------------------------------------------ *)
(* C74                                                                  *)

(* adding a sample: the list of tracks gets the streams it does not have, in
   the order in which the sample names them; every elementary stream
   descriptor becomes a reference to the position of its stream, and every
   pointer that names a stream gets its position. The positions are those in
   any longer list too. *)
Theorem C74_add : forall m cs later, Forall as_read cs -> Forall plain_cmd cs -> NoDup m -> good m (fids cs) ->
  len (grow m (fids cs) ++ later) < 65536 -> len (fenc cs) < 4294967296 ->
  add_od_sample 1 m (fenc cs) = Ok (grow m (fids cs), fenc (map (stored (grow m (fids cs) ++ later)) cs)).
Proof. intros m cs later R P ND G L LF. exact (store_ok _ m cs R P ND G (ex_intro _ later eq_refl) L LF). Qed.
Print Assumptions C74_add.
(* reading it: the same commands, with the elementary stream descriptors that
   the movie has for the tracks *)
Theorem C74_read : forall m esd e cs, len m < 65535 -> Forall as_read cs -> Forall plain_cmd cs -> incl (fids cs) m ->
  (forall i, In i (flat_map ces cs) -> esd i = Ok (e i) /\ is_esd (e i) /\ plain_es (e i)) -> Forall (fun c => cwf (given e c)) cs ->
  len (fenc (map (given e) cs)) < 4294967296 ->
  fetch_frame m esd (fenc (map (stored m) cs)) = Ok (fenc (map (given e) cs)).
Proof. exact fetch_ok. Qed.
Print Assumptions C74_read.

(* a history: any number of samples added one after the other, and each read
   with the list as it is in the end *)
Lemma history frames : forall m later, Forall (Forall as_read) frames -> Forall (Forall plain_cmd) frames -> NoDup m -> good m (flat_map fids frames) ->
  len (grow m (flat_map fids frames) ++ later) < 65536 -> Forall (fun cs => len (fenc cs) < 4294967296) frames ->
  add_samples m (map fenc frames) = Ok (grow m (flat_map fids frames), map (fun cs => fenc (map (stored (grow m (flat_map fids frames) ++ later)) cs)) frames).
Proof.
  induction frames as [|cs fs IH]; intros m later R P ND G L LF; [reflexivity|]. inversion R as [|? ? R1 R2]; subst. inversion P as [|? ? P1 P2]; subst. inversion LF as [|? ? L1 L2]; subst.
  cbn [flat_map] in *. rewrite grow_app in *. apply good_app in G. destruct G as [G1 G2]. cbn [map add_samples].
  destruct (grow_pre (flat_map fids fs) (grow m (fids cs))) as [t T].
  change (add_od_sample 1 m (fenc cs)) with (store_frame m (fenc cs)).
  rewrite (store_ok (grow (grow m (fids cs)) (flat_map fids fs) ++ later) m cs R1 P1 ND G1); [|exists (t ++ later); rewrite T, app_assoc; reflexivity|exact L|exact L1].
  cbn [bind fst snd]. rewrite (IH _ later R2 P2 (grow_nodup _ _ ND) G2 L L2). reflexivity.
Qed.
Theorem C74_history : forall frames m esd e, Forall (Forall as_read) frames -> Forall (Forall plain_cmd) frames -> NoDup m -> good m (flat_map fids frames) ->
  len (grow m (flat_map fids frames)) < 65535 -> Forall (fun cs => len (fenc cs) < 4294967296) frames ->
  (forall cs i, In cs frames -> In i (flat_map ces cs) -> esd i = Ok (e i) /\ is_esd (e i) /\ plain_es (e i)) ->
  (forall cs, In cs frames -> Forall (fun c => cwf (given e c)) cs /\ len (fenc (map (given e) cs)) < 4294967296) ->
  exists M samples, add_samples m (map fenc frames) = Ok (M, samples) /\ M = grow m (flat_map fids frames) /\
    map (fetch_frame M esd) samples = map (fun cs => Ok (fenc (map (given e) cs))) frames.
Proof.
  intros frames m esd e R P ND G L LF E W. pose proof (history frames m [] R P ND G) as H. rewrite app_nil_r in H. specialize (H ltac:(lia) LF).
  eexists. eexists. split; [exact H|]. split; [reflexivity|]. rewrite map_map. apply map_ext_in. intros cs I.
  destruct (W cs I) as [W1 W2]. apply fetch_ok; [exact L|exact (proj1 (Forall_forall _ _) R cs I)|exact (proj1 (Forall_forall _ _) P cs I)| |exact (fun i => E cs i I)|exact W1|exact W2].
  intros i Hi. apply in_grow. apply in_flat_map. exists cs. split; assumption.
Qed.
Print Assumptions C74_history.
(* if the movie has the descriptors that were in the samples, every sample
   comes back as it was added *)
Theorem C74_same : forall frames m esd e, Forall (Forall as_read) frames -> Forall (Forall plain_cmd) frames -> NoDup m -> good m (flat_map fids frames) ->
  len (grow m (flat_map fids frames)) < 65535 -> Forall (fun cs => len (fenc cs) < 4294967296) frames ->
  (forall cs i, In cs frames -> In i (flat_map ces cs) -> esd i = Ok (e i) /\ is_esd (e i) /\ plain_es (e i)) ->
  (forall cs, In cs frames -> map (given e) cs = cs) ->
  exists M samples, add_samples m (map fenc frames) = Ok (M, samples) /\ map (fetch_frame M esd) samples = map Ok (map fenc frames).
Proof.
  intros frames m esd e R P ND G L LF E W.
  assert (W' : forall cs, In cs frames -> Forall (fun c => cwf (given e c)) cs /\ len (fenc (map (given e) cs)) < 4294967296).
  { intros cs I. split; [|rewrite (W cs I); exact (proj1 (Forall_forall _ _) LF cs I)].
    apply Forall_map with (P := cwf). rewrite (W cs I). eapply Forall_impl; [|exact (proj1 (Forall_forall _ _) R cs I)]. intros c X; exact (proj1 X). }
  destruct (C74_history frames m esd e R P ND G L LF E W') as (M & s & A & _ & B). exists M, s. split; [exact A|]. rewrite B, map_map. apply map_ext_in. intros cs I. rewrite (W cs I). reflexivity.
Qed.
Print Assumptions C74_same.

Definition x_media (i : N) : N := if i =? 201 then 44100 else if i =? 101 then 90000 else 48000.
Definition x_esd (i : N) : desc := x_es i (x_media i).
Definition x_frames : list (list cmd) := [x_cmds; [mkCmd (KES 11) [(0, x_es 203 48000)]]].
Example C74_ex : Forall (Forall as_read) x_frames /\ Forall (Forall plain_cmd) x_frames /\ NoDup [3] /\ good [3] (flat_map fids x_frames) /\
  grow [3] (flat_map fids x_frames) = [3; 301; 201; 101; 202; 203] /\ (forall cs, In cs x_frames -> map (given x_esd) cs = cs) /\
  (forall cs i, In cs x_frames -> In i (flat_map ces cs) -> Ok (x_esd i) = Ok (x_esd i) /\ is_esd (x_esd i) /\ plain_es (x_esd i)) /\
  exists samples, add_samples [3] (map fenc x_frames) = Ok ([3; 301; 201; 101; 202; 203], samples) /\
    map len samples = [70; 14] /\ map (fetch_frame [3; 301; 201; 101; 202; 203] (fun i => Ok (x_esd i))) samples = map Ok (map fenc x_frames).
Proof.
  split; [constructor; [exact x_as_read|constructor; [|constructor]]|].
  { constructor; [|constructor]. split; [split; [split; [reflexivity|repeat constructor]|split; [|vm_compute; reflexivity]]|split; [reflexivity|]].
    - constructor; [apply x_wf_es; reflexivity|constructor].
    - constructor; [split; [apply x_still_es|reflexivity]|constructor]. }
  split; [repeat (constructor; cbn); reflexivity|].
  split; [constructor; [intros []|constructor]|]. split; [vm_compute; repeat split; try discriminate; left; intros X; repeat (destruct X as [X|X]; [discriminate|]); exact X|].
  split; [reflexivity|]. split; [intros cs [<-|[<-|[]]]; reflexivity|].
  split; [intros cs i _ _; repeat split|].
  eexists. split; [vm_compute; reflexivity|]. split; vm_compute; reflexivity.
Qed.
(* only one sample at a time can be added *)
Theorem C74_one_sample : forall n m s, (2 <= n -> add_od_sample n m s = Err MP4NotImplementedErr) /\ add_od_sample 0 m s = Ok (m, s).
Proof.
  intros n m s. split; [|reflexivity]. intros L. unfold add_od_sample. destruct (N.eqb_spec n 0); [lia|]. destruct (N.eqb_spec n 1); [lia|]. reflexivity.
Qed.
Print Assumptions C74_one_sample.

(* the elementary stream descriptor of a track: that of its media with the
   number of the track, the tracks it depends on and is synchronised to, and
   an SL configuration with the time scales, which replaces the one of the
   file format or the one that is there; the rest is kept *)
Theorem C74_descriptor : forall id de pr oc url ks track dep ocr cfg movie media,
  let d := Desc (HES id de pr oc url) ks in
  wf d -> still d ->
  (cfg <> None \/ exists s r, at_ 1 ks = (1, Desc (HSL s) []) :: r /\ sl_pre s = 2) ->
  exists s', make_esd d track dep ocr cfg movie media =
      Ok (Desc (HES track (match dep with Some t => t | None => de end) pr (match ocr with Some t => t | None => oc end) url) (but 1 ks ++ [(1, Desc (HSL s') [])])) /\
    sl_tsres s' = media /\ sl_ocrres s' = movie /\
    match cfg with
    | Some s => sl_pre s' = sl_pre s /\ sl_rap s' = sl_rap s /\ sl_ts s' = sl_ts s /\ sl_tslen s' = sl_tslen s /\ sl_dur s' = sl_dur s /\ sl_pkseq s' = sl_pkseq s
    | None => sl_pre s' = 0 /\ sl_rap s' = 1 /\ sl_ts s' = 1 /\ sl_tslen s' = 32 /\ sl_dur s' = 0 /\ sl_pkseq s' = 5
    end.
Proof.
  intros id de pr oc url ks track dep ocr cfg movie media d W S C. unfold make_esd, desc_copy. rewrite dwrite_ok by exact W.
  pose proof (proj1 (desc_read_ok d 0 W) []) as H. rewrite app_nil_r in H. rewrite H, (still_view d S). cbn [bind].
  destruct cfg as [s|].
  - unfold d. cbn [bind]. eexists. split; [reflexivity|]. repeat split.
  - destruct C as [C|(s & r & C & P)]; [elim C; reflexivity|]. unfold d. change (in_member 1 ks) with (at_ 1 ks). rewrite C, P. cbn [bind N.eqb Pos.eqb]. eexists. split; [reflexivity|]. repeat split.
Qed.
Print Assumptions C74_descriptor.
Definition x_med : desc :=
  Desc (HES 0 0 16 0 []) [(0, Desc (HDec 64 5 0 6144 128000 64000) [(0, Desc (HOther 5 [18; 16]) [])]); (1, Desc (HSL (mkSlc 2 0 0 0 0 0 1 0 0 0 0 0 0 0 0 0 0 0 0 0 0)) [])].
Example C74_descriptor_ex : wf x_med /\ still x_med /\
  make_esd x_med 201 None None None 600 44100 = Ok (Desc (HES 201 0 16 0 []) [(0, Desc (HDec 64 5 0 6144 128000 64000) [(0, Desc (HOther 5 [18; 16]) [])]); (1, x_sl 44100 600)]) /\
  enc (Desc (HES 201 0 16 0 []) [(0, Desc (HDec 64 5 0 6144 128000 64000) [(0, Desc (HOther 5 [18; 16]) [])]); (1, x_sl 44100 600)]) = enc (x_esd 201).
Proof.
  split; [|split; [repeat (constructor; cbn [fst snd]); reflexivity|split; vm_compute; reflexivity]].
  constructor; [repeat split|split; [repeat constructor|]| |vm_compute; reflexivity].
  - apply Forall_forall. intros t T. repeat (destruct T as [<-|T]; [cbv; repeat constructor|]); contradiction T.
  - constructor; [|constructor; [|constructor]]; cbn [snd].
    + constructor; [repeat split|right; eexists; split; reflexivity| |vm_compute; reflexivity].
      constructor; [|constructor]. constructor; [split; reflexivity|reflexivity|constructor|vm_compute; reflexivity].
    + constructor; [|reflexivity|constructor|vm_compute; reflexivity]. split; [discriminate|]. left. split; reflexivity.
Qed.
(* without a configuration there is an error *)
Theorem C74_no_configuration : forall id de pr oc url ks track dep ocr movie media,
  let d := Desc (HES id de pr oc url) ks in
  wf d -> still d -> at_ 1 ks = [] -> make_esd d track dep ocr None movie media = Err MP4InvalidMediaErr.
Proof.
  intros id de pr oc url ks track dep ocr movie media d W S C. unfold make_esd, desc_copy. rewrite dwrite_ok by exact W.
  pose proof (proj1 (desc_read_ok d 0 W) []) as H. rewrite app_nil_r in H. rewrite H, (still_view d S). cbn [bind]. unfold d.
  change (in_member 1 ks) with (at_ 1 ks). rewrite C. reflexivity.
Qed.
Print Assumptions C74_no_configuration.
(* a reference beyond the list is reported *)
Lemma fetch_one m esd c x : cwf c -> fetch_cmd m esd (cview c) = x -> (forall c', x <> Ok c') ->
  fetch_frame m esd (fenc [c]) = match x with Ok _ => Ok [] | Err e => Err e | UB => UB end.
Proof.
  intros W F N. unfold fetch_frame. cbn [fenc flat_map]. pose proof (cread_ok c [] 0 W) as C. destruct (cenc_ne c) as (y & t & E).
  revert C. rewrite E. cbn [app fetch_loop]. intros C. rewrite C. cbn [bind fst]. rewrite F. destruct x as [c'| |]; [elim (N c' eq_refl)|reflexivity|reflexivity].
Qed.
Lemma wf_one_ref od r : od < 1024 -> r < 65536 -> cwf (mkCmd (KES od) [(1, Desc (HRef r) [])]).
Proof.
  intros O R. split; [split; [exact O|constructor; [reflexivity|constructor]]|]. split; [constructor; [|constructor]|reflexivity]. constructor; [exact R|reflexivity|constructor|reflexivity].
Qed.
Lemma fetch_one_ref m esd od r : fetch_cmd m esd (cview (mkCmd (KES od) [(1, Desc (HRef r) [])])) =
  do e <- fetch_ref m esd (1, Desc (HRef r) []); Ok (mkCmd (KES od) [(0, e)]).
Proof.
  change (cview (mkCmd (KES od) [(1, Desc (HRef r) [])])) with (mkCmd (KES od) [(1, Desc (HRef r) [])]).
  unfold fetch_cmd. cbn [c_kind c_ds]. change (in_member 1 [(1, Desc (HRef r) [])]) with [(1, Desc (HRef r) [])].
  cbn [rmapm]. destruct (fetch_ref m esd (1, Desc (HRef r) [])); reflexivity.
Qed.
Theorem C74_beyond : forall m esd od r, od < 1024 -> len m < r -> r < 65536 ->
  fetch_frame m esd (fenc [mkCmd (KES od) [(1, Desc (HRef r) [])]]) = Err MP4InvalidMediaErr.
Proof.
  intros m esd od r O R1 R2. apply (fetch_one m esd _ (Err MP4InvalidMediaErr)); [exact (wf_one_ref od r O R2)| |discriminate].
  rewrite fetch_one_ref. unfold fetch_ref. cbn [snd]. assert (B : (len m <? r) = true) by lia. rewrite B. reflexivity.
Qed.
Print Assumptions C74_beyond.

(* ------------------------------------------------------------------ *)
(* C74 in the code                                                      *)

Definition x_after (m : list N) (s : list N) : list N * list N := match add_od_sample 1 m s with Ok x => x | _ => ([], []) end.
Definition x_known := Eval vm_compute in x_after [5; 7] (fenc [mkCmd (KES 1) [(0, x_es 5 1000)]]).
Definition x_ptr : desc := Desc (HES 5 0 0 0 []) [(1, x_slr 1000 600); (4, Desc (HPtr 10 255 0 9) [])].
Definition x_inside := Eval vm_compute in x_after [] (fenc [mkCmd (KES 1) [(0, x_ptr)]]).
(* a stream that is in the list, and not the last of it, gets the position of
   the last *)
Theorem C74_known_stream_refuted : exists m s1 s2, (* tracks 5 and 7 are known; the update is about 5 *)
  m = [5; 7] /\ s1 = fenc [mkCmd (KES 1) [(0, x_es 5 1000)]] /\ add_od_sample 1 m s1 = Ok (m, s2) /\
  fetch_frame m (fun i => Ok (x_es i 1000)) s2 = Ok (fenc [mkCmd (KES 1) [(0, x_es 7 1000)]]).
Proof. exists [5; 7], (fenc [mkCmd (KES 1) [(0, x_es 5 1000)]]), (snd x_known). split; [reflexivity|]. split; [reflexivity|]. split; vm_compute; reflexivity. Qed.
Print Assumptions C74_known_stream_refuted.
(* nor is the stream found if its descriptor points to another *)
Theorem C74_pointer_inside_refuted : exists d m s2, d = Desc (HES 5 0 0 0 []) [(1, x_slr 1000 600); (4, Desc (HPtr 10 255 0 9) [])] /\
  add_od_sample 1 [] (fenc [mkCmd (KES 1) [(0, d)]]) = Ok (m, s2) /\ m = [5; 9] /\
  s2 = fenc [mkCmd (KES 1) [(1, Desc (HRef 2) [])]].
Proof. exists x_ptr, (fst x_inside), (snd x_inside). split; [reflexivity|]. repeat split; vm_compute; reflexivity. Qed.
Print Assumptions C74_pointer_inside_refuted.
(* no error is reported: for any bytes, a sample that cannot be read, or names
   the stream 0, is stored as it is, and the list keeps what was added *)
Theorem C74_errors_lost_refuted : (forall m s e, store_frame m s <> Err e) /\
  (exists s, frame_read s = Err MP4IOErr /\ forall m, add_od_sample 1 m s = Ok (m, s)) /\
  exists cs, Forall as_read cs /\ Forall plain_cmd cs /\ fids cs = [5; 0] /\ add_od_sample 1 [] (fenc cs) = Ok ([5], fenc cs).
Proof.
  split; [|split].
  - intros m s e. unfold store_frame. destruct (store_loop _ s m) as [m' [cs|x|]]; try discriminate. destruct (frame_write cs); discriminate.
  - exists [1; 9]. split; [vm_compute; reflexivity|intros m; vm_compute; reflexivity].
  - exists [mkCmd (KES 1) [(0, x_es 5 1000); (0, x_es 0 1000)]]. split; [|split; [repeat constructor|split; [reflexivity|vm_compute; reflexivity]]].
    constructor; [|constructor]. split; [split; [split; [reflexivity|repeat constructor]|split; [|vm_compute; reflexivity]]|split; [reflexivity|]].
    + constructor; [apply x_wf_es; reflexivity|]. constructor; [apply x_wf_es; reflexivity|constructor].
    + constructor; [split; [apply x_still_es|reflexivity]|]. constructor; [split; [apply x_still_es|reflexivity]|constructor].
Qed.
Print Assumptions C74_errors_lost_refuted.
(* the error is not one of the model: its fuel is enough *)
Theorem C74_model_total : forall m s, snd (store_loop (S (length s)) s m) <> Err OutOfFuel.
Proof. intros m s. apply store_fuel, Nat.lt_succ_diag_r. Qed.
Print Assumptions C74_model_total.
(* the reference 0, and a pointer to a position beyond the list, are followed *)
Theorem C74_unchecked_refuted : forall m esd, len m < 9 ->
  fetch_frame m esd (fenc [mkCmd (KES 1) [(1, Desc (HRef 0) [])]]) = UB /\
  fetch_frame m esd (fenc [mkCmd KOD [(0, Desc (HOD 1 1 []) [(4, Desc (HPtr 10 255 0 9) [])])]]) = UB.
Proof.
  intros m esd L. split.
  - apply (fetch_one m esd _ UB); [exact (wf_one_ref 1 0 eq_refl eq_refl)| |discriminate].
    rewrite fetch_one_ref. unfold fetch_ref. cbn [snd]. assert (B : (len m <? 0) = false) by lia. rewrite B. reflexivity.
  - apply (fetch_one m esd _ UB); [| |discriminate].
    + split; [repeat constructor|]. split; [constructor; [|constructor]|reflexivity]. constructor; [repeat split; left; reflexivity| | |vm_compute; reflexivity].
      * constructor; [cbn; tauto|constructor].
      * constructor; [|constructor]. constructor; [repeat split; left; reflexivity|reflexivity|constructor|reflexivity].
    + assert (B : nthN m (9 - 1) = None) by (apply nth_error_None; unfold len in L; lia).
      assert (P : fetch_ptr m (4, Desc (HPtr 10 255 0 9) []) = UB) by (unfold fetch_ptr; change ((9 =? 0) || (9 =? 65535)) with false; cbn match; rewrite B; reflexivity).
      set (c := cview _). vm_compute in c. subst c. unfold fetch_cmd. cbn [c_kind c_ds rmapm fst snd].
      change (0 =? 0) with true. cbn match. unfold fetch_od. cbn [snd rmapm]. rewrite P. reflexivity.
Qed.
Print Assumptions C74_unchecked_refuted.
(* an SL configuration of the media that is not the one of the file format is
   freed and used *)
Theorem C74_other_configuration_refuted : forall id de pr oc url ks s r track dep ocr movie media,
  let d := Desc (HES id de pr oc url) ks in
  wf d -> still d -> at_ 1 ks = (1, Desc (HSL s) []) :: r -> sl_pre s <> 2 -> make_esd d track dep ocr None movie media = UB.
Proof.
  intros id de pr oc url ks s r track dep ocr movie media d W S C NE. unfold make_esd, desc_copy. rewrite dwrite_ok by exact W.
  pose proof (proj1 (desc_read_ok d 0 W) []) as H. rewrite app_nil_r in H. rewrite H, (still_view d S). cbn [bind]. unfold d.
  change (in_member 1 ks) with (at_ 1 ks). rewrite C. destruct (N.eqb_spec (sl_pre s) 2); [contradiction|]. reflexivity.
Qed.
Print Assumptions C74_other_configuration_refuted.
Example C74_other_configuration_ex : wf (x_es 5 1000) /\ still (x_es 5 1000) /\ make_esd (x_es 5 1000) 5 None None None 600 1000 = UB.
Proof. split; [apply x_wf_es; reflexivity|]. split; [apply x_still_es|vm_compute; reflexivity]. Qed.

(* EntryProps.v -- sample descriptions and data references: C55, C56, C57. *)
From Verif Require Import Base Codec AtomModel AtomSpec AtomProofs AtomProps BoxModel BoxSpec BoxProofs Reads KidsModel KidsProofs TextModel TextSpec TextProofs EntryModel EntrySpec EntryProofs HeaderModel HeaderSpec HeaderProofs.

Section Lasting.
Context {T O : Type} (c : codec T) (y : layout T) (dflt : T) (o : codec O) (yo : layout O).
Hypothesis F : faithful c y.
Hypothesis FO : faithful o yo.

Lemma settled_view l : Forall (settled c y) l -> kid_view y l = l /\ Forall (kid_ok c y) l.
Proof.
  induction 1 as [|k l (A & B & C) _ [IH1 IH2]]; [split; [reflexivity|constructor]|].
  split; [|constructor; assumption]. unfold kid_view in *. cbn [map filter]. rewrite free_strip, B, C. cbn [negb]. f_equal. exact IH1.
Qed.
Lemma lasting_generic e : entry_ok c y o yo e -> is_generic o (entry_type yo e) -> lasting c y o yo e.
Proof.
  intros H G. pose proof (body_split c y o yo e H) as B. pose proof G as (G1 & G2 & G3 & G4).
  assert (N : forall x, e <> EOther x).
  { intros x ->. destruct H as (_ & _ & H & _). destruct (proj1 FO x H) as (_ & K & _ & E). cbn [entry_type] in G4. congruence. }
  destruct (B N) as (r & b & E1 & E2 & E3).
  assert (V : entry_view c y yo e = EGen (entry_type yo e) r (ent_dri (fun _ => 0) e) b []).
  { destruct e as [ty q d z l|ty q d l|ty f l|ty f l|x]; cbn [entry_view entry_type ent_dri] in *; rewrite ?G1, ?G2, ?G3; [rewrite E1; apply raw_is; exact E2..|destruct (N x eq_refl)]. }
  split; [exact H|]. rewrite V. split.
  - destruct H as (H1 & H2 & _). split; [exact H1|]. split; [exact H2|]. cbn [entry_type]. auto.
  - unfold entry_bytes. cbn [entry_type entry_body]. unfold kids_bytes. cbn [flat_map]. rewrite app_nil_r, E1. reflexivity.
Qed.
Lemma lasting_settled e : entry_ok c y o yo e ->
  match e with EGen _ _ _ _ _ => True | EMpeg _ _ _ l => Forall (settled c y) l | EVis _ _ l => Forall (settled c y) l
             | EAud _ _ l => Forall (settled c y) l | EOther x => l_view yo x = x end ->
  lasting c y o yo e.
Proof.
  intros H K. pose proof H as (H1 & H2 & H'). destruct e as [ty r d b l|ty r d l|ty f l|ty f l|x].
  - apply lasting_generic; [exact H|]. apply H'.
  - destruct (is_mpeg ty) eqn:M; [|apply lasting_generic; [exact H|destruct H' as [[A|A] _]; [congruence|exact A]]].
    destruct (settled_view l K) as [V _]. unfold lasting. cbn [entry_view]. rewrite M, V. auto.
  - destruct (is_visual ty) eqn:M; [|apply lasting_generic; [exact H|destruct H' as [[A|A] _]; [congruence|exact A]]].
    destruct (settled_view l K) as [V _]. unfold lasting. cbn [entry_view]. rewrite M, V. auto.
  - destruct (is_audio ty) eqn:M; [|apply lasting_generic; [exact H|destruct H' as [[A|A] _]; [congruence|exact A]]].
    destruct (settled_view l K) as [V _]. unfold lasting. cbn [entry_view]. rewrite M, V. auto.
  - unfold lasting. cbn [entry_view]. rewrite K. auto.
Qed.
Lemma lasting_again e : lasting c y o yo e -> len (entry_bytes c y yo e) < 4294967296 ->
  entry_view c y yo (entry_view c y yo e) = entry_view c y yo e.
Proof.
  intros (H1 & H2 & E) Hl. pose proof Hl as Hl'. rewrite <- E in Hl'. rewrite len_entry in Hl, Hl'.
  pose proof (of_handle_is c y dflt o yo F FO _ H1 Hl) as A. pose proof (of_handle_is c y dflt o yo F FO _ H2 Hl') as B.
  rewrite E in B. congruence.
Qed.
End Lasting.

Section C55.
Context {T O : Type} (c : codec T) (y : layout T) (dflt : T) (o : codec O) (yo : layout O) (odri : O -> N).
Hypothesis F : faithful c y.
Hypothesis FO : faithful o yo.
Hypothesis OD : forall x, l_ok yo x -> odri x = dri_at (box (l_ty yo x) (l_body yo x)).

Lemma dri_box ty r d b : len r = 6 -> d < 65536 -> dri_at (box ty (r ++ be16 d ++ b)) = d.
Proof.
  intros Hr Hd. unfold dri_at, box. destruct r as [|r1 [|r2 [|r3 [|r4 [|r5 [|r6 [|r7 r]]]]]]]; try discriminate Hr; [|revert Hr; lens; lia].
  cbn [be32 be16 app nth]. lia.
Qed.
Lemma dri_is e : entry_ok c y o yo e -> ent_dri odri e = dri_at (entry_bytes c y yo e).
Proof.
  intros H. destruct e as [ty r d b l|ty r d l|ty f l|ty f l|x]; [destruct (body_split c y o yo _ H ltac:(congruence)) as (r' & b' & E1 & E2 & E3)..|];
    [unfold entry_bytes; rewrite E1, dri_box by assumption; reflexivity..|].
  apply OD. apply H.
Qed.
Definition after (es : list (ent T O)) : stsd := mkStsd 0 0 (map (entry_view c y yo) es).
Lemma attach_is es : Forall (entry_ok c y o yo) es -> (forall e, In e es -> len (entry_bytes c y yo e) < 4294967296) ->
  attach c dflt o (map (entry_bytes c y yo) es) = Ok (after es).
Proof.
  unfold attach. change (mkStsd 0 0 []) with (mkStsd 0 0 (map (entry_view c y yo) (@nil (ent T O)))).
  change (after es) with (mkStsd 0 0 (map (entry_view c y yo) ([] ++ es))). generalize (@nil (ent T O)) as pre. revert dflt.
  induction es as [|e es IH]; intros dflt pre H Hl; cbn [map fold_left]; [rewrite app_nil_r; reflexivity|].
  inversion_clear H as [|? ? H1 H2]. cbn [bind]. unfold describe at 2. rewrite (of_handle_is c y dflt o yo F FO e H1).
  2:{ specialize (Hl e (or_introl eq_refl)). rewrite len_entry in Hl. exact Hl. }
  cbn [bind sd_ver sd_flags sd_ents]. replace (map (entry_view c y yo) pre ++ [entry_view c y yo e]) with (map (entry_view c y yo) (pre ++ [e])) by (rewrite map_app; reflexivity).
  rewrite IH; [rewrite <- app_assoc; reflexivity|exact H2|]. intros x I. apply Hl. right. exact I.
Qed.
Lemma description_is es k : Forall (lasting c y o yo) es -> (forall e, In e es -> len (entry_bytes c y yo e) < 4294967296) ->
  description c o odri (after es) k = kth (map (entry_bytes c y yo) es) k.
Proof.
  intros H Hl. unfold description, stsd_get, kth, after. cbn [sd_ents]. destruct (k =? 0) eqn:K; [reflexivity|]. cbn [orb]. unfold nthN.
  rewrite !nth_error_map. destruct (nth_error es (N.to_nat (k - 1))) as [e|] eqn:E; cbn [option_map].
  - assert (L : (N.to_nat (k - 1) < length es)%nat) by (apply nth_error_Some; congruence).
    destruct (N.ltb_spec (len (map (entry_view c y yo) es)) k); [unfold len in *; rewrite map_length in *; lia|].
    apply nth_error_In in E. rewrite Forall_forall in H. destruct (H e E) as (H1 & H2 & H3). specialize (Hl e E). cbn [bind].
    rewrite (entry_w_is c y dflt o yo F FO _ H2); [|rewrite <- H3, len_entry in Hl; exact Hl]. cbn [bind]. rewrite (dri_is _ H2), H3. reflexivity.
  - apply nth_error_None in E. destruct (N.ltb_spec (len (map (entry_view c y yo) es)) k); [reflexivity|unfold len in *; rewrite map_length in *; lia].
Qed.
End C55.

(* C55: the descriptions attached to a track come back, by number, with the
   bytes they were attached with; other numbers are refused; after the box
   is written and read the answers are the same *)
Theorem C55_descriptions :
  forall T O (c : codec T) (y : layout T) dflt (o : codec O) (yo : layout O) odri, faithful c y -> faithful o yo ->
  (forall x, l_ok yo x -> odri x = dri_at (box (l_ty yo x) (l_body yo x))) ->
  forall es hs, Forall (lasting c y o yo) es -> hs = map (entry_bytes c y yo) es -> Forall (fun h => len h < 4294967296) hs ->
  exists a, attach c dflt o hs = Ok a /\ (forall k, description c o odri a k = kth hs k) /\
    (16 + fold_right N.add 0 (map len hs) < 4294967296 ->
     exists bs, write_box (stsd_codec c dflt o) a = Ok bs /\
       forall d rest, read_box (stsd_codec c dflt o) d (bs ++ rest) = Ok ((ALeaf _ a, len bs), rest)).
Proof.
  intros T O c y dflt o yo odri F FO OD es hs H -> Hl. rewrite Forall_map, Forall_forall in Hl.
  exists (after c y yo es). split; [|split].
  - apply attach_is; try assumption. eapply Forall_impl; [|exact H]. intros e A. apply A.
  - intros k. apply description_is; assumption.
  - intros Hs.
    assert (B : flat_map (entry_bytes c y yo) (map (entry_view c y yo) es) = flat_map (entry_bytes c y yo) es).
    { rewrite flat_map_concat_map, map_map, <- flat_map_concat_map, !flat_map_concat_map. f_equal. apply map_ext_in. intros e I. rewrite Forall_forall in H. apply (H e I). }
    assert (L : len (flat_map (entry_bytes c y yo) es) = fold_right N.add 0 (map len (map (entry_bytes c y yo) es))).
    { clear. induction es as [|e es IH]; [reflexivity|]. cbn [flat_map map fold_right]. lens. rewrite IH. reflexivity. }
    assert (V : l_view (stsd_layout c y o yo) (after c y yo es) = after c y yo es).
    { cbn [stsd_layout l_view after sd_ver sd_flags sd_ents]. unfold after. f_equal. cbn [sd_ents]. rewrite map_map. apply map_ext_in. intros e I.
      rewrite Forall_forall in H. apply (lasting_again c y dflt o yo F FO); [apply H; exact I|apply Hl; exact I]. }
    destruct (faithful_round_trip _ _ (after c y yo es) (stsd_faithful c y dflt o yo F FO)) as (_ & W & R & _).
    + split; [split; reflexivity|]. cbn [after sd_ents]. rewrite Forall_map. eapply Forall_impl; [|exact H]. intros e A. apply A.
    + cbn [stsd_layout l_body after sd_ver sd_flags sd_ents]. rewrite B. unfold full. lens. lia.
    + eexists. split; [exact W|]. intros d rest. rewrite R, V. reflexivity.
Qed.
Print Assumptions C55_descriptions.

(* which descriptions these are: any bytes, if the type has no layout of its
   own; else those whose boxes are read as they were written *)
Theorem C55_any_bytes :
  forall T O (c : codec T) (y : layout T) (o : codec O) (yo : layout O), faithful o yo -> forall ty r d b,
  ty < 4294967296 -> ty <> code "uuid" -> is_generic o ty -> len r = 6 -> d < 65536 ->
  lasting c y o yo (EGen ty r d b []) /\ entry_bytes c y yo (EGen ty r d b []) = box ty (r ++ be16 d ++ b).
Proof.
  intros T O c y o yo FO ty r d b H1 H2 G Hr Hd. split.
  - apply lasting_generic; [exact FO| |exact G]. split; [exact H1|]. split; [exact H2|]. auto.
  - unfold entry_bytes. cbn [entry_type entry_body]. unfold kids_bytes. cbn [flat_map]. rewrite app_nil_r. reflexivity.
Qed.
Print Assumptions C55_any_bytes.
Theorem C55_new_descriptions :
  forall T O (c : codec T) (y : layout T) (o : codec O) (yo : layout O), faithful o yo -> forall kind ty dri exts,
  ty < 4294967296 -> ty <> code "uuid" -> dri < 65536 -> Forall (settled c y) exts ->
  is_generic o ty \/ match kind with VisualTrack => is_visual ty | AudioTrack _ => is_audio ty | OtherTrack => is_mpeg ty end = true ->
  lasting c y o yo (new_entry kind dri ty exts).
Proof.
  intros T O c y o yo FO kind ty dri exts H1 H2 Hd He G. pose proof (settled_view c y exts He) as [_ K].
  apply lasting_settled; [exact FO| |destruct kind; exact He].
  destruct kind as [|ts|]; (split; [exact H1|split; [exact H2|]]); cbn [new_entry].
  - split; [tauto|]. split; [|exact K]. repeat split; assumption.
  - split; [tauto|]. split; [|exact K]. unfold afix_new. repeat split; cbn [a_ts]; try assumption. destruct (N.leb_spec ts 65535); lia.
  - split; [tauto|]. split; [reflexivity|]. auto.
Qed.
Print Assumptions C55_new_descriptions.

(* C55 in the code: up to seven bytes after the boxes of an entry other than
   audio are dropped ... *)
Theorem C55_tail_refuted :
  forall T O (c : codec T) (y : layout T) dflt (o : codec O) (yo : layout O), faithful c y -> forall ty f l t,
  is_visual ty = true -> vfix_ok f -> Forall (settled c y) l -> ty < 4294967296 -> ty <> code "uuid" -> 0 < len t < 8 ->
  94 + len (kids_bytes c y l) < 4294967296 ->
  let h := box ty (vfix_bytes f ++ kids_bytes c y l ++ t) in
  of_handle c dflt o false h = Ok (EVis ty f l) /\
  exists h', entry_w c o (EVis ty f l) = Ok h' /\ len h' < len h.
Proof.
  intros T O c y dflt o yo F ty f l t Hv Hf Hk H1 H2 Ht Hl h. destruct (settled_view c y l Hk) as [V K].
  assert (L : 8 + len (vfix_bytes f ++ kids_bytes c y l ++ t) < 4294967296) by (lens; rewrite (vfix_len f Hf); lia).
  split.
  - unfold of_handle, entry_at. cbn [inp rdn]. subst h. replace (box ty _) with (box ty (vfix_bytes f ++ kids_bytes c y l ++ t) ++ []) by apply app_nil_r.
    rewrite parse_hdr_box by assumption. cbn [bind fst snd h_read inp]. unfold ent_rd. cbn [h_type]. rewrite types_mpeg, (visual_not_mpeg _ Hv), types_visual, Hv.
    unfold vis_rd, rbind. rewrite <- app_assoc, (vfix_reads 8 f Hf) by lia. rewrite (vfix_len f Hf). change (w32 (8 + 78)) with 86.
    unfold exts_rd. cbn [inp h_size]. unfold kids_bytes. rewrite <- app_assoc.
    rewrite (exts_loop_reads c y dflt F l _ _ _ _ _ (len t)); [|exact K|unfold kids_bytes in *; lens; rewrite (vfix_len f Hf); lia|lia|exact L|pose proof (kids_short c y l); rewrite app_length; lia].
    cbn [rret bind fst snd h_type app]. rewrite V. reflexivity.
  - assert (OK : entry_ok c y no_codec no_layout (EVis ty f l)) by (split; [exact H1|split; [exact H2|auto]]).
    assert (FN : faithful no_codec no_layout) by (split; intros []).
    exists (box ty (vfix_bytes f ++ kids_bytes c y l)). split.
    + apply (entry_w_is c y dflt no_codec no_layout F FN _ OK). cbn [entry_body]. lens. rewrite (vfix_len f Hf). lia.
    + subst h. rewrite !len_box. lens. lia.
Qed.
Print Assumptions C55_tail_refuted.
(* ... and after those of an audio entry they are fatal *)
Theorem C55_audio_tail_refuted :
  forall T O (c : codec T) (y : layout T) dflt (o : codec O), faithful c y -> forall ty f l t,
  is_audio ty = true -> afix_ok f -> Forall (kid_ok c y) l -> ty < 4294967296 -> ty <> code "uuid" -> 0 < len t < 8 ->
  44 + len (kids_bytes c y l) < 4294967296 ->
  of_handle c dflt o false (box ty (afix_bytes f ++ kids_bytes c y l ++ t)) = UB.
Proof.
  intros T O c y dflt o F ty f l t Hv Hf K H1 H2 Ht Hl.
  assert (L : 8 + len (afix_bytes f ++ kids_bytes c y l ++ t) < 4294967296) by (lens; rewrite (afix_len f Hf); lia).
  unfold of_handle, entry_at. cbn [inp rdn]. replace (box ty _) with (box ty (afix_bytes f ++ kids_bytes c y l ++ t) ++ []) by apply app_nil_r.
  rewrite parse_hdr_box by assumption. cbn [bind fst snd h_read inp]. unfold ent_rd. cbn [h_type]. destruct (audio_not_mpeg _ Hv) as [M1 M2].
  rewrite types_mpeg, M1, types_visual, M2, types_audio, Hv.
  unfold aud_rd, rbind. rewrite <- app_assoc, (afix_reads 8 f Hf) by lia. rewrite (afix_len f Hf). change (w32 (8 + 28)) with 36.
  unfold audio_exts. cbn [inp h_size]. unfold kids_bytes. rewrite app_nil_r.
  rewrite (audio_loop_tail c y dflt F l); [reflexivity|exact Ht|exact K|unfold kids_bytes in *; lens; rewrite (afix_len f Hf); lia|exact L|pose proof (kids_short c y l); rewrite app_length; lia].
Qed.
Print Assumptions C55_audio_tail_refuted.

(* reading a description of another kind never leaves defined behaviour *)
Theorem C55_reading_safe :
  forall T O (c : codec T) dflt (o : codec O), robust c -> robust o -> forall vis h, bytes h -> is_audio (type_at h) = false ->
  of_handle c dflt o vis h <> UB.
Proof.
  intros T O c dflt o R RO vis h Hb Ha. unfold of_handle, entry_at. cbn [inp rdn].
  destruct (parse_hdr (mkR h 0)) as [[k st]|e|] eqn:E; cbn [bind fst snd]; [|discriminate|].
  - destruct (parse_hdr_ok _ _ _ Hb E) as (pre & E1 & E2 & E3 & _).
    assert (Ty : h_type k = type_at h).
    { clear - E. unfold parse_hdr, rbind in E. destruct h as [|b1 [|b2 [|b3 [|b4 h]]]]; try discriminate E. unfold get32 at 1 in E. cbn [inp] in E.
      destruct (if _ =? 0 then _ else _) as [size size64]. destruct (negb (size =? 1) && _); [discriminate E|].
      destruct h as [|c1 [|c2 [|c3 [|c4 h]]]]; try discriminate E. unfold get32 at 1 in E. cbn [inp] in E.
      unfold type_at. cbn [nth].
      match type of E with (match ?m ?s with _ => _ end) = _ => destruct (m s) as [[uu s1]|e|]; [|discriminate E..] end.
      match type of E with (match ?m ?s with _ => _ end) = _ => destruct (m s) as [[v s2]|e|]; [|discriminate E..] end.
      match type of E with (if ?b then _ else _) _ = _ => destruct b; [discriminate E|] end. injection E as <- <-. reflexivity. }
    assert (B : bytes (inp st)) by (rewrite E1 in Hb; apply bytes_app in Hb; tauto).
    destruct (ent_safe c dflt o R RO vis k ltac:(rewrite Ty; exact Ha) (mkR (inp st) (h_read k)) B) as [[U _] _].
    destruct (ent_rd c dflt o vis k (mkR (inp st) (h_read k))) as [[e s']|e|]; [discriminate..|congruence].
  - pose proof (parse_hdr_tame (mkR h 0)) as [U _]. congruence.
Qed.
Print Assumptions C55_reading_safe.

(* a QuickTime sound description of version 1 loses its four numbers when the
   file is saved again *)
Definition qt_sound : list N :=
  box (code "stsd") (full 0 0 ++ be32 1 ++
    box (code "mp4a") (repeat 0 6 ++ be16 1 ++ [0;1;0;0;0;0;0;0] ++ be16 2 ++ be16 16 ++ be32 0 ++ be16 44100 ++ be16 0 ++
      (be32 1024 ++ be32 4 ++ be32 8 ++ be32 2) ++ box (code "btrt") (be32 0 ++ be32 128000 ++ be32 96000))).
Theorem C55_quicktime_sound_refuted :
  exists a bs, read_box (stsd_codec btrt_codec (mkBtrt false 0 0 0) no_codec) (mkStsd 0 0 []) (qt_sound ++ repeat 0 1024) =
      Ok ((ALeaf _ a, len qt_sound), repeat 0 1024) /\
    write_box (stsd_codec btrt_codec (mkBtrt false 0 0 0) no_codec) a = Ok bs /\ len bs + 16 = len qt_sound.
Proof.
  eexists. eexists. split; [vm_compute; reflexivity|]. split; [vm_compute; reflexivity|]. vm_compute. reflexivity.
Qed.
Print Assumptions C55_quicktime_sound_refuted.

Lemma none_faithful : faithful no_codec no_layout.
Proof. split; intros []. Qed.
Definition some_entries : list (ent btrt Empty_set) :=
  [new_entry VisualTrack 1 (code "avc1") [ALeaf _ (mkBtrt false 0 128000 96000)];
   new_entry (AudioTrack 48000) 2 (code "mp4a") []; EGen (code "tx3g") [0;0;0;0;0;0] 7 [1;2;3;4;5] []].
Example C55_ex : Forall (lasting btrt_codec btrt_layout no_codec no_layout) some_entries /\
  exists a, attach btrt_codec (mkBtrt false 0 0 0) no_codec (map (entry_bytes btrt_codec btrt_layout no_layout) some_entries) = Ok a /\
    description btrt_codec no_codec nowhere a 3 = Ok (box (code "tx3g") [0;0;0;0;0;0;0;7;1;2;3;4;5], 7) /\
    description btrt_codec no_codec nowhere a 4 = Err MP4BadParamErr.
Proof.
  split.
  - repeat apply Forall_cons; [apply C55_new_descriptions..|apply C55_any_bytes|constructor]; try apply none_faithful; try reflexivity; try discriminate; try (right; reflexivity).
    + repeat constructor; discriminate.
    + constructor.
    + repeat split.
  - eexists. split; [vm_compute; reflexivity|]. split; vm_compute; reflexivity.
Qed.

(* ------------------------------------------------------------------ *)
(* C56                                                                 *)

Section C56.
Context {T O : Type} (c : codec T) (y : layout T) (dflt : T) (o : codec O) (yo : layout O).
Hypothesis F : faithful c y.
Hypothesis FO : faithful o yo.

Lemma visual_handle ty f l : ty < 4294967296 -> ty <> code "uuid" -> is_visual ty = true \/ is_generic o ty -> vfix_ok f ->
  Forall (settled c y) l -> 86 + len (kids_bytes c y l) < 4294967296 ->
  of_handle c dflt o true (entry_bytes c y yo (EVis ty f l)) = Ok (EVis ty f l).
Proof.
  intros H1 H2 G Hf Hk Hl. destruct (settled_view c y l Hk) as [V K].
  assert (L : 8 + len (vfix_bytes f ++ kids_bytes c y l) < 4294967296) by (lens; rewrite (vfix_len f Hf); lia).
  unfold of_handle, entry_at, entry_bytes. cbn [inp rdn entry_type entry_body].
  replace (box ty _) with (box ty (vfix_bytes f ++ kids_bytes c y l) ++ []) by apply app_nil_r.
  rewrite parse_hdr_box by assumption. cbn [bind fst snd h_read inp].
  replace (ent_rd c dflt o true (mkH (8 + len (vfix_bytes f ++ kids_bytes c y l)) 0 ty [] 8)) with
    (vis_rd (O:=O) c dflt (mkH (8 + len (vfix_bytes f ++ kids_bytes c y l)) 0 ty [] 8)).
  2:{ unfold ent_rd. cbn [h_type]. rewrite types_mpeg, types_visual, types_audio. destruct G as [G|(G1 & G2 & G3 & G4)].
      - rewrite (visual_not_mpeg _ G), G. reflexivity.
      - rewrite G1, G2, G3, G4. reflexivity. }
  unfold vis_rd, rbind. rewrite <- app_assoc, (vfix_reads 8 f Hf) by lia. rewrite (vfix_len f Hf). change (w32 (8 + 78)) with 86.
  unfold kids_bytes in *. rewrite (exts_reads c y dflt F 86 l) by (exact K || (cbn [h_size]; lens; rewrite (vfix_len f Hf); lia)).
  cbn [rret bind fst snd h_type]. rewrite V. reflexivity.
Qed.
End C56.
Definition with_dims (f : vfix) (w h : N) : vfix :=
  mkV (v_res f) (v_dri f) (v_res2 f) w h (v_r4 f) (v_r5 f) (v_r6 f) (v_r7 f) (v_nlen f) (v_name f) (v_r8 f) (v_r9 f).

(* C56: setting the dimensions of a visual description changes bytes 32 to 35
   of the handle, and they are what is found afterwards *)
Theorem C56_dimensions :
  forall T O (c : codec T) (y : layout T) dflt (o : codec O) (yo : layout O), faithful c y -> faithful o yo -> forall ty f l w h,
  ty < 4294967296 -> ty <> code "uuid" -> is_visual ty = true \/ is_generic o ty -> vfix_ok f -> Forall (settled c y) l ->
  86 + len (kids_bytes c y l) < 4294967296 -> w < 65536 -> h < 65536 ->
  let b := entry_bytes c y yo (EVis ty f l) in
  let b' := firstn 32 b ++ be16 w ++ be16 h ++ skipn 36 b in
  get_dims c dflt o b = Ok (v_w f, v_h f) /\ set_dims c dflt o b w h = Ok b' /\ get_dims c dflt o b' = Ok (w, h) /\ get_type c dflt o b = Ok ty.
Proof.
  intros T O c y dflt o yo F FO ty f l w h H1 H2 G Hf Hk Hl Hw Hh b b'.
  assert (Hf' : vfix_ok (with_dims f w h)) by (destruct Hf as (A1 & A2 & A3 & A4 & A5 & A6); unfold with_dims; repeat split; cbn; tauto).
  assert (E : b' = entry_bytes c y yo (EVis ty (with_dims f w h) l)).
  { subst b b'. unfold entry_bytes. cbn [entry_type entry_body]. unfold box.
    replace (len (vfix_bytes (with_dims f w h) ++ kids_bytes c y l)) with (len (vfix_bytes f ++ kids_bytes c y l)) by (lens; rewrite (vfix_len _ Hf), (vfix_len _ Hf'); reflexivity).
    set (m := be32 (8 + len (vfix_bytes f ++ kids_bytes c y l)) ++ be32 ty ++ v_res f ++ be16 (v_dri f) ++ v_res2 f).
    set (z := be32 (v_r4 f) ++ be32 (v_r5 f) ++ be32 (v_r6 f) ++ be16 (v_r7 f) ++ be8 (v_nlen f) ++ v_name f ++ be16 (v_r8 f) ++ be16 (v_r9 f) ++ kids_bytes c y l).
    assert (Lm : length m = 32%nat).
    { destruct Hf as (A1 & A2 & A3 & _). subst m. rewrite !app_length. unfold len in A1, A3. cbn [length be32 be16]. lia. }
    replace (be32 (8 + len (vfix_bytes f ++ kids_bytes c y l)) ++ be32 ty ++ vfix_bytes f ++ kids_bytes c y l) with (m ++ be16 (v_w f) ++ be16 (v_h f) ++ z)
      by (subst m z; unfold vfix_bytes; rewrite <- !app_assoc; reflexivity).
    replace (be32 (8 + len (vfix_bytes f ++ kids_bytes c y l)) ++ be32 ty ++ vfix_bytes (with_dims f w h) ++ kids_bytes c y l) with (m ++ be16 w ++ be16 h ++ z)
      by (subst m z; unfold vfix_bytes, with_dims; cbn [v_res v_dri v_res2 v_w v_h v_r4 v_r5 v_r6 v_r7 v_nlen v_name v_r8 v_r9]; rewrite <- !app_assoc; reflexivity).
    rewrite <- Lm at 1. rewrite firstn_app, firstn_all, Nat.sub_diag, firstn_O, app_nil_r. do 3 f_equal.
    rewrite skipn_app, skipn_all2 by lia. rewrite Lm. reflexivity. }
  assert (S : forall g, vfix_ok g -> of_handle c dflt o true (entry_bytes c y yo (EVis ty g l)) = Ok (EVis ty g l)) by (intros g Hg; apply (visual_handle c y dflt o yo F); assumption).
  assert (OK : forall g, vfix_ok g -> entry_ok c y o yo (EVis ty g l)).
  { intros g Hg. destruct (settled_view c y l Hk) as [_ K]. split; [exact H1|split; [exact H2|auto]]. }
  assert (L : forall g, vfix_ok g -> 8 + len (entry_body c y yo (EVis ty g l)) < 4294967296).
  { intros g Hg. cbn [entry_body]. lens. rewrite (vfix_len g Hg). lia. }
  rewrite E. subst b. split; [|split; [|split]].
  - unfold get_dims. rewrite (S f Hf). reflexivity.
  - unfold set_dims. rewrite (S f Hf). cbn [bind]. apply (entry_w_is c y dflt o yo F FO); [apply OK, Hf'|apply L, Hf'].
  - unfold get_dims. rewrite (S _ Hf'). reflexivity.
  - unfold get_type. rewrite (of_handle_is c y dflt o yo F FO) by (apply OK, Hf || apply L, Hf). cbn [bind entry_view].
    destruct (is_visual ty); reflexivity.
Qed.
Print Assumptions C56_dimensions.
Example C56_ex : vfix_ok (vfix_new 1) /\ Forall (settled btrt_codec btrt_layout) [ALeaf _ (mkBtrt false 0 128000 96000)] /\
  get_dims btrt_codec (mkBtrt false 0 0 0) no_codec (entry_bytes btrt_codec btrt_layout no_layout (hd (new_entry OtherTrack 1 1 []) some_entries)) = Ok (320, 240).
Proof. split; [repeat split|]. split; [repeat constructor; discriminate|]. vm_compute. reflexivity. Qed.
(* a description that is not visual is taken for a visual one *)
Theorem C56_dimensions_refuted :
  exists h, forall w k, set_dims btrt_codec (mkBtrt false 0 0 0) no_codec h w k = UB /\
    get_type btrt_codec (mkBtrt false 0 0 0) no_codec h = Ok (code "mp4a").
Proof.
  exists (entry_bytes btrt_codec btrt_layout no_layout (new_entry (AudioTrack 44100) 1 (code "mp4a") [])).
  intros w k. split; [unfold set_dims|unfold get_type]; (replace (of_handle _ _ _ _ _) with (Ok (new_entry (T:=btrt) (O:=Empty_set) (AudioTrack 44100) 1 (code "mp4a") [])) by (vm_compute; reflexivity)); reflexivity.
Qed.
Print Assumptions C56_dimensions_refuted.

(* C56: a box added to a description is found again *)
Definition exts_of {T O} (e : ent T O) : list (atom T) :=
  match e with EGen _ _ _ _ l => l | EMpeg _ _ _ l => l | EVis _ _ l => l | EAud _ _ l => l | EOther _ => [] end.
Definition own_layout {T O} (e : ent T O) : Prop :=
  match e with EMpeg ty _ _ _ => is_mpeg ty = true | EVis ty _ _ => is_visual ty = true | EAud ty _ _ => is_audio ty = true | _ => False end.
Definition with_ext {T O} (e : ent T O) (x : atom T) : ent T O :=
  match e with EGen ty r d b l => EGen ty r d b (l ++ [x]) | EMpeg ty r d l => EMpeg ty r d (l ++ [x])
             | EVis ty f l => EVis ty f (l ++ [x]) | EAud ty f l => EAud ty f (l ++ [x]) | EOther z => EOther z end.
Theorem C56_boxes :
  forall T O (c : codec T) (y : layout T) dflt (o : codec O) (yo : layout O) oadd oexts, faithful c y -> faithful o yo ->
  forall e x, entry_ok c y o yo e -> own_layout e -> Forall (settled c y) (exts_of e) -> settled c y x ->
  let h := entry_bytes c y yo e in
  let h' := box (entry_type yo e) (entry_body c y yo e ++ kid_enc c y x) in
  len h' < 4294967296 ->
  add_ext c dflt o oadd h x = Ok h' /\
  (forall t, get_ext c dflt o oexts h' t =
     match find (fun z => atype T (c_ty c) z =? t) (exts_of e ++ [x]) with Some z => Ok z | None => Err MP4NotFoundErr end).
Proof.
  intros T O c y dflt o yo oadd oexts F FO e x He Ho Hk Hx h h' Hl. subst h.
  assert (Sk : Forall (settled c y) (exts_of e ++ [x])) by (apply Forall_app; auto).
  destruct (settled_view c y _ Hk) as [V K]. destruct (settled_view c y _ Sk) as [V' K'].
  assert (E : h' = entry_bytes c y yo (with_ext e x)).
  { subst h'. destruct e; try (case Ho; fail); unfold entry_bytes; cbn [with_ext entry_type entry_body]; unfold kids_bytes; rewrite flat_map_app; cbn [flat_map]; rewrite app_nil_r, ?app_assoc; reflexivity. }
  assert (He' : entry_ok c y o yo (with_ext e x)).
  { destruct He as (A & B & C). destruct e; try (case Ho; fail); (split; [exact A|split; [exact B|]]); cbn [with_ext exts_of] in *; tauto. }
  assert (L' : 8 + len (entry_body c y yo (with_ext e x)) < 4294967296) by (rewrite E, len_entry in Hl; exact Hl).
  assert (L : 8 + len (entry_body c y yo e) < 4294967296) by (subst h'; rewrite len_box in Hl; revert Hl; lens; lia).
  assert (R : entry_view c y yo e = e) by (destruct e; try (case Ho; fail); cbn [entry_view own_layout exts_of] in *; rewrite Ho, V; reflexivity).
  assert (R' : entry_view c y yo (with_ext e x) = with_ext e x) by (destruct e; try (case Ho; fail); cbn [entry_view own_layout exts_of with_ext] in *; rewrite Ho, V'; reflexivity).
  split.
  - unfold add_ext. rewrite (of_handle_is c y dflt o yo F FO e He L), R. cbn [bind].
    transitivity (entry_w c o (with_ext e x)); [destruct e; try (case Ho; fail); reflexivity|]. rewrite E. apply (entry_w_is c y dflt o yo F FO); assumption.
  - intros t. unfold get_ext. rewrite E, (of_handle_is c y dflt o yo F FO _ He' L'), R'. cbn [bind].
    destruct e; try (case Ho; fail); reflexivity.
Qed.
Print Assumptions C56_boxes.
(* ... but not in a description whose type has no layout of its own *)
Theorem C56_boxes_refuted :
  forall T O (c : codec T) (y : layout T) dflt (o : codec O) (yo : layout O) oadd oexts, faithful c y -> faithful o yo ->
  forall ty r d b x, ty < 4294967296 -> ty <> code "uuid" -> is_generic o ty -> len r = 6 -> d < 65536 -> kid_ok c y x ->
  16 + len b + len (kid_enc c y x) < 4294967296 ->
  exists h', add_ext c dflt o oadd (box ty (r ++ be16 d ++ b)) x = Ok h' /\ forall t, get_ext c dflt o oexts h' t = Err MP4NotFoundErr.
Proof.
  intros T O c y dflt o yo oadd oexts F FO ty r d b x H1 H2 G Hr Hd Hx Hl.
  destruct (C55_any_bytes T O c y o yo FO ty r d b H1 H2 G Hr Hd) as [(A & _ & _) E].
  assert (OK : entry_ok c y o yo (EGen ty r d b [x])) by (split; [exact H1|split; [exact H2|auto]]).
  assert (L : 8 + len (entry_body c y yo (EGen ty r d b [x])) < 4294967296).
  { cbn [entry_body]. unfold kids_bytes. cbn [flat_map]. rewrite app_nil_r. lens. lia. }
  assert (L0 : 8 + len (entry_body c y yo (EGen ty r d b [])) < 4294967296).
  { cbn [entry_body]. unfold kids_bytes. cbn [flat_map]. rewrite app_nil_r. lens. lia. }
  exists (entry_bytes c y yo (EGen ty r d b [x])). split.
  - unfold add_ext. rewrite <- E, (of_handle_is c y dflt o yo F FO _ A L0). cbn [bind entry_view]. cbn [entry_body]. unfold kids_bytes. cbn [flat_map].
    rewrite app_nil_r, raw_is by exact Hr. apply (entry_w_is c y dflt o yo F FO); assumption.
  - intros t. unfold get_ext. rewrite (of_handle_is c y dflt o yo F FO _ OK L). reflexivity.
Qed.
Print Assumptions C56_boxes_refuted.

(* ------------------------------------------------------------------ *)
(* C57                                                                 *)

(* an added reference gets the next number and keeps all others *)
Theorem C57_added : forall a d,
  let r := dref_add a d in
  snd r = len (dr_kids a) + 1 /\ len (dr_kids (fst r)) = snd r /\
  (forall k, k <> snd r -> forall h u, dref_describe (fst r) k h u = dref_describe a k h u) /\
  dref_describe (fst r) (snd r) true false = Ok (location d).
Proof.
  intros [v f l] d r. subst r. unfold dref_add. cbn [fst snd dr_ver dr_flags dr_kids].
  set (x := match d with Here => _ | Url _ => _ | Urn _ _ => _ end).
  split; [lens; lia|]. split; [reflexivity|]. split.
  - intros k Hk h u.
    assert (E : dref_get (mkDref v f (l ++ [ALeaf _ x])) k = dref_get (mkDref v f l) k).
    { revert Hk. unfold dref_get. cbn [dr_kids]. rewrite len_app. change (len [ALeaf (durl + durn) x]) with 1. intros Hk.
      destruct (N.ltb_spec k 1); [reflexivity|]. cbn [orb].
      destruct (N.ltb_spec (len l) k) as [A|A]; destruct (N.ltb_spec (len l + 1) k) as [B|B]; try lia; [reflexivity|].
      rewrite nth_error_app1; [reflexivity|]. unfold len in A. lia. }
    unfold dref_describe. rewrite E. reflexivity.
  - rewrite len_app. change (len [ALeaf (durl + durn) x]) with 1. unfold dref_describe, dref_get. cbn [dr_kids]. rewrite len_app. change (len [ALeaf (durl + durn) x]) with 1. destruct (N.eqb_spec (len l + 1) 0); [lia|]. destruct (N.ltb_spec (len l + 1) 1); [lia|].
    cbn [orb]. rewrite N.ltb_irrefl. replace (N.to_nat (len l + 1 - 1)) with (length l) by (unfold len; lia).
    rewrite nth_error_app2, Nat.sub_diag by lia. subst x. destruct d; reflexivity.
Qed.
Print Assumptions C57_added.

Definition ref_box (d : dspec) : atom (durl + durn) :=
  ALeaf _ (match d with Here => inl (mkUrl T_url 0 1 None) | Url u => inl (mkUrl T_url 0 0 (Some u)) | Urn u n => inr (mkUrn 0 0 (Some u) n None) end).
Lemma refer_is ds : refer ds = mkDref 0 0 (map ref_box ds).
Proof.
  unfold refer. change (mkDref 0 0 []) with (mkDref 0 0 (map ref_box [])). change (map ref_box ds) with (map ref_box ([] ++ ds)). generalize (@nil dspec) as pre.
  induction ds as [|d ds IH]; intros pre; cbn [fold_left]; [rewrite app_nil_r; reflexivity|].
  unfold dref_add at 2. cbn [fst dr_ver dr_flags dr_kids].
  replace (map ref_box pre ++ [ALeaf _ _]) with (map ref_box (pre ++ [d])) by (rewrite map_app; destruct d; reflexivity).
  rewrite IH, <- app_assoc. reflexivity.
Qed.
Lemma describe_refs ds k : dref_describe (mkDref 0 0 (map ref_box ds)) k true false = kth_ref ds k.
Proof.
  unfold dref_describe, kth_ref, dref_get, nthN. cbn [dr_kids]. destruct (N.eqb_spec k 0); [reflexivity|]. destruct (N.ltb_spec k 1); [lia|]. cbn [orb].
  rewrite nth_error_map. destruct (nth_error ds (N.to_nat (k - 1))) as [d|] eqn:E; cbn [option_map].
  - assert (L : (N.to_nat (k - 1) < length ds)%nat) by (apply nth_error_Some; congruence).
    destruct (N.ltb_spec (len (map ref_box ds)) k); [unfold len in *; rewrite map_length in *; lia|]. destruct d; reflexivity.
  - apply nth_error_None in E. destruct (N.ltb_spec (len (map ref_box ds)) k); [reflexivity|unfold len in *; rewrite map_length in *; lia].
Qed.
Definition no_urn : layout durn := mkLayout (fun _ => code "urn ") (fun _ => []) (fun a => a) (fun _ => False).
Lemma entry_faithful : faithful entry_codec (lsum url_layout no_urn).
Proof.
  apply faithful_sum; [apply exact_faithful, url_exact| |intros t []]. split; intros t [].
Qed.
(* C57: after any history of added references the k-th is the k-th added, in
   the movie and after the box was written and read *)
Theorem C57_references :
  forall ds, (forall k, dref_describe (refer ds) k true false = kth_ref ds k) /\
  (Forall plain_ref ds -> 8 + len (l_body (dref_layout entry_codec (lsum url_layout no_urn)) (refer ds)) < 4294967296 ->
   exists bs a, write_box (dref_codec entry_codec (inl (mkUrl T_url 0 1 None))) (refer ds) = Ok bs /\
     (forall d rest, read_box (dref_codec entry_codec (inl (mkUrl T_url 0 1 None))) d (bs ++ rest) = Ok ((ALeaf _ a, len bs), rest)) /\
     forall k, dref_describe a k true false = kth_ref ds k).
Proof.
  intros ds. rewrite refer_is. split; [intros k; apply describe_refs|]. intros H Hl.
  destruct (faithful_round_trip _ _ (mkDref 0 0 (map ref_box ds)) (dref_faithful _ _ (inl (mkUrl T_url 0 1 None)) entry_faithful)) as (_ & W & R & _).
  - split; [split; reflexivity|]. cbn [dr_kids]. rewrite Forall_map. eapply Forall_impl; [|exact H]. intros [|u|u n] P; cbn in P |- *.
    + repeat split; reflexivity.
    + repeat split; try reflexivity. exact P.
    + destruct P.
  - exact Hl.
  - eexists. exists (mkDref 0 0 (map ref_box ds)). split; [exact W|]. split; [|intros k; apply describe_refs].
    intros d rest. rewrite R. repeat f_equal. cbn [dref_layout l_view dr_ver dr_flags dr_kids]. f_equal. rewrite map_map. apply map_ext_in.
    intros [|u|u n] I; try reflexivity. 
Qed.
Print Assumptions C57_references.
Example C57_ex : Forall plain_ref [Here; Url (cstr [97; 46; 109; 112; 52])] /\
  kth_ref [Here; Url (cstr [97; 46; 109; 112; 52])] 2 = Ok (code "url ", 0, Some [97; 46; 109; 112; 52; 0]).
Proof. split; [|reflexivity]. repeat constructor. exists [97; 46; 109; 112; 52]. split; [|reflexivity]. repeat constructor; discriminate. Qed.

(* a urn reference: asked with a handle for the name, the location comes back
   cut (or read past its end), and without a handle for the location the call
   writes through it all the same *)
Theorem C57_urn_refuted : forall u n ds,
  let k := len ds + 1 in
  dref_describe (refer (ds ++ [Urn u n])) k true true =
    (if len u <? len n then UB else Ok (code "urn ", 0, Some (firstn (N.to_nat (len n)) u))) /\
  dref_describe (refer (ds ++ [Urn u n])) k false true = UB.
Proof.
  intros u n ds k. subst k. rewrite refer_is, map_app. unfold dref_describe, dref_get. cbn [dr_kids map]. rewrite !len_app. change (len [ref_box (Urn u n)]) with 1.
  replace (len (map ref_box ds)) with (len ds) by (unfold len; rewrite map_length; reflexivity).
  destruct (N.eqb_spec (len ds + 1) 0); [lia|]. destruct (N.ltb_spec (len ds + 1) 1); [lia|].
  cbn [orb]. rewrite N.ltb_irrefl. replace (N.to_nat (len ds + 1 - 1)) with (length (map ref_box ds)) by (rewrite map_length; unfold len; lia).
  rewrite nth_error_app2, Nat.sub_diag by lia. cbn [nth_error ref_box bind un_loc un_read un_name un_flags]. split; reflexivity.
Qed.
Print Assumptions C57_urn_refuted.
Theorem C57_reading_safe : forall T (c : codec T) dflt, robust c -> robust (dref_codec c dflt).
Proof. intros T c dflt R. apply dref_safe, R. Qed.
Print Assumptions C57_reading_safe.

(* ForeignProps.v -- C86: boxes of one's own in a movie and its tracks. *)
From Verif Require Import Base Codec AtomModel AtomSpec AtomProofs AtomProps BoxModel BoxSpec BoxProofs Reads KidsModel KidsProofs
  TextModel TextSpec TextProofs TextProps UserModel UserSpec UserProofs UserProps ForeignSpec ForeignModel.

Section Steps.
Context {L : Type} (leafType : L -> N) (leafBody : L -> list N) (leafView : L -> L) (leafKnown : N -> bool) (leafOk : L -> Prop).
Notation atom := (AtomModel.atom L).
Notation wf := (wf L leafType leafKnown leafOk).
Notation strip := (strip L leafView).
Notation atype := (atype L leafType).
Notation nonfree := (fun k => negb (free_box L k)).

Lemma wf_boxes ty kids : wf (ABoxes _ ty kids) <->
  holds_boxes ty = true /\ Forall wf kids /\ singles_ok ty (map atype (filter nonfree kids)) /\
  (ty = code "stbl" -> Forall (fun k => atype k <> code "saiz" /\ atype k <> code "saio") kids /\
     Forall (fun g => exists k, In k kids /\ one_of (atype k) g = true) mandatory).
Proof.
  cbn [AtomSpec.wf].
  assert (E : (fix all (ks : list atom) : Prop := match ks with [] => True | k :: r => wf k /\ all r end) kids <-> Forall wf kids).
  { induction kids as [|k r IH]; [split; intros; [constructor|exact I]|]. split.
    - intros [A B]. constructor; [exact A|apply IH, B].
    - intros H. inversion_clear H. split; [assumption|apply IH; assumption]. }
  rewrite E. reflexivity.
Qed.
Lemma singles_snoc c tys t : singles_ok c tys -> (forall g, In g (single c) -> one_of t g = false) -> singles_ok c (tys ++ [t]).
Proof.
  intros H G. induction tys as [|x r IH]; cbn [app singles_ok] in *.
  - split; [|exact I]. intros g Hg E. constructor.
  - destruct H as [H1 H2]. split; [|apply IH, H2]. intros g Hg E. apply Forall_app. split; [apply H1; assumption|]. constructor; [apply G, Hg|constructor].
Qed.
Lemma no_slot c t kids : (forall g, In g (single c) -> one_of t g = false) -> slot_used L leafType c kids t = false.
Proof.
  intros G. unfold slot_used. destruct (slot c t) as [m|] eqn:E; [|reflexivity].
  destruct (slot_group _ _ _ E) as (g & G1 & G2 & _). rewrite (G g G1) in G2. discriminate.
Qed.
Lemma new_tell b : foreign_new L b = AOpaque _ (fst (fst (tell b))) (snd (fst (tell b))) (snd (tell b)).
Proof. destruct b; reflexivity. Qed.
Lemma add_kid_ok c kids b : wf (ABoxes _ c kids) -> c <> code "stbl" -> keepable leafKnown c b ->
  add_kid L leafType c kids (foreign_new L b) = (None, kids ++ [foreign_new L b]) /\ wf (ABoxes _ c (kids ++ [foreign_new L b])).
Proof.
  intros W Hc K. unfold keepable in K. destruct (tell b) as [[ty u] d] eqn:Et.
  pose proof (new_tell b) as En. rewrite Et in En. cbn [fst snd] in En. rewrite En. destruct K as (K1 & K2 & K3 & K4 & K5 & K6 & K7 & K8).
  unfold add_kid. cbn [AtomModel.atype]. rewrite no_slot by exact K8. split; [reflexivity|].
  apply wf_boxes in W. apply wf_boxes. destruct W as (W1 & W2 & W3 & _). split; [exact W1|]. split; [|split].
  - apply Forall_app. split; [exact W2|]. constructor; [|constructor]. cbn [AtomSpec.wf]. tauto.
  - rewrite filter_app, map_app. cbn [filter AtomSpec.free_box negb map AtomModel.atype]. apply singles_snoc; assumption.
  - intros E. congruence.
Qed.
Lemma own_app (a b : list atom) : own (a ++ b) = own a ++ own b.
Proof. apply flat_map_app. Qed.
Lemma own_new b : own [foreign_new L b] = [tell b].
Proof. rewrite new_tell. cbn [own flat_map app]. destruct (tell b) as [[? ?] ?]. reflexivity. Qed.
Lemma own_read kids : own (filter nonfree (map strip kids)) = own kids.
Proof.
  induction kids as [|k r IH]; [reflexivity|]. destruct k; cbn [map AtomSpec.strip filter AtomSpec.free_box negb own flat_map app] in *; fold (own (filter nonfree (map strip r))); fold (own r); rewrite ?IH; reflexivity.
Qed.
Lemma view_read m : view (strip m) = view m.
Proof.
  destruct m as [ty u d|ty d|l|ty kids]; try reflexivity. unfold view. cbn [AtomSpec.strip kids_of]. rewrite own_read. f_equal.
  unfold tracks. cbn [kids_of]. induction kids as [|k r IH]; [reflexivity|].
  destruct k as [ty1 u d|ty1 d|l|ty1 ks]; cbn [map AtomSpec.strip filter AtomSpec.free_box negb is_track] in *; try exact IH.
  destruct (ty1 =? code "trak"); [|exact IH]. cbn [map kids_of]. rewrite own_read. f_equal. exact IH.
Qed.
Lemma rest_snoc ty kids b : rest_of (strip (ABoxes _ ty (kids ++ [foreign_new L b]))) = rest_of (strip (ABoxes _ ty kids)).
Proof.
  rewrite new_tell. unfold rest_of. cbn [AtomSpec.strip kids_of]. rewrite map_app, !filter_app. cbn [map AtomSpec.strip filter AtomSpec.free_box negb is_own].
  rewrite app_nil_r. reflexivity.
Qed.
Lemma rest_track_snoc ks b : rest_of_track (strip (ABoxes _ T_trak (ks ++ [foreign_new L b]))) = rest_of_track (strip (ABoxes _ T_trak ks)).
Proof.
  rewrite new_tell. unfold rest_of_track. cbn [AtomSpec.strip]. rewrite map_app, !filter_app. cbn [map AtomSpec.strip filter AtomSpec.free_box negb is_own].
  rewrite app_nil_r. reflexivity.
Qed.
Lemma add_to_track_ok b kids : forall i, Forall wf kids -> (i < length (filter is_track kids))%nat -> keepable leafKnown (code "trak") b ->
  exists kids', add_to_track L leafType i kids (foreign_new L b) = Some (None, kids') /\ Forall wf kids' /\
    map atype (filter nonfree kids') = map atype (filter nonfree kids) /\ own kids' = own kids /\
    map (fun t => own (kids_of t)) (filter is_track kids') = append_at i (tell b) (map (fun t => own (kids_of t)) (filter is_track kids)) /\
    rest_of (strip (ABoxes _ T_moov kids')) = rest_of (strip (ABoxes _ T_moov kids)).
Proof.
  induction kids as [|k r IH]; intros i W Hi K; [cbn in Hi; lia|]. inversion_clear W as [|? ? W1 W2].
  assert (Other : is_track k = false -> exists kids', (match add_to_track L leafType i r (foreign_new L b) with Some (e, r') => Some (e, k :: r') | None => None end) = Some (None, kids') /\ Forall wf kids' /\
    map atype (filter nonfree kids') = map atype (filter nonfree (k :: r)) /\ own kids' = own (k :: r) /\
    map (fun t => own (kids_of t)) (filter is_track kids') = append_at i (tell b) (map (fun t => own (kids_of t)) (filter is_track (k :: r))) /\
    rest_of (strip (ABoxes _ T_moov kids')) = rest_of (strip (ABoxes _ T_moov (k :: r)))).
  { intros Hk. cbn [filter] in Hi |- *. rewrite Hk in Hi |- *. destruct (IH i W2 Hi K) as (r' & E & A1 & A2 & A3 & A4 & A5). rewrite E.
    exists (k :: r'). split; [reflexivity|]. split; [constructor; assumption|]. cbn [filter]. rewrite Hk.
    split; [destruct (negb (free_box L k)); cbn [map]; rewrite ?A2; reflexivity|].
    split; [cbn [own flat_map]; f_equal; exact A3|]. split; [exact A4|].
    unfold rest_of in A5 |- *. cbn [AtomSpec.strip kids_of map filter] in A5 |- *.
    destruct (negb (free_box L (strip k))); cbn [filter map]; [|exact A5]. destruct (negb (is_own (strip k))); cbn [map]; rewrite ?A5; reflexivity. }
  destruct k as [ty u d|ty d|l|ty ks]; try (exact (Other eq_refl)).
  cbn [add_to_track]. change T_trak with (code "trak"). destruct (N.eqb_spec ty (code "trak")) as [->|Hn].
  2:{ apply Other. cbn [is_track]. apply N.eqb_neq. exact Hn. }
  clear Other. destruct i as [|j].
  - destruct (add_kid_ok _ ks b W1 ltac:(discriminate) K) as (E & W'). rewrite E.
    exists (ABoxes _ (code "trak") (ks ++ [foreign_new L b]) :: r). split; [reflexivity|]. split; [constructor; assumption|].
    split; [reflexivity|]. split; [reflexivity|]. split.
    + cbn [filter is_track]. rewrite N.eqb_refl. cbn [map kids_of append_at]. rewrite own_app, own_new. reflexivity.
    + unfold rest_of. cbn [AtomSpec.strip kids_of map filter AtomSpec.free_box negb is_own].
      f_equal. exact (rest_track_snoc ks b).
  - cbn [filter is_track] in Hi |- *. rewrite N.eqb_refl in Hi |- *. cbn [length] in Hi.
    destruct (IH j W2 ltac:(lia) K) as (r' & E & A1 & A2 & A3 & A4 & A5). rewrite E.
    exists (ABoxes _ (code "trak") ks :: r'). split; [reflexivity|]. split; [constructor; assumption|].
    split; [cbn [filter AtomSpec.free_box negb map]; rewrite A2; reflexivity|]. split; [exact A3|]. split.
    + cbn [filter is_track]. rewrite N.eqb_refl. cbn [map append_at]. rewrite A4. reflexivity.
    + unfold rest_of in A5 |- *. cbn [AtomSpec.strip kids_of map filter AtomSpec.free_box negb is_own] in A5 |- *.
      rewrite A5. reflexivity.
Qed.
Lemma append_len i x l : length (append_at i x l) = length l.
Proof. revert i. induction l as [|t r IH]; intros [|i]; cbn [append_at length]; auto. Qed.

Lemma own_step_ok kids o : wf (ABoxes _ (code "moov") kids) -> fop_ok leafKnown (length (filter is_track kids)) o ->
  exists kids', own_step L leafType (ABoxes _ (code "moov") kids) o = Ok (None, ABoxes _ (code "moov") kids') /\ wf (ABoxes _ (code "moov") kids') /\
    length (filter is_track kids') = length (filter is_track kids) /\
    view (ABoxes _ (code "moov") kids') = fop_spec (view (ABoxes _ (code "moov") kids)) o /\
    rest_of (strip (ABoxes _ (code "moov") kids')) = rest_of (strip (ABoxes _ (code "moov") kids)).
Proof.
  intros W Ho. destruct o as [b|i b]; cbn [fop_ok own_step] in *.
  - destruct (add_kid_ok _ kids b W ltac:(discriminate) Ho) as (E & W'). rewrite E. exists (kids ++ [foreign_new L b]).
    split; [reflexivity|]. split; [exact W'|].
    assert (T : filter is_track (kids ++ [foreign_new L b]) = filter is_track kids)
      by (rewrite filter_app, new_tell; cbn [filter is_track]; apply app_nil_r).
    split; [rewrite T; reflexivity|]. split; [|exact (rest_snoc (code "moov") kids b)].
    unfold view, tracks. cbn [kids_of fop_spec fst snd]. rewrite T, own_app, own_new. reflexivity.
  - destruct Ho as [Hi K]. apply wf_boxes in W. destruct W as (W1 & W2 & W3 & W4).
    destruct (add_to_track_ok b kids i W2 Hi K) as (kids' & E & A1 & A2 & A3 & A4 & A5). rewrite E. exists kids'.
    split; [reflexivity|]. split; [apply wf_boxes; split; [exact W1|]; split; [exact A1|]; split; [rewrite A2; exact W3|intros Q; discriminate Q]|].
    split; [rewrite <- (map_length (fun t => own (kids_of t)) (filter is_track kids')), A4, append_len, map_length; reflexivity|].
    split; [|exact A5]. unfold view, tracks. cbn [kids_of fop_spec fst snd]. rewrite A3, A4. reflexivity.
Qed.
Lemma own_run_ok os : forall kids, wf (ABoxes _ (code "moov") kids) -> Forall (fop_ok leafKnown (length (filter is_track kids))) os ->
  exists kids', own_run L leafType (ABoxes _ (code "moov") kids) os = Ok (map (fun _ => None) os, ABoxes _ (code "moov") kids') /\
    wf (ABoxes _ (code "moov") kids') /\
    view (ABoxes _ (code "moov") kids') = fold_left fop_spec os (view (ABoxes _ (code "moov") kids)) /\
    rest_of (strip (ABoxes _ (code "moov") kids')) = rest_of (strip (ABoxes _ (code "moov") kids)).
Proof.
  induction os as [|o os IH]; intros kids W Ho; [exists kids; auto|]. inversion_clear Ho as [|? ? H1 H2].
  destruct (own_step_ok kids o W H1) as (k1 & E & W1 & Hl & V & R). rewrite <- Hl in H2.
  destruct (IH k1 W1 H2) as (k2 & E2 & W2 & V2 & R2). exists k2. cbn [own_run]. rewrite E. cbn [bind snd fst]. rewrite E2. cbn [bind fst snd].
  split; [reflexivity|]. split; [exact W2|]. split; [rewrite V2, V; reflexivity|congruence].
Qed.
End Steps.

(* Any movie, any boxes of one's own added to it and to its tracks in any
   order: every call is accepted; the movie written and read back holds exactly
   these boxes, after those it had, in order, each in its place; and the rest
   is what it would be without them. *)
Theorem C86_boxes_kept :
  forall L leafP leafType leafSize leafW dflt leafBody leafView leafKnown leafOk,
  @codec_exact L leafP leafType leafSize leafW leafBody leafView leafKnown leafOk ->
  forall kids os, let m := ABoxes L (code "moov") kids in
  wf L leafType leafKnown leafOk m -> Forall (fop_ok leafKnown (length (tracks m))) os ->
  exists m', own_run L leafType m os = Ok (map (fun _ => None) os, m') /\
  (len (enc L leafType leafBody m') < 4294967296 ->
   exists bs, awrite L leafType leafSize leafW m' = Ok bs /\
   forall rest, exists r, snd (parse_top L leafP leafType dflt (bs ++ rest)) = Ok ((r, len bs), rest) /\
     view r = fold_left fop_spec os (view m) /\
     rest_of r = rest_of (strip L leafView m)).
Proof.
  intros L leafP leafType leafSize leafW dflt leafBody leafView leafKnown leafOk C kids os m W Ho.
  destruct (own_run_ok leafType leafView leafKnown leafOk os kids W Ho) as (kids' & E & W' & V & R).
  exists (ABoxes L (code "moov") kids'). split; [exact E|]. intros Hl.
  exists (enc L leafType leafBody (ABoxes L (code "moov") kids')).
  split; [apply (C06_tree_round_trip _ _ _ _ _ dflt _ _ _ _ C _ [] W' Hl)|]. intros rest.
  exists (strip L leafView (ABoxes L (code "moov") kids')).
  split; [apply (C06_tree_round_trip _ _ _ _ _ dflt _ _ _ _ C _ rest W' Hl)|].
  split; [rewrite view_read; exact V|exact R].
Qed.
Print Assumptions C86_boxes_kept.

(* what is told about a box that was made, and about any box in the view *)
Theorem C86_told :
  forall L, (forall ty d, foreign_get L (foreign_new L (FBox ty d)) = Ok (ty, (if ty =? code "uuid" then Some (repeat 0 16) else None), d)) /\
  (forall u d, foreign_get L (foreign_new L (FUuid u d)) = Ok (code "uuid", Some u, d)) /\
  (forall kids ty u d, In (ty, u, d) (own kids) -> exists a, In a kids /\ foreign_get L a = Ok (ty, (if ty =? code "uuid" then Some u else None), d)).
Proof.
  intros L. split; [intros ty d; unfold foreign_new, foreign_get; change (code "uuid") with T_uuid; destruct (ty =? T_uuid); reflexivity|].
  split; [reflexivity|]. intros kids ty u d H. unfold own in H. apply in_flat_map in H. destruct H as (a & H1 & H2). exists a. split; [exact H1|].
  destruct a as [ty1 u1 d1|ty1 d1|l|ty1 ks]; try contradiction. destruct H2 as [E|[]]. injection E as -> -> ->. reflexivity.
Qed.
Print Assumptions C86_told.

(* a movie with user data and two tracks *)
Definition mc := udta_codec cprt_codec (mkCprt 0 0 0 None).
Definition ex_movie : atom (udta (T:=cprt)) :=
  ABoxes _ (code "moov") [ALeaf _ [(code "abcd", [AOpaque _ (code "abcd") [] [7]])]; ABoxes _ (code "trak") [AOpaque _ (code "mine") [] [1]];
                          AFree _ (code "free") [0; 0]; ABoxes _ (code "trak") []].
Definition ex_fops : list fop :=
  [FMovie (FBox (code "mine") [1; 2]); FTrack 1 (FUuid [1;2;3;4;5;6;7;8;9;10;11;12;13;14;15;16] [5]); FMovie (FBox (code "your") []); FTrack 0 (FBox (code "mine") [3])].
Definition mparse := parse_top (udta (T:=cprt)) (c_leaf mc) (c_ty mc) (fun _ => []).
Definition mwrite := awrite (udta (T:=cprt)) (c_ty mc) (c_size mc) (c_w mc).
Lemma mc_exact :
  codec_exact (c_leaf mc) (c_ty mc) (c_size mc) (c_w mc) (l_body (udta_layout cprt_codec cprt_layout))
    (l_view (udta_layout cprt_codec cprt_layout)) (c_known mc) (l_ok (udta_layout cprt_codec cprt_layout)).
Proof. apply faithful_codec, udta_faithful, exact_faithful, cprt_exact. Qed.
Fixpoint singlesb (c : N) (tys : list N) : bool :=
  match tys with
  | [] => true
  | t :: r => forallb (fun g => implb (one_of t g) (forallb (fun t' => negb (one_of t' g)) r)) (single c) && singlesb c r
  end.
Lemma singlesb_ok c tys : singlesb c tys = true -> singles_ok c tys.
Proof.
  induction tys as [|t r IH]; [intros; exact I|]. cbn [singlesb singles_ok]. intros H. apply andb_prop in H. destruct H as [H1 H2].
  split; [|apply IH, H2]. intros g Hg E. rewrite forallb_forall in H1. specialize (H1 g Hg). rewrite E in H1. cbn [implb] in H1.
  apply Forall_forall. intros t' Ht. rewrite forallb_forall in H1. specialize (H1 t' Ht). destruct (one_of t' g); [discriminate|reflexivity].
Qed.
Lemma ex_movie_wf : wf _ (c_ty mc) (c_known mc) (l_ok (udta_layout cprt_codec cprt_layout)) ex_movie.
Proof.
  unfold ex_movie. apply wf_boxes. split; [reflexivity|]. split; [|split; [|intros Q; discriminate Q]].
  - constructor; [|constructor; [|constructor; [|constructor; [|constructor]]]].
    + cbn [AtomSpec.wf udta_layout l_ok all_items flat_map snd app]. constructor; [|constructor]. cbn. repeat split; repeat constructor.
    + apply wf_boxes. split; [reflexivity|]. split; [|split; [|intros Q; discriminate Q]].
      * constructor; [|constructor]. cbn. repeat split; repeat constructor.
      * cbn. split; [|exact I]. intros g _ _. constructor.
    + cbn. repeat split; repeat constructor.
    + apply wf_boxes. split; [reflexivity|]. split; [constructor|]. split; [exact I|intros Q; discriminate Q].
  - apply singlesb_ok. vm_compute. reflexivity.
Qed.
Lemma ex_fops_ok : Forall (fop_ok (c_known mc) (length (tracks ex_movie))) ex_fops.
Proof.
  assert (G : forall c b, match tell b with (ty, u, d) => (ty <? 4294967296) && negb (holds_boxes ty) && negb (free_type ty) && negb (c_known mc ty) &&
      (len u =? (if ty =? code "uuid" then 16 else 0)) && forallb (fun x => x <? 256) u && forallb (fun x => x <? 256) d &&
      forallb (fun g => negb (one_of ty g)) (single c) = true end -> keepable (c_known mc) c b).
  { intros c b. unfold keepable. destruct (tell b) as [[ty u] d]. intros H. rewrite !andb_true_iff, !negb_true_iff, !forallb_forall in H.
    destruct H as (((((((H1 & H2) & H3) & H4) & H5) & H6) & H7) & H8). apply N.ltb_lt in H1. apply N.eqb_eq in H5.
    split; [exact H1|]. split; [exact H2|]. split; [exact H3|]. split; [exact H4|]. split; [exact H5|].
    split; [apply Forall_forall; intros x Hx; apply N.ltb_lt, H6, Hx|]. split; [apply Forall_forall; intros x Hx; apply N.ltb_lt, H7, Hx|].
    intros g Hg. apply negb_true_iff, H8, Hg. }
  unfold ex_fops. constructor; [|constructor; [|constructor; [|constructor; [|constructor]]]]; cbn [fop_ok].
  - apply G. vm_compute. reflexivity.
  - split; [vm_compute; repeat constructor|]. apply G. vm_compute. reflexivity.
  - apply G. vm_compute. reflexivity.
  - split; [vm_compute; repeat constructor|]. apply G. vm_compute. reflexivity.
Qed.
Example C86_case :
  exists m' bs r, own_run _ (c_ty mc) ex_movie ex_fops = Ok ([None; None; None; None], m') /\
  mwrite m' = Ok bs /\ snd (mparse bs) = Ok ((r, len bs), []) /\
  view r = ([(code "mine", [], [1; 2]); (code "your", [], [])],
            [[(code "mine", [], [1]); (code "mine", [], [3])]; [(code "uuid", [1;2;3;4;5;6;7;8;9;10;11;12;13;14;15;16], [5])]]) /\
  rest_of r = [ALeaf _ [(code "abcd", [AOpaque _ (code "abcd") [] [7]])]; ABoxes _ (code "trak") []; ABoxes _ (code "trak") []].
Proof. do 3 eexists. split; [vm_compute; reflexivity|]. split; [vm_compute; reflexivity|]. split; [vm_compute; reflexivity|]. split; [vm_compute; reflexivity|]. vm_compute. reflexivity. Qed.

(* A box that is refused stays in the movie all the same: a second user data
   box is refused with an error, but the movie is written with both, and
   cannot be opened. *)
Theorem C86_refused_box_stays_refuted :
  exists m' bs, own_run _ (c_ty mc) ex_movie [FMovie (FBox (code "udta") [])] = Ok ([Some MP4BadDataErr], m') /\
  mwrite m' = Ok bs /\ snd (mparse bs) = Err MP4BadDataErr /\
  exists bs0 r, mwrite ex_movie = Ok bs0 /\ snd (mparse bs0) = Ok ((r, len bs0), []).
Proof.
  do 2 eexists. split; [vm_compute; reflexivity|]. split; [vm_compute; reflexivity|]. split; [vm_compute; reflexivity|].
  do 2 eexists. split; [vm_compute; reflexivity|]. vm_compute. reflexivity.
Qed.
Print Assumptions C86_refused_box_stays_refuted.

(* A box of a type the library reads in its own way is accepted, but read
   back as that other box; asking for its payload is then undefined. A box of
   free space is not read back at all. *)
Theorem C86_known_type_refuted :
  let m := ABoxes _ (code "moov") [] in
  exists m' bs k, own_run _ (c_ty mc) m [FMovie (FBox (code "udta") []); FMovie (FBox (code "free") [1])] = Ok ([None; None], m') /\
  mwrite m' = Ok bs /\ snd (mparse bs) = Ok ((ABoxes _ (code "moov") [k], len bs), []) /\ foreign_get _ k = UB.
Proof. do 3 eexists. split; [vm_compute; reflexivity|]. split; [vm_compute; reflexivity|]. split; [vm_compute; reflexivity|]. vm_compute. reflexivity. Qed.
Print Assumptions C86_known_type_refuted.

(* FileProofs.v *)
From Verif Require Import Base Codec AtomModel AtomSpec AtomProofs AtomProps BoxModel BoxSpec BoxProofs Reads KidsProofs SttsModel SttsProps CttsModel CttsProps
  SyncModel SyncProps SizeModel SizeProps MarkModel MarkProps ChunkSpec ChunkModel ChunkProofs ChunkProps MdatModel SaveSpec SaveModel SaveProofs SaveProps
  TextModel TextSpec EntryModel EntrySpec EntryProofs EntryProps MediaSpec MediaModel MediaProofs FileModel FileSpec.

Section Proofs.
Context {T E X : Type} (ct : codec T) (yt : layout T) (dt : T) (ce : codec E) (ye : layout E) (edri : E -> N)
  (cx : codec X) (yx : layout X).
Hypothesis FT : faithful ct yt.
Hypothesis FE : faithful ce ye.
Hypothesis FX : faithful cx yx.
Hypothesis AX : apart cx yx.
Hypothesis VE : forall x, l_ok ye x -> edri (l_view ye x) = edri x.
Notation fleaf := (fleaf (T:=T) (E:=E) (X:=X)).
Notation tree := (atom fleaf).
Notation fc := (fcodec ct dt ce cx).
Notation fl := (flayout ct yt ce ye yx).
Notation tree_ok := (tree_ok ct yt dt ce ye cx yx).
Notation tree_bytes := (tree_bytes ct yt dt ce ye cx yx).
Notation tree_view := (tree_view ct yt ce ye yx).
Notation tree_type := (tree_type ct dt ce cx).

Lemma apart_facts x : l_ok yx x ->
  c_ty cx x <> T_mdat /\ c_ty cx x <> T_stts /\ c_ty cx x <> T_ctts /\ c_ty cx x <> T_stss /\ c_ty cx x <> T_stsz /\ c_ty cx x <> T_stz2 /\
  c_ty cx x <> T_stsc /\ c_ty cx x <> T_stco /\ c_ty cx x <> T_co64 /\ c_ty cx x <> T_padb /\ c_ty cx x <> T_stsd /\ c_ty cx x <> T_dref.
Proof.
  intros H. pose proof (AX x H) as B. unfold placed_types in B. cbn [existsb] in B. rewrite !orb_false_iff, !N.eqb_neq in B.
  decompose [and] B. repeat split; assumption.
Qed.
Lemma ffaithful : faithful fc fl.
Proof.
  unfold fcodec, flayout.
  repeat (apply faithful_sum; [first [apply exact_faithful; first [apply mdat_exact|apply stts_exact|apply ctts_exact|apply stss_exact|apply stsz_exact|
      apply stsc_exact|apply stco_exact|apply padb_exact]|apply stsd_faithful; assumption|apply dref_faithful, entry_faithful]| |]);
    try exact FX;
    intros t; repeat (destruct t as [t|t]); cbn [lsum l_ok csum c_ty c_known mdat_codec stts_codec ctts_codec stss_codec stsz_codec stsc_codec stco_codec padb_codec
      stsd_codec dref_codec]; intros Ht; try reflexivity;
    try (unfold stsz_type; destruct (_ || _); reflexivity); try (unfold stco_type; destruct (stco_large _); reflexivity).
  all: destruct (apart_facts t Ht) as (A1 & A2 & A3 & A4 & A5 & A6 & A7 & A8 & A9 & A10 & A11 & A12); rewrite ?orb_false_iff; rewrite ?N.eqb_neq; auto.
Qed.

(* ------------------------------------------------------------------ *)
(* children of a container                                             *)

Notation nonfree := (fun k : tree => negb (free_box fleaf k)).
Notation kv := (kid_view fl).
Definition slotted (c : N) (ks : list tree) : Prop := slots_distinct c (map tree_type (filter nonfree ks)).

Lemma boxes_facts ty ks : tree_ok (ABoxes _ ty ks) ->
  Forall tree_ok ks /\ slotted ty ks /\ (ty = T_stbl -> Forall (fun k => tree_type k <> T_saiz /\ tree_type k <> T_saio) ks).
Proof.
  intros H. destruct (wf_kids _ _ _ _ _ _ H) as (_ & A & B & C). split; [exact A|]. split; [exact B|]. intros Q. apply (C Q).
Qed.
Lemma slotted_tail c a ks : slotted c (a :: ks) -> slotted c ks.
Proof. unfold slotted. cbn [filter]. destruct (negb _); [intros [_ H]; exact H|auto]. Qed.
Lemma slotted_clash c a ks b m : slotted c (a :: ks) -> free_box _ a = false -> free_box _ b = false ->
  AtomModel.slot c (tree_type a) = Some m -> AtomModel.slot c (tree_type b) = Some m -> ~ In b ks.
Proof.
  unfold slotted. cbn [filter]. intros H Fa Fb Sa Sb I. rewrite Fa in H. cbn [negb map] in H. destruct H as [H _]. specialize (H m Sa).
  rewrite Forall_forall in H. apply (H (tree_type b)); [|exact Sb]. apply in_map. apply filter_In. rewrite Fb. auto.
Qed.
Lemma sub_in c ty m l ks : AtomModel.slot c ty = Some m -> slotted c ks -> In (ABoxes _ ty l) ks -> sub ty ks = Some l.
Proof.
  intros Hs. induction ks as [|a ks IH]; intros Hd I; [destruct I|].
  assert (Hd' := slotted_tail _ _ _ Hd). destruct I as [->|I]; [cbn [sub]; rewrite N.eqb_refl; reflexivity|].
  destruct a as [t uu d|t d|x|t k]; cbn [sub]; auto. destruct (N.eqb_spec t ty) as [->|]; [|auto].
  exfalso. apply (slotted_clash _ _ _ (ABoxes _ ty l) m Hd eq_refl eq_refl Hs Hs I).
Qed.
Lemma pick_in {A} (f : fleaf -> option A) c m x a ks :
  (forall y b, f y = Some b -> AtomModel.slot c (c_ty fc y) = Some m) -> f x = Some a -> slotted c ks -> In (ALeaf _ x) ks -> pick f ks = Some a.
Proof.
  intros Hf Hx. induction ks as [|k ks IH]; intros Hd I; [destruct I|].
  assert (Hd' := slotted_tail _ _ _ Hd). destruct I as [->|I]; [cbn [pick]; rewrite Hx; reflexivity|].
  destruct k as [t uu d|t d|y|t k]; cbn [pick]; auto. destruct (f y) as [b|] eqn:Ey; [|auto].
  exfalso. apply (slotted_clash _ _ _ (ALeaf _ x) m Hd eq_refl eq_refl (Hf _ _ Ey) (Hf _ _ Hx) I).
Qed.
Lemma sub_some ty ks l : sub ty ks = Some l -> In (ABoxes fleaf ty l) ks.
Proof.
  induction ks as [|[t uu d|t d|x|t k] ks IH]; cbn [sub In]; try discriminate; auto.
  destruct (N.eqb_spec t ty) as [->|]; [intros Q; injection Q as ->|]; auto.
Qed.
Lemma pick_some {A} (f : fleaf -> option A) ks a : pick f ks = Some a -> exists x, In (ALeaf fleaf x) ks /\ f x = Some a.
Proof.
  induction ks as [|[t uu d|t d|x|t k] ks IH]; cbn [pick In]; try discriminate; intros H;
    try (destruct (IH H) as (x' & A1 & A2); exists x'; auto; fail).
  destruct (f x) eqn:Ex; [injection H as ->; exists x; auto|destruct (IH H) as (x' & A1 & A2); exists x'; auto].
Qed.
Lemma stco_slot y b : is_stco y = Some b -> AtomModel.slot T_stbl (c_ty fc y) = Some T_stco.
Proof.
  unfold is_stco. destruct y as [y|[y|[y|[y|[y|[y|[y|y]]]]]]]; try discriminate. intros _. cbn. unfold stco_type. destruct (stco_large _); reflexivity.
Qed.
Lemma stsc_slot y b : is_stsc y = Some b -> AtomModel.slot T_stbl (c_ty fc y) = Some T_stsc.
Proof. unfold is_stsc. destruct y as [y|[y|[y|[y|[y|[y|y]]]]]]; try discriminate. reflexivity. Qed.
Lemma stsd_slot y b : is_stsd y = Some b -> AtomModel.slot T_stbl (c_ty fc y) = Some T_stsd.
Proof. unfold is_stsd. destruct y as [y|[y|[y|[y|[y|[y|[y|[y|[y|y]]]]]]]]]; try discriminate. reflexivity. Qed.
Lemma dref_slot y b : is_dref y = Some b -> AtomModel.slot T_dinf (c_ty fc y) = Some T_dref.
Proof. unfold is_dref. destruct y as [y|[y|[y|[y|[y|[y|[y|[y|[y|[y|y]]]]]]]]]]; try discriminate. reflexivity. Qed.

(* reading drops free space and nothing else *)
Lemma kv_cons k ks : kv (k :: ks) = (if free_box fleaf k then [] else [tree_view k]) ++ kv ks.
Proof. unfold kid_view. cbn [map filter]. rewrite free_strip. destruct (free_box fleaf k); reflexivity. Qed.
Lemma view_boxes t k : tree_view (ABoxes _ t k) = ABoxes _ t (kv k).
Proof. reflexivity. Qed.
Lemma sub_view ty l : sub ty (kv l) = option_map kv (sub ty l).
Proof.
  induction l as [|[t uu d|t d|x|t k] l IH]; [reflexivity|..]; rewrite kv_cons; cbn [free_box app tree_view FileSpec.tree_view strip sub]; try exact IH.
  destruct (t =? ty); [reflexivity|exact IH].
Qed.
Lemma pick_view {A} (f : fleaf -> option A) v l : (forall x, f (l_view fl x) = option_map v (f x)) -> pick f (kv l) = option_map v (pick f l).
Proof.
  intros Hf. induction l as [|[t uu d|t d|x|t k] l IH]; [reflexivity|..]; rewrite kv_cons; cbn [free_box app tree_view FileSpec.tree_view strip pick]; try exact IH.
  rewrite Hf. destruct (f x); [reflexivity|exact IH].
Qed.
Lemma put_sub_view ty g h l : (forall k, kv (g k) = h (kv k)) -> kv (put_sub ty g l) = put_sub ty h (kv l).
Proof.
  intros Hg. induction l as [|[t uu d|t d|x|t k] l IH]; [reflexivity|..]; cbn [put_sub]; rewrite ?kv_cons; cbn [free_box app tree_view FileSpec.tree_view strip put_sub];
    try (rewrite IH; reflexivity); try exact IH.
  fold (kv k). destruct (t =? ty); rewrite kv_cons, view_boxes; cbn [free_box app]; [|rewrite IH; reflexivity].
  rewrite Hg. reflexivity.
Qed.
Lemma put_leaf_view s l : kv (put_leaf is_stco (L_stco s) l) = put_leaf is_stco (L_stco s) (kv l).
Proof.
  induction l as [|[t uu d|t d|x|t k] l IH]; [reflexivity|..]; cbn [put_leaf]; rewrite ?kv_cons; cbn [free_box app tree_view FileSpec.tree_view strip put_leaf];
    try (rewrite IH; reflexivity); try exact IH.
  assert (Q : is_stco (l_view fl x) = is_stco x) by (destruct x as [y|[y|[y|[y|[y|[y|[y|y]]]]]]]; reflexivity).
  rewrite Q. destruct (is_stco x) as [b|]; rewrite kv_cons; cbn [free_box app FileSpec.tree_view strip]; [reflexivity|rewrite IH; reflexivity].
Qed.
Lemma trk_put_view l s : kv (trk_put l s) = trk_put (kv l) s.
Proof. unfold trk_put. repeat (apply put_sub_view; intros). apply put_leaf_view. Qed.
Lemma moov_put_view ks : forall ts, kv (moov_put ks ts) = moov_put (kv ks) ts.
Proof.
  induction ks as [|[t uu d|t d|x|t k] ks IH]; intros ts; [reflexivity|..]; cbn [moov_put]; rewrite ?kv_cons; cbn [free_box app FileSpec.tree_view strip moov_put];
    try (rewrite IH; reflexivity); try apply IH.
  destruct (t =? T_trak); [destruct ts as [|s ts]|]; rewrite kv_cons, view_boxes; cbn [free_box app]; rewrite IH; [reflexivity| |reflexivity].
  rewrite trk_put_view. reflexivity.
Qed.

(* changing the table of chunk offsets *)
Lemma put_sub_put ty g h l : put_sub ty g (put_sub ty h l) = put_sub (T:=T) (E:=E) (X:=X) ty (fun x => g (h x)) l.
Proof.
  induction l as [|[t uu d|t d|x|t k] l IH]; cbn [put_sub]; try (rewrite IH); try reflexivity.
  destruct (t =? ty) eqn:Q; cbn [put_sub]; rewrite Q; [reflexivity|rewrite IH; reflexivity].
Qed.
Lemma put_sub_ext ty g h l : (forall k, g k = h k) -> put_sub (T:=T) (E:=E) (X:=X) ty g l = put_sub ty h l.
Proof.
  intros H. induction l as [|[t uu d|t d|x|t k] l IH]; cbn [put_sub]; try (rewrite IH); try reflexivity.
  destruct (t =? ty); [rewrite H; reflexivity|reflexivity].
Qed.
Lemma put_sub_same ty g l k : sub ty l = Some k -> g k = k -> put_sub (T:=T) (E:=E) (X:=X) ty g l = l.
Proof.
  intros Hs Hg. induction l as [|[t uu d|t d|x|t k'] l IH]; cbn [put_sub sub] in *; try (rewrite IH by exact Hs); try reflexivity.
  destruct (t =? ty); [injection Hs as ->; rewrite Hg; reflexivity|rewrite IH by exact Hs; reflexivity].
Qed.
Lemma put_leaf_put s s' l : put_leaf is_stco (L_stco s') (put_leaf is_stco (L_stco s) l) = put_leaf (T:=T) (E:=E) (X:=X) is_stco (L_stco s') l.
Proof.
  induction l as [|[t uu d|t d|x|t k] l IH]; cbn [put_leaf]; try (rewrite IH); try reflexivity.
  destruct (is_stco x) as [b|] eqn:Q; cbn [put_leaf]; [reflexivity|rewrite Q, IH; reflexivity].
Qed.
Lemma is_stco_eq (x : fleaf) s : is_stco x = Some s -> x = L_stco s.
Proof. destruct x as [y|[y|[y|[y|[y|[y|[y|y]]]]]]]; try discriminate. intros Q; injection Q as ->. reflexivity. Qed.
Lemma put_leaf_same s l : pick is_stco l = Some s -> put_leaf (T:=T) (E:=E) (X:=X) is_stco (L_stco s) l = l.
Proof.
  intros Hs. induction l as [|[t uu d|t d|x|t k'] l IH]; cbn [put_leaf pick] in *; try (rewrite IH by exact Hs); try reflexivity.
  destruct (is_stco x) as [b|] eqn:Q; [|rewrite IH by exact Hs; reflexivity]. injection Hs as ->. rewrite (is_stco_eq _ _ Q). reflexivity.
Qed.
Lemma trk_put_put l s s' : trk_put (trk_put l s) s' = trk_put (T:=T) (E:=E) (X:=X) l s'.
Proof.
  unfold trk_put. rewrite put_sub_put. apply put_sub_ext. intros k. rewrite put_sub_put. apply put_sub_ext. intros k'.
  rewrite put_sub_put. apply put_sub_ext. intros k''. apply put_leaf_put.
Qed.
Lemma sub_put_sub ty ty' g l : sub ty (put_sub ty' g l) = if ty =? ty' then option_map g (sub ty l) else sub (T:=T) (E:=E) (X:=X) ty l.
Proof.
  induction l as [|[t uu d|t d|x|t k] l IH]; cbn [put_sub sub]; try exact IH.
  - destruct (ty =? ty'); reflexivity.
  - destruct (N.eqb_spec t ty'); cbn [sub].
    + subst t. rewrite (N.eqb_sym ty ty') in *. destruct (ty' =? ty); [reflexivity|reflexivity].
    + destruct (N.eqb_spec t ty); [|exact IH]. destruct (N.eqb_spec ty ty'); [congruence|reflexivity].
Qed.
Lemma pick_put_leaf {A} (f : fleaf -> option A) s l : (forall b, f (L_stco b) = None) -> pick f (put_leaf is_stco (L_stco s) l) = pick f l.
Proof.
  intros Hf. induction l as [|[t uu d|t d|x|t k] l IH]; cbn [put_leaf pick]; try exact IH; [reflexivity|].
  destruct (is_stco x) as [b|] eqn:Q; cbn [pick]; [rewrite (is_stco_eq _ _ Q), !Hf; reflexivity|]. rewrite IH. reflexivity.
Qed.
Lemma pick_put_stco s (l : list tree) b : pick is_stco l = Some b -> pick is_stco (put_leaf is_stco (L_stco s) l) = Some s.
Proof.
  induction l as [|[t uu d|t d|x|t k] l IH]; cbn [put_leaf pick]; try discriminate; try exact IH.
  destruct (is_stco x) as [b'|] eqn:Q; cbn [pick]; [reflexivity|]. rewrite Q. exact IH.
Qed.
Lemma pick_put_sub {A} (f : fleaf -> option A) ty g l : pick f (put_sub ty g l) = pick f l.
Proof. induction l as [|[t uu d|t d|x|t k] l IH]; cbn [put_sub pick]; rewrite ?IH; try reflexivity. destruct (t =? ty); cbn [pick]; [reflexivity|exact IH]. Qed.
Lemma stco_not_saio s : (c_ty fc (L_stco s) =? T_saio) = false.
Proof. cbn. unfold stco_type. destruct (stco_large _); reflexivity. Qed.
Lemma saios_put_leaf s l : saios ct dt ce cx (put_leaf is_stco (L_stco s) l) = saios ct dt ce cx l.
Proof.
  unfold saios. induction l as [|[t uu d|t d|x|t k] l IH]; cbn [put_leaf filter]; [reflexivity|..];
    try (destruct (_ =? T_saio); rewrite ?len_cons, IH; reflexivity).
  destruct (is_stco x) as [b|] eqn:Q; cbn [filter].
  - rewrite (is_stco_eq _ _ Q). cbn [atype]. rewrite !stco_not_saio. reflexivity.
  - destruct (_ =? T_saio); rewrite ?len_cons, IH; reflexivity.
Qed.

(* the parts of a track *)
Definition parts (l : list tree) (sc : stsc) (cs : stco) (sd : stsd (T:=T) (O:=E)) (dr : dref (durl + durn)) mdia minf dinf stbl : Prop :=
  sub T_mdia l = Some mdia /\ sub T_minf mdia = Some minf /\ sub T_dinf minf = Some dinf /\ sub T_stbl minf = Some stbl /\
  pick is_dref dinf = Some dr /\ pick is_stsc stbl = Some sc /\ pick is_stco stbl = Some cs /\ pick is_stsd stbl = Some sd.
Notation trk_of := (trk_of ct dt ce edri cx).
Notation moov_trks := (moov_trks ct dt ce edri cx).
Lemma parts_trk l sc cs sd dr a b c d : parts l sc cs sd dr a b c d ->
  trk_of l = Ok (mkTrk (sc_entries sc) cs (self_of edri sd dr) (saios ct dt ce cx d)).
Proof.
  intros (A1 & A2 & A3 & A4 & A5 & A6 & A7 & A8). unfold FileModel.trk_of. rewrite A1. cbn [need bind]. rewrite A2. cbn [need bind]. rewrite A3, A4. cbn [need bind].
  rewrite A5, A6, A7, A8. reflexivity.
Qed.
Lemma trk_parts l k : trk_of l = Ok k -> exists sc cs sd dr a b c d, parts l sc cs sd dr a b c d /\
  k = mkTrk (sc_entries sc) cs (self_of edri sd dr) (saios ct dt ce cx d).
Proof.
  unfold FileModel.trk_of, parts. intros H.
  destruct (sub T_mdia l) as [a|]; [|discriminate]. cbn [need bind] in H. destruct (sub T_minf a) as [b|] eqn:E1; [|discriminate]. cbn [need bind] in H.
  destruct (sub T_dinf b) as [c|] eqn:E2; [|discriminate]. cbn [need bind] in H. destruct (sub T_stbl b) as [d|] eqn:E3; [|discriminate]. cbn [need bind] in H.
  destruct (pick is_dref c) as [dr|] eqn:E4; [|discriminate]. destruct (pick is_stsc d) as [sc|] eqn:E5; [|discriminate].
  destruct (pick is_stco d) as [cs|] eqn:E6; [|discriminate]. destruct (pick is_stsd d) as [sd|] eqn:E7; [|discriminate]. cbn [need bind] in H.
  injection H as <-. exists sc, cs, sd, dr, a, b, c, d. repeat split; auto.
Qed.
Lemma parts_put l sc cs sd dr a b c d s : parts l sc cs sd dr a b c d ->
  exists a' b' d', parts (trk_put l s) sc s sd dr a' b' c d' /\ saios ct dt ce cx d' = saios ct dt ce cx d.
Proof.
  intros (A1 & A2 & A3 & A4 & A5 & A6 & A7 & A8). unfold parts, trk_put. do 3 eexists.
  rewrite sub_put_sub, N.eqb_refl, A1. cbn [option_map].
  split; [split; [reflexivity|]|]. rewrite sub_put_sub, N.eqb_refl, A2. cbn [option_map].
  split; [reflexivity|]. rewrite !sub_put_sub. change (T_dinf =? T_stbl) with false. rewrite N.eqb_refl, A4. cbn [option_map].
  split; [exact A3|]. split; [reflexivity|]. split; [exact A5|].
  rewrite (pick_put_stco s _ _ A7). rewrite !pick_put_leaf by reflexivity. auto. apply saios_put_leaf.
Qed.
Lemma parts_same l sc cs sd dr a b c d : parts l sc cs sd dr a b c d -> trk_put l cs = l.
Proof.
  intros (A1 & A2 & A3 & A4 & A5 & A6 & A7 & A8). unfold trk_put.
  apply (put_sub_same _ _ _ _ A1), (put_sub_same _ _ _ _ A2), (put_sub_same _ _ _ _ A4), put_leaf_same, A7.
Qed.
Lemma trk_of_put l k s : trk_of l = Ok k -> trk_of (trk_put l s) = Ok (mkTrk (tk_runs k) s (tk_self k) (tk_saio k)).
Proof.
  intros H. apply trk_parts in H. destruct H as (sc & cs & sd & dr & a & b & c & d & P & ->).
  destruct (parts_put _ _ _ _ _ _ _ _ _ s P) as (a' & b' & d' & P' & Q). rewrite (parts_trk _ _ _ _ _ _ _ _ _ P'), Q. reflexivity.
Qed.
Lemma trk_put_same l k : trk_of l = Ok k -> trk_put l (tk_offs k) = l.
Proof.
  intros H. apply trk_parts in H. destruct H as (sc & cs & sd & dr & a & b & c & d & P & ->). apply (parts_same _ _ _ _ _ _ _ _ _ P).
Qed.

(* all tracks *)
Definition with_offs (k t : trk) : trk := mkTrk (tk_runs k) (tk_offs t) (tk_self k) (tk_saio k).
Fixpoint zip_offs (ks ts : list trk) : list trk :=
  match ks, ts with k :: ks, t :: ts => with_offs k t :: zip_offs ks ts | _, _ => [] end.
Lemma moov_trks_put ks : forall K ts, moov_trks ks = Ok K -> length ts = length K -> moov_trks (moov_put ks ts) = Ok (zip_offs K ts).
Proof.
  induction ks as [|[t uu d|t d|x|t l] ks IH]; intros K ts H L; cbn [FileModel.moov_trks moov_put] in *; try (apply IH; assumption).
  - injection H as <-. destruct ts; reflexivity.
  - destruct (t =? T_trak) eqn:Q.
    + destruct (trk_of l) as [k| |] eqn:Ek; try discriminate. cbn [bind] in H. destruct (moov_trks ks) as [K'| |]; try discriminate. cbn [bind] in H.
      injection H as <-. destruct ts as [|s ts]; [discriminate|]. cbn [FileModel.moov_trks]. rewrite Q, (trk_of_put _ _ _ Ek). cbn [bind].
      rewrite (IH _ ts eq_refl) by (cbn in L; lia). reflexivity.
    + cbn [FileModel.moov_trks]. rewrite Q. apply IH; assumption.
Qed.
Lemma moov_put_put ks : forall ts ts', length ts = length ts' -> moov_put (moov_put ks ts) ts' = moov_put (T:=T) (E:=E) (X:=X) ks ts'.
Proof.
  induction ks as [|[t uu d|t d|x|t l] ks IH]; intros ts ts' L; cbn [moov_put]; try (rewrite IH by exact L; reflexivity); [reflexivity|].
  destruct (t =? T_trak) eqn:Q; [|cbn [moov_put]; rewrite Q, IH by exact L; reflexivity].
  destruct ts as [|s ts], ts' as [|s' ts']; try discriminate; cbn [moov_put]; rewrite Q.
  - rewrite IH by reflexivity. reflexivity.
  - rewrite trk_put_put, IH by (cbn in L; lia). reflexivity.
Qed.
Lemma moov_put_same ks : forall K, moov_trks ks = Ok K -> moov_put ks K = ks.
Proof.
  induction ks as [|[t uu d|t d|x|t l] ks IH]; intros K H; cbn [FileModel.moov_trks moov_put] in *; try (rewrite IH by exact H; reflexivity); [reflexivity|].
  destruct (t =? T_trak) eqn:Q; [|rewrite IH by exact H; reflexivity].
  destruct (trk_of l) as [k| |] eqn:Ek; try discriminate. cbn [bind] in H. destruct (moov_trks ks) as [K'| |]; try discriminate. cbn [bind] in H.
  injection H as <-. rewrite (trk_put_same _ _ Ek), IH by reflexivity. reflexivity.
Qed.

(* metadata *)
Notation has_meta := (has_meta ct dt ce cx).
Notation trak_metas := (trak_metas ct dt ce cx).
Notation metas := (metas ct dt ce cx).
Lemma types_put_sub ty g l : map tree_type (put_sub ty g l) = map tree_type l.
Proof. induction l as [|[t uu d|t d|x|t k] l IH]; cbn [put_sub map]; rewrite ?IH; try reflexivity. destruct (t =? ty); cbn [map]; rewrite ?IH; reflexivity. Qed.
Lemma types_moov_put ks : forall ts, map tree_type (moov_put ks ts) = map tree_type ks.
Proof.
  induction ks as [|[t uu d|t d|x|t k] ks IH]; intros ts; cbn [moov_put map]; rewrite ?IH; try reflexivity.
  destruct (t =? T_trak); [destruct ts|]; cbn [map]; rewrite ?IH; reflexivity.
Qed.
Lemma has_meta_types l : has_meta l = existsb (fun t => (t =? T_meta) || (t =? T_meco)) (map tree_type l).
Proof. unfold FileModel.has_meta. induction l as [|a l IH]; [reflexivity|]. cbn [existsb map]. rewrite IH. reflexivity. Qed.
Lemma metas_put ks ts : metas (moov_put ks ts) = metas ks.
Proof.
  unfold FileModel.metas. f_equal; [rewrite !has_meta_types, types_moov_put; reflexivity|].
  revert ts. induction ks as [|[t uu d|t d|x|t k] ks IH]; intros ts; cbn [moov_put FileModel.trak_metas]; try apply IH; [reflexivity|].
  destruct (t =? T_trak) eqn:Q; [|cbn [FileModel.trak_metas]; rewrite Q; cbn [andb]; apply IH].
  destruct ts as [|s ts]; cbn [FileModel.trak_metas]; rewrite Q, IH; [reflexivity|]. f_equal. f_equal. rewrite !has_meta_types. unfold trk_put. rewrite types_put_sub. reflexivity.
Qed.

(* ------------------------------------------------------------------ *)
(* boxes of the same type and length                                   *)

Definition like (a b : tree) : Prop :=
  tree_type b = tree_type a /\ free_box _ b = free_box _ a /\ tree_ok b /\ len (tree_bytes b) = len (tree_bytes a).
Lemma like_refl a : tree_ok a -> like a a.
Proof. repeat split; auto. Qed.
Lemma like_all l : Forall tree_ok l -> Forall2 like l l.
Proof. induction 1; constructor; auto using like_refl. Qed.
Lemma like_types ks ks' : Forall2 like ks ks' -> map tree_type (filter nonfree ks') = map tree_type (filter nonfree ks).
Proof.
  induction 1 as [|a b l l' (A & B & _) _ IH]; [reflexivity|]. cbn [filter]. rewrite B. destruct (negb _); cbn [map]; rewrite ?A, IH; reflexivity.
Qed.
Lemma like_in ks ks' a : Forall2 like ks ks' -> In a ks -> exists b, In b ks' /\ like a b.
Proof.
  induction 1 as [|x y l l' P _ IH]; intros I; [destruct I|]. destruct I as [->|I]; [exists y; split; [left; reflexivity|exact P]|].
  destruct (IH I) as (b & B1 & B2). exists b. split; [right; exact B1|exact B2].
Qed.
Lemma like_in' ks ks' b : Forall2 like ks ks' -> In b ks' -> exists a, In a ks /\ like a b.
Proof.
  induction 1 as [|x y l l' P _ IH]; intros I; [destruct I|]. destruct I as [->|I]; [exists x; split; [left; reflexivity|exact P]|].
  destruct (IH I) as (a & B1 & B2). exists a. split; [right; exact B1|exact B2].
Qed.
Lemma like_bytes ks ks' : Forall2 like ks ks' -> len (flat_map tree_bytes ks') = len (flat_map tree_bytes ks).
Proof. induction 1 as [|a b l l' (_ & _ & _ & A) _ IH]; [reflexivity|]. cbn [flat_map]. rewrite !len_app. lia. Qed.
Lemma like_boxes ty ks ks' : tree_ok (ABoxes _ ty ks) -> Forall2 like ks ks' -> like (ABoxes _ ty ks) (ABoxes _ ty ks').
Proof.
  intros H L. unfold FileSpec.tree_ok, kid_ok in H. cbn [wf] in H. destruct H as (H1 & _ & H3 & H4).
  split; [reflexivity|]. split; [reflexivity|]. split.
  - unfold FileSpec.tree_ok, kid_ok. cbn [wf]. split; [exact H1|]. split; [|split].
    + clear H3 H4. induction L as [|a b l l' (_ & _ & A & _) _ IH]; [exact I|]. split; [exact A|exact IH].
    + fold tree_type in *. rewrite (like_types _ _ L). exact H3.
    + intros Z. destruct (H4 Z) as [H5 H6]. split.
      * apply Forall_forall. intros b Ib. destruct (like_in' _ _ _ L Ib) as (a & Ia & (A & _)). rewrite Forall_forall in H5. specialize (H5 a Ia).
        fold tree_type in *. rewrite A. exact H5.
      * eapply Forall_impl; [|exact H6]. intros g (k & Ik & Ok_). destruct (like_in _ _ _ L Ik) as (b & Ib & (A & _)). exists b. split; [exact Ib|].
        fold tree_type in *. rewrite A. exact Ok_.
  - unfold FileSpec.tree_bytes, kid_enc. cbn [enc]. rewrite !len_box. f_equal. apply (like_bytes _ _ L).
Qed.
Lemma put_leaf_like l s s' : Forall tree_ok l -> pick is_stco l = Some s -> like (ALeaf _ (L_stco s)) (ALeaf _ (L_stco s')) ->
  Forall2 like l (put_leaf is_stco (L_stco s') l).
Proof.
  intros H Hs L. induction H as [|a l Ha H IH]; [constructor|].
  destruct a as [t uu d|t d|x|t k]; cbn [put_leaf pick] in *; try (constructor; [apply like_refl, Ha|auto]).
  destruct (is_stco x) as [b|] eqn:Q; constructor; try (apply like_refl; assumption); auto using like_all.
  injection Hs as ->. rewrite (is_stco_eq _ _ Q). exact L.
Qed.
Lemma put_sub_like ty g l k : Forall tree_ok l -> sub ty l = Some k -> (tree_ok (ABoxes _ ty k) -> Forall2 like k (g k)) ->
  Forall2 like l (put_sub ty g l).
Proof.
  intros H Hs Hg. induction H as [|a l Ha H IH]; [constructor|].
  destruct a as [t uu d|t d|x|t k']; cbn [put_sub sub] in *; try (constructor; [apply like_refl, Ha|auto]).
  destruct (N.eqb_spec t ty) as [->|]; constructor; try (apply like_refl; assumption); auto using like_all.
  injection Hs as ->. apply like_boxes; auto.
Qed.
Lemma trk_put_like l k s : Forall tree_ok l -> trk_of l = Ok k -> like (ALeaf _ (L_stco (tk_offs k))) (ALeaf _ (L_stco s)) ->
  Forall2 like l (trk_put l s).
Proof.
  intros H Hk L. apply trk_parts in Hk. destruct Hk as (sc & cs & sd & dr & a & b & c & d & (A1 & A2 & A3 & A4 & A5 & A6 & A7 & A8) & ->). cbn [tk_offs] in L.
  apply (put_sub_like _ _ _ _ H A1). intros Ha. apply boxes_facts in Ha. destruct Ha as [Ha _].
  apply (put_sub_like _ _ _ _ Ha A2). intros Hb. apply boxes_facts in Hb. destruct Hb as [Hb _].
  apply (put_sub_like _ _ _ _ Hb A4). intros Hd. apply boxes_facts in Hd. destruct Hd as [Hd _].
  apply (put_leaf_like _ _ _ Hd A7 L).
Qed.
Lemma moov_put_like ks : forall K ts, Forall tree_ok ks -> moov_trks ks = Ok K ->
  Forall2 (fun k t => like (ALeaf _ (L_stco (tk_offs k))) (ALeaf _ (L_stco (tk_offs t)))) K ts -> Forall2 like ks (moov_put ks ts).
Proof.
  intros K ts H. revert K ts. induction H as [|a ks Ha H IH]; intros K ts Hk L; [constructor|].
  destruct a as [t uu d|t d|x|t l]; cbn [FileModel.moov_trks moov_put] in *; try (constructor; [apply like_refl, Ha|eapply IH; eassumption]).
  destruct (t =? T_trak) eqn:Q; [|constructor; [apply like_refl, Ha|eapply IH; eassumption]].
  destruct (trk_of l) as [k| |] eqn:Ek; try discriminate. cbn [bind] in Hk. destruct (moov_trks ks) as [K'| |]; try discriminate. cbn [bind] in Hk.
  injection Hk as <-. inversion L as [|? s ? ts' L1 L2]; subst. constructor; [|eapply IH; eauto].
  apply like_boxes; [exact Ha|]. apply boxes_facts in Ha. apply (trk_put_like _ _ _ (proj1 Ha) Ek L1).
Qed.

(* ------------------------------------------------------------------ *)
(* where the samples are                                               *)

Notation here := (here (T:=T) edri).
Lemma land_odd f : (N.land f 1 =? 1) = N.odd f.
Proof. destruct f as [|[p|p|]]; reflexivity. Qed.
Lemma get_nth {A} (l : list A) k :
  (if (k =? 0) || (len l <? k) then Err MP4BadParamErr else match nth_error l (N.to_nat (k - 1)) with Some e => Ok e | None => UB end) =
  if k =? 0 then Err MP4BadParamErr else match nthN l (k - 1) with Some e => Ok e | None => Err MP4BadParamErr end.
Proof.
  destruct (k =? 0) eqn:Q; [reflexivity|]. cbn [orb]. unfold nthN. destruct (N.ltb_spec (len l) k).
  - replace (nth_error l (N.to_nat (k - 1))) with (@None A); [reflexivity|]. symmetry. apply nth_error_None. unfold len in *. lia.
  - destruct (nth_error l (N.to_nat (k - 1))) eqn:Z; [reflexivity|]. apply nth_error_None in Z. unfold len in *. apply N.eqb_neq in Q. lia.
Qed.
Lemma self_here sd dr d : match self_of edri sd dr d with Ok b => Some b | _ => None end = here sd dr d.
Proof.
  unfold self_of, FileSpec.here, stsd_get, dref_get. rewrite get_nth. destruct (d =? 0); [reflexivity|].
  destruct (nthN (sd_ents sd) (d - 1)) as [e|]; [|reflexivity]. cbn [bind].
  replace (ent_dri edri e <? 1) with (ent_dri edri e =? 0) by (destruct (N.eqb_spec (ent_dri edri e) 0), (N.ltb_spec (ent_dri edri e) 1); lia).
  rewrite get_nth. destruct (ent_dri edri e =? 0); [reflexivity|].
  destruct (nthN (dr_kids dr) (ent_dri edri e - 1)) as [[t uu x|t x|[u|u]|t k]|]; cbn [bind entry_self]; rewrite ?land_odd; reflexivity.
Qed.
Lemma nthN_map {A B} (f : A -> B) l k : nthN (map f l) k = option_map f (nthN l k).
Proof. apply nth_error_map. Qed.
Lemma nthN_in {A} (l : list A) k a : nthN l k = Some a -> In a l.
Proof. apply nth_error_In. Qed.
Lemma dri_view e : entry_ok ct yt ce ye e -> ent_dri edri (entry_view ct yt ye e) = ent_dri edri e.
Proof.
  intros (_ & _ & H). destruct e as [ty r d b l|ty r d l|ty f l|ty f l|x]; cbn [entry_view ent_dri raw]; try reflexivity.
  - destruct (is_mpeg ty); reflexivity.
  - destruct (is_visual ty); reflexivity.
  - destruct (is_audio ty); reflexivity.
  - apply VE, H.
Qed.
Lemma here_view sd dr d : l_ok (stsd_layout ct yt ce ye) sd -> l_ok (dref_layout entry_codec (lsum url_layout no_urn)) dr ->
  here (l_view (stsd_layout ct yt ce ye) sd) (l_view (dref_layout entry_codec (lsum url_layout no_urn)) dr) d = here sd dr d.
Proof.
  intros [_ H1] [_ H2]. unfold FileSpec.here. cbn [stsd_layout dref_layout l_view sd_ents dr_kids]. destruct (d =? 0); [reflexivity|].
  rewrite nthN_map. destruct (nthN (sd_ents sd) (d - 1)) as [e|] eqn:Q; [|reflexivity]. cbn [option_map].
  apply nthN_in in Q. rewrite Forall_forall in H1. rewrite (dri_view e (H1 e Q)). destruct (ent_dri edri e =? 0); [reflexivity|].
  rewrite nthN_map. destruct (nthN (dr_kids dr) (ent_dri edri e - 1)) as [a|] eqn:Q2; [|reflexivity]. cbn [option_map].
  destruct a as [t uu x|t x|[u|u]|t k]; reflexivity.
Qed.
Lemma set_run_desc es f s d g t x : In (g, t, x) (set_run es f s d) -> x = d \/ exists g' t', In (g', t', x) es.
Proof.
  induction es as [|[[f0 s0] d0] es IH]; intros H.
  - destruct H as [H|[]]. injection H as <- <- <-. auto.
  - destruct es as [|e es].
    + cbn [set_run] in H. destruct (_ && _).
      * destruct H as [H|[]]. right. exists g, t. left. exact H.
      * destruct H as [H|[H|[]]]; [right; exists g, t; left; exact H|injection H as <- <- <-; auto].
    + change (set_run ((f0, s0, d0) :: e :: es) f s d) with ((f0, s0, d0) :: set_run (e :: es) f s d) in H.
      destruct H as [H|H]; [right; exists g, t; left; exact H|]. destruct (IH H) as [->|(g' & t' & I)]; [auto|]. right. exists g', t'. right. exact I.
Qed.
Lemma set_runs_desc es g t x : In (g, t, x) (set_runs es) -> exists g' t', In (g', t', x) es.
Proof.
  revert g t. induction es as [|[[f s] d] es IH] using rev_ind; intros g t H; [destruct H|]. rewrite set_runs_snoc in H.
  apply set_run_desc in H. destruct H as [->|(g' & t' & I)].
  - exists f, s. apply in_or_app. right. left. reflexivity.
  - destruct (IH _ _ I) as (g2 & t2 & I2). exists g2, t2. apply in_or_app. left. exact I2.
Qed.

(* a track of the movie, and the same track once it was read *)
Lemma has_parts l sc cs sd dr : tree_ok (ABoxes _ T_trak l) -> trak_has l sc cs sd dr ->
  exists a b c d, parts l sc cs sd dr a b c d /\ saios ct dt ce cx d = 0 /\
    l_ok stsc_layout sc /\ l_ok stco_layout cs /\ l_ok (stsd_layout ct yt ce ye) sd /\ l_ok (dref_layout entry_codec (lsum url_layout no_urn)) dr.
Proof.
  intros H (a & b & c & d & I1 & I2 & I3 & I4 & I5 & I6 & I7 & I8).
  destruct (boxes_facts _ _ H) as (K1 & S1 & _). rewrite Forall_forall in K1.
  destruct (boxes_facts _ _ (K1 _ I1)) as (K2 & S2 & _). rewrite Forall_forall in K2.
  destruct (boxes_facts _ _ (K2 _ I2)) as (K3 & S3 & _). rewrite Forall_forall in K3.
  destruct (boxes_facts _ _ (K3 _ I3)) as (K4 & S4 & _). rewrite Forall_forall in K4.
  destruct (boxes_facts _ _ (K3 _ I4)) as (K5 & S5 & N5). specialize (N5 eq_refl).
  exists a, b, c, d. split; [|split].
  - split; [exact (sub_in T_trak T_mdia _ _ _ eq_refl S1 I1)|]. split; [exact (sub_in T_mdia T_minf _ _ _ eq_refl S2 I2)|].
    split; [exact (sub_in T_minf T_dinf _ _ _ eq_refl S3 I3)|]. split; [exact (sub_in T_minf T_stbl _ _ _ eq_refl S3 I4)|].
    split; [exact (pick_in is_dref T_dinf _ (L_dref dr) dr _ dref_slot eq_refl S4 I5)|].
    split; [exact (pick_in is_stsc T_stbl _ (L_stsc sc) sc _ stsc_slot eq_refl S5 I6)|].
    split; [exact (pick_in is_stco T_stbl _ (L_stco cs) cs _ stco_slot eq_refl S5 I7)|].
    exact (pick_in is_stsd T_stbl _ (L_stsd sd) sd _ stsd_slot eq_refl S5 I8).
  - unfold saios. rewrite (filter_none _ d); [reflexivity|]. eapply Forall_impl; [|exact N5]. intros k [_ Q]. apply N.eqb_neq. exact Q.
  - rewrite Forall_forall in K5. split; [exact (K5 _ I6)|]. split; [exact (K5 _ I7)|]. split; [exact (K5 _ I8)|exact (K4 _ I5)].
Qed.
Lemma trak_facts data l : tree_ok (ABoxes _ T_trak l) -> trak_ok edri data l ->
  exists k k', trk_of l = Ok k /\ trk_fine k /\ trk_within 0 data k /\ l_ok stco_layout (tk_offs k) /\
    trk_of (kv l) = Ok k' /\ trk_fine k' /\ trk_chunks k' = trk_chunks k /\ tk_offs k' = tk_offs k /\ (forall d, trk_own k' d = trk_own k d).
Proof.
  intros H (sc & cs & sd & dr & P & Ht & Hd & Hi).
  destruct (has_parts _ _ _ _ _ H P) as (a & b & c & d & Q & S & O1 & O2 & O3 & O4).
  assert (Q' : parts (kv l) (l_view stsc_layout sc) cs (l_view (stsd_layout ct yt ce ye) sd) (l_view (dref_layout entry_codec (lsum url_layout no_urn)) dr) (kv a) (kv b) (kv c) (kv d)).
  { destruct Q as (A1 & A2 & A3 & A4 & A5 & A6 & A7 & A8). unfold parts. rewrite !sub_view, A1, A2, A3, A4. do 4 (split; [reflexivity|]).
    rewrite (pick_view is_dref (l_view (dref_layout entry_codec (lsum url_layout no_urn)))), A5 by (intros x; destruct x as [y|[y|[y|[y|[y|[y|[y|[y|[y|[y|y]]]]]]]]]]; reflexivity).
    rewrite (pick_view is_stsc (l_view stsc_layout)), A6 by (intros x; destruct x as [y|[y|[y|[y|[y|[y|y]]]]]]; reflexivity).
    rewrite (pick_view is_stco (fun x => x)), A7 by (intros x; destruct x as [y|[y|[y|[y|[y|[y|[y|y]]]]]]]; reflexivity).
    rewrite (pick_view is_stsd (l_view (stsd_layout ct yt ce ye))), A8 by (intros x; destruct x as [y|[y|[y|[y|[y|[y|[y|[y|[y|y]]]]]]]]]; reflexivity).
    repeat split. }
  assert (S' : saios ct dt ce cx (kv d) = 0).
  { unfold saios. rewrite (filter_none _ (kv d)); [reflexivity|]. destruct Q as (A1 & A2 & A3 & A4 & _).
    apply sub_some in A1. apply sub_some in A2. apply sub_some in A4.
    destruct (boxes_facts _ _ H) as (K1 & _). rewrite Forall_forall in K1. destruct (boxes_facts _ _ (K1 _ A1)) as (K2 & _). rewrite Forall_forall in K2.
    destruct (boxes_facts _ _ (K2 _ A2)) as (K3 & _). rewrite Forall_forall in K3. destruct (boxes_facts _ _ (K3 _ A4)) as (K4 & _ & N4). specialize (N4 eq_refl).
    apply Forall_forall. intros x Ix. unfold kid_view in Ix. apply filter_In in Ix. destruct Ix as [Ix _]. apply in_map_iff in Ix. destruct Ix as (y & <- & Iy).
    rewrite Forall_forall in K4, N4. destruct (faithful_codec _ _ ffaithful) as [_ K _ _].
    destruct (atype_facts _ _ (fun _ => L_stco stco_new) _ _ _ K y (K4 y Iy)) as (_ & _ & ->). apply N.eqb_neq, (N4 y Iy). }
  assert (OW : forall x k, (exists sd dr, tk_self k = self_of edri sd dr /\ here sd dr x <> None) -> tk_self k x = Ok (trk_own k x)).
  { intros x k (sd' & dr' & Ek & Hx). unfold trk_own. rewrite Ek. rewrite <- self_here in Hx. destruct (self_of edri sd' dr' x); congruence. }
  assert (own1 : forall sd' dr' rs cs' n x, trk_own (mkTrk rs cs' (self_of edri sd' dr') n) x = true <-> here sd' dr' x = Some true).
  { intros. unfold trk_own. cbn [tk_self]. rewrite <- self_here. destruct (self_of edri sd' dr' x) as [[|]| |]; split; congruence. }
  exists (mkTrk (sc_entries sc) cs (self_of edri sd dr) 0), (mkTrk (sc_entries (l_view stsc_layout sc)) cs
    (self_of edri (l_view (stsd_layout ct yt ce ye) sd) (l_view (dref_layout entry_codec (lsum url_layout no_urn)) dr)) 0).
  rewrite (parts_trk _ _ _ _ _ _ _ _ _ Q), (parts_trk _ _ _ _ _ _ _ _ _ Q'), S, S'.
  destruct (C13_same_chunks sc _ Ht) as [Ht' Hc].
  split; [reflexivity|]. split; [|split; [|split; [exact O2|split; [reflexivity|split; [|split; [exact Hc|split; [reflexivity|]]]]]]].
  - split; [exact Ht|]. split; [|reflexivity]. intros g s x Ix. specialize (Hd g s x Ix). split.
    + intros ->. apply Hd. reflexivity.
    + apply OW. exists sd, dr. auto.
  - unfold trk_within, trk_inside, own_inside. eapply Forall_impl; [|exact Hi]. intros p A B. cbn [tk_offs]. apply own1 in B. specialize (A B). lia.
  - split; [exact Ht'|]. split; [|reflexivity]. intros g s x Ix. cbn [tk_runs] in Ix. apply set_runs_desc in Ix. destruct Ix as (g' & s' & Ix). specialize (Hd g' s' x Ix). split.
    + intros ->. apply Hd. reflexivity.
    + apply OW. do 2 eexists. split; [reflexivity|]. rewrite here_view by assumption. exact Hd.
  - intros x. unfold trk_own. cbn [tk_self]. pose proof (self_here sd dr x) as A. rewrite <- (here_view sd dr x O3 O4), <- self_here in A.
    destruct (self_of edri sd dr x), (self_of edri (l_view _ sd) (l_view _ dr) x); congruence.
Qed.

(* ------------------------------------------------------------------ *)
(* all tracks, moved                                                   *)

Definition same_place (k k' : trk) : Prop :=
  trk_fine k' /\ trk_chunks k' = trk_chunks k /\ tk_offs k' = tk_offs k /\ (forall d, trk_own k' d = trk_own k d).
Lemma movie_trks data ks : Forall tree_ok ks -> (forall l, In (ABoxes _ T_trak l) ks -> trak_ok edri data l) ->
  exists K K', moov_trks ks = Ok K /\ moov_trks (kv ks) = Ok K' /\ Forall trk_fine K /\ Forall (trk_within 0 data) K /\
    Forall (fun k => l_ok stco_layout (tk_offs k)) K /\ Forall2 same_place K K'.
Proof.
  induction 1 as [|a ks Ha H IH]; intros Ht; [exists [], []; repeat split; constructor|].
  destruct IH as (K & K' & A1 & A2 & A3 & A4 & A5 & A6); [intros l Il; apply Ht; right; exact Il|].
  rewrite kv_cons. destruct a as [t uu d|t d|x|t l]; try (exists K, K'; repeat split; assumption).
  rewrite view_boxes. cbn [free_box app FileModel.moov_trks]. destruct (N.eqb_spec t T_trak) as [->|]; [|exists K, K'; repeat split; assumption].
  destruct (trak_facts data l Ha (Ht l (or_introl eq_refl))) as (k & k' & B1 & B2 & B3 & B4 & B5 & B6).
  exists (k :: K), (k' :: K'). rewrite B1, B5, A1, A2. cbn [bind]. split; [reflexivity|]. split; [reflexivity|].
  split; [constructor; assumption|]. split; [constructor; assumption|]. split; constructor; assumption.
Qed.

Lemma shift_own_rel (own : N -> bool) (ch : list chunk) : forall l (P : N -> N -> Prop) (d : Z), length ch = length l ->
  (forall c x, In (c, x) (combine ch l) -> P x (if own (snd c) then Z.to_N (Z.of_N x + d) else x)) -> Forall2 P l (shift_own own d ch l).
Proof.
  unfold shift_own. induction ch as [|c ch IH]; intros [|x l] P d L H; try discriminate; [constructor|]. cbn [combine map].
  constructor; [apply (H c x); left; reflexivity|]. apply IH; [cbn in L; lia|]. intros c' x' I. apply H. right. exact I.
Qed.
Lemma shift_own_ext own own' d ch l : (forall x, own x = own' x) -> shift_own own d ch l = shift_own own' d ch l.
Proof. intros H. unfold shift_own. apply map_ext. intros p. rewrite H. reflexivity. Qed.
Lemma Forall2_same_len {A B} (P : A -> B -> Prop) l l' : Forall2 P l l' -> len l' = len l.
Proof. induction 1; [reflexivity|rewrite !len_cons; lia]. Qed.
Lemma shift_like data u k : trk_fine k -> trk_within 0 data k -> l_ok stco_layout (tk_offs k) -> data + u <= 4294967296 ->
  like (ALeaf _ (L_stco (tk_offs k))) (ALeaf _ (L_stco (tk_offs (trk_shifted (Z.of_N u) k)))).
Proof.
  intros Hf Hw Hl Hu. pose proof (trk_len _ _ Hf) as L. destruct k as [rs [v f l] self n]. unfold trk_shifted, trk_shift, trk_within, trk_inside, own_inside in *.
  cbn [tk_offs co_ver co_flags co_list] in *. set (k := mkTrk rs (mkStco v f l) self n) in *. destruct Hl as [Hv Hl]. cbn [co_ver co_flags co_list] in *.
  assert (R : Forall2 (fun x x' => x' < 18446744073709551616 /\ (4294967296 <=? x') = (4294967296 <=? x)) l (shift_own (trk_own k) (Z.of_N u) (trk_chunks k) l)).
  { apply shift_own_rel; [exact L|]. intros c x I. rewrite Forall_forall in Hl. pose proof (Hl x (in_combine_r _ _ _ _ I)) as Hx.
    destruct (trk_own k (snd c)) eqn:O; [|auto]. rewrite Forall_forall in Hw. specialize (Hw _ I O). cbn [fst snd] in Hw.
    split; [lia|]. destruct (N.leb_spec 4294967296 x), (N.leb_spec 4294967296 (Z.to_N (Z.of_N x + Z.of_N u))); lia. }
  set (l' := shift_own _ _ _ _) in *. clearbody l'. clear Hw L Hf. clear k.
  assert (Q1 : Forall (fun x => x < 18446744073709551616) l') by (clear - R; induction R as [|x x' ? ? [A _]]; constructor; auto).
  assert (Q2 : existsb (fun x => 4294967296 <=? x) l' = existsb (fun x => 4294967296 <=? x) l) by (clear - R; induction R as [|x x' ? ? [_ A] _ IH]; [reflexivity|cbn [existsb]; rewrite A, IH; reflexivity]).
  pose proof (Forall2_same_len _ _ _ R) as Q3.
  assert (Q4 : stco_large l' = stco_large l) by (rewrite !large_exists; exact Q2).
  split; [|split; [reflexivity|split]].
  - cbn. unfold stco_type. cbn [co_list]. rewrite Q4. reflexivity.
  - split; [exact Hv|exact Q1].
  - unfold FileSpec.tree_bytes, kid_enc. cbn [enc]. rewrite !len_box. f_equal. cbn [flayout lsum L_stco l_body stco_layout co_ver co_flags co_list].
    rewrite Q2. destruct (existsb _ l); rewrite !len_app, Q3; f_equal; f_equal.
    + rewrite !(len_flat_map_const be64 8) by reflexivity. lia.
    + rewrite !(len_flat_map_const be32 4) by reflexivity. lia.
Qed.
Lemma shift_none u k : trk_fine k -> trk_within 0 0 k -> tk_offs (trk_shifted u k) = tk_offs k.
Proof.
  intros Hf Hw. pose proof (trk_len _ _ Hf) as L. destruct k as [rs [v f l] self n]. unfold trk_shifted, trk_shift, trk_within, trk_inside, own_inside in *.
  cbn [tk_offs co_ver co_flags co_list] in *. set (k := mkTrk rs (mkStco v f l) self n) in *. f_equal.
  enough (R : Forall2 (fun x x' => x' = x) l (shift_own (trk_own k) u (trk_chunks k) l)) by (clear - R; induction R; congruence).
  apply shift_own_rel; [exact L|]. intros c x I. destruct (trk_own k (snd c)) eqn:O; [|reflexivity].
  rewrite Forall_forall in Hw. specialize (Hw _ I O). cbn [fst snd] in Hw. lia.
Qed.
Lemma zip_shift u K K' : Forall2 same_place K K' -> zip_offs K' (map (trk_shifted u) K) = map (trk_shifted u) K'.
Proof.
  induction 1 as [|k k' K K' (A & B & C & D) _ IH]; [reflexivity|]. cbn [map zip_offs]. rewrite IH. f_equal.
  unfold with_offs, trk_shifted, trk_shift. cbn [tk_offs]. rewrite B, C. f_equal. f_equal. apply shift_own_ext. auto.
Qed.
Lemma place_within lo hi K K' : Forall2 same_place K K' -> Forall (trk_within lo hi) K -> Forall (trk_within lo hi) K'.
Proof.
  induction 1 as [|k k' K K' (A & B & C & D) _ IH]; intros H; [constructor|]. inversion_clear H. constructor; [|auto].
  unfold trk_within, trk_inside, own_inside in *. rewrite B, C. eapply Forall_impl; [|eassumption]. cbn. intros p P Q. rewrite D in Q. auto.
Qed.
Lemma place_fine K K' : Forall2 same_place K K' -> Forall trk_fine K' /\ length K' = length K.
Proof. induction 1 as [|k k' K K' (A & _) _ [IH1 IH2]]; [split; [constructor|reflexivity]|]. split; [constructor; assumption|cbn; lia]. Qed.
Lemma moov_put_offs ks : forall ts ts', map tk_offs ts = map tk_offs ts' -> moov_put ks ts = moov_put (T:=T) (E:=E) (X:=X) ks ts'.
Proof.
  induction ks as [|[t uu d|t d|x|t l] ks IH]; intros ts ts' L; cbn [moov_put]; try (rewrite (IH _ _ L); reflexivity); [reflexivity|].
  destruct (t =? T_trak); [|rewrite (IH _ _ L); reflexivity]. destruct ts as [|s ts], ts' as [|s' ts']; try discriminate; [reflexivity|].
  cbn [map] in L. injection L as L1 L2. rewrite L1, (IH _ _ L2). reflexivity.
Qed.

(* ------------------------------------------------------------------ *)
(* sizes, writing, reading                                             *)

Notation fsize := (fsize ct dt ce cx).
Notation fwrite := (fwrite ct dt ce cx).
Notation fwrites := (fwrites ct dt ce cx).
Lemma tree_facts a rest : tree_ok a -> len (tree_bytes a) < 4294967296 ->
  fsize a = len (tree_bytes a) /\ fwrite a = Ok (tree_bytes a) /\
  snd (parse_top fleaf (c_leaf fc) (c_ty fc) fdflt (tree_bytes a ++ rest)) = Ok ((tree_view a, len (tree_bytes a)), rest).
Proof. intros H Hl. apply (C06_tree_round_trip _ _ _ _ _ fdflt _ _ _ _ (faithful_codec _ _ ffaithful) a rest H Hl). Qed.
Lemma fold_sizes l : forall n, Forall tree_ok l -> n + len (flat_map tree_bytes l) < 4294967296 ->
  fold_left (fun a k => w32 (a + fsize k)) l n = n + len (flat_map tree_bytes l).
Proof.
  intros n H. revert n. induction H as [|a l Ha H IH]; intros n Hl; cbn [flat_map fold_left] in *; [lens; lia|]. rewrite len_app in *.
  destruct (tree_facts a [] Ha ltac:(lia)) as (-> & _). rewrite w32_small by lia. rewrite IH by lia. lia.
Qed.
Lemma fwrites_ok l : Forall tree_ok l -> len (flat_map tree_bytes l) < 4294967296 -> fwrites l = Ok (flat_map tree_bytes l).
Proof.
  induction 1 as [|a l Ha H IH]; intros Hl; cbn [flat_map FileModel.fwrites] in *; [reflexivity|]. rewrite len_app in *.
  destruct (tree_facts a [] Ha ltac:(lia)) as (_ & -> & _). cbn [bind]. rewrite IH by lia. reflexivity.
Qed.
Lemma tree_box a : tree_ok a -> exists body, tree_bytes a = box (tree_type a) body.
Proof. intros H. destruct a as [t uu d|t d|x|t k]; unfold FileSpec.tree_bytes, kid_enc; cbn [enc]; eexists; reflexivity. Qed.

Notation take_box := (take_box ct dt ce cx).
Notation top := (top ct dt ce cx).
Fixpoint tops (pos : N) (l : list tree) (s : file * list (N * mdat)) : res (file * list (N * mdat)) :=
  match l with
  | [] => Ok s
  | a :: r => do s' <- take_box (pos + 8) (tree_view a) s; tops (pos + len (tree_bytes a)) r s'
  end.
Lemma top_list l : forall fuel pos s, l <> [] -> Forall (fun a => tree_ok a /\ tree_type a <> T_uuid) l -> len (flat_map tree_bytes l) < 4294967296 ->
  (length (flat_map tree_bytes l) < fuel)%nat -> top fuel pos (flat_map tree_bytes l) s = tops pos l s.
Proof.
  induction l as [|a l IH]; intros fuel pos s Hn H Hl Hf; [congruence|]. inversion_clear H as [|? ? [Ha Hu] H']. clear Hn.
  destruct fuel as [|fuel]; [lia|]. cbn [flat_map FileModel.top tops] in *. rewrite len_app in Hl.
  destruct (tree_facts a (flat_map tree_bytes l) Ha ltac:(lia)) as (_ & _ & ->).
  assert (Hh : exists r, parse_hdr (mkR (tree_bytes a ++ flat_map tree_bytes l) 0) = Ok (mkH (len (tree_bytes a)) 0 (tree_type a) [] 8, r)).
  { destruct (tree_box a Ha) as [body Q]. rewrite Q in *. rewrite len_box in *. eexists. apply parse_hdr_box; [|exact Hu|lia].
    destruct (faithful_codec _ _ ffaithful) as [_ K _ _]. apply (atype_facts _ _ (fun _ => L_stco stco_new) _ _ _ K a Ha). }
  destruct Hh as [r ->]. cbn [bind fst h_read].
  destruct (take_box (pos + 8) (tree_view a) s) as [s'| |]; cbn [bind]; try reflexivity.
  pose proof (kid_pos fc fl a) as P. fold tree_bytes in P.
  destruct l as [|b l]; [reflexivity|].
  destruct (N.eqb_spec (len (flat_map tree_bytes (b :: l))) 0) as [Z|_].
  { exfalso. cbn [flat_map] in Z. rewrite len_app in Z. pose proof (kid_pos fc fl b) as P'. fold tree_bytes in P'. lia. }
  rewrite len_app. replace (len (tree_bytes a) + len (flat_map tree_bytes (b :: l)) - len (flat_map tree_bytes (b :: l))) with (len (tree_bytes a)) by lia.
  apply IH; try assumption; [discriminate|lia|]. rewrite app_length in Hf. unfold len in P. lia.
Qed.

(* ------------------------------------------------------------------ *)
(* the movie box, moved                                                *)

Lemma parts_has l sc cs sd dr a b c d : parts l sc cs sd dr a b c d -> trak_has l sc cs sd dr.
Proof.
  intros (A1 & A2 & A3 & A4 & A5 & A6 & A7 & A8). exists a, b, c, d.
  apply sub_some in A1. apply sub_some in A2. apply sub_some in A3. apply sub_some in A4.
  apply pick_some in A5. destruct A5 as (x5 & A5 & B5). apply pick_some in A6. destruct A6 as (x6 & A6 & B6).
  apply pick_some in A7. destruct A7 as (x7 & A7 & B7). apply pick_some in A8. destruct A8 as (x8 & A8 & B8).
  assert (x5 = L_dref dr) as -> by (destruct x5 as [y|[y|[y|[y|[y|[y|[y|[y|[y|[y|y]]]]]]]]]]; try discriminate B5; injection B5 as ->; reflexivity).
  assert (x6 = L_stsc sc) as -> by (destruct x6 as [y|[y|[y|[y|[y|[y|y]]]]]]; try discriminate B6; injection B6 as ->; reflexivity).
  assert (x8 = L_stsd sd) as -> by (destruct x8 as [y|[y|[y|[y|[y|[y|[y|[y|[y|y]]]]]]]]]; try discriminate B8; injection B8 as ->; reflexivity).
  apply is_stco_eq in B7. subst x7. do 7 (split; [assumption|]). assumption.
Qed.
Lemma moov_found before d file ks K : Forall tree_ok ks -> (forall l, In (ABoxes _ T_trak l) ks -> trak_ok edri (len (md_data d)) l) ->
  len (md_data d) < 4294967288 -> len before + 16 < 2147483648 -> mdat_file d = Ok file -> moov_trks ks = Ok K ->
  Forall2 (box_found edri (before ++ file) (md_data d)) ks (moov_put ks (map (trk_shifted (Z.of_N (len before + 8))) K)).
Proof.
  intros H Ht Hd Hb Hm. revert K. induction H as [|a ks Ha H IH]; intros K Hk; [constructor|].
  assert (Ht' : forall l, In (ABoxes fleaf T_trak l) ks -> trak_ok edri (len (md_data d)) l) by (intros l I; apply Ht; right; exact I).
  destruct a as [t uu x|t x|x|t l]; cbn [FileModel.moov_trks moov_put] in *;
    try (constructor; [right; split; [intros l'; discriminate|reflexivity]|apply IH; assumption]).
  destruct (N.eqb_spec t T_trak) as [->|Q]; [|constructor; [right; split; [intros l' Z; apply Q; injection Z as -> _; reflexivity|reflexivity]|apply IH; assumption]].
  destruct (Ht l (or_introl eq_refl)) as (sc & cs & sd & dr & P & Ht0 & Hd0 & Hi).
  destruct (has_parts _ _ _ _ _ Ha P) as (a & b & c & e & P' & S & _).
  assert (Ek := parts_trk _ _ _ _ _ _ _ _ _ P'). rewrite Ek in Hk. cbn [bind] in Hk. rewrite S in Hk, Ek.
  destruct (moov_trks ks) as [K'| |]; try discriminate. cbn [bind] in Hk. injection Hk as <-. cbn [map].
  constructor; [|apply IH; auto]. left. do 2 eexists. split; [reflexivity|]. split; [reflexivity|].
  set (k := mkTrk (sc_entries sc) cs (self_of edri sd dr) 0) in *.
  destruct (parts_put _ _ _ _ _ _ _ _ _ (tk_offs (trk_shifted (Z.of_N (len before + 8)) k)) P') as (a' & b' & d' & P2 & _).
  exists sc, cs, (tk_offs (trk_shifted (Z.of_N (len before + 8)) k)), sd, dr. split; [exact P|]. split; [apply (parts_has _ _ _ _ _ _ _ _ _ P2)|].
  split; [reflexivity|]. split; [reflexivity|]. cbn [trk_shifted trk_shift tk_offs co_list k].
  assert (L : length (chunks_of (sc_entries sc) (len (co_list cs) + 1)) = length (co_list cs)).
  { assert (F : trk_fine k).
    { split; [exact Ht0|]. split; [|reflexivity]. intros g s x Ix. specialize (Hd0 g s x Ix). split; [intros ->; apply Hd0; reflexivity|].
      unfold trk_own. cbn [tk_self k]. rewrite <- self_here in Hd0. destruct (self_of edri sd dr x); congruence. }
    exact (trk_len _ _ F). }
  change (trk_chunks k) with (chunks_of (sc_entries sc) (len (co_list cs) + 1)).
  set (ch := chunks_of _ _) in *. clearbody ch. set (os := co_list cs) in *. clearbody os. unfold shift_own.
  induction (combine ch os) as [|[[s x] o] ps IHp]; [constructor|]. inversion_clear Hi as [|? ? Hi1 Hi2]. cbn [map fst snd]. constructor; [|exact (IHp Hi2)].
  cbn [fst snd] in *. unfold trk_own. cbn [tk_self k]. rewrite <- self_here in *. unfold chunk_found. destruct (self_of edri sd dr x) as [[|]| |]; try reflexivity.
  specialize (Hi1 eq_refl). intros n Hn.
  pose proof (C15_offsets_point_to_data before d file o n ltac:(lia) Hb Hm Hn) as R.
  unfold move_up, large in R. rewrite StreamProofs.shiftr32 in R. destruct (N.ltb_spec (len (md_data d)) 4294967296); [|lia]. cbn [negb] in R.
  rewrite (w32_small (len before + 8)) in R by lia. rewrite w32_small in R by lia. rewrite <- R. f_equal. lia.
Qed.
Lemma no_meta_has l : no_metadata ct dt ce cx l -> has_meta l = false.
Proof.
  intros H. rewrite has_meta_types. induction H as [|a l [A B] _ IH]; [reflexivity|]. cbn [map existsb].
  rewrite (proj2 (N.eqb_neq _ T_meta) A), (proj2 (N.eqb_neq _ T_meco) B). exact IH.
Qed.
Lemma no_meta_view l : Forall tree_ok l -> no_metadata ct dt ce cx l -> no_metadata ct dt ce cx (kv l).
Proof.
  intros H N. unfold no_metadata in *. rewrite Forall_forall in *. intros x Ix. unfold kid_view in Ix. apply filter_In in Ix. destruct Ix as [Ix _].
  apply in_map_iff in Ix. destruct Ix as (y & <- & Iy). destruct (faithful_codec _ _ ffaithful) as [_ K _ _].
  destruct (atype_facts _ _ (fun _ => L_stco stco_new) _ _ _ K y (H y Iy)) as (_ & _ & Q). unfold FileSpec.tree_type in *. rewrite Q. apply (N y Iy).
Qed.
Lemma no_metas ks : no_metadata ct dt ce cx ks -> (forall l, In (ABoxes _ T_trak l) ks -> no_metadata ct dt ce cx l) -> metas ks = false.
Proof.
  intros H Ht. unfold FileModel.metas. rewrite (no_meta_has _ H). cbn [orb]. clear H.
  induction ks as [|[t uu x|t x|x|t l] ks IH]; cbn [FileModel.trak_metas]; try (apply IH; intros; apply Ht; right; assumption); [reflexivity|].
  rewrite IH by (intros; apply Ht; right; assumption). destruct (N.eqb_spec t T_trak) as [->|]; [|reflexivity].
  rewrite (no_meta_has l) by (apply Ht; left; reflexivity). reflexivity.
Qed.
Lemma no_metas_view ks : Forall tree_ok ks -> no_metadata ct dt ce cx ks -> (forall l, In (ABoxes _ T_trak l) ks -> no_metadata ct dt ce cx l) -> metas (kv ks) = false.
Proof.
  intros H N Ht. apply no_metas; [apply no_meta_view; assumption|]. intros l I. unfold kid_view in I. apply filter_In in I. destruct I as [I _].
  apply in_map_iff in I. destruct I as (y & Q & I). destruct y as [t uu x|t x|x|t k]; try discriminate Q. cbn [strip] in Q. injection Q as -> <-.
  fold (kv k). rewrite Forall_forall in H. apply no_meta_view; [apply (boxes_facts _ _ (H _ I))|apply Ht, I].
Qed.

(* file level boxes *)
Lemma view_type a : tree_ok a -> tree_type (tree_view a) = tree_type a.
Proof. intros H. destruct (faithful_codec _ _ ffaithful) as [_ K _ _]. apply (atype_facts _ _ (fun _ => L_stco stco_new) _ _ _ K a H). Qed.
Notation file := (file (T:=T) (E:=E) (X:=X)).
Definition set_sgnt (o : option tree) (f : file) := mkFile o (f_ftyp f) (f_jp2h f) (f_meta f) (f_meco f) (f_moov f) (f_mdat f).
Definition set_ftyp (o : option tree) (f : file) := mkFile (f_sgnt f) o (f_jp2h f) (f_meta f) (f_meco f) (f_moov f) (f_mdat f).
Definition set_jp2h (o : option tree) (f : file) := mkFile (f_sgnt f) (f_ftyp f) o (f_meta f) (f_meco f) (f_moov f) (f_mdat f).
Lemma take_sgnt n a f ms : tree_ok a -> tree_type a = T_sgnt -> f_sgnt f = None -> take_box n (tree_view a) (f, ms) = Ok (set_sgnt (Some (tree_view a)) f, ms).
Proof. intros H Q N. unfold FileModel.take_box. fold (tree_type (tree_view a)). rewrite (view_type a H), Q, N. reflexivity. Qed.
Lemma take_ftyp n a f ms : tree_ok a -> tree_type a = T_ftyp -> f_ftyp f = None -> take_box n (tree_view a) (f, ms) = Ok (set_ftyp (Some (tree_view a)) f, ms).
Proof. intros H Q N. unfold FileModel.take_box. fold (tree_type (tree_view a)). rewrite (view_type a H), Q, N. reflexivity. Qed.
Lemma take_jp2h n a f ms : tree_ok a -> tree_type a = T_jp2h -> f_jp2h f = None -> take_box n (tree_view a) (f, ms) = Ok (set_jp2h (Some (tree_view a)) f, ms).
Proof. intros H Q N. unfold FileModel.take_box. fold (tree_type (tree_view a)). rewrite (view_type a H), Q, N. reflexivity. Qed.
Lemma tops_app l : forall pos l' s, tops pos (l ++ l') s = (do s' <- tops pos l s; tops (pos + len (flat_map tree_bytes l)) l' s').
Proof.
  induction l as [|a l IH]; intros pos l' s; cbn [app tops flat_map].
  - rewrite N.add_0_r. reflexivity.
  - destruct (take_box _ _ _) as [s'| |]; cbn [bind]; try reflexivity. rewrite IH, len_app, N.add_assoc. reflexivity.
Qed.
Lemma tops_heads f : head_ok ct yt dt ce ye cx yx T_sgnt (f_sgnt f) -> head_ok ct yt dt ce ye cx yx T_ftyp (f_ftyp f) -> head_ok ct yt dt ce ye cx yx T_jp2h (f_jp2h f) ->
  tops 0 (heads f) (f_none, []) =
  Ok (mkFile (option_map tree_view (f_sgnt f)) (option_map tree_view (f_ftyp f)) (option_map tree_view (f_jp2h f)) None None None None, []).
Proof.
  intros H1 H2 H3. unfold heads. rewrite tops_app.
  replace (tops 0 (opt (f_sgnt f)) (f_none, [])) with (Ok (set_sgnt (option_map tree_view (f_sgnt f)) f_none, @nil (N * mdat))).
  2:{ destruct (f_sgnt f) as [a|]; [|reflexivity]. destruct H1 as [A B]. cbn [opt tops]. rewrite take_sgnt by (assumption || reflexivity). reflexivity. }
  cbn [bind]. rewrite tops_app. set (p := 0 + _). clearbody p.
  replace (tops p (opt (f_ftyp f)) (set_sgnt (option_map tree_view (f_sgnt f)) f_none, [])) with (Ok (set_ftyp (option_map tree_view (f_ftyp f)) (set_sgnt (option_map tree_view (f_sgnt f)) f_none), @nil (N * mdat))).
  2:{ destruct (f_ftyp f) as [a|]; [|reflexivity]. destruct H2 as [A B]. cbn [opt tops]. rewrite take_ftyp by (assumption || reflexivity). reflexivity. }
  cbn [bind]. set (q := p + _). clearbody q.
  destruct (f_jp2h f) as [a|]; [|reflexivity]. destruct H3 as [A B]. cbn [opt tops]. rewrite take_jp2h by (assumption || reflexivity). reflexivity.
Qed.

(* ------------------------------------------------------------------ *)
(* saving and opening                                                  *)

Lemma head_list ty o : head_ok ct yt dt ce ye cx yx ty o -> ty <> T_uuid -> Forall (fun a => tree_ok a /\ tree_type a <> T_uuid) (opt o).
Proof. intros H Hu. destruct o as [a|]; [|constructor]. destruct H as [A B]. constructor; [split; [exact A|congruence]|constructor]. Qed.
Lemma Forall2_like_trees ks ks' : Forall2 like ks ks' -> Forall tree_ok ks'.
Proof. induction 1 as [|a b l l' (_ & _ & A & _) _ IH]; constructor; assumption. Qed.
Lemma mdat_bytes d : bytes (md_data d) -> len (md_data d) < 2147483648 ->
  let m := if len (md_data d) =? 0 then [] else box T_mdat (md_data d) in mdat_file d = Ok m /\ mdat_serialize d = Ok m.
Proof.
  intros H Hl. cbn zeta. destruct (N.eqb_spec (len (md_data d)) 0) as [Z|Z].
  - unfold mdat_file, mdat_serialize, mdat_size. rewrite Z. split; reflexivity.
  - destruct (C38_box_round_trip d) as (A & B & _); [split; [exact H|lia]|]. split; assumption.
Qed.
Lemma saved_opened f ks d : movie_ok ct yt dt ce ye edri cx yx f ks d ->
  len (flat_map tree_bytes (heads f ++ [ABoxes _ T_moov ks])) + len (md_data d) + 16 < 2147483648 ->
  exists ks' out,
    to_file ct dt ce edri cx f = Ok (out, f) /\ to_handle ct dt ce edri cx f = Ok (out, f) /\
    out = flat_map tree_bytes (heads f ++ [ABoxes _ T_moov ks']) ++ (if len (md_data d) =? 0 then [] else box T_mdat (md_data d)) /\
    Forall2 (box_found edri out (md_data d)) ks ks' /\
    open_movie ct dt ce edri cx out = Ok (movie_view ct yt ce ye yx f ks d).
Proof.
  intros [M1 M2 M3 [M4 M4'] M5 M6 M7 M8 M9 [M10 M11]] Hl. change (code "moov") with T_moov in M7. assert (A := boxes_facts _ _ M7). destruct A as [Hks _].
  assert (HT : forall l, In (ABoxes fleaf T_trak l) ks -> trak_ok edri (len (md_data d)) l) by (intros l I; apply (M8 l I)).
  assert (HN : forall l, In (ABoxes fleaf T_trak l) ks -> no_metadata ct dt ce cx l) by (intros l I; apply (M8 l I)).
  destruct (movie_trks _ ks Hks HT) as (K & K' & K1 & K2 & K3 & K4 & K5 & K6).
  set (head := len (flat_map tree_bytes (heads f ++ [ABoxes fleaf T_moov ks]))) in *.
  set (u := head + 8). set (ks' := moov_put ks (map (trk_shifted (Z.of_N u)) K)).
  assert (HL : Forall2 like ks ks').
  { apply (moov_put_like _ K); [exact Hks|exact K1|]. clear - K3 K4 K5 Hl u. induction K as [|k K IH]; [constructor|].
    inversion_clear K3. inversion_clear K4. inversion_clear K5. cbn [map]. constructor; [|auto]. apply (shift_like (len (md_data d))); try assumption. subst u. lia. }
  assert (HB := like_boxes _ _ _ M7 HL).
  assert (Hh : Forall (fun a => tree_ok a /\ tree_type a <> T_uuid) (heads f)).
  { unfold heads. repeat (apply Forall_app; split); eapply head_list; try eassumption; discriminate. }
  assert (Hh' : Forall tree_ok (heads f)) by (eapply Forall_impl; [|exact Hh]; intros a [Q _]; exact Q).
  assert (Hlen : len (flat_map tree_bytes (heads f ++ [ABoxes fleaf T_moov ks'])) = head).
  { unfold head. rewrite !flat_map_app, !len_app. f_equal. cbn [flat_map]. rewrite !app_nil_r. apply HB. }
  set (m := if len (md_data d) =? 0 then [] else box T_mdat (md_data d)).
  destruct (mdat_bytes d M10 M11) as [Wf Ws]. fold m in Wf, Ws.
  set (before := flat_map tree_bytes (heads f ++ [ABoxes fleaf T_moov ks'])) in *.
  assert (Hput : forall include, put_movie ct dt ce edri cx include f = Ok (before ++ (if include then m else []), f)).
  { intros include. unfold put_movie. rewrite M4, M4', M5, M6. rewrite (no_metas ks M9 HN). cbn [orb option_map opt].
    unfold moov_box. fold (heads f). assert (Eh : fold_left (fun a k => w32 (a + fsize k)) (heads f ++ [ABoxes fleaf T_moov ks]) 0 = head).
    { rewrite fold_sizes; [reflexivity| |fold head; lia]. apply Forall_app. split; [exact Hh'|]. constructor; [exact M7|constructor]. }
    rewrite Eh, K1. cbn [bind].
    rewrite (C15_save_keeps_movie include head (len (md_data d)) K K3 K4) by lia. cbn [bind fst snd].
    destruct (N.ltb_spec (len (md_data d)) 4294967296); [|lia]. rewrite N.add_0_r. fold u. fold ks'. rewrite (moov_put_same _ _ K1). cbn [option_map opt].
    destruct (tree_facts (ABoxes fleaf T_moov ks) [] M7) as (-> & _). { unfold head in Hl. rewrite flat_map_app, len_app in Hl. cbn [flat_map] in Hl. rewrite app_nil_r in Hl. lia. }
    destruct HB as (_ & _ & HB1 & HB2).
    destruct (tree_facts (ABoxes fleaf T_moov ks') [] HB1) as (-> & _). { rewrite HB2. unfold head in Hl. rewrite flat_map_app, len_app in Hl. cbn [flat_map] in Hl. rewrite app_nil_r in Hl. lia. }
    rewrite HB2, N.eqb_refl. cbn [negb]. fold (heads f).
    rewrite fwrites_ok; [|apply Forall_app; split; [exact Hh'|constructor; [exact HB1|constructor]]|fold before; lia]. cbn [bind]. fold before.
    replace (if include then mdat_serialize d else Ok []) with (Ok (if include then m else [])) by (destruct include; [rewrite Ws|]; reflexivity).
    cbn [bind]. do 2 f_equal. destruct f. cbn in *. congruence. }
  exists ks', (before ++ m). split; [|split; [|split; [reflexivity|split]]].
  - unfold to_file. rewrite (Hput false). cbn [bind fst snd]. rewrite M6, Wf. cbn [bind]. rewrite app_nil_r. reflexivity.
  - exact (Hput true).
  - unfold ks', u. rewrite <- Hlen. apply (moov_found before d m ks K); try assumption; lia.
  - assert (Et : top (length (before ++ m) + 1) 0 (before ++ m) (f_none, []) =
      Ok (mkFile (option_map tree_view (f_sgnt f)) (option_map tree_view (f_ftyp f)) (option_map tree_view (f_jp2h f)) None None (Some (kv ks')) None,
          if len (md_data d) =? 0 then [] else [(u, mkMdat (md_data d) (len (md_data d)))])).
    { set (last := if len (md_data d) =? 0 then [] else [ALeaf fleaf (L_mdat d)]).
      assert (Em : before ++ m = flat_map tree_bytes (heads f ++ [ABoxes fleaf T_moov ks'] ++ last)).
      { unfold before, m, last. rewrite (app_assoc (heads f)), (flat_map_app _ (heads f ++ _)). f_equal.
        destruct (len (md_data d) =? 0); [reflexivity|]. cbn [flat_map]. rewrite app_nil_r. reflexivity. }
      rewrite Em. rewrite top_list; cycle 1.
      - destruct (heads f); discriminate.
      - apply Forall_app. split; [exact Hh|]. apply Forall_app. split; [constructor; [split; [apply HB|discriminate]|constructor]|].
        unfold last. destruct (N.eqb_spec (len (md_data d)) 0); constructor; [|constructor]. split; [|discriminate]. split; [exact M10|lia].
      - rewrite <- Em, len_app, Hlen. unfold m. destruct (len (md_data d) =? 0); [rewrite len_nil|rewrite len_box]; lia.
      - lia.
      - rewrite tops_app, (tops_heads f M1 M2 M3). cbn [bind app tops].
        unfold FileModel.take_box at 1. fold (tree_type (tree_view (ABoxes fleaf T_moov ks'))). rewrite (view_type _ (proj1 (proj2 (proj2 HB)))).
        change (tree_type (ABoxes fleaf T_moov ks')) with T_moov. rewrite N.eqb_refl, view_boxes. cbn [once f_moov bind f_sgnt f_ftyp f_jp2h f_meta f_meco f_mdat].
        unfold last. destruct (N.eqb_spec (len (md_data d)) 0) as [Z|Z]; [reflexivity|]. cbn [tops]. cbn [FileSpec.tree_view strip flayout lsum l_view L_mdat mdat_layout].
        unfold FileModel.take_box. cbn [atype fcodec csum c_ty mdat_codec is_mdat md_data].
        change (T_mdat =? T_moov) with false. rewrite N.eqb_refl. cbn [app]. destruct (N.eqb_spec (len (md_data d)) 0); [contradiction|]. cbn [bind].
        do 4 f_equal. unfold u. rewrite <- Hlen. unfold before. rewrite flat_map_app, len_app. cbn [flat_map]. rewrite app_nil_r. lia. }
    unfold open_movie. rewrite Et. cbn [bind f_moov f_ftyp f_meta].
    destruct (place_fine _ _ K6) as [F1 F2].
    assert (Ekv : kv ks' = moov_put (kv ks) (map (trk_shifted (Z.of_N u)) K)) by apply moov_put_view.
    destruct (N.eqb_spec (len (md_data d)) 0) as [Z|Z].
    + assert (Es : ks' = ks).
      { unfold ks'. rewrite <- (moov_put_same _ _ K1) at 2. apply moov_put_offs. rewrite map_map. apply map_ext_in. intros k Ik. rewrite Forall_forall in K3, K4.
        specialize (K4 k Ik). rewrite Z in K4. apply shift_none; auto. }
      rewrite Es. unfold movie_view. destruct (N.eqb_spec (len (md_data d)) 0); [|contradiction]. reflexivity.
    + rewrite Ekv, metas_put, (no_metas_view ks Hks M9 HN). cbn [orb].
      rewrite (moov_trks_put _ K' _ K2) by (rewrite map_length; lia). cbn [bind]. rewrite (zip_shift _ _ _ K6).
      unfold merge_data. cbn [md_data]. unfold u.
      rewrite (C15_open_after_save head (len (md_data d)) K' F1 (place_within _ _ _ _ K6 K4)) by lia. cbn [bind merge_more fst snd].
      rewrite moov_put_put by (rewrite map_length; lia). rewrite (moov_put_same _ _ K2). unfold movie_view.
      destruct (N.eqb_spec (len (md_data d)) 0); [contradiction|]. reflexivity.
Qed.
End Proofs.

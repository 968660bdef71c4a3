(* ReopenProofs.v *)
From Verif Require Import Base Codec AtomModel AtomSpec BoxModel BoxSpec BoxProofs Reads KidsProofs SttsSpec SttsModel SttsProofs SttsProps CttsSpec CttsModel CttsProofs CttsProps
  SyncSpec SyncModel SyncProofs SyncProps SizeSpec SizeModel SizeProofs SizeProps MarkSpec MarkModel MarkProofs MarkProps ChunkSpec ChunkModel ChunkProofs ChunkProps
  MdatModel SaveSpec StreamProofs TextModel TextSpec EntryModel EntrySpec EntryProofs EntryProps MediaSpec MediaModel MediaProofs MediaProps
  FileModel FileSpec FileProofs ReopenModel ReopenSpec.

(* ------------------------------------------------------------------ *)
(* what a reader forgets and what it makes of it                       *)

Definition viewed (m : media) : media :=
  mkMedia (l_view stts_layout (me_stts m)) (option_map (l_view ctts_layout) (me_ctts m)) (option_map (l_view stss_layout) (me_stss m))
    (option_map (l_view padb_layout) (me_padb m)) (l_view stsz_layout (me_stsz m)) (me_stco m) (l_view stsc_layout (me_stsc m)) (me_descs m) (me_drefs m).
(* the same tables with the members only used for adding as they would be
   without saving *)
Definition m_ctts (c : ctts) : ctts := mkCtts (ct_ver c) (ct_flags c) (ct_entries c) true (len (expand (ct_entries c))).
Definition m_stss (s : stss) : stss := mkStss (ss_ver s) (ss_flags s) (ss_list s) true.
Definition m_stsz (s : stsz) : stsz :=
  if (sz_count s =? 0) && (sz_size s =? 0) then mkStsz (sz_ver s) (sz_flags s) (sz_field s) 0 0 None (sz_junk s) else s.
Definition mended (m : media) : media :=
  mkMedia (me_stts m) (option_map m_ctts (me_ctts m)) (option_map m_stss (me_stss m)) (me_padb m) (m_stsz (me_stsz m)) (me_stco m) (me_stsc m) (me_descs m) (me_drefs m).

Lemma mended_get m d n : media_get (mended m) d n = (fst (media_get m d n), mended (snd (media_get m d n))).
Proof.
  unfold media_get, mended. cbn [me_stts me_ctts me_stss me_padb me_stsz me_stco me_stsc me_descs me_drefs].
  destruct (stts_time (me_stts m) n) as [[t du] st].
  assert (Q : forall k, stsz_get_off (m_stsz (me_stsz m)) n k = stsz_get_off (me_stsz m) n k).
  { intros k. unfold m_stsz. destruct (N.eqb_spec (sz_count (me_stsz m)) 0); [|reflexivity]. destruct (sz_size (me_stsz m) =? 0); [|reflexivity].
    unfold stsz_get_off. cbn [andb sz_count sz_size sz_buf]. replace (sz_count (me_stsz m)) with 0 by lia.
    destruct (N.ltb_spec 0 n), (N.eqb_spec n 0); try reflexivity; lia. }
  assert (R : reported_sync (option_map m_stss (me_stss m)) n = reported_sync (me_stss m) n) by (destruct (me_stss m); reflexivity).
  assert (C : comp_offset (option_map m_ctts (me_ctts m)) n = comp_offset (me_ctts m) n) by (destruct (me_ctts m); reflexivity).
  assert (G : given_to (option_map m_ctts (me_ctts m)) = given_to (me_ctts m)) by (destruct (me_ctts m); reflexivity).
  rewrite R, C, G.
  destruct (stsc_lookup (me_stsc m) n) as [[[[c desc] fs] sc]| |]; cbn [fst snd me_stts me_ctts me_stss me_padb me_stsz me_stco me_stsc me_descs me_drefs]; try reflexivity.
  rewrite Q. reflexivity.
Qed.
Lemma mended_at m d t : media_at (mended m) d t = (fst (media_at m d t), mended (snd (media_at m d t))).
Proof.
  unfold media_at, mended. cbn [me_stts me_ctts me_stss me_padb me_stsz me_stco me_stsc me_descs me_drefs]. cbv zeta.
  set (n := f_num _).
  assert (Q : forall k, stsz_get_off (m_stsz (me_stsz m)) n k = stsz_get_off (me_stsz m) n k).
  { intros k. unfold m_stsz. destruct (N.eqb_spec (sz_count (me_stsz m)) 0); [|reflexivity]. destruct (sz_size (me_stsz m) =? 0); [|reflexivity].
    unfold stsz_get_off. cbn [andb sz_count sz_size sz_buf]. replace (sz_count (me_stsz m)) with 0 by lia.
    destruct (N.ltb_spec 0 n), (N.eqb_spec n 0); try reflexivity; lia. }
  assert (R : reported_sync (option_map m_stss (me_stss m)) n = reported_sync (me_stss m) n) by (destruct (me_stss m); reflexivity).
  assert (C : comp_offset (option_map m_ctts (me_ctts m)) n = comp_offset (me_ctts m) n) by (destruct (me_ctts m); reflexivity).
  assert (G : given_to (option_map m_ctts (me_ctts m)) = given_to (me_ctts m)) by (destruct (me_ctts m); reflexivity).
  rewrite R, C, G.
  destruct (stsc_lookup (me_stsc m) n) as [[[[c desc] fs] sc]| |]; cbn [fst snd me_stts me_ctts me_stss me_padb me_stsz me_stco me_stsc me_descs me_drefs]; try reflexivity.
  rewrite Q. reflexivity.
Qed.

(* adding commutes with mending *)
Lemma mended_put m descs off b : b_offs b = None -> sz_count (me_stsz m) <> 0 ->
  (forall s, me_stss m = Some s -> ss_list s <> []) ->
  media_put (mended m) descs off b = match media_put m descs off b with Ok m' => Ok (mended m') | Err e => Err e | UB => UB end.
Proof.
  intros Ho Hc Hs. unfold media_put, mended. cbn [me_stts me_ctts me_stss me_padb me_stsz me_stco me_stsc me_descs me_drefs].
  assert (Z : m_stsz (me_stsz m) = me_stsz m) by (unfold m_stsz; destruct (N.eqb_spec (sz_count (me_stsz m)) 0); [contradiction|reflexivity]).
  rewrite Z, Ho. destruct (stts_addSamples _ _ _) as [st| |]; cbn [bind]; try reflexivity.
  unfold stbl_offsets. cbn [bind].
  assert (Y : stbl_sync (option_map m_stss (me_stss m)) (sz_count (me_stsz m)) (b_count b) (b_sync b) =
    match stbl_sync (me_stss m) (sz_count (me_stsz m)) (b_count b) (b_sync b) with Ok s => Ok (option_map m_stss s) | Err e => Err e | UB => UB end).
  { destruct (me_stss m) as [s|] eqn:Es.
    - specialize (Hs s eq_refl). unfold stbl_sync. cbn [option_map]. destruct (b_sync b) as [l|]; [|reflexivity].
      unfold stss_add. cbn [m_stss ss_list ss_nonsync ss_ver ss_flags]. destruct (_ =? 0); [reflexivity|].
      destruct (N.eqb_spec (len (ss_list s)) 0) as [Q|Q]; [destruct (ss_list s); [congruence|rewrite len_cons in Q; lia]|]. cbn [andb].
      destruct (_ <=? _); [reflexivity|]. destruct (stss_offsets _ _ _); reflexivity.
    - unfold stbl_sync. cbn [option_map]. destruct (b_sync b) as [l|]; [|reflexivity]. destruct (len l =? b_count b); [reflexivity|].
      unfold stss_add. destruct (_ =? 0); [reflexivity|]. cbn [ss_list stss_new]. destruct (_ <=? _); [reflexivity|]. destruct (stss_offsets _ _ _); [|reflexivity..].
      cbn [bind option_map]. unfold m_stss. reflexivity. }
  rewrite Y. destruct (stbl_sync (me_stss m) (sz_count (me_stsz m)) (b_count b) (b_sync b)) as [ss| |]; cbn [bind]; try reflexivity.
  destruct (stbl_pads _ _ _ _) as [pb| |]; cbn [bind]; try reflexivity.
  destruct (stsz_add _ _ _) as [sz| |] eqn:Ez; cbn [bind]; try reflexivity.
  destruct (stco_add _ _) as [co| |]; cbn [bind]; try reflexivity.
  assert (Z' : m_stsz sz = sz).
  { unfold m_stsz. destruct (N.eqb_spec (sz_count sz) 0) as [Q|Q]; [|reflexivity]. exfalso. unfold stsz_add in Ez.
    destruct (b_sizes b) as [|x rest]; [discriminate|]. destruct (negb _); [discriminate|]. destruct (N.ltb_spec 4294959104 (4 * (b_count b + sz_count (me_stsz m) + 1))); [discriminate|].
    destruct (_ || _); injection Ez as <-; cbn [sz_count] in Q; rewrite w32_small in Q by lia; lia. }
  cbn [me_stts me_ctts me_stss me_padb me_stsz me_stco me_stsc me_descs me_drefs]. rewrite Z'. reflexivity.
Qed.
Lemma mended_add m d b : b_offs b = None -> sz_count (me_stsz m) <> 0 ->
  (forall s, me_stss m = Some s -> ss_list s <> []) ->
  media_add (mended m) d b = match media_add m d b with Ok x => Ok (mended (fst x), snd x) | Err e => Err e | UB => UB end.
Proof.
  intros Ho Hc Hs. unfold media_add. rewrite (mended_put m _ (len (md_data d)) b Ho Hc Hs).
  cbn [mended me_descs me_drefs]. destruct (0 <? b_count b); [|reflexivity].
  destruct (rev _) as [|dri r]; [reflexivity|]. destruct (_ || _); [reflexivity|].
  destruct (media_put _ _ _ _) as [m'| |]; cbn [bind]; try reflexivity. destruct (mdat_add _ _); reflexivity.
Qed.

(* mending does no harm, and undoes what saving did *)
Lemma ct_expand_pos c : ct_inv c -> ct_final c = len (expand (ct_entries c)).
Proof. intros []. assumption. Qed.
Lemma mended_ok m t D : minv m t D -> minv (mended m) t D.
Proof.
  intros []. constructor; cbn [mended me_stts me_ctts me_stss me_padb me_stsz me_stco me_stsc me_descs me_drefs]; try assumption.
  - destruct (me_ctts m) as [c|]; cbn [option_map off_inv] in *; [|exact v_ctts]. destruct v_ctts as (V1 & V2 & k & V3).
    cbn [m_ctts ct_entries ct_final]. pose proof (ct_expand_pos _ V1) as V4. split; [|split; [lia|exists k; exact V3]].
    destruct V1 as [V1 _ _]. constructor; [exact V1|reflexivity|left; reflexivity].
  - destruct (me_ctts m); exact v_hasoff.
  - destruct (me_stss m) as [s|]; cbn [option_map syncs] in *; [|exact v_stss]. cbn [m_stss ss_list ss_nonsync]. split; [apply v_stss|auto].
  - intros Q. apply v_nosync. destruct (me_stss m); [discriminate|exact Q].
  - unfold m_stsz. destruct (N.eqb_spec (sz_count (me_stsz m)) 0) as [Q1|]; [|exact v_stsz]. destruct (N.eqb_spec (sz_size (me_stsz m)) 0) as [Q2|]; [|exact v_stsz].
    cbn [andb]. destruct v_stsz as [V1 V2]. rewrite Q1 in V1. split; [exact V1|]. cbn [sz_size sz_buf]. change (0 =? 0) with true. cbv iota. apply len_0. symmetry. exact V1.
Qed.
Lemma mended_viewed m t D : minv m t D -> Forall (fun s => m_pad s < 8) (t_smps t) -> minv (mended (viewed m)) (reopened t) D.
Proof.
  intros [] Hp. constructor; cbn [mended viewed reopened me_stts me_ctts me_stss me_padb me_stsz me_stco me_stsc me_descs me_drefs t_smps t_offs t_pads t_desc]; try assumption.
  - destruct v_stts as [R1 R2 R3 R4]. constructor; cbn [stts_layout l_view st_entries st_found]; try assumption; try discriminate.
  - destruct (me_ctts m) as [c|]; cbn [option_map off_inv] in *; [|exact v_ctts]. destruct v_ctts as (V1 & V2 & k & V3).
    cbn [m_ctts ctts_layout l_view ct_entries ct_final]. pose proof (ct_expand_pos _ V1) as V4. split; [|split; [lia|exists k; exact V3]].
    destruct V1 as [V1 _ _]. constructor; [exact V1|reflexivity|left; reflexivity].
  - destruct (me_ctts m); exact v_hasoff.
  - destruct (me_stss m) as [s|]; cbn [option_map syncs] in *; [|exact v_stss]. cbn [m_stss stss_layout l_view ss_list ss_nonsync]. split; [apply v_stss|auto].
  - intros Q. apply v_nosync. destruct (me_stss m); [discriminate|exact Q].
  - destruct (me_padb m) as [p|]; cbn [option_map pads] in *; [|exact v_padb]. cbn [padb_layout l_view pb_list]. rewrite v_padb.
    rewrite map_map. apply map_ext_in. intros s Hs. rewrite Forall_forall in Hp. apply N.mod_small, Hp, Hs.
  - destruct (me_padb m); exact v_haspad.
  - destruct v_stsz as [V1 V2]. cbn [stsz_layout l_view]. destruct (N.eqb_spec (sz_size (me_stsz m)) 0) as [Q|Q]; cbn [negb].
    + unfold m_stsz. cbn [sz_count sz_size]. change (0 =? 0) with true. rewrite andb_true_r. destruct (N.eqb_spec (sz_count (me_stsz m)) 0) as [Q2|Q2].
      * rewrite Q2 in V1. split; [exact V1|]. cbn [sz_size sz_buf]. change (0 =? 0) with true. cbv iota. apply len_0. symmetry. exact V1.
      * split; [exact V1|]. cbn [sz_size sz_buf]. change (0 =? 0) with true. cbv iota.
        destruct (sz_buf (me_stsz m)) as [b|] eqn:Eb; [|rewrite V2, len_nil in V1; contradiction]. destruct V2 as [V2 V3]. split; [exact V2|].
        assert (F : first_slots (me_stsz m) = map (fun s => len (m_bytes s)) (t_smps t)).
        { unfold first_slots. rewrite V1. rewrite <- V3 at 2. rewrite to_nat_len. apply nth_ext with (d := sz_junk (me_stsz m)) (d' := sz_junk (me_stsz m)).
          - rewrite map_length, seq_length. rewrite <- V3 at 1. reflexivity.
          - rewrite map_length, seq_length. intros n Hn. rewrite (nth_indep _ _ (SizeModel.slot (me_stsz m) 0)) by (rewrite map_length, seq_length; exact Hn).
            rewrite map_nth, seq_nth by exact Hn. unfold SizeModel.slot, slots. rewrite Eb. cbn [Nat.add].
            rewrite <- (firstn_skipn (length (map (fun s => len (m_bytes s)) (t_smps t))) b) at 1. rewrite app_nth1; [reflexivity|]. rewrite V3. exact Hn. }
        rewrite F. rewrite firstn_app, firstn_all, Nat.sub_diag, firstn_O, app_nil_r. reflexivity.
    + destruct V2 as [V2 V3]. unfold m_stsz. cbn [sz_count sz_size]. destruct (N.eqb_spec (sz_size (me_stsz m)) 0); [contradiction|]. rewrite andb_false_r.
      split; [exact V1|]. cbn [sz_size sz_buf]. destruct (N.eqb_spec (sz_size (me_stsz m)) 0); [contradiction|]. auto.
  - destruct v_chunks as (ch & gs & (A & B & C & _) & X). exists ch, gs. split; [|exact X]. destruct (C13_same_chunks _ _ A) as [A' B'].
    split; [exact A'|]. split; [congruence|]. split; [exact C|]. left. reflexivity.
  - discriminate.
Qed.

Lemma mended_twice m : mended (viewed (mended m)) = mended (viewed m).
Proof.
  unfold mended, viewed. cbn [me_stts me_ctts me_stss me_padb me_stsz me_stco me_stsc me_descs me_drefs]. f_equal.
  - destruct (me_ctts m); reflexivity.
  - destruct (me_stss m); reflexivity.
  - destruct (me_stsz m) as [v f fd z n b j]. unfold m_stsz at 2. cbn [sz_count sz_size]. destruct (N.eqb_spec n 0) as [->|]; [|reflexivity].
    destruct (N.eqb_spec z 0) as [->|]; [|reflexivity]. cbn [andb stsz_layout l_view sz_size sz_count sz_field sz_ver sz_flags].
    change (0 =? 0) with true. change (N.odd 0) with false. cbn [negb]. rewrite !andb_false_r. reflexivity.
Qed.

(* ------------------------------------------------------------------ *)
(* an opened movie                                                     *)

Lemma nth_map_some {A B} (f : A -> B) l i y : nth_error (map f l) i = Some y -> exists x, nth_error l i = Some x /\ y = f x.
Proof. rewrite nth_error_map. destruct (nth_error l i) as [x|]; [intros Q; injection Q as <-; eauto|discriminate]. Qed.
Lemma map_upd {A B} (f : A -> B) l : forall i x, map f (upd l i x) = upd (map f l) i (f x).
Proof. induction l as [|y l IH]; intros [|i] x; cbn [upd map]; try reflexivity. f_equal. apply IH. Qed.
Lemma exists_positions l : forall k, Exists (fun s => m_sync s = true) l -> positions k (map m_sync l) <> [].
Proof.
  induction l as [|s l IH]; intros k H; [inversion H|]. cbn [map positions]. destruct (m_sync s) eqn:Q; [discriminate|].
  inversion H; subst; [congruence|]. apply IH. assumption.
Qed.
Lemma opened_step_ok drefs ms d cur ts o :
  winv drefs (map mended ms, d) ts -> cur = map t_desc ts -> stored ts < 4294967296 -> aop_ok drefs ts o -> stored (agrow ts o) < 4294967296 ->
  grow_ok ts o ->
  exists x ms' d', opened_step ((ms, d), cur) o = Ok (x, ((ms', d'), map t_desc (agrow ts o))) /\ winv drefs (map mended ms', d') (agrow ts o) /\
    option_map fst x = match o with AAdd _ _ _ => None | AGet i n => match nth_error ts i with Some t => answer t n | None => None end end.
Proof.
  intros W Hcur Hs Ho Hg Hx. destruct (step_ok drefs (map mended ms, d) ts o W Hs Ho Hg) as (x & [ms1 d1] & E & W1 & Ex).
  destruct o as [i ss b|i n].
  - destruct Hx as (Hof & t & Ht & Hsync). cbn [movie_step opened_step fst snd agrow] in *. rewrite Ht in *.
    destruct (nth_error (map mended ms) i) as [mm|] eqn:Em; [|discriminate]. destruct (nth_map_some _ _ _ _ Em) as (m & Em' & ->).
    destruct W as [WF WS]. destruct (Forall2_nth _ _ _ _ _ WF Ht) as (mm & Emm & Im & Dm). cbn [fst snd] in *. rewrite Em in Emm. injection Emm as <-.
    assert (Hne : t_smps t <> []) by (intros Q; rewrite Q in Hsync; inversion Hsync).
    assert (Hc : sz_count (me_stsz m) <> 0).
    { pose proof (proj1 (v_stsz _ _ _ Im)) as V. rewrite len_map in V. cbn [mended me_stsz] in V. intros Q. unfold m_stsz in V. rewrite Q in V. change (0 =? 0) with true in V.
      cbn [andb] in V. destruct (t_smps t); [congruence|]. rewrite len_cons in V. destruct (_ =? 0) in V; cbn [sz_count] in V; lia. }
    assert (Hss : forall s, me_stss m = Some s -> ss_list s <> []).
    { intros s Es. pose proof (v_stss _ _ _ Im) as V. cbn [mended me_stss] in V. rewrite Es in V. cbn [option_map syncs m_stss ss_list] in V. rewrite (proj1 V).
      apply exists_positions. exact Hsync. }
    rewrite (mended_add m d b Hof Hc Hss) in E. destruct (media_add m d b) as [[m2 d2]| |] eqn:Ea; try discriminate. cbn [fst snd bind] in E. injection E as <- <- <-.
    rewrite Hcur, nth_error_map, Ht. cbn [option_map].
    destruct Ho as (t' & Ht' & Hd & _ & _ & Hde & _). assert (t' = t) by congruence. subst t'.
    assert (Q : t_desc t || given_to (b_entry b) = true) by (destruct Hde as [-> |Hde]; [reflexivity|destruct (b_entry b); [apply orb_true_r|congruence]]).
    rewrite Q. cbn [negb]. rewrite andb_false_r. rewrite Em', Ea. cbn [bind fst snd].
    exists None, (upd ms i m2), d2. split; [|split; [rewrite map_upd; exact W1|reflexivity]]. rewrite map_upd. cbn [tadd t_desc]. rewrite Q. reflexivity.
  - cbn [movie_step opened_step fst snd agrow] in *. destruct (nth_error (map mended ms) i) as [mm|] eqn:Em; [|discriminate]. destruct (nth_map_some _ _ _ _ Em) as (m & Em' & ->).
    rewrite mended_get in E. rewrite Em'. destruct (media_get m d n) as [r m2]. cbn [fst snd] in E. destruct r as [x2| |]; try discriminate. cbn [bind] in E |- *. injection E as <- <- <-.
    eexists _, (upd ms i m2), d. split; [rewrite Hcur; reflexivity|]. split; [rewrite map_upd; exact W1|exact Ex].
Qed.
Lemma opened_run_ok drefs os : forall ms d ts, winv drefs (map mended ms, d) ts -> stored ts < 4294967296 -> aops_ok drefs ts os -> grows_ok ts os ->
  exists r, opened_run ((ms, d), map t_desc ts) os = Ok r /\ map (option_map fst) r = aspec ts os.
Proof.
  induction os as [|o os IH]; intros ms d ts W Hs Ho Hg; [exists []; split; reflexivity|].
  destruct Ho as (Ho & Hst & Hos). destruct Hg as [Hg Hgs].
  destruct (opened_step_ok drefs ms d _ ts o W eq_refl Hs Ho Hst) as (x & ms1 & d1 & E & W1 & Ex); [exact Hg|].
  destruct (IH ms1 d1 _ W1 Hst Hos Hgs) as (r & Er & Es). cbn [opened_run]. rewrite E. cbn [bind fst snd]. rewrite Er. cbn [bind].
  exists (x :: r). split; [reflexivity|]. cbn [map]. rewrite Ex, Es. destruct o; reflexivity.
Qed.

(* ------------------------------------------------------------------ *)
(* histories                                                           *)

(* chunks start within the media data *)
Definition inside (w : movie) : Prop :=
  bytes (md_data (snd w)) /\ Forall (fun m => Forall (fun o => o < len (md_data (snd w))) (co_list (me_stco m))) (fst w).
Lemma put_offs m descs off b m' : media_put m descs off b = Ok m' -> co_list (me_stco m') = co_list (me_stco m) ++ [off].
Proof.
  unfold media_put. intros H. destruct (stts_addSamples _ _ _); try discriminate. cbn [bind] in H. destruct (stbl_offsets _ _ _ _); try discriminate. cbn [bind] in H.
  destruct (stbl_sync _ _ _ _); try discriminate. cbn [bind] in H. destruct (stbl_pads _ _ _ _); try discriminate. cbn [bind] in H.
  destruct (stsz_add _ _ _); try discriminate. cbn [bind] in H. destruct (stco_add _ _) as [co| |] eqn:Ec; try discriminate. cbn [bind] in H. injection H as <-.
  cbn [me_stco]. unfold stco_add in Ec. destruct (_ <=? _); [discriminate|]. injection Ec as <-. reflexivity.
Qed.
Lemma add_offs m d b m' d' : media_add m d b = Ok (m', d') -> 0 < b_count b ->
  co_list (me_stco m') = co_list (me_stco m) ++ [len (md_data d)] /\ md_data d' = md_data d ++ b_data b.
Proof.
  unfold media_add. intros H Hc. destruct (N.ltb_spec 0 (b_count b)); [|lia]. destruct (rev _) as [|dri r]; [discriminate|]. destruct (_ || _); [discriminate|].
  destruct (media_put _ _ _ _) as [m2| |] eqn:Ep; try discriminate. cbn [bind] in H. destruct (mdat_add d (b_data b)) as [d2| |] eqn:Ed; try discriminate. cbn [bind] in H. injection H as <- <-.
  split; [exact (put_offs _ _ _ _ _ Ep)|]. unfold mdat_add in Ed. destruct (N.ltb_spec 0 (len (b_data b))).
  - destruct (_ <? _); [discriminate|]. injection Ed as <-. reflexivity.
  - injection Ed as <-. rewrite (len_0 (b_data b)) by lia. rewrite app_nil_r. reflexivity.
Qed.
Lemma Forall_upd {A} (P : A -> Prop) l : forall i x, Forall P l -> P x -> Forall P (upd l i x).
Proof. induction l as [|y l IH]; intros [|i] x H Hx; inversion H; subst; cbn [upd]; constructor; auto. Qed.
Lemma Forall_nth_in {A} (P : A -> Prop) l i x : Forall P l -> nth_error l i = Some x -> P x.
Proof. intros H E. rewrite Forall_forall in H. apply H. eapply nth_error_In. exact E. Qed.
Lemma bytes_flat ss : Forall (fun s => bytes (m_bytes s) /\ m_pad s < 8) ss -> bytes (flat_map m_bytes ss).
Proof. induction 1 as [|s l [A _] _ IH]; cbn [flat_map]; [constructor|]. apply Forall_app. split; assumption. Qed.
Lemma get_stco m d n : me_stco (snd (media_get m d n)) = me_stco m.
Proof.
  unfold media_get. destruct (stts_time (me_stts m) n) as [[t du] st]. destruct (stsc_lookup (me_stsc m) n) as [[[[c desc] fs] sc]| |]; reflexivity.
Qed.
Lemma inside_step drefs ts w o x w' : inside w -> aop_ok drefs ts o -> storable o -> movie_step w o = Ok (x, w') -> inside w'.
Proof.
  destruct w as [ms d]. intros [Hb Hi] Ho Hs H. cbn [fst snd] in *. destruct o as [i ss b|i n]; cbn [movie_step aop_ok storable] in *.
  - destruct Ho as (t & _ & D & _). destruct Hs as [(s & Is & Bs) Fs]. destruct (nth_error ms i) as [m|] eqn:Em; [|discriminate].
    destruct (media_add m d b) as [[m' d']| |] eqn:Ea; try discriminate. cbn [bind fst snd] in H. injection H as <- <-.
    assert (Hc : 0 < b_count b) by (rewrite (d_count _ _ D); destruct ss; [destruct Is|rewrite len_cons; lia]).
    destruct (add_offs _ _ _ _ _ Ea Hc) as [A B]. rewrite (d_data _ _ D) in B.
    assert (Hl : 0 < len (flat_map m_bytes ss)).
    { clear - Is Bs. induction ss as [|z ss IH]; [destruct Is|]. cbn [flat_map]. rewrite len_app. destruct Is as [->|Is]; [destruct (m_bytes s); [congruence|rewrite len_cons; lia]|].
      specialize (IH Is). lia. }
    split; cbn [fst snd]; rewrite B.
    + apply Forall_app. split; [exact Hb|apply bytes_flat, Fs].
    + assert (Hi' : Forall (fun m => Forall (fun o => o < len (md_data d ++ flat_map m_bytes ss)) (co_list (me_stco m))) ms).
      { eapply Forall_impl; [|exact Hi]. intros m0 F. eapply Forall_impl; [|exact F]. cbn beta. intros o Hoo. rewrite len_app. lia. }
      apply Forall_upd; [exact Hi'|]. rewrite A. apply Forall_app. split; [exact (Forall_nth_in _ _ _ _ Hi' Em)|]. repeat constructor. rewrite len_app. lia.
  - destruct (nth_error ms i) as [m|] eqn:Em; [|discriminate]. pose proof (get_stco m d n) as G. destruct (media_get m d n) as [r m']. cbn [snd] in G.
    destruct r as [y| |]; try discriminate. cbn [bind] in H. injection H as <- <-. split; [exact Hb|]. cbn [fst snd]. apply Forall_upd; [exact Hi|].
    rewrite G. exact (Forall_nth_in _ _ _ _ Hi Em).
Qed.
Lemma inside_end drefs os : forall w ts w', inside w -> aops_ok drefs ts os -> Forall storable os -> movie_end w os = Ok w' -> inside w'.
Proof.
  induction os as [|o os IH]; intros w ts w' Hi Ho Hs H; cbn [movie_end] in H; [injection H as <-; exact Hi|].
  destruct Ho as (Ho & _ & Hos). inversion Hs as [|? ? S1 S2]; subst. destruct (movie_step w o) as [[x w1]| |] eqn:E; try discriminate. cbn [bind snd] in H.
  eapply IH; [eapply inside_step; eauto|exact Hos|exact S2|exact H].
Qed.
Lemma inside_new junk drefs k : inside (repeat (media_new junk drefs) k, mdat_new).
Proof. split; [constructor|]. cbn [fst]. induction k; cbn [repeat]; constructor; [constructor|assumption]. Qed.
Lemma pads_end os : forall ts drefs, Forall (fun t => Forall (fun s => m_pad s < 8) (t_smps t)) ts -> aops_ok drefs ts os -> Forall storable os ->
  Forall (fun t => Forall (fun s => m_pad s < 8) (t_smps t)) (tracks_end ts os).
Proof.
  induction os as [|o os IH]; intros ts drefs H Ho Hs; [exact H|]. destruct Ho as (Ho & _ & Hos). inversion Hs as [|? ? S1 S2]; subst. cbn [tracks_end].
  eapply IH; [|exact Hos|exact S2]. destruct o as [i ss b|i n]; cbn [agrow]; [|exact H]. destruct (nth_error ts i) as [t|] eqn:Et; [|exact H].
  apply Forall_upd; [exact H|]. cbn [tadd t_smps]. apply Forall_app. split; [exact (Forall_nth_in _ _ _ _ H Et)|]. destruct S1 as [_ S1].
  eapply Forall_impl; [|exact S1]. cbn beta. tauto.
Qed.

(* ------------------------------------------------------------------ *)
(* the tracks in the tree of boxes                                     *)

Lemma in_chunks es : forall k f s d, rising es k -> In (f, s, d) es -> exists c, In c (chunks_of es k) /\ snd c = d.
Proof.
  induction es as [|[[f0 s0] d0] es IH]; intros k f s d R I; [destruct I|].
  destruct es as [|[[f1 s1] d1] es].
  - destruct I as [I|[]]. injection I as -> -> ->. cbn [rising] in R. cbn [chunks_of]. exists (s, d). split; [|reflexivity].
    destruct (N.to_nat (k - f)) eqn:Q; [lia|]. left. reflexivity.
  - change (chunks_of ((f0, s0, d0) :: (f1, s1, d1) :: es) k) with (repeat (s0, d0) (N.to_nat (f1 - f0)) ++ chunks_of ((f1, s1, d1) :: es) k).
    destruct R as (R0 & R1 & R2). destruct I as [I|I].
    + injection I as -> -> ->. exists (s, d). split; [|reflexivity]. apply in_or_app. left. destruct (N.to_nat (f1 - f)) eqn:Q; [lia|]. left. reflexivity.
    + destruct (IH k f s d R2 I) as (c & A & B). exists c. split; [apply in_or_app; right; exact A|exact B].
Qed.

Section Trees.
Context {T E X : Type} (ct : codec T) (yt : layout T) (dt : T) (ce : codec E) (ye : layout E) (edri : E -> N)
  (cx : codec X) (yx : layout X).
Hypothesis FT : faithful ct yt.
Hypothesis FE : faithful ce ye.
Hypothesis FX : faithful cx yx.
Hypothesis AX : apart cx yx.
Hypothesis VE : forall x, l_ok ye x -> edri (l_view ye x) = edri x.
Notation fleaf := (fleaf (T:=T) (E:=E) (X:=X)).
Notation tree := (atom fleaf).
Notation fl := (flayout ct yt ce ye yx).
Notation tree_ok := (tree_ok ct yt dt ce ye cx yx).
Notation tree_view := (tree_view ct yt ce ye yx).
Notation kv := (kid_view fl).
Notation media_of := (media_of (T:=T) (E:=E) (X:=X) edri).
Notation medias := (medias (T:=T) (E:=E) (X:=X) edri).

Lemma need_ok {A} (o : option A) a : need o = Ok a -> o = Some a.
Proof. destruct o; [intros Q; injection Q as ->; reflexivity|discriminate]. Qed.
Lemma bind_ok {A B} (m : res A) (f : A -> res B) b : bind m f = Ok b -> exists a, m = Ok a /\ f a = Ok b.
Proof. destruct m; try discriminate. eauto. Qed.
Record mparts (l : list tree) (m : media) (mdia minf dinf stbl : list tree) (sd : stsd (T:=T) (O:=E)) (dr : dref (durl + durn)) : Prop := {
  p_mdia : sub T_mdia l = Some mdia; p_minf : sub T_minf mdia = Some minf; p_dinf : sub T_dinf minf = Some dinf; p_stbl : sub T_stbl minf = Some stbl;
  p_dref : pick is_dref dinf = Some dr; p_stts : pick is_stts stbl = Some (me_stts m); p_stsz : pick is_stsz stbl = Some (me_stsz m);
  p_stsc : pick is_stsc stbl = Some (me_stsc m); p_stco : pick is_stco stbl = Some (me_stco m); p_stsd : pick is_stsd stbl = Some sd;
  p_own : forallb own_ref (dr_kids dr) = true;
  p_ctts : pick is_ctts stbl = me_ctts m; p_stss : pick is_stss stbl = me_stss m; p_padb : pick is_padb stbl = me_padb m;
  p_descs : me_descs m = map (ent_dri edri) (sd_ents sd); p_drefs : me_drefs m = len (dr_kids dr) }.
Lemma media_parts l m : media_of l = Ok m <-> exists a b c d sd dr, mparts l m a b c d sd dr.
Proof.
  unfold ReopenModel.media_of. split.
  - intros H. apply bind_ok in H. destruct H as (a & A1 & H). apply bind_ok in H. destruct H as (b & A2 & H). apply bind_ok in H. destruct H as (c & A3 & H).
    apply bind_ok in H. destruct H as (d & A4 & H). apply bind_ok in H. destruct H as (dr & A5 & H). apply bind_ok in H. destruct H as (st & A6 & H).
    apply bind_ok in H. destruct H as (sz & A7 & H). apply bind_ok in H. destruct H as (sc & A8 & H). apply bind_ok in H. destruct H as (co & A9 & H).
    apply bind_ok in H. destruct H as (sd & A10 & H). destruct (forallb own_ref (dr_kids dr)) eqn:Q; [|discriminate]. injection H as <-.
    apply need_ok in A1, A2, A3, A4, A5, A6, A7, A8, A9, A10. exists a, b, c, d, sd, dr. constructor; auto.
  - intros (a & b & c & d & sd & dr & []). rewrite p_mdia0. cbn [need bind]. rewrite p_minf0. cbn [need bind]. rewrite p_dinf0, p_stbl0. cbn [need bind].
    rewrite p_dref0, p_stts0, p_stsz0, p_stsc0, p_stco0, p_stsd0. cbn [need bind]. rewrite p_own0, p_ctts0, p_stss0, p_padb0, <- p_descs0, <- p_drefs0. destruct m; reflexivity.
Qed.

Lemma own_view a : own_ref (strip (durl + durn) (l_view (lsum url_layout no_urn)) a) = own_ref a.
Proof. destruct a as [t uu x|t x|[u|u]|t k]; reflexivity. Qed.
Lemma media_view l m : tree_ok (ABoxes _ T_trak l) -> media_of l = Ok m -> media_of (kv l) = Ok (viewed m).
Proof.
  intros H Hm. apply media_parts in Hm. destruct Hm as (a & b & c & d & sd & dr & []).
  destruct (boxes_facts ct yt dt ce ye cx yx _ _ H) as (K1 & _). rewrite Forall_forall in K1. pose proof (K1 _ (sub_some _ _ _ p_mdia0)) as H1.
  destruct (boxes_facts ct yt dt ce ye cx yx _ _ H1) as (K2 & _). rewrite Forall_forall in K2. pose proof (K2 _ (sub_some _ _ _ p_minf0)) as H2.
  destruct (boxes_facts ct yt dt ce ye cx yx _ _ H2) as (K3 & _). rewrite Forall_forall in K3. pose proof (K3 _ (sub_some _ _ _ p_stbl0)) as H3.
  destruct (boxes_facts ct yt dt ce ye cx yx _ _ H3) as (K4 & _). rewrite Forall_forall in K4.
  destruct (pick_some _ _ _ p_stsd0) as (x & Ix & Ex).
  assert (OS : l_ok (stsd_layout ct yt ce ye) sd).
  { pose proof (K4 _ Ix) as Q. destruct x as [y|[y|[y|[y|[y|[y|[y|[y|[y|y]]]]]]]]]; try discriminate Ex. injection Ex as ->. exact Q. }
  apply media_parts. exists (kv a), (kv b), (kv c), (kv d), (l_view (stsd_layout ct yt ce ye) sd), (l_view (dref_layout entry_codec (lsum url_layout no_urn)) dr).
  constructor; cbn [viewed me_stts me_ctts me_stss me_padb me_stsz me_stco me_stsc me_descs me_drefs].
  - rewrite sub_view, p_mdia0. reflexivity.
  - rewrite sub_view, p_minf0. reflexivity.
  - rewrite sub_view, p_dinf0. reflexivity.
  - rewrite sub_view, p_stbl0. reflexivity.
  - rewrite (pick_view ct yt ce ye yx is_dref (l_view (dref_layout entry_codec (lsum url_layout no_urn)))), p_dref0 by (intros z; destruct z as [y|[y|[y|[y|[y|[y|[y|[y|[y|[y|y]]]]]]]]]]; reflexivity). reflexivity.
  - rewrite (pick_view ct yt ce ye yx is_stts (l_view stts_layout)), p_stts0 by (intros z; destruct z as [y|[y|y]]; reflexivity). reflexivity.
  - rewrite (pick_view ct yt ce ye yx is_stsz (l_view stsz_layout)), p_stsz0 by (intros z; destruct z as [y|[y|[y|[y|[y|y]]]]]; reflexivity). reflexivity.
  - rewrite (pick_view ct yt ce ye yx is_stsc (l_view stsc_layout)), p_stsc0 by (intros z; destruct z as [y|[y|[y|[y|[y|[y|y]]]]]]; reflexivity). reflexivity.
  - rewrite (pick_view ct yt ce ye yx is_stco (fun x => x)), p_stco0 by (intros z; destruct z as [y|[y|[y|[y|[y|[y|[y|y]]]]]]]; reflexivity). reflexivity.
  - rewrite (pick_view ct yt ce ye yx is_stsd (l_view (stsd_layout ct yt ce ye))), p_stsd0 by (intros z; destruct z as [y|[y|[y|[y|[y|[y|[y|[y|[y|y]]]]]]]]]; reflexivity). reflexivity.
  - cbn [dref_layout l_view dr_kids]. rewrite forallb_forall in p_own0 |- *. intros z Iz. apply in_map_iff in Iz. destruct Iz as (w & <- & Iw). rewrite own_view. apply p_own0, Iw.
  - rewrite (pick_view ct yt ce ye yx is_ctts (l_view ctts_layout)), p_ctts0 by (intros z; destruct z as [y|[y|[y|y]]]; reflexivity). reflexivity.
  - rewrite (pick_view ct yt ce ye yx is_stss (l_view stss_layout)), p_stss0 by (intros z; destruct z as [y|[y|[y|[y|y]]]]; reflexivity). reflexivity.
  - rewrite (pick_view ct yt ce ye yx is_padb (l_view padb_layout)), p_padb0 by (intros z; destruct z as [y|[y|[y|[y|[y|[y|[y|[y|y]]]]]]]]; reflexivity). reflexivity.
  - rewrite p_descs0. cbn [stsd_layout l_view sd_ents]. rewrite map_map. apply map_ext_in. intros e Ie. symmetry. apply (dri_view ct yt ce ye edri VE).
    destruct OS as [_ OS]. rewrite Forall_forall in OS. apply OS, Ie.
  - rewrite p_drefs0. cbn [dref_layout l_view dr_kids]. symmetry. apply len_map.
Qed.
Lemma medias_view ks : forall ms, Forall tree_ok ks -> medias ks = Ok ms -> medias (kv ks) = Ok (map viewed ms).
Proof.
  intros ms H. revert ms. induction H as [|k ks Hk H IH]; intros ms Hm; [injection Hm as <-; reflexivity|]. rewrite (kv_cons ct yt ce ye yx).
  destruct k as [t uu x|t x|x|t l]; cbn [ReopenModel.medias] in Hm; try (cbn [free_box app ReopenModel.medias]; exact (IH _ Hm)).
  rewrite view_boxes. cbn [free_box app ReopenModel.medias]. destruct (N.eqb_spec t T_trak) as [->|]; [|exact (IH _ Hm)].
  apply bind_ok in Hm. destruct Hm as (m & A & Hm). apply bind_ok in Hm. destruct Hm as (ms' & B & Hm). injection Hm as <-.
  rewrite (media_view l m Hk A), (IH _ B). reflexivity.
Qed.
Lemma medias_trak ks : forall ms (P : media -> Prop), medias ks = Ok ms -> Forall P ms ->
  forall l, In (ABoxes _ T_trak l) ks -> exists m, media_of l = Ok m /\ P m.
Proof.
  induction ks as [|k ks IH]; intros ms P Hm HP l Il; [destruct Il|].
  destruct k as [t uu x|t x|x|t l']; cbn [ReopenModel.medias] in Hm; try (destruct Il as [Il|Il]; [discriminate|exact (IH _ P Hm HP l Il)]).
  destruct (N.eqb_spec t T_trak) as [->|Ht].
  - apply bind_ok in Hm. destruct Hm as (m & A & Hm). apply bind_ok in Hm. destruct Hm as (ms' & B & Hm). injection Hm as <-. inversion HP; subst.
    destruct Il as [Il|Il]; [injection Il as ->; eauto|]. exact (IH _ P B H2 l Il).
  - destruct Il as [Il|Il]; [congruence|exact (IH _ P Hm HP l Il)].
Qed.

Lemma media_trak_mended l m t D : media_of l = Ok m -> minv (mended m) t D -> Forall (fun o => o < len D) (co_list (me_stco m)) -> trak_ok edri (len D) l.
Proof.
  intros Hm I Ho. apply media_parts in Hm. destruct Hm as (a & b & c & d & sd & dr & []).
  exists (me_stsc m), (me_stco m), sd, dr. split; [|split; [|split]].
  - exists a, b, c, d. change (code "mdia") with T_mdia. change (code "minf") with T_minf. change (code "dinf") with T_dinf. change (code "stbl") with T_stbl.
    split; [exact (sub_some _ _ _ p_mdia0)|]. split; [exact (sub_some _ _ _ p_minf0)|]. split; [exact (sub_some _ _ _ p_dinf0)|]. split; [exact (sub_some _ _ _ p_stbl0)|].
    split; [|split; [|split]].
    + destruct (pick_some _ _ _ p_dref0) as (x & Ix & Ex). destruct x as [y|[y|[y|[y|[y|[y|[y|[y|[y|[y|y]]]]]]]]]]; try discriminate Ex. injection Ex as ->. exact Ix.
    + destruct (pick_some _ _ _ p_stsc0) as (x & Ix & Ex). destruct x as [y|[y|[y|[y|[y|[y|y]]]]]]; try discriminate Ex. injection Ex as ->. exact Ix.
    + destruct (pick_some _ _ _ p_stco0) as (x & Ix & Ex). destruct x as [y|[y|[y|[y|[y|[y|[y|y]]]]]]]; try discriminate Ex. injection Ex as ->. exact Ix.
    + destruct (pick_some _ _ _ p_stsd0) as (x & Ix & Ex). destruct x as [y|[y|[y|[y|[y|[y|[y|[y|[y|y]]]]]]]]]; try discriminate Ex. injection Ex as ->. exact Ix.
  - destruct (v_chunks _ _ _ I) as (ch & gs & (A & _) & _). exact A.
  - intros f s x Ix. destruct (v_chunks _ _ _ I) as (ch & gs & (A & B & _) & _ & _ & _ & _ & G).
    destruct A as (A & _). destruct (in_chunks _ _ _ _ _ A Ix) as ([s' x'] & Ic & Ex). cbn [snd] in Ex. subst x'. rewrite B in Ic. rewrite Forall_forall in G.
    specialize (G _ Ic). cbn [snd] in G. cbn [mended me_descs] in G. rewrite p_descs0, len_map in G. unfold here. destruct (N.eqb_spec x 0); [lia|].
    destruct (nthN (sd_ents sd) (x - 1)) as [e|] eqn:Q; [|unfold nthN in Q; apply nth_error_None in Q; unfold len in G; lia].
    pose proof (v_descs _ _ _ I) as V. cbn [mended me_descs me_drefs] in V. rewrite p_descs0 in V. rewrite Forall_forall in V.
    specialize (V _ (in_map _ _ _ (nthN_in _ _ _ Q))). rewrite p_drefs0 in V. destruct (N.eqb_spec (ent_dri edri e) 0); [lia|].
    destruct (nthN (dr_kids dr) (ent_dri edri e - 1)) as [r|] eqn:Q2; [|unfold nthN in Q2; apply nth_error_None in Q2; unfold len in V; lia].
    rewrite forallb_forall in p_own0. specialize (p_own0 _ (nthN_in _ _ _ Q2)). destruct r as [t0 uu z|t0 z|[u|u]|t0 k0]; cbn [own_ref] in p_own0; discriminate.
  - apply Forall_forall. intros [c0 o] Ip _. cbn [snd]. rewrite Forall_forall in Ho. apply Ho. exact (in_combine_r _ _ _ _ Ip).
Qed.
Lemma saved_reopened drefs f ks ms d ts :
  saveable ct yt dt ce ye cx yx f ks -> movie_of edri f = Ok (ms, d) -> winv drefs (map mended ms, d) ts -> inside (ms, d) ->
  Forall (fun t => Forall (fun s => m_pad s < 8) (t_smps t)) ts -> fits_file ct yt dt ce ye cx yx f ks ts ->
  exists out f' d', to_file ct dt ce edri cx f = Ok (out, f) /\ to_handle ct dt ce edri cx f = Ok (out, f) /\ open_movie ct dt ce edri cx out = Ok f' /\
    opened_of edri f' = Ok ((map viewed ms, d'), map t_desc (map reopened ts)) /\
    md_data d' = md_data d /\ winv drefs (map mended (map viewed ms), d') (map reopened ts).
Proof.
  intros S Hm [WF WS] [Hb Hi] Hp [Hst Hsz]. cbn [fst snd] in *. destruct S. unfold movie_of in Hm. rewrite s_moov in Hm. destruct (f_mdat f) as [d0|] eqn:Ed; [|discriminate].
  apply bind_ok in Hm. destruct Hm as (ms' & Hms & Hm). injection Hm as -> ->.
  destruct (boxes_facts ct yt dt ce ye cx yx _ _ s_tree) as (K1 & _).
  assert (WF' : Forall2 (fun m t => minv (mended m) t (md_data d) /\ me_drefs m = drefs) ms ts).
  { remember (map mended ms) as mm eqn:Q. clear - WF Q. revert ms Q. induction WF as [|m t mm ts A _ IH]; intros [|m' ms] Q; try discriminate; [constructor|].
    cbn [map] in Q. injection Q as -> ->. constructor; [exact A|]. apply IH. reflexivity. }
  clear WF. rename WF' into WF.
  assert (P : Forall (fun m => (exists t, minv (mended m) t (md_data d)) /\ Forall (fun o => o < len (md_data d)) (co_list (me_stco m))) ms).
  { clear - WF Hi. induction WF as [|m t ms ts [A _] _ IH]; [constructor|]. inversion Hi; subst. constructor; eauto. }
  assert (MO : movie_ok ct yt dt ce ye edri cx yx f ks d).
  { constructor; try assumption; [|split; [exact Hb|lia]].
    intros l Il. split; [|apply s_trak, Il]. destruct (medias_trak _ _ _ Hms P l Il) as (m & A & (t & B) & C). exact (media_trak_mended l m t _ A B C). }
  destruct (saved_opened ct yt dt ce ye edri cx yx FT FE FX AX VE f ks d MO) as (ks' & out & A & B & _ & _ & C); [rewrite WS; exact Hsz|].
  exists out, (movie_view ct yt ce ye yx f ks d), (mkMdat (md_data d) (len (md_data d))). split; [exact A|]. split; [exact B|]. split; [exact C|].
  split; [|split; [reflexivity|]].
  - unfold opened_of, movie_of, movie_view. cbn [f_moov f_mdat]. destruct (N.eqb_spec (len (md_data d)) 0); [lia|].
    rewrite (medias_view ks ms K1 Hms). cbn [bind fst]. do 2 f_equal. clear - WF. induction WF as [|m t ms ts _ _ IH]; [reflexivity|]. cbn [map reopened t_desc] in *. f_equal. exact IH.
  - split; cbn [fst snd md_data].
    + clear - WF Hp. induction WF as [|m t ms ts [A B] _ IH]; [constructor|]. inversion Hp; subst. cbn [map]. constructor; [|apply IH; assumption].
      split; [rewrite <- mended_twice; apply mended_viewed; assumption|reflexivity].
    + rewrite WS. clear. induction ts as [|t ts IH]; [reflexivity|]. cbn [map stored fold_right reopened t_smps] in *. unfold stored in IH. rewrite IH. reflexivity.
Qed.

(* everything that can be reached *)
Record rinv (drefs : N) (saved : bool) (w : movie * list bool) (ts : list track) : Prop := {
  r_cur : snd w = map t_desc ts;
  r_w : winv drefs (map mended (fst (fst w)), snd (fst w)) ts;
  r_new : saved = false -> winv drefs (fst w) ts;
  r_in : inside (fst w);
  r_pad : Forall (fun t => Forall (fun s => m_pad s < 8) (t_smps t)) ts;
  r_st : stored ts < 4294967296 }.
Lemma winv_mended drefs ms d ts : winv drefs (ms, d) ts -> winv drefs (map mended ms, d) ts.
Proof.
  intros [A B]. split; [|exact B]. cbn [fst snd] in *. clear B. induction A as [|m t ms ts [A1 A2] _ IH]; cbn [map]; constructor; [|exact IH].
  split; [apply mended_ok, A1|exact A2].
Qed.
Lemma opened_is_step w cur o x w' cur' : opened_step (w, cur) o = Ok (x, (w', cur')) -> movie_step w o = Ok (x, w').
Proof.
  unfold opened_step. destruct o as [i ss b|i n]; cbn [fst snd].
  - destruct (nth_error cur i) as [c|]; [|discriminate]. destruct (_ && _); [discriminate|]. destruct (movie_step w (AAdd i ss b)) as [[x1 w1]| |]; try discriminate.
    cbn [bind fst snd]. intros Q. injection Q as <- <- _. reflexivity.
  - destruct (movie_step w (AGet i n)) as [[x1 w1]| |]; try discriminate. cbn [bind fst snd]. intros Q. injection Q as <- <- _. reflexivity.
Qed.
Lemma pads_step ts o : Forall (fun t => Forall (fun s => m_pad s < 8) (t_smps t)) ts -> storable o ->
  Forall (fun t => Forall (fun s => m_pad s < 8) (t_smps t)) (agrow ts o).
Proof.
  intros H S1. destruct o as [i ss b|i n]; cbn [agrow]; [|exact H]. destruct (nth_error ts i) as [t|] eqn:Et; [|exact H].
  apply Forall_upd; [exact H|]. cbn [tadd t_smps]. apply Forall_app. split; [exact (Forall_nth_in _ _ _ _ H Et)|]. destruct S1 as [_ S1].
  eapply Forall_impl; [|exact S1]. cbn beta. tauto.
Qed.
Lemma rinv_step drefs saved w ts o : rinv drefs saved w ts -> aop_ok drefs ts o -> stored (agrow ts o) < 4294967296 -> (saved = true -> grow_ok ts o) ->
  exists x w', opened_step w o = Ok (x, w') /\ (storable o -> rinv drefs saved w' (agrow ts o)) /\
    option_map fst x = match o with AAdd _ _ _ => None | AGet i n => match nth_error ts i with Some t => answer t n | None => None end end.
Proof.
  destruct w as [[ms d] cur]. intros [] Ho Hst Hg. cbn [fst snd] in *. destruct saved.
  - destruct (opened_step_ok drefs ms d cur ts o r_w0 r_cur0 r_st0 Ho Hst (Hg eq_refl)) as (x & ms' & d' & E1 & W & Ex).
    do 2 eexists. split; [exact E1|]. split; [|exact Ex]. intros Hs. pose proof (opened_is_step _ _ _ _ _ _ E1) as E2.
    constructor; cbn [fst snd]; [reflexivity|exact W|discriminate|exact (inside_step _ _ _ _ _ _ r_in0 Ho Hs E2)|apply pads_step; assumption|exact Hst].
  - specialize (r_new0 eq_refl). destruct (step_ok drefs (ms, d) ts o r_new0 r_st0 Ho Hst) as (x & [ms' d'] & E1 & W & Ex).
    exists x, ((ms', d'), map t_desc (agrow ts o)). split; [|split; [|exact Ex]].
    + unfold opened_step. cbn [fst snd]. destruct o as [i ss b|i n]; rewrite E1; cbn [bind fst snd agrow].
      * destruct Ho as (t & Ht & _ & _ & _ & Hde & _). rewrite Ht, r_cur0, nth_error_map, Ht. cbn [option_map].
        assert (Q : t_desc t || given_to (b_entry b) = true) by (destruct Hde as [-> |Hde]; [reflexivity|destruct (b_entry b); [apply orb_true_r|congruence]]).
        rewrite Q. cbn [negb]. rewrite andb_false_r, map_upd. cbn [tadd t_desc]. rewrite Q. reflexivity.
      * rewrite r_cur0. reflexivity.
    + intros Hs. constructor; cbn [fst snd]; [reflexivity|apply winv_mended, W|intros _; exact W|exact (inside_step _ _ _ _ _ _ r_in0 Ho Hs E1)|apply pads_step; assumption|exact Hst].
Qed.
Lemma inside_view ms d d' : inside (ms, d) -> md_data d' = md_data d -> inside (map viewed ms, d').
Proof.
  intros [A B] Q. unfold inside. cbn [fst snd] in *. rewrite Q. split; [exact A|]. clear A Q. induction B as [|m ms H _ IH]; cbn [map]; constructor; assumption.
Qed.
Lemma rinv_save drefs saved w ts f ks : rinv drefs saved w ts -> saveable ct yt dt ce ye cx yx f ks -> movie_of edri f = Ok (fst w) ->
  fits_file ct yt dt ce ye cx yx f ks ts ->
  exists out f' w', to_file ct dt ce edri cx f = Ok (out, f) /\ to_handle ct dt ce edri cx f = Ok (out, f) /\ open_movie ct dt ce edri cx out = Ok f' /\
    opened_of edri f' = Ok w' /\ rinv drefs true w' (map reopened ts).
Proof.
  destruct w as [[ms d] cur]. intros [] S M F. cbn [fst snd] in *.
  destruct (saved_reopened drefs f ks ms d ts S M r_w0 r_in0 r_pad0 F) as (out & f' & d' & A & B & C & D & G & W).
  exists out, f', ((map viewed ms, d'), map t_desc (map reopened ts)). repeat (split; [assumption|]).
  constructor; cbn [fst snd]; [reflexivity|exact W|discriminate|exact (inside_view _ _ _ r_in0 G)| |].
  - clear - r_pad0. induction r_pad0; cbn [map]; constructor; assumption.
  - assert (Q : stored (map reopened ts) = stored ts); [|rewrite Q; exact r_st0]. clear. induction ts as [|t ts IH]; [reflexivity|]. cbn [map stored fold_right reopened t_smps] in *. unfold stored in IH. rewrite IH. reflexivity.
Qed.
Lemma reach_inv drefs saved w ts : reach ct yt dt ce ye cx yx edri drefs saved w ts -> rinv drefs saved w ts.
Proof.
  induction 1 as [junk k|saved w ts o x w' _ IH Ho Hst Hs Hg E1|saved w ts f ks out f1 f2 w' _ IH S M F E1 E2 E3].
  - pose proof (winv_new junk drefs k) as W. constructor; cbn [fst snd].
    + clear. induction k; cbn [repeat map]; [reflexivity|]. f_equal. assumption.
    + apply winv_mended, W.
    + intros _. exact W.
    + apply inside_new.
    + clear. induction k; cbn [repeat]; constructor; [constructor|assumption].
    + rewrite stored_new. reflexivity.
  - destruct (rinv_step drefs saved w ts o IH Ho Hst Hg) as (x2 & w2 & E2 & R & _). rewrite E1 in E2. injection E2 as -> ->. apply R, Hs.
  - destruct (rinv_save drefs saved w ts f ks IH S M F) as (out2 & f3 & w3 & A & _ & B & C & R). rewrite E1 in A. injection A as -> ->. rewrite E2 in B. injection B as ->.
    rewrite E3 in C. injection C as ->. exact R.
Qed.
End Trees.

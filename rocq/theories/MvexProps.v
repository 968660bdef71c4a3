(* MvexProps.v -- C81: defaults of fragments and track properties in the movie
   extends box, the start of the first fragment, delays of fragments. *)
From Verif Require Import Base Codec BitLemmas AtomModel AtomSpec AtomProofs BoxModel BoxSpec BoxProofs Reads HeaderModel HeaderSpec HeaderProofs
  KidsModel KidsProofs EntryModel EntrySpec EntryProofs CttsModel CttsProofs CttsProps SmallModel SmallSpec SmallProofs FragModel MdatModel
  MediaSpec MediaModel MoofModel MvexModel MvexSpec.

(* ------------------------------------------------------------------ *)
Definition kid_layout : layout mvkid := lsum trex_layout (trep_layout cslg_codec cslg_layout).
Lemma kid_faithful : faithful mvkid_codec kid_layout.
Proof.
  apply faithful_sum; [apply exact_faithful, trex_exact|apply trep_faithful, exact_faithful, cslg_exact|]. intros t _. reflexivity.
Qed.
Definition mvex_layout : layout mvex := mkLayout (fun _ => code "mvex")
  (fun m => kids_bytes mvkid_codec kid_layout (mv_trex m ++ mv_trep m))
  (fun m => mkMvex (kid_view kid_layout (mv_trex m ++ mv_trep m)) [])
  (fun m => Forall (kid_ok mvkid_codec kid_layout) (mv_trex m ++ mv_trep m)).
Lemma mvex_faithful : faithful mvex_codec mvex_layout.
Proof.
  split; [intros t _; plain|]. intros [a b] Hk Hl.
  cbn [mvex_codec mvex_layout c_size c_w c_rd c_ty l_body l_view l_ok mv_trex mv_trep] in *. unfold kids_bytes in *.
  pose proof Hk as Hab. apply Forall_app in Hab. destruct Hab as [Ha Hb].
  rewrite flat_map_app in Hl |- *. rewrite len_app in Hl |- *.
  split.
  { rewrite (boxes_size_ok _ _ mvkid_dflt kid_faithful a) by (try exact Ha; lia).
    rewrite (boxes_size_ok _ _ mvkid_dflt kid_faithful b) by (try exact Hb; lia). lia. }
  split.
  { unfold mvex_w. cbn [mv_trex mv_trep]. apply writes_seq; apply (boxes_writes _ _ mvkid_dflt kid_faithful); (assumption || lia). }
  unfold mvex_rd. rewrite <- flat_map_app. apply reads_rmap with (f := fun l => mkMvex l []).
  apply (exts_reads _ _ mvkid_dflt kid_faithful); [exact Hk|cbn [h_size]; rewrite flat_map_app, len_app; reflexivity|cbn [h_size]; lia].
Qed.
Theorem C81_any_input : robust mvex_codec.
Proof.
  intros h. cbn [mvex_codec c_rd]. unfold mvex_rd. apply safe_bind; [|intros l; apply safe_ret].
  apply exts_safe. apply robust_sum; [apply trex_robust|apply trep_robust, cslg_robust].
Qed.
Print Assumptions C81_any_input.

(* ------------------------------------------------------------------ *)
(* Histories of calls on a movie that is made                           *)
Definition made (entry : N -> N) (ps : list defs) (qs : list comp) : mvex :=
  mkMvex (map (fun p => ALeaf mvkid (inl (trex_of (entry (p_id p)) p))) ps) (map (fun q => ALeaf mvkid (inr (trep_of q))) qs).
Lemma no_trep entry ps : forall n i id, find_trep n i (map (fun p => ALeaf mvkid (inl (trex_of (entry (p_id p)) p))) ps) id = None.
Proof.
  induction n as [|n IH]; intros i id; [reflexivity|]. cbn [find_trep]. rewrite nth_error_map. destruct (nth_error ps i); [cbn [option_map]; apply IH|reflexivity].
Qed.
Lemma flags_ok p : N.lor (N.shiftl (N.land (p_pad p) 7) 17) (if p_sync p =? 0 then 65536 else 0) = sample_flags p.
Proof.
  unfold sample_flags. change 7 with (N.ones 3). rewrite N.land_ones. change (2 ^ 3) with 8.
  rewrite N.shiftl_mul_pow2. change (2 ^ 17) with 131072.
  assert (H : p_pad p mod 8 < 8) by (apply N.mod_lt; discriminate). revert H. generalize (p_pad p mod 8). intros n H.
  assert (D : n = 0 \/ n = 1 \/ n = 2 \/ n = 3 \/ n = 4 \/ n = 5 \/ n = 6 \/ n = 7) by lia.
  destruct (p_sync p =? 0); repeat (destruct D as [->|D]; [reflexivity|]); subst n; reflexivity.
Qed.
Lemma run_some cs : forall entry ps qs, (forall i, entry i = 0) ->
  mcalls_run (InMovie (Some (made entry ps qs))) cs = Ok (InMovie (Some (made entry (ps ++ given cs) (qs ++ taken true cs)))).
Proof.
  induction cs as [|[id dur size sync pad|id a b c d e] cs IH]; intros entry ps qs He; cbn [mcalls_run given taken].
  - rewrite !app_nil_r. reflexivity.
  - cbn [mcall_run]. set (p := mkDefs id dur size sync pad).
    replace (set_defaults (Some (made entry ps qs)) id dur size sync pad) with (made entry (ps ++ [p]) qs).
    + rewrite IH by exact He. rewrite <- app_assoc. reflexivity.
    + unfold set_defaults, made. cbn [mv_trex mv_trep]. rewrite map_app. cbn [map]. unfold trex_of at 2. rewrite He, <- flags_ok. reflexivity.
  - cbn [mcall_run set_composition]. unfold mvex_set. unfold made at 2. cbn [mv_trex]. rewrite no_trep. cbn [bind].
    replace (mkMvex _ _) with (made entry ps (qs ++ [mkComp id a b c d e])) by (unfold made; rewrite map_app; reflexivity).
    rewrite IH by exact He. rewrite <- app_assoc. reflexivity.
Qed.
Lemma run_none cs : mcalls_run (InMovie None) cs =
  Ok (InMovie (match given cs with [] => None | _ => Some (made (fun _ => 0) (given cs) (taken false cs)) end)).
Proof.
  induction cs as [|[id dur size sync pad|id a b c d e] cs IH]; cbn [mcalls_run given taken]; [reflexivity| |].
  - cbn [mcall_run]. set (p := mkDefs id dur size sync pad).
    replace (set_defaults None id dur size sync pad) with (made (fun _ => 0) [p] []).
    + rewrite run_some by reflexivity. reflexivity.
    + unfold set_defaults, made. cbn [mv_trex mv_trep map app]. unfold trex_of. rewrite <- flags_ok. reflexivity.
  - cbn [mcall_run set_composition bind]. exact IH.
Qed.
Lemma given_ok cs : Forall mcall_ok cs -> Forall (fun p => p_id p < 4294967296 /\ p_dur p < 4294967296 /\ p_size p < 4294967296) (given cs).
Proof. induction 1 as [|[id dur size sync pad|id a b c d e] cs H _ IH]; cbn [given]; [constructor| |exact IH]. constructor; [cbn in *; tauto|exact IH]. Qed.
Lemma taken_ok cs : Forall mcall_ok cs -> forall s, Forall (fun q => q_id q < 4294967296 /\ i32 (q_shift q) /\ i32 (q_least q) /\ i32 (q_great q) /\ i32 (q_start q) /\ i32 (q_end q)) (taken s cs).
Proof. induction 1 as [|[id dur size sync pad|id a b c d e] cs H _ IH]; intros s; cbn [taken]; [constructor|apply IH|]. destruct s; [|apply IH]. constructor; [exact H|apply IH]. Qed.
Lemma made_ok cs entry s : Forall mcall_ok cs -> (forall i, entry i < 4294967296) -> l_ok mvex_layout (made entry (given cs) (taken s cs)).
Proof.
  intros H He. cbn [mvex_layout l_ok made mv_trex mv_trep]. apply Forall_app. split; apply Forall_map.
  - eapply Forall_impl; [|apply given_ok, H]. cbn beta. intros p (H1 & H2 & H3). cbn. unfold sample_flags, full_ok. pose proof (He (p_id p)).
    assert (p_pad p mod 8 < 8) by (apply N.mod_lt; discriminate). destruct (p_sync p =? 0); repeat split; try lia; assumption.
  - eapply Forall_impl; [|apply taken_ok, H]. cbn beta. intros q (H1 & H2 & H3 & H4 & H5 & H6).
    cbn [kid_ok wf kid_layout lsum l_ok trep_layout trep_of tp_ver tp_flags tp_track tp_kids].
    split; [cbn; unfold full_ok; lia|]. split; [exact H1|]. constructor; [|constructor].
    cbn. unfold full_ok. split; [lia|]. repeat split; (apply H2 || apply H3 || apply H4 || apply H5 || apply H6).
Qed.
Lemma made_bytes entry ps qs : box (l_ty mvex_layout (made entry ps qs)) (l_body mvex_layout (made entry ps qs)) = mvex_bytes entry ps qs.
Proof.
  unfold mvex_bytes. cbn [mvex_layout l_ty l_body made mv_trex mv_trep]. f_equal. unfold kids_bytes. rewrite flat_map_app. f_equal.
  - rewrite flat_map_concat_map, map_map, <- flat_map_concat_map. reflexivity.
  - rewrite flat_map_concat_map, map_map, <- flat_map_concat_map. apply flat_map_ext. intros q.
    cbn [kid_enc enc mvkid_codec csum c_ty kid_layout lsum l_body trep_codec trep_layout]. unfold trep_bytes, trep_of. cbn [tp_ver tp_flags tp_track tp_kids].
    unfold kids_bytes. cbn [flat_map kid_enc enc cslg_codec c_ty cslg_layout l_body cs_ver cs_flags cs_shift cs_least cs_great cs_start cs_end]. rewrite app_nil_r. reflexivity.
Qed.
Definition read_back (entry : N -> N) (ps : list defs) (qs : list comp) : mvex :=
  mkMvex (map (fun p => ALeaf mvkid (inl (trex_of (entry (p_id p)) p))) ps ++ map (fun q => ALeaf mvkid (inr (trep_of q))) qs) [].
Lemma made_view entry ps qs : l_view mvex_layout (made entry ps qs) = read_back entry ps qs.
Proof.
  cbn [mvex_layout l_view made mv_trex mv_trep]. unfold read_back. f_equal. unfold kid_view. rewrite map_app, !map_map, filter_app. f_equal.
  - induction ps as [|p ps IH]; [reflexivity|]. cbn [map filter free_box strip negb]. f_equal. exact IH.
  - induction qs as [|p qs IH]; [reflexivity|]. cbn [map filter free_box strip negb]. f_equal. exact IH.
Qed.
Lemma back_bytes entry ps qs : box (l_ty mvex_layout (read_back entry ps qs)) (l_body mvex_layout (read_back entry ps qs)) = mvex_bytes entry ps qs.
Proof. rewrite <- made_bytes. cbn [mvex_layout l_ty l_body made read_back mv_trex mv_trep]. rewrite app_nil_r. reflexivity. Qed.
Lemma back_ok entry ps qs : l_ok mvex_layout (made entry ps qs) -> l_ok mvex_layout (read_back entry ps qs).
Proof. cbn [mvex_layout l_ok made read_back mv_trex mv_trep]. rewrite app_nil_r. tauto. Qed.

Lemma len_mvex m : len (box (l_ty mvex_layout m) (l_body mvex_layout m)) < 4294967296 -> 8 + len (l_body mvex_layout m) < 4294967296.
Proof. unfold box. lens. lia. Qed.
(* Any history of calls on a new movie: without defaults nothing is there, and
   otherwise the box is written with one trex for every call that sets
   defaults and one trep for every call that sets composition properties after
   the first defaults, all in order; reading it gives all these boxes,
   and writing these gives the same bytes. A box cut short is refused. *)
Theorem C81_history_saved :
  forall cs, Forall mcall_ok cs ->
  let bytes := mvex_bytes (fun _ => 0) (given cs) (taken false cs) in
  len bytes < 4294967296 ->
  (given cs = [] -> mcalls_run (InMovie None) cs = Ok (InMovie None)) /\
  (given cs <> [] -> exists m m',
     mcalls_run (InMovie None) cs = Ok (InMovie (Some m)) /\ write_box mvex_codec m = Ok bytes /\
     (forall dflt rest, read_box mvex_codec dflt (bytes ++ rest) = Ok ((ALeaf mvex m', len bytes), rest)) /\
     (forall dflt p q, bytes = p ++ q -> q <> [] -> exists e, read_box mvex_codec dflt p = Err e) /\
     mv_trex m' = map (fun p => ALeaf mvkid (inl (trex_of 0 p))) (given cs) ++ map (fun q => ALeaf mvkid (inr (trep_of q))) (taken false cs) /\
     write_box mvex_codec m' = Ok bytes).
Proof.
  intros cs H bytes L. rewrite run_none. split; [intros ->; reflexivity|]. intros Hg.
  exists (made (fun _ => 0) (given cs) (taken false cs)), (read_back (fun _ => 0) (given cs) (taken false cs)).
  split; [destruct (given cs); [congruence|reflexivity]|].
  assert (O := made_ok cs (fun _ => 0) false H (fun _ => eq_refl)).
  destruct (faithful_round_trip _ _ _ mvex_faithful O) as (_ & W & R & T); [apply len_mvex; rewrite made_bytes; exact L|].
  destruct (faithful_round_trip _ _ _ mvex_faithful (back_ok _ _ _ O)) as (_ & W' & _ & _); [apply len_mvex; rewrite back_bytes; exact L|].
  rewrite made_bytes in *. rewrite back_bytes in W'. rewrite made_view in R.
  split; [exact W|]. split; [exact R|]. split; [exact T|]. split; [reflexivity|exact W'].
Qed.
Print Assumptions C81_history_saved.
Definition ex_calls : list mcall :=
  [SetComposition 1 0 0 0 0 0; SetDefaults 1 1000 0 1 0; SetComposition 2 5 (-5) 20 0 7000; SetDefaults 2 40 17 0 13; SetComposition 1 0 0 3 0 99].
Example C81_history_case :
  Forall mcall_ok ex_calls /\ given ex_calls <> [] /\ taken false ex_calls = [mkComp 2 5 (-5) 20 0 7000; mkComp 1 0 0 3 0 99] /\
  map sample_flags (given ex_calls) = [0; 720896] /\ len (mvex_bytes (fun _ => 0) (given ex_calls) (taken false ex_calls)) = 168.
Proof. split; [repeat (constructor; [cbn; unfold i32; lia|]); constructor|]. split; [discriminate|]. split; [reflexivity|]. split; reflexivity. Qed.

(* The defaults of a track are the first that were set for it, in a movie that
   was made and in one that was read. *)
Lemma get_defaults_made entry ps id out l :
  get_defaults (map (fun p => ALeaf mvkid (inl (trex_of (entry (p_id p)) p))) ps ++ l) id out =
  match List.find (fun p => p_id p =? id) ps with Some p => Some (trex_of (entry id) p) | None => get_defaults l id out end.
Proof.
  induction ps as [|p ps IH]; [reflexivity|]. cbn [map app get_defaults List.find]. cbn [trex_of tx_trackID].
  destruct (N.eqb_spec (p_id p) id) as [->|]; [reflexivity|exact IH].
Qed.
Theorem C81_first_defaults :
  forall cs m m' dflt rest id out, Forall mcall_ok cs -> len (mvex_bytes (fun _ => 0) (given cs) (taken false cs)) < 4294967296 ->
  mcalls_run (InMovie None) cs = Ok (InMovie (Some m)) ->
  read_box mvex_codec dflt (mvex_bytes (fun _ => 0) (given cs) (taken false cs) ++ rest) =
    Ok ((ALeaf mvex m', len (mvex_bytes (fun _ => 0) (given cs) (taken false cs))), rest) ->
  let first := match List.find (fun p => p_id p =? id) (given cs) with Some p => Some (trex_of 0 p) | None => out end in
  get_defaults (mv_trex m) id out = first /\ get_defaults (mv_trex m') id out = first.
Proof.
  intros cs m m' dflt rest id out H L R Q first. rewrite run_none in R.
  assert (Hg : given cs <> []) by (intros E; rewrite E in R; discriminate R).
  destruct (C81_history_saved cs H L) as [_ S]. destruct (S Hg) as (m1 & m2 & S1 & _ & S3 & _ & S5 & _).
  rewrite S3 in Q. injection Q as <-. split.
  - assert (Em : m = made (fun _ => 0) (given cs) (taken false cs)) by (clear - R Hg; destruct (given cs); [congruence|injection R as <-; reflexivity]).
    rewrite Em. unfold made. cbn [mv_trex].
    pose proof (get_defaults_made (fun _ => 0) (given cs) id out []) as G. rewrite app_nil_r in G. rewrite G. reflexivity.
  - rewrite S5. pose proof (get_defaults_made (fun _ => 0) (given cs) id out) as G. rewrite G. unfold first.
    destruct (List.find _ (given cs)); [reflexivity|]. generalize (taken false cs). intros l. induction l as [|q l IH]; [reflexivity|exact IH].
Qed.
Print Assumptions C81_first_defaults.
Example C81_first_defaults_case :
  List.find (fun p => p_id p =? 2) (given (ex_calls ++ [SetDefaults 2 1 1 1 1])) = Some (mkDefs 2 40 17 0 13).
Proof. reflexivity. Qed.

(* ------------------------------------------------------------------ *)
(* The first fragment                                                   *)
Definition entry_in (ts : list mtrk) (id : N) : N :=
  match List.find (fun t => fst (fst t) =? id) ts with Some t => snd (fst t) | None => 0 end.
Lemma media_of_in ts id e d : unique ts -> id <> 0 -> In (id, e, d) ts -> media_of ts id = Ok (id, e, d).
Proof.
  intros U Z I. unfold media_of. destruct (N.eqb_spec id 0); [congruence|].
  enough (E : List.find (fun t => fst (fst t) =? id) ts = Some (id, e, d)) by (rewrite E; reflexivity).
  unfold unique in U. induction ts as [|[[i f] g] ts IH]; [destruct I|]. cbn [List.find fst]. cbn [map fst] in U. inversion U; subst.
  destruct I as [E|I].
  - injection E as -> -> ->. rewrite N.eqb_refl. reflexivity.
  - destruct (N.eqb_spec i id) as [->|]; [exfalso; apply H1; apply in_map_iff; exists (id, e, d); auto|apply IH; assumption].
Qed.
Lemma entry_in_in ts id e d : unique ts -> id <> 0 -> In (id, e, d) ts -> entry_in ts id = e.
Proof.
  intros U Z I. pose proof (media_of_in ts id e d U Z I) as M. unfold media_of in M. unfold entry_in.
  destruct (id =? 0); [discriminate|]. destruct (List.find _ ts); [|discriminate]. injection M as ->. reflexivity.
Qed.
Lemma set_indexes_made ts ps : unique ts -> Forall (has_media ts) ps ->
  set_indexes ts (map (fun p => ALeaf mvkid (inl (trex_of 0 p))) ps) = Ok (map (fun p => ALeaf mvkid (inl (trex_of (entry_in ts (p_id p)) p))) ps).
Proof.
  intros U. induction 1 as [|p ps (Z & e & d & I) _ IH]; [reflexivity|]. cbn [map set_indexes]. cbn [trex_of tx_trackID].
  rewrite (media_of_in ts _ e d U Z I). cbn [bind]. rewrite IH. cbn [bind fst snd]. rewrite (entry_in_in ts _ e d U Z I). reflexivity.
Qed.
Lemma make_tracks_made ts ps : unique ts -> Forall (has_media ts) ps ->
  exists ws, make_tracks ts (map (fun p => ALeaf mvkid (inl (trex_of (entry_in ts (p_id p)) p))) ps) = Ok ws /\
  Forall2 (fun p w => exists e d, In (p_id p, e, d) ts /\
    w = mkWtrk (p_id p) (mkTdef e (p_dur p) (p_size p) (sample_flags p)) (d mod 4294967296)) ps ws.
Proof.
  intros U. induction 1 as [|p ps (Z & e & d & I) _ IH]; [exists []; split; [reflexivity|constructor]|]. destruct IH as (ws & E & F).
  cbn [map make_tracks]. cbn [trex_of tx_trackID]. rewrite (media_of_in ts _ e d U Z I). cbn [bind]. rewrite E. cbn [bind snd].
  eexists. split; [reflexivity|]. constructor; [|exact F]. exists e, d. split; [exact I|]. cbn [tx_descIndex tx_duration tx_size tx_sflags].
  rewrite (entry_in_in ts _ e d U Z I). reflexivity.
Qed.
(* When every track with defaults has media, starting the first fragment puts
   the tracks' current sample entries into the boxes, which are saved so, and
   every call that set defaults gets a track fragment: with the id, these
   defaults, and the media's duration as its start. *)
Theorem C81_first_fragment :
  forall cs ts, Forall mcall_ok cs -> given cs <> [] -> unique ts -> Forall (has_media ts) (given cs) ->
  Forall (fun t => snd (fst t) < 4294967296) ts ->
  exists m entry ws m', mcalls_run (InMovie None) cs = Ok (InMovie (Some m)) /\
    start_first ts (Some m) = Ok (InFragment m' (frag_start ws)) /\
    (forall id e d, id <> 0 -> In (id, e, d) ts -> entry id = e) /\
    (len (mvex_bytes entry (given cs) (taken false cs)) < 4294967296 ->
       write_box mvex_codec m' = Ok (mvex_bytes entry (given cs) (taken false cs))) /\
    Forall2 (fun p w => exists e d, In (p_id p, e, d) ts /\
      w = mkWtrk (p_id p) (mkTdef e (p_dur p) (p_size p) (sample_flags p)) (d mod 4294967296)) (given cs) ws.
Proof.
  intros cs ts H Hg U M B. destruct (make_tracks_made ts (given cs) U M) as (ws & E & F).
  exists (made (fun _ => 0) (given cs) (taken false cs)), (entry_in ts), ws, (made (entry_in ts) (given cs) (taken false cs)).
  split; [rewrite run_none; destruct (given cs); [congruence|reflexivity]|].
  split; [unfold start_first, made; cbn [mv_trex mv_trep]; rewrite set_indexes_made by assumption; cbn [bind]; rewrite E; reflexivity|].
  split; [intros id e d Z I; apply (entry_in_in ts id e d U Z I)|]. split; [|exact F].
  intros L. assert (Be : forall i, entry_in ts i < 4294967296).
  { intros i. unfold entry_in. destruct (List.find _ ts) eqn:Q; [|lia]. apply find_some in Q. rewrite Forall_forall in B. apply B, Q. }
  destruct (faithful_round_trip _ _ _ mvex_faithful (made_ok cs (entry_in ts) false H Be)) as (_ & W & _); [apply len_mvex; rewrite made_bytes; exact L|].
  rewrite made_bytes in W. exact W.
Qed.
Print Assumptions C81_first_fragment.
Example C81_first_fragment_case :
  unique [(2, 1, 40); (1, 3, 4294967299)] /\ Forall (has_media [(2, 1, 40); (1, 3, 4294967299)]) (given ex_calls) /\
  make_tracks [(2, 1, 40); (1, 3, 4294967299)] (map (fun p => ALeaf mvkid (inl (trex_of 1 p))) (given ex_calls)) =
  Ok [mkWtrk 1 (mkTdef 1 1000 0 0) 3; mkWtrk 2 (mkTdef 1 40 17 720896) 40].
Proof.
  split; [repeat constructor; cbn; intuition discriminate|]. split; [|reflexivity].
  constructor; [split; [discriminate|]; exists 3, 4294967299; right; left; reflexivity|].
  constructor; [split; [discriminate|]; exists 1, 40; left; reflexivity|constructor].
Qed.
(* without defaults for any track there is no fragment *)
Theorem C81_no_defaults_no_fragment :
  forall cs ts, given cs = [] -> exists o, mcalls_run (InMovie None) cs = Ok (InMovie o) /\ start_first ts o = Err MP4BadParamErr.
Proof. intros cs ts E. exists None. rewrite run_none, E. split; reflexivity. Qed.
Print Assumptions C81_no_defaults_no_fragment.

(* ------------------------------------------------------------------ *)
(* Delays                                                               *)
Definition later (d : N) (x : wtrk * traf) : wtrk * traf :=
  (mkWtrk (wk_id (fst x)) (wk_def (fst x)) (w32 (wk_time (fst x) + d)),
   mkTraf (f_hdr (snd x)) (option_map (fun td => mkTfdt (td_ver td) (td_flags td) (w64 (td_time td + d))) (f_time (snd x)))
     (f_saiz (snd x)) (f_saio (snd x)) (f_runs (snd x)) (f_sgpd (snd x)) (f_sbgp (snd x))).
Definition timed (x : wtrk * traf) : Prop := f_time (snd x) <> None.
Lemma delay_map d l : Forall timed l -> mapm (delay_track d) l = Ok (map (later d) l).
Proof.
  induction 1 as [|[w t] l Hx _ IH]; [reflexivity|]. cbn [mapm map]. unfold delay_track at 1, later at 1. cbn [fst snd] in *. unfold timed in Hx. cbn [snd] in Hx.
  destruct (f_time t) as [td|]; [|congruence]. cbn [bind option_map]. rewrite IH. reflexivity.
Qed.
Lemma frag_delay_ok d g : Forall timed (g_trks g) -> frag_delay d g = Ok (mkFrag (map (later d) (g_trks g)) (g_data g)).
Proof. intros H. unfold frag_delay. rewrite delay_map by exact H. reflexivity. Qed.
Lemma times_later d es : forall a, fold_left (fun a e => w32 (a + e_dur e)) es (w32 (a + d)) = w32 (fold_left (fun a e => w32 (a + e_dur e)) es a + d).
Proof.
  induction es as [|e es IH]; intros a; cbn [fold_left]; [reflexivity|]. rewrite <- IH. f_equal.
  unfold w32. rewrite !N.add_mod_idemp_l by discriminate. f_equal. lia.
Qed.
Lemma upd_map {A B} (f : A -> B) l : forall i x, map f (upd l i x) = upd (map f l) i (f x).
Proof. induction l as [|y l IH]; intros [|i] x; cbn [upd map]; try reflexivity. f_equal. apply IH. Qed.
Lemma upd_Forall {A} (P : A -> Prop) l : Forall P l -> forall i x, P x -> Forall P (upd l i x).
Proof. induction 1 as [|y l Hy Hl IH]; intros [|i] x Hx; cbn [upd]; constructor; auto. Qed.
Lemma add_timed signed g i b g' : Forall timed (g_trks g) -> frag_add signed g i b = Ok g' -> Forall timed (g_trks g').
Proof.
  intros T E. unfold frag_add in E. destruct (nth_error (g_trks g) i) as [[w t]|] eqn:Q; [|discriminate]. destruct (b_entry b); [discriminate|].
  destruct (frag_run _ _ _) as [r| |]; try discriminate. cbn [bind] in E. destruct (mdat_add _ _) as [m| |]; try discriminate. cbn [bind] in E. injection E as <-.
  cbn [g_trks]. apply upd_Forall; [exact T|]. unfold timed, add_run_to. cbn [snd f_time].
  rewrite Forall_forall in T. apply nth_error_In in Q. exact (T _ Q).
Qed.
Lemma add_later signed d g i b : Forall timed (g_trks g) ->
  frag_add signed (mkFrag (map (later d) (g_trks g)) (g_data g)) i b =
  do g' <- frag_add signed g i b; Ok (mkFrag (map (later d) (g_trks g')) (g_data g')).
Proof.
  intros T. unfold frag_add. cbn [g_trks g_data]. rewrite nth_error_map. destruct (nth_error (g_trks g) i) as [[w t]|]; [|reflexivity].
  cbn [option_map]. unfold later at 1. cbn [fst snd]. destruct (b_entry b); [reflexivity|].
  destruct (frag_run _ _ _) as [r| |]; try reflexivity. cbn [bind]. destruct (mdat_add _ _) as [m| |]; try reflexivity. cbn [bind g_trks g_data].
  f_equal. f_equal. rewrite upd_map. f_equal. unfold later, add_run_to. cbn [fst snd wk_id wk_def wk_time f_hdr f_time f_saiz f_saio f_runs f_sgpd f_sbgp].
  rewrite times_later. reflexivity.
Qed.
Lemma adds_later signed d os : forall g, Forall timed (g_trks g) ->
  frag_adds signed (mkFrag (map (later d) (g_trks g)) (g_data g)) os =
  do g' <- frag_adds signed g os; Ok (mkFrag (map (later d) (g_trks g')) (g_data g')).
Proof.
  induction os as [|[i b] os IH]; intros g T; cbn [frag_adds]; [reflexivity|]. rewrite add_later by exact T.
  destruct (frag_add signed g i b) as [g1| |] eqn:E; try reflexivity. cbn [bind]. apply IH, (add_timed _ _ _ _ _ T E).
Qed.
Lemma adds_timed signed os : forall g g', Forall timed (g_trks g) -> frag_adds signed g os = Ok g' -> Forall timed (g_trks g').
Proof.
  induction os as [|[i b] os IH]; intros g g' T; cbn [frag_adds]; [intros E; injection E as <-; exact T|].
  destruct (frag_add signed g i b) as [g1| |] eqn:E; try discriminate. cbn [bind]. apply IH, (add_timed _ _ _ _ _ T E).
Qed.
Lemma start_timed ws : Forall timed (g_trks (frag_start ws)).
Proof. cbn [frag_start g_trks]. apply Forall_map, Forall_forall. intros w _. unfold timed. cbn. discriminate. Qed.
Definition moved (d : N) (w : wtrk) : wtrk := mkWtrk (wk_id w) (wk_def w) (wk_time w + d).
Lemma start_later d ws : Forall (fun w => wk_time w + d < 4294967296) ws ->
  map (later d) (g_trks (frag_start ws)) = g_trks (frag_start (map (moved d) ws)).
Proof.
  cbn [frag_start g_trks]. induction 1 as [|w ws Hw _ IH]; [reflexivity|]. cbn [map]. f_equal; [|exact IH].
  unfold later, moved, traf_start. cbn [fst snd wk_id wk_def wk_time f_hdr f_time f_saiz f_saio f_runs f_sgpd f_sbgp option_map td_ver td_flags td_time].
  unfold w64. rewrite (w32_small (wk_time w + d)), N.mod_small by lia. reflexivity.
Qed.
(* A delay given at any point of a fragment, between any additions of samples,
   is as if all tracks had started later by it: the fragment is that of tracks
   [moved] by the delay, and so are the times the next fragment goes on from.
   In a movie without fragments a delay is refused. *)
Theorem C81_delay :
  forall m signed ws d before after, Forall (fun w => wk_time w + d < 4294967296) ws ->
  (do g <- frag_adds signed (frag_start ws) before;
   do s <- add_delay d (InFragment m g);
   match s with InFragment m' g' => do g2 <- frag_adds signed g' after; Ok (m', g2) | InMovie _ => UB end) =
  (do g2 <- frag_adds signed (frag_start (map (moved d) ws)) (before ++ after); Ok (m, g2)) /\
  (forall o, add_delay d (InMovie o) = Err MP4InvalidMediaErr).
Proof.
  intros m signed ws d before after H. split; [|reflexivity].
  assert (A : forall os os' g, frag_adds signed g (os ++ os') = do g' <- frag_adds signed g os; frag_adds signed g' os').
  { induction os as [|[i b] os IH]; intros os' g; cbn [frag_adds app bind]; [reflexivity|]. destruct (frag_add signed g i b); try reflexivity. apply IH. }
  rewrite A.
  assert (E : frag_start (map (moved d) ws) = mkFrag (map (later d) (g_trks (frag_start ws))) (g_data (frag_start ws))) by (rewrite (start_later d ws H); reflexivity).
  rewrite E, (adds_later signed d before _ (start_timed ws)).
  destruct (frag_adds signed (frag_start ws) before) as [g| |] eqn:Q; try reflexivity. cbn [bind add_delay].
  rewrite (frag_delay_ok d g) by (apply (adds_timed _ _ _ _ (start_timed ws) Q)). reflexivity.
Qed.
Print Assumptions C81_delay.
Example C81_delay_case :
  Forall (fun w => wk_time w + 500 < 4294967296) [mkWtrk 1 (mkTdef 1 1000 0 0) 3; mkWtrk 2 (mkTdef 1 40 17 720896) 40] /\
  frag_delay 500 (frag_start [mkWtrk 1 (mkTdef 1 1000 0 0) 3]) = Ok (frag_start [mkWtrk 1 (mkTdef 1 1000 0 0) 503]).
Proof. split; [repeat constructor|reflexivity]. Qed.

(* ------------------------------------------------------------------ *)
(* Exceptions                                                           *)

(* the properties of one track, set twice, are in two boxes: the second call
   does not find the box of the first *)
Theorem C81_set_twice_refuted :
  forall m entry ps qs id a b c d e a' b' c' d' e', m = made entry ps qs ->
  exists m1 m2, set_composition (Some m) id a b c d e = Ok m1 /\ set_composition (Some m1) id a' b' c' d' e' = Ok m2 /\
    mv_trep m2 = mv_trep m ++ [ALeaf mvkid (inr (trep_of (mkComp id a b c d e))); ALeaf mvkid (inr (trep_of (mkComp id a' b' c' d' e')))].
Proof.
  intros m entry ps qs id a b c d e a' b' c' d' e' ->. unfold set_composition, mvex_set.
  eexists. eexists. split; [unfold made; cbn [mv_trex]; rewrite no_trep; reflexivity|].
  split; [cbn [mv_trex mv_trep]; rewrite no_trep; reflexivity|]. cbn [mv_trep]. rewrite <- app_assoc. reflexivity.
Qed.
Print Assumptions C81_set_twice_refuted.
(* also in a file that was read, whatever boxes it has *)
Theorem C81_set_after_read_refuted :
  forall l id a b c d e, set_composition (Some (mkMvex l [])) id a b c d e =
    Ok (mkMvex l [ALeaf mvkid (inr (trep_of (mkComp id a b c d e)))]).
Proof. reflexivity. Qed.
Print Assumptions C81_set_after_read_refuted.
(* a movie with track properties that is saved and read cannot be continued
   with fragments: their boxes are taken for defaults *)
Theorem C81_continue_refuted :
  forall cs ts m m' dflt rest, Forall mcall_ok cs -> taken false cs <> [] -> given cs <> [] -> unique ts -> Forall (has_media ts) (given cs) ->
  len (mvex_bytes (fun _ => 0) (given cs) (taken false cs)) < 4294967296 ->
  mcalls_run (InMovie None) cs = Ok (InMovie (Some m)) -> (exists s, start_first ts (Some m) = Ok s) /\
  (read_box mvex_codec dflt (mvex_bytes (fun _ => 0) (given cs) (taken false cs) ++ rest) =
    Ok ((ALeaf mvex m', len (mvex_bytes (fun _ => 0) (given cs) (taken false cs))), rest) -> start_first ts (Some m') = UB).
Proof.
  intros cs ts m m' dflt rest H Hq Hg U M L R. rewrite run_none in R. split.
  - destruct (make_tracks_made ts (given cs) U M) as (ws & E & _). eexists.
    assert (Em : m = made (fun _ => 0) (given cs) (taken false cs)) by (clear - R Hg; destruct (given cs); [congruence|injection R as <-; reflexivity]).
    rewrite Em.     unfold start_first, made; cbn [mv_trex mv_trep]; rewrite set_indexes_made by assumption; cbn [bind]; rewrite E; reflexivity.
  - intros Q. destruct (C81_history_saved cs H L) as [_ S]. destruct (S Hg) as (m1 & m2 & _ & _ & S3 & _ & S5 & _).
    rewrite S3 in Q. injection Q as <-. unfold start_first. rewrite S5. clear - U M Hq.
    enough (E : set_indexes ts (map (fun p => ALeaf mvkid (inl (trex_of 0 p))) (given cs) ++ map (fun q => ALeaf mvkid (inr (trep_of q))) (taken false cs)) = UB) by (rewrite E; reflexivity).
    induction M as [|p ps (Z & e & d & I) _ IH].
    + destruct (taken false cs); [congruence|reflexivity].
    + cbn [map app set_indexes]. cbn [trex_of tx_trackID]. rewrite (media_of_in ts _ e d U Z I). cbn [bind]. rewrite IH. reflexivity.
Qed.
Print Assumptions C81_continue_refuted.
Example C81_continue_case : taken false ex_calls <> [] /\ unique [(2, 1, 40); (1, 3, 7)] /\ Forall (has_media [(2, 1, 40); (1, 3, 7)]) (given ex_calls).
Proof.
  split; [discriminate|]. split; [repeat constructor; cbn; intuition discriminate|].
  constructor; [split; [discriminate|]; exists 3, 7; right; left; reflexivity|].
  constructor; [split; [discriminate|]; exists 1, 40; left; reflexivity|constructor].
Qed.
(* neither call may be made once there is a fragment *)
Theorem C81_calls_in_fragment_refuted : forall m g c, mcall_run (InFragment m g) c = UB.
Proof. reflexivity. Qed.
Print Assumptions C81_calls_in_fragment_refuted.
(* nor may a fragment be started when a track with defaults is gone *)
Theorem C81_lost_track_refuted :
  forall m ts p, mv_trex m = [ALeaf mvkid (inl (trex_of 0 p))] -> p_id p <> 0 -> (forall e d, ~ In (p_id p, e, d) ts) ->
  start_first ts (Some m) = UB.
Proof.
  intros m ts p E Z N. unfold start_first. rewrite E. cbn [set_indexes]. cbn [trex_of tx_trackID]. unfold media_of.
  destruct (N.eqb_spec (p_id p) 0); [congruence|]. destruct (List.find _ ts) as [[[i e] d]|] eqn:Q; [|reflexivity].
  apply find_some in Q. destruct Q as [I Q]. cbn [fst] in Q. apply N.eqb_eq in Q. subst i. destruct (N _ _ I).
Qed.
Print Assumptions C81_lost_track_refuted.
(* a delay past 2^32: the decode time of the fragment goes on, the time the
   next fragment starts at wraps *)
Theorem C81_long_delay_refuted :
  exists ws d g, frag_delay d (frag_start ws) = Ok g /\ d < 4294967296 /\ Forall (fun w => wk_time w < 4294967296) ws /\
    map (fun x => wk_time (fst x)) (g_trks g) = [0] /\ map (fun x => option_map td_time (f_time (snd x))) (g_trks g) = [Some 4294967296].
Proof. exists [mkWtrk 1 (mkTdef 1 0 0 0) 4294967295], 1. eexists. split; [reflexivity|]. repeat split; repeat constructor. Qed.
Print Assumptions C81_long_delay_refuted.

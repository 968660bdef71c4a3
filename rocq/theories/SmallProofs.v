From Verif Require Import Base Codec BitLemmas AtomModel AtomSpec AtomProofs BoxModel BoxSpec BoxProofs Reads KidsModel KidsProofs TextModel TextSpec TextProofs EntryModel EntrySpec EntryProofs SmallModel SmallSpec.

Lemma damr_exact : exact damr_codec damr_layout.
Proof.
  split; [intros t _; plain|]. intros [a b m p k] Ht Hl. cbn [damr_codec damr_layout c_size c_w c_rd c_ty l_body l_view l_ok am_vendor am_version am_modes am_period am_frames same] in *.
  destruct Ht as (H1 & H2 & H3 & H4 & H5). split; [reflexivity|]. unfold damr_w, damr_rd.
  split; [repeat (apply writes_seq; [wstep|]); wstep|]. repeat pauto.
Qed.
Lemma dawp_exact : exact dawp_codec dawp_layout.
Proof.
  split; [intros t _; plain|]. intros [a b] Ht Hl. cbn [dawp_codec dawp_layout c_size c_w c_rd c_ty l_body l_view l_ok aw_vendor aw_version same] in *.
  destruct Ht as (H1 & H2). split; [reflexivity|]. unfold dawp_w, dawp_rd.
  split; [repeat (apply writes_seq; [wstep|]); wstep|]. repeat pauto.
Qed.
Lemma isfm_exact : exact isfm_codec isfm_layout.
Proof.
  split; [intros t _; plain|]. intros [v f a b k] Ht Hl. cbn [isfm_codec isfm_layout c_size c_w c_rd c_ty l_body l_view l_ok if_ver if_flags if_selective if_klen if_ivlen same] in *.
  destruct Ht as (Hf & H1 & H2 & H3). split; [reflexivity|]. unfold isfm_w, isfm_rd.
  split; [apply writes_full_seq; repeat (apply writes_seq; [wstep|]); wstep|]. repeat pauto.
Qed.
Lemma islt_exact : exact islt_codec islt_layout.
Proof.
  split; [intros t _; plain|]. intros t Ht Hl. cbn [islt_codec islt_layout c_size c_w c_rd c_ty l_body l_view l_ok same] in *.
  split; [reflexivity|]. split; [wstep|]. apply parses_get64. exact Ht.
Qed.
Lemma ikms_exact : exact ikms_codec ikms_layout.
Proof.
  split; [intros t _; plain|]. intros [v f u] Ht Hl.
  cbn [ikms_codec ikms_layout c_size c_w c_rd c_ty l_body l_view l_ok km_ver km_flags km_url] in *. destruct Ht as [Hf Hu].
  assert (D : exists s, text s /\ match u with Some b => b | None => [0] end = cstr s /\ match u with Some b => slen b | None => 0 end = len s /\
    writes (match u with Some b => put_str b | None => put8 0 end) (cstr s)).
  { destruct u as [b|].
    - destruct Hu as (s & Hs & ->). exists s. split; [exact Hs|]. split; [reflexivity|]. split; [apply slen_cstr, Hs|apply writes_str, Hs].
    - exists []. split; [constructor|]. split; [reflexivity|]. split; [reflexivity|]. apply (writes_put8 0). }
  destruct D as (s & Hs & E1 & E2 & W). rewrite E1 in *. unfold ikms_size, ikms_w, ikms_rd. cbn [km_ver km_flags km_url h_size]. rewrite E2.
  revert Hl. lens. intros Hl. split; [rewrite w32_small; lia|]. split; [apply writes_full_seq, W|].
  pauto. pauto. lens. match goal with |- parses ?n _ _ _ => change n with 12 end.
  replace (8 + (4 + (len s + 1))) with (12 + (len s + 1)) by lia. rewrite (sub32_from _ (len s + 1) eq_refl) by lia.
  destruct (N.eqb_spec (len s + 1) 0); [lia|]. pnext; [apply parses_take_eq, take_len; lens; lia|]. pauto; try reflexivity.
Qed.
Lemma csch_exact : exact csch_codec csch_layout.
Proof.
  destruct schm_exact as [_ S]. split.
  - intros [ty b] [Ht _]. cbn in Ht. subst ty. plain.
  - intros [ty b] [Ht Hb] Hl. cbn in Ht. subst ty.
    cbn [csch_codec csch_layout c_size c_w c_rd c_ty l_body l_view l_ok cs_body cs_ty] in *. destruct (S b Hb Hl) as (A & B & C).
    split; [exact A|]. split; [exact B|]. apply parses_rmap. exact C.
Qed.
Lemma typed_exact ty : ty = code "ttyp" \/ ty = code "styp" -> exact (typed_codec ty) (typed_layout ty).
Proof.
  intros D. split; [intros t _; destruct D as [->| ->]; plain|]. intros [v f [b m l]] [Hf Ht] Hl.
  cbn [typed_codec typed_layout ftyp_layout c_size c_w c_rd c_ty l_body l_view l_ok ft_brand ft_minor ft_list ty_ver ty_flags ty_brands same] in *.
  destruct Ht as (H1 & H2 & H3 & Hne). unfold typed_size, typed_w, typed_rd, ftyp_write, ftyp_read. cbn [ft_brand ft_minor ft_list h_size ty_ver ty_flags ty_brands].
  assert (Hm : len (flat_map be32 l) = 4 * len l) by (apply (len_flat_map_const be32 4); intros; apply len_be32).
  revert Hl. lens. rewrite Hm. intros Hl. split; [rewrite w32_small; lia|].
  split; [apply writes_full_seq; repeat (apply writes_seq; [wstep|]); apply writes_map; intros; wstep|].
  pauto. eapply parses_bind_last; [|pauto; try reflexivity].
  pauto. pauto. pauto. lens. match goal with |- parses ?n _ _ _ => change n with 20 end.
  replace (8 + (4 + (4 + (4 + 4 * len l)))) with (20 + 4 * len l) by lia.
  rewrite (sub32_from _ (4 * len l) eq_refl) by lia.
  assert (0 < len l) by (destruct l; [congruence|lens; lia]).
  destruct (N.ltb_spec (4 * len l) 4); [lia|].
  replace (4 * len l / 4) with (len l) by lia. replace (4 * len l mod 4) with 0 by lia. change (0 =? 0) with true. cbn match.
  pnext; [|pauto; try reflexivity]. rewrite (take_len _ l eq_refl). apply parses_rrep; [|apply w32_lt || lia].
  intros x n0 I. apply parses_get32. rewrite Forall_forall in H3. apply H3, I.
Qed.
Lemma ster_exact : exact ster_codec ster_layout.
Proof.
  split; [intros t _; plain|]. intros [v f g l] Ht Hl. cbn [ster_codec ster_layout c_size c_w c_rd c_ty l_body l_view l_ok sv_ver sv_flags sv_group sv_left same] in *.
  destruct Ht as (Hf & H1 & H2). split; [reflexivity|]. unfold ster_w, ster_rd. cbn [sv_ver sv_flags sv_group sv_left].
  assert (E : [l * 128; 0; 0; 0] = be32 (l * 2147483648)).
  { assert (D : l = 0 \/ l = 1) by lia. destruct D as [->| ->]; reflexivity. }
  rewrite E, w32_small by lia.
  split; [apply writes_full_seq; repeat (apply writes_seq; [wstep|]); wstep|]. pauto. pauto. pauto. pauto. unfold same. f_equal. apply N.div_mul. discriminate.
Qed.
Lemma stvi_exact {T} (c : codec T) : exact (stvi_codec c) stvi_layout.
Proof.
  split; [intros t _; plain|]. intros [v f rs sg sc i k] Ht Hl. cbn [stvi_codec stvi_layout c_size c_w c_rd c_ty l_body l_view l_ok st_ver st_flags st_reserved st_single st_scheme st_ind st_kids same] in *.
  destruct Ht as (Hf & H1 & H2 & H3 & -> & ->). split; [reflexivity|]. unfold stvi_w, stvi_rd. cbn [st_ver st_flags st_reserved st_single st_scheme st_ind st_kids].
  rewrite w32_small by lia.
  split; [apply writes_full_seq; repeat (apply writes_seq; [wstep|])|].
  - rewrite <- (app_nil_r (be32 0)). apply writes_seq; [apply writes_put32|]. change (@nil N) with (@nil N ++ []). apply writes_seq; [apply writes_putl|apply writes_ret].
  - pauto. pauto. pauto. pauto. unfold get_bytes_wide. change (0 =? 0) with true. cbn match. pauto. pauto. pauto.
    rewrite (land_ones _ 14) || idtac. unfold same. f_equal.
    + change 16383 with (N.ones 14). rewrite N.land_ones. replace ((rs * 4 + sg) / 4) with rs by lia. apply N.mod_small. exact H1.
    + change 3 with (N.ones 2). rewrite N.land_ones. change (2 ^ 2) with 4. lia.
Qed.
Lemma stdp_exact : exact stdp_codec stdp_layout.
Proof.
  split; [intros t _; plain|]. intros [v f l] Ht Hl. cbn [stdp_codec stdp_layout c_size c_w c_rd c_ty l_body l_view l_ok dp_ver dp_flags dp_prio same] in *.
  destruct Ht as (Hf & H). unfold stdp_w, stdp_rd. cbn [dp_ver dp_flags dp_prio h_size].
  assert (Hm : len (flat_map be16 l) = 2 * len l) by (apply (len_flat_map_const be16 2); intros; apply len_be16).
  revert Hl. lens. rewrite Hm. intros Hl. split; [rewrite w32_small; lia|].
  split; [apply writes_full_seq, writes_map; intros; wstep|].
  pauto. pauto. lens. match goal with |- parses ?n _ _ _ => change n with 12 end.
  replace (8 + (4 + 2 * len l)) with (12 + 2 * len l) by lia. rewrite (sub32_from _ (2 * len l) eq_refl) by lia.
  replace (2 * len l / 2) with (len l) by lia. pnext; [|pauto; try reflexivity]. rewrite (take_len _ l eq_refl). apply parses_rrep; [|lia].
  intros x n0 I. apply parses_get16. rewrite Forall_forall in H. apply H, I.
Qed.
Lemma colr_exact : exact colr_codec colr_layout.
Proof.
  split; [intros t _; plain|]. intros [m p x e b] Ht Hl. cbn [colr_codec colr_layout c_size c_w c_rd c_ty l_body l_view l_ok co_method co_prec co_approx co_enum co_profile same] in *.
  destruct Ht as (D & H1 & H2 & H3). unfold colr_size, colr_w, colr_rd. cbn [co_method co_prec co_approx co_enum co_profile h_size].
  destruct D as [[-> ->]|[-> ->]]; change (1 =? 1) with true in *; change (2 =? 1) with false in *; change (2 =? 2) with true in *; cbn match in *; revert Hl; lens; intros Hl.
  - split; [reflexivity|]. split; [repeat (apply writes_seq; [wstep|]); wstep|]. do 3 pauto. change (1 =? 1) with true. cbn match. repeat pauto.
  - split; [rewrite w32_small; lia|]. split; [repeat (apply writes_seq; [wstep|]); wstep|]. pauto. pauto. pauto. change (2 =? 1) with false. change (2 =? 2) with true. cbn match. pauto.
    lens. match goal with |- parses ?n _ _ _ => change n with 11 end.
    replace (8 + (1 + (1 + (1 + len b)))) with (11 + len b) by lia. rewrite (sub32_from _ (len b) eq_refl) by lia.
    pnext; [apply parses_take_eq, take_len; reflexivity|]. pauto; try reflexivity.
Qed.

(* ------------------------------------------------------------------ *)
Section Kids.
Context {T : Type} (c : codec T) (y : layout T) (dflt : T).
Hypothesis F : faithful c y.
Lemma all_loop_reads kids : forall fuel acc size n r, Forall (kid_ok c y) kids ->
  size = n + len (kids_bytes c y kids) -> size < 4294967296 -> (length kids <= fuel)%nat ->
  all_loop c dflt fuel size acc (mkR (kids_bytes c y kids ++ r) n) = Ok (acc ++ map (strip T (l_view y)) kids, mkR r size).
Proof.
  unfold kids_bytes. induction kids as [|k ks IH]; intros fuel acc size n r Hk E Hs Hf.
  - cbn [flat_map app] in *. rewrite len_nil in E. destruct fuel; cbn [all_loop rdn inp]; (destruct (N.ltb_spec n size) as [L|L]; [lia|]);
      cbn [map]; rewrite app_nil_r; replace size with n by lia; reflexivity.
  - inversion_clear Hk as [|? ? Wk Wr]. destruct fuel as [|fuel]; [cbn [length] in Hf; lia|]. cbn [length] in Hf.
    rewrite len_kids_cons in E. pose proof (kid_pos c y k) as P. cbn [all_loop rdn inp].
    destruct (N.ltb_spec n size); [|lia].
    cbn [flat_map]. rewrite <- app_assoc, (box_at_reads c y dflt F k n Wk) by lia. cbn [bind fst snd].
    rewrite w32_small by lia. rewrite (IH fuel _ size _ r Wr); try lia. cbn [map]. rewrite <- app_assoc. reflexivity.
Qed.
Lemma all_reads n kids h : Forall (kid_ok c y) kids -> h_size h = n + len (kids_bytes c y kids) -> h_size h < 4294967296 ->
  reads n (all_rd c dflt h) (kids_bytes c y kids) (map (strip T (l_view y)) kids).
Proof.
  intros Hk E Hs r. unfold all_rd. cbn [inp]. rewrite (all_loop_reads kids _ _ _ _ _ Hk); try lia.
  - rewrite w32_small by lia. rewrite <- E. reflexivity.
  - pose proof (kids_short c y kids). unfold kids_bytes. rewrite app_length. lia.
Qed.
Lemma d263_faithful : faithful (d263_codec c dflt) (d263_layout c y).
Proof.
  split; [intros t _; plain|]. intros [v s l p k] (H1 & H2 & H3 & H4 & Hk) Hl.
  cbn [d263_codec d263_layout c_size c_w c_rd c_ty l_body l_view l_ok hx_vendor hx_version hx_level hx_profile hx_kids] in *. revert Hl. lens. intros Hl.
  assert (Lk : len (flat_map (kid_enc c y) k) = len (kids_bytes c y k)) by reflexivity.
  split; [rewrite (boxes_size_ok c y dflt F) by (try exact Hk; rewrite Lk; lia); rewrite Lk; lia|].
  split; [unfold d263_w; cbn [hx_vendor hx_version hx_level hx_profile hx_kids]; repeat (apply writes_seq; [wstep|]); apply (boxes_writes c y dflt F); [exact Hk|rewrite Lk; lia]|].
  unfold d263_rd. rnext; [apply reads_of, parses_get32, H1|]. rnext; [apply reads_of, parses_get8, H2|]. rnext; [apply reads_of, parses_get8, H3|].
  rnext; [apply reads_of, parses_get8, H4|]. lens. match goal with |- reads ?n _ _ _ => change n with 15 end.
  rnext; [apply all_reads; [exact Hk|cbn [h_size]; lens; lia|cbn [h_size]; lens; lia]|].
  eapply reads_bind_nil; [intros st Es; unfold getrdn; rewrite Es; reflexivity|]. cbn [h_size]. rewrite w32_small by (lens; lia).
  match goal with |- reads _ (if ?b then _ else _) _ _ => replace b with true by (symmetry; apply N.eqb_eq; lens; lia) end. apply reads_ret; [lens; lia|reflexivity].
Qed.
Lemma trep_faithful : faithful (trep_codec c dflt) (trep_layout c y).
Proof.
  split; [intros t _; plain|]. intros [v f t k] (Hf & H1 & Hk) Hl.
  cbn [trep_codec trep_layout c_size c_w c_rd c_ty l_body l_view l_ok tp_ver tp_flags tp_track tp_kids] in *. revert Hl. lens. intros Hl.
  assert (Lk : len (flat_map (kid_enc c y) k) = len (kids_bytes c y k)) by reflexivity.
  split; [rewrite (boxes_size_ok c y dflt F) by (try exact Hk; rewrite Lk; lia); rewrite Lk; lia|].
  split; [unfold trep_w; cbn [tp_ver tp_flags tp_track tp_kids]; apply writes_full_seq, writes_seq; [wstep|]; apply (boxes_writes c y dflt F); [exact Hk|rewrite Lk; lia]|].
  unfold trep_rd. rnext; [apply reads_of, parses_full, Hf|]. rnext; [apply reads_of, parses_get32, H1|]. lens. match goal with |- reads ?n _ _ _ => change n with 16 end.
  rnext; [apply (exts_reads c y dflt F); [exact Hk|cbn [h_size]; rewrite Lk; lens; lia|cbn [h_size]; lens; lia]|]. cbn [fst snd]. apply reads_ret; [apply w32_lt|reflexivity].
Qed.

Lemma typed_atype k : kid_ok c y k -> atype T (c_ty c) (strip T (l_view y) k) = atype T (c_ty c) k /\ is_free (atype T (c_ty c) k) = free_box T k.
Proof.
  intros Hk. pose proof (faithful_codec c y F) as [K1 K2 K3 K4].
  destruct (atype_facts T (c_ty c) (fun _ => dflt) (l_view y) (c_known c) (l_ok y) K2 k Hk) as (A1 & A2 & A3). split; assumption.
Qed.
Lemma kept a b l m : a <> b -> Forall (kid_ok c y) l -> Forall (kid_ok c y) m -> of_type c a l -> of_type c b m ->
  filter (fun x => atype T (c_ty c) x =? a) (map (strip T (l_view y)) l ++ map (strip T (l_view y)) m) = map (strip T (l_view y)) l /\
  filter (fun x => atype T (c_ty c) x =? b) (map (strip T (l_view y)) l ++ map (strip T (l_view y)) m) = map (strip T (l_view y)) m.
Proof.
  intros D Hl Hm Tl Tm. rewrite !filter_app.
  assert (G : forall t u ks, Forall (kid_ok c y) ks -> of_type c t ks ->
    filter (fun x => atype T (c_ty c) x =? u) (map (strip T (l_view y)) ks) = if t =? u then map (strip T (l_view y)) ks else []).
  { intros t u ks Hk. induction Hk as [|k ks K _ IH]; intros Ht; cbn [map filter]; [destruct (t =? u); reflexivity|].
    inversion_clear Ht as [|? ? E Er]. rewrite (proj1 (typed_atype k K)), E, IH by exact Er. destruct (t =? u); reflexivity. }
  rewrite (G a a l), (G b a m), (G a b l), (G b b m) by assumption. rewrite !N.eqb_refl. destruct (N.eqb_spec a b); [congruence|]. destruct (N.eqb_spec b a); [congruence|].
  rewrite app_nil_r. split; reflexivity.
Qed.
Lemma ludt_faithful : faithful (ludt_codec c dflt) (ludt_layout c y).
Proof.
  split; [intros t _; plain|]. intros [l m] (Hl1 & Hm1 & Tl & Tm) Hl.
  cbn [ludt_codec ludt_layout c_size c_w c_rd c_ty l_body l_view l_ok lu_tracks lu_albums] in *. revert Hl. lens. intros Hl.
  assert (L1 : len (flat_map (kid_enc c y) l) = len (kids_bytes c y l)) by reflexivity.
  assert (L2 : len (flat_map (kid_enc c y) m) = len (kids_bytes c y m)) by reflexivity.
  split; [rewrite (boxes_size_ok c y dflt F l Hl1) by (rewrite L1; lia); rewrite (boxes_size_ok c y dflt F m Hm1) by (rewrite L1, L2; lia); rewrite L1, L2; lia|].
  split; [apply writes_seq; apply (boxes_writes c y dflt F); try assumption; rewrite ?L1, ?L2; lia|].
  replace (mkLudt _ _) with (ludt_sort c (map (strip T (l_view y)) (l ++ m))).
  - apply reads_rmap. unfold kids_bytes in *. rewrite <- flat_map_app. apply (all_reads 8); [apply Forall_app; split; assumption| |]; unfold kids_bytes; cbn [h_size]; rewrite ?flat_map_app; lens; lia.
  - unfold ludt_sort. change T_tlou with (code "tlou"). change T_alou with (code "alou"). rewrite map_app. destruct (kept (code "tlou") (code "alou") l m) as [-> ->]; try assumption; try discriminate. reflexivity.
Qed.
Lemma not_free ty ks : is_free ty = false -> Forall (kid_ok c y) ks -> of_type c ty ks -> kid_view y ks = map (strip T (l_view y)) ks.
Proof.
  intros Fr Hk. unfold kid_view. induction Hk as [|k ks K _ IH]; intros Ht; [reflexivity|]. inversion_clear Ht as [|? ? E Er]. cbn [map filter].
  rewrite free_strip, <- (proj2 (typed_atype k K)), E, Fr. cbn [negb]. f_equal. apply IH, Er.
Qed.
Lemma kid_view_app a b : kid_view y (a ++ b) = kid_view y a ++ kid_view y b.
Proof. unfold kid_view. rewrite map_app, filter_app. reflexivity. Qed.
Lemma slot_meco k : slot T_meco k = None. Proof. reflexivity. Qed.
Lemma meco_faithful : faithful (meco_codec c dflt) (meco_layout c y).
Proof.
  destruct (boxed_faithful c y dflt T_meco (fun a : meco T => mc_metas a ++ mc_rels a) (meco_sort c) F) as [_ B]; [plain|intros k; apply slot_meco|].
  split; [intros t _; plain|]. intros [l m] (Hl & Hm & Tl & Tm) Hs.
  assert (K : l_ok (boxed_layout c y T_meco (fun a : meco T => mc_metas a ++ mc_rels a) (meco_sort c)) (mkMeco l m)) by (apply Forall_app; split; assumption).
  specialize (B _ K). cbn [boxed_layout l_body l_view mc_metas mc_rels] in B. rewrite flat_map_app in B.
  cbn [meco_layout l_body l_view mc_metas mc_rels] in *. unfold kids_bytes in *. specialize (B Hs).
  replace (mkMeco (map _ l) (map _ m)) with (meco_sort c (kid_view y (l ++ m))); [exact B|].
  rewrite kid_view_app, (not_free (code "meta") l eq_refl Hl Tl), (not_free (code "mere") m eq_refl Hm Tm). unfold meco_sort. change T_meta with (code "meta"). change T_mere with (code "mere").
  destruct (kept (code "meta") (code "mere") l m) as [-> ->]; try assumption; try discriminate. reflexivity.
Qed.
End Kids.

(* ------------------------------------------------------------------ *)
(* Loudness                                                            *)
Lemma u12_bits p : peak p -> u12 p = bits12 p /\ bits12 p < 4096 /\ s12 (bits12 p) = p.
Proof.
  unfold peak, u12, bits12, s12. intros H. destruct (Z.ltb_spec p 0).
  - destruct (N.ltb_spec (Z.to_N (p + 4096)) 2048); [lia|]. split; [f_equal; Z.div_mod_to_equations; lia|lia].
  - destruct (N.ltb_spec (Z.to_N p) 2048); [|lia]. split; [f_equal; apply Z.mod_small; lia|lia].
Qed.
Lemma lou_bytes a : lou_fields a ->
  lou_body a = full (lo_ver a) (lo_flags a) ++ be8 (w8 (lo_reserved a * 32 + lo_downmix a / 4)) ++ be8 (w8 (lo_downmix a * 64 + lo_drc a)) ++
    be8 (u12 (lo_peak a) / 16) ++ be8 (u12 (lo_peak a) mod 16 * 16 + u12 (lo_true a) / 256) ++ be8 (u12 (lo_true a) mod 256) ++
    be8 (w8 (lo_sys a * 16 + lo_rel a)) ++ be8 (len (lo_meas a)) ++
    flat_map (fun m => be8 (me_def m) ++ be8 (me_val m) ++ be8 (w8 (me_sys m * 16 + me_rel m))) (lo_meas a).
Proof.
  intros (_ & _ & H1 & H2 & H3 & H4 & H5 & H6 & H7 & H8 & H9). unfold lou_body.
  destruct (u12_bits _ H4) as (-> & P1 & _). destruct (u12_bits _ H5) as (-> & P2 & _). revert P1 P2. generalize (bits12 (lo_peak a)) (bits12 (lo_true a)). intros p t P1 P2.
  assert (E : flat_map (fun m => [me_def m; me_val m; me_sys m * 16 + me_rel m]) (lo_meas a) =
    flat_map (fun m => be8 (me_def m) ++ be8 (me_val m) ++ be8 (w8 (me_sys m * 16 + me_rel m))) (lo_meas a)).
  { clear H8. induction H9 as [|m l (G1 & G2 & G3 & G4) _ IH]; [reflexivity|]. cbn [flat_map app]. rewrite IH. unfold be8, w8. cbn [app].
    rewrite (N.mod_small (me_def m)), (N.mod_small (me_val m)), !(N.mod_small (me_sys m * 16 + me_rel m)) by lia. reflexivity. }
  rewrite E. f_equal. clear E. match goal with |- context [flat_map ?f ?l] => generalize (flat_map f l) end. intros r. unfold be16, be24, be8, w8. cbn [app]. do 5 (f_equal; [lia|]). f_equal; lia.
Qed.
Lemma meas_writes l : writes (wmap meas_w l) (flat_map (fun m => be8 (me_def m) ++ be8 (me_val m) ++ be8 (w8 (me_sys m * 16 + me_rel m))) l).
Proof. apply writes_map. intros. unfold meas_w. repeat (apply writes_seq; [wstep|]); wstep. Qed.
Lemma lou_writes a : lou_fields a -> writes (lou_w a) (lou_body a).
Proof. intros H. rewrite (lou_bytes a H). unfold lou_w. apply writes_full_seq. repeat (apply writes_seq; [wstep|]). apply meas_writes. Qed.
Lemma lou_exact : exact lou_codec lou_layout.
Proof.
  split.
  - intros t [(D & _) _]. cbn [lou_codec lou_layout c_ty l_ty c_known l_view same]. unfold same. destruct D as [->| ->]; plain.
  - intros t [H M] Hl. pose proof H as H'. destruct H' as (_ & Hf & H1 & H2 & H3 & H4 & H5 & H6 & H7 & _).
    cbn [lou_codec lou_layout c_size c_w c_rd c_ty l_body l_view l_ok] in *. split; [|split; [apply lou_writes, H|]].
    + rewrite (lou_bytes t H) in *. rewrite M in *. unfold lou_size. rewrite M. reflexivity.
    + rewrite (lou_bytes t H) in *. rewrite M in *. change (flat_map _ []) with (@nil N). unfold lou_rd.
      destruct (u12_bits _ H4) as (E1 & P1 & S1). destruct (u12_bits _ H5) as (E2 & P2 & S2). rewrite E1, E2.
      pauto. do 7 (pauto; try (unfold w8; lia)). change (len (@nil meas) =? 0) with true. cbn match. pauto.
      destruct t as [ty v f r d dr pk tp sy re me]. cbn [lo_ty lo_ver lo_flags lo_reserved lo_downmix lo_drc lo_peak lo_true lo_sys lo_rel lo_meas h_type] in *. unfold same, w8. subst me.
      f_equal; try lia; [transitivity (s12 (bits12 pk)); [f_equal; lia|exact S1]|transitivity (s12 (bits12 tp)); [f_equal; lia|exact S2]].
Qed.

(* ------------------------------------------------------------------ *)
(* Channel layout                                                      *)
Lemma land_pow s k : N.land s (2 ^ k) = if N.testbit s k then 2 ^ k else 0.
Proof.
  apply N.bits_inj. intros n. rewrite N.land_spec, N.pow2_bits_eqb. destruct (N.eqb_spec k n) as [->|D].
  - destruct (N.testbit s n); [rewrite N.pow2_bits_true; reflexivity|rewrite N.bits_0; reflexivity].
  - rewrite andb_false_r. destruct (N.testbit s k); [rewrite N.pow2_bits_false by exact D|rewrite N.bits_0]; reflexivity.
Qed.
Lemma has_channels_is s : has_channels s = channels s.
Proof. unfold has_channels, channels. change 1 with (2 ^ 0) at 1. rewrite land_pow. destruct (N.testbit s 0); reflexivity. Qed.
Lemma has_objects_is s : has_objects s = objects s.
Proof. unfold has_objects, objects. change 2 with (2 ^ 1) at 1. rewrite land_pow. destruct (N.testbit s 1); reflexivity. Qed.
Lemma spk_numbered p : numbered p -> spk_bytes p = be8 (sp_pos p) /\ p = mkSpk (sp_pos p) 0 0 /\ sp_pos p =? 126 = false.
Proof.
  intros (H1 & H2 & H3 & H4). unfold spk_bytes. destruct (N.eqb_spec (sp_pos p) 126); [contradiction|]. split; [reflexivity|]. split; [|reflexivity].
  destruct p; cbn in *; subst; reflexivity.
Qed.
Lemma len_spks l : Forall numbered l -> len (spks_bytes l) = len l.
Proof.
  unfold spks_bytes. induction 1 as [|p l Hp _ IH]; [reflexivity|]. cbn [flat_map]. rewrite (proj1 (spk_numbered p Hp)). lens. lia.
Qed.
Lemma spks_writes l : writes (spks_w (len l) l) (spks_bytes l).
Proof.
  unfold spks_w. destruct (N.ltb_spec (len l) (len l)); [lia|]. rewrite (firstn_all2 l) by (unfold len; lia). apply writes_map. intros p _.
  unfold spk_w, spk_bytes, EXPLICIT. destruct (N.eqb_spec (sp_pos p) 126) as [E|E].
  - rewrite E. repeat (apply writes_seq; [wstep|]). wstep.
  - rewrite <- (app_nil_r (be8 _)). apply writes_seq; [wstep|apply writes_ret].
Qed.
Lemma spks_size_is l : spks_size (len l) l = len (spks_bytes l).
Proof.
  unfold spks_size. rewrite (firstn_all2 l) by (unfold len; lia). change (len (spks_bytes l)) with (0 + len (spks_bytes l)). generalize 0. unfold spks_bytes.
  induction l as [|p l IH]; intros a; cbn [fold_left flat_map]; [lens; lia|]. rewrite IH. lens. unfold spk_size, spk_bytes, EXPLICIT.
  destruct (sp_pos p =? 126); lens; lia.
Qed.
Lemma spk_parses n p : numbered p -> parses n spk_rd (spk_bytes p) p.
Proof.
  intros H. destruct (spk_numbered p H) as (-> & E & D). destruct H as (H1 & _). unfold spk_rd, EXPLICIT.
  pnext; [apply parses_get8, H1|]. rewrite D. apply parses_ret_eq; [apply w32_lt|congruence].
Qed.
Lemma spk_loop_reads l : forall fuel acc size n r, Forall numbered l -> size = n + len (spks_bytes l) -> size < 4294967296 -> (length l <= fuel)%nat ->
  spk_loop fuel size acc (mkR (spks_bytes l ++ r) n) = Ok (acc ++ l, mkR r size).
Proof.
  unfold spks_bytes. induction l as [|p l IH]; intros fuel acc size n r Hk E Hs Hf.
  - cbn [flat_map app] in *. rewrite len_nil in E. destruct fuel; cbn [spk_loop rdn inp]; (destruct (N.ltb_spec n size) as [L|L]; [lia|]);
      rewrite app_nil_r; replace size with n by lia; reflexivity.
  - inversion_clear Hk as [|? ? Wk Wr]. destruct fuel as [|fuel]; [cbn [length] in Hf; lia|]. cbn [length] in Hf. cbn [flat_map] in *.
    rewrite len_app in E. assert (P : len (spk_bytes p) = 1) by (rewrite (proj1 (spk_numbered p Wk)); reflexivity).
    cbn [spk_loop rdn inp]. destruct (N.ltb_spec n size); [|lia].
    rewrite <- app_assoc, (proj1 (spk_parses n p Wk)). cbn [bind fst snd].
    rewrite w32_small by lia. rewrite (IH fuel _ size _ r Wr); try lia. rewrite <- app_assoc. reflexivity.
Qed.
Lemma reads_rrep_spk l : forall n, Forall numbered l -> n < 4294967296 -> reads n (rrep (length l) spk_rd) (spks_bytes l) l.
Proof.
  intros n H Hn. unfold spks_bytes. apply reads_of. apply (parses_rrep spk_rd spk_bytes); [|exact Hn]. intros x k I. apply spk_parses. rewrite Forall_forall in H. apply H, I.
Qed.
Ltac rget := lazymatch goal with
  | |- reads _ (rbind get8 _) _ _ => rnext; [apply reads_of, parses_get8; assumption || lia|]
  | |- reads _ (rbind get64 _) _ _ => rnext; [apply reads_of, parses_get64; assumption|]
  | |- reads _ (rret _) _ _ => apply reads_ret; [apply w32_lt|reflexivity]
  end.
Lemma chnl_faithful : faithful chnl_codec chnl_layout.
Proof.
  split; [intros t _; plain|]. intros [v f co st la sp om ob fo ba lc od pr] (Hf & H1 & H2 & H3 & H4 & H5 & H6 & H7 & H8 & H9) Hl.
  cbn [chnl_codec chnl_layout c_size c_w c_rd c_ty l_body l_view l_ok ch_ver ch_flags ch_count ch_struct ch_layout ch_spk ch_omit ch_objects ch_format ch_base ch_lcount ch_order ch_present] in *.
  unfold chnl_body, chnl_size, chnl_w, chnl_rd, chnl_view in *.
  cbn [ch_ver ch_flags ch_count ch_struct ch_layout ch_spk ch_omit ch_objects ch_format ch_base ch_lcount ch_order ch_present h_size] in *.
  rewrite !has_channels_is, !has_objects_is. pose proof (len_spks sp H2) as Ls.
  destruct (N.eqb_spec v 0) as [->|Dv].
  - destruct H9 as (G1 & -> & G2). rewrite spks_size_is.
    split; [|split].
    + revert Hl. destruct (channels st), (la =? 0), (objects st); lens; intros; rewrite w32_small; lia.
    + apply writes_full_seq, writes_seq; [wstep|]. apply writes_seq.
      * destruct (channels st); [|apply writes_ret]. apply writes_seq; [wstep|]. destruct (la =? 0); [apply spks_writes|wstep].
      * destruct (objects st); [wstep|apply writes_ret].
    + rnext; [apply reads_of, parses_full, Hf|]. cbn [fst snd]. change (0 =? 0) with true. cbn match. rget. rewrite !has_channels_is, !has_objects_is.
      destruct (channels st) eqn:C.
      * rewrite <- app_assoc. destruct (N.eqb_spec la 0) as [->|Dl].
        -- specialize (G2 eq_refl eq_refl). rewrite G2 in *. rewrite app_nil_r in *. revert Hl. lens. rewrite Ls. intros Hl.
           eapply reads_bind_last.
           ++ rget. change (0 =? 0) with true. cbn match. eapply reads_bind_last; [|rget].
              intros r. cbn [inp]. match goal with |- spk_loop _ ?s _ (mkR _ ?n) = _ => replace s with (14 + len sp) by (lens; rewrite ?Ls; lia); change n with 14 end.
              rewrite (spk_loop_reads sp _ _ _ _ _ H2); try (rewrite ?Ls; lia); [rewrite w32_small by (rewrite Ls; lia); rewrite Ls; reflexivity|].
              rewrite app_length. assert (length sp = length (spks_bytes sp)) by (unfold len in Ls; lia). lia.
           ++ cbn [fst snd]. rnext; [apply reads_ret; [apply w32_lt|reflexivity]|]. cbn [fst snd]. rget.
        -- rewrite (app_assoc (be8 la)). destruct (N.eqb_spec la 0); [contradiction|]. rnext; [rget; destruct (N.eqb_spec la 0); [contradiction|]; rget; rget|]. cbn [fst snd].
           apply (reads_bind_last _ _ _ _ (if objects st then ob else 0)); [destruct (objects st); [apply reads_of, parses_get8, H4|apply reads_ret; [apply w32_lt|reflexivity]]|].
           cbn [fst snd]. destruct (objects st); rget.
      * cbn [app]. eapply reads_bind_nil; [intros; reflexivity|]. cbn [fst snd].
        apply (reads_bind_last _ _ _ _ (if objects st then ob else 0)); [destruct (objects st); [apply reads_of, parses_get8, H4|apply reads_ret; [apply w32_lt|reflexivity]]|].
        destruct (objects st); rget.
  - destruct H9 as (G1 & G2 & ->). rewrite spks_size_is. assert (Ep : negb (pr =? 0) = (pr =? 1)) by (destruct (N.eqb_spec pr 0), (N.eqb_spec pr 1); lia || reflexivity).
    split; [|split].
    + revert Hl. destruct (channels st), (la =? 0); lens; intros; try (rewrite w32_small; lia).
      destruct (pr =? 0), (pr =? 1); try discriminate Ep; lens; rewrite w32_small; lia.
    + unfold w8. rewrite (N.mod_small (st * 16 + fo) 256), (N.mod_small (od * 2 + pr) 256) by lia.
      apply writes_full_seq, writes_seq; [wstep|]. apply writes_seq; [wstep|].
      destruct (channels st); [|apply writes_ret]. apply writes_seq; [wstep|]. destruct (la =? 0); [apply writes_seq; [wstep|apply spks_writes]|].
      apply writes_seq; [wstep|]. destruct (pr =? 0), (pr =? 1); try discriminate Ep; [apply writes_ret|wstep].
    + rnext; [apply reads_of, parses_full, Hf|]. cbn [fst snd]. destruct (N.eqb_spec v 0); [contradiction|]. rget. rget. rewrite has_channels_is.
      replace ((st * 16 + fo) / 16) with st by lia. replace ((st * 16 + fo) mod 16) with fo by lia.
      destruct (channels st); [|rget]. rget. destruct (N.eqb_spec la 0) as [->|Dl].
      * rget. rewrite (take_len _ sp eq_refl). rnext; [apply reads_rrep_spk; [exact H2|apply w32_lt]|]. rget.
      * rget. assert (E1 : N.land (od * 2 + pr) 1 = pr) by (change 1 with (N.ones 1); rewrite N.land_ones; change (2 ^ 1) with 2; lia).
        assert (E2 : N.land ((od * 2 + pr) / 2) 7 = od) by (change 7 with (N.ones 3); rewrite N.land_ones; change (2 ^ 3) with 8; lia).
        rewrite E1, E2. apply (reads_bind_last _ _ _ _ (if pr =? 1 then om else 0)); [|rget].
        destruct (pr =? 0), (pr =? 1); try discriminate Ep; [apply reads_ret; [apply w32_lt|reflexivity]|apply reads_of, parses_get64, H3].
Qed.

(* ------------------------------------------------------------------ *)
(* Downmix                                                             *)
Lemma nibbles_ind (P : list N -> Prop) : P [] -> (forall x, P [x]) -> (forall x y l, P l -> P (x :: y :: l)) -> forall l, P l.
Proof.
  intros H0 H1 H2 l. cut (P l /\ forall x, P (x :: l)); [tauto|]. induction l as [|a l [IH1 IH2]]; [split; auto|]. split; [apply IH2|]. intros x. apply H2, IH1.
Qed.
Lemma len_nibbles l : len (nibbles l) = len l / 2 + len l mod 2.
Proof. induction l as [|x|x y l IH] using nibbles_ind; try reflexivity. cbn [nibbles]. rewrite !len_cons, IH. lia. Qed.
Lemma len_padded l : len (padded l) = 2 * len (nibbles l).
Proof. induction l as [|x|x y l IH] using nibbles_ind; try reflexivity. cbn [nibbles padded]. rewrite !len_cons, IH. lia. Qed.
Lemma byte_nibbles x y : x < 16 -> y < 16 -> be8 (w8 (w8 (x * 16) + y)) = [x * 16 + y].
Proof. intros. unfold be8, w8. f_equal. lia. Qed.
Lemma nibbles_writes l : Forall (fun x => x < 16) l -> writes (nibbles_w l) (nibbles l).
Proof.
  induction l as [|x|x y l IH] using nibbles_ind; intros H; cbn [nibbles_w nibbles]; [apply writes_ret| |].
  - inversion_clear H. rewrite <- byte_nibbles by (assumption || lia). wstep.
  - inversion_clear H as [|? ? H1 H']. inversion_clear H' as [|? ? H2 H3]. change (?a :: ?b) with ([a] ++ b). rewrite <- byte_nibbles by assumption. apply writes_seq; [wstep|apply IH, H3].
Qed.
Lemma nibbles_loop_reads l : forall fuel buf size n r, Forall (fun x => x < 16) l -> size = n + len (nibbles l) -> size < 4294967296 ->
  len buf + len l < 65536 -> (length (nibbles l) <= fuel)%nat ->
  nibbles_loop fuel size buf (len buf) (mkR (nibbles l ++ r) n) = Ok (buf ++ padded l, mkR r size).
Proof.
  assert (Step : forall x y rest fuel buf size n, x < 16 -> y < 16 -> n < size -> size < 4294967296 -> (0 < fuel)%nat ->
    nibbles_loop fuel size buf (len buf) (mkR ((x * 16 + y) :: rest) n) = nibbles_loop (pred fuel) size (buf ++ [x; y]) (w16 (len buf + 2)) (mkR rest (n + 1))).
  { intros x y rest fuel buf size n Hx Hy Hn Hs Hf. destruct fuel as [|fuel]; [lia|]. cbn [nibbles_loop rdn pred]. destruct (N.ltb_spec n size); [|lia].
    rewrite <- (N.mod_small (x * 16 + y) 256) at 1 by lia. change ((x * 16 + y) mod 256 :: rest) with (be8 (x * 16 + y) ++ rest).
    rewrite (proj1 (parses_get8 n (x * 16 + y) ltac:(lia))). cbn [bind fst snd]. rewrite (firstn_all2 buf) by (unfold len; lia).
    replace ((x * 16 + y) / 16) with x by lia. replace ((x * 16 + y) mod 16) with y by lia. change (len (be8 (x * 16 + y))) with 1. rewrite w32_small by lia. reflexivity. }
  assert (End : forall fuel buf c n r, nibbles_loop fuel n buf c (mkR r n) = Ok (buf, mkR r n)).
  { intros [|fuel] buf c n r; cbn [nibbles_loop rdn]; (destruct (N.ltb_spec n n); [lia|]); reflexivity. }
  induction l as [|x|x y l IH] using nibbles_ind; intros fuel buf size n r H Hsz Hs Hb Hf; cbn [nibbles padded] in *.
  - rewrite len_nil in Hsz. replace size with n by lia. cbn [app]. rewrite app_nil_r. apply End.
  - inversion_clear H as [|? ? H1 _]. rewrite len_cons, len_nil in Hsz. cbn [app length] in *. rewrite Step by lia. replace size with (n + 1) by lia. apply End.
  - inversion_clear H as [|? ? H1 H']. inversion_clear H' as [|? ? H2 H3]. rewrite !len_cons in *. cbn [app length] in *. rewrite Step by lia.
    replace (w16 (len buf + 2)) with (len (buf ++ [x; y])) by (lens; rewrite ?len_cons, ?len_nil; unfold w16; lia).
    rewrite IH; try lia; [rewrite <- app_assoc; reflexivity|exact H3|lens; rewrite ?len_cons, ?len_nil; lia].
Qed.
Lemma dmix_faithful : faithful dmix_codec dmix_layout.
Proof.
  split; [intros t _; plain|]. intros [v f ba la rs co st id cf] (Hf & H1 & H2 & H3 & H4 & H5 & H6 & H7 & H8) Hl.
  cbn [dmix_codec dmix_layout c_size c_w c_rd c_ty l_body l_view l_ok dm_ver dm_flags dm_base dm_layout dm_reserved dm_count dm_stream dm_id dm_coef] in *.
  unfold dmix_size, dmix_w, dmix_rd, dmix_n. cbn [dm_ver dm_flags dm_base dm_layout dm_reserved dm_count dm_stream dm_id dm_coef h_size].
  unfold w8. rewrite (N.mod_small (rs * 128 + co) 256), (N.mod_small (st * 128 + id) 256) by lia.
  assert (Lc : forall b, len (if b : bool then nibbles cf else []) <= 32768).
  { intros [|]; [rewrite len_nibbles; lia|rewrite len_nil; lia]. }
  split; [|split].
  - destruct (N.eqb_spec st 0) as [E|E]; [rewrite <- (H7 E), <- len_nibbles|]; revert Hl; lens; intros Hl; rewrite w32_small; lia.
  - apply writes_full_seq. repeat (apply writes_seq; [wstep|]). destruct (N.eqb_spec st 0) as [E|E]; [|apply writes_ret]. rewrite <- (H7 E).
    destruct (N.ltb_spec (len cf) (len cf)); [lia|]. rewrite (firstn_all2 cf) by (unfold len; lia). apply nibbles_writes, H6.
  - rnext; [apply reads_of, parses_full, Hf|]. cbn [fst snd]. do 3 rget.
    replace ((rs * 128 + co) / 128) with rs by lia. replace ((rs * 128 + co) mod 128) with co by lia. replace ((st * 128 + id) / 128) with st by lia. replace ((st * 128 + id) mod 128) with id by lia.
    rnext; [|rget]. intros r. cbn [inp]. pose proof (Lc (st =? 0)) as L.
    match goal with |- nibbles_loop _ ?s _ _ (mkR _ ?n) = _ => replace s with (15 + len (if st =? 0 then nibbles cf else [])) by (lens; lia); change n with 15 end.
    destruct (st =? 0).
    + change 0 with (len (@nil N)) at 1. rewrite nibbles_loop_reads; try lia; [|exact H6|rewrite len_nil; lia|rewrite app_length; lia]. rewrite w32_small by lia. reflexivity.
    + cbn [app]. rewrite len_nil, N.add_0_r. match goal with |- nibbles_loop ?k _ _ _ _ = _ => generalize k end. intros [|k]; reflexivity.
Qed.

(* ------------------------------------------------------------------ *)
(* JPEG 2000                                                           *)
Lemma parses_le32 n v : parses n get32 (le32 v) (turned32 v).
Proof.
  assert (E : le32 v = be32 (turned32 v)). { unfold le32, be32, turned32. cbn [rev app]. repeat (f_equal; [lia|]). f_equal. lia. }
  rewrite E. apply parses_get32. unfold turned32. lia.
Qed.
Lemma parses_le16 n v : parses n get16 (le16 v) (turned16 v).
Proof.
  assert (E : le16 v = be16 (turned16 v)). { unfold le16, be16, turned16. cbn [rev app]. repeat (f_equal; [lia|]). f_equal. lia. }
  rewrite E. apply parses_get16. unfold turned16. lia.
Qed.

(* ------------------------------------------------------------------ *)
(* Hostile bytes                                                       *)
Lemma damr_robust : robust damr_codec. Proof. robust_tac damr_rd. Qed.
Lemma dawp_robust : robust dawp_codec. Proof. robust_tac dawp_rd. Qed.
Lemma isfm_robust : robust isfm_codec. Proof. robust_tac isfm_rd. Qed.
Lemma islt_robust : robust islt_codec. Proof. intros h. apply safe_of; [apply consumes_get64|apply tame_get64]. Qed.
Lemma ikms_robust : robust ikms_codec. Proof. robust_tac ikms_rd. Qed.
Lemma safe_full : safe get_full. Proof. apply safe_of; [unfold get_full; cons_step|apply tame_get_full]. Qed.
Lemma typed_robust ty : robust (typed_codec ty).
Proof.
  intros h. cbn [typed_codec c_rd]. unfold typed_rd. apply safe_bind; [apply safe_full|intros vf].
  apply safe_bind; [apply (ftyp_robust h)|intros; apply safe_ret].
Qed.
Lemma ster_robust : robust ster_codec. Proof. robust_tac ster_rd. Qed.
Lemma stdp_robust : robust stdp_codec. Proof. robust_tac stdp_rd. Qed.
Lemma jp_robust : robust jp_codec. Proof. intros h. apply safe_get32. Qed.
Lemma ihdr_robust : robust ihdr_codec. Proof. robust_tac ihdr_rd. Qed.
Lemma colr_robust : robust colr_codec. Proof. robust_tac colr_rd. Qed.
Lemma nibbles_loop_safe fuel : forall size buf c s, bytes (inp s) -> (length (inp s) < fuel)%nat ->
  (nibbles_loop fuel size buf c s <> UB /\ nibbles_loop fuel size buf c s <> Err OutOfFuel) /\
  (forall a s', nibbles_loop fuel size buf c s = Ok (a, s') -> exists p, inp s = p ++ inp s').
Proof.
  induction fuel as [|fuel IH]; intros size buf c s Hb Hf; [lia|]. cbn [nibbles_loop]. destruct (rdn s <? size).
  - destruct (safe_get8 s Hb) as [[A1 A2] A3]. destruct s as [[|b i] n]; cbn [inp] in *.
    + unfold get8. cbn. split; [split; discriminate|discriminate].
    + assert (G : get8 (mkR (b :: i) n) = Ok (b, mkR i (w32 (n + 1)))) by (unfold get8, take; cbn; try rewrite N.add_0_r; try reflexivity).
      rewrite G. cbn [bind fst snd]. inversion_clear Hb as [|? ? _ Hi]. cbn [length] in Hf. destruct (IH size (firstn (N.to_nat c) buf ++ [b / 16; b mod 16]) (w16 (c + 2)) (mkR i (w32 (n + 1))) Hi ltac:(cbn [inp]; lia)) as [I1 I2].
      split; [exact I1|]. intros a s' E. destruct (I2 a s' E) as [p Ep]. cbn [inp] in Ep. exists (b :: p). rewrite Ep. reflexivity.
  - split; [split; discriminate|]. intros a s' E. injection E as <- <-. exists []. reflexivity.
Qed.
Lemma dmix_robust : robust dmix_codec.
Proof.
  intros h. cbn [dmix_codec c_rd]. unfold dmix_rd. apply safe_bind; [apply safe_full|intros vf]. do 3 (apply safe_bind; [apply safe_get8|intros ?]).
  apply safe_bind; [|intros; apply safe_ret]. intros s Hb. apply nibbles_loop_safe; [exact Hb|lia].
Qed.
Section Safe.
Context {T : Type} (c : codec T) (dflt : T).
Hypothesis R : robust c.
Lemma all_loop_good fuel : forall size acc s, bytes (inp s) -> (length (inp s) < fuel)%nat ->
  (all_loop c dflt fuel size acc s <> UB /\ all_loop c dflt fuel size acc s <> Err OutOfFuel) /\
  (forall a s', all_loop c dflt fuel size acc s = Ok (a, s') -> exists p, inp s = p ++ inp s').
Proof.
  induction fuel as [|fuel IH]; intros size acc s Hb Hf; [lia|]. cbn [all_loop]. destruct (rdn s <? size).
  - destruct (box_at_good c dflt R s Hb) as [[A1 A2] A3]. destruct (box_at c dflt s) as [[a s1]|e|]; cbn [bind fst snd].
    + destruct (A3 a s1 eq_refl) as (p & E & P).
      assert (B1 : bytes (inp s1)) by (rewrite E in Hb; apply bytes_app in Hb; tauto).
      assert (L : (length (inp s1) < fuel)%nat).
      { rewrite E, app_length in Hf. unfold len in P. lia. }
      destruct (IH size (acc ++ [a]) s1 B1 L) as [I1 I2]. split; [exact I1|].
      intros x s' Ex. destruct (I2 x s' Ex) as [q Eq]. exists (p ++ q). rewrite E, Eq, app_assoc. reflexivity.
    + split; [split; congruence|discriminate].
    + congruence.
  - split; [split; discriminate|]. intros a s' E. injection E as <- <-. exists []. reflexivity.
Qed.
Lemma all_safe h : safe (all_rd c dflt h).
Proof. intros s Hb. apply all_loop_good; [exact Hb|lia]. Qed.
Lemma d263_robust : robust (d263_codec c dflt).
Proof.
  intros h. cbn [d263_codec c_rd]. unfold d263_rd. apply safe_bind; [apply safe_get32|intros a]. do 3 (apply safe_bind; [apply safe_get8|intros ?]).
  apply safe_bind; [apply all_safe|intros k]. apply safe_bind; [apply safe_getrdn|intros br]. destruct (br =? h_size h); [apply safe_ret|apply safe_err; discriminate].
Qed.
Lemma trep_robust : robust (trep_codec c dflt).
Proof.
  intros h. cbn [trep_codec c_rd]. unfold trep_rd. apply safe_bind; [apply safe_full|intros vf]. apply safe_bind; [apply safe_get32|intros t].
  apply safe_bind; [apply (exts_safe c dflt R)|intros l]. apply safe_ret.
Qed.
Lemma ludt_robust : robust (ludt_codec c dflt).
Proof. intros h. apply safe_rmap, all_safe. Qed.
Lemma meco_robust : robust (meco_codec c dflt).
Proof. unfold meco_codec. apply boxed_safe, R. Qed.
End Safe.

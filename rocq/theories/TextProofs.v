From Verif Require Import Base Codec BitLemmas AtomModel AtomSpec AtomProofs BoxModel BoxSpec BoxProofs Reads IndexProofs TextModel TextSpec.

Lemma chars_text s r : text s -> chars (s ++ 0 :: r) = s.
Proof.
  induction 1 as [|x l Hx _ IH]; cbn [app chars]; [reflexivity|].
  destruct (N.eqb_spec x 0); [lia|]. rewrite IH. reflexivity.
Qed.
Lemma terminated_in b : terminated b = true <-> In 0 b.
Proof.
  unfold terminated. rewrite existsb_exists. split.
  - intros (x & I & E). apply N.eqb_eq in E. subst x. exact I.
  - intros I. exists 0. split; [exact I|reflexivity].
Qed.
Lemma terminated_cstr s r : terminated (s ++ 0 :: r) = true.
Proof. apply terminated_in, in_app_iff. right. left. reflexivity. Qed.
Lemma terminated_str s : terminated (cstr s) = true.
Proof. apply terminated_cstr. Qed.
Lemma chars_cstr s : text s -> chars (cstr s) = s.
Proof. apply chars_text. Qed.
Lemma text_bytes s : text s -> bytes s.
Proof. apply Forall_impl. unfold is_byte. lia. Qed.
Lemma text_no_zero s : text s -> ~ In 0 s.
Proof. intros H I. unfold text in H. rewrite Forall_forall in H. specialize (H 0 I). lia. Qed.
Lemma writes_str s : text s -> writes (put_str (cstr s)) (cstr s).
Proof. intros H. unfold put_str, cstr. rewrite terminated_cstr, chars_text by exact H. apply writes_putl. Qed.
Lemma slen_cstr s : text s -> slen (cstr s) = len s.
Proof. intros H. unfold slen, cstr. rewrite chars_text by exact H. reflexivity. Qed.
Lemma len_cstr s : len (cstr s) = len s + 1.
Proof. unfold cstr. lens. reflexivity. Qed.
Global Hint Rewrite len_cstr : len.
(* the number of characters before the first zero *)
Lemma slen_zero b k : (slen b <= k <-> (len b <= k \/ In 0 (firstn (N.to_nat k + 1) b))).
Proof.
  unfold slen. revert k. induction b as [|x l IH]; intros k; cbn [chars]; lens; [lia|].
  destruct (N.eqb_spec x 0) as [->|E].
  - lens. split; [intros _; right|lia]. rewrite Nat.add_comm. cbn [Nat.add firstn]. left. reflexivity.
  - lens. destruct (N.eqb_spec k 0) as [->|K].
    + split; [lia|]. intros [C|C]; [lia|]. cbn in C. destruct C as [C|[]]. congruence.
    + specialize (IH (k - 1)). replace (N.to_nat k + 1)%nat with (S (N.to_nat (k - 1) + 1)) by lia. cbn [firstn].
      split; [intros H|intros [H|[H|H]]].
      * destruct (proj1 IH) as [H'|H']; [lia|left; lia|right; right; exact H'].
      * enough (len (chars l) <= k - 1) by lia. apply IH. left. lia.
      * congruence.
      * enough (len (chars l) <= k - 1) by lia. apply IH. right. exact H.
Qed.
Lemma sub32_from n k : k = n -> k < 4294967296 -> forall a, a + n < 4294967296 -> sub32 (a + n) a = k.
Proof. intros -> H a Ha. rewrite sub32_le by lia. lia. Qed.
Lemma take_len {A} n (b : list A) : n = len b -> N.to_nat n = length b.
Proof. intros ->. unfold len. lia. Qed.

(* ------------------------------------------------------------------ *)
Lemma last_cstr s : last (cstr s) 0 = 0.
Proof. unfold cstr. apply last_last. Qed.
Lemma firstn_cstr s : firstn (N.to_nat (len s)) (cstr s) = s.
Proof. unfold cstr. rewrite firstn_app, (take_len _ s eq_refl), firstn_all, Nat.sub_diag. cbn. apply app_nil_r. Qed.
Lemma hdlr_exact : exact hdlr_codec hdlr_layout.
Proof.
  split; [intros t _; plain|]. intros t Ht Hl. destruct t as [v f ct ht mn cf cm qt nm].
  cbn [hdlr_codec hdlr_layout c_size c_w c_rd c_ty l_body l_view l_ok hd_ver hd_flags hd_ctype hd_type hd_manu hd_cflags hd_mask hd_qt hd_name] in *.
  destruct Ht as (Hf & H1 & H2 & H3 & H4 & H5 & Ht & Hn).
  assert (Hq : len (if qt then be8 (len nm) ++ nm else cstr nm) = len nm + 1) by (destruct qt; lens; lia).
  revert Hl. lens. rewrite Hq. intros Hl. split; [|split].
  - unfold hdlr_size. cbn [hd_name]. rewrite w32_small; lia.
  - unfold hdlr_write. cbn [hd_ver hd_flags hd_ctype hd_type hd_manu hd_cflags hd_mask hd_qt hd_name].
    apply writes_full_seq. destruct qt; unfold cstr; repeat (apply writes_seq; [wstep|]); wstep.
  - unfold hdlr_read. pauto. pauto. { destruct qt; [reflexivity|exact H1]. } pauto. pauto. { destruct qt; [reflexivity|exact H3]. } pauto. pauto. pauto.
    cbn [h_size]. lens. match goal with |- parses ?n _ _ _ => change n with 32 end.
    replace (8 + (4 + (4 + (4 + (4 + (4 + (4 + (len nm + 1)))))))) with (32 + (len nm + 1)) by lia.
    rewrite sub32_le by lia. replace (32 + (len nm + 1) - 32) with (len nm + 1) by lia.
    pnext; [apply parses_take_eq; apply take_len; symmetry; exact Hq|].
    destruct qt.
    + unfold be8. cbn [app]. rewrite N.mod_small by lia. replace (len nm + 1 - 1) with (len nm) by lia. rewrite N.eqb_refl.
      destruct (N.ltb_spec (len nm) 128); [|lia]. cbn [andb orb]. cbn [pascaltocstr].
      rewrite (take_len _ nm eq_refl), firstn_all.
      replace (length nm + 1)%nat with (S (length nm)) by lia. cbn [skipn]. rewrite skipn_all.
      cbn [app]. fold (cstr nm). rewrite slen_cstr by exact Ht. rewrite terminated_str.
      destruct (N.ltb_spec 237 (len nm)); [lia|]. cbn [negb orb]. rewrite andb_false_r.
      pauto. rewrite <- (take_len _ nm eq_refl), firstn_cstr. reflexivity.
    + destruct Hn as [Hn Hp]. destruct nm as [|x r].
      * apply parses_ret. reflexivity.
      * remember (cstr (x :: r)) as b eqn:Eb. destruct b as [|y q]; [discriminate|].
        assert (y = x) by (injection Eb; congruence). subst y. cbn match. rewrite Eb.
        replace ((x =? len (x :: r) + 1 - 1) && (x <? 128)) with false.
        2:{ symmetry. apply andb_false_iff. rewrite N.eqb_neq, N.ltb_nlt. destruct (Hp x r eq_refl); [left|right]; lia. }
        cbn [orb]. cbn match. rewrite last_cstr. cbn [N.eqb]. replace (len (x :: r) + 1 - 1) with (len (x :: r)) by lia.
        rewrite slen_cstr by exact Ht. rewrite terminated_str.
        destruct (N.ltb_spec 237 (len (x :: r))); [lia|]. cbn [negb orb]. rewrite andb_false_r.
        pauto. change (0 =? 0) with true. cbn match. rewrite firstn_cstr. reflexivity.
Qed.

Lemma land1 f : (N.land f 1 =? 0) = negb (in_this_file f).
Proof.
  unfold in_this_file. change 1 with (N.ones 1). rewrite N.land_ones. change (2 ^ 1) with 2.
  rewrite N.bit0_odd. destruct (N.odd f) eqn:E.
  - apply N.odd_spec in E. destruct E as [k ->]. apply N.eqb_neq. rewrite N.add_comm, N.mul_comm, N.mod_add by discriminate. discriminate.
  - assert (Ev : N.even f = true) by (rewrite <- N.negb_odd, E; reflexivity). apply N.even_spec in Ev. destruct Ev as [k ->].
    apply N.eqb_eq. rewrite N.mul_comm, N.mod_mul by discriminate. reflexivity.
Qed.
Lemma url_exact : exact url_codec url_layout.
Proof.
  split; [intros t (E & _); cbn [url_codec c_ty c_known l_view url_layout l_ty ul_ty] in *; rewrite E; plain|].
  intros t Ht Hl. destruct t as [ty v f loc]. cbn [url_codec url_layout c_size c_w c_rd c_ty l_body l_view l_ok ul_ty ul_ver ul_flags ul_loc] in *.
  destruct Ht as (-> & Hf & Hloc). unfold url_size, url_write, url_read. cbn [ul_ver ul_flags ul_loc h_size h_type]. rewrite land1.
  revert Hl. destruct (in_this_file f); cbn [negb]; [|destruct loc as [b|]]; lens; intros Hl.
  - split; [reflexivity|]. split; [apply writes_full_seq, writes_ret|]. pauto. pauto. cbn [h_size]. lens. match goal with |- parses _ (if ?b then _ else _) _ _ => change b with true end. cbn match. pauto; reflexivity.
  - destruct Hloc as (s & Hs & ->). lens. rewrite slen_cstr by exact Hs. split; [rewrite w32_small; lia|].
    split; [apply writes_full_seq, writes_str, Hs|].
    pauto. pauto. cbn [h_size]. lens. rewrite w32_small by lia. replace (8 + (4 + (len s + 1))) with (8 + 4 + (len s + 1)) by lia.
    rewrite (sub32_from _ (len s + 1) eq_refl) by lia. destruct (N.eqb_spec (len s + 1) 0); [lia|].
    change (code "url " =? T_url) with true. cbn match. pnext; [apply parses_take_eq, take_len; lens; lia|].
    rewrite terminated_str. cbn [negb]. rewrite andb_false_r. pauto; try reflexivity.
  - split; [reflexivity|]. split; [apply writes_full_seq, writes_ret|]. pauto. pauto. cbn [h_size]. lens. match goal with |- parses _ (if ?b then _ else _) _ _ => change b with true end. cbn match. pauto; reflexivity.
Qed.
Lemma elng_robust : robust elng_codec.
Proof. robust_tac elng_read. Qed.
Lemma elng_exact : exact elng_codec elng_layout.
Proof.
  split; [intros t _; plain|]. intros t Ht Hl. destruct t as [v f b].
  cbn [elng_codec elng_layout c_size c_w c_rd c_ty l_body l_view l_ok el_ver el_flags el_tag] in *.
  destruct Ht as (Hf & s & Hs & ->). unfold elng_size, elng_write, elng_read. cbn [el_ver el_flags el_tag h_size]. revert Hl. lens. intros Hl.
  split; [rewrite slen_cstr, w32_small by (exact Hs || lia); lia|]. split; [apply writes_full_seq, writes_str, Hs|].
  pauto. pauto. lens. rewrite w32_small by lia. replace (8 + (4 + (len s + 1))) with (8 + 4 + (len s + 1)) by lia.
  rewrite (sub32_from _ (len s + 1) eq_refl) by lia. pnext; [apply parses_take_eq, take_len; lens; lia|]. pauto; try reflexivity.
Qed.
Lemma cprt_robust : robust cprt_codec.
Proof. robust_tac cprt_read. Qed.
Lemma cprt_exact : exact cprt_codec cprt_layout.
Proof.
  split; [intros t _; plain|]. intros t Ht Hl. destruct t as [v f l b].
  cbn [cprt_codec cprt_layout c_size c_w c_rd c_ty l_body l_view l_ok cp_ver cp_flags cp_lang cp_notice] in *.
  destruct Ht as (Hf & Hlang & s & Hs & ->). unfold cprt_size, cprt_write, cprt_read. cbn [cp_ver cp_flags cp_lang cp_notice h_size]. revert Hl. lens. intros Hl.
  split; [rewrite slen_cstr, w32_small by (exact Hs || lia); lia|].
  split; [apply writes_full_seq, writes_seq; [apply writes_put16|apply writes_str, Hs]|].
  pauto. pauto. pauto. lens. match goal with |- parses ?n _ _ _ => change n with 14 end.
  replace (8 + (4 + (2 + (len s + 1)))) with (14 + (len s + 1)) by lia.
  rewrite (sub32_from _ (len s + 1) eq_refl) by lia. destruct (N.eqb_spec (len s + 1) 0); [lia|].
  pnext; [apply parses_take_eq, take_len; lens; lia|]. pauto; try reflexivity.
Qed.
Lemma schm_exact : exact schm_codec schm_layout.
Proof.
  split; [intros t _; plain|]. intros t Ht Hl.
  assert (D : (exists s, text s /\ s <> [] /\ sm_url t = Some (cstr s) /\ address t = Some (cstr s)) \/
    (address t = None /\ schm_has_url t = false)).
  { destruct Ht as (_ & _ & _ & Hu). unfold address, schm_has_url. destruct (sm_url t) as [b|]; [|right; split; reflexivity].
    destruct Hu as (s & Hs & ->). destruct s as [|x r].
    - right. split; reflexivity.
    - left. exists (x :: r). split; [exact Hs|]. split; [discriminate|]. split; [reflexivity|]. cbn [hd cstr app].
      inversion_clear Hs as [|? ? Hx _]. destruct (N.eqb_spec x 0); [lia|reflexivity]. }
  destruct t as [v f ty ve b].
  cbn [schm_codec schm_layout c_size c_w c_rd c_ty l_body l_view l_ok sm_ver sm_flags sm_type sm_version sm_url] in *.
  destruct Ht as (Hv & H1 & H2 & Hu). unfold schm_size, schm_write, schm_read. cbn [sm_ver sm_flags sm_type sm_version sm_url h_size].
  destruct D as [(s & Hs & Hne & -> & E)|[E1 E2]].
  - rewrite E in *. unfold schm_has_url. cbn [sm_url].
    revert Hl. lens. intros Hl. rewrite slen_cstr by exact Hs.
    assert (0 < len s) by (destruct s; [congruence|lens; lia]). destruct (N.ltb_spec 0 (len s)); [|lia].
    split; [rewrite w32_small; lia|].
    split; [apply writes_full_seq, writes_seq; [apply writes_put32|apply writes_seq; [apply writes_put32|apply writes_str, Hs]]|].
    pauto. { split; [exact Hv|lia]. } pauto. pauto. pauto. lens. match goal with |- parses ?n _ _ _ => change n with 20 end.
    replace (8 + (4 + (4 + (4 + (len s + 1))))) with (20 + (len s + 1)) by lia.
    rewrite (sub32_from _ (len s + 1) eq_refl) by lia. destruct (N.eqb_spec (len s + 1) 0); [lia|].
    change (N.land 1 1 =? 0) with false. cbn match.
    pnext; [apply parses_take_eq, take_len; lens; lia|]. rewrite terminated_str. cbn [negb]. rewrite andb_false_r. pauto; try reflexivity.
  - rewrite E1, E2. clear E1 E2 Hl Hu. split; [reflexivity|]. split; [apply writes_full_seq, writes_seq; [apply writes_put32|eapply writes_seq; [apply writes_put32|apply writes_ret]]|].
    pauto. { split; [exact Hv|lia]. } pauto. rewrite app_nil_r. pauto. pauto. lens. match goal with |- parses _ (if ?b then _ else _) _ _ => change b with true end. change (N.land 0 1 =? 0) with true. cbn match. pauto; reflexivity.
Qed.
Lemma ftyp_robust : robust ftyp_codec.
Proof. robust_tac ftyp_read. Qed.
Lemma ftyp_exact : exact ftyp_codec ftyp_layout.
Proof.
  split; [intros t _; plain|]. intros t Ht Hl. destruct t as [b m l].
  cbn [ftyp_codec ftyp_layout c_size c_w c_rd c_ty l_body l_view l_ok ft_brand ft_minor ft_list] in *.
  destruct Ht as (H1 & H2 & H3 & Hne). unfold ftyp_size, ftyp_write, ftyp_read. cbn [ft_brand ft_minor ft_list h_size].
  assert (Hm : len (flat_map be32 l) = 4 * len l) by (apply (len_flat_map_const be32 4); intros; apply len_be32).
  revert Hl. lens. rewrite Hm. intros Hl. split; [rewrite w32_small; lia|].
  split; [repeat (apply writes_seq; [wstep|]); apply writes_map; intros; wstep|].
  pauto. pauto. pauto. lens. match goal with |- parses ?n _ _ _ => change n with 16 end.
  replace (8 + (4 + (4 + 4 * len l))) with (16 + 4 * len l) by lia.
  rewrite (sub32_from _ (4 * len l) eq_refl) by lia.
  assert (0 < len l) by (destruct l; [congruence|lens; lia]).
  destruct (N.ltb_spec (4 * len l) 4); [lia|].
  replace (4 * len l / 4) with (len l) by lia. replace (4 * len l mod 4) with 0 by lia. change (0 =? 0) with true. cbn match.
  pnext; [|pauto; reflexivity]. rewrite (take_len _ l eq_refl). apply parses_rrep; [|apply w32_lt || lia].
  intros x n0 I. apply parses_get32. rewrite Forall_forall in H3. apply H3, I.
Qed.
Lemma urn_robust : robust urn_codec.
Proof. robust_tac urn_read. Qed.

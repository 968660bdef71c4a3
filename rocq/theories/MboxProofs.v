From Verif Require Import Base Codec AtomModel AtomSpec AtomProofs AtomProps BoxModel BoxSpec BoxProofs Reads EntryProofs
  HeaderModel HeaderSpec HeaderProofs TextModel TextSpec TextProofs TrackModel KidsModel KidsProofs MboxModel MboxSpec.

(* ------------------------------------------------------------------ *)
(* Groups                                                              *)

Lemma len_flat_be32 l : len (flat_map be32 l) = 4 * len l.
Proof. apply len_flat_map_const. reflexivity. Qed.
Lemma reads_words n l : n < 4294967296 -> Forall (fun i => i < 4294967296) l -> reads n (rrep (length l) get32) (flat_map be32 l) l.
Proof.
  intros Hn H. rewrite <- (map_id l) at 3. eapply reads_rrep; [|exact Hn]. intros a k Ia _. rewrite Forall_forall in H. apply reads_of, parses_get32, H, Ia.
Qed.
Lemma egrp_faithful : faithful egrp_codec egrp_layout.
Proof.
  split.
  - intros t (P & _). cbn [egrp_codec egrp_layout c_ty c_known l_view l_ty]. auto.
  - intros t (P & F & I & M & L & R) Hl. destruct t as [ty v f id ids rest]. cbn [eg_rest eg_type eg_ver eg_flags eg_id eg_ids] in *. subst rest.
    cbn [egrp_codec egrp_layout c_size c_w c_rd c_ty l_body l_view eg_type eg_ver eg_flags eg_id eg_ids eg_rest] in *.
    lens. rewrite len_flat_be32 in *. split; [|split].
    + unfold egrp_size. cbn [eg_ids]. rewrite w32_small; lia.
    + unfold egrp_write. cbn [eg_ver eg_flags eg_id eg_ids eg_rest]. apply writes_full_seq.
      do 2 (apply writes_seq; [wstep|]). rewrite <- (app_nil_r (flat_map be32 ids)). apply writes_seq; [|apply writes_putl].
      apply writes_map. intros; wstep.
    + unfold egrp_read. rnext; [apply reads_of, parses_full; exact F|]. rnext; [apply reads_of, parses_get32; exact I|].
      rnext; [apply reads_of, parses_get32; exact L|]. cbn [fst snd h_type h_size].
      match goal with |- reads ?n _ _ _ => change n with 20 end.
      rnext; [rewrite (take_len (len ids) ids eq_refl); apply reads_words; [reflexivity|exact M]|].
      rewrite len_flat_be32. eapply reads_bind_nil; [intros s E; unfold getrdn; rewrite E; reflexivity|].
      lens. rewrite w32_small by lia.
      match goal with |- reads _ (rbind (take (N.to_nat (sub32 ?a ?b))) _) _ _ => replace b with a by lia end.
      rewrite sub32_le, N.sub_diag by lia. change (N.to_nat 0) with O. rewrite <- (app_nil_r []). rnext; [apply reads_take; reflexivity|].
      rnext.
Qed.
Lemma grpl_types ids : map (fun x => ALeaf egrp (l_view egrp_layout x)) ids = map (ALeaf egrp) ids.
Proof. reflexivity. Qed.
Lemma leaves_map {T} (l : list T) : leaves (map (ALeaf T) l) = l.
Proof. unfold leaves. induction l as [|a l IH]; [reflexivity|]. cbn [map flat_map app]. f_equal. exact IH. Qed.
Lemma faithful_eq {T} (c : codec T) (y y' : layout T) :
  (forall t, l_ok y' t -> l_ok y t) -> (forall t, l_ok y' t -> l_ty y t = l_ty y' t /\ l_body y t = l_body y' t /\ l_view y t = l_view y' t) ->
  faithful c y -> faithful c y'.
Proof.
  intros O E [H1 H2]. split.
  - intros t Ht. destruct (E t Ht) as (A & B & C). rewrite <- A, <- C. apply H1, O, Ht.
  - intros t Ht. destruct (E t Ht) as (A & B & C). rewrite <- B, <- C. apply H2, O, Ht.
Qed.
Lemma grpl_faithful : faithful grpl_codec grpl_layout.
Proof.
  apply (faithful_eq _ (boxed_layout egrp_codec egrp_layout T_grpl (map (ALeaf egrp)) leaves)).
  - intros t Ht. cbn [boxed_layout l_ok]. apply kid_ok_leaves. exact Ht.
  - intros t Ht. cbn [boxed_layout l_ty l_body l_view grpl_layout]. rewrite kid_enc_leaves, kid_view_leaves, grpl_types, leaves_map. repeat split.
  - apply boxed_faithful; [exact egrp_faithful|plain|]. intros k. reflexivity.
Qed.
Lemma egrp_robust : robust egrp_codec.
Proof. robust_tac egrp_read. Qed.
Lemma grpl_robust : robust grpl_codec.
Proof. apply boxed_safe, egrp_robust. Qed.

(* ------------------------------------------------------------------ *)
(* Item information                                                    *)

Lemma after_zero_cstr s r : text s -> after_zero (cstr s ++ r) = Some r.
Proof.
  unfold cstr. rewrite <- app_assoc. cbn [app]. induction 1 as [|x l Hx _ IH]; [reflexivity|]. cbn [app after_zero].
  destruct (N.eqb_spec x 0); [lia|exact IH].
Qed.
Lemma ostr_cases b : ostr_ok b -> exists t, text t /\ ostr b = cstr t /\ olen b = len t /\ writes (put_ostr b) (cstr t).
Proof.
  destruct b as [s|]; intros H.
  - destruct H as (t & Ht & ->). exists t. split; [exact Ht|]. split; [reflexivity|]. split; [apply slen_cstr, Ht|apply writes_str, Ht].
  - exists []. split; [constructor|]. split; [reflexivity|]. split; [reflexivity|]. apply (writes_put8 0).
Qed.
Lemma next_cstr t r : text t -> next_str (cstr t ++ r) = Ok (Some (cstr t), r).
Proof.
  intros H. unfold next_str. destruct (cstr t ++ r) as [|a l] eqn:E; [apply (f_equal (@length N)) in E; rewrite app_length in E; unfold cstr in E; rewrite app_length in E; cbn in E; lia|].
  rewrite <- E, after_zero_cstr by exact H. unfold cstr at 1. rewrite <- app_assoc. cbn [app]. rewrite chars_text by exact H. reflexivity.
Qed.
Lemma reads_rlift {A B} n (r : res A) (k : A -> rd B) bs a b : r = Ok a -> reads n (k a) bs b -> reads n (rbind (rlift r) k) bs b.
Proof. intros -> H. eapply reads_bind_nil; [intros s _; reflexivity|exact H]. Qed.
Lemma be32_list v : be32 v = [v / 16777216 mod 256; v / 65536 mod 256; v / 256 mod 256; v mod 256].
Proof. reflexivity. Qed.
Lemma le32v_be32 v r : exists a b c d, be32 v ++ r = a :: b :: c :: d :: r /\ le32v a b c d = reversed v.
Proof.
  rewrite be32_list. do 4 eexists. split; [reflexivity|]. unfold reversed, le32v. rewrite be32_list. cbn [rev app fold_left]. lia.
Qed.
Lemma infe_faithful : faithful infe_codec infe_layout.
Proof.
  split; [intros t _; plain|]. intros t Ht Hl. destruct t as [v f id pr ty nm ct ce ur et ex].
  cbn [infe_codec infe_layout c_size c_w c_rd c_ty l_body l_view l_ok in_ver in_flags in_id in_prot in_type in_name in_ct in_ce in_uri in_exttype in_ext] in *.
  destruct Ht as (Hv & Hf & Hid & Hpr & Hty & Hnm & Hct & Hur & Hex & Hn).
  set (a := mkInfe v f id pr ty nm ct ce ur et ex) in *.
  destruct (ostr_cases nm Hnm) as (tn & Tn & En & Ln & Wn).
  assert (Fo : full_ok v f) by (split; lia).
  (* the strings *)
  assert (S : (has_content a = true /\ exists tc te, text tc /\ text te /\ ostr ct = cstr tc /\ ostr ce = cstr te /\ olen ct = len tc /\ olen ce = len te /\
                 writes (put_ostr ct) (cstr tc) /\ writes (put_ostr ce) (cstr te) /\ infe_strings a = cstr tn ++ cstr tc ++ cstr te) \/
              (has_content a = false /\ has_uri a = true /\ exists tu, text tu /\ ostr ur = cstr tu /\ olen ur = len tu /\ writes (put_ostr ur) (cstr tu) /\
                 infe_strings a = cstr tn ++ cstr tu) \/
              (has_content a = false /\ has_uri a = false /\ infe_strings a = cstr tn)).
  { unfold infe_strings. change (in_name a) with nm. change (in_ct a) with ct. change (in_ce a) with ce. change (in_uri a) with ur. rewrite En.
    destruct (has_content a) eqn:Hc.
    - left. split; [reflexivity|]. destruct (Hct eq_refl) as [H1 H2]. destruct (ostr_cases ct H1) as (tc & ? & E1 & ? & ?). destruct (ostr_cases ce H2) as (te & ? & E2 & ? & ?).
      exists tc, te. rewrite E1, E2. repeat (split; [assumption || reflexivity|]). reflexivity.
    - destruct (has_uri a) eqn:Hu; right; [left|right].
      + split; [reflexivity|]. split; [reflexivity|]. destruct (ostr_cases ur (Hur eq_refl)) as (tu & ? & E1 & ? & ?). exists tu. rewrite E1. repeat (split; [assumption || reflexivity|]). reflexivity.
      + rewrite app_nil_r. auto. }
  (* the extension *)
  assert (E : (v = 1 /\ 0 < et < 4294967296 /\ infe_ext a = be32 et ++ match ex with Some d => d | None => [] end) \/ (v = 1 /\ et = 0 /\ ex = None /\ infe_ext a = []) \/ (v <> 1 /\ infe_ext a = [])).
  { unfold infe_ext, has_ext. change (in_ver a) with v. change (in_exttype a) with et. destruct (N.eqb_spec v 1) as [Ev|Ev]; [|right; right; auto]. destruct (Hex Ev) as [He1 He2].
    destruct (N.eqb_spec et 0) as [Et|Et]; cbn [negb andb]; [right; left|left].
    - destruct ex; [destruct He2; contradiction|auto].
    - split; [exact Ev|]. split; [lia|reflexivity]. }
  assert (Xp : ext_part v (infe_ext a) = Ok (if has_ext a then reversed et else 0, if has_ext a then Some match ex with Some d => d | None => [] end else None)).
  { unfold ext_part, has_ext. change (in_ver a) with v. change (in_exttype a) with et. destruct E as [(-> & H & ->)|[(-> & -> & -> & ->)|(H & ->)]]; [|reflexivity|].
    - destruct (N.eqb_spec et 0); [lia|]. change (1 =? 1) with true. cbn match. destruct (le32v_be32 et match ex with Some d => d | None => [] end) as (x1 & x2 & x3 & x4 & Q1 & Q2). rewrite Q1, Q2. reflexivity.
    - destruct (N.eqb_spec v 1); [lia|reflexivity]. }
  assert (Hc : has_content a = (v <? 2) || (ty =? T_mime)) by reflexivity.
  assert (Hu : has_uri a = negb (has_content a) && (ty =? T_urit)) by reflexivity.
  split; [|split].
  - unfold infe_size. cbn [a in_ver in_flags in_id in_prot in_type in_name in_ct in_ce in_uri in_exttype in_ext] in *.
    destruct E as [(-> & He & Ee)|[(-> & -> & -> & Ee)|(He & Ee)]]; rewrite Ee in *.
    + change (1 <? 2) with true in *. change (1 =? 1) with true. change (2 <=? 1) with false in *. change (1 =? 3) with false in *. cbn match in *.
      destruct (N.eqb_spec et 0); [lia|]. destruct S as [(Sc & tc & te & ? & ? & ? & ? & L1 & L2 & _ & _ & Es)|[(Sc & _)|(Sc & _)]]; [|discriminate Sc|discriminate Sc].
      rewrite Es in *. lens. rewrite Ln, L1, L2. destruct ex as [d|]; lens; rewrite w32_small; lia.
    + change (1 <? 2) with true in *. change (1 =? 1) with true. change (2 <=? 1) with false in *. change (1 =? 3) with false in *. change (0 =? 0) with true. cbn match in *.
      destruct S as [(Sc & tc & te & ? & ? & ? & ? & L1 & L2 & _ & _ & Es)|[(Sc & _)|(Sc & _)]]; [|discriminate Sc|discriminate Sc].
      rewrite Es in *. lens. rewrite Ln, L1, L2. rewrite w32_small; lia.
    + destruct (N.eqb_spec v 1); [lia|].
      assert (Hl4 : len (if v =? 3 then be32 id else be16 id) = if v =? 3 then 4 else 2) by (destruct (v =? 3); reflexivity).
      assert (Hl5 : len (if 2 <=? v then be32 ty else []) = if 2 <=? v then 4 else 0) by (destruct (2 <=? v); reflexivity).
      lens. rewrite Hl4, Hl5 in *.
      destruct S as [(Sc & tc & te & ? & ? & ? & ? & L1 & L2 & _ & _ & Es)|[(Sc & Su & tu & ? & ? & L1 & _ & Es)|(Sc & Su & Es)]]; rewrite Es in *; lens; rewrite Ln, ?L1, ?L2.
      * rewrite Hc in Sc. destruct (N.ltb_spec v 2), (N.leb_spec 2 v); try lia; cbn [orb] in Sc.
        -- destruct (N.eqb_spec v 3); [lia|]. rewrite w32_small; lia.
        -- rewrite Sc. destruct (N.eqb_spec v 2), (N.eqb_spec v 3); try lia; rewrite w32_small; lia.
      * rewrite Hc in Sc. apply orb_false_iff in Sc as [Sc Sm]. rewrite Hu, Hc, Sc, Sm in Su. cbn [orb negb andb] in Su. rewrite Sc, Sm, Su.
        apply N.ltb_ge in Sc. destruct (N.leb_spec 2 v); [|lia]. destruct (N.eqb_spec v 2), (N.eqb_spec v 3); try lia; rewrite w32_small; lia.
      * rewrite Hc in Sc. apply orb_false_iff in Sc as [Sc Sm]. rewrite Hu, Hc, Sc, Sm in Su. cbn [orb negb andb] in Su. rewrite Sc, Sm, Su.
        apply N.ltb_ge in Sc. destruct (N.leb_spec 2 v); [|lia]. destruct (N.eqb_spec v 2), (N.eqb_spec v 3); try lia; rewrite w32_small; lia.
  - unfold infe_write. cbn [a in_ver in_flags in_id in_prot in_type in_name in_ct in_ce in_uri in_exttype in_ext].
    apply writes_full_seq. apply writes_seq; [destruct (v =? 3); wstep|]. apply writes_seq; [wstep|].
    apply writes_seq; [destruct (2 <=? v); [wstep|apply writes_ret]|]. fold a. rewrite <- Hc.
    assert (Wx : writes (if v =? 1 then (if et =? 0 then wret else put32 et) ;; match ex with Some d => putl d | None => wret end else wret) (infe_ext a)).
    { destruct E as [(-> & He & ->)|[(-> & -> & -> & ->)|(He & ->)]]; [|apply (writes_seq _ _ [] []); apply writes_ret|].
      - change (1 =? 1) with true. cbn match. destruct (N.eqb_spec et 0); [lia|]. apply writes_seq; [wstep|]. destruct ex; [apply writes_putl|apply writes_ret].
      - destruct (N.eqb_spec v 1); [lia|apply writes_ret]. }
    destruct S as [(Sc & tc & te & ? & ? & ? & ? & L1 & L2 & W1 & W2 & Es)|[(Sc & Su & tu & ? & ? & L1 & W1 & Es)|(Sc & Su & Es)]]; rewrite Es, Sc.
    + rewrite <- !app_assoc. apply writes_seq; [exact Wn|]. rewrite app_assoc. apply writes_seq; [|exact Wx]. apply writes_seq; assumption.
    + rewrite Hu, Sc in Su. cbn [negb andb] in Su. rewrite Su. rewrite <- !app_assoc. apply writes_seq; [exact Wn|]. apply writes_seq; assumption.
    + rewrite Hu, Sc in Su. cbn [negb andb] in Su. rewrite Su. apply writes_seq; [exact Wn|]. apply (writes_seq _ _ [] _); [apply writes_ret|exact Wx].
  - unfold infe_read. rnext; [apply reads_of, parses_full; exact Fo|]. cbn [fst snd].
    rnext. { destruct (v =? 3); [apply reads_of, parses_get32, Hid|apply reads_of, parses_get16, Hid]. }
    rnext; [apply reads_of, parses_get16, Hpr|].
    rnext. { instantiate (1 := if 2 <=? v then ty else 0). destruct (N.leb_spec 2 v) as [Hv2|]; [apply reads_of, parses_get32, Hty, Hv2|apply reads_ret; [apply w32_lt|reflexivity]]. }
    eapply reads_bind_nil; [intros s Es; unfold getrdn; rewrite Es; reflexivity|].
    cbn [h_size]. set (tl := infe_strings a ++ infe_ext a) in *.
    assert (Htl : len tl <= 4096) by (unfold tl; lens; lia).
    match goal with |- reads ?k _ _ _ => assert (Ek : 8 + len (full v f ++ (if v =? 3 then be32 id else be16 id) ++ be16 pr ++ (if 2 <=? v then be32 ty else []) ++ tl) = k + len tl /\ k < 4294967296) end.
    { clearbody tl. clear - Hl. rewrite !len_app in *. rewrite !w32_add_l. rewrite !(w32_small (8 + _ + _)) by lia. rewrite w32_small by lia. lia. }
    destruct Ek as [Ek Kl]. rewrite Ek. rewrite sub32_le by lia. match goal with |- context[?k + len tl - ?k] => replace (k + len tl - k) with (len tl) by lia end.
    rnext; [apply reads_take; unfold len; lia|]. destruct (N.ltb_spec 4096 (len tl)); [lia|].
    assert (Ht2 : forall b : bool, ((v <? 2) || ((if 2 <=? v then ty else 0) =? T_mime)) = has_content a /\
       (has_content a = false -> ((if 2 <=? v then ty else 0) =? T_urit) = has_uri a)).
    { intros _. rewrite Hu, Hc. destruct (N.ltb_spec v 2), (N.leb_spec 2 v); try lia; cbn [orb negb andb]; split; auto; try discriminate. }
    destruct (Ht2 true) as [-> Ht3].
    destruct S as [(Sc & tc & te & T1 & T2 & E1 & E2 & L1 & L2 & W1 & W2 & Es)|[(Sc & Su & tu & T1 & E1 & L1 & W1 & Es)|(Sc & Su & Es)]]; unfold tl; rewrite Es; rewrite <- ?app_assoc;
      (eapply reads_rlift; [apply next_cstr; exact Tn|]); cbv beta iota zeta; rewrite Sc.
    + eapply reads_rlift; [apply next_cstr; exact T1|]. eapply reads_rlift; [apply next_cstr; exact T2|]. eapply reads_rlift; [exact Xp|].
      cbv beta iota zeta. apply reads_ret; [apply w32_lt|]. cbn [a in_ver in_flags in_id in_prot in_type in_name in_ct in_ce in_uri in_exttype in_ext].
      rewrite Hu, Sc, En, E1, E2. reflexivity.
    + rewrite (Ht3 Sc), Su. eapply reads_rlift; [apply next_cstr; exact T1|]. eapply reads_rlift; [exact Xp|].
      cbv beta iota zeta. apply reads_ret; [apply w32_lt|]. rewrite En, E1. reflexivity.
    + rewrite (Ht3 Sc), Su. eapply reads_rlift; [exact Xp|]. cbv beta iota zeta. apply reads_ret; [apply w32_lt|]. rewrite En. reflexivity.
Qed.

(* ------------------------------------------------------------------ *)
Section Mbox.
Context {X : Type} (x : codec X) (dx : X) (y : layout X).
Hypothesis F : faithful x y.
Hypothesis A : apart x.
Notation iinf := (iinf (X:=X)). Notation sinf := (sinf (X:=X)). Notation ipro := (ipro (X:=X)). Notation mbox := (mbox (X:=X)). Notation kid := (kid (X:=X)).

Lemma apart_in ty t : In ty [code "pitm"; code "iinf"; code "infe"; code "ipro"; code "sinf"; code "frma"; code "schm"; code "grpl"] ->
  l_ok y t -> (ty =? c_ty x t) = false.
Proof.
  intros I H. destruct (N.eqb_spec ty (c_ty x t)) as [->|]; [|reflexivity]. unfold apart in A. rewrite Forall_forall in A. specialize (A _ I).
  rewrite (proj1 (proj2 (proj1 F t H))) in A. discriminate.
Qed.
Ltac side ty := intros t Ht; exact (apart_in ty t ltac:(cbn; tauto) Ht).
Lemma iinf_kid_faithful : faithful (iinf_kid x) (iinf_kid_layout y).
Proof. apply faithful_sum; [exact infe_faithful|exact F|]. side (code "infe"). Qed.
Lemma kid_view_len {T} (z : layout T) l : no_free l -> len (kid_view z l) = len l.
Proof.
  unfold kid_view. induction 1 as [|k r Hk _ IH]; [reflexivity|]. cbn [map filter]. rewrite free_strip, Hk. cbn [negb]. rewrite !len_cons, IH. reflexivity.
Qed.
Lemma iinf_faithful : faithful (iinf_codec x) (iinf_layout x y).
Proof.
  split; [intros t _; plain|]. intros t Ht Hl. destruct t as [v f ks].
  cbn [iinf_codec iinf_layout c_size c_w c_rd c_ty l_body l_view l_ok ii_ver ii_flags ii_kids] in *. destruct Ht as (Hf & Hn & Hfr & Hk).
  assert (Ln : len (if v =? 0 then be16 (len ks) else be32 (len ks)) = if v =? 0 then 2 else 4) by (destruct (v =? 0); reflexivity).
  rewrite !len_app, Ln, len_full in *. split; [|split].
  - unfold iinf_size. cbn [ii_ver ii_kids]. rewrite (boxes_size_ok _ _ (inl infe_none) iinf_kid_faithful) by (try assumption; destruct (v =? 0); lia). lia.
  - unfold iinf_write. cbn [ii_ver ii_flags ii_kids]. apply writes_full_seq. apply writes_seq; [destruct (v =? 0); wstep|].
    apply (boxes_writes _ _ (inl infe_none) iinf_kid_faithful); [assumption|lia].
  - unfold iinf_read. rnext; [apply reads_of, parses_full, Hf|]. cbn [fst snd].
    rnext. { destruct (v =? 0); [apply reads_of, parses_get16, Hn|apply reads_of, parses_get32, Hn]. }
    rewrite Ln, w32_add_l, len_full.
    rnext; [apply (boxes_reads _ _ (inl infe_none) iinf_kid_faithful); [reflexivity|assumption| |lia]|].
    + rewrite w32_small by (destruct (v =? 0); lia). lia.
    + rewrite kid_view_len, N.eqb_refl by exact Hfr. rnext.
Qed.

Lemma sub_faithful : faithful (sub_codec x) (sub_layout y).
Proof.
  apply faithful_sum; [apply exact_faithful, frma_exact| |].
  - apply faithful_sum; [apply exact_faithful, schm_exact|exact F|]. side (code "schm").
  - intros [t|t] Ht; [reflexivity|]. cbn [csum c_ty frma_codec c_known]. rewrite N.eqb_sym. exact (apart_in (code "frma") t ltac:(cbn; tauto) Ht).
Qed.
Lemma sinf_boxes_pack (s : sinf) : sinf_boxes s = sinf_pack s.
Proof. destruct s as [[f|] [m|] [l|]]; reflexivity. Qed.
Lemma sinf_faithful : faithful (sinf_codec x) (sinf_layout x y).
Proof.
  split; [intros t _; plain|]. intros s Hs Hl.
  cbn [sinf_codec sinf_layout c_size c_w c_rd c_ty l_body l_view l_ok] in *. rewrite sinf_boxes_pack in *. split; [|split].
  - apply (boxes_size_ok _ _ (inl (mkFrma 0)) sub_faithful); assumption.
  - apply (boxes_writes _ _ (inl (mkFrma 0)) sub_faithful); [assumption|exact (N.le_lt_trans _ _ _ (N.le_add_l _ _) Hl)].
  - unfold sinf_read. rnext; [apply (boxes_reads _ _ (inl (mkFrma 0)) sub_faithful); [reflexivity|assumption|reflexivity|exact Hl]|].
    intros r. unfold rlift. rewrite (w32_small (8 + _)) by exact Hl. rewrite len_nil, N.add_0_r, w32_small by exact Hl.
    destruct s as [[f|] [m|] [l|]]; reflexivity.
Qed.
Lemma ipro_kid_faithful : faithful (ipro_kid x) (ipro_kid_layout x y).
Proof. apply faithful_sum; [exact sinf_faithful|exact F|]. side (code "sinf"). Qed.
Lemma ipro_faithful : faithful (ipro_codec x) (ipro_layout x y).
Proof.
  split; [intros t _; plain|]. intros t Ht Hl. destruct t as [v f ks].
  cbn [ipro_codec ipro_layout c_size c_w c_rd c_ty l_body l_view l_ok ip_ver ip_flags ip_kids] in *. destruct Ht as (Hf & Hn & Hfr & Hk).
  lens. split; [|split].
  - unfold ipro_size. cbn [ip_kids]. rewrite (boxes_size_ok _ _ (inl (mkSinf None None None)) ipro_kid_faithful) by (try assumption; lia). lia.
  - unfold ipro_write. cbn [ip_ver ip_flags ip_kids]. apply writes_full_seq. apply writes_seq; [wstep|].
    apply (boxes_writes _ _ (inl (mkSinf None None None)) ipro_kid_faithful); [assumption|lia].
  - unfold ipro_read. rnext; [apply reads_of, parses_full, Hf|]. cbn [fst snd]. rnext; [apply reads_of, parses_get16, Hn|].
    match goal with |- reads ?n _ _ _ => change n with 14 end.
    rnext; [apply (boxes_reads _ _ (inl (mkSinf None None None)) ipro_kid_faithful); [reflexivity|assumption| |lia]|].
    + lia.
    + rewrite kid_view_len, N.eqb_refl by exact Hfr. rnext.
Qed.

Lemma kid_faithful : faithful (kid_codec x) (kid_layout x y).
Proof.
  split.
  - intros [t|t|t|t|t] Ht; cbn [kid_codec kid_layout c_ty c_known l_view l_ty l_ok] in *; try (plain; fail).
    destruct (proj1 F t Ht) as (P & K & V & Q). rewrite K, orb_true_r. auto.
  - intros [t|t|t|t|t] Ht Hl; cbn [kid_codec kid_layout c_ty c_size c_w c_rd l_view l_body l_ok h_type] in *.
    + destruct (proj2 (exact_faithful _ _ pitm_exact) t Ht Hl) as (P & Q & R). split; [exact P|]. split; [exact Q|]. apply reads_rmap. exact R.
    + destruct (proj2 iinf_faithful t Ht Hl) as (P & Q & R). split; [exact P|]. split; [exact Q|]. apply (reads_rmap (KIinf (X:=X))). exact R.
    + destruct (proj2 ipro_faithful t Ht Hl) as (P & Q & R). split; [exact P|]. split; [exact Q|]. apply (reads_rmap (KIpro (X:=X))). exact R.
    + destruct (proj2 grpl_faithful t Ht Hl) as (P & Q & R). split; [exact P|]. split; [exact Q|]. apply (reads_rmap (KGrpl (X:=X))). exact R.
    + destruct (proj2 F t Ht Hl) as (P & Q & R). split; [exact P|]. split; [exact Q|].
      assert (K : c_known pitm_codec (c_ty x t) = false /\ c_known (iinf_codec x) (c_ty x t) = false /\ c_known (ipro_codec x) (c_ty x t) = false /\ c_known grpl_codec (c_ty x t) = false).
      { cbn [pitm_codec iinf_codec ipro_codec grpl_codec boxed c_known]. split; [rewrite N.eqb_sym; exact (apart_in (code "pitm") t ltac:(cbn; tauto) Ht)|].
        split; [exact (apart_in (code "iinf") t ltac:(cbn; tauto) Ht)|]. split; [exact (apart_in (code "ipro") t ltac:(cbn; tauto) Ht)|exact (apart_in (code "grpl") t ltac:(cbn; tauto) Ht)]. }
      destruct K as (-> & -> & -> & ->). apply (reads_rmap (KOther (X:=X))). exact R.
Qed.

(* the loop over the children *)
Notation kty := (atype kid (c_ty (kid_codec x))).
Notation ke := (kid_enc (kid_codec x) (kid_layout x y)).
Notation ko := (kid_ok (kid_codec x) (kid_layout x y)).
Lemma kid_atype k : ko k -> kty (strip kid (l_view (kid_layout x y)) k) = kty k /\ is_free (kty k) = free_box kid k.
Proof.
  intros W. pose proof (faithful_codec _ _ kid_faithful) as [K1 K2 K3 K4].
  destruct (atype_facts kid (c_ty (kid_codec x)) (fun _ => KOther dx) (l_view (kid_layout x y)) (c_known (kid_codec x)) (l_ok (kid_layout x y)) K2 k W) as (B1 & B2 & B3). auto.
Qed.
Lemma parse_kid_ok k r : ko k -> len (ke k) < 4294967296 ->
  parse_kid x dx (ke k ++ r) = Ok ((strip kid (l_view (kid_layout x y)) k, len (ke k)), r).
Proof.
  intros W L. pose proof (faithful_codec _ _ kid_faithful) as [K1 K2 K3 K4]. unfold parse_kid, parse_top.
  destruct (parse_enc kid (c_leaf (kid_codec x)) (c_ty (kid_codec x)) (c_size (kid_codec x)) (c_w (kid_codec x)) (fun _ => KOther dx) (l_body (kid_layout x y)) (l_view (kid_layout x y)) (c_known (kid_codec x)) (l_ok (kid_layout x y))
      K1 K2 K3 K4 k (length (ke k ++ r) + 3) r W) as [E _]; [exact L|unfold kid_enc; lia|]. exact E.
Qed.
Lemma once_same : once_codes = once_types. Proof. reflexivity. Qed.
Lemma of_type_app ty a b : of_type x ty (a ++ b) = of_type x ty a ++ of_type x ty b.
Proof. apply filter_app. Qed.
Lemma of_type_view ty l : Forall ko l -> len (of_type x ty (kid_view (kid_layout x y) l)) <= len (of_type x ty l).
Proof.
  unfold of_type, kid_view. induction 1 as [|k r Hk _ IH]; [apply N.le_refl|]. cbn [map filter].
  destruct (kid_atype k Hk) as [E _]. destruct (negb (free_box kid (strip kid (l_view (kid_layout x y)) k))); cbn [filter]; rewrite ?E; destruct (kty k =? ty); lens; lia.
Qed.
Lemma loop_ok i0 vf : forall kids done f tot br r,
  Forall ko done -> Forall ko kids -> Forall (fun ty => len (of_type x ty (done ++ kids)) <= 1) once_codes ->
  (length kids < f)%nat -> tot < 4294967296 -> br + len (flat_map ke kids) = tot ->
  mbox_loop x dx f tot i0 vf br (kid_view (kid_layout x y) done) (flat_map ke kids ++ r) =
    Ok (vf, kid_view (kid_layout x y) (done ++ kids), r).
Proof.
  induction kids as [|k ks IH]; intros done f tot br r Hd Hk Ho Hf Ht Hbr.
  - cbn [flat_map app] in *. lens. rewrite app_nil_r. destruct f as [|f]; cbn [mbox_loop]; (destruct (N.ltb_spec br tot); [lia|]); (destruct (N.eqb_spec br tot); [reflexivity|lia]).
  - destruct f as [|f]; [cbn [length] in Hf; lia|]. cbn [mbox_loop]. cbn [flat_map] in *. lens. rewrite <- app_assoc.
    pose proof (kid_pos (kid_codec x) (kid_layout x y) k) as P. destruct (N.ltb_spec br tot); [|lia].
    inversion_clear Hk as [|? ? Wk Wr]. rewrite (parse_kid_ok k _ Wk) by lia. cbn [bind fst snd]. cbv beta iota zeta.
    rewrite w32_small by lia. destruct (kid_atype k Wk) as [E1 E2]. rewrite E1, E2.
    assert (Ha : done ++ k :: ks = (done ++ [k]) ++ ks) by (rewrite <- app_assoc; reflexivity).
    assert (Hd' : Forall ko (done ++ [k])) by (apply Forall_app; auto).
    assert (V : kid_view (kid_layout x y) (done ++ [k]) = kid_view (kid_layout x y) done ++ kid_view (kid_layout x y) [k]) by (unfold kid_view; rewrite map_app, filter_app; reflexivity).
    assert (V1 : kid_view (kid_layout x y) [k] = if free_box kid k then [] else [strip kid (l_view (kid_layout x y)) k]).
    { unfold kid_view. cbn [map filter]. rewrite free_strip. destruct (free_box kid k); reflexivity. }
    cbn [length] in Hf. rewrite Ha in *.
    specialize (IH (done ++ [k]) f tot (br + len (ke k)) r Hd' Wr Ho ltac:(lia) Ht ltac:(lia)). rewrite V, V1 in IH.
    destruct (free_box kid k); [rewrite app_nil_r in IH; exact IH|].
    unfold mbox_add. rewrite E1.
    assert (T : taken x (kid_view (kid_layout x y) done) (kty k) = false).
    { unfold taken. destruct (existsb (N.eqb (kty k)) once_types) eqn:I; [|reflexivity]. cbn [andb].
      apply existsb_exists in I. destruct I as (ty & I & Q). apply N.eqb_eq in Q. rewrite once_same, Forall_forall in Ho. specialize (Ho ty I). rewrite <- Q in Ho.
      rewrite !of_type_app, !len_app in Ho. unfold of_type at 2 in Ho. cbn [filter] in Ho. rewrite N.eqb_refl in Ho. lens.
      pose proof (of_type_view (kty k) done Hd) as O. assert (Z : len (of_type x (kty k) (kid_view (kid_layout x y) done)) = 0) by lia.
      apply len_0 in Z. destruct (existsb _ _) eqn:I2; [|reflexivity]. apply existsb_exists in I2. destruct I2 as (k2 & I2 & Q2).
      assert (In k2 (of_type x (kty k) (kid_view (kid_layout x y) done))) by (apply filter_In; auto). rewrite Z in H0. destruct H0. }
    rewrite T. cbn [bind]. exact IH.
Qed.
Lemma mbox_faithful : faithful (mbox_codec x dx) (mbox_layout x y).
Proof.
  split; [intros t _; plain|]. intros t Ht Hl. destruct t as [v f ks].
  cbn [mbox_codec mbox_layout c_size c_w c_rd c_ty l_body l_view l_ok mb_ver mb_flags mb_kids] in *. destruct Ht as (Hf & Hk & Ho).
  rewrite len_app, len_full in *. split; [|split].
  - rewrite (boxes_size_ok _ _ (KOther dx) kid_faithful) by (try assumption; lia). lia.
  - apply writes_full_seq. apply (boxes_writes _ _ (KOther dx) kid_faithful); [assumption|lia].
  - intros r. unfold mbox_read. rewrite <- app_assoc.
    pose proof (proj1 (parses_full 8 v f Hf) (flat_map ke ks ++ r)) as E. cbn [inp].
    rewrite E. cbn [bind rdn inp fst snd]. cbv beta iota zeta. rewrite len_full. change (w32 (8 + 4)) with 12.
    cbn [h_size]. change [] with (kid_view (kid_layout x y) []) at 1.
    rewrite (loop_ok _ _ ks [] _ _ _ r (Forall_nil _) Hk Ho); [|idtac|lia|lia].
    + cbn [bind app fst snd]. rewrite len_app, len_full, w32_small by lia. reflexivity.
    + rewrite !app_length.
      assert (length ks <= length (flat_map ke ks))%nat; [|lia]. clear. induction ks as [|k ks IH]; [apply le_n|]. cbn [flat_map length]. rewrite app_length.
      pose proof (kid_pos (kid_codec x) (kid_layout x y) k) as P. unfold len in P. lia.
Qed.
End Mbox.

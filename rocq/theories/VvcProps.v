(* VvcProps.v -- C63: VVC descriptions. *)
From Verif Require Import Base Codec AtomModel AtomSpec AtomProofs AtomProps BitLemmas BoxModel BoxSpec BoxProofs Reads KidsModel KidsProofs TextModel TextSpec TextProofs EntryModel EntrySpec EntryProofs EntryProps BitModel BitSpec BitProofs ParamModel ParamSpec ParamProofs SpsProofs ParamHandle ParamProps AvcProps.

Lemma octets_is g : octets 9 (skipn 5 (g ++ repeat false 6)) = map (fun i => value (firstn 8 (skipn (5 + 8 * i) (g ++ repeat false 6)))) (seq 0 9).
Proof. unfold octets. apply map_ext. intros i. rewrite skip_skip. reflexivity. Qed.
Lemma vvc_record_ok s p : vvc_ok s -> w_ptl s = Some p -> vptl_ok (vvc_record s p) /\ vptl_view (vvc_record s p) = vvc_record s p.
Proof.
  intros (H0 & H1 & H2 & H3 & H4 & H5 & H6 & H7 & H8 & H9) E. rewrite E in H4. destruct H4 as (P1 & P2 & P3 & P4 & P5 & P6). split.
  - unfold vvc_record, vptl_ok. cbn [vp_ols vp_nsl vp_rate vp_chroma vp_depth vp_bytes vp_idc vp_tier vp_level vp_frame vp_multi vp_upper vp_lower vp_subs vp_nprof vp_w vp_h vp_avg].
    assert (V : forall g, value (firstn 5 g) < 32) by (intros g; apply N.lt_le_trans with (2 ^ len (firstn 5 g)); [apply value_lt|change 32 with (2 ^ 5); apply N.pow_le_mono_r; [lia|]; unfold len; rewrite firstn_length; lia]).
    repeat split; try lia; try assumption; try (destruct (q_gci p); lia); try (destruct (q_frame p); cbn; lia); try (destruct (q_multi p); cbn; lia).
    all: destruct (q_gci p) as [g|]; [specialize (V g)|]; cbn [map seq len length N.of_nat] in *; try reflexivity; try lia; cbn; lia.
  - unfold vptl_view, vvc_record, lower. cbn [vp_ols vp_nsl vp_rate vp_chroma vp_depth vp_bytes vp_idc vp_tier vp_level vp_frame vp_multi vp_upper vp_lower vp_subs vp_nprof vp_w vp_h vp_avg].
    f_equal. destruct (q_gci p); reflexivity.
Qed.

Definition vtypes : list N := [15; 16; 14; 12; 13; 17; 23].
Lemma vtypes_nodup : NoDup vtypes.
Proof. repeat constructor; cbn [In]; lia. Qed.
Notation arrs L ts := (map (fun t => mkArr 0 t (L t)) ts).
Definition put_set (L : N -> list (list N)) (ps : list N) (ty t : N) : list (list N) := if t =? ty then L t ++ [ps] else L t.
Lemma put_other L ps ty ts : ~ In ty ts -> arrs (put_set L ps ty) ts = arrs L ts.
Proof. intros H. apply map_ext_in. intros t I. unfold put_set. destruct (N.eqb_spec t ty) as [->|]; [contradiction|reflexivity]. Qed.
Lemma arrs_add_is L ps ty ts : NoDup ts ->
  arrs_add (arrs L ts) ps ty = if existsb (N.eqb ty) ts then Some (arrs (put_set L ps ty) ts, len (L ty) =? 0) else None.
Proof.
  induction 1 as [|t ts Hn Hd IH]; [reflexivity|]. cbn [map arrs_add existsb na_type na_complete na_nals].
  unfold put_set at 1. rewrite (N.eqb_sym ty). destruct (N.eqb_spec t ty) as [->|Ne]; cbn [orb].
  - rewrite put_other by exact Hn. reflexivity.
  - rewrite IH. destruct (existsb (N.eqb ty) ts); reflexivity.
Qed.
Lemma arrs_count L ps ty ts : NoDup ts -> In ty ts ->
  len (filter full_arr (arrs (put_set L ps ty) ts)) = len (filter full_arr (arrs L ts)) + (if len (L ty) =? 0 then 1 else 0).
Proof.
  induction 1 as [|t ts Hn Hd IH]; [intros []|]. intros [->|I]; cbn [map filter].
  - rewrite put_other by exact Hn. unfold put_set, full_arr. cbn [na_nals]. rewrite N.eqb_refl.
    destruct (L ty) as [|x l]; cbn [app].
    { change (len [ps] =? 0) with false. change (len (@nil (list N)) =? 0) with true. cbn [negb]. lens. lia. }
    replace (len (x :: l) =? 0) with false by (lens; lia). replace (len (x :: l ++ [ps]) =? 0) with false by (lens; lia). cbn [negb]. lens. lia.
  - specialize (IH I). unfold put_set at 1. destruct (N.eqb_spec t ty) as [->|Ne]; [contradiction|].
    destruct (full_arr (mkArr 0 t (L t))); lens; lia.
Qed.
Lemma at_most_app t a b : at_most t (at_most t a ++ b) = at_most t (a ++ b).
Proof. unfold at_most. destruct (no_count t); [|reflexivity]. destruct a as [|x a]; reflexivity. Qed.
Lemma at_most_idem t a : at_most t (at_most t a) = at_most t a.
Proof. pose proof (at_most_app t a []) as H. rewrite !app_nil_r in H. exact H. Qed.
Lemma full_at_most t l : full_arr (mkArr 0 t (at_most t l)) = full_arr (mkArr 0 t l).
Proof. unfold full_arr, at_most. cbn [na_nals]. destruct (no_count t); [|reflexivity]. destruct l as [|x l]; [reflexivity|]. cbn [firstn]. lens. destruct (N.eqb_spec (1 + len l) 0); [lia|reflexivity]. Qed.
Lemma count_at_most L ts : len (filter full_arr (arrs (fun t => at_most t (L t)) ts)) = len (filter full_arr (arrs L ts)).
Proof. induction ts as [|t ts IH]; [reflexivity|]. cbn [map filter]. rewrite full_at_most. destruct (full_arr _); lens; lia. Qed.
Lemma config_ext s ls L L' : (forall t, L t = L' t) -> vvc_config s ls L = vvc_config s ls L'.
Proof. intros H. unfold vvc_config. cbn [map]. rewrite !H. reflexivity. Qed.

(* more than one unit of a type without count is not written *)
Lemma varr_w_at_most t l : varr_w (mkArr 0 t (at_most t l)) = varr_w (mkArr 0 t l).
Proof.
  pose proof (full_at_most t l) as E. unfold full_arr in E. cbn [na_nals] in E. unfold varr_w. cbn [na_nals na_type na_complete].
  destruct (len (at_most t l) =? 0), (len l =? 0); try discriminate E; [reflexivity|]. unfold arr_out. cbn [na_type na_nals]. unfold at_most. rewrite <- single_is.
  destruct (single t); [destruct l; reflexivity|reflexivity].
Qed.
Lemma vvcc_w_at_most s ls L : vvcc_w (vvc_config s ls (fun t => at_most t (L t))) = vvcc_w (vvc_config s ls L).
Proof.
  unfold vvcc_w, vvc_config. cbn [vc_ver vc_flags vc_len1 vc_ptl vc_num vc_arrs]. rewrite count_at_most. do 4 f_equal.
  cbn [map wmap]. rewrite !varr_w_at_most. reflexivity.
Qed.
Lemma vvcc_size_at_most s ls L : vvcc_size (vvc_config s ls (fun t => at_most t (L t))) = vvcc_size (vvc_config s ls L).
Proof.
  unfold vvcc_size, vvc_config. cbn [vc_ver vc_flags vc_len1 vc_ptl vc_num vc_arrs]. rewrite count_at_most.
  destruct (_ =? 0); [reflexivity|]. match goal with |- fold_left ?f _ ?z = _ => assert (G : forall ts n, fold_left f (arrs (fun t => at_most t (L t)) ts) n = fold_left f (arrs L ts) n) end.
  { induction ts as [|t ts IH]; intros n; [reflexivity|]. cbn [map fold_left na_type na_nals]. rewrite IH. f_equal.
    pose proof (full_at_most t (L t)) as E. unfold full_arr in E. cbn [na_nals] in E. destruct (len (at_most t (L t)) =? 0), (len (L t) =? 0); try discriminate E; [reflexivity|].
    f_equal. unfold arr_out. cbn [na_type na_nals]. unfold at_most. rewrite <- single_is. destruct (single t); [destruct (L t); reflexivity|reflexivity]. }
  apply G.
Qed.
Lemma first_same {X O} (c : codec X) (o : codec O) ty f (t t' : avcc + (hvcc + (vvcc + (vvnc + X)))) l :
  c_ty (pcodec c) t = c_ty (pcodec c) t' -> c_size (pcodec c) t = c_size (pcodec c) t' -> c_w (pcodec c) t = c_w (pcodec c) t' ->
  entry_w (pcodec c) o (EVis ty f (ALeaf _ t :: l)) = entry_w (pcodec c) o (EVis ty f (ALeaf _ t' :: l)).
Proof.
  intros H1 H2 H3. unfold entry_w. cbn [ent_size ent_w]. unfold boxes_size, boxes_w. cbn [fold_left wmap].
  replace (kid_size (pcodec c) (ALeaf _ t)) with (kid_size (pcodec c) (ALeaf _ t')) by (unfold kid_size; cbn [asize]; congruence).
  cbn [awrite]. rewrite H1, H2, H3. reflexivity.
Qed.

Definition total (L : N -> list (list N)) : N := fold_right (fun t n => len (sets (L t)) + n) 0 vtypes.
Definition lists_ok (L : N -> list (list N)) : Prop := forall t, len (L t) < 65536 /\ Forall set_ok (L t) /\ at_most t (L t) = L t.
Lemma somes_len {A} (l : list (option A)) : len (somes l) <= len l.
Proof. unfold somes. induction l as [|[x|] l IH]; cbn [flat_map]; lens; lia. Qed.
Lemma vptl_bytes_len p : vptl_ok p -> len (vptl_bytes p) <= 24 + vp_bytes p.
Proof.
  intros (H1 & H2 & H3 & H4 & H5 & H6 & H7 & H8 & H9 & H10 & H11 & H12 & H13 & H14 & H15 & H16 & H17 & H18 & H19). unfold vptl_bytes.
  pose proof (somes_len (vp_subs p)). assert (len (lower p) <= vp_bytes p - 1) by (unfold lower, len; rewrite firstn_length; lia).
  destruct (2 <=? vp_nsl p); lens; lia.
Qed.
Lemma vvc_config_ok s ls L : vvc_ok s -> 1 <= ls <= 4 -> lists_ok L ->
  l_ok vvcc_layout (vvc_config s ls L) /\ l_view vvcc_layout (vvc_config s ls L) = vvc_config s ls L /\
  len (l_body vvcc_layout (vvc_config s ls L)) <= 200 + total L.
Proof.
  intros Hs Hls HL. unfold vvc_config. split; [|split].
  - cbn [vvcc_layout l_ok vc_ver vc_flags vc_len1 vc_ptl vc_num vc_arrs]. split; [split; lia|]. split; [lia|].
    split; [destruct (w_ptl s) as [p|] eqn:E; [apply (vvc_record_ok s p Hs E)|exact I]|]. split; [reflexivity|]. split; [|reflexivity].
    apply Forall_map. apply Forall_forall. intros t _. destruct (HL t) as (A & B & C). split; [cbn; lia|]. split; [exact A|]. split; [|exact B].
    cbn [na_type na_nals]. intros E. unfold at_most in C. rewrite E in C. rewrite <- C. unfold len. rewrite firstn_length. lia.
  - cbn [vvcc_layout l_view vc_ver vc_flags vc_len1 vc_ptl vc_num vc_arrs]. f_equal.
    + destruct (w_ptl s) as [p|] eqn:E; [|reflexivity]. f_equal. apply (vvc_record_ok s p Hs E).
    + rewrite map_map. apply map_ext. intros t. unfold varr_view, full_arr. cbn [na_nals na_type]. destruct (L t); [reflexivity|].
      replace (len (l :: l0) =? 0) with false by (lens; lia). reflexivity.
  - cbn [vvcc_layout l_body vc_ver vc_flags vc_len1 vc_ptl vc_num vc_arrs].
    assert (A : forall ts, len (flat_map varr_bytes (filter full_arr (arrs L ts))) <= 3 * len ts + fold_right (fun t n => len (sets (L t)) + n) 0 ts).
    { induction ts as [|t ts IH]; [cbn; lia|]. cbn [map filter fold_right]. destruct (full_arr _); [cbn [flat_map]; unfold varr_bytes at 1; cbn [na_complete na_type na_nals]|].
      - destruct (no_count t); lens; lia.
      - lens. lia. }
    specialize (A vtypes). fold (total L) in A. change (len vtypes) with 7 in A. change [15; 16; 14; 12; 13; 17; 23] with vtypes.
    assert (P : len (match (match w_ptl s with Some p => Some (vvc_record s p) | None => None end) with Some p => [248 + 2 * (ls - 1) + 1] ++ vptl_bytes p | None => [248 + 2 * (ls - 1)] end) <= 100).
    { destruct (w_ptl s) as [p|] eqn:E; [|lens; lia]. destruct (vvc_record_ok s p Hs E) as [K _]. apply vptl_bytes_len in K. lens.
      cbn [vvc_record vp_bytes] in K. destruct (q_gci p); lia. }
    unfold full. lens. lia.
Qed.

Section Vvc.
Context {X O : Type} (c : codec X) (y : layout X) (o : codec O) (yo : layout O) (oadd : O -> atom (avcc + (hvcc + (vvcc + (vvnc + X)))) -> O).
Hypothesis F : faithful c y.
Hypothesis D : disjoint c y.
Hypothesis FO : faithful o yo.
Notation T := (avcc + (hvcc + (vvcc + (vvnc + X))))%type.
Variable s : vvc_syntax.
Variable ls : N.
Hypothesis Hs : vvc_ok s.
Hypothesis Hls : 1 <= ls <= 4.
Notation leaf a := (ALeaf T (inr (inr (inl a)))).
Definition vvc_handle f L boxes : list N := vis_bytes c y yo (code "vvc1") f (leaf (vvc_config s ls L) :: boxes).
Definition vvc_state f (L : N -> list (list N)) boxes (room : N) : Prop :=
  vfix_ok f /\ lists_ok L /\ Forall (other_box c y) boxes /\
  300 + total L + len (kids_bytes (pcodec c) (playout y) boxes) + room < 4294967296.
Lemma vvc_state_ok f L boxes room : vvc_state f L boxes room -> vis_ok c y (code "vvc1") f (leaf (vvc_config s ls L) :: boxes).
Proof.
  intros (H1 & H2 & H3 & H4). destruct (vvc_config_ok s ls L Hs Hls H2) as (A & B & C). apply vis_first; [reflexivity|exact H1| | |exact H3|]; unfold playout; cbn [lsum l_ok l_view l_body].
  - exact A.
  - rewrite B. reflexivity.
  - fold (playout y). lia.
Qed.
Lemma vvc_found L boxes : vvc_of c (leaf (vvc_config s ls L) :: boxes) = Ok (vvc_config s ls L).
Proof. unfold vvc_of. rewrite ext_cons. replace (c_ty (pcodec c) (inr (inr (inl (vvc_config s ls L)))) =? T_vvcC) with true by reflexivity. reflexivity. Qed.
Lemma vvc_add_is L ps ty : vvcc_add (vvc_config s ls L) ps ty =
  if existsb (N.eqb ty) vtypes then Ok (vvc_config s ls (put_set L ps ty)) else Err MP4BadParamErr.
Proof.
  unfold vvcc_add. cbn [vvc_config vc_arrs vc_ver vc_flags vc_len1 vc_ptl vc_num]. change [15; 16; 14; 12; 13; 17; 23] with vtypes. rewrite arrs_add_is by exact vtypes_nodup.
  destruct (existsb (N.eqb ty) vtypes) eqn:E; [|reflexivity]. apply existsb_exists in E. destruct E as (k & I & E). apply N.eqb_eq in E. subst k.
  pose proof (arrs_count L ps ty vtypes vtypes_nodup I) as C. unfold vvc_config. change [15; 16; 14; 12; 13; 17; 23] with vtypes. f_equal. f_equal. rewrite C.
  assert (len (filter full_arr (arrs L vtypes)) <= 7).
  { clear. assert (G : forall ts, len (filter full_arr (arrs L ts)) <= len ts) by (induction ts as [|t ts IH]; [reflexivity || apply N.le_refl|]; cbn [map filter]; destruct (full_arr _); lens; lia).
    apply (G vtypes). }
  destruct (len (L ty) =? 0); [rewrite w32_small by lia; reflexivity|lia].
Qed.
Lemma vvc_rewritten f L boxes room : vvc_state f (fun t => at_most t (L t)) boxes room ->
  entry_w (pcodec c) o (EVis (code "vvc1") f (leaf (vvc_config s ls L) :: boxes)) = Ok (vvc_handle f (fun t => at_most t (L t)) boxes).
Proof.
  intros H. unfold vvc_handle. rewrite <- (vis_written c y o yo F D FO _ _ _ (vvc_state_ok _ _ _ _ H)). unfold vis_ent. symmetry. apply first_same; unfold pcodec; cbn [csum c_ty c_size c_w vvcc_codec].
  - reflexivity.
  - apply vvcc_size_at_most.
  - apply vvcc_w_at_most.
Qed.
Lemma vvc_step f L boxes room ps ty : vvc_state f L boxes room ->
  add_vvc c o (vvc_handle f L boxes) ps ty =
  if existsb (N.eqb ty) vtypes then entry_w (pcodec c) o (EVis (code "vvc1") f (leaf (vvc_config s ls (put_set L ps ty)) :: boxes)) else Err MP4BadParamErr.
Proof.
  intros H. unfold add_vvc, vvc_handle. rewrite (vis_entry c y o yo F D FO _ _ _ _ _ (vvc_state_ok _ _ _ _ H)) by reflexivity. cbn [bind].
  rewrite vvc_found. cbn [bind]. rewrite vvc_add_is. destruct (existsb _ _); [|reflexivity]. cbn [bind put_ext atype].
  replace (c_ty (pcodec c) (inr (inr (inl (vvc_config s ls L)))) =? T_vvcC) with true by reflexivity. reflexivity.
Qed.
Lemma handle_ext f L L' boxes : (forall t, L t = L' t) -> vvc_handle f L boxes = vvc_handle f L' boxes.
Proof. intros H. unfold vvc_handle. rewrite (config_ext s ls L L' H). reflexivity. Qed.
Lemma total_ext L L' : (forall t, L t = L' t) -> total L = total L'.
Proof. intros H. unfold total, vtypes. cbn [fold_right]. rewrite !H. reflexivity. Qed.
Lemma state_ext f L L' boxes room : (forall t, L t = L' t) -> vvc_state f L boxes room -> vvc_state f L' boxes room.
Proof.
  intros E (H1 & H2 & H3 & H4). split; [exact H1|]. split; [intros t; rewrite <- E; apply H2|]. split; [exact H3|]. rewrite <- (total_ext L L' E). exact H4.
Qed.
Lemma total_put L ps ty : total (fun t => at_most t (put_set L ps ty t)) <= total L + 2 + len ps.
Proof.
  unfold total. assert (M : forall t l, len (sets (at_most t l)) <= len (sets l)).
  { intros t l. unfold at_most. destruct (no_count t); [|lia]. destruct l as [|x l]; [apply N.le_refl|]. unfold sets. cbn [firstn flat_map]. lens. lia. }
  assert (G : forall ts, NoDup ts -> fold_right (fun t n => len (sets (at_most t (put_set L ps ty t))) + n) 0 ts <=
     fold_right (fun t n => len (sets (L t)) + n) 0 ts + (if existsb (N.eqb ty) ts then 2 + len ps else 0)).
  { induction 1 as [|t ts Hn Hd IH]; [apply N.le_refl|]. cbn [fold_right existsb]. specialize (M t (put_set L ps ty t)). unfold put_set in M at 2. rewrite (N.eqb_sym ty t).
    destruct (N.eqb_spec t ty) as [E0|Ne]; cbn [orb].
    - subst t. rewrite set_len in M. replace (existsb (N.eqb ty) ts) with false in IH; [lia|]. symmetry. apply not_true_iff_false. intros E. apply existsb_exists in E.
      destruct E as (k & I & E). apply N.eqb_eq in E. subst k. contradiction.
    - lia. }
  specialize (G vtypes vtypes_nodup). destruct (existsb (N.eqb ty) vtypes); lia.
Qed.

Notation sel := (fun wh : N => wh).
Lemma vvc_run ops : forall f L boxes,
  vvc_state f L boxes (weights c y ops) -> Forall (op_ok c y) ops ->
  (forall t, no_count t = false -> len (L t) + len (given sel t ops) < 65536) ->
  exists room,
  let f' := sized f (fst (last_size (v_w f, v_h f) ops)) (snd (last_size (v_w f, v_h f) ops)) in
  let L' := fun t => if existsb (N.eqb t) vtypes then at_most t (L t ++ given sel t ops) else L t in
  vvc_state f' L' (boxes ++ boxes_of ops) room /\
  drun c o oadd (add_vvc c o) (vvc_handle f L boxes) ops = Ok (vvc_handle f' L' (boxes ++ boxes_of ops)).
Proof.
  induction ops as [|op ops IH]; intros f L boxes H Ho He.
  - exists 0. cbn [last_size given boxes_of flat_map drun fst snd]. rewrite !app_nil_r.
    replace (sized f (v_w f) (v_h f)) with f by (destruct f; reflexivity).
    assert (E : forall t, L t = (if existsb (N.eqb t) vtypes then at_most t (L t ++ []) else L t)).
    { intros t. rewrite app_nil_r. destruct (existsb _ _); [|reflexivity]. symmetry. destruct H as (_ & H2 & _). apply H2. }
    split; [apply (state_ext _ _ _ _ _ E H)|]. f_equal. apply handle_ext. exact E.
  - inversion_clear Ho as [|? ? Hop Hops]. cbn [drun]. destruct op as [ps wh|x|w h].
    + cbn [dstep]. rewrite (vvc_step _ _ _ _ ps wh H).
      cbn [weights fold_right weight] in H. fold (weights c y ops) in H. cbn [op_ok] in Hop. destruct H as (H1 & H2 & H3 & H4).
      assert (Eg : forall t, given sel t (AddSet ps wh :: ops) = (if wh =? t then [ps] else []) ++ given sel t ops) by reflexivity.
      cbn [boxes_of flat_map last_size app]. fold (@boxes_of (atom T) ops).
      destruct (existsb (N.eqb wh) vtypes) eqn:Ew.
      * assert (G : vvc_state f (fun t => at_most t (put_set L ps wh t)) boxes (weights c y ops)).
        { split; [exact H1|]. split; [|split; [exact H3|pose proof (total_put L ps wh); lia]].
          intros t. destruct (H2 t) as (A1 & A2 & A3). split; [|split].
          - destruct (no_count t) eqn:N1; unfold at_most; rewrite N1; [unfold len; rewrite firstn_length; lia|].
            specialize (He t N1). rewrite Eg in He. unfold put_set. rewrite (N.eqb_sym t). destruct (wh =? t); lens; lia.
          - assert (Q : Forall set_ok (put_set L ps wh t)) by (unfold put_set; destruct (t =? wh); [apply Forall_app; auto|exact A2]).
            unfold at_most. destruct (no_count t); [|exact Q]. destruct Q; repeat constructor; assumption.
          - apply at_most_idem. }
        rewrite (vvc_rewritten _ _ _ _ G).
        destruct (IH f (fun t => at_most t (put_set L ps wh t)) boxes G Hops) as (room & R1 & R2).
        { intros t N1. specialize (He t N1). rewrite Eg in He. unfold at_most, put_set. rewrite N1, (N.eqb_sym t). destruct (wh =? t); lens; lia. }
        assert (E : forall t, (if existsb (N.eqb t) vtypes then at_most t (at_most t (put_set L ps wh t) ++ given sel t ops) else at_most t (put_set L ps wh t)) =
           (if existsb (N.eqb t) vtypes then at_most t (L t ++ given sel t (AddSet ps wh :: ops)) else L t)).
        { intros t. rewrite at_most_app, Eg. unfold put_set. rewrite (N.eqb_sym t). destruct (N.eqb_spec wh t) as [<-|Ne]; cbn [app].
          - rewrite Ew, <- app_assoc. reflexivity.
          - destruct (existsb (N.eqb t) vtypes); [reflexivity|]. apply H2. }
        exists room. split; [apply (state_ext _ _ _ _ _ E R1)|]. rewrite R2. f_equal. apply handle_ext. exact E.
      * destruct (IH f L boxes) as (room & R1 & R2); [split; [exact H1|split; [exact H2|split; [exact H3|lia]]]|exact Hops| |].
        { intros t N1. specialize (He t N1). rewrite Eg in He. lens. lia. }
        assert (E : forall t, (if existsb (N.eqb t) vtypes then at_most t (L t ++ given sel t ops) else L t) =
           (if existsb (N.eqb t) vtypes then at_most t (L t ++ given sel t (AddSet ps wh :: ops)) else L t)).
        { intros t. rewrite Eg. destruct (N.eqb_spec wh t) as [<-|Ne]; [rewrite Ew|]; reflexivity. }
        exists room. split; [apply (state_ext _ _ _ _ _ E R1)|]. rewrite R2. f_equal. apply handle_ext. exact E.
    + cbn [dstep]. cbn [weights fold_right weight] in H. fold (weights c y ops) in H. cbn [op_ok] in Hop. pose proof (vvc_state_ok _ _ _ _ H) as V.
      destruct H as (H1 & H2 & H3 & H4). destruct (vvc_config_ok s ls L Hs Hls H2) as (_ & _ & Lb).
      destruct (vis_add_ext c y o yo F D FO oadd _ _ _ x V (proj1 Hop)) as (_ & E).
      { rewrite kids_len_cons. unfold playout. cbn [lsum l_body]. fold (playout y). lia. }
      unfold vvc_handle at 1. rewrite E. cbn [app boxes_of flat_map last_size]. fold (@boxes_of (atom T) ops).
      replace (boxes ++ x :: boxes_of ops) with ((boxes ++ [x]) ++ boxes_of ops) by (rewrite <- app_assoc; reflexivity).
      apply IH; try assumption. split; [exact H1|]. split; [exact H2|]. split; [apply Forall_app; auto|]. rewrite kids_len_app. lia.
    + cbn [dstep]. cbn [weights fold_right weight] in H. fold (weights c y ops) in H. cbn [op_ok] in Hop. pose proof (vvc_state_ok _ _ _ _ H) as V.
      destruct (vis_set_dims c y o yo F D FO _ _ _ w h V (proj1 Hop) (proj2 Hop)) as (V' & E).
      unfold vvc_handle at 1. rewrite E. cbn [boxes_of flat_map last_size app]. fold (@boxes_of (atom T) ops).
      destruct (IH (sized f w h) L boxes) as (room & G1 & G2); try assumption.
      { destruct H as (H1 & H2). split; [apply V'|exact H2]. }
      exists room. split; [exact G1|exact G2].
Qed.
End Vvc.

(* the description calls keep one byte more of the constraints than is
   written *)
Lemma ptl_w_out s p : w_ptl s = Some p -> exists r, vvc_out s = Some r /\ vptl_w r = vptl_w (vvc_record s p) /\
  vp_bytes r = vp_bytes (vvc_record s p) /\ vp_nsl r = vp_nsl (vvc_record s p) /\ vp_subs r = vp_subs (vvc_record s p) /\ vp_nprof r = vp_nprof (vvc_record s p).
Proof.
  intros E. unfold vvc_out. rewrite E. eexists. split; [reflexivity|]. split; [|repeat split].
  unfold vptl_w, vvc_record. cbn [vp_ols vp_nsl vp_rate vp_chroma vp_depth vp_bytes vp_idc vp_tier vp_level vp_frame vp_multi vp_upper vp_lower vp_subs vp_nprof vp_w vp_h vp_avg].
  destruct (q_gci p) as [g|]; [|reflexivity]. rewrite octets_is. reflexivity.
Qed.
Definition first_sets (sps : list N) (pps : option (list N)) (ty : N) : list (list N) :=
  if ty =? 15 then [sps] else if ty =? 16 then listed pps else [].
Lemma total_first sps pps : total (first_sets sps pps) = len (sets [sps]) + len (sets (listed pps)).
Proof.
  change (total (first_sets sps pps)) with (len (sets [sps]) + (len (sets (listed pps)) + 0)). lia.
Qed.
(* a unit of type 16 *)
Definition pps_ok (q : list N) : Prop := set_ok q /\ exists q0 q1 r, bytes (q0 :: q1 :: r) /\ q1 / 8 = 16 /\ q = nal (q0 :: q1 :: r).

(* C63: the description made of a sequence parameter set of H.266 (with
   emulation prevention) is the standard's. *)
Theorem C63_vvc_description :
  forall X O (c : codec X) (y : layout X) (o : codec O) (yo : layout O), faithful c y -> disjoint c y -> faithful o yo ->
  forall s h0 h1 payload more dri length_size pps,
  vvc_ok s -> bytes (h0 :: h1 :: payload) -> h1 / 8 = 15 -> bits_of payload = vvc_bits s ++ more ->
  dri < 65536 -> In length_size [1; 2; 4] ->
  let sps := nal (h0 :: h1 :: payload) in
  set_ok sps -> Forall pps_ok (listed pps) ->
  let b := box (code "vvc1") (vfix_bytes (sized (vfix_new dri) (w_w s) (w_h s)) ++ box (code "vvcC") (l_body vvcc_layout (vvc_config s length_size (first_sets sps pps)))) in
  new_vvc c o true dri length_size (Some sps) pps = Ok (b, (w_w s * 65536, w_h s * 65536)) /\
  b = vvc_handle c y yo s length_size (sized (vfix_new dri) (w_w s) (w_h s)) (first_sets sps pps) [].
Proof.
  intros X O c y o yo F D FO s h0 h1 payload more dri ls pps Hs Hb Ht Hp Hd Hls sps Hsps Hpps b.
  assert (Hlen : 1 <= ls <= 4) by (cbn [In] in Hls; lia).
  assert (Eb : b = vvc_handle c y yo s ls (sized (vfix_new dri) (w_w s) (w_h s)) (first_sets sps pps) []).
  { unfold vvc_handle, vis_bytes, entry_bytes. cbn [entry_type entry_body]. rewrite config_bytes. reflexivity. }
  split; [|exact Eb].
  assert (Hdim : w_w s < 65536 /\ w_h s < 65536) by (destruct Hs as (_ & _ & _ & _ & _ & A & B & _); auto).
  assert (At : forall t, first_sets sps pps t = at_most t (first_sets sps pps t)).
  { intros t. unfold first_sets, at_most, no_count. cbn [existsb]. destruct (N.eqb_spec t 12) as [->|]; [reflexivity|]. destruct (N.eqb_spec t 13) as [->|]; [reflexivity|]. reflexivity. }
  assert (St : vvc_state c y (sized (vfix_new dri) (w_w s) (w_h s)) (first_sets sps pps) [] 0).
  { split; [apply vfix_new_ok; tauto|]. split; [|split; [constructor|]].
    - intros t. split; [unfold first_sets; destruct (t =? 15); [reflexivity|]; destruct (t =? 16); [destruct pps; reflexivity|reflexivity]|]. split; [|symmetry; apply At].
      unfold first_sets. destruct (t =? 15); [auto|]. destruct (t =? 16); [|constructor]. eapply Forall_impl; [|exact Hpps]. intros q [Q _]. exact Q.
    - rewrite total_first. unfold kids_bytes. cbn [flat_map]. unfold set_ok in Hsps.
      destruct pps as [q|]; [inversion_clear Hpps as [|? ? [Q _] _]; unfold set_ok in Q|]; unfold sets, set_bytes; cbn [listed flat_map]; lens; lia. }
  unfold new_vvc. replace ((ls =? 1) || (ls =? 2) || (ls =? 4)) with true by (cbn [In] in Hls; lia). cbn [negb].
  destruct (init_ok true h0 (h1 :: payload) Hb) as (st & Ei & R); [unfold sps, set_ok in Hsps; lia|]. fold sps in Ei. rewrite Ei. cbn [bind].
  assert (Bh : h0 < 256 /\ h1 < 256) by (inversion_clear Hb as [|? ? B1 B2]; inversion_clear B2; split; assumption).
  assert (M8 : len (bits_of (h0 :: h1 :: payload)) mod 8 = 0) by (rewrite len_bits; lia).
  cbn [bits_of flat_map] in R, M8. fold (bits_of payload) in R, M8. rewrite Hp in R, M8.
  destruct (vvc_takes h0 h1 s (proj1 Bh) (proj2 Bh) Ht Hs st more) as (st' & E & _); [rewrite <- !app_assoc; exact M8|rewrite <- !app_assoc; exact R|].
  rewrite E. cbn [bind fst].
  assert (Pp : (do cfg <- vvcc_add (mkVvcc 0 0 (ls - 1) (vvc_out s) 0 vvc_arrs) sps 15;
     match pps with
     | None => Ok cfg
     | Some q => do st <- bb_init q; do x <- (get! _ := get_byte true in get_byte true) st;
         if negb (N.shiftr (fst x) 3 =? 16) then Err MP4BadParamErr else vvcc_add cfg q 16
     end) = Ok (mkVvcc 0 0 (ls - 1) (vvc_out s) (len (filter full_arr (arrs (first_sets sps pps) vtypes))) (arrs (first_sets sps pps) vtypes))).
  { destruct pps as [q|]; [|reflexivity]. apply Forall_inv in Hpps. destruct Hpps as [Q1 (q0 & q1 & r & Q2 & Q3 & Q4)].
    change (vvcc_add _ sps 15) with (Ok (mkVvcc 0 0 (ls - 1) (vvc_out s) 1 (arrs (first_sets sps None) vtypes))). cbn [bind].
    destruct (init_ok true q0 (q1 :: r) Q2) as (su & Fi & Ru); [rewrite Q4 in Q1; unfold set_ok in Q1; lia|]. rewrite <- Q4 in Fi. rewrite Fi. cbn [bind].
    assert (Bq : q0 < 256 /\ q1 < 256) by (inversion_clear Q2 as [|? ? B1 B2]; inversion_clear B2; split; assumption).
    assert (Tk : takes true (get! _ := get_byte true in get_byte true) (u 8 q0 ++ u 8 q1) q1).
    { eapply takes_bind; [apply takes_byte; tauto|]. apply takes_byte. tauto. }
    cbn [bits_of flat_map] in Ru. rewrite app_assoc in Ru. destruct (Tk su _ Ru) as (sv & Ev & _). rewrite Ev. cbn [bind fst].
    rewrite N.shiftr_div_pow2. change (2 ^ 3) with 8. rewrite Q3. reflexivity. }
  destruct (vvcc_add (mkVvcc 0 0 (ls - 1) (vvc_out s) 0 vvc_arrs) sps 15) as [c0|e|]; cbn [bind] in Pp |- *; [|discriminate Pp|discriminate Pp].
  rewrite Pp. cbn [bind].
  rewrite (first_same c o _ _ _ (inr (inr (inl (vvc_config s ls (first_sets sps pps)))))).
  2:{ reflexivity. }
  2:{ unfold pcodec. cbn [csum c_size vvcc_codec]. unfold vvcc_size, vvc_config. cbn [vc_ptl vc_num vc_arrs].
      destruct (w_ptl s) as [p|] eqn:Ep; [|unfold vvc_out; rewrite Ep; reflexivity].
      destruct (ptl_w_out s p Ep) as (rr & Er & _ & R1 & R2 & R3 & R4). rewrite Er, R1, R2, R3, R4. reflexivity. }
  2:{ unfold pcodec. cbn [csum c_w vvcc_codec]. unfold vvcc_w, vvc_config. cbn [vc_ver vc_flags vc_len1 vc_ptl vc_num vc_arrs].
      destruct (w_ptl s) as [p|] eqn:Ep; [|unfold vvc_out; rewrite Ep; reflexivity].
      destruct (ptl_w_out s p Ep) as (rr & Er & R0 & _). rewrite Er, R0. reflexivity. }
  pose proof (vvc_rewritten c y o yo F D FO s ls Hs Hlen _ _ _ _ (state_ext c y _ _ _ _ _ At St)) as W. change (code "vvc1") with T_vvc1 in W. rewrite W. cbn [bind].
  rewrite <- (handle_ext c y yo s ls _ _ _ _ At), <- Eb. rewrite !shiftl_mul. change (2 ^ 16) with 65536. rewrite !w32_small by lia. reflexivity.
Qed.
Print Assumptions C63_vvc_description.

(* C63: units of every type the box has a place for are kept in the order
   given, the first one of the types without a count; units of other types
   are refused. *)
Theorem C63_vvc_history :
  forall X O (c : codec X) (y : layout X) (o : codec O) (yo : layout O) oadd, faithful c y -> disjoint c y -> faithful o yo ->
  forall s dri length_size sps pps ops,
  vvc_ok s -> dri < 65536 -> 1 <= length_size <= 4 -> set_ok sps -> Forall set_ok (listed pps) -> Forall (op_ok c y) ops ->
  let all ty := at_most ty (first_sets sps pps ty ++ given (fun wh => wh) ty ops) in
  (forall ty, no_count ty = false -> len (all ty) < 65536) ->
  1000000 + weights c y ops < 4294967296 ->
  let wh := last_size (w_w s, w_h s) ops in
  exists b,
  drun c o oadd (add_vvc c o) (vvc_handle c y yo s length_size (sized (vfix_new dri) (w_w s) (w_h s)) (first_sets sps pps) []) ops = Ok b /\
  b = box (code "vvc1") (vfix_bytes (sized (vfix_new dri) (fst wh) (snd wh)) ++ box (code "vvcC") (l_body vvcc_layout (vvc_config s length_size all)) ++
        kids_bytes (pcodec c) (playout y) (boxes_of ops)) /\
  (forall ty, get_vvc c o b ty = if existsb (N.eqb ty) [15; 16; 14; 12; 13; 17; 23] then Ok (dri, length_size, len (all ty)) else Err MP4BadParamErr) /\
  (forall ty, get_vvc_nums c o b ty = if existsb (N.eqb ty) [15; 16; 14; 12; 13; 17; 23] then Ok (len (all ty)) else Err MP4BadParamErr) /\
  (forall ty i, i < 4294967296 -> get_vvc_ps c o b ty i = if existsb (N.eqb ty) [15; 16; 14; 12; 13; 17; 23] then kth_set (all ty) i else Err MP4BadParamErr) /\
  nal_length c o b = Ok length_size /\
  get_dims (pcodec c) pdflt o b = Ok wh /\
  exists e, lasting (pcodec c) (playout y) o yo e /\ b = entry_bytes (pcodec c) (playout y) yo e.
Proof.
  intros X O c y o yo oadd F D FO s dri ls sps pps ops Hs Hd Hls Hsps Hpps Hops all Hall Hw wh.
  assert (Hdim : w_w s < 65536 /\ w_h s < 65536) by (destruct Hs as (_ & _ & _ & _ & _ & A & B & _); auto).
  assert (At : forall t, at_most t (first_sets sps pps t) = first_sets sps pps t).
  { intros t. unfold first_sets, at_most, no_count. cbn [existsb]. destruct (N.eqb_spec t 12) as [->|]; [reflexivity|]. destruct (N.eqb_spec t 13) as [->|]; [reflexivity|]. reflexivity. }
  assert (St : vvc_state c y (sized (vfix_new dri) (w_w s) (w_h s)) (first_sets sps pps) [] (weights c y ops)).
  { split; [apply vfix_new_ok; tauto|]. split; [|split; [constructor|]].
    - intros t. split; [unfold first_sets; destruct (t =? 15); [reflexivity|]; destruct (t =? 16); [destruct pps; reflexivity|reflexivity]|]. split; [|apply At].
      unfold first_sets. destruct (t =? 15); [auto|]. destruct (t =? 16); [|constructor]. exact Hpps.
    - rewrite total_first. unfold kids_bytes. cbn [flat_map]. unfold set_ok in Hsps.
      destruct pps as [q|]; [inversion_clear Hpps as [|? ? Q _]; unfold set_ok in Q|]; unfold sets, set_bytes; cbn [listed flat_map]; lens; lia. }
  destruct (vvc_run c y o yo oadd F D FO s ls Hs Hls ops _ _ _ St Hops) as (room & G & E).
  { intros t N1. specialize (Hall t N1). unfold all, at_most in Hall. rewrite N1 in Hall. lens. exact Hall. }
  cbn [sized v_w v_h app] in G, E. cbv zeta in G, E. change (last_size (w_w s, w_h s) ops) with wh in G, E.
  set (L := fun t => if existsb (N.eqb t) vtypes then at_most t (first_sets sps pps t ++ given (fun wh => wh) t ops) else first_sets sps pps t) in *.
  assert (EL : vvc_config s ls L = vvc_config s ls all) by reflexivity.
  assert (V := vvc_state_ok c y s ls Hs Hls _ _ _ _ G).
  eexists. split; [exact E|]. unfold vvc_handle. unfold sized in V |- *.
  assert (Fd : forall ty, find (fun r => na_type r =? ty) (arrs all vtypes) = if existsb (N.eqb ty) vtypes then Some (mkArr 0 ty (all ty)) else None).
  { intros ty. generalize vtypes. intros ts. induction ts as [|t ts IH]; [reflexivity|]. cbn [map find existsb na_type]. rewrite (N.eqb_sym ty).
    destruct (N.eqb_spec t ty) as [->|]; [reflexivity|exact IH]. }
  assert (Ct : forall ty, vvc_count (vvc_config s ls L) ty = if existsb (N.eqb ty) vtypes then Ok (len (all ty)) else Err MP4BadParamErr).
  { intros ty. rewrite EL. unfold vvc_count. change (vc_arrs (vvc_config s ls all)) with (arrs all vtypes). rewrite Fd. destruct (existsb _ vtypes); reflexivity. }
  split; [|split; [|split; [|split; [|split; [|split]]]]].
  - rewrite EL. unfold vis_bytes, entry_bytes. cbn [entry_type entry_body]. unfold kids_bytes at 1. cbn [flat_map]. reflexivity.
  - intros ty. unfold get_vvc. rewrite (vis_entry c y o yo F D FO _ _ _ _ _ V) by reflexivity. cbn [bind]. rewrite vvc_found. cbn [bind]. rewrite Ct.
    fold vtypes. destruct (existsb _ vtypes); [|reflexivity]. cbn [bind vvc_config vc_len1]. do 3 f_equal. cbn [v_dri vfix_new]. f_equal. lia.
  - intros ty. unfold get_vvc_nums. rewrite (vis_entry c y o yo F D FO _ _ _ _ _ V) by reflexivity. cbn [bind]. rewrite vvc_found. cbn [bind]. apply Ct.
  - intros ty i Hi. unfold get_vvc_ps. rewrite (vis_entry c y o yo F D FO _ _ _ _ _ V) by reflexivity. cbn [bind]. rewrite vvc_found. cbn [bind]. rewrite EL.
    unfold vvcc_get. change (vc_arrs (vvc_config s ls all)) with (arrs all vtypes). rewrite Fd. fold vtypes. destruct (existsb (N.eqb ty) vtypes) eqn:Ei; [|reflexivity].
    cbn [na_nals]. apply set_at_is; [exact Hi|]. destruct (no_count ty) eqn:N1; [unfold all, at_most; rewrite N1; unfold len; rewrite firstn_length; lia|specialize (Hall ty N1); lia].
  - unfold nal_length. rewrite (vis_entry c y o yo F D FO _ _ _ _ _ V) by reflexivity. cbn [bind]. unfold vvc_of. rewrite !ext_cons.
    unfold pcodec. cbn [csum c_ty avcc_codec hvcc_codec vvcc_codec vvnc_codec]. fold (pcodec c).
    change (T_vvcC =? T_vvnC) with false. change (T_vvcC =? T_hvcC) with false. change (T_vvcC =? T_avcC) with false. rewrite N.eqb_refl. cbn iota.
    rewrite !(ext_none c y) by (try apply G; cbn [config_types In]; auto). cbn [bind vvc_config vc_len1]. f_equal. lia.
  - rewrite (vis_dims c y o yo F D FO _ _ _ V). cbn [v_w v_h]. destruct wh; reflexivity.
  - eexists. split; [apply (vis_lasting c y o yo _ _ _ V)|reflexivity].
Qed.
Print Assumptions C63_vvc_history.

(* C63: a description of subpictures *)
Theorem C63_subpicture_description :
  forall X O (c : codec X) (y : layout X) (o : codec O) (yo : layout O), faithful c y -> disjoint c y -> faithful o yo ->
  forall dri w h length_size, dri < 65536 -> w < 65536 -> h < 65536 -> In length_size [1; 2; 4] ->
  let b := box (code "vvs1") (vfix_bytes (sized (vfix_new dri) w h) ++ box (code "vvnC") [0; 0; 0; 0; length_size - 1]) in
  new_subpic c o true dri w h length_size = Ok (b, (w * 65536, h * 65536)) /\
  get_subpic c o b = Ok (dri, length_size) /\ get_dims (pcodec c) pdflt o b = Ok (w, h) /\
  exists e, lasting (pcodec c) (playout y) o yo e /\ b = entry_bytes (pcodec c) (playout y) yo e.
Proof.
  intros X O c y o yo F D FO dri w h ls Hd Hw Hh Hls b.
  set (cfg := inr (inr (inr (inl (mkVvnc 0 0 (ls - 1))))) : avcc + (hvcc + (vvcc + (vvnc + X)))).
  assert (Hlen : 1 <= ls <= 4) by (cbn [In] in Hls; lia).
  assert (V : vis_ok c y (code "vvs1") (sized (vfix_new dri) w h) [ALeaf _ cfg]).
  { apply vis_first; [reflexivity|apply vfix_new_ok; assumption| | |constructor|]; unfold cfg, playout; cbn [lsum l_ok l_view l_body vvnc_layout vn_ver vn_flags vn_len1].
    - split; [split; lia|lia].
    - reflexivity.
    - unfold kids_bytes, full. cbn [flat_map]. lens. lia. }
  assert (Eb : b = vis_bytes c y yo (code "vvs1") (sized (vfix_new dri) w h) [ALeaf _ cfg]).
  { unfold vis_bytes, entry_bytes. cbn [entry_type entry_body]. rewrite config_bytes. reflexivity. }
  split; [|rewrite Eb; split; [|split]].
  - unfold new_subpic. replace ((ls =? 1) || (ls =? 2) || (ls =? 4)) with true by (cbn [In] in Hls; lia). cbn [negb].
    pose proof (vis_written c y o yo F D FO _ _ _ V) as W. unfold vis_ent in W. change (code "vvs1") with T_vvs1 in W. unfold cfg in W. rewrite W. cbn [bind].
    rewrite !shiftl_mul. change (2 ^ 16) with 65536. rewrite !w32_small by lia. rewrite Eb. reflexivity.
  - unfold get_subpic. rewrite (vis_entry c y o yo F D FO _ _ _ _ _ V) by reflexivity. cbn [bind]. unfold vvn_of. rewrite ext_cons.
    replace (c_ty (pcodec c) cfg =? T_vvnC) with true by reflexivity. unfold cfg. cbn [bind vn_len1 v_dri sized vfix_new]. do 2 f_equal. lia.
  - rewrite (vis_dims c y o yo F D FO _ _ _ V). reflexivity.
  - eexists. split; [apply (vis_lasting c y o yo _ _ _ V)|reflexivity].
Qed.
Print Assumptions C63_subpicture_description.

Definition some_vvc : vvc_syntax :=
  mkVvcS 16 1 1 2 (Some (mkVPtl 1 0 51 true false (Some ([true; false; true] ++ repeat false 68)) [Some 48])) true (Some true) 640 480
    (Some (0, 1, (0, 2)))
    (Some (mkPics false false [mkPic 0 0 1 3 2; mkPic 2 0 0 0 1] 3 (Some (Some [1; 2])))) 2.
Definition vvc_payload := Eval vm_compute in pack (vvc_bits some_vvc).
Lemma vvc_payload_is : exists more, bits_of vvc_payload = vvc_bits some_vvc ++ more.
Proof. exists (skipn (length (vvc_bits some_vvc)) (bits_of vvc_payload)). vm_compute. reflexivity. Qed.
Definition vvc_sps1 := Eval vm_compute in nal (0 :: 121 :: vvc_payload).
Definition vvc_b0 := Eval vm_compute in match new_vvc no_codec no_codec true 1 4 (Some vvc_sps1) (Some [0; 129; 7]) with Ok (b, _) => b | _ => [] end.
Definition vvc_ops : list (dop (atom (avcc + (hvcc + (vvcc + (vvnc + Empty_set)))))) :=
  [AddSet [0; 113; 1] 14; AddBox note_box; AddSet [0; 97; 5] 12; AddSet [0; 129; 8] 16; AddSet [9] 18; SetSize 64 48].
Definition vvc_b := Eval vm_compute in match drun no_codec no_codec (fun z _ => z) (add_vvc no_codec no_codec) vvc_b0 vvc_ops with Ok b => b | _ => [] end.
Example C63_ex : vvc_ok some_vvc /\ bytes (0 :: 121 :: vvc_payload) /\ 121 / 8 = 15 /\ pps_ok [0; 129; 7] /\ Forall (op_ok no_codec no_layout) vvc_ops /\
  new_vvc no_codec no_codec true 1 4 (Some vvc_sps1) (Some [0; 129; 7]) = Ok (vvc_b0, (41943040, 31457280)) /\
  drun no_codec no_codec (fun z _ => z) (add_vvc no_codec no_codec) vvc_b0 vvc_ops = Ok vvc_b /\
  get_vvc no_codec no_codec vvc_b 16 = Ok (1, 4, 2) /\ get_vvc_ps no_codec no_codec vvc_b 16 2 = Ok [0; 129; 8] /\
  get_vvc_ps no_codec no_codec vvc_b 12 1 = Ok [0; 97; 5] /\ get_vvc_nums no_codec no_codec vvc_b 18 = Err MP4BadParamErr /\
  nal_length no_codec no_codec vvc_b = Ok 4 /\ get_dims pc0 pdflt no_codec vvc_b = Ok (64, 48).
Proof.
  split; [repeat split; try reflexivity; try discriminate; repeat constructor|].
  split; [repeat constructor|]. split; [reflexivity|]. split; [split; [reflexivity|]; exists 0, 129, [7]; split; [repeat constructor|split; reflexivity]|].
  split.
  { constructor; [reflexivity|]. constructor; [exact note_other|]. constructor; [reflexivity|]. constructor; [reflexivity|].
    constructor; [reflexivity|]. constructor; [split; reflexivity|]. constructor. }
  split; [vm_compute; reflexivity|]. split; [vm_compute; reflexivity|]. split; [vm_compute; reflexivity|]. split; [vm_compute; reflexivity|].
  split; [vm_compute; reflexivity|]. split; [vm_compute; reflexivity|]. split; vm_compute; reflexivity.
Qed.
(* a second unit of a type without count is taken and lost *)
Definition vvc_b12 := Eval vm_compute in match add_vvc no_codec no_codec vvc_b [0; 97; 6] 12 with Ok b => b | _ => [] end.
Theorem C63_second_unit_refuted : add_vvc no_codec no_codec vvc_b [0; 97; 6] 12 = Ok vvc_b12 /\ get_vvc_ps no_codec no_codec vvc_b12 12 2 = Err MP4BadParamErr.
Proof. split; vm_compute; reflexivity. Qed.
Print Assumptions C63_second_unit_refuted.
(* the length of the NAL unit sizes is not given for subpicture descriptions,
   although their box is looked for *)
Definition subpic_b := Eval vm_compute in match new_subpic no_codec no_codec true 1 64 48 4 with Ok (b, _) => b | _ => [] end.
Theorem C63_subpicture_length_refuted : new_subpic no_codec no_codec true 1 64 48 4 = Ok (subpic_b, (4194304, 3145728)) /\
  get_subpic no_codec no_codec subpic_b = Ok (1, 4) /\ nal_length no_codec no_codec subpic_b = Err MP4BadParamErr.
Proof. split; [vm_compute; reflexivity|]. split; vm_compute; reflexivity. Qed.
Print Assumptions C63_subpicture_length_refuted.
(* a sequence parameter set with five additional constraint bits: a buffer of
   ten bytes is read past its end *)
Definition wild_bits : list bool :=
  u 8 16 ++ u 3 0 ++ u 2 1 ++ u 2 2 ++ [true] ++ u 7 1 ++ u 1 0 ++ u 8 51 ++ [true; false] ++ [true] ++ repeat false 71 ++ u 8 5 ++ repeat false 40.
Definition wild_sps := Eval vm_compute in nal (0 :: 121 :: pack wild_bits).
Theorem C63_constraint_bits_refuted : new_vvc no_codec no_codec true 1 4 (Some wild_sps) None = UB.
Proof. vm_compute. reflexivity. Qed.
Print Assumptions C63_constraint_bits_refuted.
(* one sub-profile: the reader stores through a NULL pointer, of a sequence
   parameter set and of a box *)
Definition prof_bits : list bool :=
  u 8 16 ++ u 3 0 ++ u 2 1 ++ u 2 2 ++ [true] ++ u 7 1 ++ u 1 0 ++ u 8 51 ++ [true; false] ++ [false] ++ repeat false 5 ++ u 8 1 ++ u 32 7 ++ repeat false 40.
Definition prof_sps := Eval vm_compute in nal (0 :: 121 :: pack prof_bits).
Definition vvcc_0 : vvcc := mkVvcc 0 0 0 None 0 [].
Theorem C63_sub_profile_refuted : new_vvc no_codec no_codec true 1 4 (Some prof_sps) None = UB /\
  read_box vvcc_codec vvcc_0 (box (code "vvcC") (full 0 0 ++ [255] ++ be16 17 ++ [95; 1; 2; 51; 128; 1] ++ be32 7 ++ be16 64 ++ be16 48 ++ be16 0 ++ [0])) = UB.
Proof. split; vm_compute; reflexivity. Qed.
Print Assumptions C63_sub_profile_refuted.
(* eight arrays, the last of a type without a place *)
Theorem C63_eight_arrays_refuted :
  read_box vvcc_codec vvcc_0 (box (code "vvcC") (full 0 0 ++ [254] ++ [8] ++ flat_map (fun t => [t; 0; 0]) [15; 16; 14; 17; 23; 15; 16; 18])) = UB.
Proof. vm_compute. reflexivity. Qed.
Print Assumptions C63_eight_arrays_refuted.
(* an array of a type met before takes the place of the first *)
Definition twice_box : list N := box (code "vvcC") (full 0 0 ++ [254] ++ [2] ++ [16; 0; 1; 0; 1; 8] ++ [16; 0; 1; 0; 1; 9]).
Definition twice_read : vvcc := Eval vm_compute in match read_box vvcc_codec vvcc_0 twice_box with Ok ((ALeaf _ a, _), _) => a | _ => vvcc_0 end.
Theorem C63_repeated_type_refuted : read_box vvcc_codec vvcc_0 twice_box = Ok ((ALeaf _ twice_read, 26), []) /\
  vvcc_get twice_read 16 1 = Ok [9] /\ vvcc_get twice_read 16 2 = Err MP4BadParamErr.
Proof. split; [vm_compute; reflexivity|]. split; vm_compute; reflexivity. Qed.
Print Assumptions C63_repeated_type_refuted.
(* a record that announces no constraint bytes is read, but cannot be
   written *)
Definition bare_box : list N := box (code "vvcC") (full 0 0 ++ [255] ++ be16 17 ++ [95; 0; 2; 51; 128; 0] ++ be16 64 ++ be16 48 ++ be16 0 ++ [0]).
Definition bare_read : vvcc := Eval vm_compute in match read_box vvcc_codec vvcc_0 bare_box with Ok ((ALeaf _ a, _), _) => a | _ => vvcc_0 end.
Theorem C63_no_constraints_refuted : read_box vvcc_codec vvcc_0 bare_box = Ok ((ALeaf _ bare_read, len bare_box), []) /\
  write_box vvcc_codec bare_read = Err MP4IOErr.
Proof. split; vm_compute; reflexivity. Qed.
Print Assumptions C63_no_constraints_refuted.

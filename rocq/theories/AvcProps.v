(* AvcProps.v -- C62: AVC descriptions. *)
From Verif Require Import Base Codec AtomModel AtomSpec AtomProofs AtomProps BitLemmas BoxModel BoxSpec BoxProofs Reads KidsModel KidsProofs TextModel TextSpec TextProofs EntryModel EntrySpec EntryProofs EntryProps BitModel BitSpec BitProofs ParamModel ParamSpec ParamProofs SpsProofs ParamHandle ParamProps.

(* ------------------------------------------------------------------ *)
(* C62: AVC                                                            *)

(* one call after the other; a call that fails leaves the handle *)
Section Run.
Context {X O : Type} (c : codec X) (o : codec O) (oadd : O -> atom (avcc + (hvcc + (vvcc + (vvnc + X)))) -> O).
Notation T := (avcc + (hvcc + (vvcc + (vvnc + X))))%type.
Definition dstep (add : list N -> list N -> N -> res (list N)) (b : list N) (op : dop (atom T)) : res (list N) :=
  match op with
  | AddSet ps wh => add b ps wh
  | AddBox x => add_ext (pcodec c) pdflt o oadd b x
  | SetSize w h => set_dims (pcodec c) pdflt o b w h
  end.
Fixpoint drun (add : list N -> list N -> N -> res (list N)) (b : list N) (ops : list (dop (atom T))) : res (list N) :=
  match ops with
  | [] => Ok b
  | op :: r => match dstep add b op with Ok b' => drun add b' r | Err _ => drun add b r | UB => UB end
  end.
End Run.
Definition weight {X} (c : codec X) (y : layout X) (op : dop (atom (avcc + (hvcc + (vvcc + (vvnc + X)))))) : N :=
  match op with AddSet ps _ => 2 + len ps | AddBox x => len (kid_enc (pcodec c) (playout y) x) | SetSize _ _ => 0 end.
Definition weights {X} (c : codec X) (y : layout X) ops : N := fold_right (fun op n => weight c y op + n) 0 ops.
Definition op_ok {X} (c : codec X) (y : layout X) (op : dop (atom (avcc + (hvcc + (vvcc + (vvnc + X)))))) : Prop :=
  match op with AddSet ps _ => set_ok ps | AddBox x => other_box c y x | SetSize w h => w < 65536 /\ h < 65536 end.

Lemma land3 n : N.land n 3 = n mod 4.
Proof. change 3 with (N.ones 2). rewrite N.land_ones. reflexivity. Qed.
Lemma first31 {A} (l : list A) (x : A) r : len l = 31 -> firstn 31 (l ++ x :: r) = firstn 31 (l ++ r).
Proof.
  intros H. assert (E : length l = 31%nat) by (unfold len in H; lia). rewrite !firstn_app, E. change (31 - 31)%nat with 0%nat. rewrite !firstn_O. reflexivity.
Qed.
Lemma first31_all {A} (l : list A) : len l <= 31 -> firstn 31 l = l.
Proof. intros H. apply firstn_all2. unfold len in H. lia. Qed.
Lemma set_len b l : len (sets (l ++ [b])) = len (sets l) + 2 + len b.
Proof. unfold sets, set_bytes. rewrite flat_map_app. cbn [flat_map]. lens. lia. Qed.

Definition avc_body_len s sps pps ext : N :=
  7 + len (sets sps) + len (sets pps) + (if is_high (i_prof s) then 4 + len (sets ext) else 0).
Lemma avc_body_is s ls sps pps ext : len (l_body avcc_layout (avc_config s ls sps pps ext)) = avc_body_len s sps pps ext.
Proof.
  unfold avc_config, avc_body_len. destruct (is_high (i_prof s)) eqn:E; cbn [avcc_layout l_body ac_prof ac_compat ac_level ac_complete ac_len ac_sps ac_pps ac_chroma ac_luma ac_cdepth ac_ext];
    rewrite E; lens; lia.
Qed.
Lemma avc_config_ok s ls sps pps ext : avc_ok s -> 1 <= ls <= 4 -> len sps < 32 -> len pps < 32 -> Forall set_ok sps -> Forall set_ok pps ->
  (if is_high (i_prof s) then len ext < 256 /\ Forall set_ok ext else ext = []) -> l_ok avcc_layout (avc_config s ls sps pps ext).
Proof.
  intros (A1 & A2 & A3 & A4 & A5 & A6 & A7) H1 H2 H3 H4 H5 H6. unfold avc_config.
  destruct (is_high (i_prof s)) eqn:E; cbn [avcc_layout l_ok ac_prof ac_compat ac_level ac_complete ac_len ac_sps ac_pps ac_chroma ac_luma ac_cdepth ac_ext];
    rewrite E; repeat split; try assumption; try lia; try apply H6.
Qed.

(* writers that fail; writers that never go wrong *)
Definition fails (w : wr) : Prop := forall st, exists e, w st = Err e.
Definition mild (w : wr) : Prop := forall st, w st <> UB.
Lemma fails_l a b : fails a -> fails (a ;; b).
Proof. intros H st. unfold wseq. destruct (H st) as (e & ->). exists e. reflexivity. Qed.
Lemma fails_r a b : mild a -> fails b -> fails (a ;; b).
Proof. intros H G st. unfold wseq. specialize (H st). destruct (a st) as [s'|e|]; [apply G|exists e; reflexivity|congruence]. Qed.
Lemma mild_putl l : mild (putl l).
Proof. intros st. unfold putl. destruct (_ <? _); discriminate. Qed.
Lemma mild_seq a b : mild a -> mild b -> mild (a ;; b).
Proof. intros H G st. unfold wseq. specialize (H st). destruct (a st) as [s'|e|]; [apply G|discriminate|congruence]. Qed.
Lemma mild_base n m ty : mild (write_base n m ty).
Proof. unfold write_base. repeat apply mild_seq; try apply mild_putl. destruct (n =? 1); [apply mild_putl|intros st; discriminate]. Qed.
Lemma mild_vfix f : mild (vfix_w f).
Proof. unfold vfix_w. repeat apply mild_seq; apply mild_putl. Qed.
Lemma fails_run n w : fails w -> exists e, wrun n w = Err e.
Proof. intros H. unfold wrun. destruct (H (mkW [] n)) as (e & ->). exists e. reflexivity. Qed.
Lemma fails_embed n r : (exists e, r = Err e) -> fails (embed n r).
Proof. intros (e & ->) st. unfold embed. destruct (_ <? _); eexists; reflexivity. Qed.
(* a description whose first box is not written is not written *)
Lemma first_fails {X O} (c : codec X) (o : codec O) ty f (t : avcc + (hvcc + (vvcc + (vvnc + X)))) l : fails (c_w (pcodec c) t) ->
  exists e, entry_w (pcodec c) o (EVis ty f (ALeaf _ t :: l)) = Err e.
Proof.
  intros H. unfold entry_w. apply fails_run. apply fails_r; [apply mild_base|]. cbn [ent_w]. apply fails_r; [apply mild_vfix|].
  unfold boxes_w. cbn [wmap]. apply fails_l. apply fails_embed. cbn [awrite]. apply fails_run. apply fails_r; [apply mild_base|]. exact H.
Qed.

Section Avc.
Context {X O : Type} (c : codec X) (y : layout X) (o : codec O) (yo : layout O) (oadd : O -> atom (avcc + (hvcc + (vvcc + (vvnc + X)))) -> O).
Hypothesis F : faithful c y.
Hypothesis D : disjoint c y.
Hypothesis FO : faithful o yo.
Notation T := (avcc + (hvcc + (vvcc + (vvnc + X))))%type.
Variable s : avc_syntax.
Variable ls : N.
Hypothesis Hs : avc_ok s.
Hypothesis Hls : 1 <= ls <= 4.
Definition avc_handle f sps pps ext boxes : list N :=
  vis_bytes c y yo (code "avc1") f (ALeaf T (inl (avc_config s ls sps pps ext)) :: boxes).
Definition avc_state f sps pps ext boxes (room : N) : Prop :=
  vfix_ok f /\ len sps < 32 /\ len pps < 32 /\ Forall set_ok sps /\ Forall set_ok pps /\
  (if is_high (i_prof s) then len ext < 256 /\ Forall set_ok ext else ext = []) /\ Forall (other_box c y) boxes /\
  94 + avc_body_len s sps pps ext + len (kids_bytes (pcodec c) (playout y) boxes) + room < 4294967296.
Lemma avc_state_ok f sps pps ext boxes room : avc_state f sps pps ext boxes room ->
  vis_ok c y (code "avc1") f (ALeaf T (inl (avc_config s ls sps pps ext)) :: boxes).
Proof.
  intros (H1 & H2 & H3 & H4 & H5 & H6 & H7 & H8). apply vis_first; [reflexivity|exact H1| | |exact H7|].
  - cbn [playout lsum l_ok]. unfold playout. cbn [lsum l_ok]. apply avc_config_ok; assumption.
  - unfold playout. cbn [lsum l_view]. reflexivity.
  - unfold playout. cbn [lsum l_body]. fold (playout y). rewrite avc_body_is. lia.
Qed.
Lemma avc_found sps pps ext boxes : avc_of c (ALeaf T (inl (avc_config s ls sps pps ext)) :: boxes) = Ok (avc_config s ls sps pps ext).
Proof. unfold avc_of. rewrite ext_cons. replace (c_ty (pcodec c) (inl (avc_config s ls sps pps ext)) =? T_avcC) with true by reflexivity. reflexivity. Qed.
Lemma avc_add_is sps pps ext ps wh : avcc_add (avc_config s ls sps pps ext) ps wh =
  if wh mod 4 =? 1 then Ok (avc_config s ls (sps ++ [ps]) pps ext)
  else if wh mod 4 =? 2 then Ok (avc_config s ls sps (pps ++ [ps]) ext)
  else if wh mod 4 =? 3 then Ok (avc_config s ls sps pps (ext ++ [ps])) else Err MP4BadParamErr.
Proof. unfold avcc_add, avc_config. rewrite land3. destruct (is_high (i_prof s)); reflexivity. Qed.
Lemma avc_step f sps pps ext boxes room ps wh : avc_state f sps pps ext boxes room ->
  add_vc c o (avc_handle f sps pps ext boxes) ps wh =
  do a <- avcc_add (avc_config s ls sps pps ext) ps wh; entry_w (pcodec c) o (EVis (code "avc1") f (ALeaf T (inl a) :: boxes)).
Proof.
  intros H. unfold add_vc, avc_handle. rewrite (vis_entry c y o yo F D FO _ _ _ _ _ (avc_state_ok _ _ _ _ _ _ H)) by reflexivity. cbn [bind].
  rewrite avc_found. cbn [bind]. destruct (avcc_add _ _ _) as [a|e|]; [|reflexivity|reflexivity]. cbn [bind]. cbn [put_ext atype].
  replace (c_ty (pcodec c) (inl (avc_config s ls sps pps ext)) =? T_avcC) with true by reflexivity. reflexivity.
Qed.
Lemma avc_rewritten f sps pps ext boxes room : avc_state f sps pps ext boxes room ->
  entry_w (pcodec c) o (EVis (code "avc1") f (ALeaf T (inl (avc_config s ls sps pps ext)) :: boxes)) = Ok (avc_handle f sps pps ext boxes).
Proof. intros H. apply (vis_written c y o yo F D FO _ _ _ (avc_state_ok _ _ _ _ _ _ H)). Qed.
(* thirty-two sets are not written *)
Lemma avc_full f sps pps ext boxes : (32 <=? len sps) || (32 <=? len pps) = true -> exists e,
  entry_w (pcodec c) o (EVis (code "avc1") f (ALeaf T (inl (avc_config s ls sps pps ext)) :: boxes)) = Err e.
Proof.
  intros H. apply first_fails. unfold pcodec. cbn [csum c_w avcc_codec]. unfold avcc_w.
  replace (ac_sps (avc_config s ls sps pps ext)) with sps by (unfold avc_config; destruct (is_high _); reflexivity).
  replace (ac_pps (avc_config s ls sps pps ext)) with pps by (unfold avc_config; destruct (is_high _); reflexivity).
  rewrite H. intros st. eexists. reflexivity.
Qed.

Notation sel := (fun wh => wh mod 4).
Lemma avc_run ops : forall f sps pps ext boxes,
  avc_state f sps pps ext boxes (weights c y ops) -> Forall (op_ok c y) ops ->
  (if is_high (i_prof s) then len ext + len (given sel 3 ops) < 256 else given sel 3 ops = []) ->
  exists room,
  let f' := sized f (fst (last_size (v_w f, v_h f) ops)) (snd (last_size (v_w f, v_h f) ops)) in
  avc_state f' (firstn 31 (sps ++ given sel 1 ops)) (firstn 31 (pps ++ given sel 2 ops)) (ext ++ given sel 3 ops) (boxes ++ boxes_of ops) room /\
  drun c o oadd (add_vc c o) (avc_handle f sps pps ext boxes) ops =
    Ok (avc_handle f' (firstn 31 (sps ++ given sel 1 ops)) (firstn 31 (pps ++ given sel 2 ops)) (ext ++ given sel 3 ops) (boxes ++ boxes_of ops)).
Proof.
  induction ops as [|op ops IH]; intros f sps pps ext boxes H Ho He.
  - exists 0. cbn [last_size given boxes_of flat_map drun fst snd]. rewrite !app_nil_r.
    destruct H as (H1 & H2 & H3 & H4). rewrite !first31_all by lia.
    replace (sized f (v_w f) (v_h f)) with f by (destruct f; reflexivity). split; [|reflexivity]. exact (conj H1 (conj H2 (conj H3 H4))).
  - inversion_clear Ho as [|? ? Hop Hops]. cbn [drun]. destruct op as [ps wh|x|w h].
    + cbn [dstep]. rewrite (avc_step _ _ _ _ _ _ ps wh H), avc_add_is.
      cbn [weights fold_right weight] in H. fold (weights c y ops) in H. cbn [op_ok] in Hop.
      cbn [given boxes_of flat_map last_size] in *. fold (given sel 3 ops) in He.
      fold (@given (atom T) sel 1 ops) (@given (atom T) sel 2 ops) (@given (atom T) sel 3 ops) (@boxes_of (atom T) ops).
      destruct H as (H1 & H2 & H3 & H4 & H5 & H6 & H7 & H8).
      destruct (N.eqb_spec (wh mod 4) 1) as [E1|E1]; [|destruct (N.eqb_spec (wh mod 4) 2) as [E2|E2]; [|destruct (N.eqb_spec (wh mod 4) 3) as [E3|E3]]].
      * rewrite E1 in *. change (1 =? 2) with false. change (1 =? 3) with false in *. cbn iota in *. cbn [app bind] in *.
        destruct (N.eq_dec (len sps) 31) as [L|L].
        -- destruct (avc_full f (sps ++ [ps]) pps ext boxes) as (e & ->); [lens; rewrite L; reflexivity|].
           rewrite first31 by exact L. apply IH; try assumption. unfold avc_state; do 7 (split; [assumption|]); lia.
        -- assert (G : avc_state f (sps ++ [ps]) pps ext boxes (weights c y ops)).
           { unfold avc_state; do 7 (split; [first [assumption | apply Forall_app; auto | lens; lia]|]).
             unfold avc_body_len in *. rewrite set_len. lia. }
           rewrite (avc_rewritten _ _ _ _ _ _ G).
           replace (sps ++ ps :: given sel 1 ops) with ((sps ++ [ps]) ++ given sel 1 ops) by (rewrite <- app_assoc; reflexivity).
           apply IH; assumption.
      * rewrite E2 in *. change (2 =? 1) with false. change (2 =? 3) with false in *. cbn iota in *. cbn [app bind] in *.
        destruct (N.eq_dec (len pps) 31) as [L|L].
        -- destruct (avc_full f sps (pps ++ [ps]) ext boxes) as (e & ->); [lens; rewrite L; apply orb_true_r|].
           rewrite first31 by exact L. apply IH; try assumption. unfold avc_state; do 7 (split; [assumption|]); lia.
        -- assert (G : avc_state f sps (pps ++ [ps]) ext boxes (weights c y ops)).
           { unfold avc_state; do 7 (split; [first [assumption | apply Forall_app; auto | lens; lia]|]).
             unfold avc_body_len in *. rewrite set_len. lia. }
           rewrite (avc_rewritten _ _ _ _ _ _ G).
           replace (pps ++ ps :: given sel 2 ops) with ((pps ++ [ps]) ++ given sel 2 ops) by (rewrite <- app_assoc; reflexivity).
           apply IH; assumption.
      * rewrite E3 in *. change (3 =? 1) with false. change (3 =? 2) with false. cbn iota in *. cbn [app bind] in *.
        destruct (is_high (i_prof s)) eqn:Hh; [|discriminate He].
        assert (G : avc_state f sps pps (ext ++ [ps]) boxes (weights c y ops)).
        { unfold avc_state. rewrite Hh. do 5 (split; [assumption|]). split; [split; [lens; lia|apply Forall_app; split; [apply H6|auto]]|]. split; [assumption|].
          unfold avc_body_len in *. rewrite Hh in *. rewrite set_len. lia. }
        rewrite (avc_rewritten _ _ _ _ _ _ G).
        replace (ext ++ ps :: given sel 3 ops) with ((ext ++ [ps]) ++ given sel 3 ops) by (rewrite <- app_assoc; reflexivity).
        apply IH; try assumption. lens. lia.
      * cbn [bind app] in *. apply IH; try assumption. unfold avc_state; do 7 (split; [assumption|]); lia.
    + cbn [dstep]. cbn [weights fold_right weight] in H. fold (weights c y ops) in H. cbn [op_ok] in Hop. pose proof (avc_state_ok _ _ _ _ _ _ H) as V.
      cbn [given boxes_of flat_map last_size] in *. fold (given sel 3 ops) in He.
      fold (@given (atom T) sel 1 ops) (@given (atom T) sel 2 ops) (@given (atom T) sel 3 ops) (@boxes_of (atom T) ops). cbn [app] in *.
      destruct H as (H1 & H2 & H3 & H4 & H5 & H6 & H7 & H8).
      destruct (vis_add_ext c y o yo F D FO oadd _ _ _ x V (proj1 Hop)) as (_ & E).
      { rewrite kids_len_cons. unfold playout. cbn [lsum l_body]. fold (playout y). rewrite avc_body_is. lia. }
      unfold avc_handle at 1. rewrite E. cbn [app].
      replace (boxes ++ x :: boxes_of ops) with ((boxes ++ [x]) ++ boxes_of ops) by (rewrite <- app_assoc; reflexivity).
      apply IH; try assumption. unfold avc_state; do 7 (split; [first [assumption | apply Forall_app; auto | lens; lia]|]).
      rewrite kids_len_app. lia.
    + cbn [dstep]. cbn [weights fold_right weight] in H. fold (weights c y ops) in H. cbn [op_ok] in Hop. pose proof (avc_state_ok _ _ _ _ _ _ H) as V.
      cbn [given boxes_of flat_map last_size] in *. fold (given sel 3 ops) in He.
      fold (@given (atom T) sel 1 ops) (@given (atom T) sel 2 ops) (@given (atom T) sel 3 ops) (@boxes_of (atom T) ops). cbn [app] in *.
      destruct (vis_set_dims c y o yo F D FO _ _ _ w h V (proj1 Hop) (proj2 Hop)) as (V' & E).
      unfold avc_handle at 1. rewrite E.
      destruct (IH (sized f w h) sps pps ext boxes) as (room & G1 & G2); try assumption.
      { destruct H as (H1 & H2). split; [apply V'|exact H2]. }
      exists room. split; [exact G1|exact G2].
Qed.
End Avc.

Lemma escaped_len l : forall z, len (escaped z l) <= 2 * len l.
Proof.
  induction l as [|x l IH]; intros z; [cbn; lia|]. cbn [escaped].
  destruct (_ && _); lens; match goal with |- context [escaped ?w l] => specialize (IH w) end; lia.
Qed.

(* C62: a sequence parameter set as its bytes stand (this reader does not
   remove emulation prevention) whose bits begin with the syntax of H.264,
   a picture parameter set and, for the high profiles, possibly an extension
   make the description of the standard. *)
Theorem C62_avc_description :
  forall X O (c : codec X) (y : layout X) (o : codec O) (yo : layout O), faithful c y -> disjoint c y -> faithful o yo ->
  forall s h sps more dri length_size pps ext,
  avc_ok s -> (is_high (i_prof s) = true -> i_chroma s <> 3) -> bytes sps -> h < 256 -> h mod 32 = 7 -> bits_of sps = u 8 h ++ avc_bits s ++ more ->
  dri < 65536 -> 1 <= length_size <= 4 -> set_ok sps -> set_ok pps -> Forall set_ok (listed ext) -> (is_high (i_prof s) = false -> ext = None) ->
  let b := box (code "avc1") (vfix_bytes (vfix_new dri) ++ box (code "avcC") (l_body avcc_layout (avc_config s length_size [sps] [pps] (listed ext)))) in
  new_avc c o true dri length_size (Some sps) (Some pps) ext = Ok b /\ b = avc_handle c y yo s length_size (vfix_new dri) [sps] [pps] (listed ext) [].
Proof.
  intros X O c y o yo F D FO s h sps more dri ls pps ext Hs Hc Hb Hh Hm Hp Hd Hls Hsps Hpps Hext Hne b.
  assert (Eb : b = avc_handle c y yo s ls (vfix_new dri) [sps] [pps] (listed ext) []).
  { unfold avc_handle, vis_bytes, entry_bytes. cbn [entry_type entry_body]. rewrite config_bytes. reflexivity. }
  split; [|exact Eb]. rewrite Eb.
  assert (St : avc_state c y s (vfix_new dri) [sps] [pps] (listed ext) [] 0).
  { split; [apply (vfix_new_ok dri 0 0); lia|]. split; [reflexivity|]. split; [reflexivity|]. split; [auto|]. split; [auto|].
    split; [destruct (is_high (i_prof s)); [split; [destruct ext; reflexivity|exact Hext]|rewrite Hne; reflexivity]|]. split; [constructor|].
    unfold avc_body_len, sets, set_bytes, kids_bytes. unfold set_ok in *. destruct ext as [q|]; [inversion_clear Hext|]; cbn [listed flat_map]; destruct (is_high (i_prof s)); lens; cbn beta in *; lia. }
  rewrite <- (avc_rewritten c y o yo F D FO s ls Hs Hls _ _ _ _ _ _ St).
  unfold new_avc. cbn [negb].
  destruct sps as [|b0 sps']; [exfalso; destruct h as [|h0]; discriminate Hp|].
  inversion Hb as [|? ? B0 B1]; subst.
  destruct (init_ok false b0 sps' Hb) as (st & Ei & R); [pose proof (escaped_len (b0 :: sps') 0); unfold set_ok in Hsps; unfold nal; lia|]. cbn iota in Ei. rewrite Ei. cbn [bind].
  rewrite Hp in R. rewrite app_assoc in R.
  destruct (avc_takes h s Hh Hm Hs Hc st more R) as (st' & E & _). rewrite E. cbn [bind fst].
  unfold avc_config. destruct (is_high (i_prof s)); destruct ext; reflexivity.
Qed.
Print Assumptions C62_avc_description.

(* C62: whatever is then done with the description -- sets, other boxes, sizes
   --, it holds the first 31 sequence and picture parameter sets and all
   extensions in the order given, the other boxes and the last size; a call
   that is refused changes nothing; the lists are read back by number. *)
Theorem C62_avc_history :
  forall X O (c : codec X) (y : layout X) (o : codec O) (yo : layout O) oadd, faithful c y -> disjoint c y -> faithful o yo ->
  forall s dri length_size sps pps ext ops,
  avc_ok s -> dri < 65536 -> 1 <= length_size <= 4 -> set_ok sps -> set_ok pps -> Forall set_ok ext -> Forall (op_ok c y) ops ->
  let which := fun wh => wh mod 4 in
  let all_sps := firstn 31 (sps :: given which 1 ops) in
  let all_pps := firstn 31 (pps :: given which 2 ops) in
  let all_ext := ext ++ given which 3 ops in
  (if is_high (i_prof s) then len all_ext < 256 else all_ext = []) ->
  1000000 + len (sets ext) + weights c y ops < 4294967296 ->
  let wh := last_size (320, 240) ops in
  let cfg := avc_config s length_size all_sps all_pps all_ext in
  exists b,
  drun c o oadd (add_vc c o) (avc_handle c y yo s length_size (vfix_new dri) [sps] [pps] ext []) ops = Ok b /\
  b = box (code "avc1") (vfix_bytes (sized (vfix_new dri) (fst wh) (snd wh)) ++ box (code "avcC") (l_body avcc_layout cfg) ++ kids_bytes (pcodec c) (playout y) (boxes_of ops)) /\
  get_avc c o b = Ok (dri, length_size, (len all_sps, len all_pps, len all_ext)) /\ nal_length c o b = Ok length_size /\
  (forall w i, i < 4294967296 -> get_vc_ps c o b w i =
     if w mod 4 =? 1 then kth_set all_sps i else if w mod 4 =? 2 then kth_set all_pps i else if w mod 4 =? 3 then kth_set all_ext i else Err MP4BadParamErr) /\
  get_dims (pcodec c) pdflt o b = Ok wh /\
  exists e, lasting (pcodec c) (playout y) o yo e /\ b = entry_bytes (pcodec c) (playout y) yo e.
Proof.
  intros X O c y o yo oadd F D FO s dri ls sps pps ext ops Hs Hd Hls Hsps Hpps Hext Hops which all_sps all_pps all_ext Hall Hw wh cfg.
  assert (St : avc_state c y s (vfix_new dri) [sps] [pps] ext [] (weights c y ops)).
  { split; [apply (vfix_new_ok dri 0 0); lia|]. split; [reflexivity|]. split; [reflexivity|]. split; [auto|]. split; [auto|].
    split; [destruct (is_high (i_prof s)); [split; [unfold all_ext in Hall; lens; lia|exact Hext]|apply (app_eq_nil _ _ Hall)]|]. split; [constructor|].
    unfold avc_body_len. unfold set_ok in *. unfold sets at 1 2. unfold set_bytes, kids_bytes. cbn [flat_map]. destruct (is_high (i_prof s)); lens; lia. }
  destruct (avc_run c y o yo oadd F D FO s ls Hs Hls ops (vfix_new dri) [sps] [pps] ext [] St Hops) as (room & G & E).
  { destruct (is_high (i_prof s)); [unfold all_ext in Hall; lens; exact Hall|apply (app_eq_nil _ _ Hall)]. }
  cbn [vfix_new v_w v_h app] in G, E. cbv zeta in G, E.
  change (firstn 31 (sps :: given (fun wh => wh mod 4) 1 ops)) with all_sps in G, E.
  change (firstn 31 (pps :: given (fun wh => wh mod 4) 2 ops)) with all_pps in G, E.
  change (ext ++ given (fun wh => wh mod 4) 3 ops) with all_ext in G, E.
  change (last_size (320, 240) ops) with wh in G, E.
  eexists. split; [exact E|]. pose proof (avc_state_ok c y s ls Hs Hls _ _ _ _ _ _ G) as V. fold cfg in V.
  unfold avc_handle. fold cfg.
  assert (C : ac_sps cfg = all_sps /\ ac_pps cfg = all_pps /\ ac_ext cfg = all_ext /\ ac_len cfg = ls) by (unfold cfg, avc_config; destruct (is_high (i_prof s)); repeat split).
  destruct C as (C1 & C2 & C3 & C4).
  assert (L1 : len all_sps < 32 /\ len all_pps < 32) by (destruct G as (_ & G2 & G3 & _); auto).
  split; [|split; [|split; [|split; [|split]]]].
  - unfold vis_bytes, entry_bytes. cbn [entry_type entry_body]. unfold kids_bytes at 1. cbn [flat_map]. reflexivity.
  - unfold get_avc. rewrite (vis_entry c y o yo F D FO _ _ _ _ _ V) by reflexivity. cbn [bind]. unfold cfg at 1. rewrite avc_found. cbn [bind]. fold cfg. rewrite C1, C2, C3, C4. reflexivity.
  - unfold nal_length. rewrite (vis_entry c y o yo F D FO _ _ _ _ _ V) by reflexivity. cbn [bind]. rewrite !ext_cons.
    unfold pcodec. cbn [csum c_ty avcc_codec hvcc_codec vvcc_codec vvnc_codec]. fold (pcodec c).
    change (T_avcC =? T_vvnC) with false. change (T_avcC =? T_hvcC) with false. rewrite N.eqb_refl. cbn iota.
    rewrite !(ext_none c y) by (try apply G; cbn [config_types In]; auto). rewrite C4. reflexivity.
  - intros w i Hi. unfold get_vc_ps. rewrite (vis_entry c y o yo F D FO _ _ _ _ _ V) by reflexivity. cbn [bind]. unfold cfg at 1. rewrite avc_found. cbn [bind]. fold cfg.
    unfold avcc_get. rewrite land3, C1, C2, C3.
    rewrite !set_at_is; try lia; [reflexivity|]. destruct (is_high (i_prof s)); [|rewrite Hall]; lens; lia.
  - rewrite (vis_dims c y o yo F D FO _ _ _ V). cbn [sized v_w v_h]. destruct wh; reflexivity.
  - eexists. split; [apply (vis_lasting c y o yo _ _ _ V)|reflexivity].
Qed.
Print Assumptions C62_avc_history.

Definition some_avc : avc_syntax := mkAvcS 100 0 30 0 1 false 0 0.
Definition avc_set := Eval vm_compute in pack (u 8 103 ++ avc_bits some_avc).
Lemma avc_set_is : exists more, bits_of avc_set = u 8 103 ++ avc_bits some_avc ++ more.
Proof. exists (skipn (length (u 8 103 ++ avc_bits some_avc)) (bits_of avc_set)). vm_compute. reflexivity. Qed.
Definition note_box {T} : atom T := AOpaque T (code "note") [] [1; 2; 3].
Definition avc_ops : list (dop (atom (avcc + (hvcc + (vvcc + (vvnc + Empty_set)))))) :=
  [SetSize 640 480; AddSet [104; 9] 2; AddBox note_box; AddSet [109; 7] 3; AddSet [1] 4; AddSet [103; 8; 8] 5].
Definition avc_b0 := Eval vm_compute in match new_avc no_codec no_codec true 1 4 (Some avc_set) (Some [104; 1]) None with Ok b => b | _ => [] end.
Definition avc_b := Eval vm_compute in match drun no_codec no_codec (fun z _ => z) (add_vc no_codec no_codec) avc_b0 avc_ops with Ok b => b | _ => [] end.
Lemma note_other : other_box no_codec no_layout note_box.
Proof.
  split; [vm_compute; repeat split; repeat constructor; discriminate|].
  cbn [note_box config_types In atype]. intros H. repeat (destruct H as [H|H]; [discriminate H|]). destruct H.
Qed.
Example C62_ex : avc_ok some_avc /\ Forall (op_ok no_codec no_layout) avc_ops /\ 1000000 + weights no_codec no_layout avc_ops < 4294967296 /\
  exists b0 b, new_avc no_codec no_codec true 1 4 (Some avc_set) (Some [104; 1]) None = Ok b0 /\
    drun no_codec no_codec (fun z _ => z) (add_vc no_codec no_codec) b0 avc_ops = Ok b /\
    get_avc no_codec no_codec b = Ok (1, 4, (2, 2, 1)) /\ get_vc_ps no_codec no_codec b 1 2 = Ok [103; 8; 8] /\
    get_vc_ps no_codec no_codec b 2 2 = Ok [104; 9] /\ get_vc_ps no_codec no_codec b 3 2 = Err MP4BadParamErr /\
    get_dims pc0 pdflt no_codec b = Ok (640, 480).
Proof.
  split; [repeat split; discriminate|]. split.
  { constructor; [split; reflexivity|]. constructor; [reflexivity|]. constructor; [exact note_other|]. constructor; [reflexivity|].
    constructor; [reflexivity|]. constructor; [reflexivity|]. constructor. }
  split; [vm_compute; reflexivity|]. exists avc_b0. exists avc_b. split; [vm_compute; reflexivity|]. split; [vm_compute; reflexivity|].
  split; [vm_compute; reflexivity|]. split; [vm_compute; reflexivity|]. split; [vm_compute; reflexivity|]. split; vm_compute; reflexivity.
Qed.
Definition avc_b31 := Eval vm_compute in match drun no_codec no_codec (fun z _ => z) (add_vc no_codec no_codec) avc_b0 (repeat (AddSet [104; 2] 2) 30) with Ok b => b | _ => [] end.
(* a 32nd set is refused *)
Example C62_full : exists b0 b, new_avc no_codec no_codec true 1 4 (Some avc_set) (Some [104; 1]) None = Ok b0 /\
  drun no_codec no_codec (fun z _ => z) (add_vc no_codec no_codec) b0 (repeat (AddSet [104; 2] 2) 30) = Ok b /\
  add_vc no_codec no_codec b [104; 3] 2 = Err MP4BadParamErr.
Proof.
  exists avc_b0, avc_b31. split; [vm_compute; reflexivity|]. split; vm_compute; reflexivity.
Qed.
(* without a picture parameter set the sequence parameter set is not stored *)
Theorem C62_without_pps_refuted : exists b, new_avc no_codec no_codec true 1 4 (Some avc_set) None None = Ok b /\
  get_vc_ps no_codec no_codec b 1 1 = Err MP4BadParamErr.
Proof. eexists. split; [vm_compute; reflexivity|]. vm_compute. reflexivity. Qed.
Print Assumptions C62_without_pps_refuted.
(* 4:4:4: the flag for separate planes is taken for the bit depth *)
Definition avc_444 : avc_syntax := mkAvcS 144 0 30 0 3 false 2 1.
Definition set_444 := Eval vm_compute in pack (u 8 103 ++ avc_bits avc_444).
Theorem C62_chroma_refuted : avc_ok avc_444 /\ (exists more, bits_of set_444 = u 8 103 ++ avc_bits avc_444 ++ more) /\
  exists b a, new_avc no_codec no_codec true 1 4 (Some set_444) (Some [104; 1]) None = Ok b /\
    b = box (code "avc1") (vfix_bytes (vfix_new 1) ++ box (code "avcC") (l_body avcc_layout a)) /\ ac_chroma a = 3 /\ ac_luma a <> i_luma avc_444.
Proof.
  split; [repeat split; discriminate|]. split; [exists (skipn (length (u 8 103 ++ avc_bits avc_444)) (bits_of set_444)); vm_compute; reflexivity|].
  eexists. exists (mkAvcc 144 0 30 true 4 [set_444] [[104; 1]] 3 5 0 []). split; [vm_compute; reflexivity|]. split; [vm_compute; reflexivity|]. split; [reflexivity|discriminate].
Qed.
Print Assumptions C62_chroma_refuted.
(* an extension given with another profile is lost *)
Definition avc_base : avc_syntax := mkAvcS 66 0 30 0 1 false 0 0.
Definition set_base := Eval vm_compute in pack (u 8 103 ++ avc_bits avc_base).
Theorem C62_extension_refuted : exists b, new_avc no_codec no_codec true 1 4 (Some set_base) (Some [104; 1]) (Some [109; 1]) = Ok b /\
  get_vc_ps no_codec no_codec b 1 1 = Ok set_base /\ get_vc_ps no_codec no_codec b 3 1 = Err MP4BadParamErr.
Proof. eexists. split; [vm_compute; reflexivity|]. split; vm_compute; reflexivity. Qed.
Print Assumptions C62_extension_refuted.
Definition avc_b256 := Eval vm_compute in match drun no_codec no_codec (fun z _ => z) (add_vc no_codec no_codec) avc_b0 (repeat (AddSet [109] 3) 256) with Ok b => b | _ => [] end.
(* of 256 extensions none is left *)
Theorem C62_many_extensions_refuted : exists b0 b, new_avc no_codec no_codec true 1 4 (Some avc_set) (Some [104; 1]) None = Ok b0 /\
  drun no_codec no_codec (fun z _ => z) (add_vc no_codec no_codec) b0 (repeat (AddSet [109] 3) 256) = Ok b /\
  get_avc no_codec no_codec b = Ok (1, 4, (1, 1, 0)).
Proof. exists avc_b0, avc_b256. split; [vm_compute; reflexivity|]. split; vm_compute; reflexivity. Qed.
Print Assumptions C62_many_extensions_refuted.
(* a size of the lengths that is not 1 to 4 is taken, and another one stored *)
Theorem C62_length_size_refuted : exists b, new_avc no_codec no_codec true 1 5 (Some avc_set) (Some [104; 1]) None = Ok b /\ nal_length no_codec no_codec b = Ok 1.
Proof. eexists. split; [vm_compute; reflexivity|]. vm_compute. reflexivity. Qed.
Print Assumptions C62_length_size_refuted.

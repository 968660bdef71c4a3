(* SmallProps.v -- boxes of a few fields: written and read back (C67), and read
   from any bytes (C68). *)
From Verif Require Import Base Codec BitLemmas AtomModel AtomSpec AtomProofs BoxModel BoxSpec BoxProofs Reads IndexProofs KidsModel KidsProofs
  TextModel TextSpec TextProofs TextProps EntryModel EntrySpec EntryProofs EntryProps SmallModel SmallSpec SmallProofs.

Definition survives {T} (c : codec T) (y : layout T) : Prop :=
  forall a, l_ok y a -> 8 + len (l_body y a) < 4294967296 -> round_trip c y a.
Lemma of_exact {T} (c : codec T) y : exact c y -> survives c y.
Proof. intros E a H L. apply exact_round_trip; assumption. Qed.
Lemma of_faithful {T} (c : codec T) y : faithful c y -> survives c y.
Proof. intros E a H L. apply faithful_round_trip; assumption. Qed.

(* ------------------------------------------------------------------ *)
(* C67: what was set is what a reader of the file gets                 *)

Theorem C67_codec_parameters :
  survives damr_codec damr_layout /\ survives dawp_codec dawp_layout /\
  forall T (c : codec T) y dflt, faithful c y -> survives (d263_codec c dflt) (d263_layout c y).
Proof. split; [apply of_exact, damr_exact|]. split; [apply of_exact, dawp_exact|]. intros T c y dflt F. apply of_faithful, d263_faithful, F. Qed.
Print Assumptions C67_codec_parameters.
Theorem C67_protection :
  survives isfm_codec isfm_layout /\ survives islt_codec islt_layout /\ survives ikms_codec ikms_layout /\ survives csch_codec csch_layout.
Proof. split; [apply of_exact, isfm_exact|]. split; [apply of_exact, islt_exact|]. split; [apply of_exact, ikms_exact|apply of_exact, csch_exact]. Qed.
Print Assumptions C67_protection.
Theorem C67_types :
  survives (typed_codec (code "ttyp")) (typed_layout (code "ttyp")) /\ survives (typed_codec (code "styp")) (typed_layout (code "styp")).
Proof. split; apply of_exact, typed_exact; auto. Qed.
Print Assumptions C67_types.
Theorem C67_containers :
  forall T (c : codec T) y dflt, faithful c y ->
  survives (trep_codec c dflt) (trep_layout c y) /\ survives (meco_codec c dflt) (meco_layout c y) /\ survives (ludt_codec c dflt) (ludt_layout c y).
Proof.
  intros T c y dflt F. split; [apply of_faithful, trep_faithful, F|]. split; [apply of_faithful, meco_faithful, F|apply of_faithful, ludt_faithful, F].
Qed.
Print Assumptions C67_containers.
Theorem C67_video :
  survives ster_codec ster_layout /\ (forall T (c : codec T), survives (stvi_codec c) stvi_layout) /\ survives stdp_codec stdp_layout /\
  survives colr_codec colr_layout.
Proof.
  split; [apply of_exact, ster_exact|]. split; [intros T c; apply of_exact, stvi_exact|]. split; [apply of_exact, stdp_exact|apply of_exact, colr_exact].
Qed.
Print Assumptions C67_video.
Theorem C67_audio :
  survives lou_codec lou_layout /\ survives chnl_codec chnl_layout /\ survives dmix_codec dmix_layout.
Proof. split; [apply of_exact, lou_exact|]. split; [apply of_faithful, chnl_faithful|apply of_faithful, dmix_faithful]. Qed.
Print Assumptions C67_audio.

(* The type of a track or a segment after any history of setting the brand and
   adding compatible brands, written and read back. *)
Definition brand_ok (o : bop) : Prop := named o <> 0 /\ named o < 4294967296 /\ match o with BSet _ m => m < 4294967296 | BAdd _ => True end.
Lemma brand_now_ok os : forall p, Forall brand_ok os -> fst p < 4294967296 -> snd p < 4294967296 ->
  fst (brand_now p os) < 4294967296 /\ snd (brand_now p os) < 4294967296.
Proof.
  induction os as [|o os IH]; intros p H H1 H2; [split; assumption|]. inversion_clear H as [|? ? (_ & Ho & Hm) Hos].
  destruct o as [b m|b]; cbn [brand_now fold_left named] in *; apply IH; cbn [fst snd]; assumption.
Qed.
Theorem C67_type_history :
  forall ty os, ty = code "ttyp" \/ ty = code "styp" -> os <> [] -> Forall brand_ok os -> 20 + 4 * len (brands os) < 4294967296 ->
  let a := mkTyped 0 0 (fold_left brand_step os ftyp_new) in
  ty_brands a = mkFtyp (fst (brand_now (0, 0) os)) (snd (brand_now (0, 0) os)) (brands os) /\
  round_trip (typed_codec ty) (typed_layout ty) a /\ l_view (typed_layout ty) a = a.
Proof.
  intros ty os D Hne H L a. assert (Hn : Forall (fun o => named o <> 0) os) by (revert H; apply Forall_impl; intros o Ho; apply Ho).
  destruct (C53_brands os Hn) as (B1 & B2 & _ & B4 & _).
  assert (E : ty_brands a = mkFtyp (fst (brand_now (0, 0) os)) (snd (brand_now (0, 0) os)) (brands os)).
  { cbn [a ty_brands]. rewrite <- B1, <- B2. destruct (fold_left brand_step os ftyp_new); reflexivity. }
  split; [exact E|]. split; [|reflexivity].
  assert (Lb : len (flat_map be32 (brands os)) = 4 * len (brands os)) by (apply (len_flat_map_const be32 4); intros; apply len_be32).
  apply exact_round_trip; [apply typed_exact, D| |].
  - split; [split; reflexivity|]. rewrite E. cbn [ftyp_layout l_ok ft_brand ft_minor ft_list].
    destruct (brand_now_ok os (0, 0) H eq_refl eq_refl) as [P1 P2]. split; [exact P1|]. split; [exact P2|]. split.
    + apply Forall_forall. intros b Ib. apply B4 in Ib. apply in_map_iff in Ib. destruct Ib as (o & <- & Io). rewrite Forall_forall in H. apply (H o Io).
    + destruct os as [|o os]; [congruence|]. intros C. assert (Ib : In (named o) (brands (o :: os))) by (apply B4; left; reflexivity). rewrite C in Ib. destruct Ib.
  - cbn [typed_layout l_body]. rewrite E. cbn [ftyp_layout l_body ft_brand ft_minor ft_list]. lens. rewrite Lb. lia.
Qed.
Print Assumptions C67_type_history.
(* Properties of a track: asked for a type, the first box added of that type. *)
Theorem C67_extension_history :
  forall T (c : codec T) xs a ty out,
  trep_get c (fold_left trep_add xs a) ty out =
    match find (fun x => atype T (c_ty c) x =? ty) (tp_kids a ++ xs) with Some x => Some x | None => out end.
Proof.
  intros T c xs. induction xs as [|x xs IH]; intros a ty out; cbn [fold_left]; [rewrite app_nil_r; reflexivity|].
  rewrite IH. cbn [trep_add tp_kids]. rewrite <- app_assoc. reflexivity.
Qed.
Print Assumptions C67_extension_history.
(* Metadata added to a container with none is kept; any second one is refused. *)
Theorem C67_meta_container :
  forall T (c : codec T) (a : meco T) m, of_type c (code "meta") (mc_metas a) -> atype T (c_ty c) m = code "meta" ->
  meco_add c a m = if match mc_metas a with [] => true | _ => false end then Ok (mkMeco [m] (mc_rels a)) else Err MP4BadParamErr.
Proof.
  intros T c [l r] m Hl Hm. cbn [mc_metas mc_rels] in *. unfold meco_add. cbn [mc_metas mc_rels]. destruct l as [|x l]; [reflexivity|].
  cbn [existsb]. inversion_clear Hl as [|? ? Hx _]. rewrite Hx, Hm, N.eqb_refl. reflexivity.
Qed.
Print Assumptions C67_meta_container.

(* ------------------------------------------------------------------ *)
(* C67: what does not survive                                          *)

Ltac open_box := rewrite read_box_is; [|plain|reflexivity|].
Lemma put_box {T} (c : codec T) t body : c_size c t = 8 + len body -> 8 + len body < 4294967296 -> writes (c_w c t) body ->
  write_box c t = Ok (box (c_ty c t) body).
Proof.
  intros Hs L W. unfold write_box. cbn [awrite]. rewrite Hs. apply writes_run; [|unfold box; lens; lia|lia].
  unfold box. rewrite app_assoc. apply writes_seq; [apply writes_base; lia|exact W].
Qed.

(* The JPEG 2000 boxes are written as the numbers are in memory and read as
   the standard has them: the signature box is not one, and numbers come back
   with their bytes in the other order. *)
Theorem C67_signature_refuted :
  (forall s rest dflt, s < 4294967296 ->
     write_box jp_codec s = Ok (box (code "jP  ") (rev (be32 s))) /\
     read_box jp_codec dflt (box (code "jP  ") (rev (be32 s)) ++ rest) = Ok ((ALeaf _ (turned32 s), 12), rest)) /\
  write_box jp_codec jp_new = Ok ([0; 0; 0; 12] ++ [106; 80; 32; 32] ++ [10; 135; 10; 13]).
Proof.
  split; [|vm_compute; reflexivity]. intros s rest dflt H. split.
  - apply (put_box jp_codec s (rev (be32 s))); [reflexivity|reflexivity|]. apply writes_putl.
  - open_box; [|reflexivity]. cbn [jp_codec c_rd]. rewrite (proj1 (parses_le32 8 s)). cbn [inp].
    match goal with |- context [skip_tail ?k _] => replace k with 0 by (unfold box; lens; lia) end. unfold skip_tail. rewrite N.min_0_l. reflexivity.
Qed.
Print Assumptions C67_signature_refuted.
Theorem C67_image_header_refuted :
  forall a rest dflt, ihdr_ok a ->
  exists bs, write_box ihdr_codec a = Ok bs /\
  read_box ihdr_codec dflt (bs ++ rest) =
    Ok ((ALeaf _ (mkIhdr (turned32 (ih_height a)) (turned32 (ih_width a)) (turned16 (ih_comps a)) (ih_bpc a) (ih_ctype a) (ih_csunk a) (ih_ip a)), len bs), rest) /\
  (* while a box as the standard has it is read as it is *)
  read_box ihdr_codec dflt (box (code "ihdr") (ihdr_body a) ++ rest) = Ok ((ALeaf _ a, 22), rest).
Proof.
  intros [h w n b c u i] rest dflt (H1 & H2 & H3 & H4 & H5 & H6 & H7). cbn [ih_height ih_width ih_comps ih_bpc ih_ctype ih_csunk ih_ip] in *.
  exists (box (code "ihdr") (le32 h ++ le32 w ++ le16 n ++ be8 b ++ be8 c ++ be8 u ++ be8 i)). split; [|split].
  - apply (put_box ihdr_codec (mkIhdr h w n b c u i) (le32 h ++ le32 w ++ le16 n ++ be8 b ++ be8 c ++ be8 u ++ be8 i)); [reflexivity|reflexivity|].
    cbn [ihdr_codec c_w]. unfold ihdr_w. cbn [ih_height ih_width ih_comps ih_bpc ih_ctype ih_csunk ih_ip]. repeat (apply writes_seq; [wstep|]). wstep.
  - open_box; [|reflexivity]. cbn [ihdr_codec c_rd].
    assert (P : forall k, parses k (ihdr_rd (mkH 22 0 (code "ihdr") [] 8)) (le32 h ++ le32 w ++ le16 n ++ be8 b ++ be8 c ++ be8 u ++ be8 i) (mkIhdr (turned32 h) (turned32 w) (turned16 n) b c u i)).
    { intros k. unfold ihdr_rd. pnext; [apply parses_le32|]. pnext; [apply parses_le32|]. pnext; [apply parses_le16|]. repeat pauto. }
    unfold ihdr_rd in *. rewrite (proj1 (P 8)). cbn [inp]. match goal with |- context [skip_tail ?k _] => replace k with 0 by (unfold box; rewrite !len_app; change (len (le32 h)) with 4; change (len (le32 w)) with 4; change (len (le16 n)) with 2; lens; lia) end.
    unfold skip_tail. rewrite N.min_0_l. reflexivity.
  - open_box; [|reflexivity]. cbn [ihdr_codec c_rd].
    assert (P : forall k, parses k (ihdr_rd (mkH 22 0 (code "ihdr") [] 8)) (ihdr_body (mkIhdr h w n b c u i)) (mkIhdr h w n b c u i)).
    { intros k. unfold ihdr_rd, ihdr_body. cbn [ih_height ih_width ih_comps ih_bpc ih_ctype ih_csunk ih_ip]. repeat pauto. }
    unfold ihdr_rd in *. rewrite (proj1 (P 8)). cbn [inp]. match goal with |- context [skip_tail ?k _] => replace k with 0 by (unfold box, ihdr_body; lens; lia) end.
    unfold skip_tail. rewrite N.min_0_l. reflexivity.
Qed.
Print Assumptions C67_image_header_refuted.
(* A box of bit depths is written, and no such box can be read. *)
Lemma wide_ub {B} (k : list N -> rd B) l r n : l <> [] -> bytes l -> rbind (get_bytes_wide (len l)) k (mkR (l ++ r) n) = UB.
Proof.
  intros Hne Hb. unfold get_bytes_wide. destruct (N.eqb_spec (len l) 0) as [E|E]; [destruct l; [congruence|rewrite len_cons in E; lia]|].
  assert (Hx : exists p q, l = p ++ q /\ length p = N.to_nat (N.max 1 (len l - 2))).
  { exists (firstn (N.to_nat (N.max 1 (len l - 2))) l), (skipn (N.to_nat (N.max 1 (len l - 2))) l). split; [symmetry; apply firstn_skipn|].
    rewrite firstn_length. unfold len in *. lia. }
  destruct Hx as (p & q & -> & Hp). rewrite <- Hp, <- app_assoc. unfold rbind at 1 2. rewrite (proj1 (parses_take_eq n (length p) p eq_refl)). reflexivity.
Qed.
Theorem C67_bit_depths_refuted :
  forall l rest dflt, l <> [] -> bytes l -> 8 + len l < 4294967296 ->
  write_box bpcc_codec l = Ok (box (code "bpcc") l) /\ read_box bpcc_codec dflt (box (code "bpcc") l ++ rest) = UB.
Proof.
  intros l rest dflt Hne Hb L. split.
  - apply (put_box bpcc_codec l l); [cbn [bpcc_codec c_size]; rewrite w32_small; lia|exact L|]. cbn [bpcc_codec c_w].
    replace l with (flat_map be8 l) at 2; [apply writes_map; intros; wstep|].
    clear -Hb. induction Hb as [|b l Hb _ IH]; [reflexivity|]. cbn [flat_map app be8]. rewrite IH, N.mod_small by exact Hb. reflexivity.
  - open_box; [|exact L]. cbn [bpcc_codec c_rd]. unfold rbind at 1, getrdn at 1. cbn [rdn h_size]. rewrite (sub32_from _ (len l) eq_refl) by lia.
    destruct (N.eqb_spec (len l) 0) as [E|E]; [destruct l; [congruence|rewrite len_cons in E; lia]|].
    pose proof (wide_ub rret l rest 8 Hne Hb) as W. unfold rbind, rret in W. destruct (get_bytes_wide (len l) (mkR (l ++ rest) 8)) as [[x s]|e|]; [discriminate W|discriminate W|reflexivity].
Qed.
Print Assumptions C67_bit_depths_refuted.
(* Colour specified by another method than a number or a profile is lost, as
   that of every MPEG file ('nclx') is. *)
Theorem C67_colour_refuted :
  forall m p x b rest dflt, m <> 1 -> m <> 2 -> m < 256 -> p < 256 -> x < 256 -> 11 + len b < 4294967296 ->
  read_box colr_codec dflt (box (code "colr") (be8 m ++ be8 p ++ be8 x ++ b) ++ rest) = Ok ((ALeaf _ (mkColr m p x 0 []), 11 + len b), rest) /\
  write_box colr_codec (mkColr m p x 0 []) = Ok (box (code "colr") (be8 m ++ be8 p ++ be8 x)).
Proof.
  intros m p x b rest dflt D1 D2 H1 H2 H3 L. assert (E1 : m =? 1 = false) by (apply N.eqb_neq, D1). assert (E2 : m =? 2 = false) by (apply N.eqb_neq, D2). split.
  - open_box; [|lens; lia]. cbn [colr_codec c_rd]. unfold colr_rd. rewrite <- !app_assoc.
    do 3 (erewrite (parses_then _ get8); [|apply parses_get8; assumption]). rewrite E1, E2. unfold rret. cbn [inp].
    lens. match goal with |- context [skip_tail ?k _] => replace k with (len b) by (unfold box; lens; lia) end.
    unfold skip_tail. rewrite N.min_l by (lens; lia). rewrite (take_len _ b eq_refl), skipn_app, skipn_all, Nat.sub_diag. cbn [skipn app]. f_equal. f_equal. f_equal. lia.
  - apply (put_box colr_codec (mkColr m p x 0 []) (be8 m ++ be8 p ++ be8 x)); [|reflexivity|].
    + cbn [colr_codec c_size]. unfold colr_size. cbn [co_method]. rewrite E1, E2. reflexivity.
    + cbn [colr_codec c_w]. unfold colr_w. cbn [co_method co_prec co_approx]. rewrite E1, E2. rewrite <- (app_nil_r (be8 x)). repeat (apply writes_seq; [wstep|]). apply writes_ret.
Qed.
Print Assumptions C67_colour_refuted.

(* Stereo video with indications of its scheme is written but not read, and
   boxes in it are not in its size. *)
Theorem C67_stereo_refuted :
  (forall T (c : codec T) (a : stvi T) rest dflt, full_ok (st_ver a) (st_flags a) -> st_reserved a < 16384 -> st_single a < 4 -> st_scheme a < 4294967296 ->
     st_ind a <> [] -> bytes (st_ind a) -> st_kids a = [] -> 24 + len (st_ind a) < 4294967296 ->
     exists bs, write_box (stvi_codec c) a = Ok bs /\ read_box (stvi_codec c) dflt (bs ++ rest) = UB) /\
  (forall x, write_box (stvi_codec no_codec) (mkStvi 0 0 0 1 1 [] [AOpaque _ (code "abcd") [] [x]]) = Err MP4IOErr).
Proof.
  split.
  - intros T c [v f rs sg sc i k] rest dflt Hf H1 H2 H3 H4 H5 Ek L. cbn [st_ver st_flags st_reserved st_single st_scheme st_ind st_kids] in *. subst k.
    exists (box (code "stvi") (full v f ++ be32 (rs * 4 + sg) ++ be32 sc ++ be32 (len i) ++ i)). split.
    + apply (put_box (stvi_codec c) (mkStvi v f rs sg sc i []) (full v f ++ be32 (rs * 4 + sg) ++ be32 sc ++ be32 (len i) ++ i)).
      * cbn [stvi_codec c_size]. unfold stvi_size. cbn [st_ind]. lens. rewrite w32_small; lia.
      * lens. lia.
      * cbn [stvi_codec c_w]. unfold stvi_w. cbn [st_ver st_flags st_reserved st_single st_scheme st_ind st_kids]. rewrite w32_small by lia.
        apply writes_full_seq. repeat (apply writes_seq; [wstep|]). rewrite <- (app_nil_r i) at 2. apply writes_seq; [apply writes_putl|apply writes_ret].
    + open_box; [|lens; lia]. cbn [stvi_codec c_rd]. unfold stvi_rd. rewrite <- !app_assoc.
      rewrite (parses_then _ _ _ _ _ _ (parses_full _ _ _ Hf)). do 3 (erewrite (parses_then _ get32); [|apply parses_get32; lia]).
      rewrite wide_ub by assumption. reflexivity.
  - intros x. vm_compute. reflexivity.
Qed.
Print Assumptions C67_stereo_refuted.
(* Loudness with measurements is written as it should be, and not read. *)
Theorem C67_loudness_refuted :
  forall a rest dflt, lou_fields a -> lo_meas a <> [] ->
  write_box lou_codec a = Ok (box (lo_ty a) (lou_body a)) /\ read_box lou_codec dflt (box (lo_ty a) (lou_body a) ++ rest) = UB.
Proof.
  intros a rest dflt H Hne. pose proof H as H'. destruct H' as (D & Hf & H1 & H2 & H3 & H4 & H5 & H6 & H7 & H8 & H9).
  assert (Lm : len (flat_map (fun m => be8 (me_def m) ++ be8 (me_val m) ++ be8 (w8 (me_sys m * 16 + me_rel m))) (lo_meas a)) = 3 * len (lo_meas a)) by (apply len_flat_map_const; reflexivity).
  assert (Lb : len (lou_body a) = 11 + 3 * len (lo_meas a)) by (rewrite (lou_bytes a H); lens; rewrite Lm; lia).
  split.
  - apply (put_box lou_codec a (lou_body a)); [|lia|apply lou_writes, H]. cbn [lou_codec c_size]. unfold lou_size. rewrite w32_small; lia.
  - rewrite read_box_is; [|destruct D as [-> | ->]; plain|destruct D as [-> | ->]; reflexivity|lia]. cbn [lou_codec c_rd]. unfold lou_rd. rewrite (lou_bytes a H), <- !app_assoc.
    rewrite (parses_then _ _ _ _ _ _ (parses_full _ _ _ Hf)).
    destruct (u12_bits _ H4) as (E1 & P1 & _). destruct (u12_bits _ H5) as (E2 & P2 & _). rewrite E1, E2.
    do 7 (erewrite (parses_then _ get8); [|apply parses_get8; unfold w8; lia]).
    destruct (lo_meas a) as [|m l] eqn:Em; [congruence|]. destruct (N.eqb_spec (len (m :: l)) 0) as [E|_]; [rewrite len_cons in E; lia|].
    cbn [flat_map]. rewrite <- !app_assoc. unfold be8 at 1 2. cbn [app]. reflexivity.
Qed.
Print Assumptions C67_loudness_refuted.
(* A speaker given by its angles is written but not read; positions of version
   0 are gone when what was read is saved; with objects beside them the box is
   not read. *)
Theorem C67_channels_refuted :
  (forall f co az el la rest dflt, f < 16777216 -> az < 65536 -> el < 256 ->
     exists bs, write_box chnl_codec (mkChnl 1 f co 1 0 [mkSpk 126 az el] 0 0 0 la 1 0 0) = Ok bs /\ read_box chnl_codec dflt (bs ++ rest) = UB) /\
  (forall f sp, f < 16777216 -> Forall numbered sp ->
     write_box chnl_codec (chnl_view (mkChnl 0 f (len sp) 1 0 sp 0 0 0 0 0 0 0)) = Ok (box (code "chnl") (full 0 f ++ be8 1 ++ be8 0))) /\
  (forall dflt, exists bs, write_box chnl_codec (mkChnl 0 0 2 3 0 [mkSpk 0 0 0; mkSpk 1 0 0] 0 5 0 0 0 0 0) = Ok bs /\ read_box chnl_codec dflt bs = Err MP4IOErr).
Proof.
  split; [|split].
  - intros f co az el la rest dflt Hf Ha He. exists (box (code "chnl") (full 1 f ++ be8 16 ++ be8 la ++ be8 0 ++ be8 1 ++ be8 126 ++ be16 az ++ be8 el)). split.
    + apply (put_box chnl_codec (mkChnl 1 f co 1 0 [mkSpk 126 az el] 0 0 0 la 1 0 0) (full 1 f ++ be8 16 ++ be8 la ++ be8 0 ++ be8 1 ++ be8 126 ++ be16 az ++ be8 el)); [reflexivity|reflexivity|].
      change (c_w chnl_codec (mkChnl 1 f co 1 0 [mkSpk 126 az el] 0 0 0 la 1 0 0)) with
        (put8 1 ;; put24 f ;; put8 16 ;; put8 la ;; put8 0 ;; put8 1 ;; (put8 126 ;; put16 az ;; put8 el) ;; wret).
      apply writes_full_seq. repeat (apply writes_seq; [wstep|]).
      replace (be8 126 ++ be16 az ++ be8 el) with ((be8 126 ++ be16 az ++ be8 el) ++ []) by apply app_nil_r.
      apply writes_seq; [repeat (apply writes_seq; [wstep|]); wstep|apply writes_ret].
    + open_box; [|reflexivity]. cbn [chnl_codec c_rd]. unfold chnl_rd. rewrite <- !app_assoc.
      rewrite (parses_then _ _ _ _ _ _ (parses_full 8 1 f (conj eq_refl Hf))). cbn [fst snd]. change (1 =? 0) with false. cbn match.
      erewrite (parses_then _ get8); [|apply parses_get8; reflexivity]. reflexivity.
  - intros f sp Hf Hn. apply (put_box chnl_codec (mkChnl 0 f 0 1 0 sp 0 0 0 0 0 0 0) (full 0 f ++ be8 1 ++ be8 0)); [reflexivity|reflexivity|].
    cbn [chnl_codec c_w]. unfold chnl_w. cbn [ch_ver ch_flags ch_struct ch_layout ch_count ch_spk]. change (0 =? 0) with true. change (has_channels 1) with true. change (has_objects 1) with false. cbn match.
    apply writes_full_seq, writes_seq; [wstep|]. rewrite <- (app_nil_r (be8 0)). apply writes_seq; [|apply writes_ret]. rewrite <- (app_nil_r (be8 0)). apply writes_seq; [wstep|].
    unfold spks_w. destruct (N.ltb_spec (len sp) 0); [lia|]. apply writes_ret.
  - intros dflt. eexists. split; [vm_compute; reflexivity|]. vm_compute. reflexivity.
Qed.
Print Assumptions C67_channels_refuted.
(* Saving a downmix box that was read drops its coefficients. *)
Theorem C67_downmix_refuted :
  forall a, l_ok dmix_layout a ->
  write_box dmix_codec (l_view dmix_layout a) =
    Ok (box (code "dmix") (full (dm_ver a) (dm_flags a) ++ be8 (dm_layout a) ++ be8 (dm_reserved a * 128 + dm_count a) ++ be8 (dm_stream a * 128 + dm_id a))).
Proof.
  intros [v f ba la rs co st id cf] (Hf & H1 & H2 & H3 & H4 & H5 & _). cbn [dmix_layout l_view dm_ver dm_flags dm_base dm_layout dm_reserved dm_count dm_stream dm_id dm_coef] in *.
  match goal with |- write_box _ ?t = Ok (box _ ?b) => apply (put_box dmix_codec t b) end.
  - cbn [dmix_codec c_size]. unfold dmix_size, dmix_n. cbn [dm_stream dm_base dm_count]. rewrite N.mul_0_l. destruct (st =? 0); reflexivity.
  - reflexivity.
  - cbn [dmix_codec c_w]. unfold dmix_w, dmix_n. cbn [dm_ver dm_flags dm_base dm_layout dm_reserved dm_count dm_stream dm_id dm_coef].
    unfold w8. rewrite (N.mod_small (rs * 128 + co) 256), (N.mod_small (st * 128 + id) 256) by lia.
    apply writes_full_seq. apply writes_seq; [wstep|]. apply writes_seq; [wstep|]. rewrite <- (app_nil_r (be8 (st * 128 + id))). apply writes_seq; [wstep|].
    rewrite N.mul_0_l. destruct (st =? 0); [|apply writes_ret]. match goal with |- writes (if ?b then _ else _) _ => destruct b eqn:E end; [apply N.ltb_lt in E; lia|]. apply writes_ret.
Qed.
Print Assumptions C67_downmix_refuted.

(* A segment type box of the standard has no version and flags: its brand is
   taken for them, and everything is moved by one place. *)
Theorem C67_segment_type_refuted :
  forall b m x y l rest dflt, b < 4294967296 -> m < 4294967296 -> Forall (fun z => z < 4294967296) (x :: y :: l) -> 24 + 4 * len l < 4294967296 ->
  read_box (typed_codec (code "styp")) dflt (box (code "styp") (l_body ftyp_layout (mkFtyp b m (x :: y :: l))) ++ rest) =
    Ok ((ALeaf _ (mkTyped (b / 16777216) (b mod 16777216) (mkFtyp m x (y :: l))), 24 + 4 * len l), rest).
Proof.
  intros b m x y l rest dflt Hb Hm Hl L.
  assert (Lb : len (flat_map be32 l) = 4 * len l) by (apply (len_flat_map_const be32 4); intros; apply len_be32).
  set (a := mkTyped (b / 16777216) (b mod 16777216) (mkFtyp m x (y :: l))).
  assert (E : l_body ftyp_layout (mkFtyp b m (x :: y :: l)) = l_body (typed_layout (code "styp")) a).
  { cbn [ftyp_layout typed_layout l_body ft_brand ft_minor ft_list a ty_ver ty_flags ty_brands flat_map]. 
    assert (F : be32 b = full (b / 16777216) (b mod 16777216)) by (unfold full, be32, be8, be24; cbn [app]; replace (b mod 16777216 / 65536 mod 256) with (b / 65536 mod 256) by lia; replace (b mod 16777216 / 256 mod 256) with (b / 256 mod 256) by lia; replace (b mod 16777216 mod 256) with (b mod 256) by lia; reflexivity). rewrite F. reflexivity. }
  inversion_clear Hl as [|? ? Hx Hl']. assert (Ok : l_ok (typed_layout (code "styp")) a).
  { split; [split; cbn [a ty_ver ty_flags]; lia|]. cbn [a ty_brands ftyp_layout l_ok ft_brand ft_minor ft_list]. repeat split; try assumption. discriminate. }
  assert (Lx : 8 + len (l_body (typed_layout (code "styp")) a) = 24 + 4 * len l) by (rewrite <- E; cbn [ftyp_layout l_body ft_brand ft_minor ft_list flat_map]; lens; rewrite Lb; lia).
  destruct (proj2 C67_types a Ok ltac:(lia)) as (_ & _ & R & _). rewrite E. cbn zeta in R. specialize (R dflt rest).
  cbn [typed_layout l_ty l_view] in R. rewrite R. f_equal. f_equal. f_equal. rewrite <- Lx. unfold box. rewrite !len_app, !len_be32. lia.
Qed.
Print Assumptions C67_segment_type_refuted.
(* A new box of a compatible scheme is an schm box. *)
Theorem C67_new_compatible_scheme_refuted :
  forall ty ve, ty < 4294967296 -> ve < 4294967296 ->
  write_box csch_codec (csch_new ty ve None) = Ok (box (code "schm") (full 0 0 ++ be32 ty ++ be32 ve)).
Proof.
  intros ty ve H1 H2. apply (put_box csch_codec (csch_new ty ve None) (full 0 0 ++ be32 ty ++ be32 ve)); [reflexivity|reflexivity|].
  change (c_w csch_codec (csch_new ty ve None)) with (put8 0 ;; put24 0 ;; put32 ty ;; put32 ve ;; wret).
  apply writes_full_seq. rewrite <- (app_nil_r (be32 ve)). repeat (apply writes_seq; [wstep|]). apply writes_ret.
Qed.
Print Assumptions C67_new_compatible_scheme_refuted.
(* The address of a key server without its end is read, and breaks saving. *)
Theorem C67_key_server_refuted :
  forall s rest dflt, s <> [] -> text s -> 13 + len s < 4294967296 ->
  read_box ikms_codec dflt (box (code "iKMS") (full 0 0 ++ s) ++ rest) = Ok ((ALeaf _ (mkIkms 0 0 (Some s)), 12 + len s), rest) /\
  write_box ikms_codec (mkIkms 0 0 (Some s)) = UB.
Proof.
  intros s rest dflt Hne Hs L. split.
  - open_box; [|lens; lia]. cbn [ikms_codec c_rd]. unfold ikms_rd. rewrite <- app_assoc.
    rewrite (parses_then _ _ _ _ _ _ (parses_full 8 0 0 (conj eq_refl eq_refl))). cbn [fst snd]. unfold rbind at 1, getrdn at 1. cbn [rdn h_size]. rewrite len_app, len_full.
    change (w32 (8 + 4)) with 12. replace (8 + (4 + len s)) with (12 + len s) by lia. rewrite (sub32_from _ (len s) eq_refl) by lia.
    destruct (N.eqb_spec (len s) 0) as [E|_]; [destruct s; [congruence|rewrite len_cons in E; lia]|].
    erewrite (parses_then _ (take _)); [|apply parses_take_eq, take_len; reflexivity]. unfold rret. cbn [inp].
    match goal with |- context [skip_tail ?k _] => replace k with 0 by (unfold box; lens; lia) end. unfold skip_tail. rewrite N.min_0_l. reflexivity.
  - assert (Z : terminated s = false).
    { unfold terminated. apply not_true_is_false. intros C. apply existsb_exists in C. destruct C as (z & Iz & Ez). unfold text in Hs. rewrite Forall_forall in Hs. specialize (Hs z Iz). apply N.eqb_eq in Ez. lia. }
    assert (Ls : slen s = len s). { clear -Hs. unfold slen. f_equal. induction Hs as [|z l Hz _ IH]; [reflexivity|]. cbn [chars]. destruct (N.eqb_spec z 0); [lia|]. rewrite IH. reflexivity. }
    unfold write_box. cbn [awrite ikms_codec c_size c_w c_ty]. unfold ikms_size. cbn [km_url]. rewrite Ls. unfold wrun.
    assert (W : forall a bs b st, writes a bs -> len (wout st) + len bs <= wsz st -> wsz st < 4294967296 -> (a ;; b) st = b (mkW (wout st ++ bs) (wsz st))).
    { intros a bs b st Ha G1 G2. unfold wseq. rewrite (Ha st G1 G2). reflexivity. }
    assert (Lz : 0 < len s) by (destruct s; [congruence|lens; lia]).
    rewrite w32_small by lia. set (sz := 12 + 1 + len s). unfold ikms_w. cbn [km_ver km_flags km_url].
    rewrite (W _ (be32 sz ++ be32 T_iKMS)); [|apply writes_base; unfold sz; lia|cbn [wout wsz]; unfold sz; lens; lia|cbn [wsz]; unfold sz; lia]. cbn [wout wsz app].
    rewrite (W _ (be8 0)); [|wstep|cbn [wout wsz]; unfold sz; lens; lia|cbn [wsz]; unfold sz; lia]. cbn [wout wsz].
    rewrite (W _ (be24 0)); [|wstep|cbn [wout wsz]; unfold sz; lens; lia|cbn [wsz]; unfold sz; lia]. cbn [wout wsz].
    unfold put_str. rewrite Z. reflexivity.
Qed.
Print Assumptions C67_key_server_refuted.

(* ------------------------------------------------------------------ *)
(* Concrete cases                                                      *)

Definition ex_box : atom Empty_set := AOpaque _ (code "abcd") [] [1; 2; 3].
Definition ex_meta : atom Empty_set := AOpaque _ (code "meta") [] [0; 0; 0; 0].
Definition ex_rel : atom Empty_set := AOpaque _ (code "mere") [] [7].
Definition ex_lou (l : list meas) : lou := mkLou (code "tlou") 0 0 0 5 9 (-2048) 2047 3 4 l.
Definition ex_chnl : chnl := mkChnl 0 0 2 1 0 [mkSpk 0 0 0; mkSpk 1 0 0] 0 0 0 0 0 0 0.
Definition ex_chnl1 : chnl := mkChnl 1 0 0 3 5 [] 3 0 2 6 0 1 1.
Definition ex_dmix : dmix := mkDmix 0 0 3 2 0 1 0 7 [1; 2; 3].
Ltac num := repeat split; try reflexivity; try discriminate; try (vm_compute; reflexivity).
Example C67_case :
  l_ok damr_layout (mkDamr (code "abcd") 1 33279 0 1) /\ l_ok dawp_layout (mkDawp 9 1) /\ 
  l_ok (d263_layout no_codec no_layout) (mkD263 (code "abcd") 1 10 0 [ex_box]) /\ 
  l_ok isfm_layout (mkIsfm 0 0 128 8 4) /\ l_ok islt_layout 81985529216486895 /\ 
  l_ok ikms_layout (mkIkms 0 0 (Some (http ++ [0]))) /\ l_ok ikms_layout (mkIkms 0 0 None) /\ 
  l_ok csch_layout (mkCsch (code "csch") (mkSchm 0 1 1768776001 1 (Some (http ++ [0])))) /\ 
  l_ok (typed_layout (code "styp")) (mkTyped 0 0 (mkFtyp 7 2 [1; 5])) /\ 
  l_ok (trep_layout no_codec no_layout) (mkTrep 0 0 3 [ex_box; ex_box]) /\ 
  l_ok (meco_layout no_codec no_layout) (mkMeco [ex_meta] [ex_rel; ex_rel]) /\ 
  l_ok ster_layout (mkSter 0 0 1 1) /\ l_ok (@stvi_layout Empty_set) (mkStvi 0 0 0 1 3 [] []) /\ l_ok stdp_layout (mkStdp 0 0 [1; 65535; 0]) /\ 
  l_ok colr_layout (mkColr 1 0 0 16 []) /\ l_ok colr_layout (mkColr 2 0 0 0 [1; 2; 3]) /\ 
  l_ok lou_layout (ex_lou []) /\ lou_fields (ex_lou [mkMeas 1 200 3 15]) /\ l_ok (ludt_layout lou_codec lou_layout) (mkLudt [ALeaf _ (ex_lou [])] []) /\ 
  l_ok chnl_layout ex_chnl /\ l_ok chnl_layout ex_chnl1 /\ l_ok dmix_layout ex_dmix.
Proof.
  assert (H : text http) by (unfold text, http; repeat (constructor; [lia|]); constructor).
  assert (S : exists s, text s /\ http ++ [0] = cstr s) by (exists http; split; [exact H|reflexivity]).
  assert (K : forall ty b, ty < 4294967296 -> holds_boxes ty = false -> free_type ty = false -> (ty =? code "uuid") = false -> bytes b ->
    kid_ok no_codec no_layout (AOpaque _ ty [] b)).
  { intros ty b H1 H2 H3 H4 H5. unfold kid_ok. cbn [wf c_known no_codec]. rewrite H4. repeat split; try assumption. constructor. }
  assert (K1 : kid_ok no_codec no_layout ex_box) by (apply K; try reflexivity; repeat (constructor; [reflexivity|]); constructor).
  assert (K2 : kid_ok no_codec no_layout ex_meta) by (apply K; try reflexivity; repeat (constructor; [reflexivity|]); constructor).
  assert (K3 : kid_ok no_codec no_layout ex_rel) by (apply K; try reflexivity; repeat (constructor; [reflexivity|]); constructor).
  assert (L : forall l, len l < 256 -> Forall (fun m => me_def m < 256 /\ me_val m < 256 /\ me_sys m < 16 /\ me_rel m < 16) l -> lou_fields (ex_lou l)).
  { intros l H1 H2. unfold lou_fields, ex_lou, full_ok, peak. cbn [lo_ty lo_ver lo_flags lo_reserved lo_downmix lo_drc lo_peak lo_true lo_sys lo_rel lo_meas].
    split; [left; reflexivity|]. repeat split; try assumption; lia. }
  assert (L0 : lou_fields (ex_lou [])) by (apply L; [reflexivity|constructor]).
  split; [num|]. split; [num|]. split; [repeat split; try reflexivity; repeat (constructor; [assumption|]); constructor|].
  split; [num|]. split; [num|]. split; [split; [split; reflexivity|exact S]|]. split; [num|].
  split; [split; [reflexivity|]; apply C52_case|]. split; [repeat split; try reflexivity; try discriminate; repeat (constructor; [reflexivity|]); constructor|].
  split; [split; [split; reflexivity|]; split; [reflexivity|]; repeat (constructor; [assumption|]); constructor|].
  split; [split; [repeat (constructor; [assumption|]); constructor|]; split; [repeat (constructor; [assumption|]); constructor|]; split; repeat (constructor; [reflexivity|]); constructor|].
  split; [num|]. split; [num|]. split; [split; [split; reflexivity|]; repeat (constructor; [reflexivity|]); constructor|].
  split; [split; [left; split; reflexivity|num]|]. split; [split; [right; split; reflexivity|num]|].
  split; [split; [exact L0|reflexivity]|]. split; [apply L; [reflexivity|constructor; [num|constructor]]|].
  split; [split; [constructor; [split; [exact L0|reflexivity]|constructor]|]; split; [constructor|]; split; [constructor; [reflexivity|constructor]|constructor]|].
  split; [cbn; unfold full_ok, numbered; repeat split; try reflexivity; try discriminate; repeat (constructor; [repeat split; try reflexivity; discriminate|]); constructor|].
  split; [cbn; unfold full_ok, numbered; repeat split; try reflexivity; try discriminate; constructor|].
  cbn. unfold full_ok. repeat split; try reflexivity. repeat (constructor; [reflexivity|]); constructor.
Qed.
(* a loudness box and a downmix box, byte for byte *)
Example C67_loudness_case :
  write_box lou_codec (ex_lou [mkMeas 1 200 3 15]) =
    Ok ([0; 0; 0; 22] ++ [116; 108; 111; 117] ++ [0; 0; 0; 0] ++ [1; 73] ++ [128; 7; 255] ++ [52] ++ [1] ++ [1; 200; 63]).
Proof. vm_compute. reflexivity. Qed.
Example C67_downmix_case :
  write_box dmix_codec ex_dmix = Ok ([0; 0; 0; 17] ++ [100; 109; 105; 120] ++ [0; 0; 0; 0] ++ [2; 1; 7] ++ [18; 63]).
Proof. vm_compute. reflexivity. Qed.
Example C67_history_case :
  Forall brand_ok ex_brands /\ 20 + 4 * len (brands ex_brands) < 4294967296 /\
  trep_get no_codec (fold_left trep_add [ex_box; ex_meta; ex_rel] (mkTrep 0 0 1 [])) (code "mere") None = Some ex_rel /\
  of_type no_codec (code "meta") [ex_meta] /\ meco_add no_codec (mkMeco [ex_meta] []) ex_meta = Err MP4BadParamErr.
Proof.
  split; [repeat (constructor; [split; [discriminate|split; reflexivity]|]); constructor|]. split; [reflexivity|]. split; [reflexivity|].
  split; [constructor; [reflexivity|constructor]|reflexivity].
Qed.

(* ------------------------------------------------------------------ *)
(* C68: boxes from elsewhere                                           *)

(* Whatever the bytes, these readers return a box or an error of the library,
   and leave a suffix of their input. *)
Theorem C68_any_bytes :
  robust damr_codec /\ robust dawp_codec /\ robust isfm_codec /\ robust islt_codec /\ robust ikms_codec /\ robust ster_codec /\ robust stdp_codec /\
  robust jp_codec /\ robust ihdr_codec /\ robust colr_codec /\ robust dmix_codec /\ robust (typed_codec (code "ttyp")) /\ robust (typed_codec (code "styp")).
Proof.
  split; [apply damr_robust|]. split; [apply dawp_robust|]. split; [apply isfm_robust|]. split; [apply islt_robust|]. split; [apply ikms_robust|]. split; [apply ster_robust|]. split; [apply stdp_robust|]. split; [apply jp_robust|]. split; [apply ihdr_robust|]. split; [apply colr_robust|]. split; [apply dmix_robust|]. split; [apply typed_robust|]. apply typed_robust.
Qed.
Print Assumptions C68_any_bytes.
Theorem C68_any_children :
  forall T (c : codec T) dflt, robust c ->
  robust (d263_codec c dflt) /\ robust (trep_codec c dflt) /\ robust (meco_codec c dflt) /\ robust (ludt_codec c dflt).
Proof.
  intros T c dflt R. split; [apply d263_robust, R|]. split; [apply trep_robust, R|]. split; [apply meco_robust, R|apply ludt_robust, R].
Qed.
Print Assumptions C68_any_children.
Example C68_case : robust no_codec.
Proof. intros h. apply safe_err. discriminate. Qed.

(* The others return, too, unless they meet what they cannot read: a speaker
   given by its angles (126), a measurement, an indication byte. *)
Definition calm {A} (m : rd A) : Prop := forall s, ~ In EXPLICIT (inp s) ->
  (m s <> UB /\ m s <> Err OutOfFuel) /\ (forall a s', m s = Ok (a, s') -> exists p, inp s = p ++ inp s').
Lemma calm_of {A} (m : rd A) : consumes m -> tame m -> calm m.
Proof. intros C T s _. split; [apply T|]. intros a s'. apply C. Qed.
Lemma calm_bind {A B} (m : rd A) (k : A -> rd B) : calm m -> (forall a, calm (k a)) -> calm (rbind m k).
Proof.
  intros H1 H2 s Hs. destruct (H1 s Hs) as [[A1 A2] A3]. unfold rbind. destruct (m s) as [[a s1]|e|].
  - destruct (A3 a s1 eq_refl) as [p Ep]. assert (H : ~ In EXPLICIT (inp s1)) by (intros C; apply Hs; rewrite Ep, in_app_iff; auto).
    destruct (H2 a s1 H) as [B1 B3]. split; [exact B1|]. intros b s' E. destruct (B3 b s' E) as [q Eq]. exists (p ++ q). rewrite Ep, Eq, app_assoc. reflexivity.
  - split; [split; [discriminate|intros C; apply A2; congruence]|discriminate].
  - congruence.
Qed.
Lemma calm_get8 : calm get8. Proof. apply calm_of; [apply consumes_get8|apply tame_get8]. Qed.
Lemma calm_ret {A} (a : A) : calm (rret a). Proof. apply calm_of; [apply consumes_ret|apply tame_ret]. Qed.
Lemma calm_get64 : calm get64. Proof. apply calm_of; [apply consumes_get64|apply tame_get64]. Qed.
Lemma spk_rd_is b i n : b <> EXPLICIT -> spk_rd (mkR (b :: i) n) = Ok (mkSpk b 0 0, mkR i (w32 (n + 1))).
Proof. intros D. unfold spk_rd, rbind. change (get8 (mkR (b :: i) n)) with (@Ok (N * rst) (b, mkR i (w32 (n + 1)))). cbv iota beta. destruct (N.eqb_spec b EXPLICIT); [contradiction|reflexivity]. Qed.
Lemma calm_spk : calm spk_rd.
Proof.
  intros [[|b i] n] H; [split; [split; discriminate|discriminate]|]. cbn [inp] in *. rewrite spk_rd_is by (intros ->; apply H; left; reflexivity).
  split; [split; discriminate|]. intros a s' E. injection E as <- <-. exists [b]. reflexivity.
Qed.
Lemma calm_spks fuel : forall size acc s, ~ In EXPLICIT (inp s) -> (length (inp s) < fuel)%nat ->
  (spk_loop fuel size acc s <> UB /\ spk_loop fuel size acc s <> Err OutOfFuel) /\
  (forall a s', spk_loop fuel size acc s = Ok (a, s') -> exists p, inp s = p ++ inp s').
Proof.
  induction fuel as [|fuel IH]; intros size acc s H Hf; [lia|]. cbn [spk_loop]. destruct (rdn s <? size).
  - destruct s as [[|b i] n]; [split; [split; discriminate|discriminate]|]. cbn [inp] in *.
    rewrite spk_rd_is by (intros ->; apply H; left; reflexivity). cbn [bind fst snd]. cbn [length] in Hf.
    destruct (IH size (acc ++ [mkSpk b 0 0]) (mkR i (w32 (n + 1))) ltac:(cbn [inp]; intros C; apply H; right; exact C) ltac:(cbn [inp]; lia)) as [I1 I2].
    split; [exact I1|]. intros a s' E. destruct (I2 a s' E) as [p Ep]. cbn [inp] in Ep. exists (b :: p). rewrite Ep. reflexivity.
  - split; [split; discriminate|]. intros a s' E. injection E as <- <-. exists []. reflexivity.
Qed.
Lemma calm_rrep {A} (m : rd A) k : calm m -> calm (rrep k m).
Proof. intros H. induction k as [|k IH]; cbn [rrep]; [apply calm_ret|]. apply calm_bind; [exact H|intros a]. apply calm_bind; [exact IH|intros l; apply calm_ret]. Qed.
Ltac calm := repeat first [apply calm_get8 | apply calm_get64 | apply calm_ret | apply calm_rrep, calm_spk | apply calm_bind; [|intros ?]
  | match goal with |- calm (if ?b then _ else _) => destruct b end].
Theorem C68_channels :
  forall h s, ~ In 126 (inp s) ->
  (c_rd chnl_codec h s <> UB /\ c_rd chnl_codec h s <> Err OutOfFuel) /\ (forall a s', c_rd chnl_codec h s = Ok (a, s') -> exists p, inp s = p ++ inp s').
Proof.
  intros h. change (calm (chnl_rd h)). unfold chnl_rd. apply calm_bind; [apply calm_of; [unfold get_full; cons_step|apply tame_get_full]|intros vf].
  calm. intros s Hs. apply calm_spks; [exact Hs|lia].
Qed.
Print Assumptions C68_channels.
Theorem C68_loudness :
  forall h s, nth 10 (inp s) 0 = 0 ->
  (c_rd lou_codec h s <> UB /\ c_rd lou_codec h s <> Err OutOfFuel) /\ (forall a s', c_rd lou_codec h s = Ok (a, s') -> exists p, inp s = p ++ inp s').
Proof.
  intros h [i n] H. cbn [lou_codec c_rd inp] in *.
  do 11 (destruct i as [|? i]; [split; [split; discriminate|discriminate]|]). cbn [nth] in H. subst.
  split; [split; discriminate|]. intros a s' E. injection E as _ <-. cbn [inp]. match goal with |- exists p, ?a :: ?b :: ?c :: ?d :: ?e :: ?f :: ?g :: ?h :: ?i :: ?j :: ?k :: ?l = _ => exists [a;b;c;d;e;f;g;h;i;j;k] end. reflexivity.
Qed.
Print Assumptions C68_loudness.
Theorem C68_stereo :
  forall T (c : codec T) h s, firstn 4 (skipn 12 (inp s)) = [0; 0; 0; 0] ->
  (c_rd (stvi_codec c) h s <> UB /\ c_rd (stvi_codec c) h s <> Err OutOfFuel) /\ (forall a s', c_rd (stvi_codec c) h s = Ok (a, s') -> exists p, inp s = p ++ inp s').
Proof.
  intros T c h [i n] H. cbn [stvi_codec c_rd inp] in *. do 16 (destruct i as [|? i]; [discriminate H|]). cbn [skipn firstn] in H. injection H as -> -> -> ->.
  split; [split; discriminate|]. intros a s' E. injection E as _ <-. cbn [inp]. match goal with |- exists q, ?a :: ?b :: ?c :: ?d :: ?e :: ?f :: ?g :: ?h :: ?i :: ?j :: ?k :: ?l :: ?m :: ?n :: ?o :: ?p :: ?r = _ => exists [a;b;c;d;e;f;g;h;i;j;k;l;m;n;o;p] end. reflexivity.
Qed.
Print Assumptions C68_stereo.
(* and a box of bit depths without any is refused *)
Theorem C68_no_bit_depths :
  forall rest dflt, read_box bpcc_codec dflt (box (code "bpcc") [] ++ rest) = Err MP4BadDataErr.
Proof. intros rest dflt. open_box; reflexivity. Qed.
Print Assumptions C68_no_bit_depths.

(* TextProps.v -- boxes that carry text (C52), the brands of a file (C53) and
   hostile text (C54). *)
From Verif Require Import Base Codec BitLemmas AtomModel AtomSpec AtomProofs BoxModel BoxSpec BoxProofs Reads IndexProofs TextModel TextSpec TextProofs.

(* ------------------------------------------------------------------ *)
(* C52: what was set is what a reader of the file gets                 *)

Theorem C52_handler :
  forall a, l_ok hdlr_layout a -> 8 + len (l_body hdlr_layout a) < 4294967296 -> round_trip hdlr_codec hdlr_layout a.
Proof. intros a H L. apply exact_round_trip; [apply hdlr_exact|exact H|exact L]. Qed.
Print Assumptions C52_handler.
Theorem C52_url :
  forall a, l_ok url_layout a -> 8 + len (l_body url_layout a) < 4294967296 -> round_trip url_codec url_layout a.
Proof. intros a H L. apply exact_round_trip; [apply url_exact|exact H|exact L]. Qed.
Print Assumptions C52_url.
Theorem C52_language_tag :
  forall a, l_ok elng_layout a -> 8 + len (l_body elng_layout a) < 4294967296 -> round_trip elng_codec elng_layout a.
Proof. intros a H L. apply exact_round_trip; [apply elng_exact|exact H|exact L]. Qed.
Print Assumptions C52_language_tag.
Theorem C52_copyright :
  forall a, l_ok cprt_layout a -> 8 + len (l_body cprt_layout a) < 4294967296 -> round_trip cprt_codec cprt_layout a.
Proof. intros a H L. apply exact_round_trip; [apply cprt_exact|exact H|exact L]. Qed.
Print Assumptions C52_copyright.
Theorem C52_scheme :
  forall a, l_ok schm_layout a -> 8 + len (l_body schm_layout a) < 4294967296 -> round_trip schm_codec schm_layout a.
Proof. intros a H L. apply exact_round_trip; [apply schm_exact|exact H|exact L]. Qed.
Print Assumptions C52_scheme.

Definition soun : list N := [115; 111; 117; 110].
Definition http : list N := [104; 116; 116; 112; 58; 47; 47; 97].
Example C52_case :
  l_ok hdlr_layout (mkHdlr 0 0 0 1936684398 0 0 0 false soun) /\
  l_ok hdlr_layout (mkHdlr 0 0 0 1936684398 0 0 0 true soun) /\
  l_ok url_layout (mkUrl (code "url ") 0 0 (Some (http ++ [0]))) /\
  l_ok url_layout (mkUrl (code "url ") 0 1 None) /\
  l_ok elng_layout (mkElng 0 0 (soun ++ [0])) /\
  l_ok cprt_layout (mkCprt 0 0 5575 (Some (soun ++ [0]))) /\
  l_ok schm_layout (mkSchm 0 1 1768776001 1 (Some (http ++ [0]))) /\
  l_ok schm_layout (mkSchm 0 0 1768776001 1 None).
Proof.
  assert (text soun /\ text http) as [S H] by (split; unfold text, soun, http; repeat (constructor; [lia|]); constructor).
  unfold l_ok, hdlr_layout, url_layout, elng_layout, cprt_layout, schm_layout, full_ok.
  cbn [hd_ver hd_flags hd_ctype hd_type hd_manu hd_cflags hd_mask hd_qt hd_name ul_ty ul_ver ul_flags ul_loc el_ver el_flags el_tag
    cp_ver cp_flags cp_lang cp_notice sm_ver sm_flags sm_type sm_version sm_url].
  repeat split; try lia; try exact S; try reflexivity.
  - intros x r E. injection E as <- <-. left. discriminate.
  - exists http. auto.
  - exists soun. auto.
  - exists soun. auto.
  - exists http. auto.
Qed.
(* a url entry is written and read back, byte for byte *)
Example C52_url_case :
  write_box url_codec (mkUrl (code "url ") 0 0 (Some (http ++ [0]))) =
    Ok ([0;0;0;21] ++ [117;114;108;32] ++ [0;0;0;0] ++ http ++ [0]).
Proof. vm_compute. reflexivity. Qed.

(* A name whose first character has the code of its length is taken for a
   QuickTime string: the first character is lost. *)
Theorem C52_handler_name_refuted :
  forall ct ht mn cf cm x r rest dflt, text (x :: r) -> x = len (x :: r) -> x < 128 ->
  ct < 4294967296 -> ht < 4294967296 -> mn < 4294967296 -> cf < 4294967296 -> cm < 4294967296 ->
  exists bs, write_box hdlr_codec (mkHdlr 0 0 ct ht mn cf cm false (x :: r)) = Ok bs /\
    read_box hdlr_codec dflt (bs ++ rest) = Ok ((ALeaf hdlr (mkHdlr 0 0 ct ht mn cf cm false (r ++ [0])), len bs), rest).
Proof.
  intros ct ht mn cf cm x r rest dflt Ht Hx Hs H1 H2 H3 H4 H5.
  remember (full 0 0 ++ be32 ct ++ be32 ht ++ be32 mn ++ be32 cf ++ be32 cm ++ cstr (x :: r)) as body eqn:Eb.
  assert (Lb : len body = 24 + (len (x :: r) + 1)) by (subst body; lens; lia).
  assert (F0 : full_ok 0 0) by (split; reflexivity).
  exists (box (code "hdlr") body). split.
  - unfold write_box. cbn [awrite hdlr_codec c_ty c_size c_w]. unfold hdlr_size. cbn [hd_name]. rewrite w32_small by lia.
    replace (12 + 20 + len (x :: r) + 1) with (8 + len body) by lia. apply writes_run; [|unfold box; lens; lia|lia].
    unfold box. rewrite app_assoc. apply writes_seq; [apply writes_base; lia|]. unfold hdlr_write. rewrite Eb.
    cbn [hd_ver hd_flags hd_ctype hd_type hd_manu hd_cflags hd_mask hd_qt hd_name].
    apply writes_full_seq. unfold cstr. repeat (apply writes_seq; [wstep|]); wstep.
  - rewrite read_box_is; [|plain|reflexivity|lia]. cbn [hdlr_codec c_rd]. unfold hdlr_read. rewrite Lb.
    replace (body ++ rest) with (full 0 0 ++ be32 ct ++ be32 ht ++ be32 mn ++ be32 cf ++ be32 cm ++ cstr (x :: r) ++ rest) by (rewrite Eb, <- !app_assoc; reflexivity).
    rewrite (parses_then _ _ _ _ _ _ (parses_full _ _ _ F0)). cbn [fst snd].
    do 5 (erewrite (parses_then _ get32); [|apply parses_get32; assumption]).
    unfold rbind at 1, getrdn at 1. cbn [rdn h_size]. rewrite !len_be32, !len_full.
    match goal with |- context [sub32 _ ?k] => change k with 32 end.
    replace (8 + (24 + (len (x :: r) + 1))) with (32 + (len (x :: r) + 1)) by lia.
    rewrite (sub32_from _ (len (x :: r) + 1) eq_refl) by lia.
    erewrite (parses_then _ (take _)); [|apply parses_take_eq, take_len; lens; lia].
    unfold cstr at 1. cbn [app]. replace (len (x :: r) + 1 - 1) with x by lia. rewrite N.eqb_refl.
    destruct (N.ltb_spec x 128); [|lia]. cbn [andb orb]. unfold cstr, pascaltocstr. cbn [app].
    assert (Lx : N.to_nat x = length (r ++ [0])) by (rewrite app_length; cbn [length]; revert Hx; lens; unfold len; lia).
    rewrite Lx, firstn_all, Nat.add_1_r. cbn [skipn]. rewrite skipn_all.
    assert (Tr : text r) by (inversion Ht; assumption).
    rewrite <- (app_assoc r). cbn [app]. unfold slen. rewrite terminated_cstr, chars_text by exact Tr.
    destruct (N.ltb_spec 237 (len r)); [revert Hx; lens; lia|]. cbn [negb orb]. rewrite andb_false_r.
    unfold rret. cbn [inp].
    replace (firstn (length (r ++ [0])) (r ++ [0; 0])) with (r ++ [0]).
    2:{ change [0; 0] with ([0] ++ [0]). rewrite app_assoc, firstn_app, firstn_all, Nat.sub_diag. cbn. rewrite app_nil_r. reflexivity. }
    match goal with |- context [skip_tail ?k _] => replace k with 0 by (unfold box; lens; lia) end.
    replace (len (box (code "hdlr") body)) with (32 + (len (x :: r) + 1)) by (unfold box; lens; lia).
    unfold skip_tail. rewrite N.min_0_l. reflexivity.
Qed.
Print Assumptions C52_handler_name_refuted.
Example C52_handler_name_case :
  match write_box hdlr_codec (mkHdlr 0 0 0 0 0 0 0 false [3; 97; 98]) with
  | Ok bs => read_box hdlr_codec (mkHdlr 0 0 0 0 0 0 0 false []) bs = Ok ((ALeaf hdlr (mkHdlr 0 0 0 0 0 0 0 false [97; 98; 0]), 36), [])
  | _ => False end.
Proof. vm_compute. reflexivity. Qed.

(* The location and the name of a urn entry are written in the opposite order
   of the one they are read in: the reader gets them exchanged. *)
Theorem C52_urn_exchanged_refuted :
  forall loc name rest dflt, text loc -> text name -> len loc + len name < 4294967000 ->
  exists bs, write_box urn_codec (mkUrn 0 0 (Some (cstr loc)) (cstr name) None) = Ok bs /\
    read_box urn_codec dflt (bs ++ rest) =
      Ok ((ALeaf durn (mkUrn 0 0 (Some (cstr name)) urn_label (Some (cstr loc))), len bs), rest).
Proof.
  intros loc name rest dflt Hl Hn Hlen.
  remember (full 0 0 ++ cstr loc ++ cstr name) as body eqn:Eb.
  assert (Lb : len body = 4 + (len loc + 1 + (len name + 1))) by (subst body; lens; lia).
  assert (F0 : full_ok 0 0) by (split; reflexivity).
  exists (box (code "urn ") body). split.
  - unfold write_box. cbn [awrite urn_codec c_ty c_size c_w]. unfold urn_size. cbn [un_flags un_loc un_name].
    change (N.land 0 1 =? 0) with true. cbn match. rewrite !slen_cstr by assumption. rewrite w32_small by lia.
    replace (12 + (1 + len loc + (1 + len name))) with (8 + len body) by lia. apply writes_run; [|unfold box; lens; lia|lia].
    unfold box. rewrite app_assoc. apply writes_seq; [apply writes_base; lia|]. unfold urn_write. rewrite Eb.
    cbn [un_ver un_flags un_loc un_name]. apply writes_full_seq. change (N.land 0 1 =? 0) with true. cbn match.
    apply writes_seq; apply writes_str; assumption.
  - rewrite read_box_is; [|plain|reflexivity|lia]. cbn [urn_codec c_rd]. unfold urn_read. rewrite Lb.
    replace (body ++ rest) with (full 0 0 ++ (cstr loc ++ cstr name) ++ rest) by (rewrite Eb, <- !app_assoc; reflexivity).
    rewrite (parses_then _ _ _ _ _ _ (parses_full _ _ _ F0)). cbn [fst snd].
    unfold rbind at 1, getrdn at 1. cbn [rdn h_size]. rewrite len_full. change (w32 (8 + 4)) with 12.
    replace (8 + (4 + (len loc + 1 + (len name + 1)))) with (12 + (len loc + 1 + (len name + 1))) by lia.
    rewrite (sub32_from _ _ eq_refl) by lia.
    erewrite (parses_then _ (take _)); [|apply parses_take_eq, take_len; lens; lia].
    destruct (N.eqb_spec (len loc + 1 + (len name + 1)) 0); [lia|].
    assert (Ha : after_zero (cstr loc ++ cstr name) = Some (cstr name)).
    { clear -Hl. unfold cstr at 1. induction Hl as [|x l Hx _ IH]; [reflexivity|]. cbn [app after_zero] in *. destruct (N.eqb_spec x 0); [lia|exact IH]. }
    rewrite Ha. replace (cstr loc ++ cstr name) with (loc ++ 0 :: cstr name) by (unfold cstr at 2; rewrite <- app_assoc; reflexivity).
    rewrite chars_text by exact Hl. unfold rret. cbn [inp].
    match goal with |- context [skip_tail ?k _] => replace k with 0 by (unfold box; lens; lia) end.
    replace (len (box (code "urn ") body)) with (12 + (len loc + 1 + (len name + 1))) by (unfold box; lens; lia).
    unfold skip_tail. rewrite N.min_0_l. reflexivity.
Qed.
Print Assumptions C52_urn_exchanged_refuted.
(* and when what was read is saved again, the name is gone: the words "data
   entry URN" take its place *)
Theorem C52_urn_resaved_refuted :
  forall loc name, text loc -> text name -> len loc < 4294967000 ->
  write_box urn_codec (mkUrn 0 0 (Some (cstr loc)) urn_label (Some (cstr name))) =
    Ok (box (code "urn ") (full 0 0 ++ cstr loc ++ urn_label)).
Proof.
  intros loc name Hl Hn Hlen.
  unfold write_box. cbn [awrite urn_codec c_ty c_size c_w]. unfold urn_size. cbn [un_flags un_loc un_name].
  change (N.land 0 1 =? 0) with true. cbn match. rewrite slen_cstr by assumption. change (slen urn_label) with 14. rewrite w32_small by lia.
  assert (Lb : len (full 0 0 ++ cstr loc ++ urn_label) = 4 + (len loc + 1 + 15)) by (lens; change (len urn_label) with 15; lia).
  apply writes_run; [|unfold box; lens; change (len urn_label) with 15; lia|lia].
  unfold box. rewrite Lb. rewrite app_assoc.
  replace (12 + (1 + len loc + (1 + 14))) with (8 + (4 + (len loc + 1 + 15))) by lia.
  apply writes_seq; [apply writes_base; lia|]. unfold urn_write.
  cbn [un_ver un_flags un_loc un_name]. apply writes_full_seq. change (N.land 0 1 =? 0) with true. cbn match.
  apply writes_seq; [apply writes_str; assumption|]. apply writes_putl.
Qed.
Print Assumptions C52_urn_resaved_refuted.

(* Setting the extended language tag of a media: the first tag is the one
   reported, whatever follows, and every further call leaves one more box in
   the media, which a reader refuses (C06, at most one elng). *)
Definition is_tag (a : elng + N) : bool := match a with inl _ => true | _ => false end.
Definition the_tag (a : elng + N) : option elng := match a with inl e => Some e | _ => None end.
Theorem C52_set_language_tag :
  forall kids tag, (forall e, ~ In (inl e) kids) -> text tag ->
  get_language the_tag (set_language is_tag inl kids (cstr tag)) = Ok (Some tag).
Proof.
  intros kids tag Hk Ht. unfold get_language, set_language. rewrite flat_map_app.
  replace (flat_map (fun a : elng + N => match the_tag a with Some e => [e] | None => [] end) kids) with (@nil elng).
  2:{ clear -Hk. induction kids as [|[e|n] ks IH]; cbn [flat_map the_tag app]; [reflexivity|exfalso; apply (Hk e); left; reflexivity|].
      apply IH. intros e I. apply (Hk e). right. exact I. }
  cbn [app flat_map the_tag el_tag]. rewrite chars_cstr by exact Ht. fold (cstr tag).
  rewrite terminated_str, chars_cstr by exact Ht. reflexivity.
Qed.
Print Assumptions C52_set_language_tag.
Theorem C52_second_language_tag_refuted :
  forall kids t1 t2, (forall e, ~ In (inl e) kids) -> text t1 -> text t2 ->
  let kids' := set_language is_tag inl (set_language is_tag inl kids (cstr t1)) (cstr t2) in
  get_language the_tag kids' = Ok (Some t1) /\ len (filter is_tag kids') = 2.
Proof.
  intros kids t1 t2 Hk H1 H2 kids'. assert (Nk : flat_map (fun a : elng + N => match the_tag a with Some e => [e] | None => [] end) kids = [] /\ filter is_tag kids = []).
  { clear -Hk. induction kids as [|[e|n] ks IH]; cbn [flat_map the_tag app filter is_tag]; [auto|exfalso; apply (Hk e); left; reflexivity|].
      apply IH. intros e I. apply (Hk e). right. exact I. }
  destruct Nk as [A B]. unfold kids', get_language, set_language. rewrite !flat_map_app, A, !filter_app, B. split; [|reflexivity].
  cbn [app flat_map the_tag el_tag]. rewrite chars_cstr by exact H1. fold (cstr t1).
  rewrite terminated_str, chars_cstr by exact H1. reflexivity.
Qed.
Print Assumptions C52_second_language_tag_refuted.
Example C52_language_case :
  (forall e, ~ In (inl e) [inr 1; inr 2 : elng + N]) /\ text [101; 110] /\
  get_language the_tag (set_language is_tag inl [inr 1; inr 2] [101; 110; 0]) = Ok (Some [101; 110]).
Proof.
  split; [intros e [C|[C|[]]]; discriminate|]. split; [repeat (constructor; [lia|]); constructor|vm_compute; reflexivity].
Qed.

(* ------------------------------------------------------------------ *)
(* C53: brands                                                         *)

Definition brand_step (a : ftyp) (o : bop) : ftyp := match o with BSet b m => ftyp_set a b m | BAdd b => ftyp_add a b end.
Lemma ftyp_add_is a s : s <> 0 -> ftyp_add a s = mkFtyp (ft_brand a) (ft_minor a) (once (ft_list a) s).
Proof.
  intros H. unfold ftyp_add, ftyp_get, once. destruct a as [b m l]. cbn [ft_brand ft_minor ft_list].
  destruct (existsb (N.eqb s) l); [|reflexivity]. destruct (N.eqb_spec s 0); [contradiction|reflexivity].
Qed.
Lemma once_in l s x : In x (once l s) <-> In x l \/ x = s.
Proof.
  unfold once. destruct (existsb (N.eqb s) l) eqn:E.
  - apply existsb_exists in E. destruct E as (y & I & E). apply N.eqb_eq in E. subst y. split; [auto|]. intros [H| ->]; auto.
  - rewrite in_app_iff. cbn [In]. intuition auto.
Qed.
Lemma once_old l s : In s l -> once l s = l.
Proof. intros I. unfold once. replace (existsb (N.eqb s) l) with true; [reflexivity|]. symmetry. apply existsb_exists. exists s. split; [exact I|apply N.eqb_refl]. Qed.
Lemma brand_run os : forall a, Forall (fun o => named o <> 0) os -> (ft_brand a = 0 \/ In (ft_brand a) (ft_list a)) ->
  fold_left brand_step os a =
    mkFtyp (fst (brand_now (ft_brand a, ft_minor a) os)) (snd (brand_now (ft_brand a, ft_minor a) os)) (fold_left once (map named os) (ft_list a)).
Proof.
  induction os as [|o os IH]; intros a Hos Ha; cbn [fold_left map brand_now].
  - destruct a; reflexivity.
  - inversion_clear Hos as [|? ? Ho Hos']. destruct o as [b m|b]; cbn [named] in Ho |- *; cbn [brand_step].
    + assert (E : ftyp_set a b m = mkFtyp b m (once (ft_list a) b)).
      { unfold ftyp_set. destruct (N.eqb_spec (ft_brand a) 0) as [E|E].
        - rewrite ftyp_add_is by exact Ho. reflexivity.
        - rewrite (ftyp_add_is _ (ft_brand a)) by exact E. rewrite ftyp_add_is by exact Ho. cbn [ft_brand ft_minor ft_list].
          destruct Ha as [Ha|Ha]; [contradiction|]. rewrite (once_old _ _ Ha). reflexivity. }
      rewrite E, IH; [reflexivity|exact Hos'|]. cbn [ft_brand ft_list]. right. apply once_in. auto.
    + rewrite (ftyp_add_is _ _ Ho). rewrite IH; [reflexivity|exact Hos'|]. cbn [ft_brand ft_list].
      destruct Ha as [Ha|Ha]; [left; exact Ha|right; apply once_in; auto].
Qed.
(* Any history of setting the brand and adding compatible brands: the brand
   and version reported are those set last, the list holds each brand ever
   named once, in the order they came, and a brand is reported compatible
   exactly when it was named. *)
Theorem C53_brands :
  forall os, Forall (fun o => named o <> 0) os ->
  let a := fold_left brand_step os ftyp_new in
  (ft_brand a, ft_minor a) = brand_now (0, 0) os /\ ft_list a = brands os /\ NoDup (brands os) /\
  (forall b, In b (brands os) <-> In b (map named os)) /\
  (forall b, b <> 0 -> ftyp_is a b = if existsb (N.eqb b) (map named os) then Ok tt else Err MP4NotFoundErr).
Proof.
  intros os H a.
  assert (E : a = mkFtyp (fst (brand_now (0, 0) os)) (snd (brand_now (0, 0) os)) (brands os)).
  { unfold a. rewrite brand_run by (auto; left; reflexivity). reflexivity. }
  assert (I : forall ns l b, In b (fold_left once ns l) <-> In b l \/ In b ns).
  { induction ns as [|n ns IH]; intros l b; cbn [fold_left In]; [tauto|]. rewrite IH, once_in. intuition auto. }
  assert (D : forall ns l, NoDup l -> NoDup (fold_left once ns l)).
  { induction ns as [|n ns IH]; intros l Hl; cbn [fold_left]; [exact Hl|]. apply IH. unfold once.
    destruct (existsb (N.eqb n) l) eqn:Ex; [exact Hl|]. apply NoDup_rev in Hl. rewrite <- (rev_involutive (l ++ [n])). apply NoDup_rev.
    rewrite rev_app_distr. cbn [rev app]. constructor; [|exact Hl]. rewrite <- in_rev. intros C.
    assert (existsb (N.eqb n) l = true); [|congruence]. apply existsb_exists. exists n. split; [exact C|apply N.eqb_refl]. }
  rewrite E. cbn [ft_brand ft_minor ft_list]. split; [destruct (brand_now (0, 0) os); reflexivity|]. split; [reflexivity|].
  split; [apply D; constructor|]. split; [intros b; unfold brands; rewrite I; cbn [In]; tauto|].
  intros b Hb. unfold ftyp_is, ftyp_get. cbn [ft_list].
  replace (existsb (N.eqb b) (brands os)) with (existsb (N.eqb b) (map named os)).
  - destruct (existsb (N.eqb b) (map named os)); [rewrite N.eqb_refl; reflexivity|]. destruct (N.eqb_spec 0 b); [congruence|reflexivity].
  - apply eq_iff_eq_true. rewrite !existsb_exists. split; intros (x & Ix & Ex); exists x; (split; [|exact Ex]); unfold brands in *; [apply I; right; exact Ix|].
    apply I in Ix. destruct Ix as [[]|Ix]. exact Ix.
Qed.
Print Assumptions C53_brands.
Theorem C53_file :
  forall a, l_ok ftyp_layout a -> 8 + len (l_body ftyp_layout a) < 4294967296 -> round_trip ftyp_codec ftyp_layout a.
Proof. intros a H L. apply exact_round_trip; [apply ftyp_exact|exact H|exact L]. Qed.
Print Assumptions C53_file.
Definition ex_brands : list bop := [BSet 1 0; BAdd 5; BSet 7 2; BAdd 5; BAdd 1; BAdd 9].
Example C53_case :
  Forall (fun o => named o <> 0) ex_brands /\
  fold_left brand_step ex_brands ftyp_new = mkFtyp 7 2 [1; 5; 7; 9] /\
  brands ex_brands = [1; 5; 7; 9] /\ l_ok ftyp_layout (fold_left brand_step ex_brands ftyp_new).
Proof.
  split; [repeat (constructor; [discriminate|]); constructor|]. split; [reflexivity|]. split; [reflexivity|].
  cbn. repeat split; try lia; try discriminate. repeat (constructor; [lia|]); constructor.
Qed.
(* the brand 0 is always reported compatible *)
Theorem C53_zero_brand_refuted : forall a, ftyp_is a 0 = Ok tt.
Proof. intros a. unfold ftyp_is, ftyp_get. destruct (existsb (N.eqb 0) (ft_list a)); reflexivity. Qed.
Print Assumptions C53_zero_brand_refuted.
(* a file type box with no compatible brand is written but not read back *)
Theorem C53_no_brand_refuted :
  forall b m rest dflt, b < 4294967296 -> m < 4294967296 ->
  exists bs, write_box ftyp_codec (mkFtyp b m []) = Ok bs /\ read_box ftyp_codec dflt (bs ++ rest) = Err MP4BadDataErr.
Proof.
  intros b m rest dflt Hb Hm. exists (box (code "ftyp") (be32 b ++ be32 m)). split.
  - unfold write_box. cbn [awrite ftyp_codec c_ty c_size c_w]. change (ftyp_size (mkFtyp b m [])) with 16.
    apply writes_run; [|unfold box; lens; lia|lia]. unfold box. rewrite app_assoc. apply writes_seq; [apply writes_base; lia|].
    unfold ftyp_write. cbn [ft_brand ft_minor ft_list]. apply writes_seq; [wstep|]. rewrite <- (app_nil_r (be32 m)).
    apply writes_seq; [wstep|]. apply writes_ret.
  - rewrite read_box_is; [|plain|reflexivity|lens; lia]. cbn [ftyp_codec c_rd]. unfold ftyp_read. rewrite <- app_assoc.
    do 2 (erewrite (parses_then _ get32); [|apply parses_get32; assumption]).
    unfold rbind at 1, getrdn at 1. cbn [rdn h_size]. lens. reflexivity.
Qed.
Print Assumptions C53_no_brand_refuted.

(* ------------------------------------------------------------------ *)
(* C54: text in a file from elsewhere                                  *)

Lemma quicktime_dec x r n : n = len (x :: r) -> (x =? n - 1) && (x <? 128) = true <-> quicktime (x :: r).
Proof.
  intros ->. rewrite andb_true_iff, N.eqb_eq, N.ltb_lt. split.
  - intros [A B]. exists x, r. split; [reflexivity|]. split; [exact B|]. revert A. lens. lia.
  - intros (y & q & E & A & B). injection E as <- <-. split; [|exact A]. lens. lia.
Qed.
(* the reader of the name field, after the fixed numbers *)
Definition name_outcome (vf : N * N) (ct ht mn cf cm n : N) (b : list N) : rd hdlr :=
  match b with
  | [] => rub
  | x :: _ =>
      let pascal := (x =? n - 1) && (x <? 128) in
      let b' := if pascal then pascaltocstr b else b in
      let nl := if pascal || (last b 0 =? 0) then n - 1 else n in
      if (0 <? nl) && (negb (terminated b') || (237 <? slen b')) then rub
      else rret (mkHdlr (fst vf) (snd vf) ct ht mn cf cm false (firstn (N.to_nat nl) b'))
  end.
Lemma name_outcome_ub vf ct ht mn cf cm n b : n = len b -> bytes b ->
  (hostile_name b /\ name_outcome vf ct ht mn cf cm n b = rub) \/
  (~ hostile_name b /\ exists a, name_outcome vf ct ht mn cf cm n b = rret a).
Proof.
  intros Hn Hb. unfold name_outcome. destruct b as [|x r].
  - left. split; [left; reflexivity|reflexivity].
  - pose proof (quicktime_dec x r n Hn) as Q. destruct ((x =? n - 1) && (x <? 128)) eqn:Eq.
    + right. assert (Qt : quicktime (x :: r)) by (apply Q; reflexivity). split; [intros [C|[C _]]; [discriminate|contradiction]|].
      destruct Qt as (y & q & E & A & B). injection E as <- <-. cbn [orb].
      assert (P : pascaltocstr (x :: r) = r ++ [0]).
      { cbn [pascaltocstr]. rewrite B, (take_len _ r eq_refl), firstn_all, Nat.add_1_r. cbn [skipn]. rewrite skipn_all. reflexivity. }
      rewrite P. replace (terminated (r ++ [0])) with true by (symmetry; apply terminated_in, in_app_iff; right; left; reflexivity).
      assert (S : slen (r ++ [0]) <= 128).
      { apply slen_zero. left. lens. lia. }
      destruct (N.ltb_spec 237 (slen (r ++ [0]))); [lia|]. cbn [negb orb]. rewrite andb_false_r. eexists. reflexivity.
    + assert (NQ : ~ quicktime (x :: r)) by (intros C; apply Q in C; congruence). cbn [orb].
      assert (Pos : 0 < if last (x :: r) 0 =? 0 then n - 1 else n).
      { destruct (N.eqb_spec (last (x :: r) 0) 0) as [E|E]; [|revert Hn; lens; lia].
        destruct r as [|y q]; [|revert Hn; lens; lia]. cbn in E. subst x. exfalso. apply NQ. exists 0, []. repeat split; reflexivity. }
      apply N.ltb_lt in Pos. rewrite Pos. cbn [andb].
      pose proof (slen_zero (x :: r) 237) as Z. change (N.to_nat 237 + 1)%nat with 238%nat in Z.
      destruct (terminated (x :: r)) eqn:T; cbn [negb orb].
      * destruct (N.ltb_spec 237 (slen (x :: r))) as [L|L].
        -- left. split; [right; split; [exact NQ|]|reflexivity]. intros C. assert (slen (x :: r) <= 237) by (apply Z; right; exact C). lia.
        -- right. split; [|eexists; reflexivity]. intros [C|[_ C]]; [discriminate|]. apply C.
           apply Z in L. destruct L as [L|L]; [|exact L]. rewrite firstn_all2 by (unfold len in L; lia). apply terminated_in, T.
      * left. split; [right; split; [exact NQ|]|reflexivity]. intros C. assert (I : In 0 (x :: r)) by (rewrite <- (firstn_skipn 238 (x :: r)); apply in_app_iff; left; exact C).
        apply terminated_in in I. congruence.
Qed.
Lemma skip_all {A} (bx : list N) rest (a : A) n : len bx = n ->
  (a, n, skip_tail (n - (len (bx ++ rest) - len rest)) rest) = (a, n, rest).
Proof. intros <-. lens. replace (len bx - (len bx + len rest - len rest)) with 0 by lia. unfold skip_tail. rewrite N.min_0_l. reflexivity. Qed.
(* Whatever bytes are in the name field of a handler box: reading it goes
   wrong exactly when they are hostile. *)
Theorem C54_handler_name :
  forall v f ct ht mn cf cm b rest dflt, full_ok v f ->
  ct < 4294967296 -> ht < 4294967296 -> mn < 4294967296 -> cf < 4294967296 -> cm < 4294967296 ->
  bytes b -> 32 + len b < 4294967296 ->
  let i := box (code "hdlr") (full v f ++ be32 ct ++ be32 ht ++ be32 mn ++ be32 cf ++ be32 cm ++ b) in
  (read_box hdlr_codec dflt (i ++ rest) = UB <-> hostile_name b) /\
  (~ hostile_name b -> exists a, read_box hdlr_codec dflt (i ++ rest) = Ok ((ALeaf hdlr a, len i), rest)).
Proof.
  intros v f ct ht mn cf cm b rest dflt Hf H1 H2 H3 H4 H5 Hb Hl i.
  remember (full v f ++ be32 ct ++ be32 ht ++ be32 mn ++ be32 cf ++ be32 cm ++ b) as body eqn:Eb.
  assert (Lb : len body = 24 + len b) by (subst body; lens; lia).
  assert (Li : len i = 32 + len b) by (unfold i, box; lens; lia).
  assert (R : read_box hdlr_codec dflt (i ++ rest) =
    match name_outcome (v, f) ct ht mn cf cm (len b) b (mkR rest (w32 (32 + len b))) with
    | Ok (t, s) => Ok ((ALeaf hdlr t, 32 + len b), skip_tail (32 + len b - (len (i ++ rest) - len (inp s))) (inp s))
    | Err e => Err e | UB => UB end).
  { unfold i. rewrite read_box_is; [|plain|reflexivity|lia]. cbn [hdlr_codec c_rd]. unfold hdlr_read. rewrite Lb.
    replace (body ++ rest) with (full v f ++ be32 ct ++ be32 ht ++ be32 mn ++ be32 cf ++ be32 cm ++ b ++ rest) by (rewrite Eb, <- !app_assoc; reflexivity).
    rewrite (parses_then _ _ _ _ _ _ (parses_full _ _ _ Hf)).
    do 5 (erewrite (parses_then _ get32); [|apply parses_get32; assumption]).
    unfold rbind at 1, getrdn at 1. cbn [rdn h_size]. rewrite !len_be32, !len_full.
    match goal with |- context [sub32 _ ?k] => change k with 32 end.
    replace (8 + (24 + len b)) with (32 + len b) by lia. rewrite (sub32_from _ (len b) eq_refl) by lia.
    erewrite (parses_then _ (take _)); [|apply parses_take_eq, take_len; reflexivity]. reflexivity. }
  destruct (name_outcome_ub (v, f) ct ht mn cf cm (len b) b eq_refl Hb) as [[Hh E]|[Hh [a E]]]; rewrite R, E.
  - split; [split; [intros _; exact Hh|reflexivity]|]. intros C. contradiction.
  - unfold rret. cbn [inp]. rewrite (skip_all i rest) by exact Li. rewrite Li.
    split; [split; [discriminate|intros C; contradiction]|]. intros _. exists a. reflexivity.
Qed.
Print Assumptions C54_handler_name.
Example C54_handler_case :
  hostile_name [] /\ hostile_name [97; 98] /\ ~ hostile_name [97; 98; 0] /\ ~ hostile_name [2; 97; 98] /\
  hostile_name (repeat 97 300) /\ ~ hostile_name (repeat 97 237 ++ [0]).
Proof.
  split; [left; reflexivity|]. split.
  { right. split; [intros (x & r & E & A & B); injection E as <- <-; discriminate|]. cbn. intros [C|[C|[]]]; discriminate. }
  split. { intros [C|[_ C]]; [discriminate|]. apply C. cbn. auto. }
  split. { intros [C|[C _]]; [discriminate|]. apply C. exists 2, [97; 98]. repeat split; reflexivity. }
  split. { right. split; [intros (x & r & E & A & B)|].
    - change (repeat 97 300) with (97 :: repeat 97 299) in E. injection E as <- <-. vm_compute in B. discriminate.
    - intros C. assert (In 0 (repeat 97 300)) by (rewrite <- (firstn_skipn 238 (repeat 97 300)); apply in_app_iff; left; exact C).
      apply repeat_spec in H. discriminate. }
  intros [C|[_ C]]; [discriminate|]. apply C. change 238%nat with (length (repeat 97 237 ++ [0])). rewrite firstn_all. apply in_app_iff. right. left. reflexivity.
Qed.

(* The location of a url entry: only a location shorter than 200 bytes
   without a zero byte goes wrong on reading ... *)
Theorem C54_url :
  forall v f b rest dflt, full_ok v f -> 12 + len b < 4294967296 ->
  let i := box (code "url ") (full v f ++ b) in
  (read_box url_codec dflt (i ++ rest) = UB <-> b <> [] /\ len b < 200 /\ ~ In 0 b) /\
  (b = [] \/ 200 <= len b \/ In 0 b ->
   read_box url_codec dflt (i ++ rest) =
     Ok ((ALeaf durl (mkUrl (code "url ") v f (match b with [] => None | _ => Some b end)), len i), rest)).
Proof.
  intros v f b rest dflt Hf Hl i.
  assert (Li : len i = 12 + len b) by (unfold i, box; lens; lia).
  assert (R : read_box url_codec dflt (i ++ rest) =
    if len b =? 0 then Ok ((ALeaf durl (mkUrl (code "url ") v f None), len i), rest)
    else if (len b <? 200) && negb (terminated b) then UB
    else Ok ((ALeaf durl (mkUrl (code "url ") v f (Some b)), len i), rest)).
  { unfold i at 1. rewrite read_box_is; [|plain|reflexivity|lens; lia]. cbn [url_codec c_rd]. unfold url_read. cbn [h_type h_size].
    rewrite <- app_assoc. rewrite (parses_then _ _ _ _ _ _ (parses_full _ _ _ Hf)). cbn [fst snd].
    unfold rbind at 1, getrdn at 1. cbn [rdn]. rewrite len_full. change (w32 (8 + 4)) with 12.
    replace (8 + len (full v f ++ b)) with (12 + len b) by (lens; lia). rewrite (sub32_from _ (len b) eq_refl) by lia.
    fold i. destruct (N.eqb_spec (len b) 0) as [E|E].
    - apply len_0 in E. subst b. unfold rret. cbn [app inp]. rewrite (skip_all i rest) by exact Li. rewrite Li. reflexivity.
    - change (code "url " =? T_url) with true. cbn match. erewrite (parses_then _ (take _)); [|apply parses_take_eq, take_len; reflexivity].
      destruct ((len b <? 200) && negb (terminated b)); [reflexivity|]. unfold rret. cbn [inp].
      rewrite (skip_all i rest) by exact Li. rewrite Li. reflexivity. }
  rewrite R. destruct (N.eqb_spec (len b) 0) as [E|E].
  - apply len_0 in E. subst b. split; [split; [discriminate|intros (C & _); contradiction]|]. intros _. reflexivity.
  - assert (Nb : b <> []) by (intros ->; apply E; reflexivity).
    destruct (N.ltb_spec (len b) 200) as [L|L]; cbn [andb].
    + destruct (terminated b) eqn:T; cbn [negb].
      * apply terminated_in in T. split; [split; [discriminate|intros (_ & _ & C); contradiction]|]. intros _. destruct b; [congruence|reflexivity].
      * assert (NI : ~ In 0 b) by (intros C; apply terminated_in in C; congruence).
        split; [split; [auto|reflexivity]|]. intros [C|[C|C]]; [contradiction|lia|contradiction].
    + split; [split; [discriminate|intros (_ & C & _); lia]|]. intros _. destruct b; [congruence|reflexivity].
Qed.
Print Assumptions C54_url.
(* ... a longer one without a zero byte is accepted, and reading past its end
   happens when the movie is saved *)
Definition breaks (k : N) (w : wr) : Prop :=
  forall s, len (wout s) + k <= wsz s -> wsz s < 4294967296 -> w s = UB.
Lemma breaks_after a x b k : writes a x -> breaks k b -> breaks (len x + k) (a ;; b).
Proof.
  intros Ha Hb s H1 H2. unfold wseq. rewrite Ha by lia. cbn [bind]. apply Hb; cbn [wout wsz]; lens; lia.
Qed.
Lemma breaks_run k w sz : breaks k w -> k <= sz -> sz < 4294967296 -> wrun sz w = UB.
Proof. intros H A B. unfold wrun. rewrite H; [reflexivity|cbn [wout wsz]; lens; lia|cbn [wsz]; lia]. Qed.
Lemma breaks_leaf {T} (c : codec T) (t : T) k :
  breaks k (c_w c t) -> 8 + k <= c_size c t -> c_size c t < 4294967296 -> 1 < c_size c t -> write_box c t = UB.
Proof.
  intros H A B C. unfold write_box. cbn [awrite].
  apply (breaks_run (len (be32 (c_size c t) ++ be32 (c_ty c t)) + k)); [|lens; lia|lia].
  apply breaks_after; [|exact H]. apply writes_base; lia.
Qed.
Lemma breaks_full v f b k : breaks k b -> breaks (4 + k) (put8 v ;; put24 f ;; b).
Proof.
  intros H. replace (4 + k) with (len (be8 v) + (len (be24 f) + k)) by (lens; lia).
  repeat (apply breaks_after; [wstep|]). exact H.
Qed.
Lemma chars_all b : ~ In 0 b -> chars b = b.
Proof.
  induction b as [|x r IH]; intros H; [reflexivity|]. cbn [chars]. destruct (N.eqb_spec x 0) as [->|E].
  - exfalso. apply H. left. reflexivity.
  - rewrite IH; [reflexivity|]. intros C. apply H. right. exact C.
Qed.
Lemma breaks_str b : ~ In 0 b -> breaks 0 (put_str b).
Proof.
  intros H s _ _. unfold put_str. replace (terminated b) with false; [reflexivity|].
  symmetry. apply not_true_iff_false. rewrite terminated_in. exact H.
Qed.
Theorem C54_url_saved_refuted :
  forall v f b, in_this_file f = false -> ~ In 0 b -> 13 + len b < 4294967296 ->
  write_box url_codec (mkUrl (code "url ") v f (Some b)) = UB.
Proof.
  intros v f b Hf Hb Hl. assert (S : slen b = len b) by (unfold slen; rewrite chars_all by exact Hb; reflexivity).
  assert (Z : url_size (mkUrl (code "url ") v f (Some b)) = 13 + len b).
  { unfold url_size. cbn [ul_flags ul_loc]. rewrite land1, Hf. cbn [negb]. rewrite S, w32_small by lia. lia. }
  apply (breaks_leaf _ _ 4); cbn [url_codec c_size c_w]; [|rewrite Z; lia..].
  unfold url_write. cbn [ul_ver ul_flags ul_loc]. rewrite land1, Hf. cbn [negb].
  change 4 with (4 + 0). apply breaks_full, breaks_str, Hb.
Qed.
Print Assumptions C54_url_saved_refuted.
(* so does a language tag without a zero byte: it is accepted, then asking for
   it or saving the movie reads past its end *)
Theorem C54_language_tag_refuted :
  forall v f b rest dflt, full_ok v f -> ~ In 0 b -> 13 + len b < 4294967296 ->
  read_box elng_codec dflt (box (code "elng") (full v f ++ b) ++ rest) =
    Ok ((ALeaf elng (mkElng v f b), 12 + len b), rest) /\
  get_language Some [mkElng v f b] = UB /\ write_box elng_codec (mkElng v f b) = UB.
Proof.
  intros v f b rest dflt Hf Hb Hl. assert (S : slen b = len b) by (unfold slen; rewrite chars_all by exact Hb; reflexivity).
  split; [|split].
  - rewrite read_box_is; [|plain|reflexivity|lens; lia]. cbn [elng_codec c_rd]. unfold elng_read. cbn [h_size].
    rewrite <- app_assoc. rewrite (parses_then _ _ _ _ _ _ (parses_full _ _ _ Hf)). cbn [fst snd].
    unfold rbind at 1, getrdn at 1. cbn [rdn]. rewrite len_full. change (w32 (8 + 4)) with 12.
    replace (8 + len (full v f ++ b)) with (12 + len b) by (lens; lia). rewrite (sub32_from _ (len b) eq_refl) by lia.
    erewrite (parses_then _ (take _)); [|apply parses_take_eq, take_len; reflexivity]. unfold rret. cbn [inp].
    rewrite (skip_all (box (code "elng") (full v f ++ b)) rest) by (unfold box; lens; lia). reflexivity.
  - unfold get_language. cbn [flat_map app el_tag]. replace (terminated b) with false; [reflexivity|].
    symmetry. apply not_true_iff_false. rewrite terminated_in. exact Hb.
  - apply (breaks_leaf _ _ 4); cbn [elng_codec c_size c_w]; unfold elng_size; cbn [el_tag]; rewrite ?S, ?w32_small by lia; try lia.
    unfold elng_write. cbn [el_ver el_flags el_tag]. change 4 with (4 + 0). apply breaks_full, breaks_str, Hb.
Qed.
Print Assumptions C54_language_tag_refuted.
(* an empty copyright notice is accepted and cannot be saved *)
Theorem C54_copyright_refuted :
  forall v f l rest dflt, full_ok v f -> l < 65536 ->
  read_box cprt_codec dflt (box (code "cprt") (full v f ++ be16 l) ++ rest) =
    Ok ((ALeaf cprt (mkCprt v f l None), 14), rest) /\
  write_box cprt_codec (mkCprt v f l None) = UB.
Proof.
  intros v f l rest dflt Hf H. split.
  - rewrite read_box_is; [|plain|reflexivity|lens; lia]. cbn [cprt_codec c_rd]. unfold cprt_read. cbn [h_size].
    rewrite <- app_assoc. rewrite (parses_then _ _ _ _ _ _ (parses_full _ _ _ Hf)). cbn [fst snd].
    erewrite (parses_then _ get16); [|apply parses_get16; assumption].
    unfold rbind at 1, getrdn at 1. cbn [rdn]. rewrite len_full, len_be16.
    match goal with |- context [sub32 _ ?k] => change k with 14 end.
    replace (8 + len (full v f ++ be16 l)) with 14 by (lens; lia). change (sub32 14 14 =? 0) with true. cbn match. unfold rret. cbn [inp].
    rewrite (skip_all (box (code "cprt") (full v f ++ be16 l)) rest) by (unfold box; lens; lia). reflexivity.
  - apply (breaks_leaf _ _ 0); cbn [cprt_codec c_size c_w]; unfold cprt_size; cbn [cp_notice]; rewrite ?w32_small by lia; try lia.
    intros s _ _. reflexivity.
Qed.
Print Assumptions C54_copyright_refuted.
(* a QuickTime alias of more than 256 bytes overruns the buffer it is read
   into *)
Theorem C54_alias :
  forall v f b rest dflt, full_ok v f -> 12 + len b < 4294967296 ->
  let i := box (code "alis") (full v f ++ b) in
  (read_box url_codec dflt (i ++ rest) = UB <-> 256 < len b) /\
  (len b <= 256 ->
   read_box url_codec dflt (i ++ rest) = Ok ((ALeaf durl (mkUrl (code "alis") v f None), len i), rest)).
Proof.
  intros v f b rest dflt Hf Hl i.
  assert (Li : len i = 12 + len b) by (unfold i, box; lens; lia).
  assert (R : read_box url_codec dflt (i ++ rest) =
    if 256 <? len b then UB else Ok ((ALeaf durl (mkUrl (code "alis") v f None), len i), rest)).
  { unfold i at 1. rewrite read_box_is; [|plain|reflexivity|lens; lia]. cbn [url_codec c_rd]. unfold url_read. cbn [h_type h_size].
    rewrite <- app_assoc. rewrite (parses_then _ _ _ _ _ _ (parses_full _ _ _ Hf)). cbn [fst snd].
    unfold rbind at 1, getrdn at 1. cbn [rdn]. rewrite len_full. change (w32 (8 + 4)) with 12.
    replace (8 + len (full v f ++ b)) with (12 + len b) by (lens; lia). rewrite (sub32_from _ (len b) eq_refl) by lia.
    fold i. destruct (N.eqb_spec (len b) 0) as [E|E].
    - rewrite E. apply len_0 in E. subst b. unfold rret. cbn [app inp]. rewrite (skip_all i rest) by exact Li. rewrite Li. reflexivity.
    - change (code "alis" =? T_url) with false. cbn match. destruct (256 <? len b); [reflexivity|].
      erewrite (parses_then _ (take _)); [|apply parses_take_eq, take_len; reflexivity].
      unfold rret. cbn [inp]. rewrite (skip_all i rest) by exact Li. rewrite Li. reflexivity. }
  rewrite R. destruct (N.ltb_spec 256 (len b)); split; try split; intros; try lia; try reflexivity; discriminate.
Qed.
Print Assumptions C54_alias.
(* the address of a scheme: it must be there exactly when the flags say so, and
   breaks the reader when it is shorter than 200 bytes and has no zero byte *)
Theorem C54_scheme :
  forall v f ty ve b rest dflt, full_ok v f -> ty < 4294967296 -> ve < 4294967296 -> 20 + len b < 4294967296 ->
  let i := box (code "schm") (full v f ++ be32 ty ++ be32 ve ++ b) in
  read_box schm_codec dflt (i ++ rest) =
    if N.odd f then
      if len b =? 0 then Err MP4BadDataErr
      else if (len b <? 200) && negb (existsb (N.eqb 0) b) then UB
      else Ok ((ALeaf schm (mkSchm v f ty ve (Some b)), len i), rest)
    else if len b =? 0 then Ok ((ALeaf schm (mkSchm v f ty ve None), len i), rest) else Err MP4BadDataErr.
Proof.
  intros v f ty ve b rest dflt Hf H1 H2 Hl i.
  assert (Li : len i = 20 + len b) by (unfold i, box; lens; lia).
  unfold i at 1. rewrite read_box_is; [|plain|reflexivity|lens; lia]. cbn [schm_codec c_rd]. unfold schm_read. cbn [h_size].
  rewrite <- !app_assoc. rewrite (parses_then _ _ _ _ _ _ (parses_full _ _ _ Hf)). cbn [fst snd].
  do 2 (erewrite (parses_then _ get32); [|apply parses_get32; assumption]).
  unfold rbind at 1, getrdn at 1. cbn [rdn]. rewrite len_full, !len_be32.
  match goal with |- context [sub32 _ ?k] => change k with 20 end.
  replace (8 + len (full v f ++ be32 ty ++ be32 ve ++ b)) with (20 + len b) by (lens; lia). rewrite (sub32_from _ (len b) eq_refl) by lia.
  fold i. assert (O : (N.land f 1 =? 0) = negb (N.odd f)).
  { rewrite land1. unfold in_this_file. rewrite N.bit0_odd. reflexivity. }
  rewrite O. destruct (N.eqb_spec (len b) 0) as [E|E].
  - destruct (N.odd f); cbn [negb]; [reflexivity|]. apply len_0 in E. subst b. unfold rret. cbn [app inp].
    rewrite (skip_all i rest) by exact Li. rewrite Li. reflexivity.
  - destruct (N.odd f); cbn [negb]; [|reflexivity]. erewrite (parses_then _ (take _)); [|apply parses_take_eq, take_len; reflexivity].
    unfold terminated. destruct ((len b <? 200) && negb (existsb (N.eqb 0) b)); [reflexivity|]. unfold rret. cbn [inp].
    rewrite (skip_all i rest) by exact Li. rewrite Li. reflexivity.
Qed.
Print Assumptions C54_scheme.
Example C54_text_case : ~ In 0 http /\ in_this_file 0 = false /\ full_ok 0 0 /\ 256 < len (repeat 97 257).
Proof. repeat split; try reflexivity. intros C. cbn in C. repeat (destruct C as [C|C]; [discriminate|]). exact C. Qed.

(* ParamProps.v -- C61: HEVC descriptions and the configuration
   boxes. *)
From Verif Require Import Base Codec AtomModel AtomSpec AtomProofs AtomProps BitLemmas BoxModel BoxSpec BoxProofs Reads KidsModel KidsProofs TextModel TextSpec TextProofs EntryModel EntrySpec EntryProofs EntryProps BitModel BitSpec BitProofs ParamModel ParamSpec ParamProofs SpsProofs ParamHandle.

Lemma vfix_new_ok dri w h : dri < 65536 -> w < 65536 -> h < 65536 -> vfix_ok (sized (vfix_new dri) w h).
Proof. intros. unfold vfix_new, sized. repeat split; cbn; (assumption || lia). Qed.
Lemma config_bytes {X} (c : codec X) (y : layout X) (t : avcc + (hvcc + (vvcc + (vvnc + X)))) : kids_bytes (pcodec c) (playout y) [ALeaf _ t] = box (c_ty (pcodec c) t) (l_body (playout y) t).
Proof. unfold kids_bytes. cbn [flat_map]. rewrite app_nil_r. reflexivity. Qed.

Lemma kth_nil i : kth_set [] i = Err MP4BadParamErr.
Proof. unfold kth_set, nthN. destruct (i =? 0); [reflexivity|]. destruct (N.to_nat (i - 1)); reflexivity. Qed.
Lemma hevc_found s ls vps sps pps ty i : i < 4294967296 -> hvcc_get (hevc_config s ls vps sps pps) ty i =
  kth_set (if ty =? 32 then [vps] else if ty =? 33 then [sps] else if ty =? 34 then listed pps else []) i.
Proof.
  intros Hi. unfold hvcc_get.
  replace (len (hc_arrs (hevc_config s ls vps sps pps)) <? hc_num (hevc_config s ls vps sps pps)) with false by (destruct pps; reflexivity).
  replace (firstn _ _) with ([mkArr 1 32 [vps]; mkArr 1 33 [sps]] ++ match pps with Some q => [mkArr 1 34 [q]] | None => [] end) by (destruct pps; reflexivity).
  cbn [app find na_type]. rewrite (N.eqb_sym 32), (N.eqb_sym 33).
  assert (Nv : forall v, set_at [v] i = kth_set [v] i) by (intros v; apply set_at_is; [exact Hi|reflexivity]).
  destruct (ty =? 32); [apply Nv|]. destruct (ty =? 33); [apply Nv|]. destruct pps as [q|]; cbn [find na_type listed].
  - rewrite (N.eqb_sym 34). destruct (ty =? 34); [apply Nv|]. symmetry. apply kth_nil.
  - destruct (ty =? 34); symmetry; apply kth_nil.
Qed.

(* C61: for every H.265 sequence parameter set -- any sublayers, any
   constraint flags, any cropping, with emulation prevention --, video
   parameter set, picture parameter set or none, the description created is
   the standard's, with the width and height and all that the sequence
   parameter set announces; every parameter set is found again, and nothing
   else; saving and reading the description keeps its bytes. *)
Theorem C61_hevc_description :
  forall X O (c : codec X) (y : layout X) (o : codec O) (yo : layout O), faithful c y -> disjoint c y -> faithful o yo ->
  forall s h1 h2 payload more dri length_size vps pps,
  hevc_ok s -> bytes (h1 :: h2 :: payload) -> h1 / 2 = 33 -> bits_of payload = hevc_bits s ++ more ->
  dri < 65536 -> In length_size [1; 2; 4] ->
  let sps := nal (h1 :: h2 :: payload) in
  set_ok sps -> set_ok vps -> Forall set_ok (listed pps) ->
  let b := box (code "hvc1") (vfix_bytes (sized (vfix_new dri) (e_w s) (e_h s)) ++ box (code "hvcC") (l_body hvcc_layout (hevc_config s length_size vps sps pps))) in
  new_hevc c o true dri length_size (Some sps) pps (Some vps) = Ok (b, (e_w s * 65536, e_h s * 65536)) /\
  get_dims (pcodec c) pdflt o b = Ok (e_w s, e_h s) /\ nal_length c o b = Ok length_size /\
  (forall ty i, i < 4294967296 -> get_hevc_ps c o b ty i =
     kth_set (if ty =? 32 then [vps] else if ty =? 33 then [sps] else if ty =? 34 then listed pps else []) i) /\
  exists e, lasting (pcodec c) (playout y) o yo e /\ b = entry_bytes (pcodec c) (playout y) yo e.
Proof.
  intros X O c y o yo F D FO s h1 h2 payload more dri ls vps pps Hs Hb Ht Hp Hd Hls sps Hsps Hvps Hpps b.
  assert (Hlen : 1 <= ls <= 4) by (cbn [In] in Hls; lia).
  assert (Hok : l_ok hvcc_layout (hevc_config s ls vps sps pps)).
  { destruct Hs as (S1 & S2 & S3 & S4 & S5 & S6 & S7 & S8 & S9 & S10 & S11 & S12 & S13 & S14 & S15).
    cbn [hvcc_layout l_ok hevc_config hc_idc hc_compat hc_level hc_chroma hc_luma hc_cdepth hc_rate hc_nest hc_len1 hc_num hc_arrs].
    split; [exact S6|]. split; [exact S7|]. split; [exact S8|]. split; [exact S10|]. split; [exact S14|]. split; [exact S15|].
    split; [lia|]. split; [exact S3|]. split; [lia|]. split; [reflexivity|]. split; [destruct pps; lia|].
    unfold used. cbn [hevc_config hc_num hc_arrs]. destruct pps as [q|]; cbn [listed] in Hpps; repeat constructor; cbn; try lia; try assumption.
    inversion_clear Hpps. assumption. }
  assert (Hview : l_view hvcc_layout (hevc_config s ls vps sps pps) = hevc_config s ls vps sps pps) by (destruct pps; reflexivity).
  destruct Hs as (S1 & S2 & S3 & S4 & S5 & S6 & S7 & S8 & S9 & S10 & S11 & S12 & S13 & S14 & S15).
  assert (Hlb : len (l_body hvcc_layout (hevc_config s ls vps sps pps)) < 1000000).
  { cbn [hvcc_layout l_body]. replace (used (hevc_config s ls vps sps pps)) with ([mkArr 1 32 [vps]; mkArr 1 33 [sps]] ++ match pps with Some q => [mkArr 1 34 [q]] | None => [] end)
      by (destruct pps; reflexivity). unfold set_ok in *.
    destruct pps as [q|]; cbn [app flat_map]; unfold arr_bytes, sets, set_bytes; cbn [na_nals flat_map]; lens.
    - inversion_clear Hpps as [|? ? Q _]. cbn beta in Q. change (N.of_nat 6) with 6. lia.
    - change (N.of_nat 6) with 6. lia. }
  set (cfg := inr (inl (hevc_config s ls vps sps pps)) : avcc + (hvcc + (vvcc + (vvnc + X)))).
  assert (V : vis_ok c y (code "hvc1") (sized (vfix_new dri) (e_w s) (e_h s)) [ALeaf _ cfg]).
  { apply vis_first; [reflexivity|apply vfix_new_ok; assumption|exact Hok|cbn [playout lsum l_view cfg]; unfold playout; cbn [lsum l_view]; rewrite Hview; reflexivity|constructor|].
    unfold kids_bytes. cbn [flat_map]. lens. cbn [playout lsum l_body cfg]. unfold playout. cbn [lsum l_body]. lia. }
  assert (Eb : b = vis_bytes c y yo (code "hvc1") (sized (vfix_new dri) (e_w s) (e_h s)) [ALeaf _ cfg]).
  { unfold vis_bytes, entry_bytes. cbn [entry_type entry_body]. rewrite config_bytes. reflexivity. }
  split.
  { unfold new_hevc. replace ((ls =? 1) || (ls =? 2) || (ls =? 4)) with true by (cbn [In] in Hls; lia). cbn [negb].
    destruct (init_ok true h1 (h2 :: payload) Hb) as (st & Ei & R); [unfold sps, set_ok in Hsps; lia|]. fold sps in Ei. rewrite Ei. cbn [bind].
    assert (Bh : h1 < 256 /\ h2 < 256) by (inversion_clear Hb as [|? ? B1 B2]; inversion_clear B2; split; assumption).
    cbn [bits_of flat_map] in R. fold (bits_of payload) in R. rewrite Hp in R.
    destruct (hevc_takes h1 h2 s (proj1 Bh) Ht (proj2 Bh) (conj S1 (conj S2 (conj S3 (conj S4 (conj S5 (conj S6 (conj S7 (conj S8 (conj S9 (conj S10 (conj S11 (conj S12 (conj S13 (conj S14 S15)))))))))))))) st more) as (st' & E & _);
      [rewrite <- !app_assoc; exact R|].
    rewrite E. cbn [bind fst]. unfold hevc_out. cbn [sp_idc sp_compat sp_level sp_chroma sp_luma sp_cdepth sp_nest sp_w sp_h].
    match goal with |- context [entry_w _ _ (EVis ?ty ?f [ALeaf ?TT (inr (inl ?cf))])] => replace cf with (hevc_config s ls vps sps pps) by (destruct pps; reflexivity) end.
    pose proof (vis_written c y o yo F D FO _ _ _ V) as W. unfold vis_ent in W. change (code "hvc1") with T_hvc1 in W. unfold cfg in W. rewrite W. cbn [bind].
    rewrite !shiftl_mul. change (2 ^ 16) with 65536. rewrite !w32_small by lia. rewrite Eb. reflexivity. }
  rewrite Eb. split; [|split; [|split]].
  - rewrite (vis_dims c y o yo F D FO _ _ _ V). reflexivity.
  - unfold nal_length. rewrite (vis_entry c y o yo F D FO _ _ _ _ _ V) by reflexivity. cbn [bind]. rewrite !ext_cons.
    cbn [cfg pcodec csum c_ty]. unfold pcodec. cbn [csum c_ty avcc_codec hvcc_codec vvcc_codec vvnc_codec].
    change (T_hvcC =? T_vvnC) with false. change (ext_of c [] T_vvnC) with (@None (atom (avcc + (hvcc + (vvcc + (vvnc + X)))))). cbn iota. rewrite N.eqb_refl. cbn iota.
    cbn [cfg hevc_config hc_len1]. f_equal. lia.
  - intros ty i Hi. unfold get_hevc_ps. rewrite (vis_entry c y o yo F D FO _ _ _ _ _ V) by reflexivity. cbn [bind]. unfold hevc_of. rewrite ext_cons.
    replace (c_ty (pcodec c) cfg =? T_hvcC) with true by reflexivity. cbn [cfg bind]. apply hevc_found. exact Hi.
  - eexists. split; [apply (vis_lasting c y o yo _ _ _ V)|reflexivity].
Qed.
Print Assumptions C61_hevc_description.

(* the bytes of a string of bits, filled up with zeros *)
Definition pack (l : list bool) : list N := octets (length l / 8 + 1) (l ++ repeat false 16).
Definition pc0 := pcodec no_codec.
Definition some_hevc : hevc_syntax :=
  mkHevcS 0 1 0 0 1 1610612736 0 93 [(None, Some 90); (Some 5, None)] 0 1 false 1280 720 (Some (0, 3, (0, 2))) 0 0.
Definition hevc_payload := Eval vm_compute in pack (hevc_bits some_hevc).
Lemma hevc_payload_is : exists more, bits_of hevc_payload = hevc_bits some_hevc ++ more.
Proof. exists (skipn (length (hevc_bits some_hevc)) (bits_of hevc_payload)). vm_compute. reflexivity. Qed.
Lemma none_disjoint : disjoint no_codec no_layout.
Proof. intros []. Qed.
Example C61_ex : hevc_ok some_hevc /\ bytes (66 :: 1 :: hevc_payload) /\ 66 / 2 = 33 /\
  len (nal (66 :: 1 :: hevc_payload)) = 45 /\ nal (66 :: 1 :: hevc_payload) <> 66 :: 1 :: hevc_payload /\
  exists b, new_hevc no_codec no_codec true 1 4 (Some (nal (66 :: 1 :: hevc_payload))) (Some [68; 1; 9]) (Some [64; 1; 7]) = Ok (b, (83886080, 47185920)) /\
    get_hevc_ps no_codec no_codec b 34 1 = Ok [68; 1; 9] /\ get_hevc_ps no_codec no_codec b 34 2 = Err MP4BadParamErr /\
    get_dims pc0 pdflt no_codec b = Ok (1280, 720).
Proof.
  split; [repeat split; try reflexivity; discriminate|].
  split; [repeat constructor|]. split; [reflexivity|]. split; [vm_compute; reflexivity|]. split; [vm_compute; discriminate|].
  eexists. split; [vm_compute; reflexivity|]. split; [vm_compute; reflexivity|]. split; vm_compute; reflexivity.
Qed.
(* without a video parameter set the sets do not come back: only the first
   arrays are written, as many as are not empty *)
Theorem C61_without_vps_refuted :
  exists sps pps b d, new_hevc no_codec no_codec true 1 4 (Some sps) (Some pps) None = Ok (b, d) /\
    get_hevc_ps no_codec no_codec b 33 1 = Ok sps /\ get_hevc_ps no_codec no_codec b 34 1 = Err MP4BadParamErr.
Proof.
  exists (nal (66 :: 1 :: hevc_payload)), [68; 1; 9]. eexists. eexists. split; [vm_compute; reflexivity|]. split; vm_compute; reflexivity.
Qed.
Print Assumptions C61_without_vps_refuted.
Theorem C61_sps_alone_refuted :
  exists sps b d, new_hevc no_codec no_codec true 1 4 (Some sps) None None = Ok (b, d) /\ get_hevc_ps no_codec no_codec b 33 1 = Err MP4BadParamErr.
Proof. exists (nal (66 :: 1 :: hevc_payload)). eexists. eexists. split; [vm_compute; reflexivity|]. vm_compute; reflexivity. Qed.
Print Assumptions C61_sps_alone_refuted.
(* a sequence parameter set that ends early is read past its end *)
Theorem C61_truncated_refuted :
  new_hevc no_codec no_codec true 1 4 (Some [66; 1; 1; 1; 96]) None None = UB.
Proof. vm_compute. reflexivity. Qed.
Print Assumptions C61_truncated_refuted.

(* C61: every configuration box with up to eight arrays of units -- the ones
   the library writes -- is read back as it is *)
Theorem C61_config_boxes :
  (forall a, l_ok avcc_layout a -> 8 + len (l_body avcc_layout a) < 4294967296 -> round_trip avcc_codec avcc_layout a) /\
  (forall a, l_ok hvcc_layout a -> 8 + len (l_body hvcc_layout a) < 4294967296 -> round_trip hvcc_codec hvcc_layout a) /\
  (forall a, l_ok vvcc_layout a -> 8 + len (l_body vvcc_layout a) < 4294967296 -> round_trip vvcc_codec vvcc_layout a) /\
  (forall a, l_ok vvnc_layout a -> 8 + len (l_body vvnc_layout a) < 4294967296 -> round_trip vvnc_codec vvnc_layout a).
Proof.
  split; [|split; [|split]]; intros a H L; apply faithful_round_trip; try assumption;
    [apply avcc_faithful|apply hvcc_faithful|apply vvcc_faithful|apply vvnc_faithful].
Qed.
Print Assumptions C61_config_boxes.
(* any bytes: the readers of avcC and vvnC return or refuse *)
Theorem C61_any_avcC : robust avcc_codec /\ robust vvnc_codec.
Proof.
  split; intros h; apply safe_of.
  - cbn [avcc_codec c_rd]. unfold avcc_rd, set_rd. cons_step.
  - cbn [avcc_codec c_rd]. unfold avcc_rd, set_rd. tame_step.
  - cbn [vvnc_codec c_rd]. unfold vvnc_rd, get_full. cons_step.
  - cbn [vvnc_codec c_rd]. unfold vvnc_rd, get_full. tame_step.
Qed.
Print Assumptions C61_any_avcC.
(* hvcC: nine arrays overrun the structure; a profile space, a tier,
   constraint flags or more temporal layers are gone after reading and
   writing *)
Definition hvcc_head : list N := [1; 1] ++ be32 1610612736 ++ repeat 0 6 ++ [93; 240; 0; 252; 253; 248; 248; 0; 0; 15].
Theorem C61_nine_arrays_refuted :
  read_box hvcc_codec (mkHvcc 0 0 0 0 0 0 0 0 0 0 []) (box (code "hvcC") (hvcc_head ++ [9] ++ flat_map (fun t => [t; 0; 0]) [32; 33; 34; 35; 36; 37; 38; 39; 40])) = UB.
Proof. vm_compute. reflexivity. Qed.
Print Assumptions C61_nine_arrays_refuted.
Definition tier_box : list N := box (code "hvcC") ([1; 33] ++ be32 1610612736 ++ [144; 0; 0; 0; 0; 0] ++ [93; 240; 0; 252; 253; 248; 248; 0; 0; 15; 0]).
Theorem C61_profile_lost_refuted :
  exists a rest, read_box hvcc_codec (mkHvcc 0 0 0 0 0 0 0 0 0 0 []) tier_box = Ok ((ALeaf _ a, 31), rest) /\ hc_idc a = 1 /\
    write_box hvcc_codec a = Ok (box (code "hvcC") (hvcc_head ++ [0])) /\ box (code "hvcC") (hvcc_head ++ [0]) <> tier_box.
Proof. eexists. eexists. split; [vm_compute; reflexivity|]. split; [reflexivity|]. split; [vm_compute; reflexivity|vm_compute; discriminate]. Qed.
Print Assumptions C61_profile_lost_refuted.
(* avcC of a high profile without the four bytes: the reader takes them from
   the box after *)
Theorem C61_short_avcC_refuted :
  exists a rest, read_box avcc_codec (mkAvcc 0 0 0 false 0 [] [] 0 0 0 []) (box (code "avcC") [1; 100; 0; 30; 255; 224; 0] ++ [1; 2; 3; 0; 77]) = Ok ((ALeaf _ a, 15), rest) /\
    ac_chroma a = 1 /\ rest = [77].
Proof. eexists. eexists. split; [vm_compute; reflexivity|]. split; reflexivity. Qed.
Print Assumptions C61_short_avcC_refuted.

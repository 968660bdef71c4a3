(* HeaderProofs.v *)
From Verif Require Import Base Codec AtomModel AtomProofs BoxModel BoxSpec BoxProofs HeaderBoxModel HeaderModel HeaderSpec.

Ltac conj := repeat match goal with H : _ /\ _ |- _ => destruct H end.
Ltac pall := repeat first [progress pauto | match goal with |- parses _ (rbind (take _) _) _ _ => pnext; [apply parses_take_eq; unfold len in *; lia|] end].
Ltac fields H := repeat match type of H with _ /\ _ => let A := fresh "F" in destruct H as [A H] end.
Ltac pfix :=
  lazymatch goal with
  | |- parses _ (rbind (rbind _ _) _) _ _ => pnext; [pfix|cbv beta iota]; pfix
  | |- parses _ (rbind (if ?b then _ else _) _) _ _ =>
      match goal with E : b = _ |- _ => rewrite E end; cbv iota; pfix
  | |- parses _ (rbind (take _) _) _ _ => pnext; [apply parses_take_eq; unfold len in *; lia|]; pfix
  | |- parses _ (rbind _ _) _ _ => pauto; cbv beta iota; pfix
  | |- parses _ (rret _) _ _ => pnext
  | _ => idtac
  end.
Ltac fixed_box cd ly sz wt rdr :=
  split; [intros t _; plain|];
  let t := fresh "t" in let Ht := fresh "Ht" in
  intros t Ht _; unfold cd, ly in *;
  cbn [c_size c_w c_rd l_body l_view l_ok c_ty] in *;
  unfold sz, wt, rdr, time_ok in *; fields Ht;
  try match goal with |- context[if ?b then _ else _] => destruct b eqn:? end;
  (split; [lens; lia|split;
    [first [apply writes_full_seq; wstep | apply writes_full | wstep]
    |pfix; destruct t; reflexivity]]).
Ltac short_box ly :=
  let H := fresh in intros H; unfold ly in *; cbn [l_body l_ok] in *; fields H;
  try match goal with |- context[if ?b then _ else _] => destruct b end; lens; lia.


Lemma mvhd_robust : robust mvhd_codec.
Proof. robust_tac mvhd_read. Qed.
Lemma mvhd_exact : exact mvhd_codec mvhd_layout.
Proof. fixed_box mvhd_codec mvhd_layout mvhd_size mvhd_write mvhd_read. Qed.
Lemma mvhd_short a : l_ok mvhd_layout a -> 8 + len (l_body mvhd_layout a) < 4294967296.
Proof. short_box mvhd_layout. Qed.
Lemma tkhd_robust : robust tkhd_codec.
Proof. robust_tac tkhd_read. Qed.
Lemma tkhd_exact : exact tkhd_codec tkhd_layout.
Proof. fixed_box tkhd_codec tkhd_layout tkhd_size tkhd_write tkhd_read. Qed.
Lemma tkhd_short a : l_ok tkhd_layout a -> 8 + len (l_body tkhd_layout a) < 4294967296.
Proof. short_box tkhd_layout. Qed.
Lemma mdhd_robust : robust mdhd_codec.
Proof. robust_tac mdhd_read. Qed.
Lemma mdhd_exact : exact mdhd_codec mdhd_layout.
Proof. fixed_box mdhd_codec mdhd_layout mdhd_size mdhd_write mdhd_read. Qed.
Lemma mdhd_short a : l_ok mdhd_layout a -> 8 + len (l_body mdhd_layout a) < 4294967296.
Proof. short_box mdhd_layout. Qed.
Lemma smhd_robust : robust smhd_codec.
Proof. robust_tac smhd_read. Qed.
Lemma smhd_exact : exact smhd_codec smhd_layout.
Proof. fixed_box smhd_codec smhd_layout smhd_size smhd_write smhd_read. Qed.
Lemma smhd_short a : l_ok smhd_layout a -> 8 + len (l_body smhd_layout a) < 4294967296.
Proof. short_box smhd_layout. Qed.
Lemma hmhd_robust : robust hmhd_codec.
Proof. robust_tac hmhd_read. Qed.
Lemma hmhd_exact : exact hmhd_codec hmhd_layout.
Proof. fixed_box hmhd_codec hmhd_layout hmhd_size hmhd_write hmhd_read. Qed.
Lemma hmhd_short a : l_ok hmhd_layout a -> 8 + len (l_body hmhd_layout a) < 4294967296.
Proof. short_box hmhd_layout. Qed.
Lemma nmhd_robust : robust nmhd_codec.
Proof. robust_tac nmhd_read. Qed.
Lemma nmhd_exact : exact nmhd_codec nmhd_layout.
Proof. fixed_box nmhd_codec nmhd_layout nmhd_size nmhd_write nmhd_read. Qed.
Lemma nmhd_short a : l_ok nmhd_layout a -> 8 + len (l_body nmhd_layout a) < 4294967296.
Proof. short_box nmhd_layout. Qed.
Lemma odhd_robust : robust odhd_codec.
Proof. robust_tac odhd_read. Qed.
Lemma odhd_exact : exact odhd_codec odhd_layout.
Proof. fixed_box odhd_codec odhd_layout odhd_size odhd_write odhd_read. Qed.
Lemma odhd_short a : l_ok odhd_layout a -> 8 + len (l_body odhd_layout a) < 4294967296.
Proof. short_box odhd_layout. Qed.
Lemma crhd_robust : robust crhd_codec.
Proof. robust_tac crhd_read. Qed.
Lemma crhd_exact : exact crhd_codec crhd_layout.
Proof. fixed_box crhd_codec crhd_layout crhd_size crhd_write crhd_read. Qed.
Lemma crhd_short a : l_ok crhd_layout a -> 8 + len (l_body crhd_layout a) < 4294967296.
Proof. short_box crhd_layout. Qed.
Lemma sdhd_robust : robust sdhd_codec.
Proof. robust_tac sdhd_read. Qed.
Lemma sdhd_exact : exact sdhd_codec sdhd_layout.
Proof. fixed_box sdhd_codec sdhd_layout sdhd_size sdhd_write sdhd_read. Qed.
Lemma sdhd_short a : l_ok sdhd_layout a -> 8 + len (l_body sdhd_layout a) < 4294967296.
Proof. short_box sdhd_layout. Qed.
Lemma vvhd_robust : robust vvhd_codec.
Proof. robust_tac vvhd_read. Qed.
Lemma vvhd_exact : exact vvhd_codec vvhd_layout.
Proof. fixed_box vvhd_codec vvhd_layout vvhd_size vvhd_write vvhd_read. Qed.
Lemma vvhd_short a : l_ok vvhd_layout a -> 8 + len (l_body vvhd_layout a) < 4294967296.
Proof. short_box vvhd_layout. Qed.
Lemma mfhd_robust : robust mfhd_codec.
Proof. robust_tac mfhd_read. Qed.
Lemma mfhd_exact : exact mfhd_codec mfhd_layout.
Proof. fixed_box mfhd_codec mfhd_layout mfhd_size mfhd_write mfhd_read. Qed.
Lemma mfhd_short a : l_ok mfhd_layout a -> 8 + len (l_body mfhd_layout a) < 4294967296.
Proof. short_box mfhd_layout. Qed.
Lemma trex_robust : robust trex_codec.
Proof. robust_tac trex_read. Qed.
Lemma trex_exact : exact trex_codec trex_layout.
Proof. fixed_box trex_codec trex_layout trex_size trex_write trex_read. Qed.
Lemma trex_short a : l_ok trex_layout a -> 8 + len (l_body trex_layout a) < 4294967296.
Proof. short_box trex_layout. Qed.
Lemma pitm_robust : robust pitm_codec.
Proof. robust_tac pitm_read. Qed.
Lemma pitm_exact : exact pitm_codec pitm_layout.
Proof. fixed_box pitm_codec pitm_layout pitm_size pitm_write pitm_read. Qed.
Lemma pitm_short a : l_ok pitm_layout a -> 8 + len (l_body pitm_layout a) < 4294967296.
Proof. short_box pitm_layout. Qed.
Lemma mere_robust : robust mere_codec.
Proof. robust_tac mere_read. Qed.
Lemma mere_exact : exact mere_codec mere_layout.
Proof. fixed_box mere_codec mere_layout mere_size mere_write mere_read. Qed.
Lemma mere_short a : l_ok mere_layout a -> 8 + len (l_body mere_layout a) < 4294967296.
Proof. short_box mere_layout. Qed.
Lemma prft_robust : robust prft_codec.
Proof. robust_tac prft_read. Qed.
Lemma prft_exact : exact prft_codec prft_layout.
Proof. fixed_box prft_codec prft_layout prft_size prft_write prft_read. Qed.
Lemma prft_short a : l_ok prft_layout a -> 8 + len (l_body prft_layout a) < 4294967296.
Proof. short_box prft_layout. Qed.
Lemma frma_robust : robust frma_codec.
Proof. robust_tac frma_read. Qed.
Lemma frma_exact : exact frma_codec frma_layout.
Proof. fixed_box frma_codec frma_layout frma_size frma_write frma_read. Qed.
Lemma frma_short a : l_ok frma_layout a -> 8 + len (l_body frma_layout a) < 4294967296.
Proof. short_box frma_layout. Qed.
Lemma pcmC_robust : robust pcmC_codec.
Proof. robust_tac pcmC_read. Qed.
Lemma pcmC_exact : exact pcmC_codec pcmC_layout.
Proof. fixed_box pcmC_codec pcmC_layout pcmC_size pcmC_write pcmC_read. Qed.
Lemma pcmC_short a : l_ok pcmC_layout a -> 8 + len (l_body pcmC_layout a) < 4294967296.
Proof. short_box pcmC_layout. Qed.

Lemma vmhd_robust : robust vmhd_codec.
Proof. robust_tac vmhd_read. Qed.
Lemma vmhd_exact : exact vmhd_codec vmhd_layout.
Proof.
  split; [intros t _; plain|]. intros t Ht _. unfold vmhd_codec, vmhd_layout in *.
  cbn [c_size c_w c_rd l_body l_view l_ok c_ty] in *. unfold vmhd_size, vmhd_write, vmhd_read. fields Ht.
  split; [lens; lia|]. split; [apply writes_full_seq; wstep|].
  pauto. pauto. cbn [h_size]. match goal with |- context[if ?b then _ else _] => assert (b = true) as -> end.
  { apply N.eqb_eq. unfold sub32, w32. lens. lia. }
  cbv iota. pfix. destruct t. reflexivity.
Qed.
Lemma tfdt_robust : robust tfdt_codec.
Proof. robust_tac tfdt_read. Qed.
Lemma tfdt_exact : exact tfdt_codec tfdt_layout.
Proof.
  split; [intros t _; plain|]. intros [v f t] (Hv & Hf & Ht) _. unfold tfdt_codec, tfdt_layout in *.
  cbn [c_size c_w c_rd l_body l_view l_ok c_ty td_ver td_flags td_time] in *.
  unfold tfdt_size, tfdt_write, tfdt_read, time_ok in *. cbn [td_ver td_flags td_time].
  assert (O : full_ok v f) by (unfold full_ok; lia).
  destruct Hv as [-> | ->].
  - change (0 =? 1) with false in *. change (0 =? 0) with true. cbv iota in *.
    split; [lens; lia|]. split; [apply writes_full_seq; wstep|].
    pauto. cbn [fst snd]. change (0 =? 1) with false. change (0 =? 0) with true. cbv iota. pauto. pauto.
  - change (1 =? 1) with true in *. cbv iota in *.
    split; [lens; lia|]. split; [apply writes_full_seq; wstep|].
    pauto. cbn [fst snd]. change (1 =? 1) with true. cbv iota. pauto. pauto.
Qed.
Lemma btrt_robust : robust btrt_codec.
Proof. robust_tac btrt_read. Qed.
Lemma btrt_exact : exact btrt_codec btrt_layout.
Proof.
  split; [intros [g b m a] _; unfold btrt_codec, btrt_layout; cbn [c_ty l_ty l_view c_known]; unfold btrt_type; destruct g; plain|].
  intros [g b m a] (Hb & Hm & Ha & Hg) _. unfold btrt_codec, btrt_layout in *.
  cbn [c_size c_w c_rd l_body l_view l_ok c_ty bt_3gpp bt_buffer bt_max bt_avg] in *.
  unfold btrt_size, btrt_write, btrt_read, btrt_type in *. cbn [bt_3gpp bt_buffer bt_max bt_avg h_type] in *.
  destruct g.
  - rewrite (Hg eq_refl). change (1651078258 =? 1651798644) with false. cbv iota.
    split; [lens; lia|]. split; [wstep|]. pauto. pauto. pauto.
  - change (1651798644 =? 1651798644) with true. cbv iota.
    split; [lens; lia|]. split; [wstep|]. pauto. pauto. pauto. pauto.
Qed.

Lemma vmhd_short a : l_ok vmhd_layout a -> 8 + len (l_body vmhd_layout a) < 4294967296.
Proof. short_box vmhd_layout. Qed.
Lemma tfdt_short a : l_ok tfdt_layout a -> 8 + len (l_body tfdt_layout a) < 4294967296.
Proof. short_box tfdt_layout. Qed.
Lemma btrt_short a : l_ok btrt_layout a -> 8 + len (l_body btrt_layout a) < 4294967296.
Proof. short_box btrt_layout. Qed.

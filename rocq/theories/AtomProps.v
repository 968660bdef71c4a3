(* AtomProps.v -- C04, C05, C06 *)
From Verif Require Import Base Codec AtomModel AtomSpec AtomProofs HeaderBoxModel.

(* ------------------------------------------------------------------ *)
(* C04: headers                                                        *)

(* a header with a 32-bit size (any size the header itself fits in that the
   input can hold) *)
Theorem C04_header_32bit :
  forall size ty body r, ty < 4294967296 -> ty <> T_uuid -> size < 4294967296 ->
    size = 8 + len body ->
    exists hb, wrun 8 (write_base size 0 ty) = Ok hb /\ len hb = 8 /\
      parse_hdr (mkR (hb ++ body ++ r) 0) = Ok (mkH size 0 ty [] 8, mkR (body ++ r) 8).
Proof.
  intros size ty body r Ht Hu Hs ->. exists (be32 (8 + len body) ++ be32 ty). split; [|split; [reflexivity|]].
  - apply writes_run; [|lens; lia|lia]. apply writes_base. lia.
  - rewrite <- app_assoc. rewrite !app_assoc. rewrite <- (app_assoc _ _ body). apply parse_hdr_box; assumption.
Qed.
Print Assumptions C04_header_32bit.

(* a header with size field 1 and a 64-bit size *)
Theorem C04_header_64bit :
  forall size64 ty rest, ty < 4294967296 -> ty <> T_uuid -> size64 < 18446744073709551616 ->
    exists hb, wrun 16 (write_base 1 size64 ty) = Ok hb /\ len hb = 16 /\
      parse_hdr (mkR (hb ++ rest) 0) = Ok (mkH 1 size64 ty [] 16, mkR rest 16).
Proof.
  intros size64 ty rest Ht Hu Hs. exists (be32 1 ++ be32 ty ++ be64 size64).
  split; [|split; [reflexivity|]].
  - apply writes_run; [|lens; lia|lia]. unfold write_base. change (1 =? 1) with true. cbn iota. wstep.
  - unfold parse_hdr. rewrite <- !app_assoc. unfold rbind at 1.
    rewrite (proj1 (parses_get32 0 1 ltac:(lia))). cbn [inp].
    change (1 =? 0) with false. change (1 =? 1) with true. cbn [negb andb]. cbn iota.
    unfold rbind. rewrite (proj1 (parses_get32 _ ty Ht)).
    destruct (N.eqb_spec ty T_uuid); [contradiction|]. unfold rret at 1.
    rewrite (proj1 (parses_get64 _ size64 Hs)). reflexivity.
Qed.
Print Assumptions C04_header_64bit.

(* version and flags of a full box *)
Theorem C04_full_header :
  forall size size64 ty ver flags rest, ver < 256 -> flags < 16777216 -> size < 4294967296 ->
    exists hb vf, wrun 20 (write_full size size64 ty ver flags) = Ok (hb ++ vf) /\
      wrun 20 (write_base size size64 ty) = Ok hb /\ len vf = 4 /\
      forall n, exists st, get_full (mkR (vf ++ rest) n) = Ok ((ver, flags), st) /\ inp st = rest.
Proof.
  intros size size64 ty ver flags rest Hv Hf Hs.
  exists (be32 size ++ be32 ty ++ if size =? 1 then be64 size64 else []), (be8 ver ++ be24 flags).
  assert (W : writes (write_base size size64 ty) (be32 size ++ be32 ty ++ if size =? 1 then be64 size64 else [])).
  { unfold write_base. destruct (size =? 1); wstep. }
  repeat split.
  - apply writes_run; [|destruct (size =? 1); lens; lia|lia].
    unfold write_full. apply writes_seq; [exact W|wstep].
  - apply writes_run; [exact W|destruct (size =? 1); lens; lia|lia].
  - intros n. eexists. unfold get_full, rbind, be8, be24, get32. cbn [app inp rdn]. unfold rret.
    set (v := _ * 16777216 + _ * 65536 + _ * 256 + _).
    assert (E : v = ver * 16777216 + flags) by (unfold v; lia).
    rewrite N.shiftr_div_pow2. change (2 ^ 24) with 16777216.
    replace (v / 16777216) with ver by lia.
    change 16777215 with (N.ones 24). rewrite N.land_ones. change (2 ^ 24) with 16777216.
    replace (v mod 16777216) with flags by lia. split; reflexivity.
Qed.
Print Assumptions C04_full_header.

(* A box whose size field is 0 (extends to the end of the file) in a file
   with at least 2^32 - 4 bytes left is not read as such: eight bytes of its
   contents are taken for a 64-bit size. *)
Theorem C04_size0_large_refuted :
  forall ty x rest, ty < 4294967296 -> ty <> T_uuid -> x < 18446744073709551616 ->
    4294967296 <= 4 + len (be32 ty ++ be64 x ++ rest) ->
    parse_hdr (mkR (be32 0 ++ be32 ty ++ be64 x ++ rest) 0) = Ok (mkH 1 x ty [] 16, mkR rest 16).
Proof.
  intros ty x rest Ht Hu Hx Hl.
  unfold parse_hdr. unfold rbind at 1.
  rewrite (proj1 (parses_get32 0 0 ltac:(lia))). cbn [inp]. rewrite N.eqb_refl.
  rewrite StreamProofs.shiftr32.
  destruct (N.ltb_spec (len (be32 ty ++ be64 x ++ rest) + 4) 4294967296); [lia|]. cbn [negb].
  change (1 =? 1) with true. cbn [negb andb].
  unfold rbind. rewrite (proj1 (parses_get32 _ ty Ht)).
  destruct (N.eqb_spec ty T_uuid); [contradiction|]. unfold rret at 1.
  rewrite (proj1 (parses_get64 _ x Hx)). reflexivity.
Qed.
Print Assumptions C04_size0_large_refuted.

(* ------------------------------------------------------------------ *)
(* C05: termination and containment                                    *)

(* A family of box codecs: type code -> parser of the contents *)
Definition codec_robust {L} (leafP : N -> option (hdr -> rd L)) : Prop :=
  forall ty p h, leafP ty = Some p -> safe (p h).

Theorem C05_parse_terminates_inside :
  forall L (leafP : N -> option (hdr -> rd L)) leafType dflt, codec_robust leafP ->
  forall i, bytes i ->
  let out := parse_top L leafP leafType dflt i in
  (* an outcome, which is a library result *)
  snd out <> UB /\ snd out <> Err OutOfFuel /\
  (* a box consumes a prefix, leaves the rest; tree size and depth are
     bounded by the bytes consumed *)
  (forall a sz rest, snd out = Ok ((a, sz), rest) ->
     exists pre, i = pre ++ rest /\ 8 <= len pre /\ nboxes L a <= len pre /\
       8 * depth L a <= len pre + 8) /\
  (* and so is the work, unless a box announced a 64-bit size *)
  (snd (fst out) = false -> fst (fst out) <= len i + 1).
Proof.
  intros L leafP leafType dflt HC i Hb. cbv zeta. unfold parse_top.
  destruct (proj1 (parse_good L leafP leafType dflt
     HC (length i + 3)) i Hb ltac:(lia))
    as (A & B & C & D).
  split; [assumption|]. split; [assumption|]. split; [|assumption].
  intros a sz rest E. destruct (C _ _ _ E) as (pre & P1 & P2 & P3 & P4 & _). exists pre. auto.
Qed.
Print Assumptions C05_parse_terminates_inside.

(* the recursion bound of the model is not what makes it terminate: any
   bound above the input length gives the same result *)
Theorem C05_bound_irrelevant :
  forall L (leafP : N -> option (hdr -> rd L)) leafType dflt, codec_robust leafP ->
  forall i f, bytes i -> (length i < f)%nat ->
    parse_atom L leafP leafType dflt f i = parse_top L leafP leafType dflt i.
Proof.
  intros L leafP leafType dflt HC i f Hb Hf. unfold parse_top.
  apply fuel_irrelevant; try assumption. lia.
Qed.
Print Assumptions C05_bound_irrelevant.

(* a concrete family: the video media header box *)
Definition vmhdP (ty : N) : option (hdr -> rd vmhd) := if ty =? T_vmhd then Some vmhd_read else None.
Lemma vmhd_robust : codec_robust vmhdP.
Proof.
  intros ty p h E. unfold vmhdP in E. destruct (ty =? T_vmhd); [|discriminate]. injection E as <-.
  unfold vmhd_read, get_full. apply safe_of.
  - apply consumes_bind; [apply consumes_bind; [apply consumes_get32|intros; apply consumes_ret]|intros vf].
    apply consumes_bind; [apply consumes_getrdn|intros br].
    destruct (sub32 (h_size h) br =? 8); [|apply consumes_ret].
    repeat (apply consumes_bind; [apply consumes_get16|intros]). apply consumes_ret.
  - apply tame_bind; [apply tame_bind; [apply tame_get32|intros; apply tame_ret]|intros vf].
    apply tame_bind; [apply tame_getrdn|intros br].
    destruct (sub32 (h_size h) br =? 8); [|apply tame_ret].
    repeat (apply tame_bind; [apply tame_get16|intros]). apply tame_ret.
Qed.

(* The step bound fails with 64-bit sizes: for every N below 2^64 a 20 byte
   file makes the parser iterate N - 20 times over an exhausted input before
   it returns success. *)
Theorem C05_steps_bounded_refuted :
  forall size64, 20 <= size64 -> size64 < 18446744073709551616 ->
  let file := be32 1 ++ be32 T_vmhd ++ be64 size64 ++ be32 0 in
  len file = 20 /\
  parse_top vmhd vmhdP (fun _ => T_vmhd) (fun _ => mkVmhd 0 0 0 0 0 0) file =
    ((1 + (0 + (size64 - 20)), true), Ok ((ALeaf vmhd (mkVmhd 0 0 0 0 0 0), 1), [])).
Proof.
  intros size64 H1 H2 file. split; [reflexivity|].
  unfold parse_top. change (length file + 3)%nat with 23%nat.
  rewrite parse_atom_S. unfold file at 1.
  destruct (C04_header_64bit size64 T_vmhd (be32 0) ltac:(vm_compute; reflexivity) ltac:(vm_compute; discriminate) H2)
    as (hb & W & _ & E).
  assert (Eh : hb = be32 1 ++ be32 T_vmhd ++ be64 size64).
  { assert (W' : wrun 16 (write_base 1 size64 T_vmhd) = Ok (be32 1 ++ be32 T_vmhd ++ be64 size64)).
    { apply writes_run; [|lens; lia|lia]. unfold write_base. change (1 =? 1) with true. cbn iota. wstep. }
    rewrite W' in W. injection W as W. exact (eq_sym W). }
  rewrite Eh in E. rewrite <- !app_assoc in E.
  unfold cbind, cret. cbn [fst snd]. rewrite E. cbn [fst snd inp].
  unfold body_of. cbn [h_type]. change (is_container T_vmhd) with false. change (is_free T_vmhd) with false.
  unfold vmhdP. rewrite N.eqb_refl.
  unfold cret. cbn [fst snd h_read h_size].
  assert (Ev : vmhd_read (mkH 1 size64 T_vmhd [] 16) (mkR (be32 0) 16) = Ok (mkVmhd 0 0 0 0 0 0, mkR [] 20)).
  { unfold vmhd_read, get_full, rbind. rewrite <- (app_nil_r (be32 0)).
    rewrite (proj1 (parses_get32 16 0 ltac:(lia))). reflexivity. }
  rewrite Ev. cbn [bind fst snd inp]. change (len file - len []) with 20.
  unfold skip_count. cbn [h_size h_size64]. change (1 =? 1) with true. cbn iota.
  assert (St : forall n, skip_tail n [] = []) by (intros; unfold skip_tail; rewrite skipn_nil; reflexivity).
  rewrite St. reflexivity.
Qed.
Print Assumptions C05_steps_bounded_refuted.

(* hostile input: nested containers, a truncated child *)
Example C05_case :
  let file := be32 24 ++ be32 T_moov ++ be32 16 ++ be32 T_trak ++ be32 9 ++ be32 T_vmhd ++ [0] in
  bytes file /\
  snd (parse_top vmhd vmhdP (fun _ => T_vmhd) (fun _ => mkVmhd 0 0 0 0 0 0) file) = Err MP4IOErr.
Proof. split; [repeat constructor; vm_compute; reflexivity | vm_compute; reflexivity]. Qed.

(* ------------------------------------------------------------------ *)
(* C06: trees                                                          *)

(* what the tree needs of the codecs of the boxes in it *)
Record codec_exact {L} (leafP : N -> option (hdr -> rd L)) (leafType leafSize : L -> N) (leafW : L -> wr)
    (leafBody : L -> list N) (leafView : L -> L) (leafKnown : N -> bool) (leafOk : L -> Prop) : Prop := {
  ce_known : forall ty, leafKnown ty = false -> leafP ty = None;
  ce_type : forall l, leafOk l ->
    leafType l < 4294967296 /\ leafType l <> T_uuid /\ is_container (leafType l) = false /\
    is_free (leafType l) = false /\ leafType (leafView l) = leafType l;
  ce_write : forall l, leafOk l -> 8 + len (leafBody l) < 4294967296 ->
    leafSize l = 8 + len (leafBody l) /\ writes (leafW l) (leafBody l);
  ce_parse : forall l r, leafOk l -> 8 + len (leafBody l) < 4294967296 ->
    exists p n, leafP (leafType l) = Some p /\
      p (mkH (8 + len (leafBody l)) 0 (leafType l) [] 8) (mkR (leafBody l ++ r) 8) = Ok (leafView l, mkR r n) }.

Theorem C06_tree_round_trip :
  forall L leafP leafType leafSize leafW dflt leafBody leafView leafKnown leafOk,
  @codec_exact L leafP leafType leafSize leafW leafBody leafView leafKnown leafOk ->
  forall a rest, wf L leafType leafKnown leafOk a ->
  let bs := enc L leafType leafBody a in
  len bs < 4294967296 ->
  (* announced size = bytes written = the layout of the specification *)
  asize L leafType leafSize a = len bs /\
  awrite L leafType leafSize leafW a = Ok bs /\
  (* reading gives the tree back, without free space, and nothing more is consumed *)
  snd (parse_top L leafP leafType dflt (bs ++ rest)) = Ok ((strip L leafView a, len bs), rest).
Proof.
  intros L leafP leafType leafSize leafW dflt leafBody leafView leafKnown leafOk [K1 K2 K3 K4] a rest Hw bs Hl.
  assert (W : asize L leafType leafSize a = len bs /\ awrite L leafType leafSize leafW a = Ok bs)
    by (eapply write_enc; eassumption).
  destruct W as [W1 W2]. split; [exact W1|]. split; [exact W2|].
  unfold parse_top.
  eapply (proj1 (A := _)). eapply parse_enc; try eassumption. unfold bs. lia.
Qed.
Print Assumptions C06_tree_round_trip.

Theorem C06_truncated_tree_rejected :
  forall L leafP leafType leafSize leafW dflt leafBody leafView leafKnown leafOk,
  @codec_exact L leafP leafType leafSize leafW leafBody leafView leafKnown leafOk ->
  forall a p q, wf L leafType leafKnown leafOk a ->
    len (enc L leafType leafBody a) < 4294967296 -> enc L leafType leafBody a = p ++ q -> q <> [] ->
  exists e, snd (parse_top L leafP leafType dflt p) = Err e /\ (e = MP4IOErr \/ e = MP4BadDataErr).
Proof.
  intros L leafP leafType leafSize leafW dflt leafBody leafView leafKnown leafOk [K1 K2 K3 K4] a p q Hw Hl E Hq.
  unfold parse_top. replace (length p + 3)%nat with (S (length p + 2)) by lia.
  eapply enc_truncated; eassumption.
Qed.
Print Assumptions C06_truncated_tree_rejected.

(* a movie with a track, free space, an opaque and a uuid box *)
Lemma vmhd_exact : codec_exact vmhdP (fun _ => T_vmhd) vmhd_size vmhd_write
   (fun v => be8 (vm_ver v) ++ be24 (vm_flags v) ++ be16 (vm_mode v) ++ be16 (vm_r v) ++ be16 (vm_g v) ++ be16 (vm_b v))
   (fun v => v) (fun ty => ty =? T_vmhd)
   (fun v => vm_ver v < 256 /\ vm_flags v < 16777216 /\ vm_mode v < 65536 /\ vm_r v < 65536 /\ vm_g v < 65536 /\ vm_b v < 65536).
Proof.
  constructor.
  - intros ty E. unfold vmhdP. rewrite E. reflexivity.
  - intros l _. vm_compute. repeat split; discriminate.
  - intros l _ _. split; [reflexivity|]. unfold vmhd_write. wstep.
  - intros l r (H1 & H2 & H3 & H4 & H5 & H6) _. destruct l as [v f m a b c]; cbn [vm_ver vm_flags vm_mode vm_r vm_g vm_b] in *.
    exists vmhd_read, 20. split; [reflexivity|]. lens. unfold vmhd_read. cbn [h_size].
    assert (P : parses 8 (let* vf := get_full in let* br := getrdn in
       if sub32 20 br =? 8 then let* m := get16 in let* r := get16 in let* g := get16 in let* b := get16 in
         rret (mkVmhd (fst vf) (snd vf) m r g b) else rret (mkVmhd (fst vf) (snd vf) 0 0 0 0))
       ((be8 v ++ be24 f) ++ be16 m ++ be16 a ++ be16 b ++ be16 c) (mkVmhd v f m a b c)).
    { pnext; [apply parses_get_full; assumption|]. cbn [fst snd].
      eapply parses_bind_nil; [intros s Es; unfold getrdn; rewrite Es; reflexivity|].
      change (sub32 20 (w32 (8 + len (be8 v ++ be24 f))) =? 8) with true. cbn iota.
      pnext; [apply parses_get16; assumption|]. pnext; [apply parses_get16; assumption|].
      pnext; [apply parses_get16; assumption|]. pnext; [apply parses_get16; assumption|]. pnext. }
    pose proof (proj1 P r) as E. rewrite <- !app_assoc in *. exact E.
Qed.
Example C06_case :
  let t := ABoxes vmhd T_moov
    [AFree _ T_free [1; 2; 3];
     ABoxes _ T_trak [ABoxes _ T_mdia [ABoxes _ T_minf [ALeaf _ (mkVmhd 0 1 7 8 9 10)]; AFree _ T_skip []]];
     AOpaque _ T_uuid [0;1;2;3;4;5;6;7;8;9;10;11;12;13;14;15] [42]; AOpaque _ T_cslg [] [5; 6]] in
  wf vmhd (fun _ => T_vmhd) (fun ty => ty =? T_vmhd)
   (fun v => vm_ver v < 256 /\ vm_flags v < 16777216 /\ vm_mode v < 65536 /\ vm_r v < 65536 /\ vm_g v < 65536 /\ vm_b v < 65536) t /\
  strip vmhd (fun v => v) t = ABoxes vmhd T_moov
    [ABoxes _ T_trak [ABoxes _ T_mdia [ABoxes _ T_minf [ALeaf _ (mkVmhd 0 1 7 8 9 10)]]];
     AOpaque _ T_uuid [0;1;2;3;4;5;6;7;8;9;10;11;12;13;14;15] [42]; AOpaque _ T_cslg [] [5; 6]].
Proof.
  split; [|reflexivity].
  cbn. repeat split; try reflexivity; try (intros; discriminate); try (repeat constructor; vm_compute; reflexivity);
   try (vm_compute; congruence);
   intros g Hg E; cbn in Hg; repeat (destruct Hg as [<-|Hg]; [first [discriminate E | repeat constructor; reflexivity]|]); destruct Hg.
Qed.

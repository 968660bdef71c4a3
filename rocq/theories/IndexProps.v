(* IndexProps.v -- C36: segment index boxes; C49: sub-sample information. *)
From Verif Require Import Base Codec BitLemmas AtomModel AtomSpec AtomProofs BoxModel BoxSpec BoxProofs Reads HeaderSpec GroupProofs IlocProofs
  IndexModel IndexSpec IndexProofs.

(* === C36: segment index === *)
(* an index without references: size, bytes, reading back, refusal of truncation *)
Theorem C36_sidx_round_trip t : sidx_fields_ok t -> sx_list t = [] -> round_trip sidx_codec sidx_layout t.
Proof.
  intros H E. apply exact_round_trip; [exact sidx_exact|split; assumption|]. cbn [sidx_layout l_body]. rewrite E. unfold sidx_head. cbn [flat_map]. lens. lia.
Qed.
Print Assumptions C36_sidx_round_trip.
Example C36_sidx_case : sidx_fields_ok (mkSidx 0 0 1 90000 17 5 0 0 []).
Proof. unfold sidx_fields_ok, full_ok, len. cbn. repeat split; try lia. constructor. Qed.
(* the bit fields of one reference: written as the standard says, and read back when the size has 15 bits *)
Theorem C36_reference_fields r n : n < 4294967296 -> sref_ok r -> sr_size r < 32768 ->
  writes (sref_write r) (sref_bytes r) /\ parses n sref_read (sref_bytes r) r.
Proof.
  intros Hn H L. split; [apply sref_writes, H|]. assert (P := sref_parses r n Hn H). unfold short_ref in P. rewrite N.mod_small in P by exact L. destruct r; exact P.
Qed.
Print Assumptions C36_reference_fields.
Example C36_reference_case : sref_ok (mkSref 1 30000 90000 1 6 1000) /\ sref_bytes (mkSref 1 30000 90000 1 6 1000) = [128; 0; 117; 48; 0; 1; 95; 144; 224; 0; 3; 232].
Proof. split; [unfold sref_ok; cbn; lia|reflexivity]. Qed.
(* untrusted input *)
Theorem C36_sidx_robust : robust sidx_codec.
Proof. exact sidx_robust. Qed.
Print Assumptions C36_sidx_robust.
(* the references are written one after the other *)
Theorem C36_sidx_bytes t : sidx_fields_ok t -> 32 + 16 * len (sx_list t) < 4294967296 ->
  write_box sidx_codec t = Ok (be32 (32 + 16 * len (sx_list t)) ++ be32 (code "sidx") ++ sidx_head t ++ flat_map sref_bytes (sx_list t)).
Proof.
  intros (H1 & H2 & H3 & H4 & H5 & H6 & H7 & H8 & H9) L. unfold write_box. cbn [awrite].
  assert (S : c_size sidx_codec t = 32 + 16 * len (sx_list t)) by (cbn [sidx_codec c_size]; unfold sidx_size; rewrite H7; lia). rewrite S.
  apply writes_run.
  - rewrite app_assoc. apply writes_seq; [apply writes_base; lia|]. cbn [sidx_codec c_w]. unfold sidx_write, sidx_head. rewrite H7. rewrite <- !app_assoc. apply writes_full_seq.
    do 6 (apply writes_seq; [wstep|]). unfold len. rewrite Nat2N.id. apply srefs_writes, H9.
  - unfold sidx_head. rewrite !len_app, len_full, !len_be32, !len_be16. rewrite (len_flat_map_const _ 12) by reflexivity. lia.
  - exact L.
Qed.
Print Assumptions C36_sidx_bytes.
Example C36_sidx_bytes_case : sidx_fields_ok (mkSidx 0 0 1 90000 17 5 0 2 [mkSref 0 100 200 1 1 0; mkSref 0 101 200 0 0 0]).
Proof. unfold sidx_fields_ok, full_ok, len. cbn. repeat split; try lia. repeat constructor; cbn; lia. Qed.

(* --- where the code departs --- *)
(* The size announced is too large by four bytes for every reference. *)
Theorem C36_sidx_size_refuted t : sidx_fields_ok t -> sx_list t <> [] -> 32 + 16 * len (sx_list t) < 4294967296 ->
  exists bs, write_box sidx_codec t = Ok bs /\ c_size sidx_codec t = len bs + 4 * len (sx_list t) /\ len bs < c_size sidx_codec t.
Proof.
  intros H N L. eexists. split; [apply (C36_sidx_bytes t H L)|]. destruct H as (_ & _ & _ & _ & _ & _ & H7 & _).
  assert (S : c_size sidx_codec t = 32 + 16 * len (sx_list t)) by (cbn [sidx_codec c_size]; unfold sidx_size; rewrite H7; lia). rewrite S.
  unfold sidx_head. rewrite !len_app, len_full, !len_be32, !len_be16. rewrite (len_flat_map_const _ 12) by reflexivity.
  destruct (sx_list t) as [|r l]; [contradiction|]. rewrite len_cons. lia.
Qed.
Print Assumptions C36_sidx_size_refuted.
(* A correct index with n > 0 references makes the reader go on for 65536 - n references: it fails
   unless that many bytes follow. *)
Theorem C36_sidx_read_refuted t rest dflt : sidx_fields_ok t -> sx_list t <> [] -> 12 * len (sx_list t) + len rest < 12 * (65536 - len (sx_list t)) ->
  read_box sidx_codec dflt (box (code "sidx") (sidx_head t ++ flat_map sref_bytes (sx_list t)) ++ rest) = Err MP4IOErr.
Proof.
  intros (H1 & H2 & H3 & H4 & H5 & H6 & H7 & H8 & H9) N L.
  assert (B : len (sidx_head t ++ flat_map sref_bytes (sx_list t)) = 24 + 12 * len (sx_list t)).
  { unfold sidx_head. rewrite !len_app, len_full, !len_be32, !len_be16. rewrite (len_flat_map_const _ 12) by reflexivity. lia. }
  rewrite read_box_is; [|plain|reflexivity|lia]. cbn [sidx_codec c_rd].
  set (n := len (sx_list t)) in *. assert (P : 0 < n) by (unfold n; destruct (sx_list t); [contradiction|rewrite len_cons; lia]).
  generalize (mkH (8 + len (sidx_head t ++ flat_map sref_bytes (sx_list t))) 0 (code "sidx") [] 8). intros h. unfold sidx_read, sidx_head. fold n. rewrite <- !app_assoc.
  unfold rbind. rewrite (proj1 (parses_full 8 _ _ H1)). rewrite (proj1 (parses_get32 _ _ H2)). rewrite (proj1 (parses_get32 _ _ H3)).
  rewrite (proj1 (parses_get32 _ _ H4)). rewrite (proj1 (parses_get32 _ _ H5)). rewrite (proj1 (parses_get16 _ _ H6)). rewrite (proj1 (parses_get16 _ n ltac:(lia))).
  rewrite sidx_loop by lia. unfold rbind. rewrite srefs_short; [reflexivity|]. cbn [inp]. rewrite len_app, (len_flat_map_const _ 12) by reflexivity. fold n. lia.
Qed.
Print Assumptions C36_sidx_read_refuted.
Example C36_sidx_read_case : let t := mkSidx 0 0 1 90000 17 5 0 2 [mkSref 0 100 200 1 1 0; mkSref 0 101 200 0 0 0] in
  12 * len (sx_list t) + len (repeat 0 1000) < 12 * (65536 - len (sx_list t)).
Proof. cbv zeta. rewrite len_repeat. unfold len. cbn [sx_list length]. lia. Qed.
(* If they follow, 65536 - n references are read, most of them from what comes after the box, and the
   number of references is then taken to be 0. *)
Theorem C36_sidx_overrun_refuted n s l s' : 0 < n < 65536 -> srefs_read (N.to_nat 65536) 0 n s = Ok (l, s') -> fst l = 0 /\ len (snd l) = 65536 - n.
Proof.
  intros H E. rewrite sidx_loop in E by exact H. unfold rbind in E. destruct (rrep (N.to_nat (65536 - n)) sref_read s) as [[r s1]| |] eqn:R; [|discriminate..].
  injection E as <- <-. cbn [fst snd]. split; [reflexivity|]. assert (Q : forall k u v w, rrep k sref_read u = Ok (v, w) -> length v = k).
  { induction k as [|k IH]; intros u v w Q; cbn [rrep] in Q; [injection Q as <- <-; reflexivity|]. unfold rbind in Q. destruct (sref_read u) as [[a u1]| |]; [|discriminate..].
    destruct (rrep k sref_read u1) as [[b u2]| |] eqn:R2; [|discriminate..]. injection Q as <- <-. cbn [length]. f_equal. eapply IH, R2. }
  apply Q in R. unfold len. lia.
Qed.
Print Assumptions C36_sidx_overrun_refuted.
(* Sizes of 32768 or more are cut. *)
Theorem C36_size_mask_refuted r n : n < 4294967296 -> sref_ok r -> 32768 <= sr_size r ->
  parses n sref_read (sref_bytes r) (short_ref r) /\ sr_size (short_ref r) < sr_size r.
Proof. intros Hn H L. split; [apply sref_parses; assumption|]. cbn [short_ref sr_size]. lia. Qed.
Print Assumptions C36_size_mask_refuted.

(* === C36: subsegment index === *)
(* every correct box is read right *)
Theorem C36_ssix_reads t dflt rest : ssix_fields_ok t -> 8 + len (ssix_body t) < 4294967296 ->
  read_box ssix_codec dflt (box (code "ssix") (ssix_body t) ++ rest) = Ok ((ALeaf ssix t, 8 + len (ssix_body t)), rest).
Proof.
  intros H L. rewrite read_box_is; [|plain|reflexivity|exact L]. cbn [ssix_codec c_rd]. rewrite (proj1 (ssix_parses t 8 ltac:(lia) H _)). cbn [inp].
  assert (E : 8 + len (ssix_body t) - (len (box (code "ssix") (ssix_body t) ++ rest) - len rest) = 0) by (rewrite len_app, len_box; lia). rewrite E.
  unfold skip_tail. rewrite N.min_0_l. reflexivity.
Qed.
Print Assumptions C36_ssix_reads.
Example C36_ssix_reads_case : ssix_fields_ok (mkSsix 0 0 [[mkSrange 1 100; mkSrange 2 200]; [mkSrange 255 16777215]]).
Proof. split; [split; cbn; lia|]. split; [unfold len; cbn; lia|]. repeat constructor; unfold len; cbn; lia. Qed.
Theorem C36_ssix_round_trip t : ssix_fields_ok t -> ssix_plain t -> 8 + len (ssix_body t) < 4294967296 -> round_trip ssix_codec ssix_layout t.
Proof. intros H P L. apply exact_round_trip; [exact ssix_exact|split; assumption|exact L]. Qed.
Print Assumptions C36_ssix_round_trip.
Example C36_ssix_case : let t := mkSsix 0 0 [[mkSrange 0 100]; []; [mkSrange 0 7; mkSrange 0 7; mkSrange 0 7]] in ssix_fields_ok t /\ ssix_plain t.
Proof.
  cbv zeta. split.
  - split; [split; cbn; lia|]. split; [unfold len; cbn; lia|]. repeat constructor; unfold len; cbn; lia.
  - intros [|[|[|i]]] s E; cbn in E.
    + injection E as <-. right. split; [cbn; lia|]. exists 100. split; [lia|]. repeat constructor.
    + injection E as <-. left. reflexivity.
    + injection E as <-. right. split; [cbn; lia|]. exists 7. split; [lia|]. repeat constructor.
    + destruct i; discriminate.
Qed.
Theorem C36_ssix_robust : robust ssix_codec.
Proof. exact ssix_robust. Qed.
Print Assumptions C36_ssix_robust.
(* A level above 0 is written four bits too far up: read back as 16 times itself, without its upper bits. *)
Theorem C36_level_refuted r n : n < 4294967296 -> 0 < rg_level r < 256 -> rg_size r < 16777216 ->
  exists bs, writes (srange_write (Some r)) bs /\ parses n srange_read bs (mkSrange (16 * (rg_level r mod 16)) (rg_size r)) /\
  16 * (rg_level r mod 16) <> rg_level r.
Proof.
  intros Hn H1 H2. destruct r as [v z]. cbn [rg_level rg_size] in *. exists (be32 ((v mod 16) * 268435456 + z)). split; [|split].
  - unfold srange_write. cbn [rg_level rg_size]. rewrite shiftl_mul. change (2 ^ 28) with 268435456.
    assert (E : w32 (v * 268435456) = (v mod 16) * 268435456) by (unfold w32; lia). rewrite E. change 268435456 with (2 ^ 28).
    rewrite lor_mul by (change (2 ^ 28) with 268435456; lia). apply writes_put32.
  - unfold srange_read. eapply parses_bind_last; [apply parses_get32; lia|]. pnext. rewrite shiftr_div, land255, land24. change (2 ^ 24) with 16777216. f_equal; lia.
  - lia.
Qed.
Print Assumptions C36_level_refuted.
(* Ranges are taken from the list by the number of the subsegment: no box is written if a subsegment has
   some, but no more ranges than its number, *)
Theorem C36_few_ranges_refuted t i s : nth_error (sq_list t) i = Some s -> s <> [] -> (length s <= i)%nat -> exists e, write_box ssix_codec t = Err e.
Proof.
  intros E Hs L. unfold write_box. cbn [awrite].
  assert (W : forall l j k, nth_error l k = Some s -> (length s <= j + k)%nat -> forall u, exists e, subseg_write j l u = Err e).
  { induction l as [|q l IH]; intros j k Ek Lk u; [destruct k; discriminate|]. cbn [subseg_write]. unfold wseq at 1.
    destruct (put32 (len q) u) as [u1|e|] eqn:P; [|exists e; reflexivity|unfold put32, putl in P; destruct (_ <? _); discriminate]. cbn [bind]. unfold wseq.
    destruct k as [|k].
    - injection Ek as ->. rewrite Nat.add_0_r in Lk. apply nth_error_None in Lk. rewrite Lk. destruct s as [|r s]; [contradiction|]. cbn [wmap]. unfold wseq, srange_write, werr. cbn [bind]. eexists. reflexivity.
    - assert (M : forall (o : option srange) (d : list srange) v, wmap (fun _ => srange_write o) d v <> UB).
      { intros o. induction d as [|x d IHd]; intros v; [discriminate|]. cbn [wmap]. unfold wseq. destruct o as [r|]; cbn [srange_write]; [|discriminate].
        unfold put32, putl. destruct (_ <? _); cbn [bind]; [discriminate|apply IHd]. }
      destruct (wmap (fun _ => srange_write (nth_error q j)) q u1) as [u2|e|] eqn:Q; [|exists e; reflexivity|exfalso; eapply M, Q]. cbn [bind].
      apply (IH (S j) k Ek). lia. }
  unfold wrun. cbn [ssix_codec c_w c_size c_ty]. unfold ssix_write.
  assert (G : forall (b w : wr), (forall u, b u <> UB) -> (forall u, exists e, w u = Err e) -> forall u, exists e, (b ;; w) u = Err e).
  { intros b w Hb Hw u. unfold wseq. destruct (b u) as [u1|e|] eqn:Q; [apply Hw|exists e; reflexivity|exfalso; apply (Hb u Q)]. }
  assert (P : forall bs u, putl bs u <> UB) by (intros bs u; unfold putl; destruct (_ <? _); discriminate).
  match goal with |- context [?w (mkW [] ?z)] => assert (X : exists e, w (mkW [] z) = Err e) end.
  { apply G; [|apply G; [apply P|]; apply G; [apply P|]; apply G; [apply P|]; apply (W (sq_list t) O i E); lia].
    intros u. unfold write_base, wseq. destruct (put32 _ u) as [u1| |] eqn:Q1; [|discriminate|exfalso; eapply P, Q1]. cbn [bind].
    repeat match goal with |- context [if ?c then _ else _] => destruct c end; unfold wseq, wret; 
    repeat match goal with |- context [bind (?f ?v) _] => destruct (f v) as [?| |] eqn:?; cbn [bind] end; try discriminate; try (exfalso; eapply P; eassumption); try apply P. }
  destruct X as [e X]. rewrite X. exists e. reflexivity.
Qed.
Print Assumptions C36_few_ranges_refuted.
Theorem C36_two_subsegments_refuted : exists e, ssix_fields_ok (mkSsix 0 0 [[mkSrange 0 100]; [mkSrange 0 200]]) /\
  write_box ssix_codec (mkSsix 0 0 [[mkSrange 0 100]; [mkSrange 0 200]]) = Err e.
Proof.
  eexists. split; [|vm_compute; reflexivity]. split; [split; cbn; lia|]. split; [unfold len; cbn; lia|]. repeat constructor; unfold len; cbn; lia.
Qed.
Print Assumptions C36_two_subsegments_refuted.
(* ... and otherwise one of them is repeated. *)
Theorem C36_repeated_range_refuted : ssix_fields_ok (mkSsix 0 0 [[mkSrange 0 100; mkSrange 0 200]]) /\
  write_box ssix_codec (mkSsix 0 0 [[mkSrange 0 100; mkSrange 0 200]]) = Ok (box (code "ssix") (ssix_body (mkSsix 0 0 [[mkSrange 0 100; mkSrange 0 100]]))).
Proof.
  split; [|vm_compute; reflexivity]. split; [split; cbn; lia|]. split; [unfold len; cbn; lia|]. repeat constructor; unfold len; cbn; lia.
Qed.
Print Assumptions C36_repeated_range_refuted.

(* === C49: sub-sample information === *)
(* everything added is returned, in order, with the flags set last *)
Theorem C49_added_returned os more : Forall subop_ok os -> exists t, subs_run os = Ok t /\ subs_get (t :: more) = Ok (last_flags os, given os).
Proof.
  intros F. destruct (subs_inv os F) as (t & E & I1 & I2 & _). exists t. split; [exact E|]. unfold subs_get. rewrite I1, <- I2. reflexivity.
Qed.
Print Assumptions C49_added_returned.
Definition subs_story : list subop :=
  [SFlags 3; SAdd (mkSubarg 1 2 [100; 200] [1; 2] [0; 1] None); SAdd (mkSubarg 4 1 [70000; 5] [9; 9] [1; 1] (Some [77]))].
Example subs_story_ok : Forall subop_ok subs_story /\ exists t, subs_run subs_story = Ok t /\
  subs_get [t] = Ok (3, [(1, 2, ([100; 200], [1; 2], [0; 1])); (4, 1, ([70000], [9], [1]))]) /\ su_ver t = 1.
Proof.
  split; [repeat constructor; unfold len; cbn; try lia|]. eexists. split; [vm_compute; reflexivity|]. split; reflexivity.
Qed.
Theorem C49_round_trip t : subs_ok t -> 8 + len (subs_body t) < 4294967296 -> round_trip subs_codec subs_layout t.
Proof. intros H L. apply exact_round_trip; [exact subs_exact|exact H|exact L]. Qed.
Print Assumptions C49_round_trip.
Theorem C49_robust : robust subs_codec.
Proof. exact subs_robust. Qed.
Print Assumptions C49_robust.
(* Saved and opened again: entries with 1 to 65535 sub-samples, priorities and discardable fields of 8
   bits, other values of 32 bits. The codec specific parameters are kept too. *)
Definition saveable (os : list subop) : Prop :=
  last_flags os < 16777216 /\ len (given os) < 4294967296 /\
  Forall (fun g => fst (fst g) < 4294967296 /\ 0 < snd (fst g) < 65536 /\
    Forall (fun x => x < 4294967296) (fst (fst (snd g))) /\ Forall (fun x => x < 256) (snd (fst (snd g))) /\ Forall (fun x => x < 256) (snd (snd g))) (given os) /\
  Forall (Forall (fun x => x < 4294967296)) (given_params os).
Theorem C49_reopened os : Forall subop_ok os -> saveable os -> exists t, subs_run os = Ok t /\
  (8 + len (subs_body t) < 4294967296 -> exists bs, write_box subs_codec t = Ok bs /\ len bs = 8 + len (subs_body t) /\
     forall dflt rest, exists t', read_box subs_codec dflt (bs ++ rest) = Ok ((ALeaf subs t', len bs), rest) /\
       subs_get [t'] = Ok (last_flags os, given os) /\ map (fun e => map ss_param (se_list e)) (su_list t') = given_params os).
Proof.
  intros F (S1 & S2 & S3 & S4). destruct (subs_inv os F) as (t & E & I1 & I2 & I3 & I4). exists t. split; [exact E|]. intros L.
  assert (O : subs_ok t).
  { split; [split; [rewrite I4; destruct (existsb _ _); lia|rewrite I1; exact S1]|]. split; [rewrite <- I2, len_map in S2; exact S2|].
    apply Forall_forall. intros e Ie. rewrite Forall_forall in S3, S4.
    assert (G : In (entry_view e) (given os)) by (rewrite <- I2; apply in_map, Ie). destruct (S3 _ G) as (G1 & G2 & G3 & G4 & G5). unfold entry_view in *. cbn [fst snd] in *.
    assert (Q : In (map ss_param (se_list e)) (given_params os)) by (rewrite <- I3; apply (in_map (fun e => map ss_param (se_list e))), Ie). specialize (S4 _ Q).
    split; [exact G1|]. split; [exact G2|]. apply Forall_forall. intros x Ix. rewrite Forall_forall in *.
    split; [|split; [apply G4, in_map, Ix|split; [apply G5, in_map, Ix|apply S4, in_map, Ix]]].
    specialize (G3 _ (in_map _ _ _ Ix)). destruct (N.eqb_spec (su_ver t) 1) as [V|V]; [exact G3|]. rewrite I4 in V. destruct (existsb _ (su_list t)) eqn:X; [contradiction|].
    destruct (N.lt_ge_cases (ss_size x) 65536) as [|W]; [assumption|]. exfalso. rewrite <- not_true_iff_false in X. apply X. apply existsb_exists. exists e. split; [exact Ie|].
    apply existsb_exists. exists x. split; [exact Ix|]. apply N.ltb_lt. lia. }
  destruct (C49_round_trip t O L) as (_ & R2 & R3 & _). eexists. split; [exact R2|]. cbn [subs_layout l_ty l_body l_view] in *. split; [rewrite len_box; reflexivity|]. intros dflt rest. exists t.
  split; [apply R3|]. split; [|exact I3]. unfold subs_get. rewrite I1, <- I2. reflexivity.
Qed.
Print Assumptions C49_reopened.
Example C49_reopened_case : saveable subs_story.
Proof. unfold saveable, len. cbn. repeat split; try lia; repeat constructor; cbn; lia. Qed.

(* --- where the code departs --- *)
(* An entry without sub-samples is accepted and written, but the file is then refused. *)
Theorem C49_empty_entry_refuted delta : delta < 4294967296 -> exists t bs, subs_run [SAdd (mkSubarg delta 0 [] [] [] None)] = Ok t /\
  write_box subs_codec t = Ok bs /\ forall dflt rest, read_box subs_codec dflt (bs ++ rest) = Err MP4NoMemoryErr.
Proof.
  intros H. exists (mkSubs 0 0 [mkSentry delta []]), (box (code "subs") (full 0 0 ++ be32 1 ++ be32 delta ++ be16 0)). split; [reflexivity|]. split; [reflexivity|].
  intros dflt rest. rewrite read_box_is; [|plain|reflexivity|lens; lia]. cbn [subs_codec c_rd]. unfold subs_read. rewrite <- !app_assoc. unfold rbind.
  rewrite (proj1 (parses_full 8 0 0 ltac:(split; lia))). rewrite (proj1 (parses_get32 _ 1 ltac:(lia))). change (N.to_nat 1) with 1%nat. cbn [rrep fst]. unfold sentry_read, rbind.
  rewrite (proj1 (parses_get32 _ delta H)). rewrite (proj1 (parses_get16 _ 0 ltac:(lia))). reflexivity.
Qed.
Print Assumptions C49_empty_entry_refuted.
(* The number of sub-samples has 16 bits in the file: 65536 are written as none. *)
Theorem C49_65536_refuted ver e : len (se_list e) = 65536 -> se_delta e < 4294967296 -> exists bs,
  writes (sentry_write ver e) (be32 (se_delta e) ++ be16 0 ++ bs) /\ len bs = 65536 * (if ver =? 1 then 10 else 8) /\
  forall n r, sentry_read ver (mkR ((be32 (se_delta e) ++ be16 0 ++ bs) ++ r) n) = Err MP4NoMemoryErr.
Proof.
  intros H D. exists (flat_map (subsmp_bytes ver) (se_list e)). split; [|split].
  - unfold sentry_write. apply writes_seq; [wstep|]. apply writes_seq; [rewrite H; exact (writes_put16 65536)|]. apply writes_map. intros x Ix. unfold subsmp_write, subsmp_bytes.
    apply writes_seq; [destruct (ver =? 1); wstep|]. wstep.
  - rewrite (len_flat_map_const _ (if ver =? 1 then 10 else 8)) by (intros; unfold subsmp_bytes; destruct (ver =? 1); reflexivity). rewrite H. lia.
  - intros n r. unfold sentry_read, rbind. rewrite <- !app_assoc. rewrite (proj1 (parses_get32 _ _ D)). rewrite (proj1 (parses_get16 _ 0 ltac:(lia))). reflexivity.
Qed.
Print Assumptions C49_65536_refuted.
(* A priority above 255 is accepted and loses its upper bits in the file. *)
Theorem C49_priority_refuted : exists t bs t', subs_run [SAdd (mkSubarg 1 1 [10] [256] [0] None)] = Ok t /\ subs_get [t] = Ok (0, [(1, 1, ([10], [256], [0]))]) /\
  write_box subs_codec t = Ok bs /\ read_box subs_codec subs_new bs = Ok ((ALeaf subs t', len bs), []) /\ subs_get [t'] = Ok (0, [(1, 1, ([10], [0], [0]))]).
Proof.
  exists (mkSubs 0 0 [mkSentry 1 [mkSubsmp 10 256 0 0]]), (box (code "subs") (full 0 0 ++ be32 1 ++ be32 1 ++ be16 1 ++ be16 10 ++ be8 0 ++ be8 0 ++ be32 0)), (mkSubs 0 0 [mkSentry 1 [mkSubsmp 10 0 0 0]]).
  split; [reflexivity|]. split; [reflexivity|]. split; [vm_compute; reflexivity|]. split; [vm_compute; reflexivity|reflexivity].
Qed.
Print Assumptions C49_priority_refuted.
(* A track may be given several boxes; only the first is ever returned. *)
Theorem C49_second_box_refuted t u more : subs_get (t :: u :: more) = subs_get [t].
Proof. reflexivity. Qed.
Print Assumptions C49_second_box_refuted.
(* An array shorter than announced is read past its end. *)
Theorem C49_short_array_refuted t a : len (sa_sizes a) < sa_count a -> subs_add t a = UB.
Proof.
  intros H. unfold subs_add. assert (Z : forall n s p d c, (length s < n)%nat -> zip_subs n s p d c = UB).
  { induction n as [|n IH]; intros s p d c L; [lia|]. cbn [zip_subs]. destruct s as [|x s]; [reflexivity|]. cbn [length] in L. destruct p as [|y p]; [reflexivity|].
    destruct d as [|z d]; [reflexivity|]. destruct c as [[|w c]|]; [reflexivity|..]; (rewrite IH by lia; reflexivity). }
  rewrite Z; [reflexivity|]. unfold len in H. lia.
Qed.
Print Assumptions C49_short_array_refuted.

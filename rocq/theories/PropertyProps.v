(* PropertyProps.v -- C40: item properties. *)
From Verif Require Import Base Codec AtomModel AtomSpec AtomProofs BoxModel BoxSpec BoxProofs Reads HeaderSpec GroupProofs TrackModel TrackProofs
  ItemProofs PropertyModel PropertySpec PropertyProofs.

(* C40: asking for the properties of an item gives those associated, in order, for any history of
   associations (property, item, essential) *)
Theorem C40_properties_kept l id : l <> [] -> len l < 65536 -> get_properties (prop_run l) id = Ok (props_of id l).
Proof. intros N H. apply get_ok; [apply prop_inv, H|exact N]. Qed.
Print Assumptions C40_properties_kept.
Definition prop_story : list (N * N * N) := [(70, 1, 1); (71, 2, 0); (72, 1, 0); (70, 2, 1); (73, 1, 1)].
Example prop_story_ok : get_properties (prop_run prop_story) 1 = Ok [70; 72; 73] /\ get_properties (prop_run prop_story) 2 = Ok [71; 70] /\
  get_properties (prop_run prop_story) 3 = Ok [].
Proof. repeat split. Qed.

(* the box: size, bytes, reading back, refusal of truncation *)
Theorem C40_round_trip t : ipma_ok t -> 8 + len (l_body ipma_layout t) < 4294967296 -> round_trip ipma_codec ipma_layout t.
Proof. intros H L. apply exact_round_trip; [exact ipma_exact|exact H|exact L]. Qed.
Print Assumptions C40_round_trip.
Example C40_narrow_case : ipma_ok (mkIpma 0 0 [mkPentry 1 [mkAssoc 1 1; mkAssoc 0 3]; mkPentry 2 [mkAssoc 0 127]]) /\
  l_body ipma_layout (mkIpma 0 0 [mkPentry 1 [mkAssoc 1 1; mkAssoc 0 3]; mkPentry 2 [mkAssoc 0 127]]) = [0; 0; 0; 0; 0; 0; 0; 2; 0; 1; 2; 129; 3; 0; 2; 1; 127].
Proof. split; [|reflexivity]. split; [split; cbn; lia|]. split; [unfold len; cbn; lia|]. repeat constructor; unfold len; cbn; lia. Qed.
Example C40_wide_case : ipma_ok (mkIpma 1 1 [mkPentry 100000 [mkAssoc 0 1; mkAssoc 0 300]]) /\
  l_body ipma_layout (mkIpma 1 1 [mkPentry 100000 [mkAssoc 0 1; mkAssoc 0 300]]) = [1; 0; 0; 1; 0; 0; 0; 1; 0; 1; 134; 160; 2; 0; 1; 1; 44].
Proof. split; [|reflexivity]. split; [split; cbn; lia|]. split; [unfold len; cbn; lia|]. repeat constructor; unfold len; cbn; lia. Qed.
Theorem C40_robust : robust ipma_codec.
Proof. exact ipma_robust. Qed.
Print Assumptions C40_robust.

(* What an association history leaves to be saved: for each item with properties one entry, with the
   essential flags and the numbers of the properties. *)
Theorem C40_saved_associations l : l <> [] -> len l < 65536 -> exists ma, pr_ma (prop_run l) = Some ma /\ NoDup (map pe_item (pm_list ma)) /\
  (forall e, In e (pm_list ma) -> pe_list e = assocs_from 1 (pe_item e) l) /\
  (forall x, In x l -> In (snd (fst x)) (map pe_item (pm_list ma))).
Proof.
  intros N H. destruct (prop_inv l H) as (HP & K). destruct (pr_ma (prop_run l)) as [ma|]; [|contradiction]. destruct K as (_ & _ & _ & ND & HE & HN).
  exists ma. split; [reflexivity|]. split; [exact ND|]. split; [intros e Ie; apply HE, Ie|].
  intros x Ix. destruct (in_dec N.eq_dec (snd (fst x)) (map pe_item (pm_list ma))) as [I|I]; [exact I|]. exfalso. specialize (HN _ I).
  assert (Q := lookup_assocs (snd (fst x)) l). rewrite HN in Q. injection Q as Q. unfold props_of in Q. symmetry in Q. apply map_eq_nil in Q.
  assert (F : In x (filter (fun x0 => snd (fst x0) =? snd (fst x)) l)) by (apply filter_In; split; [exact Ix|apply N.eqb_refl]). rewrite Q in F. exact F.
Qed.
Print Assumptions C40_saved_associations.

Lemma assocs_in id l : forall k a, In a (assocs_from k id l) -> (exists x, In x l /\ as_ess a = snd x) /\ k <= as_idx a < k + len l.
Proof.
  induction l as [|y l IH]; intros k a I; cbn [assocs_from] in I; [destruct I|]. rewrite len_cons.
  assert (D : a = mkAssoc (snd y) k \/ In a (assocs_from (k + 1) id l)) by (destruct (snd (fst y) =? id); [destruct I as [<-|I]; [left; reflexivity|right; exact I]|right; exact I]).
  destruct D as [->|D].
  - cbn [as_ess as_idx]. split; [exists y; split; [left; reflexivity|reflexivity]|lia].
  - destruct (IH _ _ D) as ((x & Ix & Ex) & B). split; [exists x; split; [right; exact Ix|exact Ex]|lia].
Qed.
Lemma assocs_len id l : forall k, len (assocs_from k id l) <= len l.
Proof. induction l as [|y l IH]; intros k; cbn [assocs_from]; [unfold len; cbn; lia|]. specialize (IH (k + 1)). destruct (snd (fst y) =? id); rewrite !len_cons; lia. Qed.
(* Fewer than 128 properties, saved and opened again: the association box reads back as it was, so
   every item has its properties and its essential flags again. *)
Theorem C40_reopened l : l <> [] -> len l < 128 -> Forall (fun x => snd (fst x) < 65536 /\ snd x < 2) l ->
  exists ma bs, pr_ma (prop_run l) = Some ma /\ write_box ipma_codec ma = Ok bs /\
    forall dflt rest, read_box ipma_codec dflt (bs ++ rest) = Ok ((ALeaf ipma ma, len bs), rest) /\
    forall id, get_properties (mkIprp (pr_props (prop_run l)) (Some ma)) id = Ok (props_of id l).
Proof.
  intros Hne H F. assert (I := prop_inv l ltac:(lia)). assert (G := fun id => get_ok l _ id I Hne). destruct I as (HP & K). unfold get_properties in *.
  destruct (pr_ma (prop_run l)) as [ma|]; [|contradiction]. destruct K as (Hv & Hf & _ & ND & HE & HN).
  rewrite Forall_forall in F.
  assert (B : len (pm_list ma) < 128).
  { assert (P : incl (map pe_item (pm_list ma)) (map (fun x : N * N * N => snd (fst x)) l)).
    { intros i Ii. apply in_map_iff in Ii as (e & <- & Ie). apply HE, Ie. }
    apply NoDup_incl_length in P; [|exact ND]. rewrite !map_length in P. unfold len in *. lia. }
  assert (E : forall e, In e (pm_list ma) -> pe_item e < 65536 /\ len (pe_list e) < 128 /\ Forall (assoc_ok false) (pe_list e)).
  { intros e Ie. destruct (HE e Ie) as [E1 E2]. apply in_map_iff in E2 as (x & Ex & Ix). rewrite E1. split; [rewrite <- Ex; apply F, Ix|].
    split; [pose proof (assocs_len (pe_item e) l 1); lia|]. apply Forall_forall. intros a Ia. apply assocs_in in Ia as ((y & Iy & Ey) & Bd).
    split; [rewrite Ey; apply F, Iy|lia]. }
  assert (O : ipma_ok ma).
  { unfold ipma_ok. rewrite Hv, Hf. split; [split; lia|]. split; [lia|]. apply Forall_forall. intros e Ie. destruct (E e Ie) as (E1 & E2 & E3).
    change (0 =? 0) with true. cbn iota. split; [exact E1|]. split; [lia|exact E3]. }
  assert (S : len (flat_map (pentry_bytes (pm_ver ma) (wide_flag (pm_flags ma))) (pm_list ma)) <= 131 * len (pm_list ma)).
  { rewrite Hv, Hf. clear - E. induction (pm_list ma) as [|e t IH]; [unfold len; cbn; lia|]. cbn [flat_map]. rewrite len_app, len_cons, len_pentry.
    destruct (E e (or_introl eq_refl)) as (_ & E2 & _). unfold pentry_size. change (0 <? 1) with true. change (wide_flag 0) with false. cbn iota.
    assert (IH' := IH (fun e' I' => E e' (or_intror I'))). change (wide_flag 0) with false in IH'. lia. }
  assert (R : round_trip ipma_codec ipma_layout ma).
  { apply C40_round_trip; [exact O|]. cbn [ipma_layout l_body]. rewrite !len_app, len_full, len_be32. lia. }
  destruct R as (_ & R2 & R3 & _). eexists. eexists. split; [reflexivity|]. split; [exact R2|]. intros dflt rest. split; [apply R3|exact G].
Qed.
Print Assumptions C40_reopened.
Example C40_reopened_case : prop_story <> [] /\ len prop_story < 128 /\ Forall (fun x : N * N * N => snd (fst x) < 65536 /\ snd x < 2) prop_story /\
  pr_ma (prop_run prop_story) = Some (mkIpma 0 0 [mkPentry 1 [mkAssoc 1 1; mkAssoc 0 3; mkAssoc 1 5]; mkPentry 2 [mkAssoc 0 2; mkAssoc 1 4]]).
Proof. split; [discriminate|]. split; [unfold len; cbn; lia|]. split; [repeat constructor; cbn; lia|reflexivity]. Qed.

(* --- where the code departs --- *)
(* Asking for properties when none was ever associated: a null pointer. *)
Theorem C40_none_associated_refuted id : get_properties (prop_run []) id = UB.
Proof. reflexivity. Qed.
Print Assumptions C40_none_associated_refuted.
(* An index of 15 bits: the essential flag of an association is read as part of the index, ... *)
Theorem C40_wide_essential_refuted i n : i < 32768 -> n < 4294967296 -> parses n (assoc_read true) (assoc_bytes true (mkAssoc 1 i)) (mkAssoc 0 (32768 + i)).
Proof. intros H Hn. unfold assoc_read, assoc_bytes. cbn [as_ess as_idx]. pnext; [apply parses_get16; lia|]. pnext. Qed.
Print Assumptions C40_wide_essential_refuted.
(* ... so the property is not found. *)
Theorem C40_wide_file_refuted : exists dflt bs ma, read_box ipma_codec dflt bs = Ok ((ALeaf ipma ma, len bs), []) /\
  bs = box (code "ipma") (full 0 1 ++ be32 1 ++ pentry_bytes 0 true (mkPentry 1 [mkAssoc 1 2])) /\
  get_properties (mkIprp [70; 71] (Some ma)) 1 = Err MP4BadParamErr.
Proof. 
  exists ipma_new, (box (code "ipma") (full 0 1 ++ be32 1 ++ pentry_bytes 0 true (mkPentry 1 [mkAssoc 1 2]))), (mkIpma 0 1 [mkPentry 1 [mkAssoc 0 32770]]).
  split; [vm_compute; reflexivity|]. split; reflexivity.
Qed.
Print Assumptions C40_wide_file_refuted.
(* Indices are always written with 7 bits: the 128th property is lost when the file is opened again. *)
Definition story128 : list (N * N * N) := map (fun k => (N.of_nat k, 1 + (N.of_nat k) mod 2, 0)) (seq 0 128).
Definition ma128 : ipma := match pr_ma (prop_run story128) with Some ma => ma | None => ipma_new end.
Theorem C40_property_128_refuted : exists l ma bs ma', len l = 128 /\ Forall (fun x => snd (fst x) = 1 + (fst (fst x)) mod 2 /\ snd x = 0) l /\
  pr_ma (prop_run l) = Some ma /\ write_box ipma_codec ma = Ok bs /\ read_box ipma_codec ipma_new bs = Ok ((ALeaf ipma ma', len bs), []) /\
  get_properties (prop_run l) 2 = Ok (props_of 2 l) /\ get_properties (mkIprp (pr_props (prop_run l)) (Some ma')) 2 = Err MP4BadParamErr.
Proof.
  exists story128, ma128, (match write_box ipma_codec ma128 with Ok bs => bs | _ => [] end),
    (match write_box ipma_codec ma128 with Ok bs => match read_box ipma_codec ipma_new bs with Ok ((ALeaf _ m, _), _) => m | _ => ipma_new end | _ => ipma_new end).
  split; [vm_compute; reflexivity|].
  split; [apply Forall_forall; intros x Ix; apply in_map_iff in Ix as (k & <- & _); split; reflexivity|].
  split; [vm_compute; reflexivity|]. split; [vm_compute; reflexivity|]. split; [vm_compute; reflexivity|]. split; vm_compute; reflexivity.
Qed.
Print Assumptions C40_property_128_refuted.
(* The number of associations of an item has 8 bits: 256 are written as none, the rest is taken for other entries. *)
Theorem C40_associations_256_refuted l : len l = 256 -> Forall (assoc_ok false) l -> forall id n, id < 65536 -> n < 4294967296 ->
  exists rest, len rest = 256 /\ writes (pentry_write 0 false (mkPentry id l)) ((be16 id ++ be8 0) ++ rest) /\
  parses n (pentry_read 0 false) (be16 id ++ be8 0) (mkPentry id []).
Proof.
  intros H F id n Hi Hn. exists (flat_map (assoc_bytes false) l). split; [rewrite (len_flat_map_const _ 1) by (intros; apply len_assoc); lia|]. split.
  - unfold pentry_write. cbn [pe_item pe_list]. rewrite H. change (0 <? 1) with true. cbn iota. rewrite <- app_assoc. apply writes_seq; [wstep|].
    apply writes_seq; [exact (writes_put8 256)|]. apply writes_map. intros a Ia. rewrite Forall_forall in F. apply assoc_writes, F, Ia.
  - unfold pentry_read. change (0 <? 1) with true. cbn iota. pnext; [apply parses_get16; lia|]. eapply parses_bind_last; [apply parses_get8; lia|]. pnext; [refine (parses_rrep (assoc_read false) (fun _ => []) [] _ _ (w32_lt _)); intros a m []|pnext].
Qed.
Print Assumptions C40_associations_256_refuted.
(* The 65536th property gets the index 0: its item has no readable properties any more. *)
Theorem C40_property_65536_refuted l pr id ess : len l = 65535 -> get_properties (prop_run (l ++ [(pr, id, ess)])) id = Err MP4BadParamErr.
Proof.
  intros H. assert (I := prop_inv l ltac:(lia)). destruct (ma_of l _ I) as (ma & E & Hv & Hf & ND & HE & HN). destruct I as (HP & _).
  rewrite prop_run_snoc. unfold add_property. rewrite E. rewrite HP. cbn [fst snd].
  assert (L : len (map (fun x : N * N * N => fst (fst x)) l) = 65535) by (unfold len in *; rewrite map_length; exact H). rewrite L. change (w16 (65535 + 1)) with 0.
  unfold get_properties. cbn [pr_ma pm_list pr_props].
  assert (Z : forall props a q, lookup_props props a = Ok q -> lookup_props props (a ++ [mkAssoc ess 0]) = Err MP4BadParamErr).
  { intros props a q Q. rewrite lookup_app, Q. reflexivity. }
  destruct (in_dec N.eq_dec id (map pe_item (pm_list ma))) as [I|I].
  - apply in_map_iff in I. destruct I as (e & Ee & Ie). destruct (HE e Ie) as [G _]. apply in_split in Ie. destruct Ie as (a & b & S). rewrite S in *.
    rewrite (last_entry_mid a e b id 0 Ee ND None). cbn [Nat.add]. rewrite nth_error_app2 by lia. rewrite Nat.sub_diag. cbn [nth_error].
    rewrite put_at_mid.
    assert (M : NoDup (map pe_item (a ++ mkPentry (pe_item e) (pe_list e ++ [mkAssoc ess 0]) :: b))) by (rewrite map_app in *; exact ND).
    rewrite (last_entry_mid a (mkPentry (pe_item e) (pe_list e ++ [mkAssoc ess 0])) b id 0 Ee M None). cbn [Nat.add]. rewrite nth_error_app2 by lia. rewrite Nat.sub_diag. cbn [nth_error pe_list].
    eapply Z. apply lookup_grow. rewrite G. apply lookup_assocs.
  - rewrite (last_entry_none (pm_list ma) id 0%nat I None). assert (M : NoDup (map pe_item (pm_list ma ++ mkPentry id [mkAssoc ess 0] :: []))) by (rewrite map_app; apply NoDup_snoc; assumption).
    rewrite (last_entry_mid _ (mkPentry id [mkAssoc ess 0]) [] id 0 eq_refl M None). cbn [Nat.add]. rewrite nth_error_app2 by lia. rewrite Nat.sub_diag. reflexivity.
Qed.
Print Assumptions C40_property_65536_refuted.

(* PropertyProofs.v -- lemmas for C40. *)
From Verif Require Import Base Codec BitLemmas AtomModel AtomSpec AtomProofs BoxModel BoxSpec BoxProofs Reads HeaderSpec HeaderProofs
  GroupProofs TrackModel TrackProofs IlocProofs ItemProofs PropertyModel PropertySpec.

Lemma wide_odd f : wide f = wide_flag f.
Proof.
  unfold wide, wide_flag. rewrite land1. rewrite <- N.bit0_odd.
  assert (E := N.bit0_mod f). rewrite <- E. destruct (N.testbit f 0); reflexivity.
Qed.
Lemma land128 x : x < 256 -> (N.land x 128 =? 0) = (x <? 128).
Proof.
  intros H. assert (E : N.land x 128 = 128 * (x / 128)).
  { assert (B : N.land x 128 = N.shiftl (N.land (N.shiftr x 7) 1) 7).
    { rewrite N.shiftl_land. apply N.bits_inj. intros n. rewrite !N.land_spec. change (N.shiftl 1 7) with 128.
      destruct (N.eqb_spec n 7) as [->|E].
      - rewrite N.shiftl_spec_high' by lia. rewrite N.shiftr_spec'. reflexivity.
      - assert (Z : N.testbit 128 n = false) by (change 128 with (2 ^ 7); apply N.pow2_bits_false; congruence). rewrite Z, !andb_false_r. reflexivity. }
    rewrite B, shiftl_mul, land1, shiftr_div. change (2 ^ 7) with 128. assert (x / 128 < 2) by (apply N.div_lt_upper_bound; lia). rewrite N.mod_small by lia. lia. }
  rewrite E. destruct (N.ltb_spec x 128); destruct (N.eqb_spec (128 * (x / 128)) 0); lia.
Qed.
Lemma ess_bits n i e : i < 2 ^ n -> N.lor i (N.shiftl e n) = e * 2 ^ n + i.
Proof. intros H. rewrite N.lor_comm. apply lor_add, H. Qed.
Lemma assoc_writes w a : assoc_ok w a -> writes (assoc_write w a) (assoc_bytes w a).
Proof.
  unfold assoc_ok, assoc_write, assoc_bytes. destruct w; intros [H1 H2].
  - rewrite (ess_bits 15) by (change (2 ^ 15) with 32768; lia). change (2 ^ 15) with 32768. wstep.
  - rewrite (ess_bits 7) by (change (2 ^ 7) with 128; lia). change (2 ^ 7) with 128. wstep.
Qed.
Lemma assoc_parses w a n : n < 4294967296 -> assoc_ok w a -> parses n (assoc_read w) (assoc_bytes w a) a.
Proof.
  intros Hn. unfold assoc_ok, assoc_read, assoc_bytes. destruct a as [e i]. cbn [as_ess as_idx]. destruct w; intros [H1 H2].
  - subst e. pnext; [apply parses_get16; lia|]. pnext.
  - pnext; [apply parses_get8; lia|]. pnext. rewrite land128 by lia. destruct (N.ltb_spec (e * 128 + i) 128); cbn [negb].
    + f_equal; lia.
    + rewrite land127. f_equal; [lia|]. assert (e = 1) as -> by lia. change (1 * 128) with 128. lia.
Qed.
Lemma len_assoc w a : len (assoc_bytes w a) = if w then 2 else 1.
Proof. destruct w; reflexivity. Qed.
Lemma ver1 v : (v <? 1) = (v =? 0).
Proof. destruct (N.ltb_spec v 1), (N.eqb_spec v 0); lia. Qed.
Definition pentry_ok (ver : N) (w : bool) (e : pentry) : Prop :=
  pe_item e < (if ver =? 0 then 65536 else 4294967296) /\ len (pe_list e) < 256 /\ Forall (assoc_ok w) (pe_list e).
Lemma len_pentry ver w e : len (pentry_bytes ver w e) = pentry_size ver w e.
Proof.
  unfold pentry_bytes, pentry_size. rewrite ver1. lens. rewrite (len_flat_map_const _ (if w then 2 else 1)) by (intros; apply len_assoc).
  destruct w, (ver =? 0); lens; lia.
Qed.
Lemma pentry_writes ver w e : pentry_ok ver w e -> writes (pentry_write ver w e) (pentry_bytes ver w e).
Proof.
  intros (H1 & H2 & H3). unfold pentry_write, pentry_bytes. rewrite ver1. apply writes_seq; [destruct (ver =? 0); wstep|]. apply writes_seq; [wstep|].
  apply writes_map. intros a Ia. rewrite Forall_forall in H3. apply assoc_writes, H3, Ia.
Qed.
Lemma pentry_parses ver w e n : n < 4294967296 -> pentry_ok ver w e -> parses n (pentry_read ver w) (pentry_bytes ver w e) e.
Proof.
  intros Hn (H1 & H2 & H3). unfold pentry_read, pentry_bytes. rewrite ver1.
  pnext; [destruct (ver =? 0); [apply parses_get16|apply parses_get32]; assumption|]. pauto. eapply parses_bind_last.
  - rewrite len_nat. apply (parses_rrep_in _ _ (fun a => a)); [|apply w32_lt]. intros a m Ia Hm. rewrite Forall_forall in H3. apply assoc_parses; [exact Hm|apply H3, Ia].
  - pnext. rewrite map_id. destruct e. reflexivity.
Qed.
Lemma ipma_size_ok ver w l : forall acc, acc + len (flat_map (pentry_bytes ver w) l) < 4294967296 ->
  fold_left (fun s e => w32 (s + pentry_size ver w e)) l acc = acc + len (flat_map (pentry_bytes ver w) l).
Proof.
  induction l as [|e l IH]; intros acc H; cbn [fold_left flat_map] in *; [lens; lia|]. rewrite len_app in *. rewrite <- len_pentry.
  rewrite w32_small by lia. rewrite IH by lia. lia.
Qed.
Lemma ipma_exact : exact ipma_codec ipma_layout.
Proof.
  split; [intros t _; plain|]. intros t (H1 & H2 & H3) Hl. unfold ipma_codec, ipma_layout in *. cbn [c_size c_w c_rd l_body l_view l_ok c_ty] in *.
  rewrite wide_odd. split; [|split].
  - rewrite ipma_size_ok; rewrite !len_app, len_full in *; rewrite !len_be32 in *; lia.
  - apply writes_full_seq. apply writes_seq; [wstep|]. apply writes_map. intros e Ie. rewrite Forall_forall in H3. apply pentry_writes, (H3 e Ie).
  - unfold ipma_read. pauto. pauto. rewrite wide_odd. eapply parses_bind_last.
    + rewrite len_nat. apply (parses_rrep_in _ _ (fun a => a)); [|apply w32_lt]. intros e m Ie Hm. rewrite Forall_forall in H3. apply pentry_parses; [exact Hm|exact (H3 e Ie)].
    + pnext. rewrite map_id. destruct t. reflexivity.
Qed.
Lemma ipma_robust : robust ipma_codec.
Proof.
  assert (Ga : forall w, consumes (assoc_read w) /\ tame (assoc_read w)).
  { intros w. unfold assoc_read. destruct w; (split; [cons_step|tame_step]). }
  assert (Ge : forall v w, consumes (pentry_read v w) /\ tame (pentry_read v w)).
  { intros v w. unfold pentry_read. split; destruct (v <? 1); repeat first [apply Ga|progress cons_step|progress tame_step]. }
  intros h. apply safe_of.
  - change (consumes (ipma_read h)). unfold ipma_read. repeat first [apply Ge|progress cons_step].
  - change (tame (ipma_read h)). unfold ipma_read. repeat first [apply Ge|progress tame_step].
Qed.

(* --- the history --- *)
Lemma put_at_mid {A} (a : list A) e b x : put_at (a ++ e :: b) (length a) x = a ++ x :: b.
Proof. induction a as [|y a IH]; [reflexivity|]. cbn [app length put_at]. rewrite IH. reflexivity. Qed.
Lemma last_entry_none l id : forall k, ~ In id (map pe_item l) -> forall f, last_entry l id k f = f.
Proof.
  induction l as [|e l IH]; intros k H f; cbn [last_entry map In] in *; [reflexivity|]. destruct (N.eqb_spec id (pe_item e)); [exfalso; apply H; left; congruence|].
  apply IH. intros I. apply H. right. exact I.
Qed.
Lemma last_entry_mid a e b id : forall k, pe_item e = id -> NoDup (map pe_item (a ++ e :: b)) -> forall f,
  last_entry (a ++ e :: b) id k f = Some (k + length a)%nat.
Proof.
  induction a as [|x a IH]; intros k E ND f; cbn [last_entry app map] in *; inversion ND as [|? ? N1 N2]; subst.
  - rewrite N.eqb_refl. rewrite last_entry_none by exact N1. f_equal. cbn [length]. lia.
  - rewrite IH by (auto; fail). f_equal. cbn [length]. lia.
Qed.
Lemma assocs_snoc id x : forall l k, assocs_from k id (l ++ [x]) = assocs_from k id l ++ (if snd (fst x) =? id then [mkAssoc (snd x) (k + len l)] else []).
Proof.
  induction l as [|y l IH]; intros k; cbn [assocs_from app].
  - rewrite len_nil, N.add_0_r. destruct (snd (fst x) =? id); reflexivity.
  - rewrite IH, len_cons. replace (k + 1 + len l) with (k + (1 + len l)) by lia. destruct (snd (fst y) =? id); reflexivity.
Qed.
Lemma props_snoc id x l : props_of id (l ++ [x]) = props_of id l ++ (if snd (fst x) =? id then [fst (fst x)] else []).
Proof. unfold props_of. rewrite filter_app, map_app. cbn [filter]. destruct (snd (fst x) =? id); reflexivity. Qed.
Lemma lookup_app props l1 l2 : lookup_props props (l1 ++ l2) = (do a <- lookup_props props l1; do b <- lookup_props props l2; Ok (a ++ b)).
Proof.
  induction l1 as [|a l1 IH]; cbn [lookup_props app bind].
  - destruct (lookup_props props l2); reflexivity.
  - rewrite IH. destruct (as_idx a =? 0); [reflexivity|]. destruct (nth_error props _); [|reflexivity]. cbn [bind].
    destruct (lookup_props props l1); [|reflexivity..]. cbn [bind]. destruct (lookup_props props l2); reflexivity.
Qed.
Lemma lookup_grow props x l r : lookup_props props l = Ok r -> lookup_props (props ++ [x]) l = Ok r.
Proof.
  revert r. induction l as [|a l IH]; intros r H; cbn [lookup_props] in *; [exact H|].
  destruct (as_idx a =? 0); [discriminate|]. destruct (nth_error props (N.to_nat (as_idx a - 1))) as [y|] eqn:E; [|discriminate].
  rewrite nth_error_app1 by (apply nth_error_Some; congruence). rewrite E. cbn [bind] in *.
  destruct (lookup_props props l) as [xs| |]; [|discriminate..]. rewrite (IH _ eq_refl). exact H.
Qed.
Lemma lookup_assocs id l : lookup_props (map (fun x => fst (fst x)) l) (assocs_from 1 id l) = Ok (props_of id l).
Proof.
  induction l as [|x l IH] using rev_ind; [reflexivity|]. rewrite assocs_snoc, props_snoc, map_app, lookup_app. cbn [map].
  rewrite (lookup_grow _ _ _ _ IH). cbn [bind]. destruct (snd (fst x) =? id); cbn [lookup_props bind as_idx]; [|rewrite !app_nil_r; reflexivity].
  destruct (N.eqb_spec (1 + len l) 0); [lia|]. replace (N.to_nat (1 + len l - 1)) with (length (map (fun x0 : N * N * N => fst (fst x0)) l)) by (rewrite map_length; unfold len; lia).
  rewrite nth_error_app2 by lia. rewrite Nat.sub_diag. reflexivity.
Qed.
Definition pinv (l : list (N * N * N)) (p : iprp) : Prop :=
  pr_props p = map (fun x => fst (fst x)) l /\
  match pr_ma p with
  | None => l = []
  | Some ma => pm_ver ma = 0 /\ pm_flags ma = 0 /\ l <> [] /\ NoDup (map pe_item (pm_list ma)) /\
      (forall e, In e (pm_list ma) -> pe_list e = assocs_from 1 (pe_item e) l /\ In (pe_item e) (map (fun x => snd (fst x)) l)) /\
      (forall id, ~ In id (map pe_item (pm_list ma)) -> assocs_from 1 id l = [])
  end.
Lemma prop_run_snoc l x : prop_run (l ++ [x]) = add_property (prop_run l) (fst (fst x)) (snd (fst x)) (snd x).
Proof. unfold prop_run. rewrite fold_left_app. reflexivity. Qed.
Lemma ma_of l p : pinv l p -> exists ma, match pr_ma p with Some t => t | None => ipma_new end = ma /\ pm_ver ma = 0 /\ pm_flags ma = 0 /\
   NoDup (map pe_item (pm_list ma)) /\
      (forall e, In e (pm_list ma) -> pe_list e = assocs_from 1 (pe_item e) l /\ In (pe_item e) (map (fun x => snd (fst x)) l)) /\
      (forall id, ~ In id (map pe_item (pm_list ma)) -> assocs_from 1 id l = []).
Proof.
  intros (H & K). destruct (pr_ma p) as [ma|].
  - exists ma. tauto.
  - subst l. exists ipma_new. split; [reflexivity|]. split; [reflexivity|]. split; [reflexivity|]. split; [constructor|]. split; [intros e []|reflexivity].
Qed.
Lemma prop_inv l : len l < 65536 -> pinv l (prop_run l).
Proof.
  induction l as [|x l IH] using rev_ind; intros H; [split; reflexivity|].
  rewrite len_app in H. change (len [x]) with 1 in H. assert (I : pinv l (prop_run l)) by (apply IH; lia). clear IH.
  destruct (ma_of l _ I) as (ma & E & Hv & Hf & ND & HE & HN). destruct I as (HP & _). rewrite prop_run_snoc.
  destruct x as [[pr id] ess]. cbn [fst snd]. unfold add_property. rewrite E. rewrite HP.
  assert (L : len (map (fun x : N * N * N => fst (fst x)) l) = len l) by (unfold len; rewrite map_length; reflexivity). rewrite L.
  rewrite w16_small by lia. split; [cbn [pr_props]; rewrite map_app; reflexivity|]. cbn [pr_ma pm_ver pm_flags pm_list].
  split; [exact Hv|]. split; [exact Hf|]. split; [intros X; apply app_eq_nil in X; destruct X; discriminate|].
  destruct (in_dec N.eq_dec id (map pe_item (pm_list ma))) as [I|I].
  - apply in_map_iff in I. destruct I as (e & Ee & Ie). apply in_split in Ie. destruct Ie as (a & b & S).
    rewrite S in *. rewrite (last_entry_mid a e b id 0 Ee ND None). cbn [Nat.add]. rewrite nth_error_app2 by lia. rewrite Nat.sub_diag. cbn [nth_error].
    rewrite put_at_mid.
    assert (M : map pe_item (a ++ mkPentry (pe_item e) (pe_list e ++ [mkAssoc ess (len l + 1)]) :: b) = map pe_item (a ++ e :: b)) by (rewrite !map_app; reflexivity).
    rewrite M. split; [exact ND|]. split.
    + intros e' I'. apply in_app_or in I'. cbn [In] in I'. rewrite map_app, assocs_snoc. cbn [fst snd map].
      assert (D : e' = mkPentry (pe_item e) (pe_list e ++ [mkAssoc ess (len l + 1)]) \/ (In e' (a ++ e :: b) /\ pe_item e' <> id)).
      { destruct I' as [I'|[I'|I']]; [right|left; congruence|right].
        - split; [apply in_or_app; left; exact I'|]. intros X. rewrite map_app in ND. cbn [map] in ND. apply NoDup_remove_2 in ND. apply ND, in_or_app. left. rewrite Ee, <- X. apply in_map, I'.
        - split; [apply in_or_app; right; right; exact I'|]. intros X. rewrite map_app in ND. cbn [map] in ND. apply NoDup_remove_2 in ND. apply ND, in_or_app. right. rewrite Ee, <- X. apply in_map, I'. }
      destruct D as [D|[D1 D2]].
      * subst e'. cbn [pe_item pe_list]. rewrite (eq_sym Ee), N.eqb_refl. destruct (HE e) as [G1 G2]; [apply in_or_app; right; left; reflexivity|].
        split; [rewrite G1; do 3 f_equal; lia|apply in_or_app; left; exact G2].
      * destruct (HE e' D1) as [G1 G2]. destruct (N.eqb_spec id (pe_item e')); [congruence|]. rewrite app_nil_r. split; [exact G1|apply in_or_app; left; exact G2].
    + intros i Hi. rewrite assocs_snoc. cbn [fst snd]. destruct (N.eqb_spec id i) as [->|]; [exfalso; apply Hi; rewrite map_app; apply in_or_app; right; left; exact Ee|].
      rewrite app_nil_r. apply HN, Hi.
  - rewrite last_entry_none by exact I. rewrite !map_app. cbn [map pe_item]. split; [apply NoDup_snoc; assumption|]. split.
    + intros e Ie. rewrite assocs_snoc. cbn [fst snd]. apply in_app_or in Ie. destruct Ie as [Ie|[<-|[]]].
      * destruct (HE e Ie) as [G1 G2]. destruct (N.eqb_spec id (pe_item e)) as [Q|Q]; [exfalso; apply I; rewrite Q; apply in_map, Ie|]. rewrite app_nil_r. split; [exact G1|apply in_or_app; left; exact G2].
      * cbn [pe_item pe_list]. rewrite N.eqb_refl, (HN id I). split; [cbn [app]; do 2 f_equal; lia|apply in_or_app; right; left; reflexivity].
    + intros i Hi. rewrite assocs_snoc. cbn [fst snd]. destruct (N.eqb_spec id i) as [->|Q]; [exfalso; apply Hi, in_or_app; right; left; reflexivity|].
      rewrite app_nil_r. apply HN. intros X. apply Hi, in_or_app. left. exact X.
Qed.
Lemma get_ok l p id : pinv l p -> l <> [] -> get_properties p id = Ok (props_of id l).
Proof.
  intros (HP & K) HL. unfold get_properties. destruct (pr_ma p) as [ma|]; [|contradiction]. destruct K as (_ & _ & _ & ND & HE & HN).
  assert (Q := lookup_assocs id l). destruct (in_dec N.eq_dec id (map pe_item (pm_list ma))) as [I|I].
  - apply in_map_iff in I. destruct I as (e & Ee & Ie). destruct (HE e Ie) as [G _]. apply in_split in Ie. destruct Ie as (a & b & S). rewrite S in *.
    rewrite (last_entry_mid a e b id 0 Ee ND None). cbn [Nat.add]. rewrite nth_error_app2 by lia. rewrite Nat.sub_diag. cbn [nth_error].
    rewrite G, Ee, HP. exact Q.
  - rewrite last_entry_none by exact I. rewrite (HN id I) in Q. symmetry. exact (eq_sym Q).
Qed.

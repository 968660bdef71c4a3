(* UserProofs.v *)
From Verif Require Import Base Codec AtomModel AtomSpec AtomProofs AtomProps BoxModel BoxSpec BoxProofs Reads KidsModel KidsProofs UserModel UserSpec.

Lemma nodup_snoc {A} (l : list A) x : NoDup l -> ~ In x l -> NoDup (l ++ [x]).
Proof.
  induction 1 as [|z l Hz _ IH]; intros H; cbn [app]; [repeat constructor; auto|]. constructor.
  - intros Q. apply in_app_or in Q. destruct Q as [Q|[Q|[]]]; [contradiction|]. subst. apply H. left. reflexivity.
  - apply IH. intros Q. apply H. right. exact Q.
Qed.
Section User.
Context {T : Type} (c : codec T) (y : layout T) (dflt : T).
Notation item := (atom T).
Definition mk (t : N) (d : list N) : item := AOpaque _ t (if t =? T_uuid then repeat 0 16 else []) d.
Definition repr (s : store) : udta (T:=T) := map (fun t => (t, map (mk t) (s_data s t))) (s_types s).
Record sinv (s : store) : Prop := {
  i_nodup : NoDup (s_types s);
  i_none : forall t, ~ In t (s_types s) -> s_data s t = [];
  i_zero : ~ In 0 (s_types s) }.

Lemma known_in s t : known s t = true <-> In t (s_types s).
Proof.
  unfold known. rewrite existsb_exists. split.
  - intros (x & H & E). apply N.eqb_eq in E. subst. exact H.
  - intros H. exists t. split; [exact H|apply N.eqb_refl].
Qed.
Lemma records_repr s ty : records (repr s) ty = if known s ty then Some (map (mk ty) (s_data s ty)) else None.
Proof.
  unfold repr, known. induction (s_types s) as [|t l IH]; [reflexivity|]. cbn [map records existsb]. rewrite (N.eqb_sym ty t).
  destruct (N.eqb_spec t ty) as [->|]; [reflexivity|exact IH].
Qed.
Lemma repr_other s ty l ts : ~ In ty ts -> map (fun t => (t, map (mk t) (put s ty l t))) ts = map (fun t => (t, map (mk t) (s_data s t))) ts.
Proof.
  intros H. apply map_ext_in. intros t Ht. unfold put. destruct (N.eqb_spec t ty) as [->|]; [contradiction|reflexivity].
Qed.
Lemma add_repr s ty d : NoDup (s_types s) -> (~ In ty (s_types s) -> s_data s ty = []) ->
  add_item (repr s) ty (mk ty d) = repr (mkStore (if known s ty then s_types s else s_types s ++ [ty]) (put s ty (s_data s ty ++ [d]))).
Proof.
  unfold repr, known. cbn [s_types s_data]. intros N0 H.
  destruct (existsb (N.eqb ty) (s_types s)) eqn:K.
  - clear H. induction (s_types s) as [|t l IH]; [discriminate|]. cbn [map add_item existsb] in *. inversion N0 as [|? ? A B]; subst.
    destruct (N.eqb_spec t ty) as [->|Ht].
    + f_equal; [unfold put; rewrite N.eqb_refl, map_app; reflexivity|]. symmetry. apply repr_other, A.
    + destruct (N.eqb_spec ty t); [congruence|]. cbn [orb] in K. f_equal; [unfold put; destruct (N.eqb_spec t ty); [congruence|reflexivity]|]. apply IH; assumption.
  - assert (Hin : ~ In ty (s_types s)).
    { intros Q. assert (existsb (N.eqb ty) (s_types s) = true); [|congruence]. apply existsb_exists. exists ty. split; [exact Q|apply N.eqb_refl]. }
    specialize (H Hin). rewrite map_app. cbn [map]. rewrite repr_other by exact Hin. unfold put. rewrite N.eqb_refl, H. clear K N0 H. cbn [app map].
    induction (s_types s) as [|t l IH]; [reflexivity|]. cbn [map add_item app]. destruct (N.eqb_spec t ty) as [->|]; [elim Hin; left; reflexivity|].
    f_equal. apply IH. intros Q. apply Hin. right. exact Q.
Qed.
Lemma set_repr s ty l : NoDup (s_types s) -> set_record (repr s) ty (map (mk ty) l) = repr (mkStore (s_types s) (put s ty l)).
Proof.
  unfold repr. cbn [s_types s_data]. induction (s_types s) as [|t ts IH]; intros N0; [reflexivity|]. cbn [map set_record]. inversion N0 as [|? ? A B]; subst.
  destruct (N.eqb_spec t ty) as [->|Ht].
  - f_equal; [unfold put; rewrite N.eqb_refl; reflexivity|]. symmetry. apply repr_other, A.
  - f_equal; [unfold put; destruct (N.eqb_spec t ty); [congruence|reflexivity]|]. apply IH, B.
Qed.
Lemma remove_without {A} (l : list A) : forall k, remove k l = without k l.
Proof.
  unfold remove. induction l as [|x l IH]; intros [|k]; try reflexivity. cbn [firstn skipn app without]. f_equal. apply IH.
Qed.
Lemma remove_map {A B} (f : A -> B) k l : remove k (map f l) = map f (remove k l).
Proof. unfold remove. rewrite firstn_map, skipn_map, map_app. reflexivity. Qed.

(* the calls *)
Lemma add_ok s ty d : sinv s -> ty <> 0 -> add_data (repr s) d ty = Ok (len (s_data s ty ++ [d]), repr (snd (user_spec s (UAdd ty d)))).
Proof.
  intros [A B C] H. unfold add_data, user_spec. destruct (N.eqb_spec ty 0); [congruence|]. cbn [snd].
  change (AOpaque T ty (if ty =? T_uuid then repeat 0 16 else []) d) with (mk ty d). rewrite add_repr by auto.
  rewrite records_repr. set (k := known (mkStore _ _) ty).
  assert (K : k = true).
  { unfold k. apply known_in. cbn [s_types]. destruct (known s ty) eqn:Q; [apply known_in, Q|apply in_or_app; right; left; reflexivity]. }
  rewrite K. cbn [s_data]. unfold put. rewrite N.eqb_refl, len_map. reflexivity.
Qed.
Lemma delete_ok s ty i : sinv s -> delete_item (repr s) ty i =
  if (1 <=? i) && (i <=? len (s_data s ty)) then Ok (repr (snd (user_spec s (UDelete ty i)))) else Err MP4BadParamErr.
Proof.
  intros [A B C]. unfold delete_item, user_spec. rewrite records_repr.
  destruct (N.eqb_spec ty 0) as [->|Ht].
  { cbn [orb]. rewrite (B 0 C). rewrite len_nil. destruct (N.leb_spec 1 i), (N.leb_spec i 0); try lia; reflexivity. }
  destruct (N.eqb_spec i 0) as [->|Hi]; [reflexivity|]. cbn [orb].
  destruct (known s ty) eqn:K.
  - rewrite len_map. destruct (N.leb_spec 1 i); [|lia]. cbn [andb].
    destruct (N.leb_spec (len (s_data s ty)) (i - 1)), (N.leb_spec i (len (s_data s ty))); try lia; [reflexivity|].
    cbn [snd]. rewrite remove_map, set_repr by exact A. rewrite remove_without. reflexivity.
  - rewrite (B ty), len_nil by (intros Q; apply known_in in Q; congruence). destruct (N.leb_spec i 0); [lia|]. rewrite andb_false_r. reflexivity.
Qed.
Lemma count_ok s ty : sinv s -> entry_count (repr s) ty = if ty =? 0 then Err MP4BadParamErr else Ok (len (s_data s ty)).
Proof.
  intros [A B C]. unfold entry_count. rewrite records_repr. destruct (known s ty) eqn:K; [rewrite len_map; reflexivity|].
  rewrite (B ty) by (intros Q; apply known_in in Q; congruence). reflexivity.
Qed.
Lemma types_ok s : type_count (repr s) = len (s_types s).
Proof. unfold type_count, repr. apply len_map. Qed.
Lemma ind_ok s i : ind_type (repr s) i = match (if i =? 0 then None else nthN (s_types s) (i - 1)) with Some t => Ok t | None => Err MP4BadParamErr end.
Proof.
  unfold ind_type, repr, nthN. rewrite len_map. destruct (N.eqb_spec i 0); [reflexivity|]. cbn [orb]. rewrite nth_error_map.
  destruct (N.ltb_spec (len (s_types s)) i).
  - assert (Q : nth_error (s_types s) (N.to_nat (i - 1)) = None) by (apply nth_error_None; unfold len in *; lia). rewrite Q. reflexivity.
  - destruct (nth_error (s_types s) (N.to_nat (i - 1))) eqn:Q; [reflexivity|]. apply nth_error_None in Q. unfold len in *. lia.
Qed.
Lemma item_ok s ty i : sinv s ->
  get_item (repr s) ty i = match (if i =? 0 then None else nthN (s_data s ty) (i - 1)) with Some d => Ok d | None => Err MP4BadParamErr end.
Proof.
  intros [A B C]. unfold get_item. rewrite records_repr. destruct (N.eqb_spec ty 0) as [->|].
  { cbn [orb]. rewrite (B 0 C). unfold nthN. destruct (i =? 0); [reflexivity|]. destruct (N.to_nat (i - 1)); reflexivity. }
  cbn [orb]. destruct (N.eqb_spec i 0); [reflexivity|]. unfold nthN. destruct (known s ty) eqn:K.
  - rewrite len_map, nth_error_map. destruct (N.leb_spec (len (s_data s ty)) (i - 1)).
    + assert (Q : nth_error (s_data s ty) (N.to_nat (i - 1)) = None) by (apply nth_error_None; unfold len in *; lia). rewrite Q. reflexivity.
    + destruct (nth_error (s_data s ty) (N.to_nat (i - 1))) eqn:Q; [reflexivity|]. apply nth_error_None in Q. unfold len in *. lia.
  - rewrite (B ty) by (intros Q; apply known_in in Q; congruence). destruct (N.to_nat (i - 1)); reflexivity.
Qed.
Lemma atom_ok s ty i : sinv s ->
  get_atom (repr s) ty i = match (if i =? 0 then None else nthN (s_data s ty) (i - 1)) with Some d => Ok (mk ty d) | None => Err MP4BadParamErr end.
Proof.
  intros [A B C]. unfold get_atom. rewrite records_repr. destruct (N.eqb_spec ty 0) as [->|].
  { cbn [orb]. rewrite (B 0 C). unfold nthN. destruct (i =? 0); [reflexivity|]. destruct (N.to_nat (i - 1)); reflexivity. }
  cbn [orb]. destruct (N.eqb_spec i 0); [reflexivity|]. unfold nthN. destruct (known s ty) eqn:K.
  - rewrite len_map, nth_error_map. destruct (N.leb_spec (len (s_data s ty)) (i - 1)).
    + assert (Q : nth_error (s_data s ty) (N.to_nat (i - 1)) = None) by (apply nth_error_None; unfold len in *; lia). rewrite Q. reflexivity.
    + destruct (nth_error (s_data s ty) (N.to_nat (i - 1))) eqn:Q; [reflexivity|]. apply nth_error_None in Q. unfold len in *. lia.
  - rewrite (B ty) by (intros Q; apply known_in in Q; congruence). destruct (N.to_nat (i - 1)); reflexivity.
Qed.
Lemma sinv_step s o : sinv s -> sinv (snd (user_spec s o)).
Proof.
  intros [A B C]. destruct o as [ty d|ty i|]; cbn [user_spec].
  - destruct (N.eqb_spec ty 0); [constructor; assumption|]. cbn [snd]. destruct (known s ty) eqn:K; constructor; cbn [s_types s_data]; try assumption.
    + intros t Ht. unfold put. destruct (N.eqb_spec t ty) as [->|]; [apply known_in in K; contradiction|]. apply B, Ht.
    + apply nodup_snoc; [exact A|]. intros Q; apply known_in in Q; congruence.
    + intros t Ht. unfold put. destruct (N.eqb_spec t ty) as [->|]; [elim Ht; apply in_or_app; right; left; reflexivity|]. apply B. intros Q. apply Ht, in_or_app. left. exact Q.
    + intros Q. apply in_app_or in Q. destruct Q as [Q|[Q|[]]]; [contradiction|congruence].
  - destruct ((1 <=? i) && (i <=? len (s_data s ty))) eqn:G; [|constructor; assumption]. cbn [snd]. constructor; cbn [s_types s_data]; try assumption.
    intros t Ht. unfold put. destruct (N.eqb_spec t ty) as [->|]; [|apply B, Ht]. rewrite (B ty Ht). destruct (N.to_nat (i - 1)); reflexivity.
  - constructor; cbn [snd s_types s_data].
    + apply NoDup_filter, A.
    + intros t Ht. destruct (in_dec N.eq_dec t (s_types s)) as [I|I]; [|apply B, I].
      destruct (s_data s t) eqn:Q; [reflexivity|]. elim Ht. apply filter_In. split; [exact I|]. rewrite Q. rewrite len_cons. apply N.ltb_lt. lia.
    + intros Q. apply filter_In in Q. tauto.
Qed.

(* reading *)
Hypothesis F : faithful c y.
Lemma items_reads : forall kids f acc tot br r,
  Forall (kid_ok c y) kids -> (length (flat_map (kid_enc c y) kids ++ r) + 1 < f)%nat -> 4 <= tot < 4294967296 ->
  br + len (flat_map (kid_enc c y) kids) <= tot <= br + len (flat_map (kid_enc c y) kids) + 4 ->
  items_rd c dflt f tot br acc (flat_map (kid_enc c y) kids ++ r) = Ok (acc ++ kid_view y kids, br + len (flat_map (kid_enc c y) kids), r).
Proof.
  pose proof (faithful_codec c y F) as [K1 K2 K3 K4].
  assert (S4 : forall tot, 4 <= tot < 4294967296 -> sub32 tot 4 = tot - 4) by (intros; unfold sub32, w32; lia).
  induction kids as [|k ks IH]; intros f acc tot br r Hk Hf Ht Hbr; (destruct f as [|f]; [lia|]); cbn [items_rd]; rewrite S4 by exact Ht.
  - cbn [flat_map app] in *. lens. destruct (N.ltb_spec br (tot - 4)); [lia|].
    unfold kid_view. cbn [map filter]. rewrite app_nil_r, N.add_0_r. reflexivity.
  - inversion_clear Hk as [|? ? Wk Wr]. cbn [flat_map] in *. lens. rewrite <- app_assoc in *. pose proof (kid_pos c y k) as P.
    destruct (N.ltb_spec br (tot - 4)); [|lia].
    destruct (parse_enc T (c_leaf c) (c_ty c) (c_size c) (c_w c) (fun _ => dflt) (l_body y) (l_view y) (c_known c) (l_ok y)
      K1 K2 K3 K4 k f (flat_map (kid_enc c y) ks ++ r) Wk) as [E _].
    { fold (kid_enc c y k). lia. } { fold (kid_enc c y k). rewrite !app_length in *. lia. }
    fold (kid_enc c y k) in E. rewrite E. cbn [bind fst snd].
    destruct (atype_facts T (c_ty c) (fun _ => dflt) (l_view y) (c_known c) (l_ok y) K2 k Wk) as (A1 & A2 & A3). rewrite A3, A2.
    rewrite w32_small by lia.
    assert (Hf' : (length (flat_map (kid_enc c y) ks ++ r) + 1 < f)%nat).
    { rewrite app_length in Hf. unfold len in P. lia. }
    destruct (free_box T k) eqn:Ef.
    + rewrite (IH f acc tot _ r Wr Hf' Ht) by lia. unfold kid_view. cbn [map filter]. rewrite free_strip, Ef. cbn [negb]. do 3 f_equal. lia.
    + rewrite (IH f _ tot _ r Wr Hf' Ht) by lia. unfold kid_view. cbn [map filter]. rewrite free_strip, Ef. cbn [negb].
      rewrite <- app_assoc. do 3 f_equal. lia.
Qed.
Definition udta_layout : layout (udta (T:=T)) :=
  mkLayout (fun _ => code "udta") (fun u => flat_map (kid_enc c y) (all_items u)) (fun u => grouped c (kid_view y (all_items u)))
    (fun u => Forall (kid_ok c y) (all_items u)).
Lemma udta_reads n sz hr kids : Forall (kid_ok c y) kids -> 4 <= n -> sz = n + len (flat_map (kid_enc c y) kids) -> sz < 4294967296 ->
  reads n (udta_rd c dflt (mkH sz 0 T_udta [] hr)) (flat_map (kid_enc c y) kids) (grouped c (kid_view y kids)).
Proof.
  intros Hk Hn E Hl r. unfold udta_rd. cbn [inp rdn h_size]. rewrite items_reads; try assumption; [|lia..]. cbn [bind app].
  rewrite <- E. assert (Q : sub32 sz sz =? 4 = false) by (unfold sub32, w32; lia). rewrite Q. cbn [bind rdn]. rewrite N.eqb_refl. rewrite w32_small by lia. reflexivity.
Qed.
(* a terminator of four bytes *)
Lemma udta_reads4 n sz hr kids w : Forall (kid_ok c y) kids -> 4 <= n -> sz = n + len (flat_map (kid_enc c y) kids) + 4 -> sz < 4294967296 -> w < 4294967296 ->
  reads n (udta_rd c dflt (mkH sz 0 T_udta [] hr)) (flat_map (kid_enc c y) kids ++ be32 w) (grouped c (kid_view y kids)).
Proof.
  intros Hk Hn E Hl Hw r. unfold udta_rd. cbn [inp rdn h_size]. rewrite <- app_assoc. rewrite items_reads; try assumption; [|rewrite !app_length; lia|lia|lia]. cbn [bind app].
  assert (Q : sub32 sz (n + len (flat_map (kid_enc c y) kids)) =? 4 = true) by (unfold sub32, w32; lia). rewrite Q.
  destruct (parses_get32 (n + len (flat_map (kid_enc c y) kids)) w Hw) as [G _]. rewrite G. cbn [bind snd rdn]. lens.
  rewrite w32_small by lia. destruct (N.eqb_spec (n + len (flat_map (kid_enc c y) kids) + 4) sz); [|lia]. rewrite w32_small by lia. do 3 f_equal. lia.
Qed.
Lemma udta_faithful : faithful (udta_codec c dflt) udta_layout.
Proof.
  split.
  - intros u Hu. cbn [udta_codec udta_layout c_ty c_known l_view l_ty]. split; [|split; [reflexivity|split; reflexivity]]. repeat split; try reflexivity; discriminate.
  - intros u Hu Hl. cbn [udta_codec udta_layout c_size c_w c_rd c_ty l_body l_view l_ok] in *.
    split; [apply (boxes_size_ok c y dflt F); assumption|]. split; [apply (boxes_writes c y dflt F); [assumption|lia]|].
    apply udta_reads; try assumption; [lia|reflexivity].
Qed.

(* what is read back *)
Lemma grouped_app acc t ds : ~ In t (map fst acc) -> ds <> [] ->
  fold_left (fun u a => add_item u (atype T (c_ty c) a) a) (map (mk t) ds) acc = acc ++ [(t, map (mk t) ds)].
Proof.
  intros H. assert (G : forall pre ds, fold_left (fun u a => add_item u (atype T (c_ty c) a) a) (map (mk t) ds) (acc ++ [(t, pre)]) = acc ++ [(t, pre ++ map (mk t) ds)]).
  { intros pre ds0. revert pre. induction ds0 as [|d ds0 IH]; intros pre; cbn [map fold_left]; [rewrite app_nil_r; reflexivity|].
    cbn [mk atype]. fold (mk t d).
    assert (Q : forall a, add_item (acc ++ [(t, pre)]) t a = acc ++ [(t, pre ++ [a])]).
    { intros a. clear IH. induction acc as [|[t1 l1] acc IH]; cbn [app add_item]; [rewrite N.eqb_refl; reflexivity|].
      destruct (N.eqb_spec t1 t) as [->|]; [elim H; left; reflexivity|]. f_equal. apply IH. intros Q. apply H. right. exact Q. }
    rewrite Q, IH, <- app_assoc. reflexivity. }
  destruct ds as [|d ds]; [congruence|]. intros _. cbn [map fold_left mk atype]. fold (mk t d).
  assert (Q : add_item acc t (mk t d) = acc ++ [(t, [mk t d])]).
  { clear G. induction acc as [|[t1 l1] acc IH]; cbn [app add_item]; [reflexivity|].
    destruct (N.eqb_spec t1 t) as [->|]; [elim H; left; reflexivity|]. f_equal. apply IH. intros Q. apply H. right. exact Q. }
  rewrite Q, G. reflexivity.
Qed.
Lemma grouped_repr s : NoDup (s_types s) -> grouped c (all_items (repr s)) = repr (snd (user_spec s USave)).
Proof.
  intros N0. unfold grouped, repr, all_items. cbn [user_spec snd s_types s_data].
  assert (G : forall ts acc, NoDup (map fst acc ++ ts) ->
    fold_left (fun u a => add_item u (atype T (c_ty c) a) a) (flat_map snd (map (fun t => (t, map (mk t) (s_data s t))) ts)) acc =
    acc ++ map (fun t => (t, map (mk t) (s_data s t))) (filter (fun t => 0 <? len (s_data s t)) ts)).
  { induction ts as [|t ts IH]; intros acc H; cbn [map flat_map filter fold_left]; [rewrite app_nil_r; reflexivity|]. cbn [snd]. rewrite fold_left_app.
    destruct (s_data s t) as [|d ds] eqn:Q.
    - cbn [map fold_left]. rewrite IH by (apply NoDup_remove_1 in H; exact H). reflexivity.
    - rewrite grouped_app; [|intros I; apply NoDup_remove_2 in H; apply H, in_or_app; left; exact I|discriminate].
      rewrite IH by (rewrite map_app; cbn [map fst]; rewrite <- app_assoc; exact H).
      rewrite len_cons. destruct (N.ltb_spec 0 (1 + len ds)); [|lia]. cbn [map]. rewrite Q, <- app_assoc. reflexivity. }
  rewrite G by exact N0. reflexivity.
Qed.
Lemma items_ok s : Forall (fun t => s_data s t <> [] -> foreign c t /\ Forall bytes (s_data s t)) (s_types s) ->
  Forall (kid_ok c y) (all_items (repr s)) /\ kid_view y (all_items (repr s)) = all_items (repr s) /\ flat_map (kid_enc c y) (all_items (repr s)) = store_bytes s.
Proof.
  unfold all_items, repr, store_bytes. intros H. induction H as [|t ts Ht _ IH]; [split; [constructor|split; reflexivity]|]. cbn [map flat_map snd].
  assert (Q : Forall (kid_ok c y) (map (mk t) (s_data s t)) /\ kid_view y (map (mk t) (s_data s t)) = map (mk t) (s_data s t) /\
    flat_map (kid_enc c y) (map (mk t) (s_data s t)) = flat_map (item_box t) (s_data s t)).
  { destruct (s_data s t) as [|d0 ds] eqn:Q; [split; [constructor|split; reflexivity]|]. rewrite <- Q in *. destruct Ht as [(F1 & F2 & F3 & F4) Hb]; [rewrite Q; discriminate|].
    clear Q d0 ds. split; [|split].
    - apply Forall_forall. intros a Ia. apply in_map_iff in Ia. destruct Ia as (d & <- & Id). rewrite Forall_forall in Hb. unfold kid_ok, mk. cbn [wf].
      change (code "uuid") with T_uuid. repeat split; try assumption; [destruct (t =? T_uuid); reflexivity| |apply Hb, Id].
      destruct (t =? T_uuid); [|constructor]. unfold bytes. cbn [repeat]. repeat (apply Forall_cons; [reflexivity|]). apply Forall_nil.
    - unfold kid_view. induction (s_data s t) as [|d ds IHd]; [reflexivity|]. inversion Hb; subst. cbn [map strip filter free_box negb mk]. f_equal. apply IHd. assumption.
    - clear. induction (s_data s t) as [|d ds IHd]; [reflexivity|]. cbn [map flat_map]. rewrite IHd. unfold kid_enc, mk, item_box. cbn [enc].
      change (code "uuid") with T_uuid. reflexivity. }
  destruct Q as (Q1 & Q2 & Q3). destruct IH as (I1 & I2 & I3). split; [apply Forall_app; split; assumption|]. split.
  - unfold kid_view in *. rewrite map_app, filter_app, Q2, I2. reflexivity.
  - rewrite flat_map_app, Q3, I3. reflexivity.
Qed.
End User.

Lemma items_safe {T} (c : codec T) dflt : robust c -> forall f size br l i, bytes i -> (length i + 1 < f)%nat ->
  items_rd c dflt f size br l i <> UB /\ items_rd c dflt f size br l i <> Err OutOfFuel /\
  forall x b r, items_rd c dflt f size br l i = Ok (x, b, r) -> exists p, i = p ++ r.
Proof.
  intros H. induction f as [|f IH]; intros size br l i Hb Hf; [lia|]. cbn [items_rd].
  destruct (br <? sub32 size 4).
  - destruct (proj1 (parse_good T (c_leaf c) (c_ty c) (fun _ => dflt) (robust_codec c H) f) i Hb ltac:(lia)) as (A & B & C & _).
    destruct (snd (parse_atom T (c_leaf c) (c_ty c) (fun _ => dflt) f i)) as [[[a sz] rest]|e|]; cbn [bind fst snd].
    + destruct (C _ _ _ eq_refl) as (pre & E & P & _). assert (Hr : bytes rest) by (rewrite E in Hb; apply bytes_app in Hb; tauto).
      assert (Hl : (length rest + 1 < f)%nat) by (rewrite E, app_length in Hf; unfold len in P; lia).
      destruct (is_free _); (destruct (IH size (w32 (br + sz)) l rest Hr Hl) as (D1 & D2 & D3) || idtac).
      * split; [exact D1|]. split; [exact D2|]. intros x b r Q. destruct (D3 _ _ _ Q) as (p & ->). exists (pre ++ p). rewrite E, app_assoc. reflexivity.
      * destruct (IH size (w32 (br + sz)) (l ++ [a]) rest Hr Hl) as (G1 & G2 & G3).
        split; [exact G1|]. split; [exact G2|]. intros x b r Q. destruct (G3 _ _ _ Q) as (p & ->). exists (pre ++ p). rewrite E, app_assoc. reflexivity.
    + split; [discriminate|]. split; [congruence|discriminate].
    + congruence.
  - split; [discriminate|]. split; [discriminate|]. intros x b r Q. injection Q as _ _ <-. exists []. reflexivity.
Qed.
Lemma udta_safe {T} (c : codec T) dflt : robust c -> robust (udta_codec c dflt).
Proof.
  intros H h s Hs. cbn [udta_codec c_rd]. unfold udta_rd.
  destruct (items_safe c dflt H (length (inp s) + 3) (h_size h) (rdn s) [] (inp s) Hs ltac:(lia)) as (A & B & C).
  destruct (items_rd c dflt _ _ _ _ _) as [[[l br] r]|e|]; cbn [bind]; [|split; [split; congruence|discriminate]|congruence].
  destruct (C _ _ _ eq_refl) as [p E]. destruct (sub32 (h_size h) br =? 4).
  - pose proof (no_ub_get32 (mkR r br)) as U. pose proof (tame_get32 (mkR r br)) as [_ U2]. destruct (get32 (mkR r br)) as [[v s1]|e|] eqn:G; cbn [bind snd].
    + destruct (consumes_get32 _ _ _ G) as [q Q]. cbn [inp] in Q.
      destruct (rdn s1 =? h_size h); (split; [split; discriminate|]); [|discriminate]. intros a s' Z. injection Z as _ <-. exists (p ++ q). rewrite E, Q, app_assoc. reflexivity.
    + split; [split; congruence|discriminate].
    + congruence.
  - cbn [bind]. destruct (_ =? _); (split; [split; discriminate|]); [|discriminate]. intros a s' Z. injection Z as _ <-. exists p. exact E.
Qed.

(* one item of any type is written as a box of that type *)
Lemma one_written {T} (c : codec T) (dflt : T) ty d : 16 + len (item_box ty d) < 4294967296 ->
  write_box (udta_codec c dflt) [(ty, [mk ty d])] = Ok (box (code "udta") (item_box ty d)).
Proof.
  intros Hl. unfold item_box in *. rewrite len_box in Hl. set (uu := if ty =? code "uuid" then repeat 0 16 else []) in *.
  assert (Eu : len uu = if ty =? T_uuid then 16 else 0) by (unfold uu; change (code "uuid") with T_uuid; destruct (ty =? T_uuid); reflexivity).
  assert (Es : kid_size c (mk ty d) = 8 + len (uu ++ d)).
  { unfold kid_size, mk. cbn [asize]. lens. destruct (ty =? T_uuid); rewrite w32_small by lia; lia. }
  assert (Ew : awrite T (c_ty c) (c_size c) (c_w c) (mk ty d) = Ok (box ty (uu ++ d))).
  { unfold mk. cbn [awrite]. change (AOpaque T ty (if ty =? T_uuid then repeat 0 16 else []) d) with (mk (T:=T) ty d).
    change (asize T (c_ty c) (c_size c) (mk ty d)) with (kid_size c (mk ty d)). rewrite Es. apply writes_run; [|rewrite len_box; lia|lia].
    eapply writes_eq; [eapply writes_seq; [apply writes_base; lia|eapply writes_seq; [|apply writes_putl]]|].
    - instantiate (1 := uu). unfold uu. change (code "uuid") with T_uuid. destruct (ty =? T_uuid); [apply writes_putl|apply writes_ret].
    - unfold box. rewrite <- !app_assoc. reflexivity. }
  unfold write_box. cbn [awrite udta_codec c_size c_ty c_w all_items flat_map snd app].
  assert (Et : boxes_size c 8 [mk ty d] = 16 + len (uu ++ d)) by (unfold boxes_size; cbn [fold_left]; rewrite Es, w32_small by lia; lia).
  rewrite Et. apply writes_run; [|rewrite !len_box; lia|lia].
  eapply writes_eq; [eapply writes_seq; [apply writes_base; lia|]|].
  - instantiate (1 := box ty (uu ++ d)). unfold boxes_w. cbn [wmap]. rewrite Es, Ew. eapply writes_eq; [eapply writes_seq; [apply writes_embed; rewrite len_box; reflexivity|apply writes_ret]|].
    apply app_nil_r.
  - unfold box. lens. rewrite <- !app_assoc. do 2 f_equal. lia.
Qed.
(* the box with a terminator *)
Definition term_codec {T} (c : codec T) (dflt : T) (w : N) : codec (udta (T:=T)) :=
  mkCodec (N.eqb T_udta) (fun _ => T_udta) (fun u => boxes_size c 8 (all_items u) + 4) (fun u => boxes_w c (all_items u) ;; put32 w) (udta_rd c dflt).
Definition term_layout {T} (c : codec T) (y : layout T) (w : N) : layout (udta (T:=T)) :=
  mkLayout (fun _ => code "udta") (fun u => flat_map (kid_enc c y) (all_items u) ++ be32 w) (fun u => grouped c (kid_view y (all_items u)))
    (fun u => Forall (kid_ok c y) (all_items u)).
Lemma term_faithful {T} (c : codec T) y (dflt : T) w : w < 4294967296 -> faithful c y -> faithful (term_codec c dflt w) (term_layout c y w).
Proof.
  intros Hw F. split.
  - intros u Hu. split; [|split; [reflexivity|split; reflexivity]]. repeat split; try reflexivity; discriminate.
  - intros u Hu Hl. cbn [term_codec term_layout c_size c_w c_rd c_ty l_body l_view l_ok] in *. lens.
    split; [rewrite (boxes_size_ok c y dflt F) by (try assumption; lia); lia|].
    split; [apply writes_seq; [apply (boxes_writes c y dflt F); [assumption|lia]|apply writes_put32]|].
    apply (udta_reads4 c y dflt F); try assumption; lia.
Qed.

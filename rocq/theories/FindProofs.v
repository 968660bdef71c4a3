From Verif Require Import Base Codec AtomModel AtomSpec AtomProofs AtomProps BoxModel BoxSpec BoxProofs Reads EntryProofs
  HeaderModel HeaderSpec HeaderProofs TextModel TextSpec TextProofs TrackModel KidsModel KidsProofs MboxModel MboxSpec MboxProofs MboxHist
  IlocModel ItemModel ItemProofs FindModel FindSpec.
From Verif Require ItemSpec.

Lemma lower_alike c d : lower c = lower d <-> alike c d = true.
Proof.
  unfold lower, alike, capital. rewrite !orb_true_iff, !andb_true_iff, !N.eqb_eq, !N.leb_le.
  destruct (N.leb_spec 65 c), (N.leb_spec c 90), (N.leb_spec 65 d), (N.leb_spec d 90); cbn [andb]; lia.
Qed.
Lemma lower_alike_all a : forall b, map lower a = map lower b <-> alike_all a b = true.
Proof.
  induction a as [|c a IH]; intros [|d b]; cbn [map alike_all]; try (split; discriminate); [split; reflexivity|].
  rewrite andb_true_iff, <- lower_alike, <- IH. split; [intros H; injection H; auto|intros [-> ->]; reflexivity].
Qed.
Lemma eq_bytes_iff a b : eq_bytes a b = true <-> a = b.
Proof. unfold eq_bytes. destruct (list_eq_dec N.eq_dec a b); split; congruence. Qed.

Section Find.
Context {X : Type} (x : codec X) (dx : X) (y : layout X).
Hypothesis F : faithful x y.
Hypothesis A : apart x.
Notation mbox := (mbox (X:=X)).
Notation inv := (inv (X:=X)).
Notation ke := (kid_enc (kid_codec x) (kid_layout x y)).

Lemma named_ok es is exact name : Forall2 rep es is -> named (X:=X) (map (fun e => ALeaf _ (inl e)) es) exact name =
  Ok (option_map (fun i => w16 (f_id i)) (find (fun i => same_name exact name (cstr (f_name i))) is)).
Proof.
  induction 1 as [|e i es is R _ IH]; [reflexivity|]. cbn [map named find]. rewrite (r_name _ _ R), terminated_str, (r_id _ _ R). cbn [negb].
  destruct (same_name exact name (cstr (f_name i))); [reflexivity|exact IH].
Qed.
Lemma same_goes exact name i : text (f_name i) -> same_name exact name (cstr (f_name i)) = true <-> goes_by exact name i.
Proof.
  intros T. unfold same_name, goes_by. rewrite chars_cstr by exact T. destruct exact; rewrite eq_bytes_iff; [split; congruence|apply lower_alike_all].
Qed.
Lemma find_first {B} (p : B -> bool) l : match find p l with
  | Some a => first_with (fun b => p b = true) l a | None => Forall (fun b => p b <> true) l end.
Proof.
  induction l as [|b l IH]; [constructor|]. cbn [find]. destruct (p b) eqn:E.
  - exists [], l. repeat split; [exact E|constructor].
  - destruct (find p l) as [a|]; [|constructor; [congruence|exact IH]]. destruct IH as (l1 & l2 & -> & H1 & H2). exists (b :: l1), l2.
    split; [reflexivity|]. split; [exact H1|]. constructor; [congruence|exact H2].
Qed.
Lemma infos_text v f base m s : inv v f base m s -> Forall (fun i => text (f_name i)) (s_infos s).
Proof.
  intros I. destruct (the_iinf _ _ _ _ _ I) as (es & R & _). induction R as [|e i es is R _ IH]; constructor; [apply R|exact IH].
Qed.
Lemma by_name v f base m s t exact name : inv v f base m s -> find_by_name m t exact name =
  match find (fun i => same_name exact name (cstr (f_name i))) (s_infos s) with
  | Some i => item_by_id t (w16 (f_id i)) | None => Err MP4NotFoundErr end.
Proof.
  intros I. destruct (the_iinf _ _ _ _ _ I) as (es & R & E & M & ND). unfold find_by_name. rewrite M.
  pose proof (named_ok es (s_infos s) exact name R) as Q. destruct es as [|e0 es0].
  - inversion R. reflexivity.
  - change (ii_kids (iinf_of (e0 :: es0))) with (map (fun e => ALeaf (infe + X) (inl e)) (e0 :: es0)). rewrite Q. cbn [bind].
    destruct (find _ (s_infos s)); reflexivity.
Qed.

Lemma with_type_ok v f base m s l ty : inv v f base m s -> Forall (fun a => type_of s (i_id a) <> None) l -> forall k,
  with_type m l k ty = Ok (positions s (map i_id l) k ty).
Proof.
  intros I. induction 1 as [|a l Ha _ IH]; intros k; [reflexivity|]. cbn [with_type map positions]. rewrite (q_type v f base m s _ I).
  unfold type_of in *. destruct (info_of s (i_id a)) as [i|]; [|contradiction]. destruct (f_form i) as [| |t u]; try contradiction. cbn [bind]. rewrite IH. cbn [bind fst].
  rewrite N.eqb_sym. destruct (t =? ty); reflexivity.
Qed.
Lemma with_type_bad v f base m s l ty : inv v f base m s -> (exists a, In a l /\ type_of s (i_id a) = None) -> forall k,
  with_type m l k ty = Err MP4BadParamErr \/ with_type m l k ty = Err MP4InvalidMediaErr.
Proof.
  intros I. induction l as [|b l IH]; intros (a & H & N) k; [destruct H|]. cbn [with_type]. rewrite (q_type v f base m s _ I).
  destruct H as [->|H].
  - unfold type_of in N. destruct (info_of s (i_id a)) as [i|]; [|left; reflexivity]. destruct (f_form i); [right; reflexivity..|discriminate].
  - specialize (IH (ex_intro _ a (conj H N)) (S k)). destruct (info_of s (i_id b)) as [i|]; [|left; reflexivity]. destruct (f_form i); [right; reflexivity..|].
    cbn [bind]. destruct IH as [-> | ->]; [left|right]; reflexivity.
Qed.

(* data boxes *)
Lemma other_types k : as_other k = None -> In (kid_type x k) other_codes.
Proof.
  destruct k as [t u d|t d|l|t ks]; try discriminate. destruct l; try discriminate; intros _; vm_compute; tauto.
Qed.
Lemma find_other (ty : N) kids : ~ In ty other_codes -> find (fun k => kid_type x k =? ty) kids = find (fun k => kid_type x k =? ty) (select as_other kids).
Proof.
  intros H. induction kids as [|k r IH]; [reflexivity|]. rewrite select_cons. cbn [find].
  assert (O : as_other k = Some k \/ as_other k = None) by (destruct k as [t u d|t d|l|t ks]; [| |destruct l|]; cbn [as_other]; auto).
  destruct O as [O|O]; rewrite O; cbn [opt_list app find].
  - rewrite IH. reflexivity.
  - destruct (N.eqb_spec (kid_type x k) ty) as [E|E]; [|exact IH]. elim H. rewrite <- E. apply other_types, O.
Qed.
Lemma find_app_none {B} (p : B -> bool) l r : Forall (fun a => p a = false) l -> find p (l ++ r) = find p r.
Proof. induction 1 as [|a l H _ IH]; [reflexivity|]. cbn [app find]. rewrite H. exact IH. Qed.
Lemma find_map_box (l : list pdata) ty : find (fun k => kid_type x k =? ty) (map pd_box l) = option_map pd_box (find (fun b => pd_type b =? ty) l).
Proof. induction l as [|b l IH]; [reflexivity|]. cbn [map find]. unfold kid_type at 1, pd_box at 1. cbn [atype]. destruct (pd_type b =? ty); [reflexivity|exact IH]. Qed.

Lemma inv_data v f base m s b : inv v f base m s -> ~ In (pd_type b) other_codes ->
  inv v f (base ++ [pd_box b]) (mkMbox (mb_ver m) (mb_flags m) (mb_kids m ++ [pd_box b])) s.
Proof.
  intros [I1 I2 I3 I4 I5 I6 I7 I8 I9 I10] _. constructor; cbn [mb_ver mb_flags mb_kids]; rewrite ?select_app; cbn [select flat_map as_other as_pitm as_iinf as_ipro as_grpl pd_box opt_list app]; rewrite ?app_nil_r; auto.
  rewrite I2. reflexivity.
Qed.
Lemma once_other ty : ~ In ty once_codes -> ~ In ty other_codes.
Proof. intros H K. apply H. unfold once_codes, other_codes in *. cbn [In] in *. tauto. Qed.
Lemma add_ok v f base m s b : inv v f base m s -> pdata_ok x b -> len (pd_bytes b) < 4294967296 ->
  add_pdata x m (pd_type b) (pd_data b) (pd_full b) = Ok (mkMbox (mb_ver m) (mb_flags m) (mb_kids m ++ [pd_box b])).
Proof.
  intros I (H1 & H2 & H3 & H4 & H5 & H6 & H7) L. unfold add_pdata. change (if pd_full b then [0; 0; 0; 0] ++ pd_data b else pd_data b) with (if pd_full b then [0; 0; 0; 0] ++ pd_data b else [] ++ pd_data b).
  replace (if pd_full b then [0; 0; 0; 0] ++ pd_data b else [] ++ pd_data b) with (pd_bytes b) by (unfold pd_bytes; destruct (pd_full b); reflexivity).
  destruct (N.leb_spec 4294967296 (len (pd_bytes b))); [lia|]. unfold mbox_add, taken. cbn [atype]. rewrite <- once_same.
  destruct (existsb (N.eqb (pd_type b)) once_codes) eqn:E; [|reflexivity]. apply existsb_exists in E. destruct E as (t & I0 & E). apply N.eqb_eq in E. subst t. contradiction.
Qed.
Lemma apart_known ty : c_known x ty = false -> ~ In ty other_codes -> c_known (kid_codec x) ty = false.
Proof.
  intros H1 H2. unfold other_codes in H2. cbn [In] in H2. cbn [kid_codec c_known].
  change (c_known pitm_codec ty) with (ty =? code "pitm"). change (c_known (iinf_codec x) ty) with (code "iinf" =? ty).
  change (c_known (ipro_codec x) ty) with (code "ipro" =? ty). change (c_known grpl_codec ty) with (code "grpl" =? ty). rewrite H1.
  destruct (N.eqb_spec ty (code "pitm")); [subst; tauto|]. repeat match goal with |- context [?c =? ty] => destruct (N.eqb_spec c ty); [subst; tauto|] end. reflexivity.
Qed.
Lemma start_data v f base b : start x y v f base -> pdata_ok x b -> start x y v f (base ++ [pd_box b]).
Proof.
  intros (S1 & S2 & S3 & S4 & S5) (H1 & H2 & H3 & H4 & H5 & H6 & H7).
  assert (B : bytes (pd_bytes b)) by (unfold pd_bytes; destruct (pd_full b); [|exact H7]; repeat (constructor; [reflexivity|]); exact H7).
  split; [exact S1|]. split; [|split; [|split]].
  - apply Forall_app. split; [exact S2|]. constructor; [|constructor]. unfold kid_ok, pd_box. cbn [wf]. repeat split; auto.
    + apply apart_known; [exact H5|apply once_other, H6].
    + destruct (N.eqb_spec (pd_type b) (code "uuid")); [contradiction|reflexivity].
    + constructor.
  - unfold kid_view in *. rewrite map_app, filter_app, S3. reflexivity.
  - apply Forall_app. split; [exact S4|]. constructor; [|constructor]. unfold pd_box. cbn [atype]. apply once_other, H6.
  - rewrite Forall_forall in *. intros ty Hty. unfold of_type in *. rewrite filter_app. cbn [filter pd_box atype].
    destruct (N.eqb_spec (pd_type b) ty) as [E|E]; [subst ty; contradiction|]. rewrite app_nil_r. apply S5, Hty.
Qed.
Lemma ke_pd b : pdata_ok x b -> ke (pd_box b) = box (pd_type b) (pd_bytes b).
Proof.
  intros (H1 & H2 & H3 & H4 & H5 & H6 & H7). unfold kid_enc, pd_box. cbn [enc]. reflexivity.
Qed.
Lemma prun_ok v f base : start x y v f base -> forall os m s l, inv v f (base ++ map pd_box l) m s -> start x y v f (base ++ map pd_box l) -> Forall (pdata_ok x) l ->
  12 + len (flat_map ke base) + pd_len l < 4294967296 -> pops_ok x (len (flat_map ke base)) s l os ->
  exists m', prun x dx m os = Ok m' /\ inv v f (base ++ map pd_box (snd (prun_spec s l os))) m' (fst (prun_spec s l os)).
Proof.
  intros B. induction os as [|o os IH]; intros m s l I St P L H; [exists m; split; [reflexivity|exact I]|]. destruct o as [o|b]; cbn [prun prun_spec pops_ok pop_ok] in *.
  - destruct H as [H1 H2].
    assert (E : len (flat_map ke (base ++ map pd_box l)) = len (flat_map ke base) + pd_len l).
    { rewrite flat_map_app, len_app. f_equal. unfold pd_len. f_equal. clear -P. induction P as [|b l Pb _ IH]; [reflexivity|]. cbn [map flat_map]. rewrite IH, ke_pd by exact Pb. reflexivity. }
    destruct (run_ok x dx y F A v f (base ++ map pd_box l) (4294967295 - (12 + len (flat_map ke base) + pd_len l)) St ltac:(rewrite E; lia) [o] m s I (conj H1 Logic.I)) as (m1 & E1 & I1).
    cbn [mrun mrun_spec] in E1, I1. destruct (mstep x dx m o) as [[a m2]| |]; try discriminate. cbn [bind fst snd] in *. destruct (mstep_spec s o) as [a' s']. cbn [fst snd] in *.
    injection E1 as _ ->. apply (IH m1 s' l I1 St P L H2).
  - destruct H as ((H1 & L1) & H2). assert (Lb : len (pd_bytes b) < 4294967296).
    { unfold pd_len in L1. rewrite flat_map_app, len_app in L1. cbn [flat_map app] in L1. rewrite app_nil_r in L1. rewrite len_box in L1. lia. }
    rewrite (add_ok v f _ m s b I H1 Lb). cbn [bind]. assert (M : base ++ map pd_box (l ++ [b]) = (base ++ map (pd_box (X:=X)) l) ++ [pd_box b]) by (rewrite map_app, app_assoc; reflexivity).
    apply IH; [rewrite M|rewrite M|apply Forall_app; auto|exact L1|exact H2].
    + apply inv_data; [exact I|]. apply once_other, H1.
    + apply start_data; assumption.
Qed.
Lemma data_kept v f base m s l ty full : inv v f (base ++ map pd_box l) m s -> ~ In ty other_codes -> Forall (fun k => kid_type x k <> ty) base ->
  get_pdata x m ty full = match find (fun b => pd_type b =? ty) l with
    | None => Err MP4NotFoundErr
    | Some b => let d := pd_bytes b in
        if full then if len d <? 4 then UB else if len d =? 4 then Err MP4BadDataErr else Ok (skipn 4 d)
        else if len d =? 0 then Err MP4BadDataErr else Ok d end.
Proof.
  intros I H1 H2. unfold get_pdata. rewrite (find_other ty _ H1), (v_base _ _ _ _ _ I), find_app_none, find_map_box.
  - destruct (find _ l); reflexivity.
  - revert H2. apply Forall_impl. intros k Hk. apply N.eqb_neq, Hk.
Qed.
End Find.

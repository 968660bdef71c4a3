(* MmetaProps.v -- C82: meta boxes of files, movies and tracks, and relations
   between them. *)
From Verif Require Import Base Codec BitLemmas AtomModel AtomSpec AtomProofs BoxModel BoxSpec BoxProofs Reads HeaderModel HeaderSpec HeaderProofs
  KidsModel KidsProofs TextModel TextSpec TextProofs EntryModel EntrySpec EntryProofs SmallModel SmallSpec SmallProofs MboxModel MboxSpec MboxProofs MmetaModel MmetaSpec.

Definition fresh (lv : level) : owner := mkOwner lv None None false.
Definition made (lv : level) (l : list N) (rels : list (atom ckid)) : owner :=
  match l with
  | [] => fresh lv
  | [a] => mkOwner lv (Some (new_meta a)) None false
  | a :: b :: _ => mkOwner lv (Some (new_meta a)) (Some (mkMeco [ALeaf ckid (inl (new_meta b))] rels)) (match lv with AtFile => true | _ => false end)
  end.
Lemma meta_code : T_meta = code "meta". Proof. reflexivity. Qed.
Lemma new_at_full lv a b ty : exists e, new_at (made lv [a; b] []) ty = (made lv [a; b] [], Err e) /\ e = MP4BadParamErr.
Proof. unfold new_at, made. cbn [ow_meta]. destruct (T_meta =? ty); exists MP4BadParamErr; split; reflexivity. Qed.
Lemma fst_let {A B} (p : A * list B) x : fst (let (o2, l) := p in (o2, x :: l)) = fst p.
Proof. destruct p; reflexivity. Qed.
Lemma new_all_full lv a b tys : fst (new_all (made lv [a; b] []) tys) = made lv [a; b] [].
Proof.
  induction tys as [|ty tys IH]; [reflexivity|]. cbn [new_all]. destruct (new_at_full lv a b ty) as (e & E & _). rewrite E, fst_let. exact IH.
Qed.
Lemma new_all_one lv a tys : fst (new_all (made lv [a] []) tys) = made lv (a :: second tys) [].
Proof.
  induction tys as [|ty tys IH]; [reflexivity|]. cbn [new_all second]. unfold new_at. cbn [made ow_meta]. rewrite meta_code, N.eqb_sym.
  destruct (ty =? code "meta").
  - rewrite fst_let. exact IH.
  - cbn [ow_meco]. unfold meco_add. cbn [mc_metas existsb app length]. pose proof (new_all_full lv a ty tys) as F.
    change (made lv [a; ty] []) with (mkOwner lv (Some (new_meta a)) (Some (mkMeco [ALeaf ckid (inl (new_meta ty))] [])) (match lv with AtFile => true | _ => false end)) in F.
    cbn [ow_level mc_rels]. rewrite fst_let. exact F.
Qed.
Lemma new_all_made lv tys : fst (new_all (fresh lv) tys) = made lv (accepted tys) [].
Proof.
  destruct tys as [|ty tys]; [reflexivity|]. cbn [new_all accepted]. unfold new_at. cbn [fresh ow_meta ow_level ow_meco ow_linked].
  pose proof (new_all_one lv ty tys) as F. rewrite fst_let. exact F.
Qed.
Lemma accepted_cases tys : accepted tys = [] \/ (exists a, accepted tys = [a]) \/ (exists a b, accepted tys = [a; b] /\ b <> code "meta").
Proof.
  destruct tys as [|a r]; [left; reflexivity|right]. cbn [accepted].
  induction r as [|b r IH]; cbn [second]; [left; exists a; reflexivity|]. destruct (N.eqb_spec b (code "meta")); [exact IH|right; exists a, b; auto].
Qed.
(* After any sequence of calls, the next is accepted if there is no box yet, or
   one box and the type is not 'meta'; then the new box is the one of the
   owner, or the one in the container. Otherwise it is refused. *)
Theorem C82_new :
  forall lv tys ty, snd (new_at (fst (new_all (fresh lv) tys)) ty) =
    if accepts tys ty then Ok (match accepted tys with [] => Primary | _ => Extra 0 end) else Err MP4BadParamErr.
Proof.
  intros lv tys ty. rewrite new_all_made. unfold accepts. destruct (accepted_cases tys) as [E|[(a & E)|(a & b & E & _)]]; rewrite E.
  - reflexivity.
  - unfold new_at. cbn [made ow_meta]. rewrite meta_code, N.eqb_sym. destruct (ty =? code "meta"); reflexivity.
  - destruct (new_at_full lv a b ty) as (e & -> & ->). reflexivity.
Qed.
Print Assumptions C82_new.
Example C82_new_case :
  accepted [code "mp7t"; code "meta"; code "mdir"; code "abcd"] = [code "mp7t"; code "mdir"] /\
  accepts [code "mp7t"; code "meta"] (code "mdir") = true /\ accepts [code "mp7t"; code "mdir"] (code "abcd") = false.
Proof. repeat split. Qed.

Lemma handler_new ty : exists h, handler (new_meta ty) = Some h /\ hd_type h = ty.
Proof. eexists. split; reflexivity. Qed.
Lemma get_made lv a ty : get_at (made lv [a] []) ty = if (ty =? 0) || (a =? ty) then Ok (Primary, a) else Err MP4BadParamErr.
Proof. unfold get_at. cbn. destruct (ty =? 0), (a =? ty); reflexivity. Qed.
Lemma get_made2 lv a b rels ty : get_at (made lv [a; b] rels) ty =
  if (ty =? 0) || (a =? ty) then Ok (Primary, a) else if b =? ty then Ok (Extra 0, b) else UB.
Proof. unfold get_at. cbn. destruct (ty =? 0), (a =? ty), (b =? ty); reflexivity. Qed.
(* The boxes are found by their types, the first also without a type. *)
Theorem C82_get :
  forall lv tys, let o := fst (new_all (fresh lv) tys) in
  (accepted tys = [] -> forall ty, get_at o ty = Err MP4BadParamErr) /\
  (forall a r, accepted tys = a :: r -> get_at o 0 = Ok (Primary, a) /\ get_at o a = Ok (Primary, a)) /\
  (forall a ty, accepted tys = [a] -> ty <> 0 -> ty <> a -> get_at o ty = Err MP4BadParamErr) /\
  (forall a b, accepted tys = [a; b] -> b <> a -> b <> 0 -> get_at o b = Ok (Extra 0, b)).
Proof.
  intros lv tys o. unfold o. rewrite new_all_made. split; [|split; [|split]].
  - intros ->. reflexivity.
  - intros a r E. rewrite E. destruct (accepted_cases tys) as [Q|[(a1 & Q)|(a1 & b & Q & _)]]; rewrite Q in E; try discriminate; injection E as <- <-.
    + split; rewrite get_made; [reflexivity|rewrite N.eqb_refl, orb_true_r; reflexivity].
    + split; rewrite get_made2; [reflexivity|rewrite N.eqb_refl, orb_true_r; reflexivity].
  - intros a ty -> H0 Ha. rewrite get_made. destruct (N.eqb_spec ty 0); [congruence|]. destruct (N.eqb_spec a ty); [congruence|reflexivity].
  - intros a b -> Ha H0. rewrite get_made2. destruct (N.eqb_spec b 0); [congruence|]. destruct (N.eqb_spec a b); [congruence|]. rewrite N.eqb_refl. reflexivity.
Qed.
Print Assumptions C82_get.
Example C82_get_case : get_at (fst (new_all (fresh AtTrack) [code "mp7t"; code "meta"; code "mdir"; code "abcd"])) (code "mdir") = Ok (Extra 0, code "mdir").
Proof. reflexivity. Qed.

(* ------------------------------------------------------------------ *)
(* Saved                                                                *)
Lemma hdlr_faith : faithful hdlr_codec hdlr_layout.
Proof. apply exact_faithful, hdlr_exact. Qed.
Definition ml : layout mmeta := mbox_layout hdlr_codec hdlr_layout.
Lemma ml_faithful : faithful mmeta_codec ml.
Proof. apply mbox_faithful; [exact hdlr_faith|repeat constructor]. Qed.
Lemma shown_range b : 32 <= shown b < 127.
Proof. unfold shown. destruct (N.ltb_spec 31 b), (N.ltb_spec b 127); cbn [andb]; lia. Qed.
Lemma printable_shown b : printable b = shown b.
Proof. unfold printable, shown. destruct (N.leb_spec 32 b), (N.leb_spec b 126), (N.ltb_spec 31 b), (N.ltb_spec b 127); cbn [andb]; lia || reflexivity. Qed.
Lemma name_is ty : chars (type_name ty ++ [0]) = map shown (be32 ty).
Proof.
  assert (E : type_name ty = map shown (be32 ty)) by (unfold type_name, be32; cbn [map]; rewrite !printable_shown; reflexivity).
  rewrite E. unfold be32. cbn [map app]. unfold chars.
  repeat match goal with |- context [shown ?b] => pose proof (shown_range b); set (shown b) in * end. cbn.
  repeat match goal with |- context [?n =? 0] => destruct (N.eqb_spec n 0); [lia|] end. reflexivity.
Qed.
Lemma new_ok ty : ty < 4294967296 -> l_ok ml (new_meta ty).
Proof.
  intros H. unfold ml, new_meta. cbn [mbox_layout l_ok mb_ver mb_flags mb_kids]. split; [split; reflexivity|]. split.
  - constructor; [|constructor]. unfold hdlr_set_name. rewrite name_is. cbn. unfold full_ok.
    split; [lia|]. split; [lia|]. split; [exact H|]. split; [lia|]. split; [lia|]. split; [lia|]. split.
    + unfold text. repeat constructor; match goal with |- context [shown ?b] => pose proof (shown_range b) end; lia.
    + split; [reflexivity|]. intros x r E. left. injection E as <- _. match goal with |- shown ?b <> _ => pose proof (shown_range b) end. unfold len; cbn; lia.
  - repeat (constructor; [vm_compute; discriminate|]). constructor.
Qed.
Lemma new_bytes ty : box (l_ty ml (new_meta ty)) (l_body ml (new_meta ty)) = meta_bytes ty.
Proof.
  unfold meta_bytes, ml, new_meta, hdlr_set_name. rewrite name_is. cbn [mbox_layout l_ty l_body mb_ver mb_flags mb_kids flat_map]. rewrite app_nil_r. reflexivity.
Qed.
Lemma new_view ty : l_view ml (new_meta ty) = new_meta ty.
Proof. reflexivity. Qed.
Definition cl : layout ckid := lsum ml mere_layout.
Lemma cl_faithful : faithful ckid_codec cl.
Proof. apply faithful_sum; [exact ml_faithful|apply exact_faithful, mere_exact|]. intros t _. reflexivity. Qed.

(* relations between the two boxes of a file *)
Definition type_of (l : list N) (w : which) : N := match w with Primary => nth 0 l 0 | Extra _ => nth 1 l 0 end.
Definition extra_in (r : which * which * N) : Prop :=
  (fst (fst r) = Extra 0 /\ (snd (fst r) = Primary \/ snd (fst r) = Extra 0) \/ fst (fst r) = Primary /\ snd (fst r) = Extra 0) /\ snd r < 256.
Definition rel_of (l : list N) (r : which * which * N) : N * N * N := (type_of l (fst (fst r)), type_of l (snd (fst r)), snd r).
Definition rel_box (r : N * N * N) : atom ckid := ALeaf ckid (inr (mkMere 0 0 (fst (fst r)) (snd (fst r)) (snd r))).
Lemma add_rels a b rs : Forall extra_in rs -> forall l,
  add_relations (made AtFile [a; b] l) rs = Ok (made AtFile [a; b] (l ++ map (fun r => rel_box (rel_of [a; b] r)) rs)).
Proof.
  induction 1 as [|[[x y] r] rs H _ IH]; intros l; cbn [add_relations map]; [rewrite app_nil_r; reflexivity|].
  assert (E : add_relation (made AtFile [a; b] l) x y r = Ok (made AtFile [a; b] (l ++ [rel_box (rel_of [a; b] (x, y, r))]))).
  { destruct H as [H _]. cbn [fst snd] in H. destruct H as [[-> [->| ->]]|[-> ->]]; reflexivity. }
  rewrite E. cbn [bind]. rewrite IH, <- app_assoc. reflexivity.
Qed.
(* The box of an owner is written with its type and name. In a file, the box in
   the container and any relations given are written in order, and reading
   gives them back. *)
Theorem C82_saved :
  forall lv tys rs, Forall (fun ty => ty < 4294967296) tys -> Forall extra_in rs ->
  let o := fst (new_all (fresh lv) tys) in
  (forall a r, accepted tys = a :: r -> exists m, ow_meta o = Some m /\ write_box mmeta_codec m = Ok (meta_bytes a) /\
     (forall dflt rest, read_box mmeta_codec dflt (meta_bytes a ++ rest) = Ok ((ALeaf mmeta m, len (meta_bytes a)), rest))) /\
  (forall a b, accepted tys = [a; b] -> lv = AtFile ->
     let bytes := box (code "meco") (meta_bytes b ++ flat_map (fun r => mere_bytes (rel_of [a; b] r)) rs) in
     len bytes < 4294967296 -> exists o' c, add_relations o rs = Ok o' /\ ow_meco o' = Some c /\ write_box cmeco_codec c = Ok bytes /\
       (forall dflt rest, read_box cmeco_codec dflt (bytes ++ rest) = Ok ((ALeaf _ c, len bytes), rest)) /\
       (forall ty, get_at o' ty = get_at o ty)).
Proof.
  intros lv tys rs H Hr o. unfold o. rewrite new_all_made. clear o.
  assert (In_acc : forall x, In x (accepted tys) -> x < 4294967296).
  { assert (S : forall l x, In x (second l) -> In x l).
    { induction l as [|y l IH]; cbn [second]; [tauto|]. intros x. destruct (y =? code "meta"); cbn [In]; [auto|intuition]. }
    rewrite Forall_forall in H. intros x. destruct tys as [|t r]; cbn [accepted In]; [tauto|]. intros [->|I]; apply H; cbn; auto. }
  split.
  - intros a r E. exists (new_meta a).
    assert (Oa : ow_meta (made lv (accepted tys) []) = Some (new_meta a)) by (rewrite E; destruct r; reflexivity).
    split; [exact Oa|].
    assert (O := new_ok a (In_acc a ltac:(rewrite E; left; reflexivity))).
    destruct (faithful_round_trip _ _ _ ml_faithful O) as (_ & W & R & _).
    { assert (L : len (box (l_ty ml (new_meta a)) (l_body ml (new_meta a))) = len (meta_bytes a)) by (rewrite new_bytes; reflexivity).
      rewrite len_box in L. rewrite L. reflexivity. }
    rewrite new_bytes in *. rewrite new_view in R. split; [exact W|exact R].
  - intros a b E El. set (bytes := box (code "meco") _). intros L. subst lv. rewrite E, add_rels by exact Hr. cbn [app].
    set (c := mkMeco [ALeaf ckid (inl (new_meta b))] (map (fun r => rel_box (rel_of [a; b] r)) rs)).
    exists (made AtFile [a; b] (map (fun r => rel_box (rel_of [a; b] r)) rs)), c. split; [reflexivity|]. split; [reflexivity|].
    assert (Ha : a < 4294967296) by (apply In_acc; rewrite E; cbn; auto). assert (Hb : b < 4294967296) by (apply In_acc; rewrite E; cbn; auto).
    assert (O : l_ok (meco_layout ckid_codec cl) c).
    { cbn [meco_layout l_ok c mc_metas mc_rels]. split; [constructor; [exact (new_ok b Hb)|constructor]|]. split.
      - apply Forall_map. eapply Forall_impl; [|exact Hr]. intros [[x y] r] [He Hx]. cbn. cbn [fst snd] in *. unfold full_ok.
        assert (forall w, type_of [a; b] w < 4294967296) by (intros [|i]; cbn; assumption). repeat split; auto; lia.
      - split; [constructor; [reflexivity|constructor]|]. unfold SmallSpec.of_type. apply Forall_map, Forall_forall. reflexivity. }
    assert (B : box (l_ty (meco_layout ckid_codec cl) c) (l_body (meco_layout ckid_codec cl) c) = bytes).
    { unfold bytes. cbn [meco_layout l_ty l_body c mc_metas mc_rels]. f_equal. f_equal.
      - unfold kids_bytes. cbn [flat_map]. rewrite app_nil_r, <- new_bytes. reflexivity.
      - unfold kids_bytes. rewrite flat_map_concat_map, map_map, <- flat_map_concat_map. apply flat_map_ext. intros [[x y] r]. reflexivity. }
    assert (V : l_view (meco_layout ckid_codec cl) c = c).
    { cbn [meco_layout l_view c mc_metas mc_rels]. unfold c. f_equal. rewrite map_map. reflexivity. }
    destruct (faithful_round_trip _ _ c (meco_faithful ckid_codec cl ckid_dflt cl_faithful) O) as (_ & W & R & _); [rewrite <- B, len_box in L; exact L|].
    rewrite B in *. rewrite V in R. split; [exact W|]. split; [exact R|].
    intros ty. rewrite !get_made2. reflexivity.
Qed.
Print Assumptions C82_saved.
Example C82_saved_case :
  Forall extra_in [(Primary, Extra 0, 3); (Extra 0, Primary, 1)] /\ rel_of [code "mp7t"; code "mdir"] (Extra 0, Primary, 1) = (code "mdir", code "mp7t", 1) /\
  meta_bytes 1952645120 = [0;0;0;49; 109;101;116;97; 0;0;0;0; 0;0;0;37; 104;100;108;114; 0;0;0;0; 0;0;0;0; 116;99;0;0; 0;0;0;0; 0;0;0;0; 0;0;0;0; 116;99;46;46; 0].
Proof. split; [repeat constructor; cbn; tauto|]. split; reflexivity. Qed.

(* ------------------------------------------------------------------ *)
(* Exceptions                                                           *)


(* in a file that was read there may be more boxes than two: the first of the container that has the type *)
Theorem C82_get_read :
  forall lv m h ms rels k mk ty, handler m = Some h -> ty <> 0 -> ty <> hd_type h ->
  nth_error ms k = Some mk -> (exists hk, handler mk = Some hk /\ hd_type hk = ty) ->
  (forall j mj, (j < k)%nat -> nth_error ms j = Some mj -> exists hj, handler mj = Some hj /\ hd_type hj <> ty) ->
  get_at (owner_read lv (Some m) (Some (mkMeco (map (fun x => ALeaf ckid (inl x)) ms) rels))) ty = Ok (Extra k, ty).
Proof.
  intros lv m h ms rels k mk ty Hm H0 Hh Hk (hk & E1 & E2) Hb. unfold get_at. cbn [owner_read ow_meta ow_meco mc_metas]. rewrite Hm.
  destruct (N.eqb_spec ty 0); [congruence|]. destruct (N.eqb_spec (hd_type h) ty); [congruence|]. cbn [negb andb].
  assert (G : forall i, meco_get (map (fun x => ALeaf ckid (inl x)) ms) i ty = Ok (Extra (i + k), ty)).
  { revert k Hk Hb. clear - E1 E2. induction ms as [|x ms IH]; intros k Hk Hb i; [destruct k; discriminate|]. cbn [map meco_get]. destruct k as [|k].
    - injection Hk as ->. rewrite E1, E2, N.eqb_refl, Nat.add_0_r. reflexivity.
    - destruct (Hb 0%nat x ltac:(apply Nat.lt_0_succ) eq_refl) as (hj & F1 & F2). rewrite F1. destruct (N.eqb_spec (hd_type hj) ty); [congruence|].
      rewrite (IH k Hk); [rewrite <- plus_n_Sm; reflexivity|]. intros j mj Hj. apply (Hb (S j)). apply -> Nat.succ_lt_mono. exact Hj. }
  apply G.
Qed.
Print Assumptions C82_get_read.
Example C82_get_read_case :
  get_at (owner_read AtTrack (Some (new_meta 1)) (Some (mkMeco (map (fun x => ALeaf ckid (inl x)) [new_meta 2; new_meta 3; new_meta 4]) []))) 4 = Ok (Extra 2, 4).
Proof. reflexivity. Qed.
(* a second box of the same type is made, and nothing finds it *)
Theorem C82_same_type_refuted :
  forall lv a, a <> code "meta" -> let o := fst (new_all (fresh lv) [a; a]) in
  snd (new_all (fresh lv) [a; a]) = [Ok Primary; Ok (Extra 0)] /\ forall ty i x, get_at o ty <> Ok (Extra i, x).
Proof.
  intros lv a H o. split.
  - cbn [new_all]. unfold new_at. cbn [fresh ow_meta ow_level ow_meco ow_linked]. rewrite meta_code. destruct (N.eqb_spec (code "meta") a); [congruence|]. reflexivity.
  - intros ty i x. unfold o. rewrite new_all_made. cbn [accepted second]. destruct (N.eqb_spec a (code "meta")); [congruence|].
    rewrite get_made2. destruct (N.eqb_spec ty 0); [discriminate|]. destruct (N.eqb_spec a ty); discriminate.
Qed.
Print Assumptions C82_same_type_refuted.
(* with a container, asking for a type that is not there is undefined *)
Theorem C82_get_absent_refuted :
  forall lv tys a b ty, accepted tys = [a; b] -> ty <> 0 -> ty <> a -> ty <> b -> get_at (fst (new_all (fresh lv) tys)) ty = UB.
Proof.
  intros lv tys a b ty E H0 Ha Hb. rewrite new_all_made, E, get_made2.
  destruct (N.eqb_spec ty 0); [congruence|]. destruct (N.eqb_spec a ty); [congruence|]. destruct (N.eqb_spec b ty); [congruence|reflexivity].
Qed.
Print Assumptions C82_get_absent_refuted.
(* relations of movies and tracks are refused *)
Theorem C82_relation_level_refuted :
  forall lv tys a b x y r, lv <> AtFile -> accepted tys = [a; b] -> extra_in (x, y, r) ->
  add_relation (fst (new_all (fresh lv) tys)) x y r = Err MP4BadParamErr.
Proof.
  intros lv tys a b x y r Hl E [H _]. rewrite new_all_made, E. cbn [fst snd] in H.
  destruct lv; [congruence| |]; destruct H as [[-> [->| ->]]|[-> ->]]; reflexivity.
Qed.
Print Assumptions C82_relation_level_refuted.
(* a relation that was given is always read as 0 *)
Lemma no_match a b rs : b <> code "meta" -> Forall extra_in rs -> forall n,
  fold_left (fun r k => match k with ALeaf _ (inr x) => if (me_first x =? T_meta) && (me_second x =? T_meta) then me_relation x else r | _ => r end)
    (map (fun r => rel_box (rel_of [a; b] r)) rs) n = n.
Proof.
  intros Hb. induction 1 as [|[[x y] r] rs [H _] _ IH]; intros n; cbn [map fold_left]; [reflexivity|].
  cbn [fst snd] in H. rewrite meta_code in *.
  assert (Q : (type_of [a; b] x =? code "meta") && (type_of [a; b] y =? code "meta") = false).
  { apply andb_false_iff. destruct H as [[-> _]|[_ ->]]; [left|right]; apply N.eqb_neq; exact Hb. }
  etransitivity; [|apply (IH n)]. f_equal.
  change ((if (type_of [a; b] x =? code "meta") && (type_of [a; b] y =? code "meta") then r else n) = n). rewrite Q. reflexivity.
Qed.
Theorem C82_relation_lost_refuted :
  forall tys a b rs o' x y r, accepted tys = [a; b] -> Forall extra_in rs -> extra_in (x, y, r) ->
  add_relations (fst (new_all (fresh AtFile) tys)) (rs ++ [(x, y, r)]) = Ok o' -> get_relation o' x y = Ok 0.
Proof.
  intros tys a b rs o' x y r E Hr Hx. rewrite new_all_made, E.
  assert (Hb : b <> code "meta").
  { destruct (accepted_cases tys) as [Q|[(a1 & Q)|(a1 & b1 & Q & N)]]; rewrite Q in E; try discriminate. injection E as <- <-. exact N. }
  assert (Ha : Forall extra_in (rs ++ [(x, y, r)])) by (apply Forall_app; auto).
  rewrite add_rels by exact Ha. cbn [app]. intros R. injection R as <-. unfold get_relation.
  pose proof (no_match a b _ Hb Ha 0) as NM. destruct Hx as [Hx _]. cbn [fst snd] in Hx.
  destruct Hx as [[-> [->| ->]]|[-> ->]]; cbn [meta_at made ow_meta ow_meco mc_metas nth_error bind linked ow_linked orb mc_rels]; rewrite NM; reflexivity.
Qed.
Print Assumptions C82_relation_lost_refuted.
(* and in a file that was read both calls are refused *)
Theorem C82_relation_read_refuted :
  forall lv m c x y r, (exists mx, meta_at (owner_read lv m c) x = Ok mx) -> (exists my, meta_at (owner_read lv m c) y = Ok my) ->
  add_relation (owner_read lv m c) x y r = Err MP4BadParamErr /\ get_relation (owner_read lv m c) x y = Err MP4BadParamErr.
Proof.
  intros lv m c x y r [mx Ex] [my Ey]. unfold add_relation, get_relation. rewrite Ex, Ey. cbn [bind].
  destruct x, y; split; reflexivity.
Qed.
Print Assumptions C82_relation_read_refuted.
Example C82_exceptions_case :
  accepted [code "mp7t"; code "mdir"] = [code "mp7t"; code "mdir"] /\ extra_in (Primary, Extra 0, 3) /\
  (exists mx, meta_at (owner_read AtFile (Some (new_meta 1)) (Some (mkMeco [ALeaf ckid (inl (new_meta 2))] []))) (Extra 0) = Ok mx).
Proof. split; [reflexivity|]. split; [unfold extra_in; cbn; split; [tauto|reflexivity]|]. eexists. reflexivity. Qed.

From Verif Require Import Base Codec AtomModel AtomSpec AtomProofs AtomProps BoxModel BoxSpec BoxProofs Reads EntryProofs
  HeaderModel HeaderSpec HeaderProofs TextModel TextSpec TextProofs TrackModel KidsModel KidsProofs MboxModel MboxSpec MboxProofs.

Definition select {A B} (sel : A -> option B) (l : list A) : list B := flat_map (fun k => opt_list (sel k)) l.
Lemma select_app {A B} (sel : A -> option B) a b : select sel (a ++ b) = select sel a ++ select sel b.
Proof. apply flat_map_app. Qed.
Lemma select_cons {A B} (sel : A -> option B) k l : select sel (k :: l) = opt_list (sel k) ++ select sel l.
Proof. reflexivity. Qed.

Section Hist.
Context {X : Type} (x : codec X) (dx : X) (y : layout X).
Hypothesis F : faithful x y.
Hypothesis A : apart x.
Notation iinf := (iinf (X:=X)). Notation sinf := (sinf (X:=X)). Notation ipro := (ipro (X:=X)). Notation mbox := (mbox (X:=X)). Notation kid := (kid (X:=X)).
Notation item := (atom kid).
Notation kty := (atype kid (c_ty (kid_codec x))).
Notation ke := (kid_enc (kid_codec x) (kid_layout x y)).
Notation ko := (kid_ok (kid_codec x) (kid_layout x y)).
Notation kv := (kid_view (kid_layout x y)).

Definition as_other (k : item) : option item :=
  match k with ALeaf _ (KOther _) => Some k | ALeaf _ _ => None | _ => Some k end.

Lemma member_select {B} (sel : item -> option B) l : member sel l = hd_error (select sel l).
Proof. induction l as [|k r IH]; [reflexivity|]. rewrite select_cons. cbn [member]. destruct (sel k); [reflexivity|exact IH]. Qed.
(* putting a member in its place *)
Lemma place_same {B} (sel : item -> option B) (m : mbox) k' a : sel k' = Some a -> len (select sel (mb_kids m)) <= 1 ->
  select sel (mb_kids (place sel m k')) = [a].
Proof.
  intros Hk. unfold place. cbn [mb_kids]. rewrite member_select. destruct (select sel (mb_kids m)) as [|b r] eqn:E.
  - intros _. cbn [hd_error]. rewrite select_app, E. cbn [select flat_map app]. rewrite Hk. reflexivity.
  - cbn [hd_error]. intros L. assert (r = []) by (apply len_0; lens; lia). subst r. clear L. revert E. induction (mb_kids m) as [|k l IH]; [discriminate|].
    rewrite select_cons. cbn [set_member]. destruct (sel k) as [c|] eqn:Ek; cbn [opt_list app].
    + intros E. injection E as -> E. rewrite select_cons, Hk, E. reflexivity.
    + intros E. rewrite select_cons, Ek. cbn [opt_list app]. apply IH, E.
Qed.
Lemma place_other {B C} (sel : item -> option B) (s2 : item -> option C) (m : mbox) k' : (forall k, sel k <> None -> s2 k = None) -> s2 k' = None ->
  select s2 (mb_kids (place sel m k')) = select s2 (mb_kids m).
Proof.
  intros D Hk. unfold place. cbn [mb_kids]. destruct (member sel (mb_kids m)).
  - induction (mb_kids m) as [|k l IH]; [reflexivity|]. cbn [set_member]. destruct (sel k) eqn:Ek.
    + rewrite !select_cons, Hk, (D k) by congruence. reflexivity.
    + rewrite !select_cons, IH. reflexivity.
  - rewrite select_app. cbn [select flat_map app]. rewrite Hk. apply app_nil_r.
Qed.

(* ------------------------------------------------------------------ *)
(* What the records stand for                                          *)

Definition bare (s : option (list N)) : option (list N) := Some (match s with Some b => b | None => [0] end).
Record rep (e : infe) (i : info) : Prop := {
  r_id : in_id e = f_id i; r_prot : in_prot e = f_prot i; r_flags : in_flags e = if f_hidden i then 1 else 0;
  r_name : in_name e = Some (cstr (f_name i)); r_text : text (f_name i); r_short : f_prot i < 65536;
  r_content : match f_content i with Some (a, b) => in_ct e = bare a /\ in_ce e = bare b | None => in_ct e = None /\ in_ce e = None end;
  r_form : match f_form i with
           | Plain => in_ver e = 0
           | Extended ty d => in_ver e = 1 /\ in_exttype e = ty /\ in_ext e = Some d
           | Typed ty u => in_ver e = 2 /\ in_type e = ty /\ in_uri e = option_map cstr u /\ otext u
           end }.
Definition scheme_box (b : N * list N) : atom (sub (X:=X)) := AOpaque _ (fst b) [] (snd b).
Definition rep_prot (s : sinf) (p : protection) : Prop :=
  otext (p_url p) /\ exists fl, s = mkSinf None (Some (mkSchm 0 fl (p_type p) (p_version p) (option_map cstr (p_url p)))) (Some (map scheme_box (p_boxes p))).
Definition group_box (g : group) : egrp := mkEgrp (g_type g) 0 0 (g_id g) (g_members g) [].
Definition opt_box {B C} (f : list B -> C) (l : list B) : list C := match l with [] => [] | _ => [f l] end.
Definition iinf_of (es : list infe) : iinf := mkIinf 0 0 (map (fun e => ALeaf _ (inl e)) es).
Definition ipro_of (ps : list sinf) : ipro := mkIpro 0 0 (map (fun s => ALeaf _ (inl s)) ps).
Record inv (v f : N) (base : list item) (m : mbox) (s : mstate) : Prop := {
  v_full : mb_ver m = v /\ mb_flags m = f;
  v_base : select as_other (mb_kids m) = base;
  v_pitm : select as_pitm (mb_kids m) = map (mkPitm 0 0) (opt_list (s_primary s));
  v_small : Forall (fun id => id < 65536) (opt_list (s_primary s));
  v_iinf : exists es, Forall2 rep es (s_infos s) /\ select as_iinf (mb_kids m) = opt_box iinf_of es;
  v_ipro : exists ps, Forall2 rep_prot ps (s_prots s) /\ select as_ipro (mb_kids m) = opt_box ipro_of ps;
  v_grpl : select as_grpl (mb_kids m) = opt_box (map group_box) (s_groups s);
  v_ids : NoDup (map f_id (s_infos s));
  v_gids : NoDup (map g_id (s_groups s));
  v_count : Forall (fun g => len (g_members g) < 4294967296) (s_groups s) }.

Lemma opt_box_len {B C} (f : list B -> C) l : len (opt_box f l) <= 1.
Proof. destruct l; cbn [opt_box]; lens; lia. Qed.
Lemma hd_opt_box {B C} (f : list B -> C) l : hd_error (opt_box f l) = match l with [] => None | _ => Some (f l) end.
Proof. destruct l; reflexivity. Qed.

(* ------------------------------------------------------------------ *)
(* entries by id                                                       *)

Lemma get_entry_find es id : NoDup (map in_id es) -> get_entry (X:=X) (map (fun e => ALeaf _ (inl e)) es) id = find (fun e => in_id e =? id) es.
Proof.
  induction es as [|e r IH]; intros H; [reflexivity|]. cbn [map get_entry find]. inversion_clear H as [|? ? H1 H2]. rewrite (IH H2).
  destruct (N.eqb_spec (in_id e) id) as [E|E].
  - destruct (find _ r) as [e2|] eqn:Q; [|reflexivity]. apply find_some in Q. destruct Q as [I Q]. apply N.eqb_eq in Q. elim H1. rewrite E, <- Q. apply in_map, I.
  - destruct (find _ r); reflexivity.
Qed.
Lemma find_info_find es id : find_info (X:=X) (map (fun e => ALeaf _ (inl e)) es) id = Ok (find (fun e => in_id e =? id) es).
Proof. induction es as [|e r IH]; [reflexivity|]. cbn [map find_info find]. destruct (in_id e =? id); [reflexivity|exact IH]. Qed.
Lemma existsb_entry es id : existsb (is_entry (X:=X) id) (map (fun e => ALeaf _ (inl e)) es) = existsb (fun e => in_id e =? id) es.
Proof. induction es as [|e r IH]; [reflexivity|]. cbn [map existsb is_entry]. rewrite IH. reflexivity. Qed.
Lemma change_none {B} (p : B -> bool) f l : existsb p l = false -> change p f l = l.
Proof. unfold change. induction l as [|a r IH]; [reflexivity|]. cbn [existsb map]. intros H. apply orb_false_iff in H as [-> H]. rewrite (IH H). reflexivity. Qed.
Lemma put_entry_change es id e f : NoDup (map in_id es) -> find (fun e => in_id e =? id) es = Some e ->
  put_entry (X:=X) (map (fun e => ALeaf _ (inl e)) es) id (f e) = map (fun e => ALeaf _ (inl e)) (change (fun e => in_id e =? id) f es).
Proof.
  induction es as [|a r IH]; intros H; [discriminate|]. inversion_clear H as [|? ? H1 H2]. cbn [find map put_entry]. rewrite existsb_entry.
  unfold change. cbn [map]. fold (change (fun e => in_id e =? id) f r). cbn [is_entry].
  destruct (N.eqb_spec (in_id a) id) as [E|E].
  - intros Q. injection Q as <-. assert (N : existsb (fun e => in_id e =? id) r = false).
    { destruct (existsb _ r) eqn:Q; [|reflexivity]. apply existsb_exists in Q. destruct Q as (b & I & Q). apply N.eqb_eq in Q. elim H1. rewrite E, <- Q. apply in_map, I. }
    rewrite N, change_none by exact N. reflexivity.
  - intros Q. assert (N : existsb (fun e => in_id e =? id) r = true).
    { apply find_some in Q. apply existsb_exists. exists e. exact Q. }
    rewrite N, (IH H2 Q). reflexivity.
Qed.
Lemma find_rep es is id : Forall2 rep es is ->
  match find (fun e => in_id e =? id) es, find (fun i => f_id i =? id) is with Some e, Some i => rep e i /\ f_id i = id | None, None => True | _, _ => False end.
Proof.
  induction 1 as [|e i es is R _ IH]; [exact I|]. cbn [find]. rewrite (r_id _ _ R). destruct (N.eqb_spec (f_id i) id); [auto|exact IH].
Qed.
Lemma change_rep es is id f g : Forall2 rep es is -> (forall e i, rep e i -> rep (f e) (g i)) ->
  Forall2 rep (change (fun e => in_id e =? id) f es) (change (fun i => f_id i =? id) g is).
Proof.
  intros H G. unfold change. induction H as [|e i es is R _ IH]; [constructor|]. cbn [map]. constructor; [|exact IH]. rewrite (r_id _ _ R).
  destruct (f_id i =? id); [apply G, R|exact R].
Qed.
Lemma rep_ids es is : Forall2 rep es is -> map in_id es = map f_id is.
Proof. induction 1 as [|e i es is R _ IH]; [reflexivity|]. cbn [map]. rewrite (r_id _ _ R), IH. reflexivity. Qed.
Lemma change_ids is id g : (forall i, f_id (g i) = f_id i) -> map f_id (change (fun i => f_id i =? id) g is) = map f_id is.
Proof. intros G. unfold change. rewrite map_map. apply map_ext. intros i. destruct (f_id i =? id); [apply G|reflexivity]. Qed.
Lemma change_nil {B} (p : B -> bool) f l : change p f l = [] -> l = [].
Proof. unfold change. destruct l; [reflexivity|discriminate]. Qed.

(* the iinf of a box *)
Lemma the_iinf v f base m s : inv v f base m s -> exists es, Forall2 rep es (s_infos s) /\ select as_iinf (mb_kids m) = opt_box iinf_of es /\
  member as_iinf (mb_kids m) = match es with [] => None | _ => Some (iinf_of es) end /\ NoDup (map in_id es).
Proof.
  intros I. destruct (v_iinf _ _ _ _ _ I) as (es & R & E). exists es. split; [exact R|]. split; [exact E|]. rewrite member_select, E, hd_opt_box.
  split; [reflexivity|]. rewrite (rep_ids _ _ R). apply (v_ids _ _ _ _ _ I).
Qed.
Lemma with_entry_ok {B} v f base m s id err (g : iinf -> infe -> res B) : inv v f base m s ->
  with_entry m id err g = match info_of s id with
    | None => Err err
    | Some _ => with_entry m id err g end /\
  (forall i, info_of s id = Some i -> exists es e, Forall2 rep es (s_infos s) /\ NoDup (map in_id es) /\ find (fun e => in_id e =? id) es = Some e /\ rep e i /\ f_id i = id /\
     select as_iinf (mb_kids m) = opt_box iinf_of es /\ es <> [] /\ with_entry m id err g = g (iinf_of es) e).
Proof.
  intros I. destruct (the_iinf _ _ _ _ _ I) as (es & R & E & M & N). pose proof (find_rep es (s_infos s) id R) as Q.
  unfold info_of. unfold with_entry. rewrite M.
  assert (G : get_entry (ii_kids (iinf_of es)) id = find (fun e => in_id e =? id) es) by (apply get_entry_find, N).
  destruct (find (fun e => in_id e =? id) es) as [e|] eqn:Fe; destruct (find (fun i => f_id i =? id) (s_infos s)) as [i|] eqn:Fi; try contradiction.
  - split; [reflexivity|]. intros i' Q'. injection Q' as <-. destruct Q as [Q1 Q2]. exists es, e. repeat (split; [assumption|]). split; [destruct es; discriminate|].
    destruct es as [|e0 es0]; [discriminate|]. rewrite G. reflexivity.
  - split; [|discriminate]. destruct es; [reflexivity|]. rewrite G. reflexivity.
Qed.
(* changing what is known of an item *)
Ltac others := repeat (split; [assumption|]).
Lemma put_iinf_inv v f base m s es is : inv v f base m s -> Forall2 rep es is -> es <> [] -> NoDup (map f_id is) ->
  inv v f base (put_iinf m (iinf_of es)) (with_infos s is).
Proof.
  intros I R Hn N. pose proof I as [I1 I2 I3 I4 (es0 & R0 & E0) I6 I7 I8 I9 I10].
  unfold put_iinf. constructor; cbn [with_infos s_primary s_infos s_prots s_groups]; try assumption.
  - rewrite place_other; [exact I2| |reflexivity]. intros [| |[]|] H; try reflexivity; elim H; reflexivity.
  - rewrite place_other; [exact I3| |reflexivity]. intros [| |[]|] H; try reflexivity; elim H; reflexivity.
  - exists es. split; [exact R|]. rewrite (place_same _ _ _ (iinf_of es)); [destruct es; [contradiction|reflexivity]|reflexivity|rewrite E0; apply opt_box_len].
  - destruct I6 as (ps & P1 & P2). exists ps. split; [exact P1|]. rewrite place_other; [exact P2| |reflexivity]. intros [| |[]|] H; try reflexivity; elim H; reflexivity.
  - rewrite place_other; [exact I7| |reflexivity]. intros [| |[]|] H; try reflexivity; elim H; reflexivity.
Qed.
Lemma change_entry_inv v f base m s id err fe fi : inv v f base m s -> (forall e i, rep e i -> rep (fe e) (fi i)) -> (forall i, f_id (fi i) = f_id i) ->
  match info_of s id with
  | None => change_entry m id err fe = Err err
  | Some _ => exists m', change_entry m id err fe = Ok m' /\ inv v f base m' (with_infos s (change (fun i => f_id i =? id) fi (s_infos s)))
  end.
Proof.
  intros I G K. unfold change_entry.
  destruct (with_entry_ok v f base m s id err (fun i e => Ok (put_iinf m (mkIinf (ii_ver i) (ii_flags i) (put_entry (ii_kids i) id (fe e))))) I) as [W1 W2].
  destruct (info_of s id) as [i|] eqn:E; [|exact W1]. destruct (W2 i eq_refl) as (es & e & R & N & Fe & Re & Hi & Se & Ne & W). rewrite W. eexists. split; [reflexivity|].
  cbn [iinf_of ii_ver ii_flags ii_kids]. rewrite put_entry_change by assumption. fold (iinf_of (change (fun e => in_id e =? id) fe es)).
  apply put_iinf_inv; [exact I|apply change_rep; assumption| |rewrite change_ids by exact K; apply (v_ids _ _ _ _ _ I)].
  intros Q. apply change_nil in Q. contradiction.
Qed.

(* ------------------------------------------------------------------ *)
(* One call                                                            *)

Lemma primary_ok v f base m s id : inv v f base m s -> id < 65536 -> inv v f base (set_primary m id) (snd (mstep_spec s (MPrimary id))).
Proof.
  intros I Hid. pose proof I as [I1 I2 I3 I4 I5 I6 I7 I8 I9 I10]. cbn [mstep_spec snd].
  assert (E : set_primary m id = place as_pitm m (ALeaf _ (KPitm (mkPitm 0 0 id)))).
  { unfold set_primary. rewrite member_select, I3. destruct (s_primary s); reflexivity. }
  rewrite E. constructor; cbn [s_primary s_infos s_prots s_groups]; try assumption.
  - rewrite place_other; [exact I2| |reflexivity]. intros [| |[]|] H; try reflexivity; elim H; reflexivity.
  - rewrite (place_same _ _ _ (mkPitm 0 0 id)); [reflexivity|reflexivity|]. rewrite I3. destruct (s_primary s); cbn [opt_list map]; lens; lia.
  - constructor; [exact Hid|constructor].
  - destruct I5 as (es & R1 & R2). exists es. split; [exact R1|]. rewrite place_other; [exact R2| |reflexivity]. intros [| |[]|] H; try reflexivity; elim H; reflexivity.
  - destruct I6 as (ps & R1 & R2). exists ps. split; [exact R1|]. rewrite place_other; [exact R2| |reflexivity]. intros [| |[]|] H; try reflexivity; elim H; reflexivity.
  - rewrite place_other; [exact I7| |reflexivity]. intros [| |[]|] H; try reflexivity; elim H; reflexivity.
Qed.
Lemma info_ok_step v f base m s id prot name ct ce : inv v f base m s -> info_of s id = None -> prot < 65536 -> otext name ->
  inv v f base (set_info m id prot name ct ce) (snd (mstep_spec s (MInfo id prot name ct ce))).
Proof.
  intros I Hn Hp Ht. destruct (the_iinf _ _ _ _ _ I) as (es & R & E & M & N). cbn [mstep_spec snd].
  set (e := mkInfe 0 0 id (w16 prot) 0 (Some (match name with Some b => b ++ [0] | None => [0] end)) (bare ct) (bare ce) None 0 None).
  assert (Q : set_info m id prot name ct ce = put_iinf m (iinf_of (es ++ [e]))).
  { unfold set_info. rewrite M. destruct es as [|e0 es0]; [reflexivity|]. f_equal. unfold iinf_of. cbn [ii_ver ii_flags ii_kids]. rewrite map_app. reflexivity. }
  rewrite Q. apply put_iinf_inv; [exact I| |destruct es; discriminate|].
  - apply Forall2_app; [exact R|]. constructor; [|constructor]. constructor; cbn; try reflexivity.
    + unfold w16. apply N.mod_small, Hp.
    + unfold or_empty, cstr. destruct name; reflexivity.
    + destruct name; [exact Ht|constructor].
    + exact Hp.
    + split; reflexivity.
  - rewrite map_app. cbn [map f_id]. assert (Z : ~ In id (map f_id (s_infos s))).
    { intros Q1. apply in_map_iff in Q1. destruct Q1 as (i & Q1 & Q2). unfold info_of in Hn. apply (find_none _ _ Hn) in Q2. rewrite Q1, N.eqb_refl in Q2. discriminate. }
    clear - Z I. pose proof (v_ids _ _ _ _ _ I) as N. apply NoDup_rev in N. rewrite <- (rev_involutive (map f_id (s_infos s) ++ [id])). apply NoDup_rev. rewrite rev_app_distr. cbn [rev app].
    constructor; [rewrite <- in_rev; exact Z|exact N].
Qed.
Definition stepped v f base (m : mbox) (s : mstate) (o : mop) : Prop :=
  exists m', mstep x dx m o = Ok (fst (mstep_spec s o), m') /\ inv v f base m' (snd (mstep_spec s o)).
Lemma extend_ok v f base m s id ty d : inv v f base m s -> stepped v f base m s (MExtend id ty d).
Proof.
  intros I. unfold stepped. cbn [mstep mstep_spec]. unfold set_ext.
  pose proof (change_entry_inv v f base m s id MP4BadParamErr (fun e =>
    mkInfe 1 (in_flags e) (in_id e) (in_prot e) (in_type e) (in_name e) (in_ct e) (in_ce e) (in_uri e) ty (Some d)) (set_form (Extended ty d)) I) as C.
  assert (G : forall e i, rep e i -> rep (mkInfe 1 (in_flags e) (in_id e) (in_prot e) (in_type e) (in_name e) (in_ct e) (in_ce e) (in_uri e) ty (Some d)) (set_form (Extended ty d) i)).
  { intros e i []. constructor; cbn; auto. }
  specialize (C G (fun i => eq_refl)). destruct (info_of s id) as [i|].
  - destruct C as (m' & C & J). rewrite C. exists m'. split; [reflexivity|exact J].
  - rewrite C. exists m. split; [reflexivity|exact I].
Qed.
Lemma type_ok v f base m s id ty u : inv v f base m s -> otext u -> stepped v f base m s (MType id ty u).
Proof.
  intros I Ht. unfold stepped. cbn [mstep mstep_spec]. unfold set_type.
  pose proof (change_entry_inv v f base m s id MP4BadParamErr (fun e =>
    mkInfe 2 (in_flags e) (in_id e) (in_prot e) ty (in_name e) (in_ct e) (in_ce e)
      (Some (match u with Some b => b ++ [0] | None => [0] end)) (in_exttype e) (in_ext e)) (set_form (Typed ty (Some (or_empty u)))) I) as C.
  match type of C with (forall e i, rep e i -> rep (?g e) (?h i)) -> _ => assert (G : forall e i, rep e i -> rep (g e) (h i)) end.
  { intros e i []. constructor; cbn; auto. split; [reflexivity|]. split; [reflexivity|]. destruct u; [split; [reflexivity|exact Ht]|split; [reflexivity|constructor]]. }
  specialize (C G (fun i => eq_refl)). destruct (info_of s id) as [i|].
  - destruct C as (m' & C & J). rewrite C. exists m'. split; [reflexivity|exact J].
  - rewrite C. exists m. split; [reflexivity|exact I].
Qed.
Lemma the_pitm v f base m s : inv v f base m s -> member as_pitm (mb_kids m) = option_map (mkPitm 0 0) (s_primary s).
Proof. intros I. rewrite member_select, (v_pitm _ _ _ _ _ I). destruct (s_primary s); reflexivity. Qed.
Lemma hide_ok v f base m s id : inv v f base m s -> s_primary s <> None \/ s_infos s = [] -> stepped v f base m s (MHide id).
Proof.
  intros I Hp. unfold stepped. cbn [mstep mstep_spec]. unfold hide.
  destruct (the_iinf _ _ _ _ _ I) as (es & R & E & M & N). rewrite M.
  destruct es as [|e0 es0].
  { inversion R as [Q|]. unfold info_of. rewrite <- H. cbn [find]. exists m. split; [reflexivity|exact I]. }
  destruct Hp as [Hp|Hp]; [|rewrite Hp in R; inversion R].
  rewrite (the_pitm _ _ _ _ _ I). destruct (s_primary s) as [p|]; [|congruence]. cbn [option_map pi_item].
  destruct (N.eqb_spec p id) as [->|Hne].
  { destruct (info_of s id); exists m; (split; [reflexivity|exact I]). }
  pose proof (change_entry_inv v f base m s id MP4InvalidMediaErr (fun e =>
    mkInfe (in_ver e) (N.lor (in_flags e) 1) (in_id e) (in_prot e) (in_type e) (in_name e) (in_ct e) (in_ce e) (in_uri e)
              (in_exttype e) (in_ext e)) set_hidden I) as C.
  match type of C with (forall e i, rep e i -> rep (?g e) (?h i)) -> _ => assert (G : forall e i, rep e i -> rep (g e) (h i)) end.
  { intros e i []. constructor; cbn; auto. rewrite r_flags0. destruct (f_hidden i); reflexivity. }
  specialize (C G (fun i => eq_refl)). destruct (info_of s id) as [i|].
  - destruct C as (m' & C & J). rewrite C. exists m'. split; [reflexivity|exact J].
  - rewrite C. exists m. split; [reflexivity|exact I].
Qed.

(* protection *)
Lemma the_ipro v f base m s : inv v f base m s -> exists ps, Forall2 rep_prot ps (s_prots s) /\ select as_ipro (mb_kids m) = opt_box ipro_of ps /\
  member as_ipro (mb_kids m) = match ps with [] => None | _ => Some (ipro_of ps) end.
Proof.
  intros I. destruct (v_ipro _ _ _ _ _ I) as (ps & R & E). exists ps. split; [exact R|]. split; [exact E|]. rewrite member_select, E, hd_opt_box. reflexivity.
Qed.
Lemma put_ipro_inv v f base m s ps l : inv v f base m s -> Forall2 rep_prot ps l -> ps <> [] ->
  inv v f base (put_ipro m (ipro_of ps)) (with_prots s l).
Proof.
  intros I R Hn. pose proof I as [I1 I2 I3 I4 I5 (ps0 & R0 & E0) I7 I8 I9 I10].
  unfold put_ipro. constructor; cbn [with_prots s_primary s_infos s_prots s_groups]; try assumption.
  - rewrite place_other; [exact I2| |reflexivity]. intros [| |[]|] H; try reflexivity; elim H; reflexivity.
  - rewrite place_other; [exact I3| |reflexivity]. intros [| |[]|] H; try reflexivity; elim H; reflexivity.
  - destruct I5 as (es & P1 & P2). exists es. split; [exact P1|]. rewrite place_other; [exact P2| |reflexivity]. intros [| |[]|] H; try reflexivity; elim H; reflexivity.
  - exists ps. split; [exact R|]. rewrite (place_same _ _ _ (ipro_of ps)); [destruct ps; [contradiction|reflexivity]|reflexivity|rewrite E0; apply opt_box_len].
  - rewrite place_other; [exact I7| |reflexivity]. intros [| |[]|] H; try reflexivity; elim H; reflexivity.
Qed.
Lemma Forall2_len {B C} (R : B -> C -> Prop) a b : Forall2 R a b -> len a = len b.
Proof. unfold len. intros H. f_equal. induction H; cbn [length]; congruence. Qed.
Lemma protect_ok v f base m s ty ve url : inv v f base m s -> otext url -> len (s_prots s) < 65535 -> stepped v f base m s (MProtect ty ve url).
Proof.
  intros I Ht Hl. unfold stepped. cbn [mstep mstep_spec]. destruct (the_ipro _ _ _ _ _ I) as (ps & R & E & M). pose proof (Forall2_len _ _ _ R) as L.
  set (s1 := mkSinf (X:=X) None (Some (mkSchm 0 0 ty ve (option_map (fun b => b ++ [0]) url))) (Some [])).
  assert (Q : new_prot m ty ve url = (len (s_prots s) + 1, put_ipro m (ipro_of (ps ++ [s1])))).
  { unfold new_prot. rewrite M. rewrite <- L in *.
    destruct ps as [|p0 ps0]; [reflexivity|]. unfold ipro_of. cbn [ip_ver ip_flags ip_kids]. rewrite len_map. unfold w16. rewrite N.mod_small by lia. rewrite map_app. reflexivity. }
  rewrite Q. exists (put_ipro m (ipro_of (ps ++ [s1]))). split; [reflexivity|]. cbn [snd]. apply put_ipro_inv; [exact I| |destruct ps; discriminate].
  apply Forall2_app; [exact R|]. constructor; [|constructor]. split; [exact Ht|]. exists 0. reflexivity.
Qed.
Lemma nth_prot_ok v f base m s k : inv v f base m s -> exists ps, Forall2 rep_prot ps (s_prots s) /\ (ps <> [] -> select as_ipro (mb_kids m) = [ipro_of ps]) /\
  nth_prot m k = if (1 <=? k) && (k <=? len (s_prots s)) then match nthN ps (k - 1) with Some p => Ok (ipro_of ps, p) | None => UB end else Err MP4BadParamErr.
Proof.
  intros I. destruct (the_ipro _ _ _ _ _ I) as (ps & R & E & M). exists ps. split; [exact R|]. split; [intros H; rewrite E; destruct ps; [contradiction|reflexivity]|].
  unfold nth_prot. rewrite M. pose proof (Forall2_len _ _ _ R) as L. rewrite <- L.
  destruct ps as [|p0 ps0].
  - rewrite len_nil. destruct (N.leb_spec 1 k), (N.leb_spec k 0); try lia; reflexivity.
  - remember (p0 :: ps0) as ps. cbn [ipro_of ip_kids]. rewrite len_map, nth_error_map. fold (nthN ps (k - 1)).
    destruct (N.eqb_spec k 0); [subst k; reflexivity|]. destruct (N.leb_spec 1 k); [|lia]. cbn [orb andb].
    destruct (N.leb_spec (len ps) (k - 1)), (N.leb_spec k (len ps)); try lia; [reflexivity|].
    destruct (nthN ps (k - 1)); reflexivity.
Qed.
Lemma Forall2_nth {B C} (R : B -> C -> Prop) a b n : Forall2 R a b -> match nth_error a n, nth_error b n with Some p, Some q => R p q | None, None => True | _, _ => False end.
Proof. intros H. revert n. induction H as [|p q a b Hr H IH]; intros [|n]; cbn [nth_error]; try exact I; [exact Hr|apply IH]. Qed.
Lemma put_at_rep ps l : Forall2 rep_prot ps l -> forall n p q g, nth_error ps n = Some p -> (forall r, nth_error l n = Some r -> rep_prot q (g r)) ->
  Forall2 rep_prot (put_at ps n q) (change_at n g l).
Proof.
  induction 1 as [|p0 r0 ps l R H IH]; intros [|n] p q g Hn G; try discriminate; cbn [put_at change_at].
  - constructor; [apply G; reflexivity|exact H].
  - constructor; [exact R|]. apply (IH n p); [exact Hn|]. intros r Hr. apply G. exact Hr.
Qed.
Lemma put_at_map {B C} (h : B -> C) ps n q : put_at (map h ps) n (h q) = map h (put_at ps n q).
Proof. revert n. induction ps as [|p r IH]; intros [|n]; cbn [map put_at]; try reflexivity. rewrite IH. reflexivity. Qed.
Lemma put_at_nil {B} (ps : list B) n q : put_at ps n q = [] -> ps = [].
Proof. destruct ps, n; cbn [put_at]; congruence. Qed.
Lemma nthN_some {B} (l : list B) k : k < len l -> exists b, nthN l k = Some b.
Proof.
  intros H. unfold nthN. destruct (nth_error l (N.to_nat k)) eqn:E; [eauto|]. apply nth_error_None in E. unfold len in H. lia.
Qed.
Lemma protect_info_ok v f base m s k ty d : inv v f base m s -> stepped v f base m s (MProtectInfo k ty d).
Proof.
  intros I. unfold stepped. cbn [mstep mstep_spec]. destruct (nth_prot_ok v f base m s k I) as (ps & R & E & Q). unfold add_prot. rewrite Q.
  destruct ((1 <=? k) && (k <=? len (s_prots s))) eqn:B; [|exists m; split; [reflexivity|exact I]].
  apply andb_true_iff in B as [B1 B2]. apply N.leb_le in B1, B2. pose proof (Forall2_len _ _ _ R) as L.
  destruct (nthN_some ps (k - 1)) as [p Hp]; [lia|]. rewrite Hp. cbn [bind].
  pose proof (Forall2_nth _ _ _ (N.to_nat (k - 1)) R) as Hr. unfold nthN in Hp. rewrite Hp in Hr.
  destruct (nth_error (s_prots s) (N.to_nat (k - 1))) as [r|] eqn:Er; [|contradiction]. destruct Hr as (Ht & fl & ->). cbn [sf_schi sf_frma sf_schm].
  eexists. split; [reflexivity|]. cbn [snd ipro_of ip_ver ip_flags ip_kids].
  rewrite (put_at_map (fun s => ALeaf _ (inl s))). match goal with |- inv _ _ _ (put_ipro m (mkIpro 0 0 (map _ ?l))) _ => fold (ipro_of l) end.
  apply put_ipro_inv; [exact I| |].
  - eapply put_at_rep; [exact R|exact Hp|]. intros r' Hr'. assert (r' = r) by congruence. subst r'. split; [exact Ht|]. exists fl. cbn [p_type p_version p_url p_boxes]. rewrite map_app. reflexivity.
  - intros Z. apply put_at_nil in Z. subst ps. destruct (N.to_nat (k - 1)); discriminate.
Qed.

(* groups *)
Lemma the_grpl v f base m s : inv v f base m s -> member as_grpl (mb_kids m) = match s_groups s with [] => None | l => Some (map group_box l) end.
Proof. intros I. rewrite member_select, (v_grpl _ _ _ _ _ I), hd_opt_box. destruct (s_groups s); reflexivity. Qed.
Lemma put_grpl_inv v f base m s l : inv v f base m s -> l <> [] -> NoDup (map g_id l) -> Forall (fun g => len (g_members g) < 4294967296) l ->
  inv v f base (put_grpl m (map group_box l)) (with_groups s l).
Proof.
  intros I Hn N C. pose proof I as [I1 I2 I3 I4 I5 I6 I7 I8 I9 I10].
  unfold put_grpl. constructor; cbn [with_groups s_primary s_infos s_prots s_groups]; try assumption.
  - rewrite place_other; [exact I2| |reflexivity]. intros [| |[]|] H; try reflexivity; elim H; reflexivity.
  - rewrite place_other; [exact I3| |reflexivity]. intros [| |[]|] H; try reflexivity; elim H; reflexivity.
  - destruct I5 as (es & P1 & P2). exists es. split; [exact P1|]. rewrite place_other; [exact P2| |reflexivity]. intros [| |[]|] H; try reflexivity; elim H; reflexivity.
  - destruct I6 as (es & P1 & P2). exists es. split; [exact P1|]. rewrite place_other; [exact P2| |reflexivity]. intros [| |[]|] H; try reflexivity; elim H; reflexivity.
  - rewrite (place_same _ _ _ (map group_box l)); [destruct l; [contradiction|reflexivity]|reflexivity|rewrite I7; apply opt_box_len].
Qed.
Lemma find_group l id : find (fun g => eg_id g =? id) (map group_box l) = option_map group_box (find (fun g => g_id g =? id) l).
Proof. induction l as [|g r IH]; [reflexivity|]. cbn [map find group_box eg_id]. destruct (g_id g =? id); [reflexivity|exact IH]. Qed.
Lemma exists_group l id : existsb (fun g => eg_id g =? id) (map group_box l) = match find (fun g => g_id g =? id) l with Some _ => true | None => false end.
Proof. induction l as [|g r IH]; [reflexivity|]. cbn [map find existsb group_box eg_id]. destruct (g_id g =? id); [reflexivity|exact IH]. Qed.
Lemma group_ok_step v f base m s ty id : inv v f base m s -> stepped v f base m s (MGroup ty id).
Proof.
  intros I. unfold stepped. cbn [mstep mstep_spec]. unfold new_group. rewrite (the_grpl _ _ _ _ _ I).
  assert (Q : (match (match s_groups s with [] => None | l => Some (map group_box l) end) with Some l => l | None => [] end) = map group_box (s_groups s)) by (destruct (s_groups s); reflexivity).
  rewrite Q, exists_group. fold (group_of s id). destruct (group_of s id) as [g|] eqn:E; [exists m; split; [reflexivity|exact I]|].
  eexists. split; [reflexivity|]. cbn [snd]. change (map group_box (s_groups s) ++ [mkEgrp ty 0 0 id [] []]) with (map group_box (s_groups s) ++ map group_box [mkGroup ty id []]).
  rewrite <- map_app. apply put_grpl_inv; [exact I|destruct (s_groups s); discriminate| |].
  - rewrite map_app. cbn [map g_id]. assert (Z : ~ In id (map g_id (s_groups s))).
    { intros Q1. apply in_map_iff in Q1. destruct Q1 as (i & Q1 & Q2). unfold group_of in E. apply (find_none _ _ E) in Q2. rewrite Q1, N.eqb_refl in Q2. discriminate. }
    pose proof (v_gids _ _ _ _ _ I) as N. apply NoDup_rev in N. rewrite <- (rev_involutive (map g_id (s_groups s) ++ [id])). apply NoDup_rev. rewrite rev_app_distr. cbn [rev app].
    constructor; [rewrite <- in_rev; exact Z|exact N].
  - apply Forall_app. split; [apply (v_count _ _ _ _ _ I)|]. constructor; [reflexivity|constructor].
Qed.
Definition enlarge (e : N) (g : group) : group := mkGroup (g_type g) (g_id g) (g_members g ++ [e]).
Lemma add_to_group_ok l id e : NoDup (map g_id l) -> add_to_group (map group_box l) id e =
  match find (fun g => g_id g =? id) l with Some _ => Some (map group_box (change (fun g => g_id g =? id) (enlarge e) l)) | None => None end.
Proof.
  induction l as [|g r IH]; intros H; [reflexivity|]. inversion_clear H as [|? ? H1 H2]. cbn [map add_to_group find group_box eg_id]. unfold change. cbn [map].
  fold (change (fun g => g_id g =? id) (enlarge e) r). destruct (N.eqb_spec (g_id g) id) as [E|E].
  - rewrite change_none; [reflexivity|]. destruct (existsb _ r) eqn:Q; [|reflexivity]. apply existsb_exists in Q. destruct Q as (b & J & Q). apply N.eqb_eq in Q. elim H1. rewrite E, <- Q. apply in_map, J.
  - rewrite (IH H2). destruct (find _ r); reflexivity.
Qed.
Lemma entity_ok v f base m s id e : inv v f base m s -> len (match group_of s id with Some g => g_members g | None => [] end) < 4294967295 -> stepped v f base m s (MEntity id e).
Proof.
  intros I Hl. unfold stepped. cbn [mstep mstep_spec]. unfold add_entity. rewrite (the_grpl _ _ _ _ _ I).
  destruct (s_groups s) as [|g0 gs] eqn:Eg.
  - unfold group_of in *. rewrite Eg in *. cbn [find]. exists m. split; [reflexivity|exact I].
  - rewrite <- Eg in *. rewrite add_to_group_ok by apply (v_gids _ _ _ _ _ I). fold (group_of s id). destruct (group_of s id) as [g|] eqn:E; [|exists m; split; [reflexivity|exact I]].
    eexists. split; [reflexivity|]. cbn [snd]. apply put_grpl_inv; [exact I| | |].
    + rewrite Eg. discriminate.
    + unfold change. rewrite map_map. erewrite map_ext; [apply (v_gids _ _ _ _ _ I)|]. intros a. cbn. destruct (g_id a =? id); reflexivity.
    + apply Forall_forall. intros a Ia. unfold change in Ia. apply in_map_iff in Ia. destruct Ia as (b & <- & Ib).
      pose proof (v_count _ _ _ _ _ I) as C. rewrite Forall_forall in C. specialize (C b Ib).
      destruct (N.eqb_spec (g_id b) id) as [Q|Q]; [|exact C]. cbn [enlarge g_members]. lens.
      assert (b = g); [|subst b; lia]. clear Hl C. unfold group_of in E. pose proof (v_gids _ _ _ _ _ I) as N. rewrite <- Q in E. clear - E N Ib.
      induction (s_groups s) as [|c r IH]; [destruct Ib|]. cbn [find] in E. inversion_clear N as [|? ? N1 N2]. destruct (N.eqb_spec (g_id c) (g_id b)) as [Z|Z].
      * destruct Ib as [<-|Ib]; [congruence|]. elim N1. rewrite Z. apply in_map, Ib.
      * destruct Ib as [<-|Ib]; [congruence|]. apply IH; assumption.
Qed.

(* ------------------------------------------------------------------ *)
(* Saving                                                              *)

Definition is_ty (ty c : N) : N := if c =? ty then 1 else 0.
Lemma len_of_type ty l : len (of_type x ty l) = len (of_type x ty (select as_other l)) + is_ty ty (code "pitm") * len (select as_pitm l) +
  is_ty ty (code "iinf") * len (select as_iinf l) + is_ty ty (code "ipro") * len (select as_ipro l) + is_ty ty (code "grpl") * len (select as_grpl l).
Proof.
  unfold of_type. induction l as [|k r IH]; [unfold select; cbn [filter flat_map]; rewrite !len_nil, !N.mul_0_r; reflexivity|]. rewrite !select_cons.
  assert (Q : forall l1 l2, filter (fun k => kty k =? ty) (l1 ++ l2) = filter (fun k => kty k =? ty) l1 ++ filter (fun k => kty k =? ty) l2) by (intros; apply filter_app).
  change (k :: r) with ([k] ++ r). rewrite !Q, !len_app, IH. clear IH Q.
  assert (H : len (filter (fun k => kty k =? ty) [k]) = len (filter (fun k => kty k =? ty) (opt_list (as_other k))) + is_ty ty (code "pitm") * len (opt_list (as_pitm k)) +
    is_ty ty (code "iinf") * len (opt_list (as_iinf k)) + is_ty ty (code "ipro") * len (opt_list (as_ipro k)) + is_ty ty (code "grpl") * len (opt_list (as_grpl k))).
  { destruct k as [t u d|t d|l|t ks]; [| |destruct l as [a|a|a|a|a]|]; cbn [as_other as_pitm as_iinf as_ipro as_grpl opt_list];
      try (rewrite !len_nil, !N.mul_0_r, !N.add_0_r; reflexivity); cbn [filter]; unfold is_ty;
      [change (kty (ALeaf kid (KPitm a))) with (code "pitm")|change (kty (ALeaf kid (KIinf a))) with (code "iinf")|
       change (kty (ALeaf kid (KIpro a))) with (code "ipro")|change (kty (ALeaf kid (KGrpl a))) with (code "grpl")];
      match goal with |- context[if ?b then [_] else []] => destruct b end; rewrite ?len_cons, ?len_nil, ?N.mul_0_r; reflexivity. }
  rewrite H. lia.
Qed.
Lemma len_enc l : len (flat_map ke l) = len (flat_map ke (select as_other l)) + len (flat_map (fun a => ke (ALeaf _ (KPitm a))) (select as_pitm l)) +
  len (flat_map (fun a => ke (ALeaf _ (KIinf a))) (select as_iinf l)) + len (flat_map (fun a => ke (ALeaf _ (KIpro a))) (select as_ipro l)) +
  len (flat_map (fun a => ke (ALeaf _ (KGrpl a))) (select as_grpl l)).
Proof.
  induction l as [|k r IH]; [reflexivity|]. rewrite !select_cons. cbn [flat_map]. rewrite !flat_map_app, !len_app, IH.
  destruct k as [t u d|t d|l|t ks]; cbn [as_other as_pitm as_iinf as_ipro as_grpl opt_list flat_map]; [| |destruct l; cbn [as_other opt_list flat_map]|]; rewrite ?app_nil_r, ?len_nil; lia.
Qed.
Lemma view_cons k l : kv (k :: l) = kv [k] ++ kv l.
Proof. unfold kid_view. change (k :: l) with ([k] ++ l). rewrite map_app, filter_app. reflexivity. Qed.
Lemma select_view l : select as_other (kv l) = kv (select as_other l) /\ select as_pitm (kv l) = map (l_view pitm_layout) (select as_pitm l) /\
  select as_iinf (kv l) = map (l_view (iinf_layout x y)) (select as_iinf l) /\ select as_ipro (kv l) = map (l_view (ipro_layout x y)) (select as_ipro l) /\
  select as_grpl (kv l) = map (l_view grpl_layout) (select as_grpl l).
Proof.
  induction l as [|k r (I1 & I2 & I3 & I4 & I5)]; [repeat split|]. rewrite (view_cons k r), !select_app, !select_cons, !map_app, I1, I2, I3, I4, I5.
  assert (V : forall a b, kv (a ++ b) = kv a ++ kv b) by (intros; unfold kid_view; rewrite map_app, filter_app; reflexivity). rewrite V.
  destruct k as [t u d|t d|l|t ks]; [| |destruct l|]; cbn; repeat split; reflexivity.
Qed.
Lemma ok_split l : (forall a, In a (select as_other l) -> ko a) -> (forall a, In a (select as_pitm l) -> l_ok pitm_layout a) ->
  (forall a, In a (select as_iinf l) -> l_ok (iinf_layout x y) a) -> (forall a, In a (select as_ipro l) -> l_ok (ipro_layout x y) a) ->
  (forall a, In a (select as_grpl l) -> l_ok grpl_layout a) -> Forall ko l.
Proof.
  intros H1 H2 H3 H4 H5. apply Forall_forall. intros k Ik.
  assert (Q : forall B (sel : item -> option B) a, sel k = Some a -> In a (select sel l)).
  { intros B sel a E. apply in_flat_map. exists k. split; [exact Ik|]. rewrite E. left. reflexivity. }
  destruct k as [t u d|t d|l0|t ks].
  - apply H1, Q. reflexivity.
  - apply H1, Q. reflexivity.
  - destruct l0 as [a|a|a|a|a]; [exact (H2 a (Q _ as_pitm a eq_refl))|exact (H3 a (Q _ as_iinf a eq_refl))|exact (H4 a (Q _ as_ipro a eq_refl))|exact (H5 a (Q _ as_grpl a eq_refl))|exact (H1 _ (Q _ as_other _ eq_refl))].
  - apply H1, Q. reflexivity.
Qed.

(* one entry *)
Lemma ostr_cstr s : text s -> ostr_ok (Some (cstr s)).
Proof. intros H. exists s. auto. Qed.
Lemma entry_saved e i : rep e i -> info_ok i -> l_ok infe_layout e /\ l_body infe_layout e = info_bytes i /\ rep (l_view infe_layout e) (saved_info i).
Proof.
  intros [R1 R2 R3 R4 R5 R6 R7 R8] (O1 & O2 & O3 & O4 & O5).
  assert (Hc : has_content e = content_form (f_form i)).
  { unfold has_content, content_form. destruct (f_form i) as [|ty d|ty u]; [rewrite R8|destruct R8 as (-> & _)|destruct R8 as (-> & -> & _)]; reflexivity. }
  assert (Ct : content_form (f_form i) = true -> (in_ct e = None \/ in_ct e = Some [0]) /\ (in_ce e = None \/ in_ce e = Some [0])).
  { intros C. destruct (O3 C) as [E|E]; rewrite E in R7; destruct R7 as [-> ->]; auto. }
  assert (Cs : content_form (f_form i) = true -> ostr (in_ct e) = [0] /\ ostr (in_ce e) = [0]).
  { intros C. destruct (Ct C) as [[->| ->] [->| ->]]; auto. }
  assert (Hu : has_uri e = match f_form i with Typed ty _ => negb (ty =? code "mime") && (ty =? code "uri ") | _ => false end).
  { unfold has_uri. rewrite Hc. unfold content_form. destruct (f_form i) as [|ty d|ty u]; [reflexivity|reflexivity|destruct R8 as (_ & -> & _); reflexivity]. }
  assert (Z0 : ostr_ok (Some [0])) by (exists []; split; [constructor|reflexivity]).
  assert (St : infe_strings e = cstr (f_name i) ++ (if content_form (f_form i) then [0; 0]
     else match f_form i with Typed ty u => if ty =? code "uri " then cstr (or_empty u) else [] | _ => [] end)).
  { unfold infe_strings. rewrite R4. cbn [ostr]. f_equal. rewrite Hc. destruct (content_form (f_form i)) eqn:C; [destruct (Cs eq_refl) as [-> ->]; reflexivity|].
    rewrite Hu. destruct (f_form i) as [|ty d|ty u]; try discriminate. cbn [content_form] in C. rewrite C. cbn [negb andb]. destruct (ty =? code "uri "); [|reflexivity].
    destruct R8 as (_ & _ & -> & _). destruct u; reflexivity. }
  assert (Ex : infe_ext e = match f_form i with Extended ty d => be32 ty ++ d | _ => [] end).
  { unfold infe_ext, has_ext. destruct (f_form i) as [|ty d|ty u]; [rewrite R8; reflexivity| |destruct R8 as (-> & _); reflexivity].
    destruct R8 as (-> & -> & ->). destruct O4 as (? & _). destruct (N.eqb_spec ty 0); [lia|reflexivity]. }
  assert (Bd : l_body infe_layout e = info_bytes i).
  { cbn [infe_layout l_body]. unfold info_bytes. rewrite St, Ex, R1, R2, R3. rewrite <- !app_assoc.
    destruct (f_form i) as [|ty d|ty u]; [rewrite R8|destruct R8 as (-> & _)|destruct R8 as (-> & -> & _)]; reflexivity. }
  assert (Ver : in_ver e = match f_form i with Plain => 0 | Extended _ _ => 1 | Typed _ _ => 2 end).
  { destruct (f_form i) as [|ty d|ty u]; [exact R8|apply R8|apply R8]. }
  split; [|split; [exact Bd|]].
  - cbn [infe_layout l_ok]. rewrite R1, R2, R3, Hc.
    split; [rewrite Ver; destruct (f_form i); lia|]. split; [destruct (f_hidden i); reflexivity|].
    split; [rewrite Ver; destruct (f_form i); exact O1|]. split; [exact O2|].
    split. { rewrite Ver. destruct (f_form i) as [|ty d|ty u]; intros; lia. }
    split; [rewrite R4; apply ostr_cstr, R5|].
    split. { intros C. destruct (Ct C) as [[->| ->] [->| ->]]; split; solve [exact Z0|exact I]. }
    split. { rewrite Hu. destruct (f_form i) as [|ty d|ty u]; try discriminate. intros _. destruct R8 as (_ & _ & -> & T). destruct u; [apply ostr_cstr, T|exact I]. }
    split. { rewrite Ver. destruct (f_form i) as [|ty d|ty u]; try discriminate. intros _. destruct R8 as (_ & -> & ->). destruct O4 as (? & _ & ?). split; [lia|]. split; [lia|assumption]. }
    rewrite St, Ex. unfold info_bytes in O5. lens. destruct (f_form i); lens; lia.
  - cbn [infe_layout l_view]. unfold saved_info. constructor; cbn [in_id in_prot in_flags in_name in_ct in_ce in_uri in_ver in_type in_exttype in_ext f_id f_prot f_name f_content f_hidden f_form].
    + exact R1.
    + exact R2.
    + exact R3.
    + rewrite R4. reflexivity.
    + exact R5.
    + exact R6.
    + rewrite Hc. destruct (content_form (f_form i)); [destruct (Cs eq_refl) as [-> ->]; split; reflexivity|split; reflexivity].
    + unfold has_ext. rewrite Ver, Hu. destruct (f_form i) as [|ty d|ty u]; cbn [saved_form].
      * reflexivity.
      * destruct R8 as (_ & -> & ->). destruct O4 as (? & -> & _). destruct (N.eqb_spec ty 0); [lia|]. auto.
      * destruct R8 as (_ & -> & -> & T). split; [reflexivity|]. split; [reflexivity|].
        change (code "mime") with T_mime. change (code "uri ") with T_urit. destruct (N.eqb_spec ty T_mime) as [->|]; cbn [negb andb]; [split; [reflexivity|exact I]|].
        destruct (ty =? T_urit); [|split; [reflexivity|exact I]]. destruct u as [u|]; cbn [option_map ostr or_empty]; (split; [reflexivity|]); [exact T|constructor].
Qed.

Lemma entries_saved es is : Forall2 rep es is -> Forall info_ok is -> Forall (l_ok infe_layout) es /\
  flat_map (fun e => box (code "infe") (l_body infe_layout e)) es = flat_map (fun i => box (code "infe") (info_bytes i)) is /\
  Forall2 rep (map (l_view infe_layout) es) (map saved_info is).
Proof.
  induction 1 as [|e i es is R _ IH]; intros H; [repeat split; constructor|]. inversion_clear H as [|? ? H1 H2]. destruct (IH H2) as (I1 & I2 & I3).
  destruct (entry_saved e i R H1) as (E1 & E2 & E3). split; [constructor; assumption|]. cbn [flat_map map]. rewrite I2, E2. split; [reflexivity|]. constructor; assumption.
Qed.
Lemma no_free_leaves {B} (l : list B) T (f : B -> T) : no_free (map (fun b => ALeaf T (f b)) l).
Proof. unfold no_free. apply Forall_map, Forall_forall. reflexivity. Qed.
Lemma iinf_saved es is : Forall2 rep es is -> Forall info_ok is -> len is < 65536 ->
  l_ok (iinf_layout x y) (iinf_of es) /\ len (ke (ALeaf _ (KIinf (iinf_of es)))) = 14 + len (flat_map (fun i => box (code "infe") (info_bytes i)) is) /\
  exists es', l_view (iinf_layout x y) (iinf_of es) = iinf_of es' /\ Forall2 rep es' (map saved_info is) /\ (es' = [] -> es = []).
Proof.
  intros R H L. destruct (entries_saved es is R H) as (E1 & E2 & E3). pose proof (Forall2_len _ _ _ R) as Ll.
  assert (M : map (fun e => ALeaf (infe + X) (inl e)) es = map (ALeaf _) (map inl es)) by (rewrite map_map; reflexivity).
  split; [|split].
  - cbn [iinf_layout l_ok iinf_of ii_ver ii_flags ii_kids]. split; [split; lia|]. change (0 =? 0) with true. cbn match. rewrite len_map.
    split; [lia|]. split; [apply no_free_leaves|]. rewrite M. apply kid_ok_leaves. apply Forall_map. exact E1.
  - unfold kid_enc at 1. cbn [enc]. rewrite len_box. cbn [kid_layout iinf_layout l_body iinf_of ii_ver ii_flags ii_kids]. change (0 =? 0) with true. cbn match. lens. rewrite M.
    rewrite kid_enc_leaves, flat_map_concat_map, map_map, <- flat_map_concat_map. cbn [iinf_kid csum c_ty infe_codec iinf_kid_layout lsum l_body].
    change T_infe with (code "infe"). rewrite E2. lia.
  - exists (map (l_view infe_layout) es). split; [|split; [exact E3|destruct es; [reflexivity|discriminate]]].
    unfold iinf_of. cbn [iinf_layout l_view ii_ver ii_flags ii_kids]. f_equal. rewrite M, kid_view_leaves, !map_map. reflexivity.
Qed.

(* one protection *)
Lemma scheme_boxes l : Forall (fun b => fst b < 4294967296 /\ holds_boxes (fst b) = false /\ free_type (fst b) = false /\ fst b <> code "uuid" /\
     fst b <> code "frma" /\ fst b <> code "schm" /\ c_known x (fst b) = false /\ bytes (snd b)) l ->
  Forall (kid_ok (sub_codec x) (sub_layout y)) (map scheme_box l) /\ kid_view (sub_layout y) (map scheme_box l) = map scheme_box l /\
  flat_map (kid_enc (sub_codec x) (sub_layout y)) (map scheme_box l) = flat_map (fun b => box (fst b) (snd b)) l.
Proof.
  induction 1 as [|b r (H1 & H2 & H3 & H4 & H5 & H6 & H7 & H8) _ (I1 & I2 & I3)]; [split; [constructor|split; reflexivity]|]. cbn [map flat_map]. rewrite I3. split; [|split].
  - constructor; [|exact I1]. unfold kid_ok, scheme_box. cbn [wf]. split; [exact H1|]. split; [exact H2|]. split; [exact H3|]. split.
    + cbn [sub_codec csum c_known frma_codec schm_codec]. rewrite H7, orb_false_r. apply orb_false_iff. split; [apply N.eqb_neq; exact H5|]. apply N.eqb_neq. intros Q. first [apply H6; exact Q | apply H6; symmetry; exact Q].
    + destruct (N.eqb_spec (fst b) (code "uuid")); [contradiction|]. split; [reflexivity|]. split; [constructor|exact H8].
  - unfold kid_view. cbn [map filter]. change (strip _ (l_view (sub_layout y)) (scheme_box b)) with (scheme_box b). change (free_box _ (scheme_box b)) with false. cbn [negb]. f_equal. exact I2.
  - reflexivity.
Qed.
Lemma prot_saved s p : rep_prot s p -> prot_ok x p -> l_ok (sinf_layout x y) s /\ l_body (sinf_layout x y) s = prot_bytes p /\ rep_prot (l_view (sinf_layout x y) s) (saved_prot p).
Proof.
  intros (Ht & fl & ->) (P1 & P2 & P3). destruct (scheme_boxes (p_boxes p) P3) as (B1 & B2 & B3).
  assert (Sc : l_ok schm_layout (mkSchm 0 fl (p_type p) (p_version p) (option_map cstr (p_url p)))).
  { cbn [schm_layout l_ok sm_ver sm_type sm_version sm_url]. split; [reflexivity|]. split; [exact P1|]. split; [exact P2|]. destruct (p_url p) as [u|]; [|exact I]. exists u. split; [exact Ht|reflexivity]. }
  assert (Ad : address (mkSchm 0 fl (p_type p) (p_version p) (option_map cstr (p_url p))) = match p_url p with Some (c :: u) => Some (cstr (c :: u)) | _ => None end).
  { unfold address. cbn [sm_url]. destruct (p_url p) as [[|c u]|]; cbn [option_map]; try reflexivity. cbn [cstr app hd]. inversion_clear Ht as [|? ? Q _]. destruct (N.eqb_spec c 0); [lia|reflexivity]. }
  split; [|split].
  - cbn [sinf_layout l_ok]. unfold sinf_boxes. cbn [sf_frma sf_schm sf_schi app]. constructor; [exact Sc|]. constructor; [|constructor].
    unfold kid_ok. cbn [wf]. split; [reflexivity|]. split; [|split].
    + clear - B1. induction B1 as [|k r Hk _ IH]; [exact I|]. split; [exact Hk|exact IH].
    + generalize (map (atype (sub (X:=X)) (c_ty (sub_codec x))) (filter (fun k => negb (free_box (sub (X:=X)) k)) (map scheme_box (p_boxes p)))). intros tys.
      induction tys as [|t r IH]; [exact I|]. split; [|exact IH]. intros g Ig. cbn in Ig. destruct Ig.
    + discriminate.
  - cbn [sinf_layout l_body]. unfold sinf_boxes. cbn [sf_frma sf_schm sf_schi app flat_map]. unfold kid_enc at 1 2. cbn [enc].
    cbn [sub_codec csum c_ty schm_codec sub_layout lsum l_body schm_layout sm_ver sm_type sm_version]. rewrite Ad. unfold kid_enc in B3. cbn [sub_codec csum c_ty schm_codec sub_layout lsum l_body schm_layout] in B3. rewrite B3.
    unfold prot_bytes. rewrite app_nil_r. f_equal. destruct (p_url p) as [[|c u]|]; rewrite ?app_nil_r; reflexivity.
  - cbn [sinf_layout l_view sf_frma sf_schm sf_schi option_map]. rewrite B2. split.
    + cbn [saved_prot p_url]. destruct (p_url p) as [[|c u]|]; [exact I|exact Ht|exact I].
    + cbn [schm_layout l_view sm_ver sm_type sm_version]. rewrite Ad. cbn [saved_prot p_type p_version p_url p_boxes].
      destruct (p_url p) as [[|c u]|]; eexists; reflexivity.
Qed.
Lemma prots_saved ps l : Forall2 rep_prot ps l -> Forall (prot_ok x) l -> Forall (l_ok (sinf_layout x y)) ps /\
  flat_map (fun e => box (code "sinf") (l_body (sinf_layout x y) e)) ps = flat_map (fun i => box (code "sinf") (prot_bytes i)) l /\
  Forall2 rep_prot (map (l_view (sinf_layout x y)) ps) (map saved_prot l).
Proof.
  induction 1 as [|e i es is R _ IH]; intros H; [repeat split; constructor|]. inversion_clear H as [|? ? H1 H2]. destruct (IH H2) as (I1 & I2 & I3).
  destruct (prot_saved e i R H1) as (E1 & E2 & E3). split; [constructor; assumption|]. cbn [flat_map map]. rewrite I2, E2. split; [reflexivity|]. constructor; assumption.
Qed.
Lemma ipro_saved ps l : Forall2 rep_prot ps l -> Forall (prot_ok x) l -> len l < 65536 ->
  l_ok (ipro_layout x y) (ipro_of ps) /\ len (ke (ALeaf _ (KIpro (ipro_of ps)))) = 14 + len (flat_map (fun i => box (code "sinf") (prot_bytes i)) l) /\
  exists ps', l_view (ipro_layout x y) (ipro_of ps) = ipro_of ps' /\ Forall2 rep_prot ps' (map saved_prot l) /\ (ps' = [] -> ps = []).
Proof.
  intros R H L. destruct (prots_saved ps l R H) as (E1 & E2 & E3). pose proof (Forall2_len _ _ _ R) as Ll.
  assert (M : map (fun e => ALeaf (sinf + X) (inl e)) ps = map (ALeaf _) (map inl ps)) by (rewrite map_map; reflexivity).
  split; [|split].
  - cbn [ipro_layout l_ok ipro_of ip_ver ip_flags ip_kids]. split; [split; lia|]. rewrite len_map.
    split; [lia|]. split; [apply no_free_leaves|]. rewrite M. apply kid_ok_leaves. apply Forall_map. exact E1.
  - unfold kid_enc at 1. cbn [enc]. rewrite len_box. cbn [kid_layout ipro_layout l_body ipro_of ip_ver ip_flags ip_kids]. lens. rewrite M.
    rewrite kid_enc_leaves, flat_map_concat_map, map_map, <- flat_map_concat_map. cbn [ipro_kid csum c_ty sinf_codec ipro_kid_layout lsum l_body].
    change T_sinf with (code "sinf"). rewrite E2. lia.
  - exists (map (l_view (sinf_layout x y)) ps). split; [|split; [exact E3|destruct ps; [reflexivity|discriminate]]].
    unfold ipro_of. cbn [ipro_layout l_view ip_ver ip_flags ip_kids]. f_equal. rewrite M, kid_view_leaves, !map_map. reflexivity.
Qed.
Lemma grpl_saved l : Forall group_ok l -> Forall (fun g => len (g_members g) < 4294967296) l -> l_ok grpl_layout (map group_box l) /\
  len (ke (ALeaf _ (KGrpl (map group_box l)))) = 8 + len (flat_map (fun g => box (g_type g) (group_bytes g)) l).
Proof.
  intros H C. split.
  - cbn [grpl_layout l_ok]. apply Forall_map. rewrite Forall_forall in *. intros g Ig. destruct (H g Ig) as (G1 & G2 & G3). specialize (C g Ig).
    cbn [egrp_layout l_ok group_box eg_type eg_ver eg_flags eg_id eg_ids eg_rest]. split; [exact G1|]. split; [split; lia|]. auto.
  - unfold kid_enc. cbn [enc]. rewrite len_box. cbn [kid_layout grpl_layout l_body]. rewrite flat_map_concat_map, map_map, <- flat_map_concat_map. reflexivity.
Qed.

Lemma base_types base : Forall (fun k => ~ In (kty k) other_codes) base -> forall ty, In ty other_codes -> of_type x ty base = [].
Proof.
  intros H ty I. unfold of_type. induction H as [|k r Hk _ IH]; [reflexivity|]. cbn [filter]. destruct (N.eqb_spec (kty k) ty) as [Q|]; [elim Hk; rewrite Q; exact I|exact IH].
Qed.
Lemma is_ty_one ty c n : n <= 1 -> is_ty ty c * n <= 1.
Proof. unfold is_ty. destruct (c =? ty); lia. Qed.
Lemma save_ok v f base m s room : start x y v f base -> 12 + len (flat_map ke base) + room < 4294967296 -> inv v f base m s -> state_ok x s -> state_len s <= room ->
  stepped v f base m s MSave.
Proof.
  intros (B1 & B2 & B3 & B4 & B5) Hr I (S1 & S2 & S3 & S4 & S5) Hl. pose proof I as [[V1 V2] I2 I3 I4 (es & R & E) (ps & P & Ep) I7 I8 I9 I10].
  destruct (iinf_saved es _ R S1 S4) as (A1 & A2 & es' & A3 & A4 & A5). destruct (ipro_saved ps _ P S2 S5) as (C1 & C2 & ps' & C3 & C4 & C5).
  destruct (grpl_saved _ S3 I10) as (G1 & G2).
  assert (Hok : Forall ko (mb_kids m)).
  { apply ok_split.
    - rewrite I2. apply Forall_forall, B2.
    - rewrite I3. intros a Ia. apply in_map_iff in Ia. destruct Ia as (id & <- & Iid). rewrite Forall_forall in I4. specialize (I4 id Iid). cbn [pitm_layout l_ok pi_ver pi_flags pi_item]. repeat split; lia.
    - rewrite E. intros a Ia. destruct es; [destruct Ia|destruct Ia as [<-|[]]; exact A1].
    - rewrite Ep. intros a Ia. destruct ps; [destruct Ia|destruct Ia as [<-|[]]; exact C1].
    - rewrite I7. intros a Ia. destruct (s_groups s); [destruct Ia|destruct Ia as [<-|[]]; exact G1]. }
  assert (Hlen : len (flat_map ke (mb_kids m)) = len (flat_map ke base) + state_len s).
  { rewrite len_enc, I2, I3, E, Ep, I7. unfold state_len. pose proof (Forall2_len _ _ _ R) as L1. pose proof (Forall2_len _ _ _ P) as L2.
    assert (Q1 : len (flat_map (fun a => ke (ALeaf _ (KPitm a))) (map (mkPitm 0 0) (opt_list (s_primary s)))) = match s_primary s with Some _ => 14 | None => 0 end) by (destruct (s_primary s); reflexivity).
    assert (Q2 : len (flat_map (fun a => ke (ALeaf _ (KIinf a))) (opt_box iinf_of es)) = if len (s_infos s) =? 0 then 0 else 14 + len (flat_map (fun i => box (code "infe") (info_bytes i)) (s_infos s))).
    { rewrite <- L1. destruct es as [|e0 es0]; [reflexivity|]. destruct (N.eqb_spec (len (e0 :: es0)) 0) as [Z|_]; [rewrite len_cons in Z; lia|]. cbn [opt_box flat_map]. rewrite app_nil_r. exact A2. }
    assert (Q3 : len (flat_map (fun a => ke (ALeaf _ (KIpro a))) (opt_box ipro_of ps)) = if len (s_prots s) =? 0 then 0 else 14 + len (flat_map (fun i => box (code "sinf") (prot_bytes i)) (s_prots s))).
    { rewrite <- L2. destruct ps as [|e0 es0]; [reflexivity|]. destruct (N.eqb_spec (len (e0 :: es0)) 0) as [Z|_]; [rewrite len_cons in Z; lia|]. cbn [opt_box flat_map]. rewrite app_nil_r. exact C2. }
    assert (Q4 : len (flat_map (fun a => ke (ALeaf _ (KGrpl a))) (opt_box (map group_box) (s_groups s))) = if len (s_groups s) =? 0 then 0 else 8 + len (flat_map (fun g => box (g_type g) (group_bytes g)) (s_groups s))).
    { destruct (s_groups s) as [|g0 gs]; [reflexivity|]. destruct (N.eqb_spec (len (g0 :: gs)) 0) as [Z|_]; [rewrite len_cons in Z; lia|]. cbn [opt_box flat_map]. rewrite app_nil_r. exact G2. }
    rewrite Q1, Q2, Q3, Q4. lia. }
  assert (Hm : l_ok (mbox_layout x y) m).
  { cbn [mbox_layout l_ok]. rewrite V1, V2. split; [exact B1|]. split; [exact Hok|]. apply Forall_forall. intros ty Ity. rewrite len_of_type, I2, I3, E, Ep, I7.
    assert (L1 : len (map (mkPitm 0 0) (opt_list (s_primary s))) <= 1) by (destruct (s_primary s); cbn [opt_list map]; lens; lia).
    pose proof (opt_box_len iinf_of es) as L2. pose proof (opt_box_len ipro_of ps) as L3. pose proof (opt_box_len (map group_box) (s_groups s)) as L4.
    rewrite Forall_forall in B5. specialize (B5 ty Ity).
    destruct (in_dec N.eq_dec ty other_codes) as [O|O].
    - rewrite (base_types base B4 ty O), len_nil. unfold other_codes in O. cbn [In] in O. destruct O as [<-|[<-|[<-|[<-|[]]]]];
        match goal with |- context[is_ty ?t _] => change (is_ty t (code "pitm")) with (if code "pitm" =? t then 1 else 0) end; unfold is_ty;
        repeat match goal with |- context[if code ?a =? code ?b then 1 else 0] => let r := eval vm_compute in (code a =? code b) in change (code a =? code b) with r end; cbn match; rewrite ?N.mul_0_l, ?N.mul_1_l; lia.
    - assert (Z : forall c, In c other_codes -> is_ty ty c = 0). { intros c Ic. unfold is_ty. destruct (N.eqb_spec c ty) as [->|]; [contradiction|reflexivity]. }
      rewrite !Z by (cbn; tauto). rewrite !N.mul_0_l. lia. }
  assert (Hb : 8 + len (l_body (mbox_layout x y) m) < 4294967296) by (cbn [mbox_layout l_body]; lens; rewrite Hlen; lia).
  destruct (faithful_round_trip (mbox_codec x dx) (mbox_layout x y) m (mbox_faithful x dx y F A) Hm Hb) as (_ & W & D & _).
  unfold stepped. cbn [mstep mstep_spec fst snd]. rewrite W. cbn [bind]. specialize (D m []). rewrite app_nil_r in D. rewrite D. cbn [bind fst].
  eexists. split; [reflexivity|]. destruct (select_view (mb_kids m)) as (W1 & W2 & W3 & W4 & W5).
  constructor; cbn [mbox_layout l_view mb_ver mb_flags mb_kids saved s_primary s_infos s_prots s_groups].
  - auto.
  - rewrite W1, I2. exact B3.
  - rewrite W2, I3, map_map. reflexivity.
  - exact I4.
  - exists es'. split; [exact A4|]. rewrite W3, E. pose proof (Forall2_len _ _ _ A4) as L1. rewrite len_map in L1. pose proof (Forall2_len _ _ _ R) as L2.
    destruct es as [|e0 es0]; cbn [opt_box map]; [destruct es'; [reflexivity|rewrite <- L2, len_cons, len_nil in L1; lia]|]. rewrite A3. destruct es'; [specialize (A5 eq_refl); discriminate|reflexivity].
  - exists ps'. split; [exact C4|]. rewrite W4, Ep. pose proof (Forall2_len _ _ _ C4) as L1. rewrite len_map in L1. pose proof (Forall2_len _ _ _ P) as L2.
    destruct ps as [|e0 es0]; cbn [opt_box map]; [destruct ps'; [reflexivity|rewrite <- L2, len_cons, len_nil in L1; lia]|]. rewrite C3. destruct ps'; [specialize (C5 eq_refl); discriminate|reflexivity].
  - rewrite W5, I7. destruct (s_groups s); reflexivity.
  - rewrite map_map. exact I8.
  - exact I9.
  - exact I10.
Qed.

(* ------------------------------------------------------------------ *)
(* All histories                                                       *)

Lemma run_ok v f base room : start x y v f base -> 12 + len (flat_map ke base) + room < 4294967296 -> forall os m s, inv v f base m s -> mops_ok x room s os ->
  exists m', mrun x dx m os = Ok (fst (mrun_spec s os), m') /\ inv v f base m' (snd (mrun_spec s os)).
Proof.
  intros B Hr. induction os as [|o os IH]; intros m s I H; [exists m; split; [reflexivity|exact I]|]. cbn [mrun mrun_spec mops_ok] in *. destruct H as [H1 H2].
  assert (St : stepped v f base m s o).
  { destruct o; cbn [mop_ok] in H1.
    - eexists. split; [reflexivity|]. apply primary_ok; assumption.
    - destruct H1 as (? & ? & ?). eexists. split; [reflexivity|]. apply info_ok_step; assumption.
    - apply extend_ok, I.
    - apply type_ok; assumption.
    - apply hide_ok; assumption.
    - destruct H1. apply protect_ok; assumption.
    - apply protect_info_ok, I.
    - apply group_ok_step, I.
    - apply entity_ok; assumption.
    - destruct H1. eapply save_ok; eassumption. }
  destruct St as (m1 & E1 & I1). rewrite E1. cbn [bind fst snd]. destruct (mstep_spec s o) as [a s1]. cbn [fst snd] in *.
  destruct (IH m1 s1 I1 H2) as (m2 & E2 & I2). rewrite E2. cbn [bind fst snd]. destruct (mrun_spec s1 os) as [l s2]. exists m2. split; [reflexivity|exact I2].
Qed.
Lemma other_select base : Forall (fun k => ~ In (kty k) other_codes) base -> select as_other base = base /\ select as_pitm base = [] /\ select as_iinf base = [] /\ select as_ipro base = [] /\ select as_grpl base = [].
Proof.
  induction 1 as [|k r Hk _ (I1 & I2 & I3 & I4 & I5)]; [repeat split|]. rewrite !select_cons, I1, I2, I3, I4, I5.
  destruct k as [t u d|t d|l|t ks]; [| |destruct l as [a|a|a|a|a]|]; cbn [as_other as_pitm as_iinf as_ipro as_grpl opt_list app]; try (repeat split; fail).
  - elim Hk. left. reflexivity.
  - elim Hk. right. left. reflexivity.
  - elim Hk. right. right. left. reflexivity.
  - elim Hk. right. right. right. left. reflexivity.
Qed.
Lemma start_inv v f base : start x y v f base -> inv v f base (mkMbox v f base) mstate0.
Proof.
  intros (_ & _ & _ & B & _). destruct (other_select base B) as (O1 & O2 & O3 & O4 & O5). constructor; cbn [mb_ver mb_flags mb_kids mstate0 s_primary s_infos s_prots s_groups opt_list map]; auto; try constructor.
  - exists []. split; [constructor|exact O3].
  - exists []. split; [constructor|exact O4].
Qed.

(* ------------------------------------------------------------------ *)
(* The questions                                                       *)

Lemma q_primary v f base m s : inv v f base m s -> get_primary m = match s_primary s with Some id => Ok id | None => Err MP4NotFoundErr end.
Proof.
  intros I. unfold get_primary. rewrite (the_pitm _ _ _ _ _ I). pose proof (v_small _ _ _ _ _ I) as L. destruct (s_primary s) as [id|]; [|reflexivity]. cbn [option_map pi_item].
  inversion_clear L. unfold w16. rewrite N.mod_small by assumption. reflexivity.
Qed.
Lemma q_info v f base m s id (wt we : bool) : inv v f base m s ->
  (forall i, info_of s id = Some i -> (wt = true \/ we = true) -> f_content i = Some (None, None)) ->
  get_info m id true wt we = match info_of s id with
    | Some i => Ok (mkOut (f_prot i) (Some (f_name i)) (if wt then Some [] else None) (if we then Some [] else None))
    | None => Err MP4NotFoundErr end.
Proof.
  intros I Hw. destruct (the_iinf _ _ _ _ _ I) as (es & R & E & M & N). unfold get_info. rewrite M.
  pose proof (find_rep es (s_infos s) id R) as Q. unfold info_of in *.
  assert (G : find_info (ii_kids (iinf_of es)) id = Ok (find (fun e => in_id e =? id) es)) by apply find_info_find.
  destruct (find (fun e => in_id e =? id) es) as [e|] eqn:Fe; destruct (find (fun i => f_id i =? id) (s_infos s)) as [i|] eqn:Fi; try contradiction.
  - destruct es as [|e0 es0]; [discriminate|]. rewrite G. cbn [bind]. destruct Q as [[R1 R2 R3 R4 R5 R6 R7 R8] _].
    rewrite R4. unfold wanted at 1, copy_out at 1. rewrite terminated_str, chars_cstr by exact R5. cbn [bind].
    assert (W : w16 (in_prot e) = f_prot i) by (rewrite R2; unfold w16; apply N.mod_small, R6).
    destruct wt, we.
    + rewrite (Hw i eq_refl) in R7 by auto. destruct R7 as [-> ->]. cbn. rewrite W. reflexivity.
    + rewrite (Hw i eq_refl) in R7 by auto. destruct R7 as [-> ->]. cbn. rewrite W. reflexivity.
    + rewrite (Hw i eq_refl) in R7 by auto. destruct R7 as [-> ->]. cbn. rewrite W. reflexivity.
    + cbn [wanted bind]. rewrite W. destruct (in_ct e); reflexivity.
  - destruct es as [|e0 es0]; [reflexivity|]. rewrite G. reflexivity.
Qed.
Lemma q_ext v f base m s id : inv v f base m s -> get_ext_info m id = match info_of s id with
    | Some i => match f_form i with Extended ty d => Ok (ty, d) | _ => Err MP4InvalidMediaErr end | None => Err MP4BadParamErr end.
Proof.
  intros I. unfold get_ext_info. match goal with |- with_entry m id ?e ?g = _ => destruct (with_entry_ok v f base m s id e g I) as [W1 W2] end.
  destruct (info_of s id) as [i|]; [|exact W1]. destruct (W2 i eq_refl) as (es & e & _ & _ & _ & [R1 R2 R3 R4 R5 R6 R7 R8] & _ & _ & _ & W). rewrite W.
  destruct (f_form i) as [|ty d|ty u]; [rewrite R8|destruct R8 as (-> & -> & ->)|destruct R8 as (-> & _)]; reflexivity.
Qed.
Lemma q_type v f base m s id : inv v f base m s -> get_type m id = match info_of s id with
    | Some i => match f_form i with Typed ty u => Ok (ty, u) | _ => Err MP4InvalidMediaErr end | None => Err MP4BadParamErr end.
Proof.
  intros I. unfold get_type. match goal with |- with_entry m id ?e ?g = _ => destruct (with_entry_ok v f base m s id e g I) as [W1 W2] end.
  destruct (info_of s id) as [i|]; [|exact W1]. destruct (W2 i eq_refl) as (es & e & _ & _ & _ & [R1 R2 R3 R4 R5 R6 R7 R8] & _ & _ & _ & W). rewrite W.
  destruct (f_form i) as [|ty d|ty u]; [rewrite R8; reflexivity|destruct R8 as (-> & _); reflexivity|]. destruct R8 as (-> & -> & -> & T). cbn [N.eqb negb].
  change (2 =? 2) with true. cbn [negb]. destruct u as [u|]; [|reflexivity]. cbn [option_map]. rewrite terminated_str, chars_cstr by exact T. reflexivity.
Qed.
Lemma q_hidden v f base m s id : inv v f base m s -> is_hidden m id = match info_of s id with Some i => Ok (f_hidden i) | None => Err MP4InvalidMediaErr end.
Proof.
  intros I. unfold is_hidden. match goal with |- with_entry m id ?e ?g = _ => destruct (with_entry_ok v f base m s id e g I) as [W1 W2] end.
  destruct (info_of s id) as [i|]; [|exact W1]. destruct (W2 i eq_refl) as (es & e & _ & _ & _ & [R1 R2 R3 R4 R5 R6 R7 R8] & _ & _ & _ & W). rewrite W, R3. destruct (f_hidden i); reflexivity.
Qed.
Lemma nth_prot_full v f base m s k : inv v f base m s -> match prot_of s k with
  | Some p => exists i q, nth_prot m k = Ok (i, q) /\ rep_prot q p | None => nth_prot m k = Err MP4BadParamErr end.
Proof.
  intros I. destruct (nth_prot_ok v f base m s k I) as (ps & R & E & Q). rewrite Q. unfold prot_of. pose proof (Forall2_len _ _ _ R) as L.
  destruct (N.eqb_spec k 0) as [->|Hk]; [reflexivity|]. destruct (N.leb_spec 1 k); [|lia]. cbn [andb]. pose proof (Forall2_nth _ _ _ (N.to_nat (k - 1)) R) as Z.
  fold (nthN ps (k - 1)) in Z. fold (nthN (s_prots s) (k - 1)) in Z. destruct (N.leb_spec k (len (s_prots s))).
  - destruct (nthN ps (k - 1)) as [q|], (nthN (s_prots s) (k - 1)) as [p|] eqn:Ep; try contradiction; [eauto|]. unfold nthN in Ep. apply nth_error_None in Ep. unfold len in *. lia.
  - destruct (nthN (s_prots s) (k - 1)) eqn:Ep; [|reflexivity]. unfold nthN in Ep. assert (nth_error (s_prots s) (N.to_nat (k - 1)) <> None) as Z1 by congruence. apply nth_error_Some in Z1. unfold len in *. lia.
Qed.
Lemma q_prot v f base m s k : inv v f base m s -> get_prot m k = match prot_of s k with Some p => Ok (p_type p, p_version p, p_url p) | None => Err MP4BadParamErr end.
Proof.
  intros I. pose proof (nth_prot_full v f base m s k I) as Q. unfold get_prot. destruct (prot_of s k) as [p|]; [|rewrite Q; reflexivity].
  destruct Q as (i & q & -> & (T & fl & ->)). cbn [bind sf_schm sm_url sm_type sm_version]. destruct (p_url p) as [u|]; [|reflexivity]. cbn [option_map]. rewrite terminated_str, chars_cstr by exact T. reflexivity.
Qed.
Lemma q_prot_info v f base m s k ty : inv v f base m s -> get_prot_info x m k ty = match prot_of s k with
  | Some p => match find (fun b => fst b =? ty) (p_boxes p) with Some b => Ok (AOpaque _ ty [] (snd b)) | None => Err MP4NotFoundErr end
  | None => Err MP4BadParamErr end.
Proof.
  intros I. pose proof (nth_prot_full v f base m s k I) as Q. unfold get_prot_info. destruct (prot_of s k) as [p|]; [|rewrite Q; reflexivity].
  destruct Q as (i & q & -> & (T & fl & ->)). cbn [bind sf_schi]. clear.
  induction (p_boxes p) as [|b r IH]; [reflexivity|]. cbn [map find]. unfold scheme_box at 1. cbn [atype]. destruct (N.eqb_spec (fst b) ty) as [<-|]; [reflexivity|exact IH].
Qed.
Lemma q_count v f base m s id : inv v f base m s -> entity_count m id = match group_of s id with Some g => Ok (len (g_members g)) | None => Err MP4NotFoundErr end.
Proof.
  intros I. unfold entity_count. rewrite (the_grpl _ _ _ _ _ I). unfold group_of. destruct (s_groups s) as [|g0 gs] eqn:E; [reflexivity|]. rewrite <- E. rewrite find_group.
  destruct (find (fun g => g_id g =? id) (s_groups s)) as [g|] eqn:Q; [|reflexivity]. cbn [option_map group_box eg_ids]. apply find_some in Q. destruct Q as [Q _].
  pose proof (v_count _ _ _ _ _ I) as C. rewrite Forall_forall in C. rewrite w32_small by apply C, Q. reflexivity.
Qed.
Lemma q_groups v f base m s : inv v f base m s -> all_groups m = match s_groups s with [] => Err MP4NotFoundErr | l => Ok (map (fun g => (g_type g, g_id g, g_members g)) l) end.
Proof. intros I. unfold all_groups. rewrite (the_grpl _ _ _ _ _ I). destruct (s_groups s); [reflexivity|]. rewrite map_map. reflexivity. Qed.
End Hist.

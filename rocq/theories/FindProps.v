From Verif Require Import Base Codec AtomModel AtomSpec AtomProofs AtomProps BoxModel BoxSpec BoxProofs Reads EntryProofs
  HeaderModel HeaderSpec HeaderProofs TextModel TextSpec TextProofs TrackModel KidsModel KidsProofs MboxModel MboxSpec MboxProofs MboxHist MboxProps
  IlocModel ItemModel ItemProofs FindModel FindSpec FindProofs.
From Verif Require ItemSpec ItemProps.
From Coq Require Import Sorting.Sorted.

(* C79. All theorems are about one meta box after any calls of MboxSpec.v and
   any data boxes added, in any order ([pops_ok]); the items are those of any
   [t]. *)
Definition history {X} (x : codec X) (dx : X) (y : layout X) (v f : N) (base : list (atom (kid (X:=X)))) (os : list pop) (m : mbox (X:=X)) (s : mstate) (l : list pdata) : Prop :=
  faithful x y /\ apart x /\ start x y v f base /\ 12 + len (flat_map (kid_enc (kid_codec x) (kid_layout x y)) base) < 4294967296 /\
  pops_ok x (len (flat_map (kid_enc (kid_codec x) (kid_layout x y)) base)) mstate0 [] os /\
  prun x dx (mkMbox v f base) os = Ok m /\ prun_spec mstate0 [] os = (s, l).
Lemma history_inv {X} (x : codec X) dx y v f base os m s l : history x dx y v f base os m s l -> inv (X:=X) v f (base ++ map pd_box l) m s.
Proof.
  intros (F & A & S & L & O & R & E). pose proof (prun_ok x dx y F A v f base S os (mkMbox v f base) mstate0 []) as P. cbn [map] in P. rewrite app_nil_r in P.
  destruct (P (start_inv x y v f base S) S (Forall_nil _)) as (m' & R' & I); [change (pd_len []) with 0; lia|exact O|]. rewrite R in R'. injection R' as <-. rewrite E in I. exact I.
Qed.

(* such a history never fails *)
Theorem C79_history : forall X (x : codec X) (dx : X) (y : layout X), faithful x y -> apart x -> forall v f base os, start x y v f base ->
  12 + len (flat_map (kid_enc (kid_codec x) (kid_layout x y)) base) < 4294967296 ->
  pops_ok x (len (flat_map (kid_enc (kid_codec x) (kid_layout x y)) base)) mstate0 [] os ->
  exists m, history x dx y v f base os m (fst (prun_spec mstate0 [] os)) (snd (prun_spec mstate0 [] os)).
Proof.
  intros X x dx y F A v f base os S L O. pose proof (prun_ok x dx y F A v f base S os (mkMbox v f base) mstate0 []) as P. cbn [map] in P. rewrite app_nil_r in P.
  destruct (P (start_inv x y v f base S) S (Forall_nil _)) as (m' & R' & I); [change (pd_len []) with 0; lia|exact O|]. exists m'. unfold history.
  destruct (prun_spec mstate0 [] os). repeat (split; [assumption|]). reflexivity.
Qed.
Print Assumptions C79_history.

(* by name: the item of the first information with the name *)
Theorem C79_by_name : forall X (x : codec X) dx y v f base os m s l, history x dx y v f base os m s l -> forall t exact name,
  (forall i k, first_with (goes_by exact name) (s_infos s) i -> f_id i < 65536 -> NoDup (ItemSpec.ids_of t) -> nth_error (ItemSpec.ids_of t) k = Some (f_id i) ->
     find_by_name m t exact name = Ok k) /\
  (forall i, first_with (goes_by exact name) (s_infos s) i -> f_id i < 65536 -> ~ In (f_id i) (ItemSpec.ids_of t) -> find_by_name m t exact name = Err MP4NotFoundErr) /\
  (Forall (fun i => ~ goes_by exact name i) (s_infos s) -> find_by_name m t exact name = Err MP4NotFoundErr).
Proof.
  intros X x dx y v f base os m s l H t exact name. apply history_inv in H. rewrite (by_name v f _ m s t exact name H). pose proof (infos_text v f _ m s H) as T.
  assert (U : forall i, first_with (goes_by exact name) (s_infos s) i -> find (fun i => same_name exact name (cstr (f_name i))) (s_infos s) = Some i).
  { intros i (l1 & l2 & E & G & N). rewrite E in *. clear E H. induction l1 as [|j l1 IH]; cbn [app find] in *; inversion_clear T as [|? ? T1 T2].
    - rewrite (proj2 (same_goes exact name i T1) G). reflexivity.
    - inversion_clear N as [|? ? N1 N2]. destruct (same_name exact name (cstr (f_name j))) eqn:Q; [elim N1; apply (same_goes exact name j T1), Q|]. apply IH; assumption. }
  split; [|split].
  - intros i k G L D K. rewrite (U i G), w16_small by exact L. unfold item_by_id, ItemSpec.ids_of, items in *. destruct (m_iloc t) as [il|]; [|destruct k; discriminate].
    apply (find_item_ok (il_items il) D 0 k), K.
  - intros i G L K. rewrite (U i G), w16_small by exact L. unfold item_by_id, ItemSpec.ids_of, items in *. destruct (m_iloc t) as [il|]; [|reflexivity].
    generalize 0%nat. induction (il_items il) as [|a r IH]; intros n; [reflexivity|]. cbn [find_item map In] in *. destruct (N.eqb_spec (i_id a) (f_id i)); [tauto|apply IH; tauto].
  - intros G. pose proof (find_first (fun i => same_name exact name (cstr (f_name i))) (s_infos s)) as Q. destruct (find _ (s_infos s)) as [i|]; [|reflexivity].
    destruct Q as (l1 & l2 & E & Q & _). rewrite E in *. apply Forall_app in G, T. destruct G as [_ G], T as [_ T]. inversion_clear G as [|? ? G1 _]. inversion_clear T as [|? ? T1 _].
    elim G1. apply (same_goes exact name i T1), Q.
Qed.
Print Assumptions C79_by_name.

(* by type: exactly the items of that type, in the order of the items, when
   all items have one *)
Theorem C79_by_type : forall X (x : codec X) dx y v f base os m s l, history x dx y v f base os m s l -> forall t ty, m_iloc t <> None ->
  Forall (fun id => type_of s id <> None) (ItemSpec.ids_of t) -> all_with_type m t ty = Ok (positions s (ItemSpec.ids_of t) 0 ty).
Proof.
  intros X x dx y v f base os m s l H t ty T G. apply history_inv in H. unfold all_with_type, ItemSpec.ids_of, items in *. destruct (m_iloc t) as [il|]; [|contradiction].
  apply (with_type_ok v f _ m s _ ty H). rewrite Forall_map in G. exact G.
Qed.
Print Assumptions C79_by_type.
Lemma positions_in s ids ty : forall j k, In k (positions s ids j ty) <-> exists i, k = (j + i)%nat /\ exists id, nth_error ids i = Some id /\ type_of s id = Some ty.
Proof.
  induction ids as [|id r IH]; intros j k.
  - split; [intros []|]. intros (i & _ & id & H & _). destruct i; discriminate.
  - cbn [positions]. rewrite in_app_iff, IH. split.
    + intros [H|(i & -> & H)]; [|exists (S i); split; [lia|exact H]]. exists 0%nat. destruct (type_of s id) as [t|] eqn:E; [|destruct H].
      destruct (N.eqb_spec t ty); [|destruct H]. destruct H as [<-|[]]. split; [lia|]. exists id. split; [reflexivity|congruence].
    + intros (i & -> & H). destruct i as [|i]; [|right; exists i; split; [lia|exact H]]. left. destruct H as (id' & H1 & H2). injection H1 as <-. rewrite H2, N.eqb_refl. left. lia.
Qed.
(* the list of positions holds each once, in increasing order *)
Theorem C79_positions : forall s ids ty, (forall k, In k (positions s ids 0 ty) <-> exists id, nth_error ids k = Some id /\ type_of s id = Some ty) /\
  StronglySorted lt (positions s ids 0 ty).
Proof.
  intros s ids ty. split.
  - intros k. rewrite positions_in. split; [intros (i & -> & H); exact H|intros H; exists k; split; [reflexivity|exact H]].
  - generalize 0%nat. induction ids as [|id r IH]; intros j; cbn [positions]; [constructor|]. destruct (type_of s id) as [t|]; [|apply IH]. destruct (t =? ty); [|apply IH].
    cbn [app]. constructor; [apply IH|]. apply Forall_forall. intros k H. apply positions_in in H. destruct H as (i & -> & _). lia.
Qed.
Print Assumptions C79_positions.
(* one item without a type, and no item is found *)
Theorem C79_untyped_refuted : forall X (x : codec X) dx y v f base os m s l, history x dx y v f base os m s l -> forall t ty,
  Exists (fun id => type_of s id = None) (ItemSpec.ids_of t) ->
  all_with_type m t ty = Err MP4BadParamErr \/ all_with_type m t ty = Err MP4InvalidMediaErr.
Proof.
  intros X x dx y v f base os m s l H t ty E. apply history_inv in H. unfold all_with_type, ItemSpec.ids_of, items in *. destruct (m_iloc t) as [il|]; [|inversion E].
  apply (with_type_bad v f _ m s _ ty H). apply Exists_exists in E. destruct E as (id & I & N). apply in_map_iff in I. destruct I as (a & <- & I). exists a. auto.
Qed.
Print Assumptions C79_untyped_refuted.

(* data boxes: asked in the way it was added, the first of a type gives back
   the data; nothing else in the history changes that *)
Theorem C79_data : forall X (x : codec X) dx y v f base os m s l, history x dx y v f base os m s l -> forall ty, ~ In ty other_codes ->
  Forall (fun k => atype _ (c_ty (kid_codec x)) k <> ty) base ->
  (forall b, first_with (fun b => pd_type b = ty) l b ->
     get_pdata x m ty (pd_full b) = match pd_data b with [] => Err MP4BadDataErr | d => Ok d end) /\
  (forall full, Forall (fun b => pd_type b <> ty) l -> get_pdata x m ty full = Err MP4NotFoundErr).
Proof.
  intros X x dx y v f base os m s l H ty O B. apply history_inv in H. split.
  - intros b (l1 & l2 & E & P & N). rewrite (data_kept x v f base m s l ty _ H O B).
    assert (Q : find (fun b => pd_type b =? ty) l = Some b).
    { rewrite E. rewrite find_app_none; [|revert N; apply Forall_impl; intros c; apply N.eqb_neq]. cbn [find]. rewrite P, N.eqb_refl. reflexivity. }
    rewrite Q. cbv zeta. unfold pd_bytes. destruct (pd_full b).
    + rewrite len_app. change (len [0; 0; 0; 0]) with 4. destruct (N.ltb_spec (4 + len (pd_data b)) 4); [lia|]. destruct (pd_data b) as [|c d]; [reflexivity|]. lens.
      destruct (N.eqb_spec (4 + (1 + len d)) 4); [lia|]. reflexivity.
    + destruct (pd_data b) as [|c d]; [reflexivity|]. cbn [app]. lens. destruct (N.eqb_spec (1 + len d) 0); [lia|]. reflexivity.
  - intros full N. rewrite (data_kept x v f base m s l ty _ H O B). pose proof (find_first (fun b => pd_type b =? ty) l) as Q. destruct (find _ l) as [b|]; [|reflexivity].
    destruct Q as (l1 & l2 & -> & Q & _). apply Forall_app in N. destruct N as [_ N]. inversion_clear N. apply N.eqb_eq in Q. contradiction.
Qed.
Print Assumptions C79_data.
(* a box of fewer than four bytes asked for as one with version and flags *)
Theorem C79_short_data_refuted : forall X (x : codec X) dx y v f base os m s l, history x dx y v f base os m s l -> forall ty b, ~ In ty other_codes ->
  Forall (fun k => atype _ (c_ty (kid_codec x)) k <> ty) base -> first_with (fun b => pd_type b = ty) l b -> pd_full b = false -> len (pd_data b) < 4 ->
  get_pdata x m ty true = UB.
Proof.
  intros X x dx y v f base os m s l H ty b O B (l1 & l2 & E & P & N) Fb L. apply history_inv in H. rewrite (data_kept x v f base m s l ty _ H O B).
  assert (Q : find (fun b => pd_type b =? ty) l = Some b).
  { rewrite E. rewrite find_app_none; [|revert N; apply Forall_impl; intros c; apply N.eqb_neq]. cbn [find]. rewrite P, N.eqb_refl. reflexivity. }
  rewrite Q. cbv zeta. unfold pd_bytes. rewrite Fb. cbn [app]. destruct (N.ltb_spec (len (pd_data b)) 4); [reflexivity|lia].
Qed.
Print Assumptions C79_short_data_refuted.

(* the data of the primary item: that of the first box of the type or, when
   there is none, what the primary item holds *)
Theorem C79_primary_data : forall X (x : codec X) dx y v f base os m s l, history x dx y v f base os m s l -> forall ty, ~ In ty other_codes ->
  Forall (fun k => atype _ (c_ty (kid_codec x)) k <> ty) base ->
  (forall t n b, first_with (fun b => pd_type b = ty) l b ->
     primary_data x n m t ty (pd_full b) = match pd_data b with [] => Err MP4BadDataErr | d => Ok d end) /\
  (forall t n full, Forall (fun b => pd_type b <> ty) l -> s_primary s = None -> primary_data x n m t ty full = Err MP4NotFoundErr) /\
  (forall ios t acc n n' full id k d, Forall (fun b => pd_type b <> ty) l -> s_primary s = Some id ->
     irun ios = Ok (t, acc) -> Forall ItemSpec.iop_ok ios -> NoDup (ItemSpec.ids_of t) ->
     len (ItemSpec.media acc) < 4294967296 -> len (ItemSpec.item_bytes_of acc) < 4294967296 ->
     nth_error (ItemSpec.ids_of t) k = Some id -> ItemSpec.value n acc k = Some d -> (n <= n')%nat ->
     primary_data x n' m t ty full = Ok d).
Proof.
  intros X x dx y v f base os m s l H ty O B. destruct (C79_data X x dx y v f base os m s l H ty O B) as [D1 D2]. split; [|split].
  - intros t n b Fb. unfold primary_data. rewrite (D1 b Fb). destruct (pd_data b); reflexivity.
  - intros t n full N P. unfold primary_data. rewrite (D2 full N). change (Z.eqb MP4NotFoundErr MP4NotFoundErr) with true. cbv iota.
    apply history_inv in H. rewrite (q_primary v f _ m s H), P. reflexivity.
  - intros ios t acc n n' full id k d N P R I ND L1 L2 K V Hn. unfold primary_data. rewrite (D2 full N). change (Z.eqb MP4NotFoundErr MP4NotFoundErr) with true. cbv iota.
    apply history_inv in H. rewrite (q_primary v f _ m s H), P. cbn [bind].
    assert (E : item_by_id t id = Ok k).
    { unfold item_by_id, ItemSpec.ids_of, items in *. destruct (m_iloc t) as [il|]; [|destruct k; discriminate]. apply (find_item_ok (il_items il) ND 0 k), K. }
    rewrite E. cbn [bind]. eapply ItemProps.C29_data_read_back; eassumption.
Qed.
Print Assumptions C79_primary_data.

(* a relation between two items is a reference to the id of the second *)
Theorem C79_relation : forall t k k' a' ty, nth_error (items t) k' = Some a' -> i_id a' < 65536 -> nth_error (items t) k <> None ->
  add_relation t k k' ty = istep t (IRef k ty (i_id a')).
Proof.
  intros t k k' a' ty H L K. unfold add_relation. rewrite H, w16_small by exact L. cbn [istep]. destruct (nth_error (items t) k); [reflexivity|contradiction].
Qed.
Print Assumptions C79_relation.

(* an entry of a file that ends before its name: its name is a null pointer *)
Definition nameless : list N := box (code "meta") ([0; 0; 0; 0] ++ box (code "iinf") ([0; 0; 0; 0; 0; 1] ++ box (code "infe") [0; 0; 0; 0; 0; 5; 0; 0])).
Theorem C79_nameless_refuted : exists m n, read_box (mbox_codec hx hd0) (mkMbox 0 0 []) nameless = Ok ((ALeaf _ m, n), []) /\
  forall t exact name, find_by_name m t exact name = UB.
Proof. eexists. eexists. split; [vm_compute; reflexivity|]. intros t exact name. reflexivity. Qed.
Print Assumptions C79_nameless_refuted.
(* a history with names that are alike, types, data boxes and a saving *)
Definition ex_pops : list pop :=
  [PCall (MPrimary 2); PCall (MInfo 1 0 (Some [65; 98]) None None); PData (mkPdata (code "xml ") true [60; 62]); PCall (MInfo 2 0 (Some [97; 66]) None None);
   PCall (MType 1 (code "Exif") None); PData (mkPdata (code "bxml") false [7]); PCall (MType 2 (code "av01") None); PCall MSave; PData (mkPdata (code "xml ") true [9])].
Definition ex_prun := Eval vm_compute in or_else (mkMbox 0 0 []) (prun hx hd0 (mkMbox 0 0 ex_base) ex_pops).
Ltac pdata_case := split; [unfold pdata_ok; repeat split; try (vm_compute; (reflexivity || discriminate)); [vm_compute; intuition discriminate|repeat constructor]|word].
Ltac pops := repeat match goal with
  | |- pops_ok ?x ?u ?s ?l (?o :: ?os) =>
      let q := eval vm_compute in (prun_spec s l [o]) in lazymatch q with (?s', ?l') => change (pop_ok x u s l o /\ pops_ok x u s' l' os) end;
      split; [lazymatch goal with |- pop_ok _ _ _ _ (PData _) => pdata_case | |- pop_ok _ ?u ?s ?l (PCall ?o) => change (mop_ok x (4294967295 - (12 + u + pd_len l)) s o); op_step end|]
  end.
Example C79_history_case : history hx hd0 hdlr_layout 0 0 ex_base ex_pops ex_prun (fst (prun_spec mstate0 [] ex_pops)) (snd (prun_spec mstate0 [] ex_pops)).
Proof.
  split; [exact hx_faithful|]. split; [exact hx_apart|]. split; [exact ex_start|]. split; [reflexivity|]. split; [|split; [vm_compute; reflexivity|vm_compute; reflexivity]].
  unfold ex_pops. pops; try exact Logic.I; try lazymatch goal with |- _ < _ => word end; cbn [s_infos s_prots s_groups]; repeat apply Forall_cons; try apply Forall_nil;
    first [info_case|prot_case|group_case].
Qed.
Definition ex_items : list iop := [INew 0 0 None; INew 0 0 None; IIdat 1 [5; 6; 7]].
Definition ex_meta := Eval vm_compute in fst (or_else (meta_new, []) (irun ex_items)).
Example C79_answers_case : irun ex_items = Ok (ex_meta, ex_items) /\ Forall ItemSpec.iop_ok ex_items /\ ItemSpec.ids_of ex_meta = [1; 2] /\ NoDup (ItemSpec.ids_of ex_meta) /\
  find_by_name ex_prun ex_meta true [97; 66] = Ok 1%nat /\ find_by_name ex_prun ex_meta false [97; 66] = Ok 0%nat /\ find_by_name ex_prun ex_meta true [97] = Err MP4NotFoundErr /\
  all_with_type ex_prun ex_meta (code "av01") = Ok [1%nat] /\ get_pdata hx ex_prun (code "xml ") true = Ok [60; 62] /\ get_pdata hx ex_prun (code "xml ") false = Ok [0; 0; 0; 0; 60; 62] /\
  get_pdata hx ex_prun (code "bxml") true = UB /\ primary_data hx 3 ex_prun ex_meta (code "bxml") false = Ok [7] /\ primary_data hx 3 ex_prun ex_meta (code "none") false = Ok [5; 6; 7] /\
  ItemSpec.value 3 ex_items 1 = Some [5; 6; 7].
Proof.
  split; [vm_compute; reflexivity|]. split; [repeat constructor; cbn; try lia; discriminate|]. split; [reflexivity|]. split; [repeat constructor; cbn; intuition discriminate|].
  vm_compute. repeat split.
Qed.

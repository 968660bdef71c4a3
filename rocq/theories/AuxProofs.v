(* AuxProofs.v -- lemmas for C35. *)
From Verif Require Import Base Codec AtomModel AtomProofs BoxModel BoxSpec BoxProofs HeaderProofs HandleProofs SttsProofs CttsProofs SaveSpec MdatModel GroupProofs MediaSpec MediaProofs AuxModel AuxSpec.

Lemma len_named f t p : len (named f t p) = if N.testbit f 0 then 8 else 0.
Proof. unfold named. destruct (N.testbit f 0); reflexivity. Qed.
Lemma writes_named f t p : writes (if N.testbit f 0 then put32 t ;; put32 p else wret) (named f t p).
Proof. unfold named. destruct (N.testbit f 0); wstep. Qed.
Lemma parses_named n f t p : n < 4294967296 -> named_ok f t p ->
  parses n (if N.testbit f 0 then let* t := get32 in let* p := get32 in rret (t, p) else rret (0, 0)) (named f t p) (t, p).
Proof.
  intros Hn (H1 & H2 & H3). unfold named. destruct (N.testbit f 0).
  - pauto. pauto. pauto.
  - destruct (H3 eq_refl) as [-> ->]. pnext.
Qed.
Lemma len_bytes8 (l : list N) : len (flat_map be8 l) = len l.
Proof. rewrite (len_flat_map_const _ 1); [lia|]. reflexivity. Qed.

Lemma saiz_robust : robust (saiz_codec_in true).
Proof.
  intros h. apply safe_of; [change (consumes (saiz_read_in true h))|change (tame (saiz_read_in true h))];
    unfold saiz_read_in; cbn [orb]; [cons_step|tame_step].
Qed.
Lemma saio_robust : robust saio_codec.
Proof. robust_tac saio_read. Qed.

Lemma saiz_body_len room s : l_ok (saiz_layout_in room) s ->
  len (l_body (saiz_layout_in room) s) = 9 + (if N.testbit (z_flags s) 0 then 8 else 0) + (if z_def s =? 0 then z_count s else 0).
Proof.
  intros (_ & _ & _ & _ & H & _). unfold saiz_layout_in, full. cbn [l_body]. lens. rewrite len_named.
  destruct (z_def s =? 0); [|lens; lia]. destruct H as [-> _]. rewrite len_bytes8. lia.
Qed.
Lemma saiz_exact room : exact (saiz_codec_in room) (saiz_layout_in room).
Proof.
  split; [intros t _; plain|]. intros t Ht Hl. pose proof (saiz_body_len room t Ht) as L. revert Ht Hl L.
  unfold saiz_codec_in, saiz_layout_in. cbn [c_size c_w c_rd l_body l_view l_ok c_ty].
  intros (Hf & Hn & Hd & Hc & Hs & Hr) Hl L. rewrite L in *. split; [|split].
  - unfold saiz_size, w32. destruct (N.testbit (z_flags t) 0), (z_def t =? 0); lia.
  - unfold saiz_write. apply writes_full_seq. apply writes_seq; [apply writes_named|]. apply writes_seq; [wstep|]. apply writes_seq; [wstep|].
    destruct (z_def t =? 0); [|wstep]. destruct Hs as [E Hs]. destruct (N.ltb_spec (len (z_sizes t)) (z_count t)); [lia|].
    rewrite E, len_nat, firstn_all. apply writes_map. intros x _. wstep.
  - unfold saiz_read_in. pnext; [apply parses_full; assumption|]. cbv beta iota.
    pnext; [apply parses_named; [apply w32_lt|assumption]|]. cbv beta iota. pauto. pauto.
    destruct t as [v f ty pa d n l]. cbn [z_ver z_flags z_type z_param z_def z_count z_sizes] in *.
    eapply parses_bind_last; [|pnext].
    destruct (N.eqb_spec d 0) as [D|D]; [|subst l; pnext].
    assert (R : room || (n =? 0) = true) by (destruct room; [reflexivity|]; rewrite (Hr eq_refl D); reflexivity). rewrite R.
    destruct Hs as [-> Hs]. rewrite len_nat.
    apply parses_rrep; [|apply w32_lt]. intros x m Ix. apply parses_get8.
    rewrite Forall_forall in Hs. apply Hs. exact Ix.
Qed.

Lemma saio_body_len s :
  len (l_body saio_layout s) = 8 + (if N.testbit (o_flags s) 0 then 8 else 0) + len (o_offs s) * (if o_ver s =? 0 then 4 else 8).
Proof.
  unfold saio_layout, full. cbn [l_body]. lens. rewrite len_named.
  rewrite (len_flat_map_const _ (if o_ver s =? 0 then 4 else 8)) by (intros; destruct (o_ver s =? 0); reflexivity).
  destruct (N.testbit (o_flags s) 0); lia.
Qed.
Lemma saio_exact : exact saio_codec saio_layout.
Proof.
  split; [intros t _; plain|]. intros t Ht Hl. pose proof (saio_body_len t) as L. revert Ht Hl L.
  unfold saio_codec, saio_layout. cbn [c_size c_w c_rd l_body l_view l_ok c_ty].
  intros (Hf & Hn & Hc & Hx & Hs) Hl L. rewrite L in *. rewrite Forall_forall in Hs. split; [|split].
  - unfold saio_size, w32. destruct (N.testbit (o_flags t) 0), (o_ver t =? 0); lia.
  - unfold saio_write. apply writes_full_seq. apply writes_seq; [apply writes_named|]. apply writes_seq; [wstep|].
    apply writes_map. intros o Io. specialize (Hs o Io). destruct (N.eqb_spec (o_ver t) 0) as [E|E]; [|wstep].
    rewrite (Hx E), N.add_0_r. unfold w32, w64. rewrite (N.mod_small o 18446744073709551616) by lia. rewrite (N.mod_small o 4294967296) by lia. wstep.
  - unfold saio_read. pnext; [apply parses_full; assumption|]. cbv beta iota.
    pnext; [apply parses_named; [apply w32_lt|assumption]|]. cbv beta iota. pauto.
    eapply parses_bind_last; [|pnext]. rewrite len_nat.
    apply parses_rrep; [|apply w32_lt]. intros x m Ix. specialize (Hs x Ix).
    destruct (o_ver t =? 0); [apply parses_get32|apply parses_get64]; exact Hs.
Qed.

(* ------------------------------------------------------------------ *)
(* histories                                                            *)

Lemma keyb_eq a b : keyb a b = true <-> a = b.
Proof.
  unfold keyb. destruct a as [[a1 a2] a3], b as [[b1 b2] b3]. cbn [fst snd]. split.
  - intros H. apply andb_true_iff in H. destruct H as [H H3]. apply andb_true_iff in H. destruct H as [H1 H2].
    apply N.eqb_eq in H1, H2, H3. subst. reflexivity.
  - intros H. injection H as -> -> ->. rewrite !N.eqb_refl. reflexivity.
Qed.
Definition zkey (s : saiz) : key := (N.land (z_flags s) 1, z_type s, z_param s).
Definition okey (s : saio) : key := (N.land (o_flags s) 1, o_type s, o_param s).
Lemma zmatch_key k s : zmatch k s = keyb (zkey s) k. Proof. destruct k as [[a b] c]. reflexivity. Qed.
Lemma omatch_key k s : omatch k s = keyb (okey s) k. Proof. destruct k as [[a b] c]. reflexivity. Qed.

Lemma last_ix_none {A} (p : A -> bool) : forall l i acc, (forall x, In x l -> p x = false) -> last_ix p l i acc = acc.
Proof.
  induction l as [|x l IH]; intros i acc H; cbn [last_ix]; [reflexivity|].
  rewrite (H x (or_introl eq_refl)). apply IH. intros y Iy. apply H. right. exact Iy.
Qed.
Lemma last_ix_one {A} (p : A -> bool) a x b : p x = true -> (forall y, In y b -> p y = false) ->
  forall i acc, last_ix p (a ++ x :: b) i acc = Some (i + length a)%nat.
Proof.
  intros Hx Hb. induction a as [|y a IH]; intros i acc; cbn [app last_ix length].
  - rewrite Hx, last_ix_none by exact Hb. f_equal. lia.
  - rewrite IH. f_equal. lia.
Qed.
Lemma set_ix_app {A} (a : list A) x b v : set_ix (a ++ x :: b) (length a) v = a ++ v :: b.
Proof. induction a as [|y a IH]; cbn [app length set_ix]; [reflexivity|]. rewrite IH. reflexivity. Qed.
Lemma nth_mid {A} (a : list A) x b : nth_error (a ++ x :: b) (length a) = Some x.
Proof. rewrite nth_error_app2 by lia. rewrite Nat.sub_diag. reflexivity. Qed.

Lemma nth_midm {A B} (f : B -> A) a x b : nth_error (map f a ++ x :: b) (length a) = Some x.
Proof. rewrite <- (map_length f a). apply nth_mid. Qed.
Lemma set_ix_midm {A B} (f : B -> A) a x b v : set_ix (map f a ++ x :: b) (length a) v = map f a ++ v :: b.
Proof. rewrite <- (map_length f a) at 1. apply set_ix_app. Qed.

(* a block of information at its place in the media data *)
Definition held (D : list N) (o : N) (b : list N) : Prop := o + len b <= len D /\ slice D o (len b) = b.
Lemma held_grow D X o b : held D o b -> held (D ++ X) o b.
Proof. intros [H1 H2]. split; [lens; lia|]. rewrite slice_grow by exact H1. exact H2. Qed.

(* a pair of boxes that says what the history says *)
Definition pair_ok (D : list N) (h : infos) (zo : saiz * saio) : Prop :=
  zkey (fst zo) = okey (snd zo) /\
  exists d l, h (zkey (fst zo)) = Some (d, l) /\
    z_def (fst zo) = d /\ z_count (fst zo) = len l /\ d < 256 /\
    (d = 0 -> z_sizes (fst zo) = map (@len N) l) /\ Forall (fun b => len b < 256 /\ (d <> 0 -> len b = d)) l /\
    Forall2 (held D) (o_offs (snd zo)) l.
Definition xinv (t : auxs) (h : xhist) : Prop :=
  exists zs, x_saiz t = map fst zs /\ x_saio t = map snd zs /\ NoDup (map (fun zo => zkey (fst zo)) zs) /\
    Forall (pair_ok (md_data (x_mdat t)) (xh_infos h)) zs /\
    (forall k, xh_infos h k <> None -> In k (map (fun zo => zkey (fst zo)) zs)) /\
    Forall (fun zo => len (o_offs (snd zo)) <= xh_count h) zs /\
    len (md_data (x_mdat t)) = xh_data h.

Lemma aux_find_ok (t : auxs) zs k : x_saiz t = map fst zs -> x_saio t = map snd zs ->
  Forall (fun zo => zkey (fst zo) = okey (snd zo)) zs -> NoDup (map (fun zo => zkey (fst zo)) zs) ->
  (~ In k (map (fun zo => zkey (fst zo)) zs) /\ aux_find t k = Ok (None, None)) \/
  (exists a z o b, zs = a ++ (z, o) :: b /\ zkey z = k /\ aux_find t k = Ok (Some (length a), Some (length a))).
Proof.
  intros Ez Eo Hk Hn.
  assert (F : aux_find t k = Ok (last_ix (zmatch k) (map fst zs) 0 None, last_ix (omatch k) (map snd zs) 0 None)).
  { unfold aux_find. rewrite Ez, Eo, !map_length. destruct (Nat.ltb_spec (length zs) (length zs)); [lia|].
    rewrite firstn_all2 by (rewrite map_length; lia). reflexivity. }
  destruct (in_dec (fun a b : key => ltac:(repeat decide equality)) k (map (fun zo => zkey (fst zo)) zs)) as [I|I].
  - right. apply in_map_iff in I. destruct I as ([z o] & E & I). apply in_split in I. destruct I as (a & b & ->). cbn [fst] in E.
    exists a, z, o, b. split; [reflexivity|]. split; [exact E|]. rewrite F.
    rewrite !map_app. cbn [map fst snd]. rewrite map_app in Hn. cbn [map fst] in Hn. apply NoDup_remove_2 in Hn.
    rewrite Forall_app in Hk. destruct Hk as [_ Hk]. inversion Hk as [|? ? Hz Hb]; subst. cbn [fst snd] in Hz.
    assert (Nb : forall zo, In zo b -> zkey (fst zo) <> zkey z).
    { intros zo Izo Ee. apply Hn. apply in_or_app. right. apply in_map_iff. exists zo. auto. }
    rewrite Forall_forall in Hb.
    rewrite (last_ix_one (zmatch (zkey z)) (map fst a) z (map fst b)).
    + rewrite (last_ix_one (omatch (zkey z)) (map snd a) o (map snd b)).
      * rewrite !map_length. reflexivity.
      * rewrite omatch_key, <- Hz. apply keyb_eq. reflexivity.
      * intros y Iy. apply in_map_iff in Iy. destruct Iy as (zo & <- & Izo). rewrite omatch_key, <- (Hb zo Izo).
        destruct (keyb (zkey (fst zo)) (zkey z)) eqn:Ek; [|reflexivity]. apply keyb_eq in Ek. exfalso. exact (Nb zo Izo Ek).
    + rewrite zmatch_key. apply keyb_eq. reflexivity.
    + intros y Iy. apply in_map_iff in Iy. destruct Iy as (zo & <- & Izo). rewrite zmatch_key.
      destruct (keyb (zkey (fst zo)) (zkey z)) eqn:Ek; [|reflexivity]. apply keyb_eq in Ek. exfalso. exact (Nb zo Izo Ek).
  - left. split; [exact I|]. rewrite F. rewrite Forall_forall in Hk. rewrite !last_ix_none; [reflexivity| |].
    + intros y Iy. apply in_map_iff in Iy. destruct Iy as (zo & <- & Izo). rewrite omatch_key, <- (Hk zo Izo).
      destruct (keyb (zkey (fst zo)) k) eqn:Ek; [|reflexivity]. apply keyb_eq in Ek. exfalso. apply I. apply in_map_iff. exists zo. auto.
    + intros y Iy. apply in_map_iff in Iy. destruct Iy as (zo & <- & Izo). rewrite zmatch_key.
      destruct (keyb (zkey (fst zo)) k) eqn:Ek; [|reflexivity]. apply keyb_eq in Ek. exfalso. apply I. apply in_map_iff. exists zo. auto.
Qed.

Lemma set_key_same f k v : set_key f k v k = Some v.
Proof. unfold set_key. replace (keyb k k) with true by (symmetry; apply keyb_eq; reflexivity). reflexivity. Qed.
Lemma set_key_other f k v q : q <> k -> set_key f k v q = f q.
Proof. intros H. unfold set_key. destruct (keyb q k) eqn:E; [|reflexivity]. apply keyb_eq in E. contradiction. Qed.
Lemma pair_ok_other D h k v zo : zkey (fst zo) <> k -> pair_ok D h zo -> pair_ok D (set_key h k v) zo.
Proof. intros H [A (d & l & B & R)]. split; [exact A|]. exists d, l. rewrite set_key_other by exact H. auto. Qed.
Lemma pair_ok_grow D X h zo : pair_ok D h zo -> pair_ok (D ++ X) h zo.
Proof.
  intros [A (d & l & B & C & E & F & G & H & K)]. split; [exact A|]. exists d, l. repeat (split; [assumption|]).
  clear -K. induction K; constructor; [apply held_grow|]; assumption.
Qed.

Lemma each_size_ok (l : list (list N)) sizes : l <> [] ->
  (sizes = map (@len N) l \/ exists x, sizes = [x] /\ Forall (fun b => len b = x) l) ->
  each_size (len l) sizes = Some (map (@len N) l).
Proof.
  intros Hn [->|(x & -> & H)].
  - destruct l as [|a [|b l]]; [contradiction|reflexivity|]. assert (E : forall q : list (list N), len (map (@len N) q) = len q) by (intros q; unfold len at 1; rewrite map_length; reflexivity).
    specialize (E (a :: b :: l)). cbn [map] in *. unfold each_size. rewrite E, N.eqb_refl. reflexivity.
  - cbn [each_size]. rewrite len_nat. f_equal. clear Hn. induction H as [|b l E H IH]; [reflexivity|]. cbn [length repeat map]. congruence.
Qed.
Lemma running_held : forall l D E t, t = len D -> t + len (concat l) < 18446744073709551616 ->
  exists os t', running t (map (@len N) l) = (os, t') /\ Forall2 (held (D ++ concat l ++ E)) os l.
Proof.
  induction l as [|b l IH]; intros D E t Et Ht; cbn [map running concat] in *.
  - exists [], t. split; [reflexivity|constructor].
  - assert (Q : len (b ++ concat l) = len b + len (concat l)) by (lens; reflexivity). rewrite Q in Ht.
    destruct (IH (D ++ b) E (w64 (t + len b))) as (os & t' & R & F).
    + unfold w64. rewrite N.mod_small by lia. lens. lia.
    + unfold w64. rewrite N.mod_small by lia. lia.
    + rewrite R. exists (t :: os), t'. split; [reflexivity|]. rewrite <- !app_assoc in *. constructor; [|exact F].
      subst t. split; [lens; lia|]. rewrite app_assoc, slice_grow by (lens; lia). apply slice_end.
Qed.

Lemma xstep_ok t h o : xinv t h -> xlegal h o -> exists t', xstep t o = Ok t' /\ xinv t' (xgrow h o).
Proof.
  intros (zs & Ez & Eo & ND & HP & HK & HC & HD) [L Hlim].
  assert (Hkk : Forall (fun zo => zkey (fst zo) = okey (snd zo)) zs) by (eapply Forall_impl; [|exact HP]; intros zo Hzo; exact (proj1 Hzo)).
  destruct o as [k d|k l sizes|b]; cbn [xstep].
  - destruct L as (L1 & L2 & L3). destruct (aux_find_ok t zs k Ez Eo Hkk ND) as [[NI F]|(a & z & o & b & -> & Hz & F)].
    + unfold aux_setup. rewrite F. cbn [bind fst].
      set (z := if fst (fst k) =? 0 then mkSaiz 0 0 0 0 d 0 [] else mkSaiz 0 1 (snd (fst k)) (snd k) d 0 []).
      set (o := if fst (fst k) =? 0 then saio_new else mkSaio 0 1 (snd (fst k)) (snd k) [] 0 0).
      assert (Q : zkey z = k /\ okey o = k /\ z_def z = d /\ z_count z = 0 /\ z_sizes z = [] /\ o_offs o = []).
      { destruct k as [[f ty] pa]. cbn [fst snd] in *. destruct L3 as [->|(-> & -> & ->)]; repeat split. }
      clearbody z o. destruct Q as (Q1 & Q2 & Q3 & Q4 & Q5 & Q6). eexists. split; [reflexivity|].
      exists (zs ++ [(z, o)]). cbn [x_saiz x_saio x_mdat xgrow xh_infos xh_data xh_count]. rewrite Ez, Eo, !map_app. cbn [map fst snd].
      split; [reflexivity|]. split; [reflexivity|]. rewrite Q1. split; [|split; [|split; [|split]]].
      * clear -ND NI. induction (map (fun zo : saiz * saio => zkey (fst zo)) zs) as [|x r IH]; cbn [app]; [constructor; [tauto|constructor]|].
        inversion ND; subst. constructor; [|apply IH; [assumption|intros I; apply NI; right; exact I]].
        intros I. apply in_app_or in I. destruct I as [I|[<-|[]]]; [contradiction|]. apply NI. left. reflexivity.
      * apply Forall_app. split.
        -- rewrite Forall_forall in HP |- *. intros zo Izo. apply pair_ok_other; [|apply HP; exact Izo].
           intros E. apply NI. rewrite <- E. apply in_map_iff. exists zo. auto.
        -- constructor; [|constructor]. split; [cbn [fst snd]; congruence|]. exists d, []. cbn [fst snd]. rewrite Q1, set_key_same.
           split; [reflexivity|]. rewrite Q4, Q5, Q6. repeat split; auto; constructor.
      * intros q Hq. apply in_or_app. destruct (keyb q k) eqn:E; [apply keyb_eq in E; right; left; congruence|].
        left. apply HK. unfold set_key in Hq. rewrite E in Hq. exact Hq.
      * apply Forall_app. split; [exact HC|]. constructor; [|constructor]. cbn [snd]. rewrite Q6. lens. lia.
      * exact HD.
    + exfalso. rewrite Forall_app in HP. destruct HP as [_ HP]. inversion HP as [|? ? [_ (d0 & l0 & H0 & _)] _]; subst. cbn [fst] in H0. congruence.
  - destruct L as (d & l0 & Hk & Hne & Hsz & Hl & Hcnt).
    assert (Hin : In k (map (fun zo => zkey (fst zo)) zs)) by (apply HK; congruence).
    destruct (aux_find_ok t zs k Ez Eo Hkk ND) as [[NI F]|(a & z & o & b & -> & Hz & F)]; [contradiction|].
    assert (Hn0 : (len l =? 0) = false) by (destruct l; [contradiction|]; apply N.eqb_neq; lens; lia).
    unfold aux_add. rewrite Hn0, F, Ez, Eo. rewrite !map_app. cbn [map fst snd].
    rewrite !nth_midm.
    cbn [xgrow] in Hlim. rewrite Hk in Hlim. cbn [xh_data] in Hlim.
    destruct (mdat_add_ok (x_mdat t) (concat l)) as (m & Em & Dm); [lia|]. rewrite Em.
    pose proof (each_size_ok l sizes Hne Hsz) as Es.
    rewrite Forall_app in HP. destruct HP as [HPa HPb]. inversion HPb as [|? ? Hzo HPb']; subst. clear HPb.
    destruct Hzo as [Hzk (d' & l' & Hk' & Hdef & Hcn & Hd256 & Hss & Hall & Hoff)]. cbn [fst snd] in *. rewrite Hk in Hk'. injection Hk' as <- <-.
    rewrite Forall_app in HC. destruct HC as [HCa HCb]. inversion HCb as [|? ? Hco HCb']; subst. clear HCb. cbn [snd] in Hco.
    assert (Lo : len (o_offs o) = len l0) by (eapply Forall2_len; exact Hoff).
    assert (Hz' : exists z', saiz_add z (len l) sizes = Ok z' /\ zkey z' = zkey z /\ z_def z' = z_def z /\ z_count z' = len (l0 ++ l) /\
       (z_def z = 0 -> z_sizes z' = map (@len N) (l0 ++ l))).
    { unfold saiz_add. destruct (N.eqb_spec (z_def z) 0) as [E0|E0].
      - rewrite Es. destruct (N.leb_spec 4294967296 (z_count z + len l)); [lia|]. eexists. split; [reflexivity|].
        cbn [zkey z_flags z_type z_param z_def z_count z_sizes]. repeat split; auto; [lens; lia|]. intros _. rewrite Hss by exact E0. rewrite map_app. f_equal.
        rewrite <- (map_id (map (@len N) l)) at 2. apply map_ext_in. intros x Ix. apply in_map_iff in Ix. destruct Ix as (bb & <- & Ib).
        rewrite Forall_forall in Hl. apply N.mod_small. apply (Hl bb Ib).
      - eexists. split; [reflexivity|]. cbn [zkey z_flags z_type z_param z_def z_count z_sizes].
        repeat split; auto; [|intros; contradiction]. unfold w32. rewrite N.mod_small by lia. lens. lia. }
    destruct Hz' as (z' & Ez' & Zk & Zd & Zc & Zs). rewrite Ez'. unfold saio_add. rewrite Es.
    destruct (N.leb_spec 536870912 (len (o_offs (set_total o (len (md_data (x_mdat t))))) + len l)) as [Hb|_].
    { exfalso. cbn [set_total o_offs] in Hb. lia. }
    cbn [set_total o_total o_offs o_ver o_flags o_type o_param o_extra].
    destruct (running_held l (md_data (x_mdat t)) [] (len (md_data (x_mdat t))) eq_refl) as (os & t' & Er & Fr); [lia|]. rewrite Er.
    eexists. split; [reflexivity|]. rewrite app_nil_r in Fr. rewrite <- Dm in Fr.
    rewrite !set_ix_midm.
    set (o' := mkSaio _ _ _ _ _ _ _). exists (a ++ (z', o') :: b). cbn [x_saiz x_saio x_mdat xgrow]. rewrite Hk. cbn [xh_infos xh_data xh_count].
    rewrite !map_app in *. cbn [map fst snd] in *. split; [reflexivity|]. split; [reflexivity|]. rewrite Zk.
    split; [exact ND|]. split; [|split; [|split]].
    + assert (Nab : forall zo, In zo (a ++ b) -> zkey (fst zo) <> zkey z).
      { intros zo Izo E. apply NoDup_remove_2 in ND. apply ND. rewrite <- E, <- map_app. apply in_map_iff. exists zo. auto. }
      rewrite Forall_forall in HPa, HPb'. rewrite Dm. apply Forall_app. split; [|constructor].
      * apply Forall_forall. intros zo Izo. apply pair_ok_other; [apply Nab; apply in_or_app; auto|]. apply pair_ok_grow. auto.
      * split; [cbn [fst snd]; rewrite Zk; exact Hzk|]. exists (z_def z), (l0 ++ l). cbn [fst snd]. rewrite Zk, set_key_same.
        split; [reflexivity|]. split; [exact Zd|]. split; [exact Zc|]. split; [exact Hd256|]. split; [intros Q; rewrite map_app; exact (Zs Q)|].
        split; [apply Forall_app; split; assumption|]. cbn [o' o_offs]. apply Forall2_app2; [|rewrite Dm in Fr; exact Fr].
        clear -Hoff. induction Hoff; constructor; [apply held_grow|]; assumption.
      * apply Forall_forall. intros zo Izo. apply pair_ok_other; [apply Nab; apply in_or_app; auto|]. apply pair_ok_grow. auto.
    + intros q Hq. destruct (keyb q (zkey z)) eqn:E; [apply keyb_eq in E; subst q; apply in_or_app; right; left; reflexivity|].
      apply HK. unfold set_key in Hq. rewrite E in Hq. exact Hq.
    + apply Forall_app. split; [|constructor].
      * eapply Forall_impl; [|exact HCa]. cbn beta. intros; lia.
      * cbn [snd o' o_offs]. lens. pose proof (Forall2_len _ _ _ Fr). lia.
      * eapply Forall_impl; [|exact HCb']. cbn beta. intros; lia.
    + rewrite Dm. lens. lia.
  - cbn [xgrow xh_data] in Hlim. destruct (mdat_add_ok (x_mdat t) b) as (m & Em & Dm); [lia|]. rewrite Em. cbn [bind]. eexists. split; [reflexivity|].
    exists zs. cbn [x_saiz x_saio x_mdat xgrow xh_infos xh_data xh_count]. rewrite Dm. repeat (split; [assumption|]).
    split; [eapply Forall_impl; [|exact HP]; intros zo; apply pair_ok_grow|]. split; [exact HK|]. split; [exact HC|]. lens. lia.
Qed.
Lemma xsteps_ok : forall os t h, xinv t h -> xall h os -> exists t', xsteps t os = Ok t' /\ xinv t' (fold_left xgrow os h).
Proof.
  induction os as [|o os IH]; intros t h I L; cbn [xsteps fold_left]; [exists t; auto|].
  destruct L as [L1 L2]. destruct (xstep_ok t h o I L1) as (t1 & E1 & I1). rewrite E1. cbn [bind]. apply IH; assumption.
Qed.
Lemma xinv0 : xinv aux0 xhist0.
Proof. exists []. cbn [map aux0 x_saiz x_saio x_mdat xhist0 xh_infos]. repeat split; try constructor. intros k H; congruence. Qed.
Lemma xlimit : forall os h, xall h os -> xh_data h < 4294967296 -> xh_data (fold_left xgrow os h) < 4294967296.
Proof.
  induction os as [|o os IH]; intros h L H; cbn [fold_left]; [exact H|]. destruct L as [[_ L1] L2]. apply IH; assumption.
Qed.
Lemma Forall2_nth_l {A B} (R : A -> B -> Prop) l1 l2 i y : Forall2 R l1 l2 -> nth_error l2 i = Some y ->
  exists x, nth_error l1 i = Some x /\ R x y.
Proof.
  intros H. revert i. induction H as [|a b l1 l2 H1 H2 IH]; intros [|i] E; try discriminate.
  - injection E as <-. exists a. auto.
  - apply IH. exact E.
Qed.
Lemma aux_get_ok t h k n : xinv t h -> xh_data h < 4294967296 ->
  aux_get t k n =
  match xh_infos h k with
  | None => Err MP4BadParamErr
  | Some (d, l) => if len l <? n then Err MP4EOF else if n =? 0 then Err MP4BadParamErr else Ok (nth (N.to_nat (n - 1)) l [])
  end.
Proof.
  intros (zs & Ez & Eo & ND & HP & HK & HC & HD) Hlim.
  assert (Hkk : Forall (fun zo => zkey (fst zo) = okey (snd zo)) zs) by (eapply Forall_impl; [|exact HP]; intros zo Hzo; exact (proj1 Hzo)).
  unfold aux_get. destruct (aux_find_ok t zs k Ez Eo Hkk ND) as [[NI F]|(a & z & o & b & -> & Hz & F)]; rewrite F; cbn [bind].
  - destruct (xh_infos h k) eqn:E; [|reflexivity]. exfalso. apply NI, HK. congruence.
  - rewrite Ez, Eo. rewrite !map_app. cbn [map fst snd].
    rewrite !nth_midm.
    rewrite Forall_app in HP. destruct HP as [_ HP]. inversion HP as [|? ? Hzo _]; subst. clear HP.
    destruct Hzo as [Hzk (d & l & Hk & Hdef & Hcn & Hd256 & Hss & Hall & Hoff)]. cbn [fst snd] in *. rewrite Hk, Hcn.
    destruct (N.ltb_spec (len l) n); [reflexivity|]. destruct (N.eqb_spec n 0); [reflexivity|].
    assert (exists bb, nth_error l (N.to_nat (n - 1)) = Some bb) as [bb Eb].
    { destruct (nth_error l (N.to_nat (n - 1))) eqn:E; [eauto|]. apply nth_error_None in E. unfold len in *. lia. }
    destruct (Forall2_nth_l _ _ _ _ _ Hoff Eb) as (p & Ep & Hp).
    rewrite (nth_error_nth _ _ _ Eb), Ep. rewrite Forall_forall in Hall. pose proof (Hall bb (nth_error_In _ _ Eb)) as [Hb1 Hb2].
    assert (Es : (if z_def z =? 0 then nth_error (z_sizes z) (N.to_nat (n - 1)) else Some (z_def z)) = Some (len bb)).
    { destruct (N.eqb_spec (z_def z) 0) as [E0|E0]; [|f_equal; rewrite Hdef in *; symmetry; apply Hb2; assumption].
      rewrite Hss by congruence. rewrite nth_error_map, Eb. reflexivity. }
    rewrite Es. destruct Hp as [Hp1 Hp2]. destruct (N.ltb_spec 0 (len bb)) as [Hb|Hb].
    + unfold mdat_copy. destruct (N.eqb_spec (len (md_data (x_mdat t))) 0); [lia|].
      unfold w64. rewrite N.mod_small by lia. destruct (N.ltb_spec (len (md_data (x_mdat t))) (p + len bb)); [lia|]. cbn [orb].
      rewrite N.shiftr_div_pow2. change (2 ^ 32) with 4294967296. rewrite N.div_small by lia. change (negb (0 =? 0)) with false. cbv iota. f_equal. exact Hp2.
    + f_equal. destruct bb; [reflexivity|]. revert Hb. lens. lia.
Qed.

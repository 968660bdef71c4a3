(* GroupProofs.v -- sample groups. *)
From Verif Require Import Base Codec BitLemmas AtomModel AtomSpec AtomProofs BoxModel BoxSpec BoxProofs HeaderProofs Reads
  GroupModel GroupSpec.

(* ------------------------------------------------------------------ *)
(* descriptions                                                         *)

Lemma fold_common r : forall d, fold_left (fun d (x : list N) => if len x =? d then d else 0) r d =
  if forallb (fun x => len x =? d) r then d else 0.
Proof.
  induction r as [|x r IH]; intros d; cbn [fold_left forallb]; [reflexivity|].
  destruct (N.eqb_spec (len x) d) as [E|E]; cbn [andb].
  - apply IH.
  - rewrite IH. destruct (forallb _ r); reflexivity.
Qed.
Lemma default_common l : default_length l = common_length l.
Proof. destruct l as [|g r]; cbn [default_length common_length]; [reflexivity|apply fold_common]. Qed.
Lemma common_spec l : common_length l <> 0 -> forall g, In g l -> len g = common_length l.
Proof.
  destruct l as [|g r]; cbn [common_length]; [contradiction|].
  destruct (forallb _ r) eqn:E; [|contradiction]. intros _ x [<-|I]; [reflexivity|].
  rewrite forallb_forall in E. specialize (E x I). lia.
Qed.
Lemma len_concat_in {A} (l : list (list A)) g : In g l -> len g <= len (concat l).
Proof.
  induction l as [|x l IH]; intros []; cbn [concat]; lens; [subst; lia|]. specialize (IH H). lia.
Qed.
Lemma fold_lens (l : list (list N)) : forall n, n + len (concat l) < 4294967296 ->
  fold_left (fun n x => w32 (n + len x)) l n = n + len (concat l).
Proof.
  induction l as [|x l IH]; intros n H; cbn [fold_left concat] in *; lens; [lia|].
  rewrite w32_small by lia. rewrite IH by lia. lia.
Qed.
Lemma len_flat_pre (b : bool) (l : list (list N)) :
  len (flat_map (fun g => (if b then be32 (len g) else []) ++ g) l) = (if b then 4 * len l else 0) + len (concat l).
Proof.
  induction l as [|x l IH]; cbn [flat_map concat]; lens; [destruct b; reflexivity|].
  rewrite IH. destruct b; lens; lia.
Qed.
Lemma sgpd_body_len s : len (l_body sgpd_layout s) =
  16 + (if common_length (sd_groups s) =? 0 then 4 * len (sd_groups s) else 0) + len (concat (sd_groups s)).
Proof. unfold sgpd_layout. cbn [l_body]. lens. rewrite len_flat_pre. lia. Qed.

Lemma len_nat {A} (l : list A) : N.to_nat (len l) = length l.
Proof. unfold len. lia. Qed.
Lemma sgpd_robust : robust sgpd_codec.
Proof. robust_tac sgpd_read. Qed.
Lemma sgpd_exact : exact sgpd_codec sgpd_layout.
Proof.
  split; [intros t _; plain|]. intros t Ht Hl. pose proof (sgpd_body_len t) as L. revert Ht Hl L.
  unfold sgpd_codec, sgpd_layout. cbn [c_size c_w c_rd l_body l_view l_ok c_ty].
  intros (Hf & Hv & Hty & Hd & Hg) Hl L. rewrite L in *. split; [|split].
  - unfold sgpd_size. rewrite default_common. rewrite fold_lens by lia. unfold w32.
    destruct (common_length (sd_groups t) =? 0); lia.
  - unfold sgpd_write. rewrite default_common. destruct (sd_groups t) as [|g0 gr] eqn:Eg; [contradiction|].
    rewrite <- Eg. apply writes_full_seq. repeat (apply writes_seq; [wstep|]).
    apply writes_map. intros g Ig. apply writes_seq; [destruct (common_length (sd_groups t) =? 0); wstep|wstep].
  - unfold sgpd_read. assert (B : len (sd_groups t) < 4294967296 /\ common_length (sd_groups t) < 4294967296).
    { destruct (N.eqb_spec (common_length (sd_groups t)) 0) as [E|E].
      - destruct (sd_groups t); lens; lia.
      - split; [|destruct (sd_groups t) as [|g r] eqn:Eg; [contradiction|]; rewrite <- (common_spec (g :: r) E g) by (left; reflexivity);
          assert (G := len_concat_in (g :: r) g (or_introl eq_refl)); lia].
        assert (G : len (sd_groups t) <= len (concat (sd_groups t))).
        { assert (F : forall g, In g (sd_groups t) -> 1 <= len g) by (intros g Ig; rewrite (common_spec _ E g Ig); lia).
          clear -F. induction (sd_groups t) as [|x l IH]; cbn [concat]; lens; [lia|].
          specialize (F x (or_introl eq_refl)) as F0. assert (IH' : len l <= len (concat l)) by (apply IH; intros; apply F; right; assumption). lia. }
        lia. }
    destruct B as [B1 B2]. rewrite Hv in *.
    pnext; [apply parses_full; assumption|]. cbv beta iota. change (1 <=? 1) with true. change (2 <=? 1) with false. cbv iota.
    pauto. pauto. eapply parses_bind_nil; [reflexivity|]. pauto.
    pnext; [rewrite len_nat; eapply (parses_rrep_map _ _ (fun g => g)); [|apply w32_lt]|].
    2:{ pnext. rewrite map_id. destruct t as [a1 a2 a3 a4 a5]; cbn [sd_ver sd_flags sd_type sd_defidx sd_groups] in *; subst; reflexivity. }
    intros g n Ig. cbv iota. assert (Lg := len_concat_in _ _ Ig).
    destruct (N.eqb_spec (common_length (sd_groups t)) 0) as [E|E].
    + pnext; [apply parses_get32; lia|]. apply parses_take_eq. unfold len. lia.
    + cbn [app]. eapply parses_bind_nil; [reflexivity|]. apply parses_take_eq.
      rewrite <- (common_spec _ E g Ig). unfold len. lia.
Qed.

Lemma eqbl_eq a : forall b, eqbl a b = true <-> a = b.
Proof.
  induction a as [|x a IH]; intros [|y b]; cbn [eqbl]; split; intros H; try discriminate; try reflexivity.
  - apply andb_true_iff in H. destruct H as [H1 H2]. apply IH in H2. f_equal; [lia|assumption].
  - injection H as -> ->. apply andb_true_iff. split; [lia|apply IH; reflexivity].
Qed.
Lemma find_from_some : forall l i d k, find_from i l d = Some k -> i < k /\ nth_error l (N.to_nat (k - i - 1)) = Some d.
Proof.
  induction l as [|g l IH]; intros i d k H; cbn [find_from] in H; [discriminate|].
  destruct (eqbl g d) eqn:E.
  - injection H as <-. apply eqbl_eq in E. subst. split; [lia|]. replace (N.to_nat (i + 1 - i - 1)) with 0%nat by lia. reflexivity.
  - apply IH in H. destruct H as [H1 H2]. split; [lia|].
    replace (N.to_nat (k - i - 1)) with (S (N.to_nat (k - (i + 1) - 1))) by lia. exact H2.
Qed.
Lemma find_from_none : forall l i d, find_from i l d = None <-> ~ In d l.
Proof.
  induction l as [|g l IH]; intros i d; cbn [find_from In]; [tauto|].
  destruct (eqbl g d) eqn:E.
  - apply eqbl_eq in E. split; [discriminate|intros H; exfalso; apply H; left; assumption].
  - rewrite IH. split; [intros H [<-|J]; [|contradiction]|tauto].
    assert (eqbl g g = true) by (apply eqbl_eq; reflexivity). congruence.
Qed.
Lemma sgpd_add_cases s d :
  (d = [] /\ sgpd_add s d = Err MP4BadParamErr) \/
  (In d (sd_groups s) /\ sgpd_add s d = Err MP4BadParamErr) \/
  (d <> [] /\ ~ In d (sd_groups s) /\
   sgpd_add s d = Ok (len (sd_groups s) + 1,
     mkSgpd (sd_ver s) (sd_flags s) (sd_type s) (sd_defidx s) (sd_groups s ++ [d]))).
Proof.
  destruct d as [|x d]; [left; split; reflexivity|]. right. unfold sgpd_add, sgpd_find.
  destruct (find_from 0 (sd_groups s) (x :: d)) as [k|] eqn:E.
  - left. split; [|reflexivity]. apply find_from_some in E. destruct E as [_ E]. eapply nth_error_In. exact E.
  - right. split; [discriminate|]. split; [apply (find_from_none _ 0); exact E|reflexivity].
Qed.

(* ------------------------------------------------------------------ *)
(* the map                                                              *)

Lemma fill_len l i n v : i + n <= len l -> len (fill l i n v) = len l.
Proof.
  intros H. unfold fill. lens. unfold len in *. rewrite firstn_length, skipn_length. lia.
Qed.
Lemma fill_nth l i n v k : i + n <= len l ->
  nth_error (fill l i n v) k = if (i <=? N.of_nat k) && (N.of_nat k <? i + n) then Some v else nth_error l k.
Proof.
  intros H. unfold fill. unfold len in H.
  assert (L1 : length (firstn (N.to_nat i) l) = N.to_nat i) by (rewrite firstn_length; lia).
  destruct (N.leb_spec i (N.of_nat k)); cbn [andb].
  - rewrite nth_error_app2 by lia. rewrite L1.
    destruct (N.ltb_spec (N.of_nat k) (i + n)).
    + rewrite nth_error_app1 by (rewrite repeat_length; lia). apply nth_error_repeat. lia.
    + rewrite nth_error_app2 by (rewrite repeat_length; lia). rewrite repeat_length.
      rewrite <- (firstn_skipn (N.to_nat (i + n)) l) at 2.
      rewrite nth_error_app2 by (rewrite firstn_length; lia). rewrite firstn_length. f_equal. lia.
  - rewrite nth_error_app1 by lia.
    rewrite <- (firstn_skipn (N.to_nat i) l) at 2. rewrite nth_error_app1 by lia. reflexivity.
Qed.
(* a request inside the table is carried out *)
Lemma map_ok s g i n : len (sg_idx s) < 1073741824 -> (-2147483648 < i < 2147483648)%Z ->
  in_table (len (sg_idx s)) i n ->
  exists local isz, sbgp_map s g i n = Ok (mkSbgp (sg_kind s) (sg_ver s) (sg_type s) (sg_param s)
    (fill (sg_idx s) (Z.to_N (first_of (len (sg_idx s)) i)) n g) (sg_frag s) local isz (sg_pp s) (sg_done s)) /\
    local = (sg_local s || (sg_frag s && (65536 <=? g))) /\ isz = N.max (sg_isz s) (field_size g local).
Proof.
  intros Hc Hi [H1 H2]. unfold sbgp_map. unfold first_of in *.
  assert (F0 : n = 0 -> forall f, f <= len (sg_idx s) -> fill (sg_idx s) f n g = sg_idx s).
  { intros -> f Hf. unfold fill. cbn [repeat app]. rewrite N.add_0_r. apply firstn_skipn. }
  destruct (Z.ltb_spec i 0).
  - assert (E1 : u32_of (Z.of_N (len (sg_idx s)) + i) = Z.to_N (Z.of_N (len (sg_idx s)) + i)) by (unfold u32_of; rewrite Z.mod_small; lia).
    assert (E2 : u32_of (- i) = Z.to_N (- i)) by (unfold u32_of; rewrite Z.mod_small; lia).
    rewrite E1, E2. destruct (Z.eqb_spec i (-2147483648)); [lia|].
    destruct (N.ltb_spec (Z.to_N (- i)) n); [lia|].
    destruct (N.eqb_spec n 0) as [En|En]; cbn [negb andb].
    + eexists _, _. split; [|split; reflexivity]. rewrite F0 by lia. reflexivity.
    + destruct (N.ltb_spec (len (sg_idx s)) (Z.to_N (Z.of_N (len (sg_idx s)) + i) + n)); [lia|].
      eexists _, _. split; [|split; reflexivity]. reflexivity.
  - destruct (Z.eqb_spec i (-2147483648)); [lia|].
    rewrite (w32_small (n + Z.to_N i)) by lia.
    destruct (N.ltb_spec (len (sg_idx s)) (n + Z.to_N i)); [lia|].
    destruct (N.eqb_spec n 0) as [En|En]; cbn [negb andb].
    + eexists _, _. split; [|split; reflexivity]. rewrite F0 by lia. reflexivity.
    + destruct (N.ltb_spec (len (sg_idx s)) (Z.to_N i + n)); [lia|].
      eexists _, _. split; [|split; reflexivity]. reflexivity.
Qed.

(* what the table and a history have in common *)
Definition agree (s : sbgp) (h : hist) : Prop :=
  len (sg_idx s) = hs_count h /\ len (sg_idx s) < 1073741824 /\
  forall k, k < hs_count h -> nthN (sg_idx s) k = Some (hs_group h k).
Lemma agree_step s h o : agree s h ->
  match o with
  | GAdd n => hs_count h + n < 1073741824
  | GMap g i n => g < 4294967296 /\ (-2147483648 < i < 2147483648)%Z /\ in_table (hs_count h) i n
  end -> exists s', gstep s o = Ok s' /\ agree s' (hstep h o).
Proof.
  intros (A1 & A2 & A3) H. destruct o as [n|g i n]; cbn [gstep].
  - unfold sbgp_addSamples. destruct (N.eqb_spec n 0) as [En|En].
    + exists s. split; [reflexivity|]. subst n. unfold agree. cbn [hstep hs_count hs_group]. rewrite N.add_0_r. split; [exact A1|]. split; [exact A2|].
      intros k Hk. destruct (N.ltb_spec k (hs_count h)); [apply A3; assumption|lia].
    + destruct (N.leb_spec 1073741824 (len (sg_idx s) + n)); [lia|]. eexists. split; [reflexivity|].
      unfold agree. cbn [hstep hs_count hs_group sg_idx set_idx]. lens. split; [lia|]. split; [lia|].
      intros k Hk. unfold nthN, len in *. destruct (N.ltb_spec k (hs_count h)).
      * rewrite nth_error_app1 by lia. apply A3. assumption.
      * rewrite nth_error_app2 by lia. apply nth_error_repeat. lia.
  - destruct H as (Hg & Hi & Ht). rewrite <- A1 in Ht.
    destruct (map_ok s g i n A2 Hi Ht) as (local & isz & E & _). rewrite E. eexists. split; [reflexivity|].
    destruct Ht as [T1 T2]. unfold agree. cbn [hstep hs_count hs_group sg_idx].
    assert (B : Z.to_N (first_of (len (sg_idx s)) i) + n <= len (sg_idx s)) by lia.
    rewrite fill_len by exact B. split; [exact A1|]. split; [exact A2|].
    intros k Hk. unfold nthN. rewrite fill_nth by exact B. rewrite A1 in *.
    rewrite N2Nat.id. specialize (A3 k Hk). unfold nthN in A3. rewrite A3.
    destruct (N.leb_spec (Z.to_N (first_of (hs_count h) i)) k), (N.ltb_spec k (Z.to_N (first_of (hs_count h) i) + n));
      destruct (Z.leb_spec (first_of (hs_count h) i) (Z.of_N k)), (Z.ltb_spec (Z.of_N k) (first_of (hs_count h) i + Z.of_N n)); cbn [andb]; try reflexivity; lia.
Qed.
Lemma agree_steps : forall os s h, agree s h -> legal h os -> exists s', gsteps s os = Ok s' /\ agree s' (fold_left hstep os h).
Proof.
  induction os as [|o os IH]; intros s h A L; cbn [gsteps fold_left].
  - exists s. auto.
  - destruct L as [L1 L2]. destruct (agree_step s h o A L1) as (s1 & E1 & A1). rewrite E1. cbn [bind]. apply IH; assumption.
Qed.

(* ------------------------------------------------------------------ *)
(* field widths                                                         *)

Definition width (n : N) : Prop := In n [4; 8; 16; 32].
Lemma width_field v b : width (field_size v b).
Proof. unfold field_size, width. destruct b; repeat (destruct (_ <? _); [cbn; tauto|]); cbn; tauto. Qed.
Lemma width_max a b : width a -> width b -> width (N.max a b).
Proof. intros Ha Hb. destruct (N.max_spec a b) as [[_ ->]|[_ ->]]; assumption. Qed.
Lemma field_fits v : v < 4294967296 -> v < 2 ^ field_size v false.
Proof.
  intros H. unfold field_size.
  destruct (N.ltb_spec v 16); [exact H0|]. destruct (N.ltb_spec v 256); [exact H1|].
  destruct (N.ltb_spec v 65536); [exact H2|]. exact H.
Qed.
Lemma pow_mono a b : a <= b -> 2 ^ a <= 2 ^ b.
Proof. intros H. apply N.pow_le_mono_r; [discriminate|exact H]. Qed.
Lemma fits_max v a b : v < 2 ^ a -> v < 2 ^ N.max a b.
Proof. intros H. pose proof (pow_mono a (N.max a b) (N.le_max_l a b)). lia. Qed.

Lemma widths_add s n s' : widths_ok s -> sbgp_addSamples s n = Ok s' -> widths_ok s'.
Proof.
  intros [W1 W2] H. unfold sbgp_addSamples in H. destruct (n =? 0); [injection H as <-; split; assumption|].
  destruct (1073741824 <=? _); [discriminate|]. injection H as <-. split; [exact W1|].
  cbn [set_idx sg_local sg_isz sg_idx sg_frag].
  assert (Z0 : forall m, 0 < m -> Forall (fun g => g < m) (repeat 0 (N.to_nat n))).
  { intros m Hm. apply Forall_forall. intros x Hx. apply repeat_spec in Hx. subst. exact Hm. }
  destruct W2 as [(A & B & C)|(A & B & C & D)]; [left|right].
  - split; [exact A|]. split; [apply Forall_app; split; [exact B|apply Z0; apply N.neq_0_lt_0, N.pow_nonzero; discriminate]|].
    intros F. apply Forall_app; split; [apply C; exact F|apply Z0; lia].
  - repeat split; try assumption. apply Forall_app; split; [exact D|apply Z0; lia].
Qed.
Lemma fill_forall (P : N -> Prop) l i n v : Forall P l -> P v -> Forall P (fill l i n v).
Proof.
  intros H Hv. unfold fill. apply Forall_app. split; [apply Forall_forall; intros x Hx; rewrite Forall_forall in H; apply H; rewrite <- (firstn_skipn (N.to_nat i) l); apply in_or_app; left; exact Hx|].
  apply Forall_app. split; [apply Forall_forall; intros x Hx; apply repeat_spec in Hx; subst; assumption|].
  apply Forall_forall. intros x Hx. rewrite Forall_forall in H. apply H.
  rewrite <- (firstn_skipn (N.to_nat (i + n)) l). apply in_or_app. right. exact Hx.
Qed.
Lemma widths_map s g i n s' : widths_ok s -> g < 4294967296 -> (sg_frag s = true -> g < 65536 + 2147483648) ->
  sbgp_map s g i n = Ok s' -> widths_ok s'.
Proof.
  intros [W1 W2] Hg Hf H. unfold sbgp_map in H.
  destruct (if (i <? 0)%Z then _ else _) as [bad first]. destruct (_ =? -2147483648)%Z; [discriminate|].
  destruct bad; [discriminate|]. destruct (negb (n =? 0) && _); [discriminate|]. injection H as <-.
  set (l' := if n =? 0 then _ else _). assert (FA : forall P : N -> Prop, Forall P (sg_idx s) -> P g -> Forall P l').
  { intros P H1 H2. unfold l'. destruct (n =? 0); [exact H1|apply fill_forall; assumption]. }
  split; cbn [sg_isz sg_local sg_idx sg_frag]; [apply width_max; [exact W1|apply width_field]|].
  assert (M : forall k, Forall (fun x => x < 2 ^ sg_isz s) (sg_idx s) -> Forall (fun x => x < 2 ^ N.max (sg_isz s) k) (sg_idx s)).
  { intros k. apply Forall_impl. intros x Hx. apply fits_max. exact Hx. }
  assert (W32 : N.max (sg_isz s) 32 = 32) by (destruct W1 as [<-|[<-|[<-|[<-|[]]]]]; reflexivity).
  destruct W2 as [(A & B & C)|(A & B & C & D)].
  - rewrite A. cbn [orb]. destruct (sg_frag s) eqn:F; cbn [andb].
    + destruct (N.leb_spec 65536 g) as [G|G].
      * right. repeat split; [unfold field_size| ].
        -- destruct (N.ltb_spec g 8); [lia|]. destruct (N.ltb_spec g 128); [lia|]. destruct (N.ltb_spec g 32768); [lia|]. exact W32.
        -- apply FA; [|apply Hf; reflexivity]. eapply Forall_impl; [|apply C; reflexivity]. cbv beta. intros; lia.
      * left. split; [reflexivity|]. split; [apply FA; [apply M; exact B|rewrite N.max_comm; apply fits_max, field_fits; lia]|].
        intros _. apply FA; [apply C; reflexivity|exact G].
    + left. split; [reflexivity|]. split; [apply FA; [apply M; exact B|rewrite N.max_comm; apply fits_max, field_fits; lia]|discriminate].
  - right. rewrite A, B. cbn [orb]. rewrite C. split; [reflexivity|]. split; [reflexivity|].
    split; [pose proof (width_field g true) as Wg; destruct Wg as [<-|[<-|[<-|[<-|[]]]]]; reflexivity|].
    apply FA; [exact D|apply Hf; exact B].
Qed.

(* ------------------------------------------------------------------ *)
(* runs                                                                 *)

Lemma runs_from_rle : forall l x c, c + len l < 4294967296 ->
  runs_from x c l = match rle l with
                    | (d, v) :: t => if x =? v then (c + d, v) :: t else (c, x) :: (d, v) :: t
                    | [] => [(c, x)] end.
Proof.
  induction l as [|y l IH]; intros x c H; cbn [runs_from rle]; [reflexivity|]. lens.
  rewrite w32_small by lia. rewrite !IH by (lia || (unfold len in *; cbn [length] in *; lia)).
  destruct (N.eqb_spec x y) as [->|E].
  - destruct (rle l) as [|[d v] t]; [rewrite N.eqb_refl; reflexivity|].
    destruct (N.eqb_spec y v) as [->|E].
    + rewrite N.eqb_refl. f_equal. f_equal. lia.
    + rewrite N.eqb_refl. reflexivity.
  - destruct (rle l) as [|[d v] t].
    + destruct (N.eqb_spec x y); [contradiction|reflexivity].
    + destruct (N.eqb_spec y v) as [->|E2].
      * destruct (N.eqb_spec x v); [contradiction|]. rewrite (N.add_comm d 1). reflexivity.
      * destruct (N.eqb_spec x y); [contradiction|reflexivity].
Qed.
Lemma runs_rle l : len l < 4294967296 -> runs l = rle l.
Proof.
  destruct l as [|x l]; intros H; cbn [runs rle]; [reflexivity|]. lens. rewrite runs_from_rle by lia.
  destruct (rle l) as [|[d v] t]; [reflexivity|]. destruct (N.eqb_spec x v) as [->|]; [rewrite N.add_comm|]; reflexivity.
Qed.
Lemma unrle_rle l : unrle (rle l) = l.
Proof.
  induction l as [|x l IH]; cbn [rle]; [reflexivity|]. destruct (rle l) as [|[d v] t].
  - cbn in IH. subst. reflexivity.
  - destruct (N.eqb_spec x v) as [->|E].
    + rewrite <- IH. unfold unrle. cbn [flat_map fst snd].
      replace (N.to_nat (d + 1)) with (S (N.to_nat d)) by lia. reflexivity.
    + rewrite <- IH. unfold unrle. cbn [flat_map fst snd]. change (N.to_nat 1) with 1%nat. reflexivity.
Qed.
Lemma rle_nonempty l : l <> [] -> rle l <> [].
Proof. intros H E. apply H. rewrite <- (unrle_rle l), E. reflexivity. Qed.
Lemma rle_values l : forall r, In r (rle l) -> 1 <= fst r /\ fst r <= len l /\ In (snd r) l.
Proof.
  induction l as [|x l IH]; cbn [rle]; [intros r []|]. lens.
  destruct (rle l) as [|[d v] t].
  - intros r [<-|[]]. cbn. split; [lia|]. split; [lia|left; reflexivity].
  - destruct (N.eqb_spec x v) as [->|E]; intros r.
    + intros [<-|I]; cbn [fst snd].
      * destruct (IH (d, v) (or_introl eq_refl)) as (A & B & C). cbn [fst snd] in *. split; [lia|]. split; [lia|left; reflexivity].
      * destruct (IH r (or_intror I)) as (A & B & C). split; [lia|]. split; [lia|right; exact C].
    + intros [<-|I]; cbn [fst snd].
      * split; [lia|]. split; [lia|left; reflexivity].
      * destruct (IH r I) as (A & B & C). split; [lia|]. split; [lia|right; exact C].
Qed.
Lemma rle_len l : len (rle l) <= len l.
Proof.
  induction l as [|x l IH]; cbn [rle]; lens; [lia|]. destruct (rle l) as [|[d v] t]; lens; [lia|].
  destruct (x =? v); lens; lia.
Qed.
(* no two runs next to each other have the same index *)
Lemma rle_minimal l : forall a r1 r2 b, rle l = a ++ r1 :: r2 :: b -> snd r1 <> snd r2.
Proof.
  induction l as [|x l IH]; intros a r1 r2 b; cbn [rle]; [destruct a; discriminate|].
  destruct (rle l) as [|[d v] t] eqn:E.
  - destruct a as [|? [|]]; discriminate.
  - destruct (N.eqb_spec x v) as [->|Ex].
    + destruct a as [|h a]; cbn [app]; intros H; injection H as <- H.
      * subst t. apply (IH [] (d, v) r2 b). reflexivity.
      * subst t. apply (IH ((d, v) :: a) r1 r2 b). reflexivity.
    + destruct a as [|h a]; cbn [app]; intros H.
      * injection H as <- <- _. exact Ex.
      * injection H as _ H. apply (IH a r1 r2 b). exact H.
Qed.

Lemma parses_read_runs : forall rs acc n, n < 4294967296 ->
  Forall (fun r => fst r < 4294967296 /\ snd r < 4294967296) rs -> len acc + len (unrle rs) < 1073741824 ->
  parses n (read_runs (length rs) acc) (flat_map (fun r => be32 (fst r) ++ be32 (snd r)) rs) (acc ++ unrle rs).
Proof.
  induction rs as [|[c v] rs IH]; intros acc n Hn F H; cbn [length read_runs flat_map fst snd].
  - apply parses_ret_eq; [assumption|]. symmetry; apply app_nil_r.
  - inversion F as [|? ? [F1 F2] F3]; subst. cbn [fst snd] in *. unfold unrle in H. cbn [flat_map fst snd] in H. fold (unrle rs) in H.
    rewrite <- app_assoc. pnext; [apply parses_get32; assumption|]. pnext; [apply parses_get32; assumption|].
    rewrite len_app in H. assert (R : len (repeat v (N.to_nat c)) = c) by (unfold len; rewrite repeat_length; lia).
    destruct (N.leb_spec 1073741824 (len acc + c)); [lia|]. rewrite andb_false_r.
    unfold unrle. cbn [flat_map fst snd]. fold (unrle rs). rewrite app_assoc.
    apply IH; [apply w32_lt|assumption|]. lens. lia.
Qed.
Lemma sbgp_body_len s : len (l_body sbgp_layout s) =
  12 + (if sg_ver s =? 1 then 4 else 0) + 8 * len (rle (sg_idx s)).
Proof.
  unfold sbgp_layout. cbn [l_body]. lens.
  rewrite (len_flat_map_const _ 8) by (intros; lens; reflexivity). destruct (_ =? 1); lens; lia.
Qed.
Lemma sbgp_exact : exact sbgp_codec sbgp_layout.
Proof.
  assert (K : forall t, l_ok sbgp_layout t -> sbgp_kind t = Normal) by (intros t Ht; exact (proj1 Ht)).
  split.
  { intros t Ht. unfold sbgp_codec. cbn [c_ty c_known l_view sbgp_layout l_ty]. rewrite (K t Ht).
    unfold sbgp_kind at 1. cbn [sg_kind]. plain. }
  intros t Ht Hl. pose proof (sbgp_body_len t) as L. specialize (K t Ht). revert Ht Hl L.
  unfold sbgp_codec, sbgp_layout. cbn [c_size c_w c_rd l_body l_view l_ok c_ty]. rewrite K.
  intros (_ & Ha & Hv & Hty & Hp & Hn & Hc & Hf) Hl L. rewrite L in *.
  assert (Rn : len (rle (sg_idx t)) <> 0) by (intros E; apply (rle_nonempty _ Hn); destruct (rle (sg_idx t)); [reflexivity|lens; lia]).
  split; [|split].
  - unfold sbgp_size. rewrite K. unfold normal_size. rewrite runs_rle by lia.
    destruct (sg_kind t); try (rewrite w32_small; destruct (sg_ver t =? 1); lia).
    destruct (N.eqb_spec (sg_ver t) 1); [exfalso; apply Ha; auto|]. rewrite w32_small; lia.
  - unfold sbgp_write. rewrite K. destruct (sg_idx t) as [|x0 xr] eqn:Ex; [contradiction|]. rewrite <- Ex in *.
    rewrite runs_rle by lia. apply writes_full_seq. repeat (apply writes_seq; [try wstep|]).
    + destruct (sg_ver t =? 1); wstep.
    + apply writes_map. intros r Ir. wstep.
  - unfold sbgp_read. cbn [h_type]. pnext; [apply parses_full; split; [lia|reflexivity]|]. cbv beta iota.
    change (1935828848 =? 1935828848) with true. cbv iota.
    pauto. destruct (sg_ver t =? 1).
    + pauto. pauto. rewrite len_nat.
      pnext; [apply parses_read_runs; [apply w32_lt| |]|].
      * apply Forall_forall. intros r Ir. destruct (rle_values _ r Ir) as (A & B & C). rewrite Forall_forall in Hf. specialize (Hf _ C). lia.
      * rewrite unrle_rle. lens. lia.
      * rewrite unrle_rle. cbn [app]. pnext.
    + cbn [app]. eapply parses_bind_nil; [reflexivity|]. pauto. rewrite len_nat.
      pnext; [apply parses_read_runs; [apply w32_lt| |]|].
      * apply Forall_forall. intros r Ir. destruct (rle_values _ r Ir) as (A & B & C). rewrite Forall_forall in Hf. specialize (Hf _ C). lia.
      * rewrite unrle_rle. lens. lia.
      * rewrite unrle_rle. cbn [app]. pnext.
Qed.

(* ------------------------------------------------------------------ *)
(* patterns                                                             *)

Lemma init_groups_id l : init_groups l = l.
Proof.
  destruct l as [|x r]; [reflexivity|]. cbn [init_groups]. revert x.
  induction r as [|y r IH]; intros x; cbn [expand_runs]; [reflexivity|].
  destruct (N.eqb_spec x y) as [<-|E]; rewrite IH; reflexivity.
Qed.
Lemma len_upd {A} (l : list A) i v : len (upd l i v) = len l.
Proof. revert i. induction l as [|x l IH]; intros [|i]; cbn [upd]; lens; try reflexivity. rewrite IH. reflexivity. Qed.
Lemma nth_upd {A} d (l : list A) : forall i v k, nth k (upd l i v) d = if (k =? i)%nat && (k <? length l)%nat then v else nth k l d.
Proof.
  induction l as [|x l IH]; intros i v k; cbn [upd length].
  - rewrite andb_false_r. destruct k; reflexivity.
  - destruct i as [|i], k as [|k]; cbn [nth Nat.eqb andb]; try reflexivity. rewrite IH. reflexivity.
Qed.

Definition good (g : list N) (k : N) (e : trk) : Prop :=
  pt_start e <= k /\ 1 <= pt_len e /\ pt_cnt e = k - pt_start e + 1 /\ pt_prev e = (Z.of_N (pt_start e) - 1)%Z /\
  pt_len e <= pt_cnt e /\
  forall i, pt_start e + pt_len e <= i -> i <= k -> nthN g i = nthN g (i - pt_len e).
Definition good_table (g : list N) (t : list trk) : Prop :=
  len t = len g /\ forall k, k < len g -> good g k (tget t k).

Lemma good_upd g t k e : good_table g t -> (k < len g -> good g k e) -> good_table g (upd t (N.to_nat k) e).
Proof.
  intros [H1 H2] He. split; [rewrite len_upd; exact H1|]. intros j Hj. unfold tget. rewrite nth_upd.
  destruct (Nat.eqb_spec (N.to_nat j) (N.to_nat k)) as [E|E]; cbn [andb].
  - assert (j = k) by lia. subst j. destruct (Nat.ltb_spec (N.to_nat k) (length t)); [apply He; exact Hj|unfold len in *; lia].
  - apply H2. exact Hj.
Qed.
Lemma good_single g k c : good g k (mkTrk k 1 1 c (Z.of_N k - 1)).
Proof. unfold good. cbn [pt_start pt_len pt_cnt pt_prev]. repeat split; try lia. Qed.
Lemma good_init fs g : good_table g (init_trackers fs (length g)).
Proof.
  unfold init_trackers. split; [unfold len; rewrite map_length, seq_length; reflexivity|].
  intros k Hk. unfold tget. unfold len in Hk.
  match goal with |- context [map ?f _] => set (h := f) end.
  rewrite (nth_indep _ trk0 (h 0%nat)) by (rewrite map_length, seq_length; lia). rewrite map_nth.
  rewrite seq_nth by lia. cbn [Nat.add]. unfold h. rewrite N2Nat.id.
  replace (Z.of_nat (N.to_nat k)) with (Z.of_N k) by lia. apply good_single.
Qed.
Lemma good_cost_single fs g t i : good_table g t -> good_table g (cost_single fs t i).
Proof.
  intros H. unfold cost_single. destruct (_ <? _)%Z; [|exact H]. apply good_upd; [exact H|]. intros _. apply good_single.
Qed.
Lemma good_extend fs g p start : 1 <= p -> forall fuel i t, good_table g t -> start + p <= i ->
  (forall j, start + p <= j -> j < i -> nthN g j = nthN g (j - p)) -> good_table g (extend fuel fs g p start i t).
Proof.
  intros Hp. induction fuel as [|fuel IH]; intros i t H Hi P; cbn [extend]; [exact H|].
  destruct (nthN g i) as [a|] eqn:Ea; [|exact H]. destruct (nthN g (i - p)) as [b|] eqn:Eb; [|exact H].
  destruct (N.eqb_spec a b) as [<-|E]; [|exact H].
  assert (P' : forall j, start + p <= j -> j < i + 1 -> nthN g j = nthN g (j - p)).
  { intros j J1 J2. destruct (N.eq_dec j i) as [->|N0]; [congruence|apply P; lia]. }
  apply IH; [|lia|exact P'].
  unfold cost_pattern. destruct (_ <? _)%Z; [|exact H]. apply good_upd; [exact H|]. intros _.
  unfold good. cbn [pt_start pt_len pt_cnt pt_prev]. repeat split; try lia. intros j J1 J2. apply P'; lia.
Qed.
Lemma good_lengths fs g i : forall n p t, 1 <= p -> good_table g t -> good_table g (lengths n p fs g i t).
Proof.
  induction n as [|n IH]; intros p t Hp H; cbn [lengths]; [exact H|].
  destruct (N.ltb_spec i p); [exact H|]. apply IH; [lia|]. apply good_extend; [exact Hp|exact H|lia|]. intros; lia.
Qed.
Lemma good_search fs g : good_table g (search fs g).
Proof.
  unfold search. generalize (map N.of_nat (seq 0 (length g))). pose proof (good_init fs g) as H. revert H.
  generalize (init_trackers fs (length g)). intros t H l. revert t H.
  induction l as [|i l IH]; intros t H; cbn [fold_left]; [exact H|]. apply IH. unfold find_patterns.
  apply good_lengths; [lia|]. apply good_cost_single. exact H.
Qed.

Lemma singles_spec g t : good_table g t -> forall fuel i c j, (-1 <= i)%Z -> singles fuel t i = (c, j) ->
  (j = i - Z.of_N c /\ -1 <= j /\ (c <> 0%N -> i < Z.of_N (len t) /\ pt_start (tget t (Z.to_N i)) = Z.to_N i))%Z.
Proof.
  intros [G1 G2]. induction fuel as [|fuel IH]; intros i c j Hi H; cbn [singles] in H.
  - injection H as <- <-. lia.
  - destruct (Z.leb_spec 0 i), (Z.ltb_spec i (Z.of_N (len t))); cbn [andb] in H;
      try (injection H as <- <-; lia).
    set (e := tget t (Z.to_N i)) in *. assert (Ge : good g (Z.to_N i) e) by (apply G2; lia).
    destruct (N.eqb_spec (pt_len e) 1), (N.eqb_spec (pt_cnt e) 1); cbn [andb] in H; try (injection H as <- <-; lia).
    destruct Ge as (A & B & C & D & E & _).
    destruct (singles fuel t (pt_prev e)) as [c0 j0] eqn:Es. injection H as <- <-.
    apply IH in Es; [|lia]. lia.
Qed.

(* part of the table *)
Definition slice (l : list N) (i n : N) : list N := firstn (N.to_nat n) (skipn (N.to_nat i) l).
Definition seg_ok (g : list N) (x : N * N * N) : Prop :=
  let '(st, p, c) := x in 1 <= p /\ p <= c /\ st + c <= len g /\ slice g st c = repeated (slice g st p) (N.to_nat c).
Lemma len_slice l i n : i + n <= len l -> len (slice l i n) = n.
Proof. intros H. unfold slice, len in *. rewrite firstn_length, skipn_length. lia. Qed.
Lemma nth_slice l i n k : k < n -> nth (N.to_nat k) (slice l i n) 0 = nth (N.to_nat (i + k)) l 0.
Proof.
  intros H. unfold slice. rewrite <- (firstn_skipn (N.to_nat i) l) at 2.
  destruct (Nat.le_gt_cases (length l) (N.to_nat i)) as [L|L].
  - rewrite skipn_all2 by lia. rewrite firstn_nil. rewrite app_nil_r. rewrite firstn_all2 by lia.
    rewrite !nth_overflow by (cbn [length]; lia). reflexivity.
  - rewrite app_nth2 by (rewrite firstn_length; lia). rewrite firstn_length.
    replace (N.to_nat (i + k) - Nat.min (N.to_nat i) (length l))%nat with (N.to_nat k) by lia.
    rewrite <- (firstn_skipn (N.to_nat n) (skipn (N.to_nat i) l)) at 2.
    destruct (Nat.lt_ge_cases (N.to_nat k) (length (firstn (N.to_nat n) (skipn (N.to_nat i) l)))) as [K|K].
    + rewrite app_nth1 by exact K. reflexivity.
    + rewrite nth_overflow by exact K. rewrite firstn_length, skipn_length in K. symmetry.
      rewrite firstn_skipn. apply nth_overflow. rewrite skipn_length. lia.
Qed.
Lemma nth_repeated p c k : (k < c)%nat -> nth k (repeated p c) 0 = nth (Nat.modulo k (length p)) p 0.
Proof.
  intros H. unfold repeated. set (f := fun j => nth (Nat.modulo j (length p)) p 0).
  rewrite (nth_indep _ 0 (f 0%nat)) by (rewrite map_length, seq_length; exact H).
  rewrite map_nth. rewrite seq_nth by exact H. reflexivity.
Qed.
Lemma len_repeated p c : length (repeated p c) = c.
Proof. unfold repeated. rewrite map_length, seq_length. reflexivity. Qed.
Lemma nth_ext0 (l l' : list N) : length l = length l' -> (forall k, (k < length l)%nat -> nth k l 0 = nth k l' 0) -> l = l'.
Proof. intros H1 H2. apply (nth_ext l l' 0 0); assumption. Qed.

Lemma nth_nthN (l : list N) k : k < len l -> nthN l k = Some (nth (N.to_nat k) l 0).
Proof. intros H. unfold nthN. apply nth_error_nth'. unfold len in H. lia. Qed.
Lemma periodic_repeated g st p c : 1 <= p -> p <= c -> st + c <= len g ->
  (forall i, st + p <= i -> i <= st + c - 1 -> nthN g i = nthN g (i - p)) ->
  slice g st c = repeated (slice g st p) (N.to_nat c).
Proof.
  intros Hp Hc Hl P. pose proof (len_slice g st c Hl) as L1. assert (L2 : len (slice g st p) = p) by (apply len_slice; lia).
  apply nth_ext0; [rewrite len_repeated; unfold len in L1; lia|].
  intros k0 Hk. assert (Hk' : (k0 < N.to_nat c)%nat) by (unfold len in L1; lia). rewrite nth_repeated by exact Hk'.
  replace (length (slice g st p)) with (N.to_nat p) by (unfold len in L2; lia).
  clear Hk L1 L2. revert k0 Hk'. apply (well_founded_induction_type Wf_nat.lt_wf (fun k0 => (k0 < N.to_nat c)%nat -> _)).
  intros k0 IH Hk. destruct (Nat.lt_ge_cases k0 (N.to_nat p)) as [K|K].
  - rewrite Nat.mod_small by exact K. rewrite <- (Nat2N.id k0). rewrite !nth_slice by lia. reflexivity.
  - assert (E : nth k0 (slice g st c) 0 = nth (k0 - N.to_nat p) (slice g st c) 0).
    { rewrite <- (Nat2N.id k0). replace (N.to_nat (N.of_nat k0) - N.to_nat p)%nat with (N.to_nat (N.of_nat k0 - p)) by lia.
      rewrite !nth_slice by lia. specialize (P (st + N.of_nat k0)). rewrite !nth_nthN in P by lia.
      assert (Q := P ltac:(lia) ltac:(lia)). injection Q as Q. rewrite Q. f_equal. lia. }
    rewrite E. rewrite IH by lia. f_equal.
    replace k0 with (k0 - N.to_nat p + 1 * N.to_nat p)%nat at 2 by lia. rewrite Nat.mod_add by lia. reflexivity.
Qed.
Lemma slice_app g a b c : a + b + c <= len g -> slice g a b ++ slice g (a + b) c = slice g a (b + c).
Proof.
  intros H. unfold slice. rewrite !N2Nat.inj_add.
  rewrite (Nat.add_comm (N.to_nat a) (N.to_nat b)).
  rewrite <- (firstn_skipn (N.to_nat b) (firstn (N.to_nat b + N.to_nat c) (skipn (N.to_nat a) g))).
  rewrite firstn_firstn, Nat.min_l by lia. f_equal.
  rewrite skipn_firstn_comm. replace (N.to_nat b + N.to_nat c - N.to_nat b)%nat with (N.to_nat c) by lia. f_equal.
  clear. generalize (N.to_nat a) (N.to_nat b). intros x y. revert g.
  induction x as [|x IH]; intros [|h g]; cbn [skipn]; rewrite ?skipn_nil, ?Nat.add_0_r; try reflexivity.
  rewrite Nat.add_succ_r. cbn [skipn]. apply IH.
Qed.
Lemma segments_spec g t : good_table g t -> forall fuel i acc, (-1 <= i < Z.of_N (len g))%Z -> (i < Z.of_nat fuel)%Z ->
  exists l, segments fuel t i acc = l ++ acc /\ Forall (seg_ok g) l /\
    flat_map (fun x => slice g (fst (fst x)) (snd x)) l = slice g 0 (Z.to_N (i + 1)).
Proof.
  intros G. pose proof G as [G1 G2]. induction fuel as [|fuel IH]; intros i acc Hi Hf.
  { exists []. cbn [segments app flat_map]. split; [reflexivity|]. split; [constructor|]. replace (Z.to_N (i + 1)) with 0 by lia. reflexivity. }
  cbn [segments]. destruct (Z.leb_spec 0 i) as [I0|I0].
  2:{ exists []. cbn [andb app flat_map]. split; [reflexivity|]. split; [constructor|]. replace (Z.to_N (i + 1)) with 0 by lia. reflexivity. }
  destruct (Z.ltb_spec i (Z.of_N (len t))); [|lia]. cbn [andb].
  set (e := tget t (Z.to_N i)). assert (Ge : good g (Z.to_N i) e) by (apply G2; lia).
  destruct (singles (length t) t i) as [c j] eqn:Es. apply (singles_spec g t G) in Es; [|lia]. destruct Es as (S1 & S2 & S3).
  destruct (N.eqb_spec c 0) as [C0|C0].
  - destruct Ge as (A & B & C & D & E & P).
    destruct (IH (pt_prev e) ((pt_start e, pt_len e, pt_cnt e) :: acc)) as (l & L1 & L2 & L3); [lia|lia|].
    exists (l ++ [(pt_start e, pt_len e, pt_cnt e)]). split; [rewrite L1, <- app_assoc; reflexivity|]. split.
    + apply Forall_app. split; [exact L2|]. constructor; [|constructor]. unfold seg_ok.
      split; [exact B|]. split; [exact E|]. split; [lia|]. apply periodic_repeated; [exact B|exact E|lia|].
      intros k K1 K2. apply P; lia.
    + rewrite flat_map_app, L3. cbn [flat_map fst snd]. rewrite app_nil_r.
      replace (Z.to_N (pt_prev e + 1)) with (pt_start e) by lia.
      pose proof (slice_app g 0 (pt_start e) (pt_cnt e)) as SA. rewrite N.add_0_l in SA. rewrite SA by lia. f_equal. lia.
  - destruct (S3 C0) as [_ S4]. fold e in S4.
    destruct (IH j ((pt_start e - (c - 1), c, c) :: acc)) as (l & L1 & L2 & L3); [lia|lia|].
    exists (l ++ [(pt_start e - (c - 1), c, c)]). split; [rewrite L1, <- app_assoc; reflexivity|]. split.
    + apply Forall_app. split; [exact L2|]. constructor; [|constructor]. unfold seg_ok.
      split; [lia|]. split; [lia|]. split; [lia|]. apply periodic_repeated; [lia|lia|lia|]. intros; lia.
    + rewrite flat_map_app, L3. cbn [flat_map fst snd]. rewrite app_nil_r.
      replace (Z.to_N (j + 1)) with (pt_start e - (c - 1)) by lia.
      pose proof (slice_app g 0 (pt_start e - (c - 1)) c) as SA. rewrite N.add_0_l in SA. rewrite SA by lia. f_equal. lia.
Qed.
Lemma repeated_map (f : N -> N) p c : p <> [] -> repeated (map f p) c = map f (repeated p c).
Proof.
  intros Hp. unfold repeated. rewrite map_map. apply map_ext. intros j. rewrite map_length.
  assert (Hm : (j mod length p < length p)%nat) by (apply Nat.mod_upper_bound; destruct p; [contradiction|discriminate]).
  rewrite (nth_indep _ 0 (f 0)) by (rewrite map_length; exact Hm). apply map_nth.
Qed.
Lemma spread_segs (f : N -> N) g l : Forall (seg_ok g) l ->
  spread (map (fun x => (snd (fst x), snd x)) l)
    (flat_map (fun x => map f (firstn (N.to_nat (snd (fst x))) (skipn (N.to_nat (fst (fst x))) g))) l) =
  map f (flat_map (fun x => slice g (fst (fst x)) (snd x)) l).
Proof.
  induction 1 as [|[[st p] c] l (A & B & C & D) H IH]; [reflexivity|]. cbn [map flat_map fst snd spread].
  fold (slice g st p). rewrite map_app.
  assert (L : length (map f (slice g st p)) = N.to_nat p).
  { rewrite map_length. pose proof (len_slice g st p) as Q. unfold len in Q. assert (st + p <= len g) by lia. specialize (Q H0). lia. }
  rewrite firstn_app, firstn_all2 by lia. rewrite L, Nat.sub_diag. cbn [firstn]. rewrite app_nil_r.
  rewrite skipn_app, skipn_all2 by lia. rewrite L, Nat.sub_diag. cbn [skipn app]. fold (slice g) in IH.
  unfold slice in IH at 1. rewrite IH. f_equal. rewrite D. apply repeated_map.
  intros E. rewrite map_length, E in L. cbn in L. lia.
Qed.

(* the segments of a table *)
Lemma compact_segs s : exists l, Forall (seg_ok (sg_idx s)) l /\
  ci_pats (compact s) = map (fun x => (snd (fst x), snd x)) l /\
  ci_desc (compact s) = flat_map (fun x => map (stored_index s)
                (firstn (N.to_nat (snd (fst x))) (skipn (N.to_nat (fst (fst x))) (sg_idx s)))) l /\
  flat_map (fun x => slice (sg_idx s) (fst (fst x)) (snd x)) l = sg_idx s.
Proof.
  unfold compact. rewrite init_groups_id. set (g := sg_idx s).
  destruct (segments_spec g (search (sg_isz s) g) (good_search (sg_isz s) g) (length g) (Z.of_N (len g) - 1) []) as (l & L1 & L2 & L3);
    [unfold len; lia|unfold len; lia|]. rewrite app_nil_r in L1. rewrite L1.
  exists l. split; [exact L2|]. split; [|split].
  - destruct (_ mod 8 =? 0); [reflexivity|]. destruct (_ =? 4); reflexivity.
  - destruct (_ mod 8 =? 0); [reflexivity|]. destruct (_ =? 4); reflexivity.
  - rewrite L3. unfold slice. cbn [N.to_nat skipn]. apply firstn_all2. unfold len. lia.
Qed.

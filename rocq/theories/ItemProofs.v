(* ItemProofs.v -- lemmas for C29, C30 and C48. *)
From Verif Require Import Base Codec BitLemmas AtomModel AtomSpec AtomProofs BoxModel BoxSpec BoxProofs Reads HeaderSpec HeaderProofs
  MdatModel SaveSpec TrackModel TrackProofs StreamProofs MediaSpec MediaProofs IlocModel IlocSpec IlocProofs ItemModel ItemSpec.

Lemma put_at_nth {A} (l : list A) k x : forall a, nth_error l k = Some a -> nth_error (put_at l k x) k = Some x.
Proof. revert k. induction l as [|y l IH]; intros [|k] a H; try discriminate; [reflexivity|]. cbn [put_at nth_error] in *. eapply IH, H. Qed.
Lemma put_at_other {A} (l : list A) k x j : j <> k -> nth_error (put_at l k x) j = nth_error l j.
Proof.
  revert k j. induction l as [|y l IH]; intros k j H; [destruct k; reflexivity|]. destruct k, j; try reflexivity; [contradiction|].
  cbn [put_at nth_error]. apply IH. congruence.
Qed.
Lemma put_at_length {A} (l : list A) k x : length (put_at l k x) = length l.
Proof. revert k. induction l as [|y l IH]; intros [|k]; try reflexivity. cbn [put_at length]. rewrite IH. reflexivity. Qed.
Lemma put_at_map {A B} (f : A -> B) (l : list A) k x a : nth_error l k = Some a -> f x = f a -> map f (put_at l k x) = map f l.
Proof.
  revert k. induction l as [|y l IH]; intros [|k] H E; try discriminate; cbn [put_at nth_error map] in *.
  - injection H as ->. rewrite E. reflexivity.
  - rewrite (IH k H E). reflexivity.
Qed.

(* ------------------------------------------------------------------ *)
(* references                                                           *)
Definition first_refs (l : list iref1) (from ty : N) : list N := match find (ref_fits from ty) l with Some r => r_ids r | None => [] end.
Definition refs_ok (l : list iref1) : Prop := Forall (fun r => r_ids r <> [] /\ len (r_ids r) < 65536) l.
Lemma ref_fits_eq f t f' t' : ref_fits f t (mkIref1 t' f' []) = true <-> f' = f /\ t' = t.
Proof. unfold ref_fits. cbn [r_from r_type]. rewrite andb_true_iff, !N.eqb_eq. reflexivity. Qed.
Lemma ref_append_ok l from ty id : first_refs l from ty <> [] -> match ref_append l from ty id with
  | Ok (i, l') => i = len (first_refs l from ty) + 1 /\ i < 65536 /\ first_refs l' from ty = first_refs l from ty ++ [id] /\
      (refs_ok l -> refs_ok l') /\ (forall f t, (f, t) <> (from, ty) -> first_refs l' f t = first_refs l f t)
  | Err _ => False
  | UB => 65535 <= len (first_refs l from ty) end.
Proof.
  induction l as [|r l IH]; intros H; [contradiction|]. cbn [ref_append]. unfold first_refs in *. cbn [find] in *.
  destruct (ref_fits from ty r) eqn:E.
  - destruct (N.leb_spec 65535 (len (r_ids r))); [assumption|]. split; [reflexivity|]. split; [lia|].
    assert (X : ref_fits from ty (mkIref1 (r_type r) (r_from r) (r_ids r ++ [id])) = true) by exact E.
    cbn [find]. rewrite X. split; [reflexivity|]. split.
    + intros F. inversion_clear F as [|? ? (F1 & F2) F3]. constructor; [|exact F3]. cbn [r_ids]. split; [destruct (r_ids r); discriminate|lens; lia].
    + intros f t Ne. unfold ref_fits in *. cbn [r_from r_type]. destruct ((r_from r =? f) && (r_type r =? t)) eqn:X'; [|reflexivity].
      exfalso. apply Ne. apply andb_true_iff in E as [E1 E2], X' as [X1 X2]. apply N.eqb_eq in E1, E2, X1, X2. congruence.
  - specialize (IH H). destruct (ref_append l from ty id) as [[i l']| |]; cbn [bind fst snd]; [|contradiction|exact IH].
    destruct IH as (I1 & I2 & I3 & I4 & I5). split; [exact I1|]. split; [exact I2|]. cbn [find]. rewrite E. split; [exact I3|]. split.
    + intros F. inversion_clear F. constructor; [assumption|apply I4; assumption].
    + intros f t Ne. destruct (ref_fits f t r); [reflexivity|apply I5, Ne].
Qed.
Lemma first_refs_snoc l from ty ids f t : first_refs (l ++ [mkIref1 ty from ids]) f t =
  match find (ref_fits f t) l with Some r => r_ids r | None => if ref_fits f t (mkIref1 ty from ids) then ids else [] end.
Proof.
  unfold first_refs. induction l as [|r l IH]; cbn [app find]; [destruct (ref_fits f t _); reflexivity|].
  destruct (ref_fits f t r); [reflexivity|exact IH].
Qed.
Lemma refs_ok_find l f t : refs_ok l -> first_refs l f t = [] -> find (ref_fits f t) l = None.
Proof.
  intros F H. unfold first_refs in H. destruct (find _ l) as [r|] eqn:E; [|reflexivity]. apply find_some in E as [I _].
  unfold refs_ok in F. rewrite Forall_forall in F. destruct (F r I). contradiction.
Qed.
Lemma first_refs_len l f t : refs_ok l -> len (first_refs l f t) < 65536.
Proof.
  intros F. unfold first_refs. destruct (find _ l) as [r|] eqn:E; [|reflexivity]. apply find_some in E as [I _].
  unfold refs_ok in F. rewrite Forall_forall in F. apply (F r I).
Qed.
Lemma refs_with m l : refs (with_iref m l) = l.
Proof. unfold refs, with_iref. cbn [m_iref]. destruct (m_iref m); reflexivity. Qed.
(* adding one reference: it goes to the end of the list of its kind *)
Lemma add_ref_ok m from ty id : refs_ok (refs m) -> match add_ref m from ty id with
  | Ok (i, m') => i = len (first_refs (refs m) from ty) + 1 /\ i < 65536 /\ first_refs (refs m') from ty = first_refs (refs m) from ty ++ [id] /\
      refs_ok (refs m') /\ (forall f t, (f, t) <> (from, ty) -> first_refs (refs m') f t = first_refs (refs m) f t) /\
      m' = with_iref m (refs m')
  | Err _ => False
  | UB => 65535 <= len (first_refs (refs m) from ty) end.
Proof.
  intros F. unfold add_ref, get_refs. cbv zeta. unfold with_iref at 1. cbn [m_iref bind].
  assert (E : ir_list match m_iref m with Some t => mkIref (ir_ver t) (ir_flags t) (refs m) | None => mkIref 0 0 (refs m) end = refs m)
    by (destruct (m_iref m); reflexivity).
  rewrite E. clear E. fold (first_refs (refs m) from ty).
  destruct (N.eqb_spec (len (first_refs (refs m) from ty)) 0) as [E|E].
  - apply len_0 in E. rewrite E. unfold add_refs. rewrite !refs_with. cbn [app]. split; [reflexivity|]. split; [lia|].
    rewrite first_refs_snoc, (refs_ok_find _ _ _ F E).
    assert (X : ref_fits from ty (mkIref1 ty from [id]) = true) by (unfold ref_fits; cbn [r_from r_type]; rewrite !N.eqb_refl; reflexivity).
    rewrite X. split; [reflexivity|]. split; [|split].
    + apply Forall_app. split; [exact F|]. constructor; [|constructor]. cbn [r_ids]. split; [discriminate|lens; lia].
    + intros f t Ne. rewrite first_refs_snoc. unfold first_refs. destruct (find _ _); [reflexivity|].
      unfold ref_fits. cbn [r_from r_type]. destruct ((from =? f) && (ty =? t)) eqn:Y; [|reflexivity].
      exfalso. apply Ne. apply andb_true_iff in Y as [Y1 Y2]. apply N.eqb_eq in Y1, Y2. congruence.
    + unfold with_iref. cbn [m_next m_iloc m_mdat m_idat m_iref]. f_equal. f_equal. destruct (m_iref m); reflexivity.
  - rewrite refs_with. pose proof (ref_append_ok (refs m) from ty id) as A.
    assert (Ne : first_refs (refs m) from ty <> []) by (intros X; rewrite X in E; apply E; reflexivity). specialize (A Ne).
    destruct (ref_append (refs m) from ty id) as [[i l']| |]; cbn [bind fst snd]; [|exact A|exact A].
    destruct A as (A1 & A2 & A3 & A4 & A5). rewrite refs_with. split; [exact A1|]. split; [exact A2|]. split; [exact A3|]. split; [apply A4, F|].
    split; [exact A5|]. unfold with_iref. cbn [m_next m_iloc m_mdat m_idat m_iref]. f_equal. f_equal. destruct (m_iref m); reflexivity.
Qed.

(* ------------------------------------------------------------------ *)
(* the invariant of a history                                           *)
Definition ext_ok (m : meta) (id : N) (p : piece) (x : extent) : Prop :=
  match p with
  | PMdat d => e_len x = len d /\ e_off x + len d <= len (md_data (m_mdat m)) /\ slice (md_data (m_mdat m)) (e_off x) (len d) = d
  | PIdat d => e_len x = len d /\ e_off x + len d <= len (idata m) /\ slice (idata m) (e_off x) (len d) = d
  | PPart j off n => e_off x = off /\ e_len x = n /\ off < 4294967296 /\ n < 4294967296 /\ 1 <= e_index x < 65536 /\
      exists id', nth_error (ids_of m) j = Some id' /\ nth_error (first_refs (refs m) id T_iloc) (N.to_nat (e_index x - 1)) = Some id'
  end.
Definition method_of (ps : list piece) : N := match ps with PIdat _ :: _ => 1 | PPart _ _ _ :: _ => 2 | _ => 0 end.
Definition item_inv (m : meta) (acc : list iop) (k : nat) (a : item) : Prop :=
  Forall2 (ext_ok m (i_id a)) (additions k acc) (i_exts a) /\ i_method a = method_of (additions k acc) /\ i_id a < 65536 /\
  (exists b, nth_error (created acc) k = Some (b, i_dref a) /\ i_base a = match i_exts a with x :: _ => w64 (b + e_off x) | [] => b end /\ b < 18446744073709551616) /\
  match additions k acc, i_exts a with PMdat _ :: _, x :: _ => e_off x = start k acc /\ i_dref a = 0 | _, _ => True end.
Record iinv (m : meta) (acc : list iop) : Prop := mkInv {
  v_mdat : md_data (m_mdat m) = media acc;
  v_idat : idata m = item_bytes_of acc;
  v_made : m_idat m = None -> forall k d, ~ In (IIdat k d) acc;
  v_count : length (items m) = length (created acc);
  v_items : forall k a, nth_error (items m) k = Some a -> item_inv m acc k a;
  v_none : forall k, (length (items m) <= k)%nat -> additions k acc = [];
  v_refs : refs_ok (refs m);
  v_next : m_next m < 65536
}.
(* what may change without disturbing the extents there are *)
Record grows (m m' : meta) : Prop := mkGrows {
  g_mdat : exists d, md_data (m_mdat m') = md_data (m_mdat m) ++ d;
  g_idat : exists d, idata m' = idata m ++ d;
  g_ids : exists l, ids_of m' = ids_of m ++ l;
  g_refs : forall f, exists l, first_refs (refs m') f T_iloc = first_refs (refs m) f T_iloc ++ l
}.
Lemma nth_error_grow {A} (l r : list A) i x : nth_error l i = Some x -> nth_error (l ++ r) i = Some x.
Proof. intros H. rewrite nth_error_app1; [exact H|]. apply nth_error_Some. congruence. Qed.
Lemma ext_ok_grows m m' id p x : grows m m' -> ext_ok m id p x -> ext_ok m' id p x.
Proof.
  intros [[d1 G1] [d2 G2] [l3 G3] G4]. destruct p as [d|d|j off n]; cbn [ext_ok].
  - intros (H1 & H2 & H3). rewrite G1. split; [exact H1|]. split; [lens; lia|]. rewrite slice_grow by lia. exact H3.
  - intros (H1 & H2 & H3). rewrite G2. split; [exact H1|]. split; [lens; lia|]. rewrite slice_grow by lia. exact H3.
  - intros (H1 & H2 & H3 & H4 & H5 & id' & H6 & H7). repeat (apply conj; [assumption|]). exists id'. destruct (G4 id) as [l4 E4].
    rewrite G3, E4. split; apply nth_error_grow; assumption.
Qed.
Lemma additions_snoc k acc o : additions k (acc ++ [o]) = additions k acc ++ piece_of k o.
Proof. unfold additions. rewrite flat_map_app. cbn [flat_map]. rewrite app_nil_r. reflexivity. Qed.
Lemma created_snoc acc o : created (acc ++ [o]) = created acc ++ match o with INew b d _ => [(b, d)] | _ => [] end.
Proof. unfold created. rewrite flat_map_app. cbn [flat_map]. rewrite app_nil_r. reflexivity. Qed.
Lemma media_snoc acc o : media (acc ++ [o]) = media acc ++ match o with IMdat _ d | IOther d => d | _ => [] end.
Proof. unfold media. rewrite flat_map_app. cbn [flat_map]. rewrite app_nil_r. reflexivity. Qed.
Lemma item_bytes_snoc acc o : item_bytes_of (acc ++ [o]) = item_bytes_of acc ++ match o with IIdat _ d => d | _ => [] end.
Proof. unfold item_bytes_of. rewrite flat_map_app. cbn [flat_map]. rewrite app_nil_r. reflexivity. Qed.
Definition puts_here (k : nat) (o : iop) : bool := match o with IMdat k' _ => Nat.eqb k' k | _ => false end.
Lemma start_found k acc o : existsb (puts_here k) acc = true -> start k (acc ++ [o]) = start k acc.
Proof.
  induction acc as [|p acc IH]; intros H; [discriminate|]. cbn [existsb app start] in *. destruct p; cbn [puts_here] in H; try (apply IH; exact H).
  - destruct (Nat.eqb k0 k); [reflexivity|]. rewrite IH by exact H. reflexivity.
  - rewrite IH by exact H. reflexivity.
Qed.
Lemma start_new k acc d : existsb (puts_here k) acc = false -> start k (acc ++ [IMdat k d]) = len (media acc).
Proof.
  induction acc as [|p acc IH]; intros H; cbn [app start existsb] in *; [rewrite Nat.eqb_refl; reflexivity|].
  destruct p; cbn [puts_here] in H; cbn [media flat_map]; fold (media acc); try (apply IH; exact H); rewrite len_app.
  - apply orb_false_iff in H as [H1 H2]. rewrite H1, IH by exact H2. reflexivity.
  - rewrite IH by exact H. reflexivity.
Qed.
Lemma puts_here_add k acc : existsb (puts_here k) acc = true <-> exists d, In (PMdat d) (additions k acc).
Proof.
  induction acc as [|p acc IH]; cbn [existsb]; [split; [discriminate|intros [d []]]|]. unfold additions. cbn [flat_map]. fold (additions k acc).
  rewrite orb_true_iff, IH. split.
  - intros [H|[d H]]; [|exists d; apply in_or_app; right; exact H]. destruct p; try discriminate. cbn [puts_here] in H. exists d. cbn [piece_of]. rewrite H. left. reflexivity.
  - intros [d H]. apply in_app_or in H as [H|H]; [|right; exists d; exact H]. left. destruct p; cbn [piece_of] in H; try contradiction;
      destruct (Nat.eqb k0 k) eqn:E; cbn [In] in H; try tauto; destruct H as [H|[]]; try discriminate; exact E.
Qed.
(* an item not touched by a call *)
Lemma item_inv_keep m m' acc o k a : grows m m' -> item_inv m acc k a -> piece_of k o = [] -> item_inv m' (acc ++ [o]) k a.
Proof.
  intros G (H1 & H2 & H3 & H4 & H5) E. unfold item_inv. rewrite additions_snoc, E, app_nil_r. split; [|split; [exact H2|split; [exact H3|split]]].
  - clear - G H1. induction H1; constructor; auto. eapply ext_ok_grows; eassumption.
  - destruct H4 as (b & B1 & B2). exists b. split; [|exact B2]. rewrite created_snoc. apply nth_error_grow, B1.
  - destruct (additions k acc) as [|[d|d|j off n] ps] eqn:Ea; try exact I. destruct (i_exts a); [exact I|]. rewrite start_found; [exact H5|].
    apply puts_here_add. exists d. rewrite Ea. left. reflexivity.
Qed.
(* an item given one more extent *)
Definition moded (a : item) (v : N) : item := if len (i_exts a) =? 0 then with_method a v else a.
Lemma item_inv_add m m' acc o k a p x v : grows m m' -> item_inv m acc k a -> piece_of k o = [p] -> ext_ok m' (i_id a) p x ->
  (match p with PMdat _ => v = i_method a | PIdat _ => v = 1 | PPart _ _ _ => v = 2 end) ->
  (match p with PMdat _ => i_dref a = 0 /\ e_off x = len (media acc) /\ exists d, o = IMdat k d | _ => True end) ->
  (match p with PMdat _ => True | PIdat _ => i_exts a <> [] -> i_method a = 1 | PPart _ _ _ => i_exts a <> [] -> i_method a = 2 end) ->
  match o with INew _ _ _ => False | _ => True end -> e_off x < 18446744073709551616 ->
  item_inv m' (acc ++ [o]) k (add_extent (moded a v) x).
Proof.
  intros G (H1 & H2 & H3 & H4 & H5) E X V D MM NN OX.
  pose proof (Forall2_len _ _ _ H1) as L.
  assert (Mi : i_id (moded a v) = i_id a /\ i_dref (moded a v) = i_dref a /\ i_base (moded a v) = i_base a /\ i_exts (moded a v) = i_exts a)
    by (unfold moded; destruct (len (i_exts a) =? 0); repeat split).
  destruct Mi as (Mi1 & Mi2 & Mi3 & Mi4).
  unfold item_inv, add_extent. cbn [i_id i_method i_dref i_base i_exts]. rewrite Mi1, Mi2, Mi3, Mi4. rewrite additions_snoc, E.
  split; [|split; [|split; [exact H3|split]]].
  - apply Forall2_app; [|constructor; [exact X|constructor]]. clear - G H1. induction H1; constructor; auto. eapply ext_ok_grows; eassumption.
  - unfold moded. destruct (N.eqb_spec (len (i_exts a)) 0) as [E0|E0].
    + apply len_0 in E0. rewrite E0 in L. destruct (additions k acc) as [|? ?]; [|discriminate L]. cbn [app method_of with_method i_method].
      cbn [method_of] in H2. destruct p; congruence.
    + destruct (additions k acc) as [|q ps]; [exfalso; apply E0; destruct (i_exts a); [reflexivity|discriminate L]|]. exact H2.
  - destruct H4 as (b & B1 & B2 & B3). exists b. split; [rewrite created_snoc; apply nth_error_grow, B1|]. split; [|exact B3].
    destruct (i_exts a) as [|x0 es]; cbn [app]; [|rewrite len_cons; destruct (N.eqb_spec (1 + len es) 0); [lia|exact B2]].
    rewrite B2. reflexivity.
  - destruct (additions k acc) as [|q ps] eqn:Ea.
    + destruct (i_exts a) as [|]; [|discriminate L]. cbn [app]. destruct p; try exact I. destruct D as (D1 & D2 & d' & ->). rewrite start_new.
      * split; assumption.
      * destruct (existsb (puts_here k) acc) eqn:Y; [|reflexivity]. apply puts_here_add in Y as (d'' & Y). rewrite Ea in Y. destruct Y.
    + destruct (i_exts a) as [|x0 es]; [discriminate L|]. cbn [app]. destruct q; try exact I. rewrite start_found; [exact H5|].
      apply puts_here_add. exists d. rewrite Ea. left. reflexivity.
Qed.
Lemma inv_touch m m' acc o k a a' : iinv m acc -> nth_error (items m) k = Some a -> items m' = put_at (items m) k a' ->
  item_inv m' (acc ++ [o]) k a' -> (forall j, j <> k -> piece_of j o = []) -> (forall b d i, o <> INew b d i) -> grows m m' ->
  md_data (m_mdat m') = media (acc ++ [o]) -> idata m' = item_bytes_of (acc ++ [o]) ->
  (m_idat m' = None -> m_idat m = None /\ forall j d, o <> IIdat j d) -> refs_ok (refs m') -> m_next m' = m_next m -> iinv m' (acc ++ [o]).
Proof.
  intros [V1 V2 V3 V4 V5 V6 V7 V8] Hk Ei Hi Ho Hn G E1 E2 E3 E4 E5.
  assert (C : created (acc ++ [o]) = created acc).
  { rewrite created_snoc. destruct o as [b0 d0 i0| | | | | |]; try apply app_nil_r. exfalso. exact (Hn b0 d0 i0 eq_refl). }
  constructor; try assumption.
  - intros N j d I. destruct (E3 N) as [N1 N2]. apply in_app_or in I as [I|[I|[]]]; [apply (V3 N1 j d I)|apply (N2 j d I)].
  - rewrite Ei, put_at_length, C. exact V4.
  - intros j b Hj. rewrite Ei in Hj. destruct (Nat.eq_dec j k) as [->|Ne].
    + rewrite (put_at_nth _ _ _ _ Hk) in Hj. injection Hj as <-. exact Hi.
    + rewrite put_at_other in Hj by exact Ne. apply (item_inv_keep m); [exact G|apply V5, Hj|apply Ho, Ne].
  - intros j L. rewrite Ei, put_at_length in L. rewrite additions_snoc, V6 by exact L. cbn [app]. apply Ho.
    intros ->. assert (X : nth_error (items m) k <> None) by congruence. apply nth_error_Some in X. lia.
  - rewrite E5. exact V8.
Qed.
Lemma inv_apart m m' acc o : iinv m acc -> items m' = items m -> (forall j, piece_of j o = []) -> (forall b d i, o <> INew b d i) -> grows m m' ->
  md_data (m_mdat m') = media (acc ++ [o]) -> idata m' = item_bytes_of (acc ++ [o]) -> m_idat m' = m_idat m -> refs_ok (refs m') -> m_next m' = m_next m ->
  (forall j d, o <> IIdat j d) -> iinv m' (acc ++ [o]).
Proof.
  intros [V1 V2 V3 V4 V5 V6 V7 V8] Ei Ho Hn G E1 E2 E3 E4 E5 E6.
  assert (C : created (acc ++ [o]) = created acc).
  { rewrite created_snoc. destruct o as [b0 d0 i0| | | | | |]; try apply app_nil_r. exfalso. exact (Hn b0 d0 i0 eq_refl). }
  constructor; try assumption.
  - intros N j d I. rewrite E3 in N. apply in_app_or in I as [I|[I|[]]]; [apply (V3 N j d I)|apply (E6 j d I)].
  - rewrite Ei, C. exact V4.
  - intros j b Hj. rewrite Ei in Hj. apply (item_inv_keep m); [exact G|apply V5, Hj|apply Ho].
  - intros j L. rewrite Ei in L. rewrite additions_snoc, V6 by exact L. cbn [app]. apply Ho.
  - rewrite E5. exact V8.
Qed.
Lemma grows_refl m : grows m m.
Proof. constructor; intros; exists []; rewrite app_nil_r; reflexivity. Qed.
Lemma items_set m k a v : items (set_item m k a v) = put_at (items m) k a.
Proof. unfold items, set_item. cbn [m_iloc]. destruct (m_iloc m); [reflexivity|]. destruct k; reflexivity. Qed.
Lemma ids_set m k a a' v : nth_error (items m) k = Some a -> i_id a' = i_id a -> ids_of (set_item m k a' v) = ids_of m.
Proof. intros H E. unfold ids_of. rewrite items_set. eapply put_at_map; eassumption. Qed.
Lemma id_moded a v x : i_id (add_extent (moded a v) x) = i_id a.
Proof. unfold add_extent, moded. cbn [i_id]. destruct (len (i_exts a) =? 0); reflexivity. Qed.

Lemma mdat_add_data md x : len (md_data md) + len x < 9223372036854775808 -> exists md', mdat_add md x = Ok md' /\ md_data md' = md_data md ++ x.
Proof. apply mdat_add_ok. Qed.
Lemma step_new m acc b d i id m' : iinv m acc -> b < 18446744073709551616 -> id < 65536 -> new_item_with m b d id = Ok m' -> iinv m' (acc ++ [INew b d i]).
Proof.
  intros V Hb Hid E. pose proof V as [V1 V2 V3 V4 V5 V6 V7 V8]. unfold new_item_with in E.
  destruct (request_item_id m id) as [nx| |] eqn:Er; try discriminate. cbn [bind] in E. injection E as E.
  assert (Ei : items m' = items m ++ [mkItem id 0 d b []]) by (rewrite <- E; unfold items; cbn [m_iloc]; destruct (m_iloc m); reflexivity).
  assert (G : grows m m').
  { constructor.
    - exists []. rewrite <- E, app_nil_r. reflexivity.
    - exists []. rewrite <- E, app_nil_r. reflexivity.
    - exists [id]. unfold ids_of. rewrite Ei, map_app. reflexivity.
    - intros f. exists []. rewrite <- E, app_nil_r. reflexivity. }
  assert (Nx : nx < 65536).
  { unfold request_item_id in Er. destruct (id =? 0); [discriminate|]. destruct (m_next m <=? id); [injection Er as <-; unfold w16; lia|].
    destruct (m_iloc m); [injection Er as <-; exact V8|discriminate]. }
  constructor.
  - rewrite media_snoc, app_nil_r, <- E. exact V1.
  - rewrite item_bytes_snoc, app_nil_r, <- E. exact V2.
  - intros N j x I. rewrite <- E in N. apply in_app_or in I as [I|[I|[]]]; [apply (V3 N j x I)|discriminate].
  - rewrite Ei, created_snoc, !app_length, V4. reflexivity.
  - intros k a H. rewrite Ei in H. destruct (Nat.lt_ge_cases k (length (items m))) as [L|L].
    + rewrite nth_error_app1 in H by exact L. apply (item_inv_keep m); [exact G|apply V5, H|reflexivity].
    + rewrite nth_error_app2 in H by exact L. destruct (k - length (items m))%nat as [|q] eqn:Eq; [|destruct q; discriminate].
      injection H as <-. assert (k = length (items m)) as -> by lia.
      unfold item_inv. rewrite additions_snoc, V6 by lia. cbn [app piece_of i_exts i_method i_id i_base i_dref].
      split; [constructor|]. split; [reflexivity|]. split; [exact Hid|]. split; [|exact I]. exists b. rewrite created_snoc, V4, nth_error_app2, Nat.sub_diag by lia.
      split; [reflexivity|]. split; [reflexivity|exact Hb].
  - intros k L. rewrite Ei, app_length in L. cbn [length] in L. rewrite additions_snoc, V6 by lia. reflexivity.
  - rewrite <- E. exact V7.
  - rewrite <- E. exact Nx.
Qed.
Lemma step_ok m acc o m' : iinv m acc -> iop_ok o -> len (media (acc ++ [o])) < 4294967296 -> len (item_bytes_of (acc ++ [o])) < 4294967296 ->
  istep m o = Ok m' -> iinv m' (acc ++ [o]).
Proof.
  intros V O Lm Li E. pose proof V as [V1 V2 V3 V4 V5 V6 V7 V8]. rewrite media_snoc, len_app in Lm. rewrite item_bytes_snoc, len_app in Li.
  destruct o as [b d id|k d|k d|k k' off n|k ty id|k ty ids|d]; cbn [istep] in E.
  - destruct O as (Ob & Od & Oi). destruct id as [id|]; [apply (step_new m acc b d (Some id) id); assumption|].
    unfold new_item in E. apply (step_new m acc b d None (m_next m)); assumption.
  - unfold add_mdat in E. destruct (nth_error (items m) k) as [a|] eqn:Hk; [|discriminate].
    destruct (N.eqb_spec (i_dref a) 0) as [Ed|]; cbn [negb] in E; [|discriminate].
    destruct (mdat_add_data (m_mdat m) d) as (md & Em & Ed'); [rewrite V1; lia|]. rewrite Em in E. cbn [bind] in E. injection E as E.
    remember (mkExtent 0 (len (md_data (m_mdat m))) (w32 (len d))) as x eqn:Ex.
    assert (Ea : add_extent a x = add_extent (moded a (i_method a)) x).
    { unfold moded. destruct (len (i_exts a) =? 0); [|reflexivity]. destruct a. reflexivity. }
    assert (Ei : items m' = put_at (items m) k (add_extent (moded a (i_method a)) x)) by (rewrite <- E, <- Ea; apply items_set).
    assert (G : grows m m').
    { constructor.
      - exists d. rewrite <- E. exact Ed'.
      - exists []. rewrite <- E, app_nil_r. reflexivity.
      - exists []. rewrite app_nil_r. unfold ids_of. rewrite Ei. eapply put_at_map; [exact Hk|apply id_moded].
      - intros f. exists []. rewrite <- E, app_nil_r. reflexivity. }
    assert (Ep : piece_of k (IMdat k d) = [PMdat d]) by (cbn [piece_of]; rewrite Nat.eqb_refl; reflexivity).
    eapply inv_touch; [exact V|exact Hk|exact Ei| | |discriminate|exact G| | | | |]; try (rewrite <- E; reflexivity).
    + eapply item_inv_add with (p := PMdat d); [exact G|apply V5, Hk|exact Ep| |reflexivity| |exact I|exact I|].
      * cbn [ext_ok]. subst x. cbn [e_len e_off]. rewrite <- E. cbn [with_mdat m_mdat]. rewrite Ed', w32_small by exact O.
        split; [reflexivity|]. split; [lens; lia|apply slice_end].
      * split; [exact Ed|]. subst x. cbn [e_off]. rewrite V1. split; [reflexivity|]. exists d. reflexivity.
      * subst x. cbn [e_off]. rewrite V1. lia.
    + intros j Ne. cbn [piece_of]. destruct (Nat.eqb_spec k j); [congruence|reflexivity].
    + rewrite media_snoc, <- E, <- V1. exact Ed'.
    + rewrite item_bytes_snoc, app_nil_r, <- E. exact V2.
    + rewrite <- E. cbn [with_mdat m_idat set_item]. intros N. split; [exact N|discriminate].
    + rewrite <- E. exact V7.
  - unfold add_idat in E. destruct (nth_error (items m) k) as [a|] eqn:Hk; [|discriminate].
    remember (mkExtent 0 (w32 (len (idata m))) (w32 (len d))) as x eqn:Ex.
    assert (E' : exists v1, m' = with_idat (set_item m k (add_extent (moded a 1) x) v1) (idata m ++ d) /\ (i_exts a <> [] -> i_method a = 1)).
    { unfold moded. destruct (N.eqb_spec (len (i_exts a)) 0) as [E0|E0].
      - injection E as <-. exists true. split; [reflexivity|]. intros Ne. apply len_0 in E0. contradiction.
      - destruct (N.eqb_spec (i_method a) 1) as [E1|E1]; cbn [negb] in E; [|discriminate]. injection E as <-. exists false. auto. }
    clear E. destruct E' as (v1 & E & Mm).
    assert (Ei : items m' = put_at (items m) k (add_extent (moded a 1) x)) by (rewrite E; apply items_set).
    assert (Eid : idata m' = idata m ++ d) by (rewrite E; reflexivity).
    assert (G : grows m m').
    { constructor.
      - exists []. rewrite E, app_nil_r. reflexivity.
      - exists d. exact Eid.
      - exists []. rewrite app_nil_r. unfold ids_of. rewrite Ei. eapply put_at_map; [exact Hk|apply id_moded].
      - intros f. exists []. rewrite E, app_nil_r. reflexivity. }
    assert (Ep : piece_of k (IIdat k d) = [PIdat d]) by (cbn [piece_of]; rewrite Nat.eqb_refl; reflexivity).
    eapply inv_touch; [exact V|exact Hk|exact Ei| | |discriminate|exact G| | | | |]; try (rewrite E; reflexivity).
    + eapply item_inv_add with (p := PIdat d); [exact G|apply V5, Hk|exact Ep| |reflexivity|exact I|exact Mm|exact I|].
      * cbn [ext_ok]. subst x. cbn [e_len e_off]. rewrite Eid, !w32_small by (rewrite ?V2; lia || exact O).
        split; [reflexivity|]. split; [lens; lia|apply slice_end].
      * subst x. cbn [e_off]. pose proof (w32_lt (len (idata m))). lia.
    + intros j Ne. cbn [piece_of]. destruct (Nat.eqb_spec k j); [congruence|reflexivity].
    + rewrite media_snoc, app_nil_r, E. exact V1.
    + rewrite item_bytes_snoc, Eid, V2. reflexivity.
    + rewrite E. discriminate.
    + rewrite E. exact V7.
  - unfold add_part in E. destruct (nth_error (items m) k) as [a|] eqn:Hk; [|discriminate]. destruct (nth_error (items m) k') as [a'|] eqn:Hk'; [|discriminate].
    destruct O as (Oo & On). pose proof (add_ref_ok m (i_id a) T_iloc (i_id a') V7) as A.
    destruct (add_ref m (i_id a) T_iloc (i_id a')) as [[ix mr]|e|] eqn:Ar; [|contradiction|].
    2:{ exfalso. cbv zeta in E. cbn [with_method i_id] in E. rewrite Ar in E. cbn [bind] in E. destruct (len (i_exts a) =? 0); [discriminate|]. destruct (negb (i_method a =? 2)); discriminate. }
    destruct A as (A1 & A2 & A3 & A4 & A5 & A6).
    remember (mkExtent ix off n) as x eqn:Ex.
    assert (E' : exists v1, m' = set_item mr k (add_extent (moded a 2) x) v1 /\ (i_exts a <> [] -> i_method a = 2)).
    { cbv zeta in E. cbn [with_method i_id] in E. rewrite Ar in E. cbn [bind fst snd] in E. rewrite <- Ex in E. unfold moded. destruct (N.eqb_spec (len (i_exts a)) 0) as [E0|E0].
      - injection E as <-. exists true. split; [reflexivity|]. intros Ne. apply len_0 in E0. contradiction.
      - destruct (N.eqb_spec (i_method a) 2) as [E1|E1]; cbn [negb] in E; [|discriminate]. injection E as <-. exists false. auto. }
    clear E. destruct E' as (v1 & E & Mm).
    assert (Ir : items mr = items m) by (rewrite A6; reflexivity).
    assert (Ei : items m' = put_at (items m) k (add_extent (moded a 2) x)) by (rewrite E, items_set, Ir; reflexivity).
    assert (Rr : refs m' = refs mr) by (rewrite E; reflexivity).
    assert (Dm : m_mdat m' = m_mdat m /\ m_idat m' = m_idat m /\ m_next m' = m_next m) by (rewrite E, A6; repeat split).
    destruct Dm as (Dm1 & Dm2 & Dm3).
    assert (Did : idata m' = idata m) by (unfold idata; rewrite Dm2; reflexivity).
    assert (Ids : ids_of m' = ids_of m) by (unfold ids_of; rewrite Ei; eapply put_at_map; [exact Hk|apply id_moded]).
    assert (G : grows m m').
    { constructor.
      - exists []. rewrite Dm1, app_nil_r. reflexivity.
      - exists []. rewrite Did, app_nil_r. reflexivity.
      - exists []. rewrite app_nil_r. exact Ids.
      - intros f. rewrite Rr. destruct (N.eq_dec f (i_id a)) as [->|Nf]; [exists [i_id a']; exact A3|]. exists []. rewrite app_nil_r. apply A5. congruence. }
    assert (Ep : piece_of k (IPart k k' off n) = [PPart k' off n]) by (cbn [piece_of]; rewrite Nat.eqb_refl; reflexivity).
    eapply inv_touch; [exact V|exact Hk|exact Ei| | |discriminate|exact G| | | | |exact Dm3].
    + eapply item_inv_add with (p := PPart k' off n); [exact G|apply V5, Hk|exact Ep| |reflexivity|exact I|exact Mm|exact I|].
      * cbn [ext_ok]. subst x. cbn [e_len e_off e_index]. repeat (apply conj; [first [reflexivity|assumption|lia]|]).
        exists (i_id a'). split; [rewrite Ids; unfold ids_of; apply map_nth_error, Hk'|].
        rewrite Rr, A3, nth_error_app2, A1 by (unfold len in *; lia). replace (N.to_nat (len (first_refs (refs m) (i_id a) T_iloc) + 1 - 1) - length (first_refs (refs m) (i_id a) T_iloc))%nat with O by (unfold len; lia). reflexivity.
      * subst x. cbn [e_off]. lia.
    + intros j Ne. cbn [piece_of]. destruct (Nat.eqb_spec k j); [congruence|reflexivity].
    + rewrite media_snoc, app_nil_r, Dm1. exact V1.
    + rewrite item_bytes_snoc, app_nil_r, Did. exact V2.
    + rewrite Dm2. intros N. split; [exact N|discriminate].
    + rewrite Rr. exact A4.
  - destruct (nth_error (items m) k) as [a|] eqn:Hk; [|discriminate]. pose proof (add_ref_ok m (i_id a) ty id V7) as A.
    destruct (add_ref m (i_id a) ty id) as [[ix mr]|e|]; try discriminate. destruct A as (A1 & A2 & A3 & A4 & A5 & A6). cbn [bind snd] in E. injection E as ->.
    apply (inv_apart m); try assumption; try (rewrite A6; reflexivity); try discriminate; try reflexivity.
    + constructor; try (exists []; rewrite A6, app_nil_r; reflexivity). intros f.
      destruct (N.eq_dec f (i_id a)) as [->|Nf]; [destruct (N.eq_dec ty T_iloc) as [->|Nt]; [exists [id]; exact A3|]|]; exists []; rewrite app_nil_r; apply A5; congruence.
    + rewrite media_snoc, app_nil_r, A6. exact V1.
    + rewrite item_bytes_snoc, app_nil_r, A6. exact V2.
  - destruct (nth_error (items m) k) as [a|] eqn:Hk; [|discriminate]. injection E as E. destruct O as (On & Ol).
    assert (Rr : refs m' = refs m ++ [mkIref1 ty (i_id a) ids]) by (rewrite <- E; apply refs_with).
    apply (inv_apart m); try assumption; try (rewrite <- E; reflexivity); try discriminate; try reflexivity.
    + constructor; try (exists []; rewrite <- E, app_nil_r; reflexivity). intros f. rewrite Rr, first_refs_snoc. unfold first_refs.
      destruct (find _ (refs m)); [exists []; rewrite app_nil_r; reflexivity|]. eexists. reflexivity.
    + rewrite media_snoc, app_nil_r, <- E. exact V1.
    + rewrite item_bytes_snoc, app_nil_r, <- E. exact V2.
    + rewrite Rr. apply Forall_app. split; [exact V7|]. constructor; [|constructor]. cbn [r_ids]. auto.
  - destruct (mdat_add_data (m_mdat m) d) as (md & Em & Ed'); [rewrite V1; lia|]. rewrite Em in E. cbn [bind] in E. injection E as E.
    apply (inv_apart m); try assumption; try (rewrite <- E; reflexivity); try discriminate; try reflexivity.
    + constructor; try (exists []; rewrite <- E, app_nil_r; reflexivity); exists d; rewrite <- E; exact Ed'.
    + rewrite media_snoc, <- E, <- V1. exact Ed'.
    + rewrite item_bytes_snoc, app_nil_r, <- E. exact V2.
    + rewrite <- E. exact V7.
Qed.
Lemma inv_new : iinv meta_new [].
Proof.
  constructor; try reflexivity; try (intros; reflexivity).
  - intros _ k d [].
  - intros k a H. destruct k; discriminate.
  - constructor.
Qed.
Lemma run_inv os : forall m acc, irun os = Ok (m, acc) -> Forall iop_ok os ->
  len (media acc) < 4294967296 -> len (item_bytes_of acc) < 4294967296 -> iinv m acc.
Proof.
  induction os as [|o os IH] using rev_ind; intros m acc R F L1 L2.
  - injection R as <- <-. exact inv_new.
  - unfold irun in R. rewrite fold_left_app in R. cbn [fold_left] in R. fold (irun os) in R. apply Forall_app in F as [F1 F2]. inversion_clear F2 as [|? ? Fo _].
    unfold iadd in R. destruct (irun os) as [[m0 acc0]| |]; try discriminate. cbn [bind fst snd] in R.
    destruct (istep m0 o) as [m1|e|] eqn:E; [|injection R as <- <-; apply IH; auto|discriminate].
    injection R as <- <-. apply (step_ok m0); try assumption. apply IH; [reflexivity|exact F1| |].
    + rewrite media_snoc, len_app in L1. lia.
    + rewrite item_bytes_snoc, len_app in L2. lia.
Qed.

(* ------------------------------------------------------------------ *)
(* reading                                                              *)
Lemma shiftr32_small x : x < 4294967296 -> N.shiftr x 32 = 0.
Proof. intros H. rewrite shiftr_div. change (2 ^ 32) with 4294967296. apply N.div_small, H. Qed.
Lemma find_item_ok l : NoDup (map i_id l) -> forall k j id, nth_error (map i_id l) j = Some id -> find_item l k id = Ok (k + j)%nat.
Proof.
  induction l as [|a l IH]; intros D k j id H; [destruct j; discriminate|]. cbn [map] in D. inversion_clear D as [|? ? D1 D2]. cbn [find_item].
  destruct j as [|j]; cbn [map nth_error] in H.
  - injection H as ->. rewrite N.eqb_refl, Nat.add_0_r. reflexivity.
  - destruct (N.eqb_spec (i_id a) id) as [<-|_]; [exfalso; apply D1; eapply nth_error_In, H|]. rewrite (IH D2 (S k) j id H). f_equal. lia.
Qed.
Lemma get_ref_ok m acc from x j id' : iinv m acc -> NoDup (ids_of m) -> 1 <= e_index x < 65536 -> nth_error (ids_of m) j = Some id' ->
  nth_error (first_refs (refs m) from T_iloc) (N.to_nat (e_index x - 1)) = Some id' -> get_ref m from T_iloc (w16 (e_index x)) = Ok j.
Proof.
  intros V D Hx Hj Hr. unfold get_ref, get_refs.
  destruct (m_iref m) as [t|] eqn:Et.
  2:{ exfalso. unfold first_refs, refs in Hr. rewrite Et in Hr. destruct (N.to_nat (e_index x - 1)); discriminate. }
  cbn [bind]. assert (E : ir_list t = refs m) by (unfold refs; rewrite Et; reflexivity). rewrite E. fold (first_refs (refs m) from T_iloc).
  assert (L : (N.to_nat (e_index x - 1) < length (first_refs (refs m) from T_iloc))%nat) by (apply nth_error_Some; congruence).
  rewrite w16_small by lia. destruct (N.ltb_spec (len (first_refs (refs m) from T_iloc)) (e_index x)); [unfold len in *; lia|].
  destruct (N.eqb_spec (e_index x) 0); [lia|]. erewrite (nth_error_nth (first_refs (refs m) from T_iloc)) by exact Hr.
  assert (Hid : id' < 65536).
  { unfold ids_of in Hj. rewrite nth_error_map in Hj. destruct (nth_error (items m) j) as [a|] eqn:Ea; [|discriminate]. injection Hj as <-.
    destruct V as [_ _ _ _ V5 _ _ _]. apply (V5 j a Ea). }
  rewrite w16_small by exact Hid. unfold item_by_id, ids_of, items in *. destruct (m_iloc m); [|destruct j; discriminate].
  apply (find_item_ok _ D 0 j id' Hj).
Qed.
Lemma slice_all d : slice d 0 (len d) = d.
Proof. unfold slice. rewrite to_nat_len. cbn [N.to_nat skipn]. apply firstn_all. Qed.
Section Read.
Variables (m : meta) (acc : list iop) (self : nat -> res (list N)) (val : nat -> option (list N)) (a : item).
Hypotheses (V : iinv m acc) (D : NoDup (ids_of m)) (L1 : len (media acc) < 4294967296) (L2 : len (item_bytes_of acc) < 4294967296)
  (S : forall j w, val j = Some w -> self j = Ok w /\ len w < 4294967296).
Lemma read_idat base got d x : i_method a = 1 -> ext_ok m (i_id a) (PIdat d) x -> d <> [] -> got + len d < 4294967296 ->
  extent_data self m a base got x = Ok d.
Proof.
  intros M (H1 & H2 & H3) Hn Hg. unfold extent_data. rewrite M, H1. change (1 =? 0) with false. change (1 =? 1) with true. cbv iota.
  destruct (N.eqb_spec (len d) 0) as [E|_]; [apply len_0 in E; contradiction|]. rewrite shiftr32_small by lia. change (negb (0 =? 0)) with false. cbv iota. cbn [bind].
  rewrite w32_small by lia. destruct (N.ltb_spec 4294967295 (got + len d)); [lia|]. rewrite (v_idat m acc V) in *.
  unfold idat_copy. rewrite w32_small by lia. rewrite sub32_le by lia. destruct (N.ltb_spec (len (item_bytes_of acc) - e_off x) (len d)); [lia|].
  destruct (N.ltb_spec (len (item_bytes_of acc)) (e_off x + len d)); [lia|]. f_equal. exact H3.
Qed.
Lemma read_mdat got d x : i_method a = 0 -> ext_ok m (i_id a) (PMdat d) x -> d <> [] -> got + len d < 4294967296 ->
  extent_data self m a 0 got x = Ok d.
Proof.
  intros M (H1 & H2 & H3) Hn Hg. unfold extent_data. rewrite M, H1. change (0 =? 0) with true. cbv iota.
  destruct (N.eqb_spec (len d) 0) as [E|E]; [apply len_0 in E; contradiction|]. rewrite shiftr32_small by lia. change (negb (0 =? 0)) with false. cbv iota. cbn [bind].
  rewrite w32_small by lia. destruct (N.ltb_spec 4294967295 (got + len d)); [lia|]. rewrite (v_mdat m acc V) in *.
  unfold mdat_copy. rewrite (v_mdat m acc V). rewrite N.add_0_r, (w64_small (e_off x)) by lia. destruct (N.eqb_spec (len (media acc)) 0); [lia|]. cbn [orb].
  rewrite w64_small by lia. destruct (N.ltb_spec (len (media acc)) (e_off x + len d)); [lia|]. rewrite shiftr32_small by lia. change (negb (0 =? 0)) with false. cbv iota.
  f_equal. exact H3.
Qed.
Lemma read_part base got j off n x d : i_method a = 2 -> ext_ok m (i_id a) (PPart j off n) x -> piece_value val (PPart j off n) = Some d ->
  got + len d < 4294967296 -> extent_data self m a base got x = Ok d.
Proof.
  intros M (H1 & H2 & H3 & H4 & H5 & id' & H6 & H7) Hv Hg. cbn [piece_value] in Hv. destruct (val j) as [w|] eqn:Ew; [|discriminate].
  destruct (S j w Ew) as [Sw Lw].
  unfold extent_data. rewrite M, (get_ref_ok m acc (i_id a) x j id' V D H5 H6 H7), H1, H2. change (2 =? 0) with false. change (2 =? 1) with false. change (2 =? 2) with true.
  cbv iota. cbn [bind]. rewrite Sw. cbn [bind].
  destruct (N.eqb_spec n 0) as [En|En].
  - cbn [andb] in Hv. destruct (N.eqb_spec off 0) as [Eo|Eo].
    + injection Hv as <-. cbn [negb]. cbn [bind]. destruct (N.ltb_spec 4294967295 (got + len w)); [lia|].
      rewrite sub64_exact by lia. rewrite Eo, N.sub_0_r, N.ltb_irrefl. rewrite N.add_0_l, N.ltb_irrefl. f_equal. apply slice_all.
    + destruct (N.ltb_spec 0 n); [lia|]. discriminate.
  - cbn [andb] in Hv. rewrite shiftr32_small by exact H4. change (negb (0 =? 0)) with false. cbv iota. cbn [bind].
    rewrite w32_small by exact H4. destruct (N.ltb_spec 0 n); [|lia]. cbn [andb] in Hv. destruct (N.leb_spec (off + n) (len w)); [|discriminate].
    injection Hv as <-. assert (Ls : len (slice w off n) = n) by (unfold slice, len in *; rewrite firstn_length, skipn_length; lia). rewrite Ls in Hg.
    destruct (N.ltb_spec 4294967295 (got + n)); [lia|]. rewrite sub64_exact by lia. destruct (N.ltb_spec (len w - off) n); [lia|].
    destruct (N.ltb_spec (len w) (off + n)); [lia|]. reflexivity.
Qed.
(* a run of extents of one kind *)
Definition kind (p : piece) : N := match p with PMdat _ => 0 | PIdat _ => 1 | PPart _ _ _ => 2 end.
Lemma read_extents ps es : Forall2 (ext_ok m (i_id a)) ps es -> Forall (fun p => kind p = i_method a) ps ->
  forall base first got d, join (map (piece_value val) ps) = Some d -> len (got ++ d) < 4294967296 ->
  (i_method a = 0 -> base = 0 /\ (first = true -> match es with x :: _ => e_off x = 0 | [] => True end)) ->
  exists b, extents_data self m a base first got es = Ok (got ++ d, b).
Proof.
  induction 1 as [|p x ps es Hx _ IH]; intros K base first got d J L B.
  - injection J as <-. exists base. cbn [extents_data]. rewrite app_nil_r. reflexivity.
  - cbn [map join] in J. destruct (piece_value val p) as [d1|] eqn:Ep; [|discriminate]. destruct (join (map (piece_value val) ps)) as [d2|] eqn:Ej; [|discriminate].
    injection J as <-. inversion_clear K as [|? ? Kp Kps]. rewrite app_assoc in L.
    assert (L' : len got + len d1 < 4294967296) by (rewrite !len_app in L; lia).
    assert (X : extent_data self m a base (len got) x = Ok d1).
    { destruct p as [e|e|j off n]; cbn [kind] in Kp.
      - destruct (B (eq_sym Kp)) as [-> _]. cbn [piece_value nonempty] in Ep. destruct e; [discriminate|]. injection Ep as <-.
        apply read_mdat; [symmetry; exact Kp|exact Hx|discriminate|exact L'].
      - cbn [piece_value nonempty] in Ep. destruct e; [discriminate|]. injection Ep as <-. apply read_idat; [symmetry; exact Kp|exact Hx|discriminate|exact L'].
      - apply (read_part base (len got) j off n); [symmetry; exact Kp|exact Hx|exact Ep|exact L']. }
    cbn [extents_data]. rewrite X. cbn [bind]. rewrite app_assoc. apply IH; [exact Kps|reflexivity|exact L|].
    intros M0. destruct (B M0) as [-> B2]. split; [|discriminate]. destruct first; [|reflexivity]. rewrite (B2 eq_refl). reflexivity.
Qed.
End Read.

Lemma kinds_all ps f v : (forall p, f p = true -> kind p = v) -> forallb f ps = true -> Forall (fun p => kind p = v) ps.
Proof. intros H F. rewrite forallb_forall in F. apply Forall_forall. intros p I. apply H, F, I. Qed.
Lemma value_read m acc : iinv m acc -> NoDup (ids_of m) -> len (media acc) < 4294967296 -> len (item_bytes_of acc) < 4294967296 ->
  forall n k d, value n acc k = Some d -> item_data n m k = Ok d /\ len d < 4294967296.
Proof.
  intros V D L1 L2. induction n as [|n IH]; intros k d H; [discriminate|]. cbn [value] in H. cbv zeta in H.
  remember (match additions k acc with PIdat _ :: _ => _ | _ => _ end) as c eqn:Ec. destruct c; [|discriminate]. symmetry in Ec.
  unfold small in H. destruct (join (map (piece_value (value n acc)) (additions k acc))) as [d'|] eqn:J; [|discriminate].
  destruct (N.ltb_spec (len d') 4294967296) as [Ld|]; [|discriminate]. injection H as ->. split; [|exact Ld].
  unfold item_data. cbn [get_data].
  destruct (nth_error (items m) k) as [a|] eqn:Hk.
  2:{ exfalso. apply nth_error_None in Hk. rewrite (v_none m acc V k Hk) in Ec. rewrite (v_count m acc V) in Hk. apply nth_error_None in Hk. rewrite Hk in Ec. discriminate. }
  destruct (v_items m acc V k a Hk) as (I1 & I2 & I3 & (b & I4 & I4' & I4'') & I5).
  assert (R : forall base first, Forall (fun p => kind p = i_method a) (additions k acc) ->
    (i_method a = 0 -> base = 0 /\ (first = true -> match i_exts a with x :: _ => e_off x = 0 | [] => True end)) ->
    exists b', extents_data (fun k' => do p <- get_data n m k'; Ok (fst p)) m a base first [] (i_exts a) = Ok (d, b')).
  { intros base first K B.
    destruct (read_extents m acc (fun k' => item_data n m k') (value n acc) a V D L1 L2 (fun j w h => IH j w h) _ _ I1 K base first [] d J Ld B) as [b' E'].
    exists b'. exact E'. }
  assert (G : i_method a = 0 -> i_dref a = 0 -> (do p <- (if (i_method a =? 0) && negb (i_dref a =? 0) then Err MP4InvalidMediaErr
     else if (i_method a =? 1) && match m_idat m with Some _ => false | None => true end then Err MP4BadDataErr
     else extents_data (fun k' => do p <- get_data n m k'; Ok (fst p)) m a (i_base a) true [] (i_exts a)); Ok (fst p)) =
     do p <- extents_data (fun k' => do p <- get_data n m k'; Ok (fst p)) m a (i_base a) true [] (i_exts a); Ok (fst p)).
  { intros -> ->. reflexivity. }
  destruct (additions k acc) as [|p ps] eqn:Ea.
  - cbn [method_of] in I2. rewrite I4 in Ec. inversion I1 as [E1 E2|]. rewrite <- E2 in *. injection J as <-.
    destruct (i_dref a); [|destruct b; discriminate]. rewrite G by (assumption || reflexivity). reflexivity.
  - destruct p as [e|e|j off nn]; cbn [method_of] in I2.
    + rewrite I4 in Ec. apply andb_true_iff in Ec as [Ec Ef]. apply andb_true_iff in Ec as [Ec Es]. apply N.eqb_eq in Es.
      destruct (i_exts a) as [|x es] eqn:Ex; [inversion I1|]. destruct I5 as [I5 I6].
      assert (b = 0) as -> by (destruct b; [reflexivity|discriminate]).
      rewrite I5, Es in I4'. change (w64 (0 + 0)) with 0 in I4'. rewrite G by assumption.
      destruct (R (i_base a) true) as [b' ->].
      * rewrite I2. apply (kinds_all _ is_mdat); [intros [] ?; try discriminate; reflexivity|exact Ec].
      * intros _. split; [exact I4'|]. intros _. lia.
      * reflexivity.
    + rewrite I2. change (1 =? 0) with false. change (1 =? 1) with true. cbn [andb].
      assert (M : m_idat m <> None).
      { intros N. apply (v_made m acc V N k e). assert (I : In (PIdat e) (additions k acc)) by (rewrite Ea; left; reflexivity).
        unfold additions in I. apply in_flat_map in I as (o & Io & I). destruct o; cbn [piece_of] in I; try contradiction;
        match type of I with context [Nat.eqb ?u ?w] => destruct (Nat.eqb_spec u w) as [->|]; [|destruct I] end; destruct I as [I|[]]; try discriminate. injection I as ->. exact Io. }
      destruct (m_idat m); [|contradiction]. destruct (R (i_base a) true) as [b' ->].
      * rewrite I2. apply (kinds_all _ is_idat); [intros [] ?; try discriminate; reflexivity|exact Ec].
      * rewrite I2. discriminate.
      * reflexivity.
    + rewrite I2. change (2 =? 0) with false. change (2 =? 1) with false. cbn [andb]. destruct (R (i_base a) true) as [b' ->].
      * rewrite I2. apply (kinds_all _ is_part); [intros [] ?; try discriminate; reflexivity|exact Ec].
      * rewrite I2. discriminate.
      * reflexivity.
Qed.
Lemma piece_value_more v v' p d : (forall k d, v k = Some d -> v' k = Some d) -> piece_value v p = Some d -> piece_value v' p = Some d.
Proof. intros H. destruct p as [e|e|k off n]; cbn [piece_value]; auto. destruct (v k) as [w|] eqn:E; [|discriminate]. rewrite (H k w E). auto. Qed.
Lemma join_more v v' ps : (forall k d, v k = Some d -> v' k = Some d) -> forall d, join (map (piece_value v) ps) = Some d -> join (map (piece_value v') ps) = Some d.
Proof.
  intros H. induction ps as [|p ps IH]; intros d J; [exact J|]. cbn [map join] in *. destruct (piece_value v p) as [d1|] eqn:E; [|discriminate].
  rewrite (piece_value_more _ _ _ _ H E). destruct (join (map (piece_value v) ps)) as [d2|]; [|discriminate]. rewrite (IH d2 eq_refl). exact J.
Qed.
Lemma value_more acc : forall n k d, value n acc k = Some d -> value (S n) acc k = Some d.
Proof.
  induction n as [|n IH]; intros k d H; [discriminate|]. remember (S n) as n1 eqn:E1. rewrite E1 in H. cbn [value] in H |- *. cbv zeta in *.
  remember (match additions k acc with PIdat _ :: _ => _ | _ => _ end) as c eqn:Ec. destruct c; [|discriminate].
  unfold small in *. destruct (join (map (piece_value (value n acc)) (additions k acc))) as [e|] eqn:J; [|discriminate].
  rewrite (join_more _ _ _ IH e J). exact H.
Qed.
Lemma value_mono acc n n' k d : (n <= n')%nat -> value n acc k = Some d -> value n' acc k = Some d.
Proof. induction 1; [auto|]. intros H'. apply value_more, IHle, H'. Qed.

(* the bytes of one kind of pieces are among all bytes of that kind *)
Definition piece_len (f : piece -> bool) (p : piece) : N := match p with PMdat d | PIdat d => if f p then len d else 0 | _ => 0 end.
Definition pieces_len f ps := fold_right (fun p s => piece_len f p + s) 0 ps.
Lemma pieces_len_app f a b : pieces_len f (a ++ b) = pieces_len f a + pieces_len f b.
Proof. unfold pieces_len. induction a as [|p a IH]; cbn [app fold_right]; [lia|]. rewrite IH. lia. Qed.
Lemma idat_total k acc : pieces_len is_idat (additions k acc) <= len (item_bytes_of acc).
Proof.
  induction acc as [|o acc IH]; [reflexivity|]. unfold additions, item_bytes_of in *. cbn [flat_map]. rewrite pieces_len_app, len_app.
  assert (pieces_len is_idat (piece_of k o) <= len match o with IIdat _ d => d | _ => [] end); [|lia].
  unfold pieces_len. destruct o; cbn [piece_of fold_right]; try (destruct (Nat.eqb _ _)); cbn [fold_right piece_len is_idat]; lens; lia.
Qed.
Lemma mdat_total k acc : pieces_len is_mdat (additions k acc) <= len (media acc).
Proof.
  induction acc as [|o acc IH]; [reflexivity|]. unfold additions, media in *. cbn [flat_map]. rewrite pieces_len_app, len_app.
  assert (pieces_len is_mdat (piece_of k o) <= len match o with IMdat _ d | IOther d => d | _ => [] end); [|lia].
  unfold pieces_len. destruct o; cbn [piece_of fold_right]; try (destruct (Nat.eqb _ _)); cbn [fold_right piece_len is_mdat]; lens; lia.
Qed.
Lemma concat_idat ds : pieces_len is_idat (map PIdat ds) = len (concat ds).
Proof. unfold pieces_len. induction ds as [|d ds IH]; cbn [map fold_right piece_len is_idat concat]; [reflexivity|]. rewrite IH. lens. lia. Qed.
Lemma concat_mdat ds : pieces_len is_mdat (map PMdat ds) = len (concat ds).
Proof. unfold pieces_len. induction ds as [|d ds IH]; cbn [map fold_right piece_len is_mdat concat]; [reflexivity|]. rewrite IH. lens. lia. Qed.
Lemma join_idat v ds : Forall (fun d => d <> []) ds -> join (map (piece_value v) (map PIdat ds)) = Some (concat ds).
Proof. induction 1 as [|d ds H _ IH]; [reflexivity|]. cbn [map join concat piece_value]. rewrite IH. destruct d; [contradiction|]. reflexivity. Qed.
Lemma join_mdat v ds : Forall (fun d => d <> []) ds -> join (map (piece_value v) (map PMdat ds)) = Some (concat ds).
Proof. induction 1 as [|d ds H _ IH]; [reflexivity|]. cbn [map join concat piece_value]. rewrite IH. destruct d; [contradiction|]. reflexivity. Qed.

(* ------------------------------------------------------------------ *)
(* ids                                                                  *)
Definition ids_sound (m : meta) : Prop := NoDup (ids_of m) /\ Forall (fun i => i < m_next m) (ids_of m) /\ 1 <= m_next m < 65536.
Lemma step_ids m o m' : istep m o = Ok m' ->
  match o with
  | INew b d i => exists id, (match i with Some x => id = x | None => id = m_next m end) /\ ids_of m' = ids_of m ++ [id] /\ id <> 0 /\
      ((m_next m <= id /\ m_next m' = w16 (id + 1)) \/ (id < m_next m /\ m_next m' = m_next m))
  | _ => ids_of m' = ids_of m /\ m_next m' = m_next m
  end.
Proof.
  intros E. destruct o as [b d i|k d|k d|k k' off n|k ty id|k ty ids|d]; cbn [istep] in E.
  - assert (H : forall id, new_item_with m b d id = Ok m' -> ids_of m' = ids_of m ++ [id] /\ id <> 0 /\
      ((m_next m <= id /\ m_next m' = w16 (id + 1)) \/ (id < m_next m /\ m_next m' = m_next m))).
    { intros id X. unfold new_item_with, request_item_id in X. destruct (N.eqb_spec id 0); [discriminate|].
      assert (Y : forall nx, ids_of (mkMeta nx (Some (mkIloc (il_ver (match m_iloc m with Some t => t | None => iloc_new end)) (il_flags (match m_iloc m with Some t => t | None => iloc_new end))
        (il_items (match m_iloc m with Some t => t | None => iloc_new end) ++ [mkItem id 0 d b []]))) (m_mdat m) (m_idat m) (m_iref m)) = ids_of m ++ [id]).
      { intros nx. unfold ids_of, items. cbn [m_iloc il_items]. destruct (m_iloc m); rewrite map_app; reflexivity. }
      destruct (N.leb_spec (m_next m) id) as [L|L]; cbn [bind] in X.
      - injection X as <-. split; [apply Y|]. split; [assumption|]. left. split; [exact L|reflexivity].
      - destruct (m_iloc m) as [t|] eqn:Et; [|discriminate]. injection X as <-. split; [|split; [assumption|right; split; [exact L|reflexivity]]].
        unfold ids_of, items. rewrite Et. cbn [m_iloc il_items]. rewrite map_app. reflexivity. }
    destruct i as [id|]; [exists id; split; [reflexivity|apply H, E]|]. unfold new_item in E. exists (m_next m). split; [reflexivity|apply H, E].
  - unfold add_mdat in E. destruct (nth_error (items m) k) as [a|] eqn:Hk; [|discriminate]. destruct (negb _); [discriminate|].
    destruct (mdat_add (m_mdat m) d); try discriminate. cbn [bind] in E. injection E as <-. split; [|reflexivity].
    unfold ids_of. change (items (with_mdat ?x ?y)) with (items x). rewrite items_set. eapply put_at_map; [exact Hk|reflexivity].
  - unfold add_idat in E. destruct (nth_error (items m) k) as [a|] eqn:Hk; [|discriminate]. destruct (len (i_exts a) =? 0); [|destruct (negb _); [discriminate|]]; injection E as <-;
      (split; [|reflexivity]); unfold ids_of; change (items (with_idat ?x ?y)) with (items x); rewrite items_set; (eapply put_at_map; [exact Hk|reflexivity]).
  - unfold add_part in E. destruct (nth_error (items m) k) as [a|] eqn:Hk; [|discriminate]. destruct (nth_error (items m) k') as [a'|]; [|discriminate].
    assert (R : forall f t i p, add_ref m f t i = Ok p -> items (snd p) = items m /\ m_next (snd p) = m_next m).
    { intros f t i p X. unfold add_ref in X. cbv zeta in X. destruct (get_refs _ f t) as [l| |]; try discriminate. cbn [bind] in X.
      destruct (len l =? 0); [injection X as <-; split; reflexivity|]. destruct (ref_append _ f t i); try discriminate. injection X as <-. split; reflexivity. }
    cbv zeta in E. cbn [with_method i_id] in E. destruct (add_ref m (i_id a) T_iloc (i_id a')) as [p| |] eqn:Ar; cbn [bind] in E.
    + destruct (R _ _ _ _ Ar) as [R1 R2]. destruct (len (i_exts a) =? 0); [|destruct (negb _); [discriminate|]]; injection E as <-;
      (split; [|exact R2]); unfold ids_of; rewrite items_set, R1; (eapply put_at_map; [exact Hk|reflexivity]).
    + destruct (len (i_exts a) =? 0); [discriminate|destruct (negb _); discriminate].
    + destruct (len (i_exts a) =? 0); [discriminate|destruct (negb _); discriminate].
  - destruct (nth_error (items m) k) as [a|]; [|discriminate]. unfold add_ref in E. cbv zeta in E. destruct (get_refs _ (i_id a) ty) as [l| |]; try discriminate. cbn [bind] in E.
    destruct (len l =? 0); [injection E as <-; split; reflexivity|]. destruct (ref_append _ (i_id a) ty id); try discriminate. injection E as <-. split; reflexivity.
  - destruct (nth_error (items m) k) as [a|]; [|discriminate]. injection E as <-. split; reflexivity.
  - destruct (mdat_add (m_mdat m) d); try discriminate. injection E as <-. split; reflexivity.
Qed.
Lemma step_sound m o m' : ids_sound m -> istep m o = Ok m' -> (forall b d id, o = INew b d (Some id) -> ~ In id (ids_of m)) ->
  Forall (fun i => i < 65535) (ids_of m') -> ids_sound m'.
Proof.
  intros (S1 & S2 & S3) E F L. pose proof (step_ids m o m' E) as H.
  destruct o as [b d i|k d|k d|k k' off n|k ty id|k ty ids|d]; try (destruct H as [H1 H2]; unfold ids_sound; rewrite H1, H2; auto; fail).
  destruct H as (id & Hi & H1 & H0 & Hn). rewrite H1 in L. apply Forall_app in L as [_ L]. inversion_clear L as [|? ? L' _].
  assert (Fr : ~ In id (ids_of m)).
  { destruct i as [x|]; [subst id; eapply F; reflexivity|]. intros I. rewrite Forall_forall in S2. pose proof (S2 id I). lia. }
  unfold ids_sound. rewrite H1. destruct Hn as [[Hn1 Hn2]|[Hn1 Hn2]]; rewrite Hn2.
  - rewrite w16_small by lia. split; [apply NoDup_snoc; assumption|]. split; [|lia]. apply Forall_app. split; [|constructor; [lia|constructor]].
    eapply Forall_impl; [|exact S2]. cbv beta. intros; lia.
  - split; [apply NoDup_snoc; assumption|]. split; [|lia]. apply Forall_app. split; [exact S2|constructor; [lia|constructor]].
Qed.
Lemma irun_snoc os o : irun (os ++ [o]) = iadd (irun os) o.
Proof. unfold irun. rewrite fold_left_app. reflexivity. Qed.
Lemma ids_new : ids_sound meta_new.
Proof. split; [constructor|]. split; [constructor|cbn [meta_new m_next]; lia]. Qed.
Lemma run_sound os : forall m acc, irun os = Ok (m, acc) ->
  (forall pre b d id post m1 acc1, os = pre ++ INew b d (Some id) :: post -> irun pre = Ok (m1, acc1) -> ~ In id (ids_of m1)) ->
  Forall (fun i => i < 65535) (ids_of m) -> ids_sound m.
Proof.
  induction os as [|o os IH] using rev_ind; intros m acc R F L.
  - injection R as <- <-. exact ids_new.
  - rewrite irun_snoc in R. unfold iadd in R. destruct (irun os) as [[m0 acc0]| |] eqn:E0; try discriminate. cbn [bind fst snd] in R.
    assert (F0 : forall pre b d id post m1 acc1, os = pre ++ INew b d (Some id) :: post -> irun pre = Ok (m1, acc1) -> ~ In id (ids_of m1)).
    { intros pre b d id post m1 acc1 -> Hp. eapply (F pre b d id (post ++ [o])); [rewrite <- app_assoc; reflexivity|exact Hp]. }
    destruct (istep m0 o) as [m1|e|] eqn:E; [|injection R as <- <-; eapply IH; eauto|discriminate]. injection R as <- <-.
    eapply step_sound; [|exact E| |exact L].
    + eapply IH; [reflexivity|exact F0|]. pose proof (step_ids m0 o m1 E) as H. destruct o; try (destruct H as [<- _]; exact L).
      destruct H as (x & _ & H & _). rewrite H in L. apply Forall_app in L as [L _]. exact L.
    + intros b d id ->. eapply (F os b d id []); [reflexivity|exact E0].
Qed.

(* ------------------------------------------------------------------ *)
(* the references of a history                                          *)
Lemma items_step m o m' : istep m o = Ok m' -> forall k a', nth_error (items m') k = Some a' -> nth_error (ids_of m') k = Some (i_id a').
Proof. intros _ k a' H. unfold ids_of. rewrite nth_error_map, H. reflexivity. Qed.
Lemma ref_append_from (P : N -> Prop) l from ty id : Forall (fun r => P (r_from r)) l -> match ref_append l from ty id with Ok (_, l') => Forall (fun r => P (r_from r)) l' | _ => True end.
Proof.
  induction 1 as [|r l H F IH]; cbn [ref_append]; [constructor|]. destruct (ref_fits from ty r).
  - destruct (_ <=? _); [exact I|]. constructor; assumption.
  - destruct (ref_append l from ty id) as [[i l']| |]; cbn [bind fst snd]; auto.
Qed.
Lemma add_ref_from (P : N -> Prop) m from ty id : P from -> Forall (fun r => P (r_from r)) (refs m) ->
  match add_ref m from ty id with Ok (_, m') => Forall (fun r => P (r_from r)) (refs m') | _ => True end.
Proof.
  intros H F. unfold add_ref. cbv zeta. destruct (get_refs _ from ty) as [l| |]; cbn [bind]; try exact I. destruct (len l =? 0).
  - unfold add_refs. rewrite !refs_with. apply Forall_app. split; [exact F|]. constructor; [exact H|constructor].
  - rewrite refs_with. pose proof (ref_append_from P (refs m) from ty id F) as A. destruct (ref_append (refs m) from ty id) as [[i l']| |]; cbn [bind fst snd]; try exact I.
    rewrite refs_with. exact A.
Qed.
Definition rinv (m : meta) (acc : list iop) : Prop :=
  refs_ok (refs m) /\ Forall (fun r => In (r_from r) (ids_of m)) (refs m) /\
  (forall k ty, (length (ids_of m) <= k)%nat -> added_refs k ty acc = []) /\
  (NoDup (ids_of m) -> forall k id ty, nth_error (ids_of m) k = Some id -> ty <> T_iloc -> plural_first k ty acc ->
    first_refs (refs m) id ty = added_refs k ty acc).
Lemma added_snoc k ty acc o : added_refs k ty (acc ++ [o]) = added_refs k ty acc ++ ref_of k ty o.
Proof. unfold added_refs. rewrite flat_map_app. cbn [flat_map]. rewrite app_nil_r. reflexivity. Qed.
Lemma plural_less k ty acc o : plural_first k ty (acc ++ [o]) -> plural_first k ty acc.
Proof. intros H pre ids post ->. apply (H pre ids (post ++ [o])). rewrite <- app_assoc. reflexivity. Qed.
Lemma nodup_inj (l : list N) i j x : NoDup l -> nth_error l i = Some x -> nth_error l j = Some x -> i = j.
Proof. intros H Hi Hj. rewrite NoDup_nth_error in H. apply H; [apply nth_error_Some; congruence|congruence]. Qed.
Lemma rinv_same m m' acc o : rinv m acc -> refs m' = refs m -> ids_of m' = ids_of m -> (forall k ty, ref_of k ty o = []) -> rinv m' (acc ++ [o]).
Proof.
  intros (R1 & R2 & R3 & R4) E1 E2 E3. unfold rinv. rewrite E1, E2. split; [exact R1|]. split; [exact R2|].
  split; [intros k ty H|intros N0 k id ty H Ht P]; rewrite added_snoc, E3, app_nil_r; [apply R3, H|apply R4; auto; eapply plural_less, P].
Qed.
Lemma rinv_one m m' acc o k a ty0 i x : rinv m acc -> nth_error (items m) k = Some a -> add_ref m (i_id a) ty0 x = Ok (i, m') ->
  (forall k' ty, ty <> T_iloc -> ref_of k' ty o = if Nat.eqb k k' && (ty0 =? ty) then [x] else []) -> (forall k', k <> k' -> ref_of k' T_iloc o = []) ->
  rinv m' (acc ++ [o]).
Proof.
  intros (R1 & R2 & R3 & R4) Hk E Ho Ho'. pose proof (add_ref_ok m (i_id a) ty0 x R1) as A. rewrite E in A. destruct A as (A1 & A2 & A3 & A4 & A5 & A6).
  assert (Ei : ids_of m' = ids_of m) by (rewrite A6; reflexivity).
  assert (Hi : nth_error (ids_of m) k = Some (i_id a)) by (unfold ids_of; rewrite nth_error_map, Hk; reflexivity).
  assert (Lk : (k < length (ids_of m))%nat) by (apply nth_error_Some; congruence).
  unfold rinv. rewrite Ei. split; [exact A4|]. split; [|split].
  - pose proof (add_ref_from (fun f => In f (ids_of m)) m (i_id a) ty0 x (nth_error_In _ _ Hi) R2) as F. rewrite E in F. exact F.
  - intros k' ty H. rewrite added_snoc, R3 by exact H. destruct (N.eq_dec ty T_iloc) as [->|Ht]; [apply Ho'; lia|].
    rewrite Ho by exact Ht. replace (Nat.eqb k k') with false by (symmetry; apply Nat.eqb_neq; lia). reflexivity.
  - intros N0 k' id ty H Ht P. rewrite added_snoc, Ho by exact Ht. apply plural_less in P.
    destruct (Nat.eqb_spec k k') as [<-|Nk]; cbn [andb].
    + assert (id = i_id a) as -> by congruence. destruct (N.eqb_spec ty0 ty) as [<-|Nt].
      * rewrite A3, (R4 N0 k (i_id a) ty0 Hi Ht P). reflexivity.
      * rewrite app_nil_r, A5 by congruence. apply R4; assumption.
    + rewrite app_nil_r, A5; [apply R4; assumption|]. intros X. apply Nk. eapply nodup_inj; [exact N0|exact Hi|]. congruence.
Qed.
Lemma rinv_step m acc o m' : rinv m acc -> iop_ok o -> istep m o = Ok m' -> rinv m' (acc ++ [o]).
Proof.
  intros R O E. pose proof (step_ids m o m' E) as H. pose proof R as (R1 & R2 & R3 & R4).
  destruct o as [b d i|k d|k d|k k' off n|k ty id|k ty ids|d]; cbn [istep] in E.
  - destruct H as (id & _ & H & _). assert (Er : refs m' = refs m).
    { destruct i; [|unfold new_item in E]; unfold new_item_with in E; destruct (request_item_id _ _); try discriminate; injection E as <-; reflexivity. }
    unfold rinv. rewrite H, Er. split; [exact R1|]. split; [|split].
    + eapply Forall_impl; [|exact R2]. cbv beta. intros r Hr. apply in_or_app. auto.
    + intros k ty L. rewrite added_snoc, app_nil_r. apply R3. rewrite app_length in L. lia.
    + intros N0 k id' ty Hk Ht P. rewrite added_snoc, app_nil_r. apply plural_less in P.
      destruct (Nat.lt_ge_cases k (length (ids_of m))) as [L|L].
      * rewrite nth_error_app1 in Hk by exact L. apply R4; try assumption. apply NoDup_remove_1 in N0. rewrite app_nil_r in N0. exact N0.
      * rewrite R3 by exact L. rewrite nth_error_app2 in Hk by exact L. apply nth_error_In in Hk. destruct Hk as [<-|[]].
        apply NoDup_remove_2 in N0. rewrite app_nil_r in N0. unfold first_refs. destruct (find _ _) as [r|] eqn:F; [|reflexivity]. exfalso.
        apply find_some in F as [F1 F2]. rewrite Forall_forall in R2. unfold ref_fits in F2. apply andb_true_iff in F2 as [F2 _]. apply N.eqb_eq in F2.
        apply N0. rewrite <- F2. apply R2, F1.
  - destruct H as [H _]. eapply rinv_same; [exact R| |exact H|reflexivity].
    unfold add_mdat in E. destruct (nth_error (items m) k); [|discriminate]. destruct (negb _); [discriminate|]. destruct (mdat_add _ _); try discriminate. injection E as <-. reflexivity.
  - destruct H as [H _]. eapply rinv_same; [exact R| |exact H|reflexivity].
    unfold add_idat in E. destruct (nth_error (items m) k) as [a|]; [|discriminate]. destruct (len (i_exts a) =? 0); [|destruct (negb _); [discriminate|]]; injection E as <-; reflexivity.
  - unfold add_part in E. destruct (nth_error (items m) k) as [a|] eqn:Hk; [|discriminate]. destruct (nth_error (items m) k') as [a'|] eqn:Hk'; [|discriminate].
    cbv zeta in E. cbn [with_method i_id] in E.
    destruct (add_ref m (i_id a) T_iloc (i_id a')) as [[i m1]| |] eqn:Ar; cbn [bind fst snd] in E; try (destruct (len (i_exts a) =? 0); [|destruct (negb _)]; discriminate).
    assert (R' : rinv m1 (acc ++ [IPart k k' off n])).
    { eapply rinv_one; [exact R|exact Hk|exact Ar| |reflexivity]. intros q ty Ht. cbn [ref_of]. destruct (N.eqb_spec T_iloc ty) as [X|_]; [congruence|]. rewrite andb_false_r. reflexivity. }
    assert (X : refs m' = refs m1) by (destruct (len (i_exts a) =? 0); [|destruct (negb _); [discriminate|]]; injection E as <-; reflexivity).
    assert (Y : ids_of m' = ids_of m1).
    { pose proof (add_ref_ok m (i_id a) T_iloc (i_id a') R1) as A. rewrite Ar in A. destruct A as (_ & _ & _ & _ & _ & A). destruct H as [H _]. rewrite H, A. reflexivity. }
    unfold rinv in *. rewrite X, Y. exact R'.
  - destruct (nth_error (items m) k) as [a|] eqn:Hk; [|discriminate].
    destruct (add_ref m (i_id a) ty id) as [[i m1]| |] eqn:Ar; try discriminate. injection E as <-.
    eapply rinv_one; [exact R|exact Hk|exact Ar|intros; cbn [ref_of]; reflexivity|].
    intros q Nq. cbn [ref_of]. destruct (Nat.eqb_spec k q); [contradiction|reflexivity].
  - destruct (nth_error (items m) k) as [a|] eqn:Hk; [|discriminate]. injection E as <-. unfold add_refs in *. destruct H as [H _]. destruct O as [O1 O2].
    assert (Hi : nth_error (ids_of m) k = Some (i_id a)) by (unfold ids_of; rewrite nth_error_map, Hk; reflexivity).
    assert (Lk : (k < length (ids_of m))%nat) by (apply nth_error_Some; congruence).
    unfold rinv. rewrite H, refs_with. split; [apply Forall_app; split; [exact R1|constructor; [split; assumption|constructor]]|]. split; [|split].
    + apply Forall_app. split; [exact R2|]. constructor; [|constructor]. eapply nth_error_In, Hi.
    + intros q t L. rewrite added_snoc, R3 by exact L. cbn [ref_of]. replace (Nat.eqb k q) with false by (symmetry; apply Nat.eqb_neq; lia). reflexivity.
    + intros N0 q id' t Hq Ht P. rewrite added_snoc, first_refs_snoc. cbn [ref_of]. pose proof (R4 N0 q id' t Hq Ht (plural_less _ _ _ _ P)) as E4.
      destruct (Nat.eqb_spec k q) as [<-|Nk]; cbn [andb].
      * assert (id' = i_id a) as -> by congruence. destruct (N.eqb_spec ty t) as [->|Nt].
        -- specialize (P acc ids [] eq_refl). rewrite P in E4 |- *. rewrite (refs_ok_find _ _ _ R1 E4). unfold ref_fits. cbn [r_from r_type]. rewrite !N.eqb_refl. reflexivity.
        -- rewrite app_nil_r, <- E4. unfold first_refs, ref_fits at 2. cbn [r_from r_type]. destruct (N.eqb_spec ty t); [contradiction|]. rewrite andb_false_r. reflexivity.
      * rewrite app_nil_r, <- E4. unfold first_refs, ref_fits at 2. cbn [r_from r_type].
        destruct (N.eqb_spec (i_id a) id') as [X|_]; [|reflexivity]. exfalso. apply Nk. eapply nodup_inj; [exact N0|exact Hi|congruence].
  - destruct H as [H _]. destruct (mdat_add _ _); try discriminate. injection E as <-. eapply rinv_same; [exact R|reflexivity|exact H|reflexivity].
Qed.
Lemma run_refs os : forall m acc, irun os = Ok (m, acc) -> Forall iop_ok os -> rinv m acc.
Proof.
  induction os as [|o os IH] using rev_ind; intros m acc R F.
  - injection R as <- <-. split; [constructor|]. split; [constructor|]. split; [reflexivity|]. intros _ [|k] id ty H; discriminate.
  - rewrite irun_snoc in R. unfold iadd in R. destruct (irun os) as [[m0 acc0]| |] eqn:E0; try discriminate. cbn [bind fst snd] in R.
    apply Forall_app in F as [F Fo]. inversion_clear Fo. specialize (IH m0 acc0 eq_refl F).
    destruct (istep m0 o) as [m1|e|] eqn:E; [|injection R as <- <-; exact IH|discriminate]. injection R as <- <-.
    eapply rinv_step; eassumption.
Qed.
(* an item in the media data that was not the first there *)
Lemma later_read m acc n k d ds : iinv m acc -> NoDup (ids_of m) -> len (media acc) < 4294967296 -> len (item_bytes_of acc) < 4294967296 ->
  additions k acc = map PMdat (d :: ds) -> Forall (fun d => d <> []) (d :: ds) -> nth_error (created acc) k = Some (0, 0) ->
  item_data (S n) m k =
    if 2 * start k acc + len d <=? len (media acc) then Ok (slice (media acc) (2 * start k acc) (len d) ++ concat ds) else Err MP4BadParamErr.
Proof.
  intros V D L1 L2 Ea F C. unfold item_data. cbn [get_data].
  destruct (nth_error (items m) k) as [a|] eqn:Hk.
  2:{ exfalso. apply nth_error_None in Hk. rewrite (v_count m acc V) in Hk. apply nth_error_None in Hk. congruence. }
  destruct (v_items m acc V k a Hk) as (I1 & I2 & I3 & (b & I4 & I4' & I4'') & I5).
  rewrite Ea in *. cbn [map method_of] in *. inversion I1 as [|p x ps es Hx Hes E1 E2]; subst. rewrite <- E2 in *. destruct I5 as [I5 I6].
  assert (b = 0) as -> by congruence. rewrite N.add_0_l in I4'. destruct Hx as (X1 & X2 & X3). rewrite (v_mdat m acc V) in *.
  rewrite w64_small in I4' by lia. rewrite I2, I6. change (0 =? 0) with true. change (0 =? 1) with false. cbn [negb andb].
  inversion_clear F as [|? ? Hd Hds]. assert (Ld : 0 < len d) by (destruct d; [contradiction|rewrite len_cons; lia]).
  assert (T : len d + len (concat ds) < 4294967296).
  { pose proof (mdat_total k acc) as M. rewrite Ea in M. pose proof (concat_mdat (d :: ds)) as M2. cbn [map concat] in M2. rewrite M2, len_app in M. lia. }
  assert (Z : extent_data (fun k' => do p <- get_data n m k'; Ok (fst p)) m a (i_base a) 0 x =
    if 2 * start k acc + len d <=? len (media acc) then Ok (slice (media acc) (2 * start k acc) (len d)) else Err MP4BadParamErr).
  { unfold extent_data. rewrite I2, X1, I4', I5. change (0 =? 0) with true. cbv iota. destruct (N.eqb_spec (len d) 0); [lia|].
    rewrite shiftr32_small by lia. change (negb (0 =? 0)) with false. cbv iota. cbn [bind]. rewrite w32_small by lia. destruct (N.ltb_spec 4294967295 (0 + len d)); [lia|].
    unfold mdat_copy. rewrite (v_mdat m acc V). rewrite (w64_small (start k acc + start k acc)) by lia. rewrite w64_small by lia. destruct (N.eqb_spec (len (media acc)) 0); [lia|]. cbn [orb].
    replace (start k acc + start k acc) with (2 * start k acc) by lia.
    destruct (N.ltb_spec (len (media acc)) (2 * start k acc + len d)), (N.leb_spec (2 * start k acc + len d) (len (media acc))); try lia; [reflexivity|].
    rewrite shiftr32_small by lia. reflexivity. }
  cbn [extents_data]. change (len (@nil N)) with 0. rewrite Z. destruct (N.leb_spec (2 * start k acc + len d) (len (media acc))) as [Le|]; [|reflexivity]. cbn [bind].
  rewrite I4', I5. assert (W : sub64 (start k acc) (start k acc) = 0) by (rewrite sub64_exact by lia; lia). rewrite W.
  assert (Ls : len (slice (media acc) (2 * start k acc) (len d)) = len d) by (unfold slice, len in *; rewrite firstn_length, skipn_length; lia).
  destruct (read_extents m acc (fun k' => item_data n m k') (fun _ => None) a V D L1 L2 ltac:(discriminate) _ _ Hes
    ltac:(apply Forall_forall; intros q Iq; apply in_map_iff in Iq as (? & <- & _); rewrite I2; reflexivity)
    0 false (slice (media acc) (2 * start k acc) (len d)) (concat ds)) as [b' E'].
  - apply join_mdat, Hds.
  - rewrite len_app, Ls. exact T.
  - intros _. split; [reflexivity|discriminate].
  - cbn [app]. unfold item_data in E'. rewrite E'. reflexivity.
Qed.

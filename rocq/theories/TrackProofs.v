From Verif Require Import Base Codec AtomModel AtomSpec AtomProofs AtomProps BoxModel BoxSpec BoxProofs Reads HeaderSpec HeaderProofs KidsModel KidsProofs
  CsgpProofs MoofProofs GroupProofs TrackModel TrackSpec.

Lemma existsb_in (l : list N) x : existsb (fun y => y =? x) l = true <-> In x l.
Proof.
  rewrite existsb_exists. split.
  - intros (y & I & E). apply N.eqb_eq in E. subst y. exact I.
  - intros I. exists x. split; [exact I|apply N.eqb_refl].
Qed.
Lemma existsb_in' (l : list N) x : existsb (N.eqb x) l = existsb (fun y => y =? x) l.
Proof. induction l as [|y l IH]; [reflexivity|]. cbn [existsb]. rewrite IH, N.eqb_sym. reflexivity. Qed.
Lemma existsb_notin (l : list N) x : existsb (fun y => y =? x) l = false <-> ~ In x l.
Proof. rewrite <- existsb_in. destruct (existsb _ l); intuition congruence. Qed.
Lemma NoDup_snoc {A} (l : list A) x : NoDup l -> ~ In x l -> NoDup (l ++ [x]).
Proof.
  intros H I. apply NoDup_rev in H. rewrite <- (rev_involutive (l ++ [x])). apply NoDup_rev. rewrite rev_app_distr. cbn [rev app].
  constructor; [|exact H]. rewrite <- in_rev. exact I.
Qed.

(* ------------------------------------------------------------------ *)
Lemma chosen_ok m id : sound m -> id < 4294967296 -> id <> 0 -> ~ In id (tm_ids m) ->
  new_track_with m id = Ok (mkTmovie (if tm_next m <=? id then w32 (id + 1) else tm_next m) (tm_ids m ++ [id])).
Proof.
  intros S L H0 I. unfold new_track_with, request_id. destruct (N.eqb_spec id 0); [lia|].
  destruct (N.leb_spec (tm_next m) id); [reflexivity|]. cbn [bind]. apply existsb_notin in I. rewrite I. reflexivity.
Qed.
Lemma chosen_refused m id : sound m -> id = 0 \/ In id (tm_ids m) -> new_track_with m id = Err MP4BadParamErr.
Proof.
  intros (S1 & S2 & S3) H. unfold new_track_with, request_id. destruct (N.eqb_spec id 0); [reflexivity|].
  destruct H as [H|H]; [contradiction|]. rewrite Forall_forall in S2. pose proof (S2 id H).
  destruct (N.leb_spec (tm_next m) id); [lia|]. cbn [bind]. apply existsb_in in H. rewrite H. reflexivity.
Qed.
Lemma auto_ok m : sound m -> new_track m = Ok (mkTmovie (w32 (tm_next m + 1)) (tm_ids m ++ [tm_next m])) /\ ~ In (tm_next m) (tm_ids m).
Proof.
  intros S. pose proof S as (S1 & S2 & S3).
  assert (I : ~ In (tm_next m) (tm_ids m)).
  { intros I. rewrite Forall_forall in S2. pose proof (S2 _ I). lia. }
  split; [|exact I]. unfold new_track. rewrite chosen_ok by (try assumption; lia). rewrite N.leb_refl. reflexivity.
Qed.
Lemma creations_grow cs : forall m, incl (tm_ids m) (tm_ids (creations m cs)).
Proof.
  induction cs as [|c cs IH]; intros m; [apply incl_refl|]. unfold creations. cbn [fold_left].
  eapply incl_tran; [|apply IH]. unfold attempt. destruct (create m c) as [m'| |] eqn:E; try apply incl_refl.
  assert (H : forall id, new_track_with m id = Ok m' -> incl (tm_ids m) (tm_ids m')).
  { intros id. unfold new_track_with, request_id. destruct (id =? 0); [discriminate|].
    destruct (tm_next m <=? id); cbn [bind]; [|destruct (negb _); [|discriminate]]; intros E'; injection E' as <-; cbn [tm_ids]; apply incl_appl, incl_refl. }
  destruct c; cbn [create] in E; [unfold new_track in E|]; eapply H; exact E.
Qed.
Lemma create_sound m c m' : sound m -> create m c = Ok m' -> Forall (fun id => id < 4294967295) (tm_ids m') -> sound m'.
Proof.
  assert (H : forall id, sound m -> new_track_with m id = Ok m' -> Forall (fun id => id < 4294967295) (tm_ids m') -> sound m').
  { intros id (S1 & S2 & S3) E F. unfold new_track_with, request_id in E. destruct (N.eqb_spec id 0) as [|H0]; [discriminate|].
    rewrite Forall_forall in S2.
    destruct (N.leb_spec (tm_next m) id) as [L|L]; cbn [bind] in E.
    - injection E as <-. cbn [tm_ids] in F. apply Forall_app in F as [_ F]. inversion_clear F.
      rewrite (w32_small (id + 1)) by lia. split; [|split]; cbn [tm_ids tm_next]; [| |lia].
      + apply NoDup_snoc; [exact S1|]. intros I. pose proof (S2 _ I). lia.
      + apply Forall_app. split; [|constructor; [lia|constructor]]. apply Forall_forall. intros x I. pose proof (S2 x I). lia.
    - destruct (existsb _ _) eqn:X; [discriminate|]. apply existsb_notin in X. cbn [negb] in E. injection E as <-.
      split; [|split]; cbn [tm_ids tm_next]; [apply NoDup_snoc; assumption| |lia].
      apply Forall_app. split; [apply Forall_forall; exact S2|]. constructor; [lia|constructor]. }
  intros S E F. destruct c; cbn [create] in E; [unfold new_track in E|]; eapply H; eassumption.
Qed.
Lemma creations_sound cs : forall m, sound m -> Forall (fun id => id < 4294967295) (tm_ids (creations m cs)) -> sound (creations m cs).
Proof.
  induction cs as [|c cs IH]; intros m S F; [exact S|]. unfold creations in *. cbn [fold_left] in *. apply IH; [|exact F].
  unfold attempt in *. destruct (create m c) as [m'| |] eqn:E; try exact S. eapply create_sound; [exact S|exact E|].
  pose proof (creations_grow cs m') as G. rewrite Forall_forall in *. intros x I. apply F, G, I.
Qed.
Lemma find_track_ok l : NoDup l -> forall k i id, nth_error l i = Some id -> find_track l k id = Ok (k + i)%nat.
Proof.
  induction 1 as [|x l I _ IH]; intros k i id H; [destruct i; discriminate|]. cbn [find_track].
  destruct i as [|i]; cbn [nth_error] in H.
  - injection H as ->. rewrite N.eqb_refl, Nat.add_0_r. reflexivity.
  - destruct (N.eqb_spec x id) as [->|_]; [apply nth_error_In in H; contradiction|].
    rewrite (IH (S k) i id H). f_equal. lia.
Qed.
Lemma find_track_none l : forall k id, ~ In id l -> find_track l k id = Err MP4BadParamErr.
Proof.
  induction l as [|x l IH]; intros k id H; [reflexivity|]. cbn [find_track]. destruct (N.eqb_spec x id) as [->|_]; [exfalso; apply H; left; reflexivity|].
  apply IH. intros I. apply H. right. exact I.
Qed.

(* ------------------------------------------------------------------ *)
(* lists with at most one entry per type                                *)
Section Typed.
Context {A : Type} (ty : A -> N).
Definition look (l : list A) (t : N) : option A := find (fun x => ty x =? t) l.
Lemma find_type_look l t : forall k, match find_type ty l t k with
  | Some i => exists j x, i = (k + j)%nat /\ nth_error l j = Some x /\ look l t = Some x /\ ty x = t
  | None => look l t = None end.
Proof.
  induction l as [|x l IH]; intros k; cbn [find_type look find]; [reflexivity|]. unfold look. cbn [find].
  destruct (N.eqb_spec (ty x) t) as [E|E].
  - exists O, x. rewrite Nat.add_0_r. auto.
  - specialize (IH (S k)). destruct (find_type ty l t (S k)) as [i|].
    + destruct IH as (j & y & -> & H1 & H2 & H3). exists (S j), y. split; [lia|]. auto.
    + exact IH.
Qed.
Lemma look_put l t : forall j x, nth_error l j = Some x -> look l t = Some x -> forall x', ty x' = t -> ty x = t ->
  forall t', look (put_at l j x') t' = if t' =? t then (if match find_type ty l t 0 with Some i => Nat.eqb i j | None => false end then Some x' else look (put_at l j x') t') else look (put_at l j x') t'.
Proof.
  intros. destruct (t' =? t) eqn:E; [|reflexivity]. apply N.eqb_eq in E. subst t'.
  destruct (find_type ty l t 0) as [i|] eqn:F; [|reflexivity]. destruct (Nat.eqb_spec i j) as [->|]; [|reflexivity].
  clear H0. revert j F H. cut (forall k j, find_type ty l t k = Some (k + j)%nat -> nth_error l j = Some x -> look (put_at l j x') t = Some x').
  { intros C j F H. apply (C O j F H). }
  induction l as [|y l IH]; intros k j F H; [discriminate|]. cbn [find_type] in F.
  destruct (N.eqb_spec (ty y) t) as [Ey|Ey].
  - injection F as F. assert (j = O) as -> by lia. cbn [put_at]. unfold look. cbn [find]. rewrite H1, N.eqb_refl. reflexivity.
  - destruct j as [|j].
    + exfalso. cbn [nth_error] in H. injection H as ->. contradiction.
    + cbn [put_at]. unfold look. cbn [find]. destruct (N.eqb_spec (ty y) t); [contradiction|].
      apply (IH (S k)); [rewrite F; f_equal; lia|exact H].
Qed.
Lemma look_other l t t' : t' <> t -> forall j x x', nth_error l j = Some x -> ty x = t -> ty x' = t -> look (put_at l j x') t' = look l t'.
Proof.
  intros N. induction l as [|y l IH]; intros j x x' H E E'; [destruct j; discriminate|]. destruct j as [|j]; cbn [nth_error put_at] in *.
  - injection H as ->. unfold look. cbn [find]. destruct (N.eqb_spec (ty x) t'); [congruence|]. destruct (N.eqb_spec (ty x') t'); [congruence|]. reflexivity.
  - unfold look. cbn [find]. destruct (ty y =? t'); [reflexivity|]. apply (IH j x x' H E E').
Qed.
(* finding or creating the entry of a type, then changing it *)
Definition obtain (l : list A) (t : N) (fresh : A) : list A * nat :=
  match find_type ty l t 0 with Some i => (l, i) | None => (l ++ [fresh], length l) end.
Lemma obtain_ok l t fresh : ty fresh = t -> exists x, nth_error (fst (obtain l t fresh)) (snd (obtain l t fresh)) = Some x /\
  x = match look l t with Some x => x | None => fresh end /\ ty x = t /\
  forall x', ty x' = t -> look (put_at (fst (obtain l t fresh)) (snd (obtain l t fresh)) x') t = Some x' /\
    forall t', t' <> t -> look (put_at (fst (obtain l t fresh)) (snd (obtain l t fresh)) x') t' = look l t'.
Proof.
  intros Ef. unfold obtain. pose proof (find_type_look l t 0) as F. destruct (find_type ty l t 0) as [i|] eqn:E; cbn [fst snd].
  - destruct F as (j & x & -> & H1 & H2 & H3). cbn [Nat.add] in *. exists x. rewrite H2. split; [exact H1|]. split; [reflexivity|]. split; [exact H3|].
    intros x' Hx. split; [|intros t' Ht; apply (look_other l t t' Ht j x x' H1 H3 Hx)].
    pose proof (look_put l t j x H1 H2 x' Hx H3 t) as P. rewrite N.eqb_refl, E, Nat.eqb_refl in P. exact P.
  - exists fresh. rewrite F. split; [rewrite nth_error_app2, Nat.sub_diag by lia; reflexivity|]. split; [reflexivity|]. split; [exact Ef|].
    intros x' Hx. clear E. induction l as [|y l IH]; cbn [app length put_at].
    + unfold look. cbn [find]. rewrite Hx, N.eqb_refl. split; [reflexivity|]. intros t' Ht. destruct (N.eqb_spec t t'); [congruence|reflexivity].
    + unfold look in F. cbn [find] in F. destruct (N.eqb_spec (ty y) t) as [|Ey]; [discriminate|]. specialize (IH F) as [I1 I2].
      split; [unfold look; cbn [find]; destruct (N.eqb_spec (ty y) t); [contradiction|exact I1]|].
      intros t' Ht. unfold look. cbn [find]. destruct (ty y =? t'); [reflexivity|]. exact (I2 t' Ht).
Qed.
End Typed.

(* ------------------------------------------------------------------ *)
(* references                                                           *)
Definition rlist (r : trefs) : list tref1 := match r with Some l => l | None => [] end.
Definition rids (r : trefs) (t : N) : list N := match look x_type (rlist r) t with Some x => x_ids x | None => [] end.
Definition snoc1 (l : list N) (x : N) : list N := if existsb (fun y => y =? x) l then l else l ++ [x].
Lemma ref_add_ok r t id : id <> 0 -> exists r', ref_add r t id = Ok (w32 (len (snoc1 (rids r t) id)), r') /\ r' <> None /\
  rids r' t = snoc1 (rids r t) id /\ forall t', t' <> t -> rids r' t' = rids r t'.
Proof.
  intros H0. unfold ref_add. destruct (N.eqb_spec id 0); [contradiction|]. fold (rlist r).
  destruct (obtain_ok x_type (rlist r) t (mkTref1 t []) eq_refl) as (x & H1 & H2 & H3 & H4). unfold obtain in *.
  destruct (match find_type x_type (rlist r) t 0 with Some i => (rlist r, i) | None => (rlist r ++ [mkTref1 t []], length (rlist r)) end) as [l1 i].
  cbn [fst snd] in *. rewrite H1.
  assert (E : x_ids (add_id x id) = snoc1 (rids r t) id).
  { unfold add_id, snoc1, rids. subst x. destruct (look x_type (rlist r) t) as [x|]; cbn [x_ids]; destruct (existsb _ _); reflexivity. }
  assert (T : x_type (add_id x id) = t) by (unfold add_id; destruct (existsb _ _); exact H3).
  destruct (H4 (add_id x id) T) as [P1 P2]. eexists. split; [rewrite E; reflexivity|]. split; [discriminate|].
  unfold rids at 1 3. cbn [rlist]. rewrite P1. split; [exact E|]. intros t' Ht. rewrite (P2 t' Ht). reflexivity.
Qed.
Lemma once_snoc l x : once (l ++ [x]) = snoc1 (once l) x.
Proof. unfold once, snoc1. rewrite fold_left_app. cbn [fold_left]. rewrite existsb_in'. reflexivity. Qed.
Lemma once_facts l : NoDup (once l) /\ incl (once l) l.
Proof.
  induction l as [|x l IH] using rev_ind; [split; [constructor|apply incl_refl]|]. rewrite once_snoc. unfold snoc1. destruct IH as [I1 I2].
  destruct (existsb _ (once l)) eqn:E; [split; [exact I1|apply incl_appl, I2]|]. apply existsb_notin in E.
  split; [apply NoDup_snoc; assumption|]. apply incl_app; [apply incl_appl, I2|apply incl_appr, incl_refl].
Qed.
Lemma once_in l x : In x (once l) <-> In x l.
Proof.
  split; [apply once_facts|]. induction l as [|y l IH] using rev_ind; [intros []|]. intros I. rewrite once_snoc. unfold snoc1.
  apply in_app_or in I. destruct (existsb _ (once l)) eqn:E.
  - destruct I as [I|[<-|[]]]; [apply IH, I|]. apply existsb_in. exact E.
  - apply in_or_app. destruct I as [I|I]; [left; apply IH, I|right; exact I].
Qed.
Lemma pigeons (l : list N) : NoDup l -> Forall (fun x => 0 < x < 4294967296) l -> len l < 4294967296.
Proof.
  intros H F.
  assert (I : incl l (map N.of_nat (seq 1 (N.to_nat 4294967295)))).
  { intros x Hx. rewrite Forall_forall in F. pose proof (F x Hx). apply in_map_iff. exists (N.to_nat x). split; [lia|]. apply in_seq. lia. }
  apply (NoDup_incl_length H) in I. rewrite map_length, seq_length in I. unfold len. lia.
Qed.
Lemma of_type_app t a b : of_type t (a ++ b) = of_type t a ++ of_type t b.
Proof. unfold of_type. rewrite filter_app, map_app. reflexivity. Qed.
Definition extend (l m : list N) : list N := fold_left snoc1 m l.
Lemma once_extend l m : once (l ++ m) = extend (once l) m.
Proof.
  revert l. induction m as [|x m IH]; intros l; [rewrite app_nil_r; reflexivity|]. cbn [extend fold_left].
  rewrite <- once_snoc. etransitivity; [|apply IH]. rewrite <- app_assoc. reflexivity.
Qed.
Lemma ref_adds_ids os : Forall ref_ok os -> forall r t, rids (ref_adds r os) t = extend (rids r t) (of_type t os).
Proof.
  induction 1 as [|[t1 id] os [H1 H2] _ IH]; intros r t; [reflexivity|]. unfold ref_adds. cbn [fold_left fst snd] in *.
  destruct (ref_add_ok r t1 id ltac:(lia)) as (r' & E & _ & E1 & E2). rewrite E.
  etransitivity; [apply IH|]. unfold of_type. cbn [filter fst]. destruct (N.eqb_spec t1 t) as [->|Ht]; cbn [map snd extend fold_left].
  - rewrite E1. reflexivity.
  - rewrite E2 by congruence. reflexivity.
Qed.
Lemma ref_adds_some os : Forall ref_ok os -> forall r, ref_adds r os = None -> r = None /\ os = [].
Proof.
  induction 1 as [|[t1 id] os [H1 H2] _ IH]; intros r E; [auto|]. unfold ref_adds in E. cbn [fold_left fst snd] in *.
  destruct (ref_add_ok r t1 id ltac:(lia)) as (r' & E' & N & _). rewrite E' in E. destruct (IH r' E). contradiction.
Qed.
Lemma ref_count_ok r t : t <> 0 -> ref_count r t = Ok (w32 (len (rids r t))).
Proof.
  intros H. unfold ref_count, rids. destruct (N.eqb_spec t 0); [contradiction|]. destruct r as [l|]; [|reflexivity]. cbn [rlist].
  pose proof (find_type_look x_type l t 0) as F. destruct (find_type x_type l t 0) as [i|].
  - destruct F as (j & x & -> & F1 & F2 & F3). cbn [Nat.add]. rewrite F1, F2. reflexivity.
  - rewrite F. reflexivity.
Qed.
Lemma ref_get_ok m r t i : t <> 0 -> len (rids r t) < 4294967296 ->
  ref_get m r t (N.of_nat i + 1) =
    match nth_error (rids r t) i with
    | Some id => if id =? 0 then Err MP4InvalidMediaErr else get_track m id
    | None => Err MP4BadParamErr end.
Proof.
  intros H L. unfold ref_get, rids in *. destruct (N.eqb_spec t 0); [contradiction|]. destruct (N.eqb_spec (N.of_nat i + 1) 0); [lia|]. cbn [orb].
  destruct r as [l|]; [|cbn [rlist look find]; destruct i; reflexivity]. cbn [rlist] in *.
  pose proof (find_type_look x_type l t 0) as F. destruct (find_type x_type l t 0) as [k|].
  - destruct F as (j & x & -> & F1 & F2 & F3). cbn [Nat.add]. rewrite F1. rewrite F2 in *. rewrite w32_small by exact L.
    replace (N.to_nat (N.of_nat i + 1 - 1)) with i by lia. unfold len.
    destruct (N.ltb_spec (N.of_nat (length (x_ids x))) (N.of_nat i + 1)) as [A|A].
    + destruct (nth_error (x_ids x) i) eqn:E; [|reflexivity]. assert (nth_error (x_ids x) i <> None) as B by congruence. apply nth_error_Some in B. lia.
    + destruct (nth_error (x_ids x) i) eqn:E; [reflexivity|]. apply nth_error_None in E. lia.
  - rewrite F. destruct i; reflexivity.
Qed.
Lemma once_small t os : Forall ref_ok os -> len (once (of_type t os)) < 4294967296.
Proof.
  intros H. apply pigeons; [apply once_facts|]. apply Forall_forall. intros x I. apply (proj1 (once_in _ _)) in I. unfold of_type in I.
  apply in_map_iff in I. destruct I as (o & <- & I). apply filter_In in I. rewrite Forall_forall in H. apply H, I.
Qed.
Lemma extend_prefix m : forall l, exists k, extend l m = l ++ k.
Proof.
  induction m as [|x m IH]; intros l; [exists []; rewrite app_nil_r; reflexivity|]. cbn [extend fold_left].
  destruct (IH (snoc1 l x)) as [k E]. unfold extend in E. rewrite E. unfold snoc1. destruct (existsb _ l); [exists k; reflexivity|].
  exists (x :: k). rewrite <- app_assoc. reflexivity.
Qed.

(* ------------------------------------------------------------------ *)
(* groups                                                               *)
Definition glist (r : trgrs) : list trgr1 := match r with Some l => l | None => [] end.
Definition gid (r : trgrs) (t : N) : option N := option_map g_id (look g_type (glist r) t).
Lemma group_add_ok r t id : exists r', group_add r id t = Ok r' /\ gid r' t = Some id /\ forall t', t' <> t -> gid r' t' = gid r t'.
Proof.
  unfold group_add. fold (glist r).
  destruct (obtain_ok g_type (glist r) t (mkTrgr1 t 0 0 0) eq_refl) as (x & H1 & H2 & H3 & H4). unfold obtain in *.
  destruct (match find_type g_type (glist r) t 0 with Some i => (glist r, i) | None => (glist r ++ [mkTrgr1 t 0 0 0], length (glist r)) end) as [l1 i].
  cbn [fst snd] in *. rewrite H1. destruct (H4 (mkTrgr1 (g_type x) (g_ver x) (g_flags x) id) H3) as [P1 P2].
  eexists. split; [reflexivity|]. unfold gid. cbn [glist]. rewrite P1. split; [reflexivity|]. intros t' Ht. rewrite (P2 t' Ht). reflexivity.
Qed.
Lemma group_get_ok r t : t <> 0 -> group_get r t = match gid r t with Some id => Ok id | None => Err MP4BadParamErr end.
Proof.
  intros H. unfold group_get, gid. destruct (N.eqb_spec t 0); [contradiction|]. destruct r as [l|]; [|reflexivity]. cbn [glist].
  pose proof (find_type_look g_type l t 0) as F. destruct (find_type g_type l t 0) as [i|].
  - destruct F as (j & x & -> & F1 & F2 & F3). cbn [Nat.add]. rewrite F1, F2. reflexivity.
  - rewrite F. reflexivity.
Qed.
Lemma group_adds_ok os : forall r t, gid (group_adds r os) t = match of_type t (rev os) with id :: _ => Some id | [] => gid r t end.
Proof.
  induction os as [|[t1 id] os IH] using rev_ind; intros r t; [reflexivity|]. unfold group_adds. rewrite fold_left_app. cbn [fold_left fst snd].
  fold (group_adds r os). destruct (group_add_ok (group_adds r os) t1 id) as (r' & E & E1 & E2). rewrite E. cbn [attempt].
  rewrite rev_app_distr. cbn [rev app]. unfold of_type. cbn [filter fst]. destruct (N.eqb_spec t1 t) as [->|Ht]; cbn [map snd].
  - exact E1.
  - rewrite E2 by congruence. apply IH.
Qed.

(* ------------------------------------------------------------------ *)
(* boxes                                                                *)
Lemma tref1_exact : exact tref1_codec tref1_layout.
Proof.
  split.
  - intros x (P & F). cbn [tref1_codec tref1_layout c_ty c_known l_view l_ty]. auto.
  - intros x (P & F) L. cbn [tref1_codec tref1_layout c_ty c_size c_w c_rd l_body l_view] in *.
    rewrite (len_flat_map_const be32 4 (x_ids x)) in * by reflexivity.
    split; [apply w32_small; lia|]. split; [apply writes_map; intros; apply writes_put32|].
    unfold tref1_read. cbn [h_size h_type]. apply parses_getrdn.
    rewrite sub32_le by lia. replace (8 + 4 * len (x_ids x) - 8) with (4 * len (x_ids x)) by lia.
    rewrite (N.mul_comm 4), N.div_mul by discriminate. unfold len. rewrite Nat2N.id.
    eapply parses_bind_last; [apply parses_rrep; [|lia]|].
    + intros a n I. apply parses_get32. rewrite Forall_forall in F. apply F, I.
    + apply parses_ret_eq; [apply w32_lt|]. destruct x; reflexivity.
Qed.
Lemma trgr1_exact : exact trgr1_codec trgr1_layout.
Proof.
  split.
  - intros x (P & F). cbn [trgr1_codec trgr1_layout c_ty c_known l_view l_ty]. auto.
  - intros x (P & F & G) L. cbn [trgr1_codec trgr1_layout c_ty c_size c_w c_rd l_body l_view] in *.
    split; [lens; reflexivity|]. split; [apply writes_full_seq; wstep|]. unfold trgr1_read. cbn [h_type].
    eapply parses_bind; [apply parses_full; exact F|]. pnext; [apply parses_get32; exact G|]. pnext. destruct x; reflexivity.
Qed.
Lemma leaves_map {T} (l : list T) : leaves (map (ALeaf T) l) = l.
Proof. unfold leaves. induction l as [|x l IH]; [reflexivity|]. cbn [map flat_map app]. f_equal. exact IH. Qed.
Lemma tref_faithful : faithful tref_codec tref_layout.
Proof.
  eapply faithful_by; [apply boxed_faithful; [apply exact_faithful, tref1_exact|repeat split; try discriminate; reflexivity|intros k; reflexivity]|].
  intros l H. cbn [boxed_layout l_ok l_ty l_body l_view]. rewrite kid_ok_leaves, kid_enc_leaves, kid_view_leaves.
  split; [exact H|]. split; [reflexivity|]. split; [reflexivity|]. cbn [tref1_layout l_view tref_layout]. symmetry. apply leaves_map.
Qed.
Lemma trgr_faithful : faithful trgr_codec trgr_layout.
Proof.
  eapply faithful_by; [apply boxed_faithful; [apply exact_faithful, trgr1_exact|repeat split; try discriminate; reflexivity|intros k; reflexivity]|].
  intros l H. cbn [boxed_layout l_ok l_ty l_body l_view]. rewrite kid_ok_leaves, kid_enc_leaves, kid_view_leaves.
  split; [exact H|]. split; [reflexivity|]. split; [reflexivity|]. cbn [trgr1_layout l_view trgr_layout]. symmetry. apply leaves_map.
Qed.
Lemma tref1_robust : robust tref1_codec.
Proof. robust_tac tref1_read. Qed.
Lemma trgr1_robust : robust trgr1_codec.
Proof. robust_tac trgr1_read. Qed.

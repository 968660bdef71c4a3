(* ElsewhereProps.v -- C83: items whose data are in other files. *)
From Verif Require Import Base Codec AtomModel AtomSpec AtomProofs AtomProps BoxModel BoxSpec BoxProofs MdatModel TrackModel IlocModel ItemModel TextModel TextSpec TextProofs EntryModel EntrySpec EntryProofs EntryProps ElsewhereModel SaveSpec ElsewhereSpec.
Local Ltac Zify.zify_post_hook ::= Z.div_mod_to_equations.

(* ------------------------------------------------------------------ *)
(* The state after any calls                                           *)

Definition same_item (i : N * N * list (N * N)) (a : item) : Prop :=
  i_method a = 0 /\ i_dref a = snd (fst i) /\
  i_base a = match snd i with [] => fst (fst i) | x :: _ => w64 (fst (fst i) + fst x) end /\
  i_exts a = map (fun x => mkExtent 0 (fst x) (snd x)) (snd i).
Definition opened (e : around) (x : xmeta) : Prop := match x_open x with None => True | Some (n, d) => open_source e x n = Ok d end.
Record rep (e : around) (s : made) (x : xmeta) : Prop := mkRep {
  r_dinf : x_dinf x = match given s with [] => None | _ => Some (Some (refer (given s))) end;
  r_here : ~ In Here (given s);
  r_its : Forall2 same_item (its s) (items (x_meta x));
  r_next : m_next (x_meta x) = len (its s) + 1;
  r_iloc : items (x_meta x) <> [] -> m_iloc (x_meta x) <> None;
  r_open : opened e x }.

Lemma refer_add ds d : dref_add (refer ds) d = (refer (ds ++ [d]), len ds + 1).
Proof.
  unfold refer at 2. rewrite fold_left_app. cbn [fold_left]. fold (refer ds). rewrite refer_is. unfold dref_add. cbn [fst dr_ver dr_flags dr_kids].
  f_equal. rewrite len_app, len_map. reflexivity.
Qed.
Lemma len_refer ds : len (dr_kids (refer ds)) = len ds.
Proof. rewrite refer_is. apply len_map. Qed.
Lemma get_refer ds n d : n <> 0 -> nthN ds (n - 1) = Some d -> dref_get (refer ds) n = Ok (ref_box d).
Proof.
  intros Hn H. unfold nthN in H. unfold dref_get. rewrite len_refer.
  assert (L : n <= len ds). { assert (nth_error ds (N.to_nat (n - 1)) <> None) as A by congruence. apply nth_error_Some in A. unfold len. lia. }
  destruct (N.ltb_spec n 1); [lia|]. destruct (N.ltb_spec (len ds) n); [lia|]. cbn [orb]. rewrite refer_is. cbn [dr_kids].
  rewrite nth_error_map, H. reflexivity.
Qed.
Lemma refs_open e x ds n : x_dinf x = match ds with [] => None | _ => Some (Some (refer ds)) end -> n <> 0 ->
  open_source e x n = match ds with [] => Err MP4InvalidMediaErr | _ => match nthN ds (n - 1) with None => Err MP4BadParamErr | Some Here => open_entry e 1 None | Some d => open_entry e 0 (Some (place d)) end end.
Proof.
  intros E Hn. unfold open_source. rewrite E. destruct ds as [|d0 ds']; [reflexivity|]. set (ds := d0 :: ds') in *. rewrite len_refer.
  destruct (nthN ds (n - 1)) as [d|] eqn:D.
  - unfold nthN in D. assert (nth_error ds (N.to_nat (n - 1)) <> None) as A by congruence. apply nth_error_Some in A.
    destruct (N.ltb_spec (len ds) n) as [B|_]; [unfold len in B; lia|]. rewrite (get_refer ds n d Hn D). destruct d; reflexivity.
  - unfold nthN in D. apply nth_error_None in D. destruct (N.ltb_spec (len ds) n) as [_|B]; [reflexivity|unfold len in B; lia].
Qed.
Lemma more_open e ds d n x y : n <> 0 -> x_dinf x = match ds with [] => None | _ => Some (Some (refer ds)) end -> x_dinf y = Some (Some (refer (ds ++ [d]))) ->
  forall f, open_source e x n = Ok f -> open_source e y n = Ok f.
Proof.
  intros Hn Ex Ey f. rewrite (refs_open e x ds n Ex Hn).
  assert (Ey' : x_dinf y = match ds ++ [d] with [] => None | _ => Some (Some (refer (ds ++ [d]))) end) by (rewrite Ey; destruct ds; reflexivity).
  rewrite (refs_open e y _ n Ey' Hn). destruct ds as [|d0 ds']; [discriminate|]. set (ds := d0 :: ds').
  destruct (nthN ds (n - 1)) as [c|] eqn:D; [|discriminate].
  assert (D' : nthN (ds ++ [d]) (n - 1) = Some c).
  { unfold nthN in *. rewrite nth_error_app1; [exact D|]. apply nth_error_Some. congruence. }
  rewrite D'. subst ds. cbn [app]. tauto.
Qed.
Lemma same_open e x y n : x_dinf x = x_dinf y -> open_source e x n = open_source e y n.
Proof. intros E. unfold open_source. rewrite E. reflexivity. Qed.
Lemma open_zero e x ds : x_dinf x = match ds with [] => None | _ => Some (Some (refer ds)) end -> forall f, open_source e x 0 <> Ok f.
Proof. intros E f. unfold open_source. rewrite E. destruct ds; [discriminate|]. destruct (N.ltb_spec (len (dr_kids (refer (d :: ds)))) 0); [discriminate|]. unfold dref_get. cbn. discriminate. Qed.

Lemma at_item_rep l k b : forall la, Forall2 same_item l la -> forall a, nth_error la k = Some a ->
  i_dref a <> 0 -> Forall2 same_item (at_item l k b) (put_at la k (add_extent a (mkExtent 0 (fst b) (snd b)))).
Proof.
  revert k. induction l as [|[p x] l IH]; intros k la H a Ha Hd; inversion H as [|? i ? la' S F]; subst; [destruct k; discriminate|].
  destruct k as [|k]; cbn [nth_error at_item put_at] in *.
  - inversion Ha; subst. constructor; [|exact F]. destruct S as (S1 & S2 & S3 & S4). cbn [fst snd] in *.
    destruct (N.eqb_spec (snd p) 0); [congruence|]. unfold same_item, add_extent. cbn [i_method i_dref i_base i_exts fst snd].
    split; [exact S1|]. split; [exact S2|]. rewrite S4, map_app, len_map. split; [|reflexivity].
    destruct x as [|x0 x]; cbn [app] in *; [rewrite S3; reflexivity|]. rewrite len_cons. destruct (N.eqb_spec (1 + len x) 0); [lia|]. exact S3.
  - constructor; [exact S|]. apply IH; assumption.
Qed.
Lemma at_item_zero l k b : forall la, Forall2 same_item l la -> forall a, nth_error la k = Some a -> i_dref a = 0 -> at_item l k b = l.
Proof.
  revert k. induction l as [|[p x] l IH]; intros k la H a Ha Hd; inversion H as [|? i ? la' S F]; subst; [reflexivity|].
  destruct k as [|k]; cbn [nth_error at_item] in *.
  - inversion Ha; subst. destruct S as (_ & S2 & _). cbn [fst snd] in S2. rewrite <- S2, Hd. reflexivity.
  - f_equal. eapply IH; eassumption.
Qed.
Lemma its_length l la : Forall2 same_item l la -> length l = length la.
Proof. induction 1; cbn [length]; congruence. Qed.
Lemma len_at_item l k b : length (at_item l k b) = length l.
Proof. revert k. induction l as [|[p x] l IH]; intros [|k]; cbn [at_item length]; try reflexivity. rewrite IH. reflexivity. Qed.

Lemma step_rep e s x c : rep e s x -> call_ok s c -> len (its (makes s c)) < 65535 ->
  match c with Make _ => exists y, xdo e x c = Ok y /\ rep e (makes s c) y | Read _ => forall y, xdo e x c = Ok y -> rep e (makes s c) y end.
Proof.
  intros [R1 RH R2 R3 R4 R5] Hc Hn. destruct c as [[u n|base ref|k off n]|k]; cbn [makes call_ok xdo xstep] in *.
  - set (d := match n with None => Url u | Some n => Urn u n end). unfold add_reference.
    assert (E : (match x_dinf x with Some None => Err MP4InvalidMediaErr | Some (Some d) => Ok d | None => Ok (mkDref 0 0 []) end : res (dref (durl + durn))) = Ok (refer (given s))).
    { rewrite R1. destruct (given s); reflexivity. }
    rewrite E. cbn [bind]. fold d. rewrite refer_add. cbn [fst snd]. eexists. split; [reflexivity|].
    constructor; cbn [x_dinf x_meta x_open given its]; try assumption.
    + destruct (given s); reflexivity.
    + intros I. apply in_app_or in I. destruct I as [I|[I|[]]]; [exact (RH I)|]. subst d. destruct n; discriminate.
    + unfold opened in *. cbn [x_open]. destruct (x_open x) as [[i f]|]; [|exact I].
      destruct (N.eq_dec i 0) as [->|Hi]; [exfalso; exact (open_zero e x _ R1 f R5)|].
      eapply more_open; [exact Hi|exact R1|reflexivity|exact R5].
  - unfold add_item, new_item, new_item_with, request_item_id. rewrite R3.
    destruct (N.eqb_spec (len (its s) + 1) 0); [lia|]. rewrite N.leb_refl. cbn [bind]. eexists. split; [reflexivity|].
    cbn [its] in Hn. rewrite len_app in Hn. change (len [(base, ref, @nil (N * N))]) with 1 in Hn.
    constructor; cbn [x_dinf x_meta x_open given its m_next]; try assumption.
    + unfold items at 1. cbn [m_iloc il_items]. apply Forall2_app.
      * unfold items in R2. destruct (m_iloc (x_meta x)); exact R2.
      * repeat constructor.
    + rewrite len_app. change (len [(base, ref, @nil (N * N))]) with 1. unfold w16. rewrite N.mod_small by lia. reflexivity.
    + discriminate.
  - destruct Hc as (Hk & Ho & Hl). unfold add_elsewhere.
    destruct (nth_error (items (x_meta x)) k) as [a|] eqn:A.
    2:{ apply nth_error_None in A. apply its_length in R2. lia. }
    destruct (N.eqb_spec (i_dref a) 0) as [Z|Z].
    + eexists. split; [reflexivity|]. destruct (given s) eqn:G; [constructor; try assumption; rewrite G; assumption|].
      rewrite (at_item_zero _ k (off, n) _ R2 a A Z), <- G. constructor; cbn [given its]; try assumption; rewrite G; assumption.
    + rewrite R1. destruct (given s) as [|d0 ds] eqn:G; [eexists; split; [reflexivity|]; constructor; rewrite ?G; assumption|].
      eexists. split; [reflexivity|].
      assert (I : m_iloc (x_meta x) <> None) by (apply R4; intros N0; rewrite N0 in A; destruct k; discriminate).
      constructor; cbn [x_dinf x_meta x_open given its m_next set_item]; try assumption; try reflexivity.
      * unfold items, set_item. cbn [m_iloc]. unfold items in A, R2. destruct (m_iloc (x_meta x)); [|congruence]. cbn [il_items].
        apply (at_item_rep _ _ (off, n) _ R2 a A Z).
      * rewrite R3. unfold len. rewrite len_at_item. reflexivity.
      * intros _. unfold set_item. cbn [m_iloc]. destruct (m_iloc (x_meta x)); [discriminate|congruence].
      * unfold opened in *. cbn [x_open]. destruct (x_open x) as [[i f]|]; [|exact Logic.I]. rewrite <- R5. apply same_open. cbn [x_dinf]. symmetry. exact R1.
  - intros y. unfold read_item. destruct (nth_error (items (x_meta x)) k) as [a|]; [|discriminate].
    destruct (negb (i_method a =? 0) || (i_dref a =? 0))%bool; [discriminate|].
    set (o := match x_open x with Some _ => _ | None => _ end).
    assert (O : o = open_source e x (i_dref a)).
    { subst o. unfold opened in R5. destruct (x_open x) as [[i f]|]; [|reflexivity]. destruct (N.eqb_spec i (i_dref a)); [subst; symmetry; exact R5|reflexivity]. }
    rewrite O. clear o O. destruct (open_source e x (i_dref a)) as [d|r|] eqn:P; [| |discriminate].
    + intros Y. assert (Y' : y = mkX (x_dinf x) (x_meta x) (Some (i_dref a, d))) by (destruct (file_extents d (i_base a) true [] (i_exts a)); congruence). subst y.
      constructor; cbn [x_dinf x_meta]; try assumption.
    + intros Y. inversion Y; subst. constructor; cbn [x_dinf x_meta]; try assumption.
Qed.
Lemma its_grow s c : len (its s) <= len (its (makes s c)).
Proof.
  destruct c as [[u n|base ref|k off n]|k]; cbn [makes its]; try lia; [rewrite len_app; lia|]. destruct (given s); cbn [its]; [lia|]. unfold len. rewrite len_at_item. lia.
Qed.
Lemma its_grows cs : forall s, len (its s) <= len (its (fold_left makes cs s)).
Proof. induction cs as [|c cs IH]; intros s; cbn [fold_left]; [lia|]. specialize (IH (makes s c)). pose proof (its_grow s c). lia. Qed.
Lemma calls_rep e cs : forall s x, rep e s x -> calls_ok s cs -> len (its (fold_left makes cs s)) < 65535 ->
  forall y, xcalls e x cs = Ok y -> rep e (fold_left makes cs s) y.
Proof.
  induction cs as [|c cs IH]; intros s x R Hc Hn y; cbn [fold_left xcalls calls_ok] in *; [intros H; inversion H; subst; exact R|].
  destruct Hc as [H1 H2]. pose proof (its_grows cs (makes s c)) as G. pose proof (step_rep e s x c R H1 ltac:(lia)) as S.
  destruct (xdo e x c) as [z| |] eqn:Z; cbn [bind]; [|discriminate|discriminate].
  intros Y. assert (Rz : rep e (makes s c) z) by (destruct c; [destruct S as (z' & Ez & Rz); congruence|apply S; reflexivity]).
  eapply IH; eassumption.
Qed.
Lemma rep_new e : rep e nothing x_new.
Proof.
  constructor; cbn [nothing given its x_new x_dinf x_meta x_open meta_new m_next m_iloc items]; try reflexivity.
  - intros [].
  - constructor.
  - congruence.
Qed.
Lemma reached e cs x : calls_ok nothing cs -> len (its (story cs)) < 65535 -> xcalls e x_new cs = Ok x -> rep e (story cs) x.
Proof. intros Hc Hn Hx. exact (calls_rep e cs nothing x_new (rep_new e) Hc Hn x Hx). Qed.

(* calls that make references, items and extents are never undefined *)
Theorem C83_history : forall e cs, (forall k, ~ In (Read k) cs) -> calls_ok nothing cs -> len (its (story cs)) < 65535 ->
  exists x, xcalls e x_new cs = Ok x.
Proof.
  intros e. unfold story.
  assert (G : forall cs s x, rep e s x -> (forall k, ~ In (Read k) cs) -> calls_ok s cs -> len (its (fold_left makes cs s)) < 65535 -> exists y, xcalls e x cs = Ok y).
  { induction cs as [|c cs IH]; intros s x R Hr Hc Hn; cbn [fold_left xcalls calls_ok] in *; [exists x; reflexivity|].
    destruct Hc as [H1 H2]. pose proof (its_grows cs (makes s c)) as L. pose proof (step_rep e s x c R H1 ltac:(lia)) as S.
    destruct c as [o|k]; [|exfalso; apply (Hr k); left; reflexivity]. destruct S as (y & Ey & Ry). rewrite Ey. cbn [bind].
    eapply IH; try eassumption. intros k Hk. apply (Hr k). right. exact Hk. }
  intros cs. apply (G cs nothing x_new (rep_new e)).
Qed.

(* ------------------------------------------------------------------ *)
(* References                                                          *)

(* references are numbered in the order they were given, and are kept as given
   in the box and in a file *)
Theorem C83_references : forall e cs x, calls_ok nothing cs -> len (its (story cs)) < 65535 -> xcalls e x_new cs = Ok x ->
  (forall u n, len (given (story cs)) < 65535 -> exists y, add_reference x u n = Ok (y, len (given (story cs)) + 1)) /\
  (given (story cs) = [] -> x_dinf x = None) /\
  (given (story cs) <> [] -> exists d, x_dinf x = Some (Some d) /\
     (forall k, dref_describe d k true false = kth_ref (given (story cs)) k) /\
     (Forall plain_ref (given (story cs)) -> 8 + len (l_body (dref_layout entry_codec (lsum url_layout no_urn)) d) < 4294967296 ->
      exists bs a, write_box (dref_codec entry_codec (inl (mkUrl T_url 0 1 None))) d = Ok bs /\
        (forall q rest, read_box (dref_codec entry_codec (inl (mkUrl T_url 0 1 None))) q (bs ++ rest) = Ok ((ALeaf _ a, len bs), rest)) /\
        forall k, dref_describe a k true false = kth_ref (given (story cs)) k)).
Proof.
  intros e cs x Hc Hn Hx. destruct (reached e cs x Hc Hn Hx) as [R1 RH R2 R3 R4 R5]. split; [|split].
  - intros u n L. unfold add_reference. rewrite R1.
    assert (E : (match match given (story cs) with [] => None | _ => Some (Some (refer (given (story cs)))) end with
      Some None => Err MP4InvalidMediaErr | Some (Some d) => Ok d | None => Ok (mkDref 0 0 []) end : res (dref (durl + durn))) = Ok (refer (given (story cs)))) by (destruct (given (story cs)); reflexivity).
    rewrite E. cbn [bind]. rewrite refer_add. cbn [fst snd]. eexists. unfold w16. rewrite N.mod_small by lia. reflexivity.
  - intros G. rewrite R1, G. reflexivity.
  - intros G. exists (refer (given (story cs))). split; [rewrite R1; destruct (given (story cs)); [congruence|reflexivity]|].
    destruct (C57_references (given (story cs))) as [A B]. split; [exact A|exact B].
Qed.
(* the 65536th reference is given the number 0, the one of this file *)
Theorem C83_many_references_refuted : forall x d u n, x_dinf x = Some (Some d) -> len (dr_kids d) = 65535 ->
  exists y, add_reference x u n = Ok (y, 0).
Proof.
  intros x d u n E L. unfold add_reference. rewrite E. cbn [bind]. unfold dref_add. cbn [fst snd]. rewrite len_app, L. eexists. reflexivity.
Qed.

(* extents are refused for items without a reference, and before any reference *)
Theorem C83_extent_refused : forall e cs x k base ref xs off n, calls_ok nothing cs -> len (its (story cs)) < 65535 -> xcalls e x_new cs = Ok x ->
  nth_error (its (story cs)) k = Some (base, ref, xs) -> ref = 0 \/ given (story cs) = [] -> add_elsewhere x k off n = Err MP4BadParamErr.
Proof.
  intros e cs x k base ref xs off n Hc Hn Hx Hk Hr. destruct (reached e cs x Hc Hn Hx) as [R1 RH R2 R3 R4 R5].
  unfold add_elsewhere. destruct (nth_error (items (x_meta x)) k) as [a|] eqn:A.
  2:{ apply nth_error_None in A. rewrite <- (its_length _ _ R2) in A. assert (nth_error (its (story cs)) k <> None) as B by congruence. apply nth_error_Some in B. lia. }
  assert (S : same_item (base, ref, xs) a).
  { clear - R2 A Hk. revert k A Hk. induction R2 as [|i b l la S F IH]; intros [|k] A Hk; try discriminate; cbn [nth_error] in *; [congruence|]. eapply IH; eassumption. }
  destruct S as (_ & S2 & _). cbn [fst snd] in S2. rewrite S2. destruct (N.eqb_spec ref 0) as [|Z]; [reflexivity|].
  destruct Hr as [|G]; [congruence|]. rewrite R1, G. reflexivity.
Qed.

(* ------------------------------------------------------------------ *)
(* Files                                                               *)

Lemma c_string_text s r : text s -> c_string (s ++ 0 :: r) = Some s.
Proof. induction 1 as [|v s Hv _ IH]; cbn [app c_string]; [reflexivity|]. destruct (N.eqb_spec v 0); [lia|]. rewrite IH. reflexivity. Qed.
Lemma starts_ok p : forall b, starts p b = true <-> begins p b.
Proof.
  induction p as [|v p IH]; intros b; cbn [starts]; [split; [exists b; reflexivity|reflexivity]|].
  destruct b as [|w b]; [split; [discriminate|intros [r R]; discriminate]|].
  rewrite Bool.andb_true_iff, N.eqb_eq, IH. split.
  - intros [-> [r ->]]. exists r. reflexivity.
  - intros [r R]. inversion R; subst. split; [reflexivity|]. exists r. reflexivity.
Qed.
Lemma schemed_ok s : schemed s = true <-> scheme s.
Proof. unfold schemed, scheme. rewrite Bool.orb_true_iff, !starts_ok. reflexivity. Qed.
Lemma not_schemed s : ~ scheme s -> schemed s = false.
Proof. intros H. destruct (schemed s) eqn:E; [|reflexivity]. exfalso. apply H, schemed_ok, E. Qed.
Lemma located_name e loc f : located e loc f -> text loc -> exists p, path_name e (Some (cstr loc)) = Ok p /\ schemed p = false /\ disk e p = Some f.
Proof.
  intros L T. unfold path_name, cstr. rewrite (c_string_text loc [] T). destruct L as [p f S D|d dir p f O S1 S2 D|p f O S D].
  - exists p. split; [|split; [apply not_schemed; exact S|exact D]].
    assert (X : schemed (word "file://" ++ p) = true) by (apply schemed_ok; left; exists p; reflexivity). rewrite X. reflexivity.
  - exists (dir ++ p). rewrite (not_schemed p S1), O. split; [reflexivity|]. split; [apply not_schemed; exact S2|exact D].
  - exists p. rewrite (not_schemed p S). split; [|split; [reflexivity|exact D]].
    destruct (own e) as [[d [dir|]]|] eqn:E; [exfalso; exact (O d dir eq_refl)|reflexivity|reflexivity].
Qed.
Lemma located_open e loc f : located e loc f -> text loc -> open_entry e 0 (Some (cstr loc)) = Ok f.
Proof.
  intros L T. destruct (located_name e loc f L T) as (p & P & S & D). unfold open_entry. change (0 =? 1) with false. cbv iota. rewrite P. cbn [bind].
  unfold open_file. rewrite S, D. reflexivity.
Qed.

(* ------------------------------------------------------------------ *)
(* Reading                                                             *)

Lemma extent_ok f base got o n : len f < 2147479552 -> base + o + n <= len f -> 0 < n -> got + n < 4294967296 ->
  file_extent f base got (mkExtent 0 o n) = Ok (slice f (base + o) n).
Proof.
  intros Hf Hi Hn Hg. unfold file_extent. cbn [e_len e_off]. destruct (N.eqb_spec n 0); [lia|].
  rewrite N.shiftr_div_pow2. replace (n / 2 ^ 32) with 0 by (change (2 ^ 32) with 4294967296; lia). change (0 =? 0) with true. cbn [negb bind].
  destruct (N.ltb_spec 4294967295 (got + n)); [lia|].
  unfold file_copy. rewrite w64_small by lia. rewrite N.shiftr_div_pow2. replace ((o + base) / 2 ^ 32) with 0 by (change (2 ^ 32) with 4294967296; lia). change (0 =? 0) with true. cbn [negb].
  destruct (N.ltb_spec (len f) (o + base + n)); [lia|]. unfold slice. rewrite (N.add_comm base o). reflexivity.
Qed.
Lemma extents_ok f base xs : len f < 2147479552 -> Forall (inside f base) xs -> forall acc, len acc + total xs < 4294967296 ->
  file_extents f base false acc (map (fun x => mkExtent 0 (fst x) (snd x)) xs) = Ok (acc ++ wanted f base xs, base).
Proof.
  intros Hf. induction 1 as [|[o n] xs [H1 H2] _ IH]; intros acc Ht; cbn [map file_extents wanted flat_map total fold_right fst snd] in *; [rewrite app_nil_r; reflexivity|].
  fold (total xs) in Ht. rewrite extent_ok by (try assumption; lia). cbn [bind]. rewrite IH.
  - unfold wanted. rewrite <- app_assoc. reflexivity.
  - rewrite len_app. assert (L : len (slice f (base + o) n) <= n) by (unfold slice, len; rewrite firstn_length; lia). lia.
Qed.
(* the bytes found depend only on what was made, not on what was read before *)
Lemma read_rep e s x k base ref xs : rep e s x -> nth_error (its s) k = Some (base, ref, xs) -> ref <> 0 ->
  fst (read_item e x k) = do f <- open_source e x ref; file_extents f (match xs with [] => base | b :: _ => w64 (base + fst b) end) true [] (map (fun x => mkExtent 0 (fst x) (snd x)) xs).
Proof.
  intros [R1 RH R2 R3 R4 R5] Hk Hr. unfold read_item. destruct (nth_error (items (x_meta x)) k) as [a|] eqn:A.
  2:{ apply nth_error_None in A. rewrite <- (its_length _ _ R2) in A. assert (nth_error (its s) k <> None) as B by congruence. apply nth_error_Some in B. lia. }
  assert (S : same_item (base, ref, xs) a).
  { clear - R2 A Hk. revert k A Hk. induction R2 as [|i b l la S F IH]; intros [|k] A Hk; try discriminate; cbn [nth_error] in *; [congruence|]. eapply IH; eassumption. }
  destruct S as (S1 & S2 & S3 & S4). cbn [fst snd] in *. rewrite S1, S2. change (0 =? 0) with true. cbn [negb orb]. destruct (N.eqb_spec ref 0); [congruence|].
  set (o := match x_open x with Some _ => _ | None => _ end).
  assert (O : o = open_source e x ref).
  { subst o. unfold opened in R5. destruct (x_open x) as [[i f]|]; [|reflexivity]. destruct (N.eqb_spec i ref); [subst; symmetry; exact R5|reflexivity]. }
  rewrite O. destruct (open_source e x ref); cbn [fst bind]; [|reflexivity|reflexivity]. rewrite S3, S4. reflexivity.
Qed.
Lemma found_open e s x ref d loc f : rep e s x -> ref <> 0 -> nthN (given s) (ref - 1) = Some d -> place d = cstr loc -> text loc -> located e loc f ->
  open_source e x ref = Ok f.
Proof.
  intros [R1 RH R2 R3 R4 R5] Hr Hd Hp Ht Hl. rewrite (refs_open e x (given s) ref R1 Hr). rewrite Hd. pose proof (located_open e loc f Hl Ht) as L. rewrite <- Hp in L.
  assert (D : d <> Here). { intros ->. apply RH. unfold nthN in Hd. eapply nth_error_In, Hd. }
  destruct (given s); [discriminate Hd || (unfold nthN in Hd; destruct (N.to_nat (ref - 1)); discriminate)|]. destruct d; [congruence|exact L|exact L].
Qed.

(* an item whose first extent is at its base offset: all its extents of the
   file its reference leads to, and its base offset, whatever was read before *)
Theorem C83_read : forall e cs x k base ref xs d loc f, calls_ok nothing cs -> len (its (story cs)) < 65535 -> xcalls e x_new cs = Ok x ->
  nth_error (its (story cs)) k = Some (base, ref, xs) -> ref <> 0 -> nthN (given (story cs)) (ref - 1) = Some d ->
  place d = cstr loc -> text loc -> located e loc f -> len f < 2147479552 -> Forall (inside f base) xs -> total xs < 4294967296 ->
  match xs with [] => base < 18446744073709551616 | b :: _ => fst b = 0 end ->
  fst (read_item e x k) = Ok (wanted f base xs, base).
Proof.
  intros e cs x k base ref xs d loc f Hc Hn Hx Hk Hr Hd Hp Ht Hl Hf Hi Hs H0. pose proof (reached e cs x Hc Hn Hx) as R.
  rewrite (read_rep e _ x k base ref xs R Hk Hr), (found_open e _ x ref d loc f R Hr Hd Hp Ht Hl). cbn [bind].
  destruct xs as [|[o n] xs]; [reflexivity|]. cbn [fst] in H0. subst o. inversion Hi as [|? ? [H1 H2] Hi']; subst. cbn [fst snd] in *.
  cbn [map file_extents fst snd]. cbn [total fold_right] in Hs. fold (total xs) in Hs. rewrite N.add_0_r, w64_small by lia.
  rewrite extent_ok by (rewrite ?len_nil; cbn [snd] in Hs; try assumption; lia). cbn [bind e_off]. replace (sub64 base 0) with base by (unfold sub64, w64; lia).
  rewrite extents_ok; [cbn [wanted flat_map app fst snd]; reflexivity|assumption|assumption|].
  cbn [app snd] in *. assert (L : len (slice f (base + 0) n) <= n) by (unfold slice, len; rewrite firstn_length; lia). lia.
Qed.
(* a first extent elsewhere is taken from twice its offset *)
Theorem C83_first_extent_refuted : forall e cs x k base ref o n xs d loc f, calls_ok nothing cs -> len (its (story cs)) < 65535 -> xcalls e x_new cs = Ok x ->
  nth_error (its (story cs)) k = Some (base, ref, (o, n) :: xs) -> ref <> 0 -> nthN (given (story cs)) (ref - 1) = Some d ->
  place d = cstr loc -> text loc -> located e loc f -> len f < 2147479552 -> Forall (inside f base) xs -> total ((o, n) :: xs) < 4294967296 ->
  0 < n -> base + 2 * o + n <= len f ->
  fst (read_item e x k) = Ok (slice f (base + 2 * o) n ++ wanted f base xs, base).
Proof.
  intros e cs x k base ref o n xs d loc f Hc Hn Hx Hk Hr Hd Hp Ht Hl Hf Hi Hs H1 H2. pose proof (reached e cs x Hc Hn Hx) as R.
  rewrite (read_rep e _ x k base ref _ R Hk Hr), (found_open e _ x ref d loc f R Hr Hd Hp Ht Hl). cbn [bind fst].
  cbn [map file_extents fst snd]. cbn [total fold_right snd] in Hs. fold (total xs) in Hs. rewrite w64_small by lia.
  rewrite extent_ok by (rewrite ?len_nil; try assumption; lia). cbn [bind e_off]. replace (sub64 (base + o) o) with base by (unfold sub64, w64; lia).
  replace (base + o + o) with (base + 2 * o) by lia.
  rewrite extents_ok; [cbn [app]; reflexivity|assumption|assumption|].
  cbn [app]. assert (L : len (slice f (base + 2 * o) n) <= n) by (unfold slice, len; rewrite firstn_length; lia). lia.
Qed.
(* an extent of length 0 is the whole file *)
Theorem C83_whole : forall e cs x k ref d loc f, calls_ok nothing cs -> len (its (story cs)) < 65535 -> xcalls e x_new cs = Ok x ->
  nth_error (its (story cs)) k = Some (0, ref, [(0, 0)]) -> ref <> 0 -> nthN (given (story cs)) (ref - 1) = Some d ->
  place d = cstr loc -> text loc -> located e loc f -> len f < 2147479552 ->
  fst (read_item e x k) = Ok (f, 0).
Proof.
  intros e cs x k ref d loc f Hc Hn Hx Hk Hr Hd Hp Ht Hl Hf. pose proof (reached e cs x Hc Hn Hx) as R.
  rewrite (read_rep e _ x k 0 ref _ R Hk Hr), (found_open e _ x ref d loc f R Hr Hd Hp Ht Hl). cbn [bind fst map file_extents snd].
  unfold file_extent. cbn [e_len e_off]. change (0 =? 0) with true. cbv iota.
  rewrite N.shiftr_div_pow2. replace (len f / 2 ^ 32) with 0 by (change (2 ^ 32) with 4294967296; lia). change (0 =? 0) with true. cbn [negb bind].
  rewrite len_nil. destruct (N.ltb_spec 4294967295 (0 + len f)); [lia|]. change (w64 (0 + w64 (0 + 0))) with 0. unfold file_copy. change (negb (N.shiftr 0 32 =? 0)) with false. cbv iota.
  destruct (N.ltb_spec (len f) (0 + len f)); [lia|]. cbn [bind app]. change (N.to_nat 0) with O. cbn [skipn]. unfold len. rewrite Nnat.Nat2N.id, firstn_all. reflexivity.
Qed.
Lemma read_same e x y k : x_dinf y = x_dinf x -> x_meta y = x_meta x -> opened e y ->
  fst (read_item e y k) = fst (read_item e (mkX (x_dinf x) (x_meta x) None) k) /\ x_dinf (snd (read_item e y k)) = x_dinf x /\
  x_meta (snd (read_item e y k)) = x_meta x /\ opened e (snd (read_item e y k)).
Proof.
  intros E1 E2 O. unfold read_item. cbn [x_meta x_open x_dinf]. rewrite E2. destruct (nth_error (items (x_meta x)) k) as [a|]; [|cbn [fst snd]; auto].
  destruct (negb (i_method a =? 0) || (i_dref a =? 0))%bool; [cbn [fst snd]; auto|].
  set (o := match x_open y with Some _ => _ | None => _ end).
  assert (Q : o = open_source e y (i_dref a)).
  { subst o. unfold opened in O. destruct (x_open y) as [[i f]|]; [|reflexivity]. destruct (N.eqb_spec i (i_dref a)); [subst; symmetry; exact O|reflexivity]. }
  rewrite Q. clear o Q. rewrite (same_open e (mkX (x_dinf x) (x_meta x) None) y (i_dref a)) by (cbn [x_dinf]; congruence).
  destruct (open_source e y (i_dref a)) as [f|r|] eqn:P; cbn [fst snd x_dinf x_meta];
    (split; [reflexivity|]; split; [assumption|]; split; [first [reflexivity|assumption]|first [exact O|exact P|exact Logic.I]]).
Qed.
(* what was read before, and in which order, makes no difference *)
Theorem C83_reading_order : forall e cs x ks, calls_ok nothing cs -> len (its (story cs)) < 65535 -> xcalls e x_new cs = Ok x ->
  read_items e x ks = map (fun k => fst (read_item e (mkX (x_dinf x) (x_meta x) None) k)) ks.
Proof.
  intros e cs x ks Hc Hn Hx. pose proof (r_open _ _ _ (reached e cs x Hc Hn Hx)) as R5. clear Hc Hn Hx.
  assert (G : forall ks y, x_dinf y = x_dinf x -> x_meta y = x_meta x -> opened e y ->
    read_items e y ks = map (fun k => fst (read_item e (mkX (x_dinf x) (x_meta x) None) k)) ks).
  { clear ks R5. induction ks as [|k ks IH]; intros y E1 E2 O; [reflexivity|]. cbn [read_items map].
    destruct (read_same e x y k E1 E2 O) as (A & B & C & D). destruct (read_item e y k) as [r z]. cbn [fst snd] in *. rewrite A. f_equal. apply IH; assumption. }
  apply G; [reflexivity|reflexivity|exact R5].
Qed.
(* what is missing is reported *)
Theorem C83_missing : forall e cs x k base ref xs, calls_ok nothing cs -> len (its (story cs)) < 65535 -> xcalls e x_new cs = Ok x ->
  nth_error (its (story cs)) k = Some (base, ref, xs) -> ref <> 0 ->
  (given (story cs) = [] -> fst (read_item e x k) = Err MP4InvalidMediaErr) /\
  (given (story cs) <> [] -> len (given (story cs)) < ref -> fst (read_item e x k) = Err MP4BadParamErr) /\
  (forall d loc, nthN (given (story cs)) (ref - 1) = Some d -> place d = cstr loc -> text loc -> ~ scheme loc ->
   (forall q dir, own e <> Some (q, Some dir)) -> disk e loc = None -> fst (read_item e x k) = Err MP4FileNotFoundErr).
Proof.
  intros e cs x k base ref xs Hc Hn Hx Hk Hr. pose proof (reached e cs x Hc Hn Hx) as R. rewrite (read_rep e _ x k base ref _ R Hk Hr).
  destruct R as [R1 RH _ _ _ _]. rewrite (refs_open e x _ ref R1 Hr). split; [|split].
  - intros G. rewrite G. reflexivity.
  - intros G L. assert (D : nthN (given (story cs)) (ref - 1) = None) by (unfold nthN; apply nth_error_None; unfold len in L; lia). rewrite D. destruct (given (story cs)); [congruence|reflexivity].
  - intros d loc Hd Hp Ht S O D. rewrite Hd.
    assert (H : d <> Here). { intros ->. apply RH. unfold nthN in Hd. eapply nth_error_In, Hd. }
    assert (E : open_entry e 0 (Some (place d)) = Err MP4FileNotFoundErr).
    { rewrite Hp. unfold open_entry, path_name, cstr. change (0 =? 1) with false. cbv iota. rewrite (c_string_text loc [] Ht), (not_schemed loc S).
      destruct (own e) as [[q [dir|]]|] eqn:Oe; [exfalso; exact (O q dir eq_refl)| |]; cbn [bind]; unfold open_file; rewrite (not_schemed loc S), D; reflexivity. }
    destruct (given (story cs)); [unfold nthN in Hd; destruct (N.to_nat (ref - 1)); discriminate|]. destruct d; [congruence| |]; rewrite E; reflexivity.
Qed.
(* a location that has no zero at its end is read past it *)
Theorem C83_unterminated_refuted : forall e cs x k base ref xs d, calls_ok nothing cs -> len (its (story cs)) < 65535 -> xcalls e x_new cs = Ok x ->
  nth_error (its (story cs)) k = Some (base, ref, xs) -> ref <> 0 -> nthN (given (story cs)) (ref - 1) = Some d -> ~ In 0 (place d) ->
  fst (read_item e x k) = UB.
Proof.
  intros e cs x k base ref xs d Hc Hn Hx Hk Hr Hd Hz. pose proof (reached e cs x Hc Hn Hx) as R. rewrite (read_rep e _ x k base ref _ R Hk Hr).
  destruct R as [R1 RH _ _ _ _]. rewrite (refs_open e x _ ref R1 Hr), Hd.
  assert (H : d <> Here). { intros ->. apply RH. unfold nthN in Hd. eapply nth_error_In, Hd. }
  assert (C : forall b, ~ In 0 b -> c_string b = None).
  { induction b as [|v b IH]; intros Hb; cbn [c_string]; [reflexivity|]. destruct (N.eqb_spec v 0) as [->|]; [exfalso; apply Hb; left; reflexivity|]. rewrite IH; [reflexivity|]. intros I. apply Hb. right. exact I. }
  assert (E : open_entry e 0 (Some (place d)) = UB) by (unfold open_entry, path_name; change (0 =? 1) with false; cbv iota; rewrite (C _ Hz); reflexivity).
  destruct (given (story cs)); [unfold nthN in Hd; destruct (N.to_nat (ref - 1)); discriminate|]. destruct d; [congruence| |]; rewrite E; reflexivity.
Qed.
(* an extent that ends after the file is read all the same *)
Theorem C83_past_end_refuted : forall e cs x k base ref n d loc f, calls_ok nothing cs -> len (its (story cs)) < 65535 -> xcalls e x_new cs = Ok x ->
  nth_error (its (story cs)) k = Some (base, ref, [(0, n)]) -> ref <> 0 -> nthN (given (story cs)) (ref - 1) = Some d ->
  place d = cstr loc -> text loc -> located e loc f -> base < 4294967296 -> 0 < n < 4294967296 -> len f < base + n ->
  fst (read_item e x k) = UB.
Proof.
  intros e cs x k base ref n d loc f Hc Hn Hx Hk Hr Hd Hp Ht Hl Hb Hl' Hf. pose proof (reached e cs x Hc Hn Hx) as R.
  rewrite (read_rep e _ x k base ref _ R Hk Hr), (found_open e _ x ref d loc f R Hr Hd Hp Ht Hl). cbn [bind fst map file_extents snd].
  unfold file_extent. cbn [e_len e_off]. destruct (N.eqb_spec n 0); [lia|].
  rewrite N.shiftr_div_pow2. replace (n / 2 ^ 32) with 0 by (change (2 ^ 32) with 4294967296; lia). change (0 =? 0) with true. cbn [negb bind].
  rewrite len_nil. destruct (N.ltb_spec 4294967295 (0 + n)); [lia|]. rewrite N.add_0_r, N.add_0_l, !(w64_small base) by lia. unfold file_copy.
  rewrite N.shiftr_div_pow2. replace (base / 2 ^ 32) with 0 by (change (2 ^ 32) with 4294967296; lia). change (0 =? 0) with true. cbn [negb].
  destruct (N.ltb_spec (len f) (base + n)); [|lia]. reflexivity.
Qed.

(* ------------------------------------------------------------------ *)
(* Checking                                                            *)

Lemma check_box e d : d <> Here -> check_entry e (ref_box d) = do n <- path_name e (Some (place d)); match disk e n with Some _ => Ok tt | None => Err MP4FileNotFoundErr end.
Proof. intros H. destruct d; [congruence|reflexivity|reflexivity]. Qed.
(* the check succeeds when all files are there, and fails at the first that is
   not *)
Theorem C83_check : forall e cs x, calls_ok nothing cs -> len (its (story cs)) < 65535 -> xcalls e x_new cs = Ok x ->
  (Forall (there e) (given (story cs)) -> check_references e x = Ok tt) /\
  (forall ds d ds' loc, given (story cs) = ds ++ d :: ds' -> Forall (there e) ds -> place d = cstr loc -> text loc -> ~ scheme loc ->
   (forall q dir, own e <> Some (q, Some dir)) -> disk e loc = None -> check_references e x = Err MP4FileNotFoundErr).
Proof.
  intros e cs x Hc Hn Hx. destruct (reached e cs x Hc Hn Hx) as [R1 RH _ _ _ _].
  assert (K : forall ds r, ~ In Here ds -> Forall (there e) ds -> check_entries e (map ref_box ds ++ r) = check_entries e r).
  { induction ds as [|d ds IH]; intros r H F; cbn [map app check_entries]; [reflexivity|]. inversion F as [|? ? (loc & f & P & T & L) F']; subst.
    rewrite check_box by (intros ->; apply H; left; reflexivity). rewrite P. destruct (located_name e loc f L T) as (p & Q & _ & D). rewrite Q. cbn [bind]. rewrite D. cbn [bind].
    apply IH; [intros I; apply H; right; exact I|exact F']. }
  unfold check_references. rewrite R1. split.
  - intros F. destruct (given (story cs)) as [|d ds] eqn:G; [reflexivity|]. rewrite refer_is. cbn [dr_kids]. rewrite <- (app_nil_r (map ref_box _)).
    rewrite K; [reflexivity|exact RH|exact F].
  - intros ds d ds' loc G F P T S O D. rewrite G in *.
    destruct (ds ++ d :: ds') as [|d0 r0] eqn:Z; [destruct ds; discriminate|]. rewrite <- Z in *. clear d0 r0 Z. rewrite refer_is. cbn [dr_kids]. rewrite map_app.
    rewrite K; [|intros I; apply RH, in_or_app; left; exact I|exact F]. cbn [map check_entries].
    rewrite check_box by (intros ->; apply RH, in_or_app; right; left; reflexivity). rewrite P. unfold path_name, cstr. rewrite (c_string_text loc [] T), (not_schemed loc S).
    destruct (own e) as [[q [dir|]]|] eqn:Oe; [exfalso; exact (O q dir eq_refl)| |]; cbn [bind]; rewrite D; reflexivity.
Qed.

(* ------------------------------------------------------------------ *)
(* two files, one beside the movie, and three items read in any order *)
Definition sample_around : around :=
  mkAround (fun p => if list_eq_dec N.eq_dec p (word "/m/a") then Some [1; 2; 3; 4; 5] else if list_eq_dec N.eq_dec p (word "/b") then Some [6; 7; 8] else None)
    (Some ([], Some (word "/m/"))).
Definition sample_calls : list xcall :=
  [Make (XItem 1 1); Make (XExt 0 0 2); Make (XRef (cstr (word "a")) None); Make (XRef (cstr (word "file:///b")) (Some [110; 0])); Make (XItem 0 2);
   Make (XExt 0 0 1); Make (XExt 1 0 2); Make (XExt 0 3 1); Read 0; Read 1; Make (XItem 0 1); Make (XExt 2 1 1); Read 1].
Example C83_sample : exists x, xcalls sample_around x_new sample_calls = Ok x /\ calls_ok nothing sample_calls /\ len (its (story sample_calls)) < 65535 /\
  its (story sample_calls) = [(1, 1, [(0, 1); (3, 1)]); (0, 2, [(0, 2)]); (0, 1, [(1, 1)])] /\
  read_items sample_around x [0; 1; 2; 0]%nat = [Ok ([2; 5], 1); Ok ([6; 7], 0); Ok ([3], 0); Ok ([2; 5], 1)] /\
  located sample_around (word "a") [1; 2; 3; 4; 5] /\ located sample_around (word "file:///b") [6; 7; 8] /\
  text (word "a") /\ Forall (inside [1; 2; 3; 4; 5] 1) [(0, 1); (3, 1)] /\ check_references sample_around x = Ok tt.
Proof.
  eexists. split; [vm_compute; reflexivity|].
  assert (S : forall s, schemed s = false -> ~ scheme s) by (intros s E H; apply schemed_ok in H; congruence).
  repeat match goal with |- _ /\ _ => split end; try (vm_compute; reflexivity).
  - cbn. repeat match goal with |- _ /\ _ => split end; try exact I; lia.
  - apply (Beside _ [] (word "/m/")); [reflexivity|apply S; reflexivity|apply S; reflexivity|reflexivity].
  - change (word "file:///b") with (word "file://" ++ word "/b"). apply Absolute; [apply S; reflexivity|reflexivity].
  - repeat constructor.
  - repeat (constructor; [split; [reflexivity|discriminate]|]). constructor.
Qed.

Print Assumptions C83_history.
Print Assumptions C83_references.
Print Assumptions C83_many_references_refuted.
Print Assumptions C83_extent_refused.
Print Assumptions C83_read.
Print Assumptions C83_first_extent_refuted.
Print Assumptions C83_whole.
Print Assumptions C83_reading_order.
Print Assumptions C83_missing.
Print Assumptions C83_unterminated_refuted.
Print Assumptions C83_past_end_refuted.
Print Assumptions C83_check.

(* IodProps.v -- C75: the initial object descriptor of a movie. *)
From Verif Require Import Base Codec Reads AtomModel AtomProofs BoxModel BoxSpec BoxProofs DescModel DescSpec DescProofs OdModel OdSpec OdProofs OdProps IodModel IodSpec.

Local Ltac Zify.zify_post_hook ::= Z.div_mod_to_equations.

Lemma at_none m n ks : ~ In n [1; 3; 4; 5] -> Forall kid_in ks -> m = n -> at_ m ks = [].
Proof.
  intros NI F ->. induction F as [|k ks (K & _) F IH]; [reflexivity|]. cbn [at_ filter]. destruct (N.eqb_spec (fst k) n) as [E|E]; [subst; contradiction|exact IH].
Qed.
Lemma at_0 ks : Forall kid_in ks -> at_ 0 ks = [].
Proof. intros F. apply (at_none 0 0); [cbn; intuition discriminate|exact F|reflexivity]. Qed.
Lemma at_2 ks : Forall kid_in ks -> at_ 2 ks = [].
Proof. intros F. apply (at_none 2 2); [cbn; intuition discriminate|exact F|reflexivity]. Qed.
Lemma but_0 ks : Forall kid_in ks -> but 0 ks = ks.
Proof.
  intros F. induction F as [|k ks (K & _) F IH]; [reflexivity|]. cbn [but filter]. destruct (N.eqb_spec (fst k) 0) as [E|E]; [rewrite E in K; cbn in K; intuition discriminate|]. cbn [negb]. f_equal. exact IH.
Qed.
Definition filled (e : N -> desc) (ks : list (N * desc)) : list (N * desc) := ks ++ map (fun k => (0, e (inc (snd k)))) (at_ 1 ks).
Lemma fill_ok esd e h incs : (forall k, In k incs -> is_inc (snd k) /\ esd (inc (snd k)) = Ok (e (inc (snd k))) /\ dtag (e (inc (snd k))) = 3) -> root_ok h ->
  forall ks, iod_fill esd h incs ks = (ks ++ map (fun k => (0, e (inc (snd k)))) incs, Ok tt).
Proof.
  intros H R. induction incs as [|[n [hd kk]] incs IH]; intros ks; cbn [iod_fill map]; [rewrite app_nil_r; reflexivity|].
  destruct (H _ (or_introl eq_refl)) as (I & E & T). destruct hd; try contradiction I. cbn [snd inc] in *. rewrite E.
  assert (A : desc_add h ks (e track) = Ok (ks ++ [(0, e track)])).
  { destruct h as [| | | | | |t id u|id i u a b c d g| | |]; try contradiction R; unfold desc_add, od_member, iod_member; rewrite T; reflexivity. }
  rewrite A. rewrite IH by (intros k K; apply H; right; exact K). rewrite <- app_assoc. reflexivity.
Qed.
Lemma flat_app_members l a b : members l (a ++ b) = flat_map (fun m => flat_map (fun k => enc (snd k)) (at_ m a) ++ flat_map (fun k => enc (snd k)) (at_ m b)) l.
Proof. unfold members. apply flat_map_ext. intros m. rewrite at_app, flat_map_app. reflexivity. Qed.
Lemma body_filled e h ks : root_ok h -> Forall kid_in ks -> body (Desc h (but 1 (filled e ks))) = fields h ++ streams e ks ++ members [3; 4; 5] ks.
Proof.
  intros R F. cbn [body]. f_equal. unfold filled.
  assert (A0 : at_ 0 (but 1 (ks ++ map (fun k => (0, e (inc (snd k)))) (at_ 1 ks))) = map (fun k => (0, e (inc (snd k)))) (at_ 1 ks)).
  { rewrite at_but. change (0 =? 1) with false. cbn match. rewrite at_app, (at_0 ks F), (at_all 0 0 (fun k => e (inc (snd k)))). reflexivity. }
  assert (AM : forall m, m <> 0 -> at_ m (but 1 (ks ++ map (fun k => (0, e (inc (snd k)))) (at_ 1 ks))) = if m =? 1 then [] else at_ m ks).
  { intros m N. rewrite at_but. destruct (m =? 1); [reflexivity|]. rewrite at_app, (at_all m 0 (fun k => e (inc (snd k)))). destruct (N.eqb_spec 0 m); [congruence|]. apply app_nil_r. }
  assert (S : streams e ks = flat_map (fun k => enc (snd k)) (map (fun k => (0, e (inc (snd k)))) (at_ 1 ks))) by (unfold streams; rewrite flat_map_map'; reflexivity).
  rewrite S. unfold members, sorted.
  destruct h as [| | | | | |t id u|id i u a b c d g| | |]; try contradiction R.
  - cbn [order flat_map]. fold (at_ (A:=desc)). unfold at_ in A0, AM |- *. cbv beta in *.
    rewrite A0, (AM 1), (AM 2), (AM 3), (AM 4), (AM 5) by discriminate. pose proof (at_2 ks F) as Z. unfold at_ in Z. cbn [N.eqb Pos.eqb]. rewrite Z.
    rewrite !app_nil_r, !flat_map_app. reflexivity.
  - destruct u; [|contradiction R]. cbn [order flat_map]. unfold at_ in A0, AM |- *. cbv beta in *.
    rewrite A0, (AM 1), (AM 3), (AM 4), (AM 5) by discriminate. cbn [N.eqb Pos.eqb]. rewrite !app_nil_r, !flat_map_app. reflexivity.
Qed.
Lemma filled_wf (esd : N -> res desc) e h ks : root_ok h -> Forall kid_in ks ->
  (forall k, In k (at_ 1 ks) -> esd (inc (snd k)) = Ok (e (inc (snd k))) /\ wf (e (inc (snd k))) /\ is_esd (e (inc (snd k)))) ->
  len_iod e h ks < 268435456 -> wf (Desc h (but 1 (filled e ks))).
Proof.
  intros R F E L.
  constructor; [| | |rewrite (body_filled e h ks R F); rewrite !len_app; unfold len_iod in L; lia].
    - destruct h as [| | | | | |t id u|id i u a b c d g| | |]; try contradiction R; cbn [root_ok] in R; [apply R|destruct u; [exact R|contradiction R]].
    - assert (O : Forall (fun k => In (fst k) [0; 3; 4; 5]) (but 1 (filled e ks))).
      { apply Forall_forall. intros k K. unfold but in K. apply filter_In in K. destruct K as [K1 K2]. unfold filled in K1. apply in_app_iff in K1. destruct K1 as [K1|K1].
        - rewrite Forall_forall in F. destruct (F k K1) as (G & _). cbn [In] in *. destruct G as [G|G]; [rewrite <- G in K2; discriminate|tauto].
        - apply in_map_iff in K1. destruct K1 as (x & <- & _). left. reflexivity. }
      destruct h as [| | | | | |t id u|id i u a b c d g| | |]; try contradiction R; [|destruct u; [|contradiction R]]; (eapply Forall_impl; [|exact O]; cbn; intros; tauto).
    - apply Forall_forall. intros k K. unfold but in K. apply filter_In in K. destruct K as [K1 _]. unfold filled in K1. apply in_app_iff in K1. destruct K1 as [K1|K1].
      + rewrite Forall_forall in F. apply (F k K1).
      + apply in_map_iff in K1. destruct K1 as (x & <- & X). cbn [snd]. apply (E x X).
Qed.

(* asking: the bytes are those a player expects, and the movie is as before *)
Theorem C75_get : forall esd e h ks, root_ok h -> Forall kid_in ks ->
  (forall k, In k (at_ 1 ks) -> esd (inc (snd k)) = Ok (e (inc (snd k))) /\ wf (e (inc (snd k))) /\ is_esd (e (inc (snd k)))) ->
  len_iod e h ks < 268435456 ->
  iod_get esd (Some (Desc h ks)) = (Some (Desc h ks), Ok (given_iod e h ks)).
Proof.
  intros esd e h ks R F E L.
  assert (T : forall d, is_esd d -> dtag d = 3) by (intros [[] ?] X; try contradiction X; reflexivity).
  assert (FI : iod_fill esd h (in_member 1 ks) ks = (filled e ks, Ok tt)).
  { apply fill_ok; [|exact R]. intros k K. destruct (E k K) as (E1 & E2 & E3). split; [|split; [exact E1|exact (T _ E3)]].
    apply in_at in K. destruct K as [K1 K2]. rewrite Forall_forall in F. apply (F k K1), K2. }
  assert (W : wf (Desc h (but 1 (filled e ks)))) by (apply (filled_wf esd); assumption).
  assert (B : filter (fun k : N * desc => negb (fst k =? 0)) (filled e ks) = ks).
  { unfold filled. rewrite filter_app. fold (but 0 ks). rewrite (but_0 ks F). assert (Z : forall l : list (N * desc), filter (fun k : N * desc => negb (fst k =? 0)) (map (fun k => (0, e (inc (snd k)))) l) = []) by (induction l as [|x l IH]; [reflexivity|exact IH]). rewrite Z. apply app_nil_r. }
  assert (EN : forall t, t < 256 -> retag t (enc (Desc h (but 1 (filled e ks)))) = tagged t (fields h ++ streams e ks ++ members [3; 4; 5] ks)).
  { intros t T'. rewrite enc_body, (body_filled e h ks R F). unfold tagged, be8. cbn [app retag]. rewrite (N.mod_small t) by lia. reflexivity. }
  unfold iod_get. cbv zeta. rewrite FI. change (filter (fun k : N * desc => negb (fst k =? 1)) (filled e ks)) with (but 1 (filled e ks)). rewrite (dwrite_ok _ W), B.
  destruct h as [| | | | | |t id u|id i u a b c d g| | |]; try contradiction R; [|rewrite (EN 2) by lia; reflexivity].
  cbn [root_ok] in R. destruct R as [-> R]. change (17 =? 17) with true. cbn match. change (in_member 2 ks) with (at_ 2 ks). rewrite (at_2 ks F), (EN 1) by lia. reflexivity.
Qed.
Print Assumptions C75_get.

Lemma read_2 t n : desc_read (mkR (2 :: t) n) = desc_read (mkR (16 :: t) n).
Proof. reflexivity. Qed.
(* a player reads them: the fields, the streams of the tracks, the rest *)
Theorem C75_given_read : forall e h ks rest n, root_ok h -> Forall kid_in ks ->
  (forall k, In k (at_ 1 ks) -> wf (e (inc (snd k))) /\ is_esd (e (inc (snd k)))) ->
  len_iod e h ks < 268435456 ->
  desc_read (mkR (given_iod e h ks ++ rest) n) =
  Ok (view (Desc h (but 1 ks ++ map (fun k => (0, e (inc (snd k)))) (at_ 1 ks))), mkR rest (w32 (n + len (given_iod e h ks)))).
Proof.
  intros e h ks rest n R F E L. pose proof (filled_wf (fun t => Ok (e t)) e h ks R F (fun k K => conj eq_refl (E k K)) L) as W.
  assert (B : but 1 (filled e ks) = but 1 ks ++ map (fun k => (0, e (inc (snd k)))) (at_ 1 ks)).
  { unfold filled, but. rewrite filter_app. f_equal. clear. induction (at_ 1 ks) as [|x l IH]; [reflexivity|]. cbn [map filter fst]. change (negb (0 =? 1)) with true. cbn match. rewrite IH. reflexivity. }
  pose proof (proj1 (desc_read_ok _ n W) rest) as H. rewrite enc_body, (body_filled e h ks R F), B in H.
  destruct h as [| | | | | |t id u|id i u a b c d g| | |]; try contradiction R.
  - destruct R as [-> R]. exact H.
  - exact H.
Qed.
Print Assumptions C75_given_read.

(* ------------------------------------------------------------------ *)
(* any history of calls                                                 *)

Lemma root_ihead h o : root_ok h -> root_ok (ihead h o) /\ len (fields (ihead h o)) = len (fields h).
Proof.
  intros R. destruct h as [| | | | | |t id u|id i u a b c d g| | |]; try contradiction R; destruct o; try (split; [exact R|reflexivity]).
Qed.
Lemma ikid_in o : iop_ok o -> Forall kid_in (ikid o).
Proof.
  destruct o as [id|d|f|]; cbn [ikid iop_ok]; intros H; try constructor.
  - split; [left; reflexivity|]. cbn [snd fst]. split; [|intros _; exact I]. constructor; [exact H|reflexivity|constructor|]. cbn [body fields sorted order flat_map]. rewrite app_nil_r, len_be32. reflexivity.
  - constructor.
  - destruct (addable d); constructor; [|constructor]. split; [cbn [fst]; destruct (dtag d =? 10); cbn; auto|]. split; [apply H|]. cbn [fst snd]. destruct (dtag d =? 10); discriminate.
Qed.
Lemma istep_add esd h ks d : root_ok h -> wf d -> still d ->
  istep esd (Some (Desc h ks)) (ODesc d) = (Some (Desc h (ks ++ ikid (ODesc d))), if addable d then Ok None else Err MP4BadParamErr).
Proof.
  intros R W S. cbn [istep ikid]. unfold iod_add_desc. pose proof (proj1 (desc_read_ok d 0 W) []) as H. rewrite app_nil_r, (still_view d S) in H. rewrite H. cbn [bind fst].
  unfold addable. destruct (iod_refused (dtag d)) eqn:RF; cbn [negb]; [rewrite app_nil_r; reflexivity|].
  assert (M : od_member (dtag d) = (if dtag d =? 10 then 4 else 5) /\ iod_member (dtag d) = (if dtag d =? 10 then 4 else 5)).
  { unfold iod_refused in RF. cbn [existsb] in RF. unfold od_member, iod_member. destruct (N.eqb_spec (dtag d) 3) as [E|_]; [rewrite E in RF; discriminate|]. destruct (N.eqb_spec (dtag d) 14) as [E|_]; [rewrite E in RF; discriminate|].
    destruct (N.eqb_spec (dtag d) 15) as [E|_]; [rewrite E in RF; discriminate|]. split; reflexivity. }
  destruct M as [M1 M2]. destruct h as [| | | | | |t id u|id i u a b c e g| | |]; try contradiction R.
  - destruct R as [-> R]. change (17 =? 17) with true. cbn match. unfold desc_add. rewrite M1. reflexivity.
  - unfold desc_add. rewrite M2. reflexivity.
Qed.
Lemma istep_track esd h ks id : root_ok h -> istep esd (Some (Desc h ks)) (OTrack id) = (Some (Desc h (ks ++ ikid (OTrack id))), Ok None).
Proof. intros R. destruct h as [| | | | | |t id' u|id' i u a b c e g| | |]; try contradiction R; reflexivity. Qed.
Lemma istep_inline esd h ks f : root_ok h -> istep esd (Some (Desc h ks)) (OInline f) = (Some (Desc (ihead h (OInline f)) ks), Ok None).
Proof. intros R. destruct h as [| | | | | |t id' u|id' i u a b c e g| | |]; try contradiction R; [destruct R as [-> R]|]; reflexivity. Qed.
Lemma len_iod_app e h a b : len_iod e h a <= len_iod e h (a ++ b).
Proof.
  unfold len_iod, streams, members. cbn [flat_map]. rewrite !at_app, !flat_map_app, !app_nil_r, !len_app. lia.
Qed.

(* what the descriptor is after any calls, and what each of them gave: tracks
   and descriptors are kept in order, the flag is the last one set, asking
   changes nothing *)
Theorem C75_history : forall esd e os h ks, root_ok h -> Forall kid_in ks -> Forall iop_ok os ->
  (forall k, In k (at_ 1 (ks ++ flat_map ikid os)) -> esd (inc (snd k)) = Ok (e (inc (snd k))) /\ wf (e (inc (snd k))) /\ is_esd (e (inc (snd k)))) ->
  len_iod e h (ks ++ flat_map ikid os) < 268435456 ->
  iruns esd (Some (Desc h ks)) os = (Some (Desc (fold_left ihead os h) (ks ++ flat_map ikid os)), ianswers e h ks os).
Proof.
  intros esd e os. induction os as [|o os IH]; intros h ks R F FO E L.
  - cbn [iruns fold_left flat_map ianswers]. rewrite app_nil_r. reflexivity.
  - inversion FO as [|? ? O FO']; subst. cbn [flat_map] in E, L.
    assert (S : istep esd (Some (Desc h ks)) o = (Some (Desc (ihead h o) (ks ++ ikid o)), ianswer e h ks o)).
    { destruct o as [id|d|f|].
      - rewrite istep_track by exact R. destruct h; reflexivity.
      - destruct O as [W St]. rewrite istep_add by assumption. destruct h; reflexivity.
      - rewrite istep_inline by exact R. cbn [ikid]. rewrite app_nil_r. reflexivity.
      - cbn [istep]. rewrite (C75_get esd e h ks R F).
        + cbn [ikid ianswer]. rewrite app_nil_r. destruct h; reflexivity.
        + intros k K. apply E. rewrite at_app. apply in_app_iff. left. exact K.
        + pose proof (len_iod_app e h ks (ikid OGet ++ flat_map ikid os)). lia. }
    cbn [iruns fold_left flat_map ianswers]. rewrite S. cbv zeta. cbn [fst snd].
    destruct (root_ihead h o R) as [R' LF].
    rewrite IH; [rewrite <- app_assoc; reflexivity|exact R'| |exact FO'| |].
    + apply Forall_app. split; [exact F|apply ikid_in, O].
    + rewrite <- app_assoc. exact E.
    + rewrite <- app_assoc. unfold len_iod in *. lia.
Qed.
Print Assumptions C75_history.

(* ------------------------------------------------------------------ *)
(* making one                                                           *)

(* the flag is 0 and the profiles those given, also in the file *)
Theorem C75_new : forall id p1 p2 p3 p4 p5, 0 < id < 1024 -> p1 < 256 -> p2 < 256 -> p3 < 256 -> p4 < 256 -> p5 < 256 ->
  exists d, iod_new_ext id p1 p2 p3 p4 p5 [] 0 = Ok (Some d) /\ wf d /\
  iod_inline (Some d) = Ok (Some 0) /\ iod_profiles (Some d) = Ok (Some [p1; p2; p3; p4; p5]) /\
  (forall f, iod_set_inline (Some d) f = Ok (Some (Desc (HIOD id (if f =? 0 then 0 else 1) [] p1 p2 p3 p4 p5) [])) /\
     iod_inline (Some (Desc (HIOD id (if f =? 0 then 0 else 1) [] p1 p2 p3 p4 p5) [])) = Ok (Some (if f =? 0 then 0 else 1))) /\
  (~ (p1 = 0 /\ p2 = 0 /\ p3 = 0 /\ p4 = 0 /\ p5 = 0) -> iod_new id p1 p2 p3 p4 p5 = Ok (Some d)).
Proof.
  intros id p1 p2 p3 p4 p5 I P1 P2 P3 P4 P5. exists (Desc (HIOD id 0 [] p1 p2 p3 p4 p5) []). unfold iod_new, iod_new_ext.
  destruct (N.eqb_spec id 0); [lia|]. split; [reflexivity|]. split.
  - constructor; [|constructor|constructor|].
    + cbn [head_ok]. repeat split; try lia; try constructor.
    + reflexivity.
  - split; [reflexivity|]. split; [cbn [iod_profiles]; unfold w8; rewrite !N.mod_small by lia; reflexivity|]. split.
    + intros f. split; [reflexivity|]. destruct (f =? 0); reflexivity.
    + intros NZ. destruct (N.eqb_spec p1 0), (N.eqb_spec p2 0), (N.eqb_spec p3 0), (N.eqb_spec p4 0), (N.eqb_spec p5 0); cbn [andb]; try reflexivity. exfalso. tauto.
Qed.
Print Assumptions C75_new.

(* without profiles it is an object descriptor, which has neither flag nor
   profiles; with the identifier 0 there is none *)
Theorem C75_root_od : forall id, 0 < id < 1024 ->
  iod_new id 0 0 0 0 0 = Ok (Some (Desc (HOD 17 id []) [])) /\
  (forall p1 p2 p3 p4 p5 x, x <> 0 -> iod_new_ext id p1 p2 p3 p4 p5 [] x = Ok (Some (Desc (HOD 17 id []) []))) /\
  (forall p1 p2 p3 p4 p5 u x, iod_new_ext 0 p1 p2 p3 p4 p5 u x = Ok None) /\
  root_ok (HOD 17 id []) /\
  (forall ks f, iod_inline (Some (Desc (HOD 17 id []) ks)) = Ok None /\ iod_profiles (Some (Desc (HOD 17 id []) ks)) = Ok None /\
     iod_set_inline (Some (Desc (HOD 17 id []) ks)) f = Ok None).
Proof.
  intros id I. unfold iod_new, iod_new_ext. destruct (N.eqb_spec id 0); [lia|]. split; [reflexivity|]. split.
  - intros p1 p2 p3 p4 p5 x X. destruct (N.eqb_spec x 0); [congruence|reflexivity].
  - split; [reflexivity|]. split; [|intros ks f; repeat split; reflexivity]. split; [reflexivity|]. split; [right; reflexivity|]. split; [lia|reflexivity].
Qed.
Print Assumptions C75_root_od.
(* the flag and the profiles of any initial object descriptor, and what the
   file keeps of them *)
Theorem C75_fields : forall id i u p1 p2 p3 p4 p5 ks, head_ok (HIOD id i u p1 p2 p3 p4 p5) ->
  iod_inline (Some (Desc (HIOD id i u p1 p2 p3 p4 p5) ks)) = Ok (Some (if i =? 0 then 0 else 1)) /\
  iod_profiles (Some (Desc (HIOD id i u p1 p2 p3 p4 p5) ks)) = Ok (Some [p1; p2; p3; p4; p5]) /\
  (u = [] -> iod_inline (Some (view (Desc (HIOD id i u p1 p2 p3 p4 p5) ks))) = Ok (Some (if i =? 0 then 0 else 1)) /\
     iod_profiles (Some (view (Desc (HIOD id i u p1 p2 p3 p4 p5) ks))) = Ok (Some [p1; p2; p3; p4; p5])).
Proof.
  intros id i u p1 p2 p3 p4 p5 ks (_ & _ & P1 & P2 & P3 & P4 & P5). cbn [iod_inline iod_profiles]. unfold w8. rewrite !N.mod_small by lia. split; [reflexivity|]. split; [reflexivity|].
  intros ->. cbn [view head_view iod_inline iod_profiles]. unfold w8, one, yes. rewrite !N.mod_small by lia. split; [destruct (i =? 0); reflexivity|reflexivity].
Qed.
Print Assumptions C75_fields.
(* what is refused changes nothing *)
Theorem C75_refused : forall esd d,
  iod_get esd None = (None, Err MP4BadDataErr) /\ (forall id, iod_add_track None id = Err MP4InvalidMediaErr) /\
  (forall x, wf x -> still x -> In (dtag x) [0; 1; 2; 3; 4; 5; 6; 11; 12; 14; 15; 16; 17] -> iod_add_desc d (enc x) = Err MP4BadParamErr) /\
  (forall id u ks r, In (2, r) ks -> iod_get esd (Some (Desc (HOD 17 id u) ks)) = (Some (Desc (HOD 17 id u) ks), Err MP4BadDataErr)).
Proof.
  intros esd d. split; [reflexivity|]. split; [reflexivity|]. split.
  - intros x W S I. unfold iod_add_desc. pose proof (proj1 (desc_read_ok x 0 W) []) as H. rewrite app_nil_r, (still_view x S) in H. rewrite H. cbn [bind fst].
    assert (R : iod_refused (dtag x) = true) by (unfold iod_refused; apply existsb_exists; exists (dtag x); split; [exact I|apply N.eqb_refl]). rewrite R. reflexivity.
  - intros id u ks r I. unfold iod_get. change (17 =? 17) with true. cbn match. destruct (in_member 2 ks) eqn:E; [|reflexivity].
    exfalso. assert (X : In (2, r) (in_member 2 ks)) by (apply filter_In; split; [exact I|reflexivity]). rewrite E in X. destruct X.
Qed.
Print Assumptions C75_refused.

(* a movie with two tracks and a descriptor of tag 80, asked twice *)
Definition e0 (t : N) : desc := Desc (HES (t mod 65536) 0 1 0 []) [(0, Desc (HDec 64 5 0 6144 128000 96000) [(0, Desc (HOther 5 [18; 16]) [])]); (1, Desc (HSL (mkSlc 2 0 0 0 0 0 1 0 0 0 0 0 0 0 0 0 0 0 0 0 0)) [])].
Lemma e0_wf t : t < 65536 -> wf (e0 t).
Proof.
  intros T. assert (D : wf (Desc (HDec 64 5 0 6144 128000 96000) [(0, Desc (HOther 5 [18; 16]) [])])).
  { constructor; [cbn; lia|right; eexists; split; reflexivity| |reflexivity]. repeat constructor. }
  constructor; [cbn [head_ok]; rewrite N.mod_small by lia; repeat split; lia| | |].
  - split; [repeat constructor; reflexivity|repeat constructor].
  - constructor; [exact D|]. repeat constructor; cbn; try lia; try reflexivity.
  - reflexivity.
Qed.
Definition h0 : head := HIOD 1 0 [] 255 255 41 3 255.
Definition os0 : list iop := [OTrack 1; OInline 1; OGet; ODesc (Desc (HOther 80 [1; 2; 3]) []); OTrack 2; OGet; OGet].
Example C75_history_meets : root_ok h0 /\ Forall iop_ok os0 /\
  (forall k, In k (at_ 1 (flat_map ikid os0)) -> Ok (e0 (inc (snd k))) = Ok (e0 (inc (snd k))) /\ wf (e0 (inc (snd k))) /\ is_esd (e0 (inc (snd k)))) /\
  len_iod e0 h0 ([] ++ flat_map ikid os0) < 268435456 /\
  ianswers e0 h0 [] os0 <> [] /\
  iruns (fun t => Ok (e0 t)) (Some (Desc h0 [])) os0 =
    (Some (Desc (HIOD 1 1 [] 255 255 41 3 255) [(1, Desc (HInc 1) []); (5, Desc (HOther 80 [1; 2; 3]) []); (1, Desc (HInc 2) [])]), ianswers e0 h0 [] os0).
Proof.
  assert (R : root_ok h0) by (cbn; repeat split; lia).
  assert (FO : Forall iop_ok os0).
  { repeat constructor; try (cbn; lia); try reflexivity. }
  assert (E : forall k, In k (at_ 1 (flat_map ikid os0)) -> Ok (e0 (inc (snd k))) = Ok (e0 (inc (snd k))) /\ wf (e0 (inc (snd k))) /\ is_esd (e0 (inc (snd k)))).
  { intros k K. split; [reflexivity|]. split; [|exact I]. vm_compute in K. destruct K as [<-|[<-|[]]]; apply e0_wf; reflexivity. }
  assert (L : len_iod e0 h0 ([] ++ flat_map ikid os0) < 268435456) by (vm_compute; reflexivity).
  split; [exact R|]. split; [exact FO|]. split; [exact E|]. split; [exact L|]. split; [discriminate|].
  rewrite (C75_history (fun t => Ok (e0 t)) e0 os0 h0 [] R (Forall_nil _) FO E L). reflexivity.
Qed.
Print Assumptions C75_history_meets.

(* ------------------------------------------------------------------ *)
(* where the code does otherwise                                        *)

(* a movie without the box: the flag, the profiles and added descriptors are
   undefined; so is a location given when the movie is made *)
Theorem C75_no_box_refuted : forall f bytes p1 p2 p3 p4 p5 x, iod_inline None = UB /\ iod_set_inline None f = UB /\ iod_profiles None = UB /\
  (forall d r, desc_read (mkR bytes 0) = Ok (d, r) -> iod_refused (dtag d) = false -> iod_add_desc None bytes = UB) /\
  iod_new_ext 1 p1 p2 p3 p4 p5 [104; 116; 116; 112] x = UB.
Proof.
  intros f bytes p1 p2 p3 p4 p5 x. do 3 (split; [reflexivity|]). split; [|reflexivity]. intros d r E R. unfold iod_add_desc. rewrite E. cbn [bind fst]. rewrite R. reflexivity.
Qed.
(* an object descriptor read from a file: it has the tag 1, so the flag is
   undefined, nothing can be added, and asking gives bytes with the tag 2 and
   without profiles, which are no initial object descriptor, and leaves it with
   the tag 16 *)
Theorem C75_root_od_read_refuted : exists d, iod_new 5 0 0 0 0 0 = Ok (Some d) /\ wf d /\ view d = Desc (HOD 1 5 []) [] /\
  iod_inline (Some (view d)) = UB /\ (forall x, wf x -> still x -> addable x = true -> iod_add_desc (Some (view d)) (enc x) = Err MP4InvalidMediaErr) /\
  iod_get (fun t => Ok (e0 t)) (Some (view d)) = (Some (Desc (HOD 16 5 []) []), Ok [2; 128; 128; 128; 2; 1; 95]) /\
  desc_read (mkR [2; 128; 128; 128; 2; 1; 95] 0) = Err MP4IOErr.
Proof.
  exists (Desc (HOD 17 5 []) []). split; [reflexivity|]. split; [repeat constructor; cbn; try lia; right; reflexivity|]. split; [reflexivity|]. split; [reflexivity|]. split.
  - intros x W S A. unfold iod_add_desc. pose proof (proj1 (desc_read_ok x 0 W) []) as H. rewrite app_nil_r, (still_view x S) in H. rewrite H. cbn [bind fst]. unfold addable in A. destruct (iod_refused (dtag x)); [discriminate|reflexivity].
  - split; reflexivity.
Qed.
(* a track that has no elementary stream descriptor: the call fails and the
   descriptors made before it stay in the movie's descriptor *)
Theorem C75_failed_get_refuted : forall err, iod_get (fun t => if t =? 1 then Ok (e0 1) else Err err)
    (Some (Desc h0 [(1, Desc (HInc 1) []); (1, Desc (HInc 2) [])])) =
  (Some (Desc h0 [(1, Desc (HInc 1) []); (1, Desc (HInc 2) []); (0, e0 1)]), Err err).
Proof. reflexivity. Qed.
(* elementary stream descriptors that the file's own descriptor contained are
   given once, and are gone from the movie afterwards *)
Theorem C75_own_streams_refuted : exists b1 b2, b1 <> b2 /\
  iod_get (fun t => Ok (e0 t)) (Some (Desc h0 [(0, e0 7)])) = (Some (Desc h0 []), Ok b1) /\
  iod_get (fun t => Ok (e0 t)) (Some (Desc h0 [])) = (Some (Desc h0 []), Ok b2).
Proof.
  exists (given_iod e0 h0 [(1, Desc (HInc 7) [])]), (given_iod e0 h0 []). split; [vm_compute; discriminate|]. split; vm_compute; reflexivity.
Qed.

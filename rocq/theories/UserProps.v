(* UserProps.v *)
From Verif Require Import Base Codec AtomModel AtomSpec AtomProofs AtomProps BoxModel BoxSpec BoxProofs Reads KidsModel KidsProofs
  TextModel TextSpec TextProofs TextProps UserModel UserSpec UserProofs.

(* C60: user data. After any history of additions, deletions and savings
   every question is answered from the lists of the data added. *)
Theorem C60_history :
  forall T (c : codec T) (y : layout T) (dflt : T), faithful c y ->
  forall os, uops_ok c store0 os ->
  exists u, user_run c dflt [] os = Ok (fst (users_spec store0 os), u) /\
  let s := snd (users_spec store0 os) in
  (forall ty, ty <> 0 -> entry_count u ty = Ok (len (s_data s ty))) /\
  (forall ty i, get_item u ty i = match (if i =? 0 then None else nthN (s_data s ty) (i - 1)) with Some d => Ok d | None => Err MP4BadParamErr end) /\
  type_count u = len (s_types s) /\
  (forall i, ind_type u i = match (if i =? 0 then None else nthN (s_types s) (i - 1)) with Some t => Ok t | None => Err MP4BadParamErr end) /\
  (forall ty i, get_atom u ty i = match (if i =? 0 then None else nthN (s_data s ty) (i - 1)) with
     | Some d => Ok (AOpaque _ ty (if ty =? code "uuid" then repeat 0 16 else []) d) | None => Err MP4BadParamErr end).
Proof.
  intros T c y dflt F os Hos.
  assert (G : forall os s, sinv s -> uops_ok c s os -> user_run c dflt (repr s) os = Ok (fst (users_spec s os), repr (snd (users_spec s os))) /\ sinv (snd (users_spec s os))).
  { clear os Hos. induction os as [|o os IH]; intros s I Ho; [split; [reflexivity|exact I]|]. cbn [user_run users_spec uops_ok] in *. destruct Ho as [H1 H2].
    destruct (user_spec s o) as [a s1] eqn:Es. cbn [snd] in H2. pose proof (sinv_step s o I) as I1. rewrite Es in I1. cbn [snd] in I1.
    assert (St : user_step c dflt (repr s) o = Ok (a, repr s1)).
    { destruct o as [ty d|ty i|]; cbn [user_step].
      - destruct (N.eqb_spec ty 0) as [->|Hz]; [cbn [user_spec] in Es; injection Es as <- <-; reflexivity|].
        rewrite (add_ok s ty d I Hz). rewrite Es. cbn [snd]. cbn [user_spec] in Es. destruct (N.eqb_spec ty 0); [contradiction|]. injection Es as <- _. reflexivity.
      - rewrite (delete_ok s ty i I). rewrite Es. cbn [snd user_spec] in *. destruct (_ && _); injection Es as <- <-; reflexivity.
      - destruct (H1 eq_refl) as [S1 S2]. destruct (items_ok c y s S1) as (K1 & K2 & K3).
        destruct (faithful_round_trip (udta_codec c dflt) (udta_layout c y) (repr s) (udta_faithful c y dflt F)) as (A & B & D & _).
        { exact K1. } { cbn [udta_layout l_body]. rewrite K3. exact S2. }
        rewrite B. cbn [bind]. specialize (D [] []). rewrite app_nil_r in D. rewrite D. cbn [bind fst]. cbn [udta_layout l_view]. rewrite K2, grouped_repr by apply I.
        rewrite Es. cbn [snd user_spec] in *. injection Es as <- _. reflexivity. }
    rewrite St. cbn [bind fst snd]. destruct (IH s1 I1 H2) as [R I2]. rewrite R. cbn [bind fst snd]. destruct (users_spec s1 os) as [l s2]. cbn [fst snd] in *. split; [reflexivity|exact I2]. }
  assert (I0 : sinv store0) by (constructor; cbn; [constructor|reflexivity|tauto]).
  destruct (G os store0 I0 Hos) as [R I]. exists (repr (snd (users_spec store0 os))). split; [exact R|]. cbv zeta.
  split; [|split; [|split; [|split]]].
  - intros ty Hz. rewrite count_ok by exact I. destruct (N.eqb_spec ty 0); [contradiction|reflexivity].
  - intros ty i. apply item_ok, I.
  - apply types_ok.
  - intros i. apply ind_ok.
  - intros ty i. apply atom_ok, I.
Qed.
Print Assumptions C60_history.

(* any user data box can be saved and read back, boxes with their own reader
   among the items or not; the items are ordered by type *)
Theorem C60_round_trip :
  forall T (c : codec T) (y : layout T) (dflt : T), faithful c y ->
  forall u, l_ok (udta_layout c y) u -> 8 + len (l_body (udta_layout c y) u) < 4294967296 -> round_trip (udta_codec c dflt) (udta_layout c y) u.
Proof. intros T c y dflt F u H L. apply faithful_round_trip; [apply udta_faithful, F|exact H|exact L]. Qed.
Print Assumptions C60_round_trip.
(* the box may end with a terminator of four bytes *)
Theorem C60_terminator :
  forall T (c : codec T) (y : layout T) (dflt : T), faithful c y ->
  forall u w rest, l_ok (udta_layout c y) u -> w < 4294967296 -> 12 + len (l_body (udta_layout c y) u) < 4294967296 ->
  let bs := box (code "udta") (l_body (udta_layout c y) u ++ be32 w) in
  read_box (udta_codec c dflt) [] (bs ++ rest) = Ok ((ALeaf _ (l_view (udta_layout c y) u), len bs), rest).
Proof.
  intros T c y dflt F u w rest H Hw Hl. cbn [udta_layout l_body l_view l_ok] in *. cbv zeta.
  destruct (faithful_round_trip (term_codec c dflt w) (term_layout c y w) u (term_faithful c y dflt w Hw F)) as (_ & _ & R & _).
  - exact H.
  - cbn [term_layout l_body]. lens. lia.
  - exact (R [] rest).
Qed.
Print Assumptions C60_terminator.
(* any bytes at all *)
Theorem C60_any_bytes : forall T (c : codec T) (dflt : T), robust c -> robust (udta_codec c dflt).
Proof. intros T c dflt H. apply udta_safe, H. Qed.
Print Assumptions C60_any_bytes.

(* Data of a type the library has a reader for: it is returned until the movie
   is saved and opened. Then the item is a box of another structure, and
   asking for its data reads that structure as if it were raw data. *)
Theorem C60_known_type_refuted :
  forall T (c : codec T) (y : layout T) (dflt : T), faithful c y ->
  forall x, l_ok y x -> c_ty c x <> 0 -> 24 + len (l_body y x) < 4294967296 ->
  exists u u', user_run c dflt [] [UAdd (c_ty c x) (l_body y x)] = Ok ([UIndex 1], u) /\ get_item u (c_ty c x) 1 = Ok (l_body y x) /\
    user_run c dflt u [USave] = Ok ([UDone], u') /\ entry_count u' (c_ty c x) = Ok 1 /\ get_item u' (c_ty c x) 1 = UB.
Proof.
  intros T c y dflt F x Hx Hz Hl. destruct (proj1 F x Hx) as ((P1 & P2 & P3 & P4) & Hk & Hv & _).
  exists [(c_ty c x, [mk (c_ty c x) (l_body y x)])], [(c_ty c x, [ALeaf _ (l_view y x)])].
  assert (Eu : (c_ty c x =? T_uuid) = false) by (apply N.eqb_neq; exact P2). assert (Ez : (c_ty c x =? 0) = false) by (apply N.eqb_neq; exact Hz).
  split; [|split; [|split; [|split]]].
  - cbn [user_run user_step]. unfold add_data. rewrite Ez. cbn [add_item records]. rewrite N.eqb_refl. reflexivity.
  - unfold get_item. rewrite Ez. cbn [orb records]. rewrite N.eqb_refl. reflexivity.
  - cbn [user_run user_step].
    assert (Ei : item_box (c_ty c x) (l_body y x) = box (c_ty c x) (l_body y x)) by (unfold item_box; change (code "uuid") with T_uuid; rewrite Eu; reflexivity).
    rewrite one_written by (rewrite Ei, len_box; lia). cbn [bind]. rewrite Ei.
    destruct (faithful_round_trip (udta_codec c dflt) (udta_layout c y) [(c_ty c x, [ALeaf _ x])] (udta_faithful c y dflt F)) as (_ & _ & R & _).
    + cbn [udta_layout l_ok all_items flat_map snd app]. constructor; [exact Hx|constructor].
    + cbn [udta_layout l_body all_items flat_map snd app kid_enc enc]. rewrite app_nil_r, len_box. lia.
    + specialize (R [] []). cbn [udta_layout l_ty l_body l_view all_items flat_map snd app kid_enc enc] in R. rewrite !app_nil_r in R. rewrite R. cbn [bind fst].
      unfold kid_view. cbn [map strip filter free_box negb]. unfold grouped. cbn [fold_left atype add_item]. rewrite Hv. reflexivity.
  - unfold entry_count. rewrite Ez. cbn [records]. rewrite N.eqb_refl. reflexivity.
  - unfold get_item. rewrite Ez. cbn [orb records]. rewrite N.eqb_refl. reflexivity.
Qed.
Print Assumptions C60_known_type_refuted.
(* Data of the type of free space is lost when the movie is saved and
   opened. *)
Theorem C60_free_type_refuted :
  forall T (c : codec T) (y : layout T) (dflt : T), faithful c y ->
  forall ty d, free_type ty = true -> bytes d -> 24 + len d < 4294967296 ->
  exists u u', user_run c dflt [] [UAdd ty d] = Ok ([UIndex 1], u) /\ get_item u ty 1 = Ok d /\
    user_run c dflt u [USave] = Ok ([UDone], u') /\ get_item u' ty 1 = Err MP4BadParamErr.
Proof.
  intros T c y dflt F ty d Hf Hb Hl. exists [(ty, [mk ty d])], [].
  assert (Hc : ty = T_free \/ ty = T_skip).
  { unfold free_type, one_of in Hf. cbn [existsb] in Hf. change (code "free") with T_free in Hf. change (code "skip") with T_skip in Hf. lia. }
  assert (Eu : (ty =? T_uuid) = false) by (destruct Hc as [->| ->]; reflexivity). assert (Ez : (ty =? 0) = false) by (destruct Hc as [->| ->]; reflexivity).
  split; [|split; [|split]].
  - cbn [user_run user_step]. unfold add_data. rewrite Ez. cbn [add_item records]. rewrite N.eqb_refl. reflexivity.
  - unfold get_item. rewrite Ez. cbn [orb records]. rewrite N.eqb_refl. reflexivity.
  - cbn [user_run user_step].
    assert (Ei : item_box ty d = box ty d) by (unfold item_box; change (code "uuid") with T_uuid; rewrite Eu; reflexivity).
    rewrite one_written by (rewrite Ei, len_box; lia). cbn [bind]. rewrite Ei.
    destruct (faithful_round_trip (udta_codec c dflt) (udta_layout c y) [(ty, [AFree _ ty d])] (udta_faithful c y dflt F)) as (_ & _ & R & _).
    + cbn [udta_layout l_ok all_items flat_map snd app]. constructor; [split; [exact Hf|exact Hb]|constructor].
    + cbn [udta_layout l_body all_items flat_map snd app kid_enc enc]. rewrite app_nil_r, len_box. lia.
    + specialize (R [] []). cbn [udta_layout l_ty l_body l_view all_items flat_map snd app kid_enc enc] in R. rewrite !app_nil_r in R. rewrite R. cbn [bind fst].
      reflexivity.
  - unfold get_item. rewrite Ez. cbn [orb records]. destruct (1 =? 0); reflexivity.
Qed.
Print Assumptions C60_free_type_refuted.

(* a history: two types, a deletion, saving, the last item of a type deleted
   before the second saving *)
Definition ex_uops : list uop :=
  [UAdd (code "abcd") [1; 2]; UAdd (code "uuid") [3]; UAdd (code "abcd") []; UAdd (code "name") [9; 9; 9]; UDelete (code "abcd") 1; USave;
   UDelete (code "name") 2; UDelete (code "name") 1; UAdd 0 [1]; UAdd (code "abcd") [4]; USave].
Definition ex_user := Eval vm_compute in user_run cprt_codec (mkCprt 0 0 0 None) [] ex_uops.
Definition ex_udta := Eval vm_compute in match ex_user with Ok x => snd x | _ => [] end.
Example C60_case :
  uops_ok cprt_codec store0 ex_uops /\
  user_run cprt_codec (mkCprt 0 0 0 None) [] ex_uops =
    Ok ([UIndex 1; UIndex 1; UIndex 2; UIndex 1; UDone; UDone; URefused; UDone; URefused; UIndex 2; UDone], ex_udta) /\
  get_item ex_udta (code "abcd") 2 = Ok [4] /\ get_item ex_udta (code "uuid") 1 = Ok [3] /\ type_count ex_udta = 2 /\ ind_type ex_udta 2 = Ok (code "uuid").
Proof.
  split; [|vm_compute; repeat split; reflexivity].
  unfold ex_uops. cbn [uops_ok]. repeat match goal with |- _ /\ _ => split | |- True => exact I | |- _ = _ -> _ => intros Q; try discriminate Q; clear Q end.
  all: split; [|reflexivity]; match goal with |- Forall ?P ?l => let l' := eval vm_compute in l in change (Forall P l') end;
    repeat (constructor; [intros _; split; [repeat split; reflexivity|match goal with |- Forall bytes ?l => let l' := eval vm_compute in l in change (Forall bytes l') end; repeat constructor]|]); constructor.
Qed.
Example C60_known_case :
  l_ok cprt_layout (mkCprt 0 0 5575 (Some [72; 105; 0])) /\ c_ty cprt_codec (mkCprt 0 0 5575 (Some [72; 105; 0])) <> 0 /\ faithful cprt_codec cprt_layout.
Proof. split; [|split; [discriminate|apply exact_faithful, cprt_exact]]. repeat split; try reflexivity. exists [72; 105]. split; [repeat constructor|reflexivity]. Qed.

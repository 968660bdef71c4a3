From Verif Require Import Base Codec AtomModel AtomSpec AtomProofs AtomProps BoxModel BoxSpec BoxProofs Reads KidsModel.

(* the boxes a codec can carry, and their bytes *)
Definition kid_ok {T} (c : codec T) (y : layout T) : atom T -> Prop := wf T (c_ty c) (c_known c) (l_ok y).
Definition kid_enc {T} (c : codec T) (y : layout T) : atom T -> list N := enc T (c_ty c) (l_body y).
Definition kid_view {T} (y : layout T) (l : list (atom T)) : list (atom T) :=
  filter (fun k => negb (free_box T k)) (map (strip T (l_view y)) l).

Section Kids.
Context {T : Type} (c : codec T) (y : layout T) (dflt : T).
Hypothesis F : faithful c y.

Lemma kid_pos k : 8 <= len (kid_enc c y k).
Proof. unfold kid_enc. destruct k; cbn [enc]; rewrite len_box; lia. Qed.
Lemma boxes_reads_gen ty : (forall k, slot ty k = None) -> forall kids f acc tot br r,
  Forall (kid_ok c y) kids -> (length (flat_map (kid_enc c y) kids ++ r) + 1 < f)%nat -> tot < 4294967296 ->
  br + len (flat_map (kid_enc c y) kids) = tot ->
  snd (parse_kids T (c_leaf c) (c_ty c) (fun _ => dflt) f ty tot br acc (flat_map (kid_enc c y) kids ++ r)) =
    Ok (acc ++ kid_view y kids, r).
Proof.
  intros Hslot. pose proof (faithful_codec c y F) as [K1 K2 K3 K4].
  induction kids as [|k ks IH]; intros f acc tot br r Hk Hf Ht Hbr; (destruct f as [|f]; [lia|]); rewrite parse_kids_S.
  - cbn [flat_map app] in *. lens. destruct (N.ltb_spec br tot); [lia|]. destruct (N.eqb_spec br tot); [|lia].
    unfold cret, kid_view. cbn [fst snd map filter]. rewrite app_nil_r. reflexivity.
  - inversion_clear Hk as [|? ? Wk Wr]. cbn [flat_map] in *. lens. rewrite <- app_assoc in *. pose proof (kid_pos k) as P.
    destruct (N.ltb_spec br tot); [|lia].
    destruct (parse_enc T (c_leaf c) (c_ty c) (c_size c) (c_w c) (fun _ => dflt) (l_body y) (l_view y) (c_known c) (l_ok y)
      K1 K2 K3 K4 k f (flat_map (kid_enc c y) ks ++ r) Wk) as [E _].
    { fold (kid_enc c y k). lia. } { fold (kid_enc c y k). rewrite !app_length in *. lia. }
    fold (kid_enc c y k) in E. unfold cbind. rewrite E. cbn [fst snd].
    destruct (atype_facts T (c_ty c) (fun _ => dflt) (l_view y) (c_known c) (l_ok y) K2 k Wk) as (A1 & A2 & A3). rewrite A3, A2.
    rewrite w32_small by lia. unfold slot_used. rewrite Hslot.
    assert (Hf' : (length (flat_map (kid_enc c y) ks ++ r) + 1 < f)%nat).
    { rewrite app_length in Hf. unfold len in P. lia. }
    destruct (free_box T k) eqn:Ef.
    + rewrite (IH f acc tot _ r Wr Hf' Ht) by lia. unfold kid_view. cbn [map filter]. rewrite free_strip, Ef. reflexivity.
    + rewrite (IH f _ tot _ r Wr Hf' Ht) by lia. unfold kid_view. cbn [map filter]. rewrite free_strip, Ef. cbn [negb].
      rewrite <- app_assoc. reflexivity.
Qed.
Lemma boxes_reads ty n sz uuid hr kids : (forall k, slot ty k = None) -> Forall (kid_ok c y) kids ->
  sz = n + len (flat_map (kid_enc c y) kids) -> sz < 4294967296 ->
  reads n (boxes_rd c dflt (mkH sz 0 ty uuid hr)) (flat_map (kid_enc c y) kids) (kid_view y kids).
Proof.
  intros Hs Hk E Hl r. unfold boxes_rd. cbn [inp rdn h_type h_size]. rewrite (boxes_reads_gen ty Hs kids); try assumption; [|lia|lia].
  cbn [bind fst snd app]. rewrite w32_small by lia. subst sz. reflexivity.
Qed.
Lemma boxes_size_ok kids : Forall (kid_ok c y) kids -> forall sz,
  sz + len (flat_map (kid_enc c y) kids) < 4294967296 ->
  boxes_size c sz kids = sz + len (flat_map (kid_enc c y) kids).
Proof.
  pose proof (faithful_codec c y F) as [K1 K2 K3 K4]. unfold boxes_size.
  induction 1 as [|k ks Wk Wr IH]; intros sz Hl; cbn [flat_map fold_left] in *; lens; [lia|].
  destruct (write_enc T (c_leaf c) (c_ty c) (c_size c) (c_w c) (fun _ => dflt) (l_body y) (l_view y) (c_known c) (l_ok y) K1 K2 K3 K4 k Wk) as [E _].
  { fold (kid_enc c y k). lia. }
  unfold kid_size at 2. rewrite E. fold (kid_enc c y k). rewrite w32_small by lia. rewrite IH; lia.
Qed.
Lemma boxes_writes kids : Forall (kid_ok c y) kids -> len (flat_map (kid_enc c y) kids) < 4294967296 ->
  writes (boxes_w c kids) (flat_map (kid_enc c y) kids).
Proof.
  pose proof (faithful_codec c y F) as [K1 K2 K3 K4]. intros Hk Hl. unfold boxes_w. apply writes_map. intros k Ik.
  rewrite Forall_forall in Hk. specialize (Hk k Ik).
  assert (len (kid_enc c y k) < 4294967296).
  { apply in_split in Ik. destruct Ik as (a & b & ->). rewrite flat_map_app in Hl. cbn [flat_map] in Hl. lens. lia. }
  destruct (write_enc T (c_leaf c) (c_ty c) (c_size c) (c_w c) (fun _ => dflt) (l_body y) (l_view y) (c_known c) (l_ok y) K1 K2 K3 K4 k Hk) as [E W]; [fold (kid_enc c y k); lia|].
  unfold kid_size. rewrite E, W. fold (kid_enc c y k). apply writes_embed. reflexivity.
Qed.
End Kids.

Lemma boxes_safe {T} (c : codec T) dflt h : robust c -> safe (boxes_rd c dflt h).
Proof.
  intros H s Hs. unfold boxes_rd.
  destruct (proj2 (parse_good T (c_leaf c) (c_ty c) (fun _ => dflt) (robust_codec c H) (length (inp s) + 3))
    (h_type h) (h_size h) (rdn s) [] (inp s) Hs ltac:(lia)) as (A & B & C & _).
  destruct (snd (parse_kids T (c_leaf c) (c_ty c) (fun _ => dflt) (length (inp s) + 3) (h_type h) (h_size h) (rdn s) [] (inp s))) as [[ks r]|e|].
  - cbn [bind fst snd]. split; [split; discriminate|]. intros a s' E. injection E as <- <-. cbn [inp].
    destruct (C _ _ eq_refl) as (pre & new & E & _). exists pre. exact E.
  - cbn [bind]. split; [split; congruence|discriminate].
  - congruence.
Qed.
Lemma safe_bind {A B} (m : rd A) (k : A -> rd B) : safe m -> (forall a, safe (k a)) -> safe (rbind m k).
Proof.
  intros Hm Hk s Hs. unfold rbind. destruct (Hm s Hs) as [[M1 M2] M3]. destruct (m s) as [[a s1]|e|].
  - destruct (M3 a s1 eq_refl) as [p E]. assert (B1 : bytes (inp s1)) by (rewrite E in Hs; apply bytes_app in Hs; tauto).
    destruct (Hk a s1 B1) as [K1 K2]. split; [exact K1|]. intros b s' E'. destruct (K2 b s' E') as [q Eq].
    exists (p ++ q). rewrite E, Eq, app_assoc. reflexivity.
  - split; [split; congruence|discriminate].
  - congruence.
Qed.
Lemma safe_ret {A} (a : A) : safe (rret a).
Proof. apply safe_of; [apply consumes_ret|apply tame_ret]. Qed.

Definition boxed_layout {T R} (c : codec T) (y : layout T) (ty : N) (pack : R -> list (atom T)) (unpack : list (atom T) -> R) : layout R :=
  mkLayout (fun _ => ty) (fun r => flat_map (kid_enc c y) (pack r)) (fun r => unpack (kid_view y (pack r)))
    (fun r => Forall (kid_ok c y) (pack r)).
Lemma boxed_faithful {T R} (c : codec T) (y : layout T) (dflt : T) (ty : N) (pack : R -> list (atom T)) unpack :
  faithful c y -> plain_type ty -> (forall k, slot ty k = None) ->
  faithful (boxed c dflt ty pack unpack) (boxed_layout c y ty pack unpack).
Proof.
  intros F P S. split.
  - intros t Ht. cbn [boxed boxed_layout c_ty c_known l_view l_ty]. rewrite N.eqb_refl. auto.
  - intros t Ht Hl. cbn [boxed boxed_layout c_size c_w c_rd c_ty l_body l_view l_ok] in *.
    split; [apply (boxes_size_ok c y dflt F); assumption|]. split; [apply (boxes_writes c y dflt F); [assumption|lia]|].
    apply reads_rmap. apply (boxes_reads c y dflt F); try assumption; [reflexivity].
Qed.
Lemma boxed_safe {T R} (c : codec T) (dflt : T) ty (pack : R -> list (atom T)) unpack : robust c -> robust (boxed c dflt ty pack unpack).
Proof. intros H h. cbn [boxed c_rd]. apply safe_bind; [apply boxes_safe, H|intros; apply safe_ret]. Qed.
(* children which are all boxes with their own parser *)
Lemma kid_ok_leaves {T} (c : codec T) y l : Forall (kid_ok c y) (map (ALeaf T) l) <-> Forall (l_ok y) l.
Proof. rewrite Forall_map. reflexivity. Qed.
Lemma kid_enc_leaves {T} (c : codec T) y l : flat_map (kid_enc c y) (map (ALeaf T) l) = flat_map (fun x => box (c_ty c x) (l_body y x)) l.
Proof. rewrite flat_map_concat_map, map_map, <- flat_map_concat_map. reflexivity. Qed.
Lemma kid_view_leaves {T} (y : layout T) l : kid_view y (map (ALeaf T) l) = map (fun x => ALeaf T (l_view y x)) l.
Proof. unfold kid_view. induction l as [|x l IH]; [reflexivity|]. cbn [map strip filter free_box negb]. f_equal. exact IH. Qed.

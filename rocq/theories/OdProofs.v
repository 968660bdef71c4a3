(* OdProofs.v -- lemmas about object descriptor streams. *)
From Verif Require Import Base Codec Reads BitLemmas AtomModel AtomProofs BoxModel BoxSpec BoxProofs HandleProofs DescModel DescSpec DescProofs OdModel OdSpec.

Local Ltac Zify.zify_post_hook ::= Z.div_mod_to_equations.

(* ------------------------------------------------------------------ *)
(* commands: written and read                                           *)

Lemma cwritten_sorted {A} (ks : list (N * A)) : cwritten ks = csorted ks.
Proof. unfold cwritten, csorted. cbn [flat_map]. rewrite app_nil_r. reflexivity. Qed.
Lemma csorted_in {A} (ks : list (N * A)) k : In k (csorted ks) -> In k ks.
Proof. unfold csorted. rewrite !in_app_iff, !filter_In. tauto. Qed.
Lemma csorted_wf c : cwf c -> forall k, In k (csorted (c_ds c)) -> wf (snd k).
Proof. intros (_ & F & _) k I. apply csorted_in in I. rewrite Forall_forall in F. auto. Qed.
Lemma len_cenc c : len (cenc c) = 5 + len (cbody c). Proof. apply len_tagged. Qed.
Lemma kind_len c : cwf c -> match c_kind c with KES _ => 2 | KOther _ d => len d | _ => 0 end = len (cfields (c_kind c)).
Proof. intros _. destruct (c_kind c); reflexivity. Qed.
Lemma sum_fold l : forall a, a + fold_right (fun k s => dsize (snd k) + s) 0 l < 4294967296 ->
  fold_left (fun a (k : N * desc) => w32 (a + dsize (snd k))) l a = a + fold_right (fun k s => dsize (snd k) + s) 0 l.
Proof.
  induction l as [|k l IH]; intros a H; cbn [fold_left fold_right] in *; [lia|]. rewrite w32_small by lia. rewrite IH by lia. lia.
Qed.
Lemma sum_len l : (forall k, In k l -> wf (snd k)) -> fold_right (fun k s => dsize (snd k) + s) 0 l = len (flat_map (fun k : N * desc => enc (snd k)) l).
Proof.
  intros H. rewrite len_flat_sum. induction l as [|k l IH]; cbn [fold_right]; [reflexivity|].
  rewrite IH by (intros; apply H; right; assumption). rewrite dsize_ok by (apply H; left; reflexivity). reflexivity.
Qed.
Lemma csize_ok c : cwf c -> csize c = len (cenc c).
Proof.
  intros W. assert (S := sum_len _ (csorted_wf c W)). rewrite len_cenc. unfold csize. rewrite cwritten_sorted, kind_len by exact W.
  assert (L := proj2 (proj2 W)). unfold cbody in *. rewrite len_app in *. rewrite (w32_small (5 + _)) by lia. rewrite sum_fold; lia.
Qed.
Lemma writes_kids l : (forall k : N * desc, In k l -> wf (snd k)) ->
  writes (wmap (fun k => embed (dsize (snd k)) (dwrite (snd k))) l) (flat_map (fun k => enc (snd k)) l).
Proof.
  induction l as [|k l IH]; intros H; cbn [wmap flat_map]; [apply writes_ret|].
  apply writes_seq; [|apply IH; intros; apply H; right; assumption].
  assert (W := H k (or_introl eq_refl)). rewrite (dwrite_ok _ W). apply writes_embed. symmetry. apply dsize_ok, W.
Qed.
Lemma kind_tag c : cwf c -> ctag (c_kind c) < 256.
Proof. intros (K & _). destruct (c_kind c); cbn [ctag kind_ok] in *; try reflexivity. tauto. Qed.
Lemma writes_kind c : cwf c ->
  writes (match c_kind c with KES id => put16 (w32 (N.shiftl id 6)) | KOther _ d => putl d | _ => wret end) (cfields (c_kind c)).
Proof.
  intros (K & _). destruct (c_kind c) as [|id| |t d]; cbn [cfields kind_ok] in *; try apply writes_ret; [|apply writes_putl].
  rewrite N.shiftl_mul_pow2. change (2 ^ 6) with 64. rewrite w32_small by lia. wstep.
Qed.
Lemma cwrite_ok c : cwf c -> cwrite c = Ok (cenc c).
Proof.
  intros W. unfold cwrite. rewrite (csize_ok c W), cwritten_sorted. assert (L := proj2 (proj2 W)).
  apply writes_run; [|reflexivity|rewrite len_cenc; lia]. unfold cenc at 2, tagged. rewrite app_assoc. apply writes_seq.
  - rewrite len_cenc. apply writes_base. exact L.
  - unfold cbody. apply writes_seq; [apply writes_kind, W|]. apply writes_kids. apply csorted_wf, W.
Qed.

Definition cplaced (k : ckind) (l : list (N * desc)) : list (N * desc) := map (fun x => (chome k (dtag (view (snd x))), view (snd x))) l.
Lemma od_chome t : (if t =? 1 then 0 else 2) = chome KOD t.
Proof. cbn [chome]. destruct (N.eqb_spec t 1) as [->|H]; [reflexivity|]. destruct t as [|p]; [reflexivity|]. destruct p; try reflexivity. congruence. Qed.
Lemma es_chome id t : (if t =? 3 then 0 else if t =? 15 then 1 else 2) = chome (KES id) t.
Proof.
  cbn [chome]. destruct (N.eqb_spec t 3) as [->|H]; [reflexivity|]. destruct (N.eqb_spec t 15) as [->|H1]; [reflexivity|].
  destruct t as [|p]; [reflexivity|]. do 4 (destruct p as [p|p|]; try reflexivity; try congruence).
Qed.
Lemma cplace_ok c x : cwf c -> In x (csorted (c_ds c)) -> cplace (c_kind c) (view (snd x)) = Ok (chome (c_kind c) (dtag (view (snd x)))).
Proof.
  intros W I. assert (Wx := csorted_wf c W x I). apply csorted_in in I. destruct W as (K & _). destruct (c_kind c) as [|id| |t d]; cbn [cplace kind_ok] in *.
  - rewrite od_chome. reflexivity.
  - rewrite (es_chome id). reflexivity.
  - rewrite Forall_forall in K. rewrite dtag_view by exact Wx. destruct (K x I) as [_ ->]. reflexivity.
  - destruct K as (_ & _ & _ & _ & E). rewrite E in I. destruct I.
Qed.
Lemma enc_pos (k : N * desc) : 0 < len (enc (snd k)). Proof. rewrite len_enc. lia. Qed.
Lemma clist_ok k size l : (forall x, In x l -> wf (snd x)) -> (forall x, In x l -> cplace k (view (snd x)) = Ok (chome k (dtag (view (snd x))))) ->
  size < 4294967296 -> forall cnt acc n, n + len (flat_map (fun x => enc (snd x)) l) = size ->
  (forall r, (length (flat_map (fun x => enc (snd x)) l ++ r) < cnt)%nat ->
     clist cnt k size acc (mkR (flat_map (fun x => enc (snd x)) l ++ r) n) = Ok (acc ++ cplaced k l, mkR r size)) /\
  (forall p q, flat_map (fun x => enc (snd x)) l = p ++ q -> q <> [] -> (length p < cnt)%nat -> clist cnt k size acc (mkR p n) = Err MP4IOErr).
Proof.
  intros W P S. induction l as [|x l IH]; intros cnt acc n E; cbn [flat_map] in *.
  - change (len []) with 0 in E. split.
    + intros r L. destruct cnt as [|cnt]; [elim (Nat.nlt_0_r _ L)|]. cbn [clist app]. unfold rbind, getrdn. cbn [rdn]. destruct (N.ltb_spec n size); [lia|].
      unfold rret. cbn [cplaced map]. rewrite app_nil_r. f_equal. f_equal. f_equal. lia.
    + intros p q X Q _. destruct p, q; cbn in X; congruence.
  - rewrite len_app in E. assert (E0 := enc_pos x). destruct (desc_read_ok (snd x) n (W x (or_introl eq_refl))) as [R1 R2].
    assert (P0 := P x (or_introl eq_refl)).
    specialize (IH (fun y I => W y (or_intror I)) (fun y I => P y (or_intror I))).
    split.
    + intros r L. destruct cnt as [|cnt]; [elim (Nat.nlt_0_r _ L)|]. cbn [clist]. unfold rbind at 1, getrdn. cbn [rdn]. destruct (N.ltb_spec n size); [|lia].
      unfold rbind. rewrite <- app_assoc in *. rewrite R1. rewrite P0. rewrite w32_small by lia.
      rewrite (proj1 (IH cnt _ (n + len (enc (snd x))) ltac:(lia))) by (rewrite app_length in L; unfold len in E0; lia).
      rewrite <- app_assoc. reflexivity.
    + intros p q X Q L. destruct cnt as [|cnt]; [elim (Nat.nlt_0_r _ L)|]. cbn [clist]. unfold rbind at 1, getrdn. cbn [rdn]. destruct (N.ltb_spec n size); [|lia].
      unfold rbind. destruct (app_split_cases _ _ _ _ X) as [(q1 & X1 & Q1)|(p2 & -> & X2)].
      * rewrite (R2 p q1 X1 Q1). reflexivity.
      * rewrite R1, P0. rewrite w32_small by lia. apply (proj2 (IH cnt _ (n + len (enc (snd x))) ltac:(lia)) p2 q X2 Q). rewrite app_length in L. unfold len in E0. lia.
Qed.
Lemma clist_rd_ok c n : cwf c -> match c_kind c with KOther _ _ => False | _ => True end ->
  n + len (flat_map (fun x => enc (snd x)) (csorted (c_ds c))) < 4294967296 ->
  parses n (clist_rd (c_kind c) (n + len (flat_map (fun x => enc (snd x)) (csorted (c_ds c))))) (flat_map (fun x => enc (snd x)) (csorted (c_ds c))) (cview c).
Proof.
  intros W _ L. pose proof (clist_ok (c_kind c) _ (csorted (c_ds c)) (csorted_wf c W) (fun x => cplace_ok c x W) L) as H. split.
  - intros r. unfold clist_rd, rmap, rbind. cbn [inp]. rewrite (proj1 (H _ [] n eq_refl)) by apply Nat.lt_succ_diag_r. rewrite w32_small by exact L. reflexivity.
  - intros p q E Q. unfold clist_rd, rmap, rbind. cbn [inp]. rewrite (proj2 (H _ [] n eq_refl) p q E Q) by apply Nat.lt_succ_diag_r. reflexivity.
Qed.
Definition cread_body : rd cmd :=
  (let* tag := get8 in
   let* l := get_len in
   let* n := getrdn in
   let size := w32 (l + n) in
   if tag =? 1 then clist_rd KOD size
   else if tag =? 3 then let* v := get16 in clist_rd (KES (N.shiftr v 6)) size
   else if tag =? 9 then clist_rd KTools size
   else let* data := take (N.to_nat (sub32 size n)) in rret (mkCmd (KOther tag data) [])).
Lemma cread_eq s : cread s = cread_body (mkR (inp s) 0). Proof. reflexivity. Qed.
Lemma cread_parses c : cwf c -> parses 0 cread_body (cenc c) (cview c).
Proof.
  intros W. assert (W' := W). destruct W' as (K & F & L). unfold cenc, tagged, cread_body. eapply pb; [reflexivity|apply parses_get8, kind_tag, W|].
  change (0 + len (be8 (ctag (c_kind c)))) with 1. eapply pb; [reflexivity|apply parses_len4; [reflexivity|exact L]|].
  change (1 + len (len4 (len (cbody c)))) with 5. apply parses_getrdn. cbv zeta. rewrite (w32_small (_ + 5)) by lia. rewrite (N.add_comm _ 5).
  assert (R := clist_rd_ok c). unfold cbody in *. destruct c as [[|id| |t d] ds]; cbn [c_kind c_ds ctag cfields kind_ok app] in *.
  - change (1 =? 1) with true. cbn match. apply R; [exact W|exact I|lia].
  - change (3 =? 1) with false. change (3 =? 3) with true. cbn match. rewrite len_app in *. change (len (be16 (id * 64))) with 2 in *.
    eapply pb; [reflexivity|apply parses_get16; lia|]. change (5 + len (be16 (id * 64))) with 7. replace (N.shiftr (id * 64) 6) with id by (rewrite N.shiftr_div_pow2; change (2 ^ 6) with 64; lia).
    rewrite N.add_assoc. change (5 + 2) with 7. apply R; [exact W|exact I|lia].
  - change (9 =? 1) with false. change (9 =? 3) with false. change (9 =? 9) with true. cbn match. apply R; [exact W|exact I|lia].
  - destruct K as (_ & K1 & K3 & K9 & ->). rewrite (proj2 (N.eqb_neq t 1) K1), (proj2 (N.eqb_neq t 3) K3), (proj2 (N.eqb_neq t 9) K9).
    change (csorted (@nil (N * desc))) with (@nil (N * desc)) in *. cbn [flat_map] in *. rewrite len_app in L. 
    rewrite len_app. change (len (@nil N)) with 0 in *.
    replace (sub32 (5 + (len d + 0)) 5) with (len d) by (unfold sub32, w32; lia).
    eapply pb; [|apply parses_take_eq; unfold len; lia|]; [lia|]. apply parses_ret. lia.
Qed.
Lemma cread_ok c r n : cwf c -> cread (mkR (cenc c ++ r) n) = Ok (cview c, mkR r (len (cenc c))).
Proof.
  intros W. rewrite cread_eq. cbn [inp]. rewrite (proj1 (cread_parses c W)). rewrite w32_small; [reflexivity|]. rewrite len_cenc. destruct W as (_ & _ & L). lia.
Qed.
Lemma cenc_ne c : exists x t, cenc c = x :: t. Proof. unfold cenc, tagged. cbn [be8 app]. eauto. Qed.
Lemma frame_rd_ok cs : Forall cwf cs -> forall f, (length (fenc cs) < f)%nat -> frame_rd f (fenc cs) = Ok (map cview cs).
Proof.
  induction cs as [|c cs IH]; intros F f L.
  - destruct f; reflexivity.
  - inversion F as [|? ? W F']; subst. cbn [fenc flat_map] in *. fold (fenc cs) in *. destruct (cenc_ne c) as (x & t & E). destruct f as [|f]; [elim (Nat.nlt_0_r _ L)|].
    pose proof (cread_ok c (fenc cs) 0 W) as R. rewrite app_length in L. rewrite E in R, L |- *. cbn [app frame_rd length] in *. rewrite R. cbn [bind fst snd inp]. rewrite IH; [reflexivity|exact F'|lia].
Qed.
Lemma frame_read_ok cs : Forall cwf cs -> frame_read (fenc cs) = Ok (map cview cs).
Proof. intros F. apply frame_rd_ok; [exact F|apply Nat.lt_succ_diag_r]. Qed.
Lemma pieces_ok cs : Forall cwf cs -> pieces cs = Ok (fenc cs) /\ fold_right (fun c n => csize c + n) 0 cs = len (fenc cs).
Proof.
  induction cs as [|c cs IH]; intros F; [split; reflexivity|]. inversion F as [|? ? W F']; subst. destruct (IH F') as [I1 I2].
  cbn [pieces fold_right fenc flat_map]. fold (fenc cs). rewrite (cwrite_ok c W), I1, I2, (csize_ok c W), len_app. cbn [bind]. rewrite N.eqb_refl. split; reflexivity.
Qed.
Lemma frame_write_ok cs : Forall cwf cs -> len (fenc cs) < 4294967296 -> frame_write cs = Ok (fenc cs).
Proof. intros F L. destruct (pieces_ok cs F) as [P Q]. unfold frame_write. rewrite Q, P. rewrite (proj2 (N.ltb_lt _ _) L). reflexivity. Qed.

(* ------------------------------------------------------------------ *)
(* any input                                                            *)

Lemma clist_eq cnt k size ks s : clist (S cnt) k size ks s =
  if rdn s <? size then match desc_read s with
    | Ok (d, s1) => match cplace k d with Ok m => clist cnt k size (ks ++ [(m, d)]) s1 | Err e => Err e | UB => UB end
    | Err e => Err e | UB => UB end
  else Ok (ks, s).
Proof.
  cbn [clist]. unfold rbind, getrdn. destruct (rdn s <? size); [|reflexivity]. destruct (desc_read s) as [[d s1]| |]; try reflexivity. destruct (cplace k d); reflexivity.
Qed.
Lemma cplace_fuel k d : cplace k d <> Err OutOfFuel /\ cplace k d <> UB.
Proof. destruct k; cbn [cplace]; try (split; discriminate). destruct (dtag d =? 98); split; discriminate. Qed.
Lemma desc_read_eats s a s' : desc_read s = Ok (a, s') -> (length (inp s') < length (inp s))%nat.
Proof. apply (proj2 (desc_rd_decent (S (length (inp s))))). apply Nat.lt_succ_diag_r. Qed.
Lemma decent_clist k size cnt : forall ks, decent True cnt (clist cnt k size ks).
Proof.
  induction cnt as [|cnt IH]; intros ks s L; [elim (Nat.nlt_0_r _ L)|].
  rewrite clist_eq. destruct (rdn s <? size); [|apply (decent_ret True (S cnt) ks s L)].
  destruct (desc_read_decent _ s L) as (D1 & D2 & D3). destruct (desc_read s) as [[d s1]|e|] eqn:P.
  - destruct (cplace_fuel k d) as [F1 F2]. pose proof (desc_read_eats _ _ _ P) as E. destruct (D3 d s1 eq_refl) as [q Q].
    assert (L1 : (length (inp s1) < cnt)%nat) by lia.
    destruct (cplace k d) as [m|e|]; [|split; [congruence|split; discriminate]|congruence].
    destruct (IH (ks ++ [(m, d)]) s1 L1) as (I1 & I2 & I3). split; [exact I1|]. split.
    + intros V C. apply I2; [exact V|]. unfold clean in *. rewrite Q in C. apply Forall_app in C. apply C.
    + intros a s' X. destruct (I3 a s' X) as [r R]. exists (q ++ r). rewrite Q, R, app_assoc. reflexivity.
  - split; [congruence|]. split; discriminate.
  - split; [discriminate|]. split; [intros V C; elim (D2 V C); reflexivity|discriminate].
Qed.
Lemma decent_clist_rd k size b : decent True b (clist_rd k size).
Proof.
  intros s L. unfold clist_rd. assert (D : decent True (S (length (inp s))) (rmap (mkCmd k) (clist (S (length (inp s))) k size []))).
  { unfold rmap. apply decent_bind; [apply decent_clist|intros; apply decent_ret]. }
  apply (D s). apply Nat.lt_succ_diag_r.
Qed.
Lemma decent_cread b : decent True b cread_body.
Proof.
  unfold cread_body. apply decent_bind; [apply decent_get8|intros tag]. apply decent_bind; [apply decent_len|intros l]. apply decent_bind; [apply decent_getrdn|intros n]. cbv zeta.
  apply decent_if; [apply decent_clist_rd|]. apply decent_if; [apply decent_bind; [apply decent_get16|intros; apply decent_clist_rd]|].
  apply decent_if; [apply decent_clist_rd|]. apply decent_bind; [apply decent_take|intros; apply decent_ret].
Qed.
Lemma cread_total i n : cread (mkR i n) <> Err OutOfFuel /\ (clean i -> cread (mkR i n) <> UB) /\
  (forall c s, cread (mkR i n) = Ok (c, s) -> exists p, i = p ++ inp s /\ p <> []).
Proof.
  rewrite cread_eq. cbn [inp]. destruct (decent_cread (S (length i)) (mkR i 0) (Nat.lt_succ_diag_r _)) as (D1 & D2 & D3).
  split; [exact D1|]. split; [exact (D2 I)|]. intros c s E. destruct (D3 c s E) as [p P]. cbn [inp] in P.
  destruct i as [|tag t]; [discriminate|].
  assert (K : decent True (S (length t)) (let* l := get_len in
   let* n := getrdn in
   let size := w32 (l + n) in
   if tag =? 1 then clist_rd KOD size
   else if tag =? 3 then let* v := get16 in clist_rd (KES (N.shiftr v 6)) size
   else if tag =? 9 then clist_rd KTools size
   else let* data := take (N.to_nat (sub32 size n)) in rret (mkCmd (KOther tag data) []))).
  { apply decent_bind; [apply decent_len|intros l]. apply decent_bind; [apply decent_getrdn|intros m]. cbv zeta.
    apply decent_if; [apply decent_clist_rd|]. apply decent_if; [apply decent_bind; [apply decent_get16|intros; apply decent_clist_rd]|].
    apply decent_if; [apply decent_clist_rd|]. apply decent_bind; [apply decent_take|intros; apply decent_ret]. }
  destruct (K (mkR t 1) (Nat.lt_succ_diag_r _)) as (_ & _ & K3). destruct (K3 c s E) as [q Q]. cbn [inp] in Q. exists (tag :: q). split; [rewrite Q; reflexivity|discriminate].
Qed.
Lemma frame_rd_total f : forall i, (length i < f)%nat -> frame_rd f i <> Err OutOfFuel /\ (clean i -> frame_rd f i <> UB).
Proof.
  induction f as [|f IH]; intros i L; [elim (Nat.nlt_0_r _ L)|]. destruct i as [|x t]; [split; discriminate|]. cbn [frame_rd].
  destruct (cread_total (x :: t) 0) as (T1 & T2 & T3). destruct (cread (mkR (x :: t) 0)) as [[c s]|e|]; cbn [bind fst snd].
  - destruct (T3 c s eq_refl) as (p & P & NE). assert (L1 : (length (inp s) < f)%nat) by (rewrite P, app_length in L; destruct p; [congruence|cbn [length] in L; lia]).
    destruct (IH (inp s) L1) as [I1 I2]. destruct (frame_rd f (inp s)); cbn [bind]; (split; [congruence|]); intros C; try discriminate.
    elim I2; [|reflexivity]. unfold clean in *. rewrite P in C. apply Forall_app in C. apply C.
  - split; [congruence|discriminate].
  - split; [discriminate|]. intros C. elim (T2 C). reflexivity.
Qed.

(* ------------------------------------------------------------------ *)
(* lists of streams                                                     *)

Definition pre (m M : list N) : Prop := exists t, M = m ++ t.
Lemma pre_refl m : pre m m. Proof. exists []. rewrite app_nil_r. reflexivity. Qed.
Lemma pre_trans a b c : pre a b -> pre b c -> pre a c.
Proof. intros [x ->] [y ->]. exists (x ++ y). rewrite app_assoc. reflexivity. Qed.
Lemma in_existsb i m : existsb (N.eqb i) m = true <-> In i m.
Proof. rewrite existsb_exists. split; [intros (x & I & E); apply N.eqb_eq in E; subst; exact I|intros I; exists i; rewrite N.eqb_refl; auto]. Qed.
Lemma existsb_no i m : ~ In i m -> existsb (N.eqb i) m = false.
Proof. intros H. destruct (existsb (N.eqb i) m) eqn:E; [|reflexivity]. apply in_existsb in E. contradiction. Qed.
Lemma grow1_pre m i : pre m (grow1 m i).
Proof. unfold grow1. destruct (existsb _ m); [apply pre_refl|]. exists [i]. reflexivity. Qed.
Lemma grow_pre ids : forall m, pre m (grow m ids).
Proof. induction ids as [|i r IH]; intros m; [apply pre_refl|]. cbn [grow fold_left]. eapply pre_trans; [apply grow1_pre|apply IH]. Qed.
Lemma grow_app m a b : grow m (a ++ b) = grow (grow m a) b. Proof. apply fold_left_app. Qed.
Lemma good_app a : forall m b, good m (a ++ b) <-> good m a /\ good (grow m a) b.
Proof. induction a as [|i a IH]; intros m b; cbn [app good grow fold_left]; [tauto|]. rewrite IH. unfold grow. tauto. Qed.
Lemma grow1_nodup m i : NoDup m -> NoDup (grow1 m i).
Proof.
  intros H. unfold grow1. destruct (existsb (N.eqb i) m) eqn:E; [exact H|]. assert (NI : ~ In i m) by (intros X; apply in_existsb in X; congruence).
  apply NoDup_rev in H. rewrite <- (rev_involutive (m ++ [i])). apply NoDup_rev. rewrite rev_app_distr. cbn [rev app]. constructor; [rewrite <- in_rev; exact NI|exact H].
Qed.
Lemma grow_nodup ids : forall m, NoDup m -> NoDup (grow m ids).
Proof. induction ids as [|i r IH]; intros m H; [exact H|]. cbn [grow fold_left]. apply IH, grow1_nodup, H. Qed.
Lemma in_grow1 m i : In i (grow1 m i).
Proof. unfold grow1. destruct (existsb (N.eqb i) m) eqn:E; [apply in_existsb; exact E|]. apply in_or_app. right. left. reflexivity. Qed.
Lemma in_pre m M i : pre m M -> In i m -> In i M.
Proof. intros [t ->] H. apply in_or_app. auto. Qed.
Lemma in_grow ids : forall m i, In i ids -> In i (grow m ids).
Proof.
  induction ids as [|j r IH]; intros m i I; [destruct I|]. cbn [grow fold_left]. destruct I as [->|I]; [|apply IH; exact I].
  eapply in_pre; [apply grow_pre|apply in_grow1].
Qed.
Lemma pos_in m i : In i m -> 0 < pos m i <= len m /\ nthN m (pos m i - 1) = Some i.
Proof.
  induction m as [|x m IH]; intros I; [destruct I|]. cbn [pos]. destruct (N.eqb_spec x i) as [->|NE].
  - split; [unfold len; cbn [length]; lia|reflexivity].
  - destruct I as [E|I]; [congruence|]. destruct (IH I) as [B E]. replace (match pos m i with 0 => 0 | N.pos p => N.pos p + 1 end) with (pos m i + 1) by (destruct (pos m i); lia).
    assert (LL : len (x :: m) = len m + 1) by (unfold len; cbn [length]; lia). split; [lia|].
    unfold nthN in *. replace (N.to_nat (pos m i + 1 - 1)) with (S (N.to_nat (pos m i - 1))) by lia. exact E.
Qed.
Lemma pos_pre m M i : pre m M -> In i m -> pos M i = pos m i.
Proof.
  intros [t ->]. induction m as [|x m IH]; intros I; [destruct I|]. cbn [app pos]. destruct (N.eqb_spec x i); [reflexivity|]. destruct I as [E|I]; [congruence|]. rewrite IH by exact I. reflexivity.
Qed.
Lemma pos_end m i : ~ In i m -> pos (m ++ [i]) i = len m + 1.
Proof.
  induction m as [|x m IH]; intros H; cbn [app pos]; [rewrite N.eqb_refl; reflexivity|]. destruct (N.eqb_spec x i) as [E|_]; [elim H; left; exact E|].
  rewrite IH by (intros X; apply H; right; exact X). unfold len. cbn [length]. destruct (N.of_nat (length m) + 1) eqn:Z; lia.
Qed.
Lemma last_end m i : NoDup m -> i <> 0 -> last m 0 = i -> pos m i = len m /\ In i m.
Proof.
  intros ND NZ L. destruct m as [|x m] using rev_ind; [cbn in L; congruence|]. rewrite last_last in L. subst x. clear IHm.
  rewrite pos_end; [|apply NoDup_remove_2 in ND; rewrite app_nil_r in ND; exact ND]. split; [unfold len; rewrite app_length; cbn [length]; lia|apply in_or_app; right; left; reflexivity].
Qed.
Lemma grow1_pos m i : NoDup m -> i <> 0 -> (~ In i m \/ last m 0 = i) -> pos (grow1 m i) i = len (grow1 m i).
Proof.
  intros ND NZ H. unfold grow1. destruct (existsb (N.eqb i) m) eqn:E.
  - apply in_existsb in E. destruct H as [H|H]; [contradiction|]. apply (last_end m i ND NZ H).
  - assert (NI : ~ In i m) by (intros X; apply in_existsb in X; congruence). rewrite pos_end by exact NI. unfold len. rewrite app_length. cbn [length]. lia.
Qed.

(* ------------------------------------------------------------------ *)
(* storing                                                              *)

(* [M] extends the list that there is in the end *)
Definition does {A} (M : list N) (x : st A) (ids : list N) (v : A) : Prop :=
  forall m, NoDup m -> good m ids -> pre (grow m ids) M -> x m = (grow m ids, Ok v).
Lemma does_ret {A} M (v : A) : does M (sret v) [] v. Proof. intros m _ _ _. reflexivity. Qed.
Lemma does_bind {A B} M (x : st A) (k : A -> st B) i1 i2 a b : does M x i1 a -> does M (k a) i2 b -> does M (sbind x k) (i1 ++ i2) b.
Proof.
  intros X K m ND G P. apply good_app in G. destruct G as [G1 G2]. rewrite grow_app in *. unfold sbind.
  rewrite (X m ND G1); [|eapply pre_trans; [apply grow_pre|exact P]]. apply K; [apply grow_nodup; exact ND|exact G2|exact P].
Qed.
Lemma does_then {A B} M (x : st A) (k : A -> st B) i a b : does M x i a -> does M (k a) [] b -> does M (sbind x k) i b.
Proof. intros X K. rewrite <- (app_nil_r i). eapply does_bind; eassumption. Qed.
Lemma does_smap {A B} M (f : A -> st B) (ids : A -> list N) (g : A -> B) l :
  (forall a, In a l -> does M (f a) (ids a) (g a)) -> does M (smap f l) (flat_map ids l) (map g l).
Proof.
  induction l as [|a l IH]; intros H; cbn [smap flat_map map]; [apply does_ret|].
  eapply does_bind; [apply H; left; reflexivity|]. eapply does_then; [apply IH; intros; apply H; right; assumption|apply does_ret].
Qed.
Lemma does_add M i : does M (add_track i) [i] (pos M i).
Proof.
  intros m ND G P. cbn [good grow fold_left] in *. destruct G as (NZ & H & _). unfold add_track. rewrite (proj2 (N.eqb_neq i 0) NZ).
  cbv zeta. fold (grow1 m i). rewrite (pos_pre _ _ i P (in_grow1 m i)). rewrite grow1_pos by assumption. reflexivity.
Qed.

Lemma names_cases k : (exists t id tool es ks, k = (4, Desc (HPtr t id tool es) ks)) \/
  (names k = [] /\ store_ptr k = sret k /\ (forall f, put_ptr f k = k) /\ forall m, fetch_ptr m k = Ok k).
Proof.
  destruct k as [n [h ks]]. destruct (N.eq_dec n 4) as [->|NE].
  - destruct h; try (left; repeat eexists; fail); right; repeat split; reflexivity.
  - right. destruct n as [|p]; [repeat split; reflexivity|]. do 3 (destruct p as [p|p|]; try (repeat split; reflexivity)). congruence.
Qed.
Lemma fst_put f k : fst (put_ptr f k) = fst k.
Proof.
  destruct (names_cases k) as [(t & id & tool & es & ks & ->)|(_ & _ & H & _)]; [reflexivity|]. rewrite H. reflexivity.
Qed.
Lemma map_flat {A B} (f : A -> B) l : map f l = flat_map (fun a => [f a]) l.
Proof. induction l as [|a l IH]; cbn; [reflexivity|]. rewrite IH. reflexivity. Qed.
Lemma does_ptr M k : len M < 65536 -> does M (store_ptr k) (names k) (put_ptr (pos M) k).
Proof.
  intros L. destruct (names_cases k) as [(t & id & tool & es & ks & ->)|(-> & -> & -> & _)]; [|apply does_ret].
  cbn [store_ptr names put_ptr]. destruct ((es =? 0) || (es =? 65535))%bool; [apply does_ret|].
  intros m ND G P. eapply eq_trans; [apply (does_then M _ _ _ _ (4, Desc (HPtr t id tool (w16 (pos M es))) ks) (does_add M es)); [apply does_ret|exact ND|exact G|exact P]|].
  assert (I : In es M) by (eapply in_pre; [exact P|apply in_grow; left; reflexivity]). apply pos_in in I. destruct I as [B _].
  unfold w16. rewrite N.mod_small by lia. reflexivity.
Qed.
Lemma at_put f ks : at_ 0 (map (put_ptr f) ks) = at_ 0 ks.
Proof.
  unfold at_. induction ks as [|k ks IH]; [reflexivity|]. cbn [map filter]. rewrite fst_put, IH. destruct (N.eqb_spec (fst k) 0) as [E|E]; [|reflexivity].
  f_equal. destruct (names_cases k) as [(t & id & tool & es & kk & ->)|(_ & _ & H & _)]; [discriminate E|apply H].
Qed.
Lemma does_es M k : is_esd (snd k) -> plain_es (snd k) -> does M (store_es k) [esid (snd k)] (ref_to M k).
Proof.
  intros E P m ND G Q. destruct k as [n [h ks]]. cbn [snd is_esd plain_es kids] in *. destruct h as [| | | | |e b c d u| | | | |]; try contradiction.
  unfold store_es, ref_to. cbn [snd esid]. cbn [good grow fold_left] in *. destruct G as (NZ & H & _).
  unfold sbind at 1, add_track. rewrite (proj2 (N.eqb_neq e 0) NZ). cbv zeta. fold (grow1 m e).
  assert (S : forall m0, smap store_ptr ks m0 = (m0, Ok ks)).
  { clear -P. unfold plain_es in P. cbn [kids] in P. induction ks as [|k ks IH]; intros m0; cbn [smap flat_map] in *; [reflexivity|]. apply app_eq_nil in P. destruct P as [P1 P2].
    assert (X : store_ptr k = sret k). { destruct (names_cases k) as [(t & id & tool & es & kk & ->)|(_ & X & _)]; [|exact X]. cbn [names store_ptr] in *. destruct (_ || _)%bool; [reflexivity|discriminate]. }
    unfold sbind. rewrite X. cbn [sret]. rewrite IH by exact P2. reflexivity. }
  unfold sbind. rewrite S. rewrite (pos_pre _ _ e Q (in_grow1 m e)), grow1_pos by assumption. reflexivity.
Qed.

(* what reading leaves in each list *)
Lemma tag_es d : wf d -> dtag d = 3 -> is_esd d.
Proof.
  destruct d as [h ks]. intros W. apply wf_inv in W. destruct W as (H & _). cbn [dtag]. destruct h; cbn [htag head_ok is_esd] in *; intros E; subst; try exact I; try discriminate; try tauto.
  - destruct H as [_ H]. discriminate H.
  - destruct H as [[H|H] _]; discriminate H.
  - destruct H as [[H|H] _]; discriminate H.
Qed.
Definition is_od (d : desc) : Prop := match d with Desc (HOD t _ _) _ => t = 1 | _ => False end.
Lemma tag_od d : wf d -> dtag d = 1 -> is_od d.
Proof.
  destruct d as [h ks]. intros W. apply wf_inv in W. destruct W as (H & _). cbn [dtag]. destruct h; cbn [htag head_ok is_od] in *; intros E; subst; try exact I; try discriminate; try reflexivity; try tauto.
  - destruct H as [_ H]. discriminate H.
  - destruct H as [[H|H] _]; discriminate H.
Qed.
Lemma od_home0 t : od_home t = 0 -> t = 3.
Proof. unfold od_home. destruct ((64 <=? t) && (t <=? 95))%bool; [discriminate|]. destruct t as [|p]; [discriminate|]. do 4 (destruct p as [p|p|]; try discriminate; try reflexivity). Qed.
Lemma chome0 k t : chome k t = 0 -> match k with KOD => t = 1 | KES _ => t = 3 | _ => True end.
Proof. destruct k; auto; rewrite <- ?od_chome, <- ?es_chome; [destruct (N.eqb_spec t 1); auto; discriminate|destruct (N.eqb_spec t 3); auto; destruct (t =? 15); discriminate]. Qed.
Lemma in_at {A} m (ks : list (N * A)) k : In k (at_ m ks) <-> In k ks /\ fst k = m.
Proof. unfold at_. rewrite filter_In, N.eqb_eq. tauto. Qed.
Lemma still_inv h ks : still (Desc h ks) -> head_view h = h /\ sorted h ks = ks /\ Forall (fun k => still (snd k) /\ fst k = home h (dtag (snd k))) ks.
Proof. intros S. inversion S; subst. auto. Qed.
Lemma od_es id url ks k : wf (Desc (HOD 1 id url) ks) -> still (Desc (HOD 1 id url) ks) -> In k (at_ 0 ks) -> is_esd (snd k).
Proof.
  intros W S I. apply wf_inv in W. destruct W as (_ & _ & F & _). apply still_inv in S. destruct S as (_ & _ & S). apply in_at in I. destruct I as [I Z].
  rewrite Forall_forall in F, S. destruct (S k I) as [_ E]. apply tag_es; [apply F; exact I|]. cbn [home] in E. apply od_home0. congruence.
Qed.
Lemma does_od M k : len M < 65536 -> is_od (snd k) -> wf (snd k) -> still (snd k) -> plain_od (snd k) ->
  does M (store_od k) (od_ids (snd k)) (fst k, stored_od M (snd k)).
Proof.
  intros L O W S [_ P]. destruct k as [n [h ks]]. cbn [snd fst] in *. destruct h as [| | | | | |t id url| | | |]; try contradiction. cbn [is_od] in O. subst t.
  unfold store_od, od_ids. cbn [snd fst stored_od kids] in *. eapply does_bind; [apply does_smap; intros k _; apply does_ptr, L|].
  change (in_member 0 (map (put_ptr (pos M)) ks)) with (at_ 0 (map (put_ptr (pos M)) ks)). rewrite at_put.
  eapply does_then.
  - rewrite map_flat. apply does_smap with (ids := fun k => [esid (snd k)]) (g := ref_to M). intros k I. apply does_es; [eapply od_es; eassumption|].
    rewrite Forall_forall in P. apply P, I.
  - rewrite map_map. apply does_ret.
Qed.

Lemma flat_at {A B} (f : N * A -> list B) l : flat_map f (at_ 0 l) = flat_map (fun k => if fst k =? 0 then f k else []) l.
Proof. unfold at_. induction l as [|k l IH]; [reflexivity|]. cbn [filter flat_map]. destruct (fst k =? 0); cbn [flat_map app]; rewrite IH; reflexivity. Qed.
Lemma does_cmd M c : len M < 65536 -> as_read c -> plain_cmd c -> does M (store_cmd c) (cids c) (stored M c).
Proof.
  intros L ((K & F & _) & _ & S) P. unfold store_cmd, cids, stored, plain_cmd in *. rewrite Forall_forall in F, S. destruct (c_kind c) as [|id| |t d].
  - eapply does_then; [|apply does_ret].
    rewrite flat_at.
    apply does_smap. intros k I. destruct (N.eqb_spec (fst k) 0) as [Z|Z]; [|destruct k; apply does_ret].
    destruct (S k I) as [S1 S2]. apply does_od; [exact L|apply tag_od; [apply F; exact I|]|apply F; exact I|exact S1|].
    + apply (chome0 KOD). congruence.
    + rewrite Forall_forall in P. apply P. apply in_at. auto.
  - destruct P as [_ P]. eapply does_then; [|rewrite map_map; apply does_ret]. rewrite map_flat. apply does_smap. intros k I. assert (I' := I). apply in_at in I'. destruct I' as [I1 Z].
    destruct (S k I1) as [_ S2]. apply does_es; [apply tag_es; [apply F; exact I1|]|].
    + apply (chome0 (KES id)). congruence.
    + rewrite Forall_forall in P. apply P, I.
  - apply does_ret.
  - apply does_ret.
Qed.

(* descriptors that reading leaves as they are *)
Lemma still_view d : still d -> view d = d.
Proof.
  induction d as [h ks IH] using desc_ind'. intros S. apply still_inv in S. destruct S as (V & O & F). cbn [view]. rewrite V. f_equal.
  rewrite sorted_map, O, map_map. rewrite <- (map_id ks) at 2. apply map_ext_in. intros [n d] I. rewrite Forall_forall in IH, F. destruct (F _ I) as [F1 F2]. cbn [fst snd] in *.
  pose proof (IH _ I F1) as X. cbn [snd] in X. rewrite X, <- F2. reflexivity.
Qed.
Lemma as_read_view c : as_read c -> cview c = c.
Proof.
  intros (_ & O & S). unfold cview. rewrite O. destruct c as [k ds]. cbn [c_kind c_ds] in *. f_equal. rewrite <- (map_id ds) at 2. apply map_ext_in. intros [n d] I.
  rewrite Forall_forall in S. destruct (S _ I) as [S1 S2]. cbn [fst snd] in *. rewrite (still_view d S1), <- S2. reflexivity.
Qed.
Lemma does_frame M cs : len M < 65536 -> Forall as_read cs -> Forall plain_cmd cs -> forall f, (length (fenc cs) < f)%nat ->
  does M (store_loop f (fenc cs)) (fids cs) (map (stored M) cs).
Proof.
  intros L. induction cs as [|c cs IH]; intros R P f LF; [destruct f; apply does_ret|].
  inversion R as [|? ? R1 R2]; subst. inversion P as [|? ? P1 P2]; subst. cbn [fenc fids flat_map map] in *. fold (fenc cs) in *. fold (fids cs).
  destruct (cenc_ne c) as (x & t & E). destruct f as [|f]; [elim (Nat.nlt_0_r _ LF)|]. assert (W := proj1 R1).
  pose proof (cread_ok c (fenc cs) 0 W) as Q. rewrite (as_read_view c R1) in Q. rewrite app_length in LF. rewrite E in Q, LF |- *. cbn [app length] in *.
  assert (D : does M (sbind (store_cmd c) (fun c' => sbind (store_loop f (fenc cs)) (fun r => sret (c' :: r)))) (cids c ++ fids cs) (stored M c :: map (stored M) cs)).
  { eapply does_bind; [apply does_cmd; assumption|]. eapply does_then; [apply IH; [assumption|assumption|lia]|apply does_ret]. }
  intros m ND G PM. specialize (D m ND G PM). cbn [store_loop]. rewrite Q. cbn [inp]. exact D.
Qed.

(* ------------------------------------------------------------------ *)
(* what is stored is legal                                              *)

Definition groups {A} (o : list N) (ks : list (N * A)) : list (N * A) := flat_map (fun m => filter (fun k => fst k =? m) ks) o.
Lemma filter_cons {A} m (k : N * A) ks : filter (fun k => fst k =? m) (k :: ks) = if fst k =? m then k :: filter (fun k => fst k =? m) ks else filter (fun k => fst k =? m) ks.
Proof. reflexivity. Qed.
Lemma groups_none {A} (g : N * A -> list N) o k ks : ~ In (fst k) o -> len (flat_map g (groups o (k :: ks))) = len (flat_map g (groups o ks)).
Proof.
  unfold groups. induction o as [|m o IH]; intros H; [reflexivity|]. cbn [flat_map]. rewrite filter_cons. destruct (N.eqb_spec (fst k) m) as [E|_]; [elim H; left; auto|].
  rewrite !flat_map_app, !len_app, IH; [reflexivity|]. intros X. apply H. right. exact X.
Qed.
Lemma groups_len {A} (g : N * A -> list N) o : NoDup o -> forall ks, len (flat_map g (groups o ks)) <= len (flat_map g ks).
Proof.
  intros ND ks. induction ks as [|k ks IH].
  - unfold groups. induction o as [|m o IHo]; cbn [flat_map filter app]; [unfold len; cbn [length]; lia|]. apply IHo. inversion ND; assumption.
  - assert (H : len (flat_map g (groups o (k :: ks))) <= len (g k) + len (flat_map g (groups o ks))).
    { clear IH. unfold groups. induction o as [|m o IHo]; [cbn [flat_map]; change (len (@nil N)) with 0; lia|]. inversion ND as [|? ? M1 ND']; subst. specialize (IHo ND').
      cbn [flat_map]. rewrite filter_cons. destruct (N.eqb_spec (fst k) m) as [E|_].
      - subst m. pose proof (groups_none g o k ks M1) as X. unfold groups in X. rewrite !flat_map_app, !len_app, X. cbn [flat_map]. rewrite len_app. lia.
      - rewrite !flat_map_app, !len_app. lia. }
    cbn [flat_map]. rewrite len_app. lia.
Qed.
Lemma sorted_len h (g : N * desc -> list N) ks : len (flat_map g (sorted h ks)) <= len (flat_map g ks).
Proof. apply (groups_len g (order h)), order_nodup. Qed.
Lemma csorted_groups {A} (ks : list (N * A)) : csorted ks = groups [0; 1; 2] ks.
Proof. unfold csorted, groups. cbn [flat_map]. rewrite app_nil_r. reflexivity. Qed.
Lemma nodup012 : NoDup [0; 1; 2]. Proof. assert (D : forall l : list N, (nodup N.eq_dec l = l) -> NoDup l) by (intros l <-; apply NoDup_nodup). apply D. reflexivity. Qed.
Lemma csorted_len (g : N * desc -> list N) ks : len (flat_map g (csorted ks)) <= len (flat_map g ks).
Proof. rewrite csorted_groups. apply groups_len, nodup012. Qed.
Lemma split_len (g : N * desc -> list N) ks : len (flat_map g ks) = len (flat_map g (but 0 ks)) + len (flat_map g (at_ 0 ks)).
Proof.
  unfold but, at_. induction ks as [|k ks IH]; [reflexivity|]. cbn [flat_map filter]. destruct (fst k =? 0); cbn [negb flat_map]; rewrite !len_app, IH; lia.
Qed.
Lemma len_es d : is_esd d -> 7 <= len (enc d).
Proof.
  destruct d as [h ks]. destruct h; cbn [is_esd]; try contradiction. intros _. rewrite len_enc. cbn [body fields]. lens. lia.
Qed.
Lemma len_ref M k : len (enc (ref_to M k)) = 7. Proof. rewrite len_enc. reflexivity. Qed.
Lemma refs_len M (n : N) (l : list (N * desc)) : (forall k, In k l -> is_esd (snd k)) -> len (flat_map (fun k => enc (snd k)) (map (fun k => (n, ref_to M k)) l)) <= len (flat_map (fun k => enc (snd k)) l).
Proof.
  induction l as [|k l IH]; intros H; [cbn; lia|]. cbn [map flat_map snd]. rewrite !len_app, len_ref. pose proof (len_es _ (H k (or_introl eq_refl))). specialize (IH (fun x I => H x (or_intror I))). lia.
Qed.
Lemma len_put f k : len (enc (snd (put_ptr f k))) = len (enc (snd k)).
Proof.
  destruct (names_cases k) as [(t & id & tool & es & ks & ->)|(_ & _ & H & _)]; [|rewrite H; reflexivity]. cbn [put_ptr snd]. rewrite !len_enc. cbn [body fields]. unfold sorted. cbn [order flat_map]. destruct (id =? 255); reflexivity.
Qed.
Lemma but_put f ks : len (flat_map (fun k => enc (snd k)) (but 0 (map (put_ptr f) ks))) = len (flat_map (fun k => enc (snd k)) (but 0 ks)).
Proof.
  unfold but. induction ks as [|k ks IH]; [reflexivity|]. cbn [map filter]. rewrite fst_put. destruct (negb (fst k =? 0)); cbn [flat_map]; rewrite ?len_app, ?len_put, IH; reflexivity.
Qed.
Lemma wf_ref M k : len M < 65536 -> In (esid (snd k)) M -> wf (ref_to M k).
Proof. intros L I. apply pos_in in I. destruct I as [B _]. apply Wf; [cbn [head_ok]; lia|reflexivity|constructor|reflexivity]. Qed.
Lemma wf_put M k : len M < 65536 -> incl (names k) M -> wf (snd k) -> wf (snd (put_ptr (pos M) k)).
Proof.
  intros L I W. destruct (names_cases k) as [(t & id & tool & es & ks & ->)|(_ & _ & H & _)]; [|rewrite H; exact W]. cbn [put_ptr snd names] in *. destruct ((es =? 0) || (es =? 65535))%bool; [exact W|].
  apply wf_inv in W. destruct W as ((H1 & H2 & H3 & H4) & K & F & LB). assert (Ie : In es M) by (apply I; left; reflexivity). apply pos_in in Ie. destruct Ie as [B _].
  apply Wf; [cbn [head_ok]; repeat split; auto; lia|exact K|exact F|]. revert LB. cbn [body fields]. unfold sorted. cbn [order flat_map]. destruct (id =? 255); exact (fun x => x).
Qed.
Lemma home_od_order t : In (od_home t) [0; 1; 2; 3; 4; 5].
Proof. unfold od_home. destruct (_ && _)%bool; [cbn; auto 10|]. destruct t as [|p]; [cbn; auto 10|]. do 4 (destruct p as [p|p|]; try (cbn; auto 10; fail)). Qed.
Lemma wf_stored_od M d : len M < 65536 -> incl (od_ids d) M -> is_od d -> wf d -> still d -> wf (stored_od M d) /\ len (enc (stored_od M d)) <= len (enc d).
Proof.
  intros L I O W S. destruct d as [h ks]. destruct h as [| | | | | |t id url| | | |]; try contradiction. cbn [is_od] in O. subst t.
  assert (ES : forall k, In k (at_ 0 ks) -> is_esd (snd k)) by (intros k; apply od_es with (id := id) (url := url); assumption).
  assert (W' := W). apply wf_inv in W'. destruct W' as (H & K & F & LB). apply still_inv in S. destruct S as (_ & O & S).
  assert (LE : len (body (stored_od M (Desc (HOD 1 id url) ks))) <= len (body (Desc (HOD 1 id url) ks))).
  { cbn [stored_od body fields]. rewrite O. lens.
    pose proof (sorted_len (HOD 17 id url) (fun k => enc (snd k)) (but 0 (map (put_ptr (pos M)) ks) ++ map (fun k => (2, ref_to M k)) (at_ 0 ks))) as X.
    rewrite flat_map_app, len_app, but_put in X. pose proof (refs_len M 2 (at_ 0 ks) ES) as Y. pose proof (split_len (fun k => enc (snd k)) ks) as Z. lia. }
  split; [|rewrite !len_enc; lia]. cbn [od_ids kids stored_od] in *. cbn [stored_od] in LE. cbn [head_ok] in H. apply Wf; [cbn [head_ok]; tauto| | |lia].
  - cbn [kids_ok order] in *. rewrite Forall_forall in *. intros k X. apply in_app_or in X. destruct X as [X|X].
    + apply filter_In in X. destruct X as [X _]. apply in_map_iff in X. destruct X as (k0 & <- & X). rewrite fst_put. apply K, X.
    + apply in_map_iff in X. destruct X as (k0 & <- & X). cbn. auto 10.
  - rewrite Forall_forall in *. intros k X. apply in_app_or in X. destruct X as [X|X].
    + apply filter_In in X. destruct X as [X _]. apply in_map_iff in X. destruct X as (k0 & <- & X). apply wf_put; [exact L| |apply F, X].
      intros i J. apply I. apply in_or_app. left. apply in_flat_map. eauto.
    + apply in_map_iff in X. destruct X as (k0 & <- & X). cbn [snd]. apply wf_ref; [exact L|]. apply I. apply in_or_app. right. apply in_map_iff. eauto.
Qed.
Lemma wf_stored M c : len M < 65536 -> incl (cids c) M -> as_read c -> cwf (stored M c) /\ len (cenc (stored M c)) <= len (cenc c).
Proof.
  intros L I R. rewrite !len_cenc. destruct R as (W & O & S). assert (W' := W). destruct W' as (K & F & LB). unfold stored, cids in *. unfold cwf, cbody in *. rewrite O in LB |- *. rewrite Forall_forall in F, S.
  destruct c as [[|id| |t d] ds]; cbn [c_kind c_ds kind_ok cfields app] in *.
  - assert (OD : forall k, In k ds -> fst k = 0 -> is_od (snd k)).
    { intros k Ik Z. destruct (S k Ik) as [_ S2]. apply tag_od; [apply F; exact Ik|]. apply (chome0 KOD). congruence. }
    assert (X : forall k, In k ds -> wf (if fst k =? 0 then stored_od M (snd k) else snd k) /\ len (enc (if fst k =? 0 then stored_od M (snd k) else snd k)) <= len (enc (snd k))).
    { intros k Ik. destruct (N.eqb_spec (fst k) 0) as [Z|Z]; [|split; [apply F, Ik|lia]]. apply wf_stored_od; [exact L| |apply OD; assumption|apply F, Ik|apply S, Ik].
      intros i J. apply I. apply in_flat_map. exists k. split; [apply in_at; auto|exact J]. }
    assert (LE : len (flat_map (fun k => enc (snd k)) (csorted (map (fun k => (fst k, if fst k =? 0 then stored_od M (snd k) else snd k)) ds))) <= len (flat_map (fun k => enc (snd k)) ds)).
    { eapply N.le_trans; [apply csorted_len|]. clear -X. induction ds as [|k ds IH]; [cbn; lia|]. cbn [map flat_map snd]. rewrite !len_app. destruct (X k (or_introl eq_refl)) as [_ Y]. specialize (IH (fun x J => X x (or_intror J))). lia. }
    split; [|lia]. split; [|split; [|lia]].
    + rewrite Forall_forall in *. intros k J. apply in_map_iff in J. destruct J as (k0 & <- & J). apply (K k0 J).
    + rewrite Forall_forall. intros k J. apply in_map_iff in J. destruct J as (k0 & <- & J). apply X, J.
  - assert (ES : forall k, In k (at_ 0 ds) -> is_esd (snd k)).
    { intros k J. apply in_at in J. destruct J as [J Z]. destruct (S k J) as [_ S2]. apply tag_es; [apply F; exact J|]. apply (chome0 (KES id)). congruence. }
    assert (LE : len (flat_map (fun k => enc (snd k)) (csorted (but 0 ds ++ map (fun k => (1, ref_to M k)) (at_ 0 ds)))) <= len (flat_map (fun k => enc (snd k)) ds)).
    { eapply N.le_trans; [apply csorted_len|]. rewrite flat_map_app, len_app, (split_len _ ds). pose proof (refs_len M 1 (at_ 0 ds) ES). lia. }
    rewrite !len_app in *. split; [|lia]. split; [|split; [|lia]].
    + split; [apply K|]. destruct K as [_ K]. rewrite Forall_forall in *. intros k J. apply in_app_or in J. destruct J as [J|J].
      * apply filter_In in J. apply K, J.
      * apply in_map_iff in J. destruct J as (k0 & <- & J). reflexivity.
    + rewrite Forall_forall. intros k J. apply in_app_or in J. destruct J as [J|J].
      * apply filter_In in J. apply F, J.
      * apply in_map_iff in J. destruct J as (k0 & <- & J). cbn [snd]. apply wf_ref; [exact L|]. apply I, in_map_iff. eauto.
  - split; [|rewrite O; lia]. split; [exact K|]. split; [apply Forall_forall; exact F|rewrite O; exact LB].
  - split; [|rewrite O; lia]. split; [exact K|]. split; [apply Forall_forall; exact F|rewrite O; exact LB].
Qed.
Lemma stored_frame M cs : len M < 65536 -> incl (fids cs) M -> Forall as_read cs -> Forall cwf (map (stored M) cs) /\ len (fenc (map (stored M) cs)) <= len (fenc cs).
Proof.
  intros L. induction cs as [|c cs IH]; intros I R; [split; [constructor|reflexivity]|]. inversion R as [|? ? R1 R2]; subst. cbn [fids flat_map map fenc] in *. fold (fids cs) in I. fold (fenc cs). fold (fenc (map (stored M) cs)).
  destruct (wf_stored M c L (fun i J => I i (in_or_app _ _ _ (or_introl J))) R1) as [A B]. destruct (IH (fun i J => I i (in_or_app _ _ _ (or_intror J))) R2) as [C D].
  split; [constructor; assumption|]. rewrite !len_app. lia.
Qed.
Lemma store_ok M m cs : Forall as_read cs -> Forall plain_cmd cs -> NoDup m -> good m (fids cs) -> pre (grow m (fids cs)) M -> len M < 65536 -> len (fenc cs) < 4294967296 ->
  store_frame m (fenc cs) = Ok (grow m (fids cs), fenc (map (stored M) cs)).
Proof.
  intros R P ND G PM L LF. unfold store_frame. rewrite (does_frame M cs L R P _ (Nat.lt_succ_diag_r _) m ND G PM).
  destruct (stored_frame M cs L (fun i J => in_pre _ _ _ PM (in_grow _ _ _ J)) R) as [A B]. rewrite frame_write_ok; [reflexivity|exact A|lia].
Qed.

(* ------------------------------------------------------------------ *)
(* fetching                                                             *)

Lemma rmapm_ok {A B} (f : A -> res B) (g : A -> B) l : (forall a, In a l -> f a = Ok (g a)) -> rmapm f l = Ok (map g l).
Proof.
  induction l as [|a l IH]; intros H; cbn [rmapm map]; [reflexivity|]. rewrite H by (left; reflexivity). cbn [bind]. rewrite IH by (intros; apply H; right; assumption). reflexivity.
Qed.
Definition nth1 (M : list N) (p : N) : N := match nthN M (p - 1) with Some x => x | None => 0 end.
(* a pointer that was stored, fetched again *)
Lemma fetch_put M k : len M < 65535 -> incl (names k) M -> wf (snd k) -> fetch_ptr M (put_ptr (pos M) k) = Ok k.
Proof.
  intros L I W. destruct (names_cases k) as [(t & id & tool & es & ks & ->)|(_ & _ & H & H2)]; [|rewrite H; apply H2]. cbn [put_ptr names snd] in *.
  destruct ((es =? 0) || (es =? 65535))%bool eqn:Z; [cbn [fetch_ptr]; rewrite Z; reflexivity|].
  assert (J : In es M) by (apply I; left; reflexivity). apply pos_in in J. destruct J as [B E]. cbn [fetch_ptr].
  assert (Z' : ((pos M es =? 0) || (pos M es =? 65535))%bool = false) by (apply Bool.orb_false_iff; split; apply N.eqb_neq; lia). rewrite Z', E.
  apply wf_inv in W. destruct W as ((_ & _ & _ & X) & _). unfold w16. rewrite N.mod_small by exact X. reflexivity.
Qed.
Lemma fetch_plain M d : plain_es d -> rmapm (fetch_ptr M) (kids d) = Ok (kids d).
Proof.
  unfold plain_es. induction (kids d) as [|k l IH]; intros H; [reflexivity|]. cbn [flat_map] in H. apply app_eq_nil in H. destruct H as [H1 H2]. cbn [rmapm].
  assert (X : fetch_ptr M k = Ok k). { destruct (names_cases k) as [(t & id & tool & es & ks & ->)|(_ & _ & _ & H)]; [|apply H]. cbn [names fetch_ptr] in *. destruct (_ || _)%bool; [reflexivity|discriminate]. }
  rewrite X. cbn [bind]. rewrite IH by exact H2. reflexivity.
Qed.
Lemma fetch_ref_ok M esd e k n : In (esid (snd k)) M -> esd (esid (snd k)) = Ok e -> is_esd e -> plain_es e -> fetch_ref M esd (n, ref_to M k) = Ok e.
Proof.
  intros I E S P. apply pos_in in I. destruct I as [B N1]. unfold fetch_ref, ref_to. cbn [snd]. destruct (N.ltb_spec (len M) (pos M (esid (snd k)))); [lia|].
  rewrite (proj2 (N.eqb_neq _ 0)) by lia. rewrite N1, E. cbn [bind]. destruct e as [h ks]. pose proof (fetch_plain M (Desc h ks) P) as X. cbn [kids] in X. destruct h; try contradiction. rewrite X. reflexivity.
Qed.

(* two lists that are the same list by list *)
Lemma sorted_ext {A} h (a b : list (N * A)) : (forall m, In m (order h) -> at_ m a = at_ m b) -> sorted h a = sorted h b.
Proof.
  unfold sorted, at_. induction (order h) as [|m o IH]; intros H; [reflexivity|]. cbn [flat_map]. rewrite H by (left; reflexivity). rewrite IH by (intros; apply H; right; assumption). reflexivity.
Qed.
Lemma at_sorted {A} h m (a : list (N * A)) : In m (order h) -> at_ m (sorted h a) = at_ m a.
Proof. intros I. unfold at_, sorted. rewrite in_group by apply order_nodup. rewrite (proj2 (in_existsb m (order h)) I). reflexivity. Qed.
Lemma at_but {A} m n (a : list (N * A)) : at_ m (but n a) = if m =? n then [] else at_ m a.
Proof.
  unfold at_, but. induction a as [|k a IH]; cbn [filter]; [destruct (m =? n); reflexivity|].
  destruct (N.eqb_spec (fst k) n) as [E|E]; cbn [negb filter].
  - rewrite IH. destruct (N.eqb_spec m n) as [->|NE]; [reflexivity|]. destruct (N.eqb_spec (fst k) m); [congruence|reflexivity].
  - rewrite IH. destruct (N.eqb_spec m n) as [->|NE]; [|reflexivity]. destruct (N.eqb_spec (fst k) n); [congruence|reflexivity].
Qed.
Lemma at_app {A} m (a b : list (N * A)) : at_ m (a ++ b) = at_ m a ++ at_ m b. Proof. apply filter_app. Qed.
Lemma at_all {A B} m n (f : A -> B) l : at_ m (map (fun k => (n, f k)) l) = if n =? m then map (fun k => (n, f k)) l else [].
Proof.
  unfold at_. induction l as [|k l IH]; cbn [map filter]; [destruct (n =? m); reflexivity|]. rewrite IH. cbn [fst]. destruct (n =? m); reflexivity.
Qed.
Lemma at_map {A B} m (f : N * A -> B) l : at_ m (map (fun k => (fst k, f k)) l) = map (fun k => (m, f k)) (at_ m l).
Proof.
  unfold at_. induction l as [|k l IH]; cbn [map filter]; [reflexivity|]. cbn [fst]. destruct (N.eqb_spec (fst k) m) as [->|]; cbn [map]; rewrite IH; reflexivity.
Qed.
Lemma at_other {A} (f : N * A -> A) m l : m <> 0 -> at_ m (map (fun k => (fst k, if fst k =? 0 then f k else snd k)) l) = at_ m l.
Proof.
  intros NE. unfold at_. induction l as [|[n d] l IH]; cbn [map filter]; [reflexivity|]. cbn [fst snd]. destruct (N.eqb_spec n m) as [->|]; [|exact IH].
  rewrite (proj2 (N.eqb_neq m 0) NE), IH. reflexivity.
Qed.
Lemma at_zero {A} (f : N * A -> A) l : at_ 0 (map (fun k => (fst k, if fst k =? 0 then f k else snd k)) l) = map (fun k => (0, f k)) (at_ 0 l).
Proof.
  unfold at_. induction l as [|[n d] l IH]; cbn [map filter]; [reflexivity|]. cbn [fst snd]. destruct (N.eqb_spec n 0) as [->|]; [|exact IH]. cbn [map]. rewrite IH. reflexivity.
Qed.
Lemma wf_same h h' a b : match h with HOD _ _ _ => True | _ => False end -> h' = h -> sorted h a = sorted h b -> Forall (fun k => In (fst k) (order h)) a -> wf (Desc h b) -> wf (Desc h' a) /\ enc (Desc h' a) = enc (Desc h b).
Proof.
  intros O -> E F W. assert (EE : enc (Desc h a) = enc (Desc h b)) by (rewrite !enc_body; cbn [dtag body]; rewrite E; reflexivity). split; [|exact EE].
  apply wf_inv in W. destruct W as (H & K & WK & L). destruct h; try contradiction. apply Wf; [exact H|exact F| |cbn [body] in *; rewrite E; exact L].
  rewrite Forall_forall in *. intros k I. apply WK. apply (sorted_in (HOD tag id url)). rewrite <- E. unfold sorted. apply in_flat_map. exists (fst k). split; [apply F, I|]. apply filter_In. split; [exact I|apply N.eqb_refl].
Qed.
(* the object descriptor as it is read from the file *)
Lemma still_put M k : In (fst k) [0; 1; 2; 3; 4; 5] -> still (snd k) -> still (snd (put_ptr (pos M) k)) /\ dtag (snd (put_ptr (pos M) k)) = dtag (snd k).
Proof.
  intros _ S. destruct (names_cases k) as [(t & id & tool & es & ks & ->)|(_ & _ & H & _)]; [|rewrite H; auto]. cbn [put_ptr snd] in *. destruct ((es =? 0) || (es =? 65535))%bool eqn:Z; [auto|]. split; [|reflexivity].
  apply still_inv in S. destruct S as (V & O & F). constructor; [|exact O|exact F]. cbn [head_view] in *. destruct (id =? 255); [reflexivity|]. injection V as _ V. subst es. discriminate Z.
Qed.
Lemma still_ref M k : still (ref_to M k). Proof. constructor; [reflexivity|reflexivity|constructor]. Qed.
Definition od_kids (M : list N) (ks : list (N * desc)) : list (N * desc) := but 0 (map (put_ptr (pos M)) ks) ++ map (fun k => (2, ref_to M k)) (at_ 0 ks).
Lemma view_stored M id url ks : wf (Desc (HOD 1 id url) ks) -> still (Desc (HOD 1 id url) ks) ->
  view (stored_od M (Desc (HOD 1 id url) ks)) = Desc (HOD 1 id url) (sorted (HOD 1 id url) (od_kids M ks)).
Proof.
  intros W S. apply wf_inv in W. destruct W as (_ & K & _ & _). apply still_inv in S. destruct S as (_ & _ & S). cbn [stored_od view head_view]. fold (od_kids M ks). f_equal.
  rewrite sorted_map, map_map. change (sorted (HOD 17 id url) (od_kids M ks)) with (sorted (HOD 1 id url) (od_kids M ks)). rewrite <- (map_id (sorted (HOD 1 id url) (od_kids M ks))) at 2.
  apply map_ext_in. intros k I. apply sorted_in in I. cbn [fst snd home]. cbn [kids_ok order] in K. rewrite Forall_forall in K, S. unfold od_kids in I. apply in_app_or in I. destruct I as [I|I].
  - apply filter_In in I. destruct I as [I _]. apply in_map_iff in I. destruct I as (k0 & <- & I). destruct (S k0 I) as [S1 S2]. destruct (still_put M k0 (K k0 I) S1) as [S3 S4].
    rewrite (still_view _ S3), S4. cbn [home] in S2. rewrite <- S2, <- (fst_put (pos M) k0). destruct (put_ptr (pos M) k0); reflexivity.
  - apply in_map_iff in I. destruct I as (k0 & <- & I). cbn [snd]. rewrite (still_view _ (still_ref M k0)). reflexivity.
Qed.
Lemma fetch_od_ok M esd e id url ks : len M < 65535 -> wf (Desc (HOD 1 id url) ks) -> still (Desc (HOD 1 id url) ks) -> plain_od (Desc (HOD 1 id url) ks) ->
  incl (od_ids (Desc (HOD 1 id url) ks)) M ->
  (forall k, In k (at_ 0 ks) -> esd (esid (snd k)) = Ok (e (esid (snd k))) /\ is_esd (e (esid (snd k))) /\ plain_es (e (esid (snd k)))) ->
  wf (given_od e (Desc (HOD 1 id url) ks)) ->
  exists d, fetch_od M esd (0, view (stored_od M (Desc (HOD 1 id url) ks))) = Ok (0, d) /\ wf d /\ enc d = enc (given_od e (Desc (HOD 1 id url) ks)).
Proof.
  intros L W S [P2 P0] I E WG. rewrite view_stored by assumption. cbn [kids od_ids] in *.
  assert (W' := W). apply wf_inv in W'. destruct W' as (Hh & K & F & LB). cbn [kids_ok] in K. rewrite Forall_forall in F.
  remember (HOD 1 id url) as h eqn:Hd.
  assert (Oh : order h = [0; 1; 2; 3; 4; 5]) by (rewrite Hd; reflexivity).
  assert (X : rmapm (fetch_ptr M) (sorted h (od_kids M ks)) = Ok (sorted h (but 0 ks ++ map (fun k => (2, ref_to M k)) (at_ 0 ks)))).
  { assert (G : forall o, rmapm (fetch_ptr M) (flat_map (fun m => filter (fun k => fst k =? m) (od_kids M ks)) o) = Ok (flat_map (fun m => filter (fun k => fst k =? m) (but 0 ks ++ map (fun k => (2, ref_to M k)) (at_ 0 ks))) o)).
    { induction o as [|m o IH]; [reflexivity|]. cbn [flat_map].
      assert (R : forall a b c d, rmapm (fetch_ptr M) a = Ok c -> rmapm (fetch_ptr M) b = Ok d -> rmapm (fetch_ptr M) (a ++ b) = Ok (c ++ d)).
      { clear. induction a as [|x a IH]; intros b c d A B; cbn [rmapm app] in *; [injection A as <-; exact B|]. destruct (fetch_ptr M x) as [y| |]; try discriminate. cbn [bind] in *.
        destruct (rmapm (fetch_ptr M) a) as [z| |]; try discriminate. injection A as <-. rewrite (IH b z d eq_refl B). reflexivity. }
      apply R; [|exact IH]. unfold od_kids. rewrite !filter_app. apply R.
      - assert (F1 : forall k, In k ks -> wf (snd k) /\ incl (names k) M) by (intros k J; split; [apply F, J|intros i Ji; apply I, in_or_app; left; apply in_flat_map; eauto]). clear -F1 L.
        unfold but. induction ks as [|k ks IH]; [reflexivity|]. specialize (IH (fun x J => F1 x (or_intror J))). cbn [map filter]. rewrite fst_put. destruct (negb (fst k =? 0)); [|exact IH]. cbn [filter]. rewrite fst_put. destruct (fst k =? m); [|exact IH].
        cbn [rmapm]. destruct (F1 k (or_introl eq_refl)) as [A B]. rewrite (fetch_put M k L B A). cbn [bind]. rewrite IH. reflexivity.
      - change (filter (fun k => fst k =? m)) with (@at_ desc m). rewrite at_all. destruct (2 =? m); [|reflexivity]. clear. induction (at_ 0 ks) as [|k l IH]; [reflexivity|]. cbn [map rmapm]. rewrite IH. reflexivity. }
    apply (G (order h)). }
  remember (but 0 ks ++ map (fun k => (2, ref_to M k)) (at_ 0 ks)) as y eqn:Hy.
  assert (Y2 : in_member 2 (sorted h y) = map (fun k => (2, ref_to M k)) (at_ 0 ks)).
  { change (in_member 2 (sorted h y)) with (at_ 2 (sorted h y)). rewrite at_sorted by (rewrite Oh; cbn; auto). rewrite Hy, at_app, at_but, at_all. change (2 =? 0) with false. change (2 =? 2) with true. cbn match. rewrite P2. reflexivity. }
  assert (Z : rmapm (fetch_ref M esd) (in_member 2 (sorted h y)) = Ok (map (fun k => e (esid (snd k))) (at_ 0 ks))).
  { rewrite Y2. assert (Q : forall k, In k (at_ 0 ks) -> fetch_ref M esd (2, ref_to M k) = Ok (e (esid (snd k)))).
    { intros k J. destruct (E k J) as (E1 & E2 & E3). apply fetch_ref_ok; [|assumption|assumption|assumption]. apply I, in_or_app. right. apply in_map_iff. eauto. }
    clear -Q. induction (at_ 0 ks) as [|k l IH]; [reflexivity|]. cbn [map rmapm]. rewrite Q by (left; reflexivity). cbn [bind]. rewrite IH by (intros; apply Q; right; assumption). reflexivity. }
  exists (Desc h (but 2 (sorted h y) ++ map (fun k => (0, e (esid (snd k)))) (at_ 0 ks))). split.
  - unfold fetch_od. cbn [snd fst]. rewrite Hd in *. rewrite X. cbn [bind]. rewrite Z. cbn [bind]. rewrite map_map. reflexivity.
  - cbn [given_od] in *. apply wf_same; [rewrite Hd; exact Logic.I|reflexivity| | |exact WG].
    + apply sorted_ext. intros m J. rewrite at_app, at_but, at_all. rewrite at_sorted by exact J. rewrite Hy, at_app, at_but, at_all.
      destruct (N.eq_dec m 0) as [->|N0].
      * change (0 =? 2) with false. change (0 =? 0) with true. change (2 =? 0) with false. cbn match. cbn [app]. rewrite (at_zero (fun k => e (esid (snd k)))). reflexivity.
      * rewrite (at_other (fun k => e (esid (snd k)))) by exact N0. rewrite (proj2 (N.eqb_neq m 0) N0), (proj2 (N.eqb_neq 0 m) (not_eq_sym N0)), app_nil_r.
        destruct (N.eqb_spec m 2) as [->|N2]; [symmetry; exact P2|]. rewrite (proj2 (N.eqb_neq 2 m) (not_eq_sym N2)), app_nil_r. reflexivity.
    + rewrite Forall_forall in *. intros k J. apply in_app_or in J. destruct J as [J|J].
      * apply filter_In in J. destruct J as [J _]. unfold sorted in J. apply in_flat_map in J. destruct J as (m & J1 & J2). apply filter_In in J2. destruct J2 as [_ J2]. apply N.eqb_eq in J2. congruence.
      * apply in_map_iff in J. destruct J as (k0 & <- & _). rewrite Oh. cbn. auto.
Qed.

Definition like (a b : N * desc) : Prop := fst a = fst b /\ enc (snd a) = enc (snd b).
Lemma like_at m a b : Forall2 like a b -> flat_map (fun k => enc (snd k)) (at_ m a) = flat_map (fun k => enc (snd k)) (at_ m b).
Proof.
  unfold at_. induction 1 as [|x y a b [E1 E2] H IH]; [reflexivity|]. cbn [filter]. rewrite E1. destruct (fst y =? m); cbn [flat_map]; rewrite ?E2, IH; reflexivity.
Qed.
Lemma like_cenc k a b : Forall2 like a b -> cenc (mkCmd k a) = cenc (mkCmd k b) /\ cbody (mkCmd k a) = cbody (mkCmd k b).
Proof.
  intros H. assert (E : cbody (mkCmd k a) = cbody (mkCmd k b)).
  { unfold cbody, csorted. cbn [c_kind c_ds]. rewrite !flat_map_app. pose proof (like_at 0 a b H) as E0. pose proof (like_at 1 a b H) as E1. pose proof (like_at 2 a b H) as E2. unfold at_ in *. rewrite E0, E1, E2. reflexivity. }
  split; [|exact E]. unfold cenc. rewrite E. reflexivity.
Qed.
Lemma csorted_map {A B} (f : N * A -> B) l : csorted (map (fun k => (fst k, f k)) l) = map (fun k => (fst k, f k)) (csorted l).
Proof.
  rewrite !csorted_groups. unfold groups. induction [0; 1; 2] as [|m o IH]; [reflexivity|]. cbn [flat_map]. rewrite IH, map_app. f_equal. rewrite filter_map. reflexivity.
Qed.
Lemma fetch_cmd_ok M esd e c : len M < 65535 -> as_read c -> plain_cmd c -> incl (cids c) M ->
  (forall i, In i (ces c) -> esd i = Ok (e i) /\ is_esd (e i) /\ plain_es (e i)) -> cwf (given e c) ->
  exists c2, fetch_cmd M esd (cview (stored M c)) = Ok c2 /\ cwf c2 /\ cenc c2 = cenc (given e c).
Proof.
  intros L R P I E WG. assert (R' := R). destruct R' as (W & O & S). assert (W' := W). destruct W' as (K & F & _). rewrite Forall_forall in F, S.
  destruct c as [[|id| |t d] ds]; cbn [c_kind c_ds] in *.
  - unfold stored, cview, given, plain_cmd, cids, ces in *. cbn [c_kind c_ds] in *.
    assert (OD : forall k, In k ds -> fst k = 0 -> exists id url ks, snd k = Desc (HOD 1 id url) ks).
    { intros k Ik Z. destruct (S k Ik) as [_ S2]. assert (X : is_od (snd k)) by (apply tag_od; [apply F; exact Ik|]; apply (chome0 KOD); congruence). destruct (snd k) as [h ks]. destruct h; try contradiction. cbn [is_od] in X. subst. eauto. }
    rewrite (csorted_map (fun k => if fst k =? 0 then stored_od M (snd k) else snd k)), O, map_map. unfold fetch_cmd. cbn [c_kind c_ds fst snd].
    assert (T : forall k, In k ds -> exists d, (if fst (chome KOD (dtag (view (if fst k =? 0 then stored_od M (snd k) else snd k))), view (if fst k =? 0 then stored_od M (snd k) else snd k)) =? 0
         then fetch_od M esd (chome KOD (dtag (view (if fst k =? 0 then stored_od M (snd k) else snd k))), view (if fst k =? 0 then stored_od M (snd k) else snd k))
         else Ok (chome KOD (dtag (view (if fst k =? 0 then stored_od M (snd k) else snd k))), view (if fst k =? 0 then stored_od M (snd k) else snd k))) = Ok (fst k, d) /\ wf d /\
         enc d = enc (if fst k =? 0 then given_od e (snd k) else snd k)).
    { intros k Ik. destruct (S k Ik) as [S1 S2]. assert (Wk := F k Ik). destruct WG as (_ & FG & _). cbn [c_ds] in FG. rewrite Forall_forall in FG.
      assert (WK : wf (if fst k =? 0 then given_od e (snd k) else snd k)) by (apply (FG (fst k, if fst k =? 0 then given_od e (snd k) else snd k)); apply in_map_iff; exists k; auto).
      destruct (N.eqb_spec (fst k) 0) as [Z|Z].
      - destruct (OD k Ik Z) as (id & url & ks & D). rewrite Z. rewrite D in *. rewrite view_stored by assumption. cbn [dtag htag chome fst]. change (0 =? 0) with true. cbn match. rewrite <- (view_stored M) by assumption.
        apply fetch_od_ok; try assumption.
        + rewrite Forall_forall in P. rewrite <- D. apply P, in_at. auto.
        + intros i J. apply I, in_flat_map. exists k. split; [apply in_at; auto|rewrite D; exact J].
        + intros k0 J. apply E. apply in_flat_map. exists k. split; [apply in_at; auto|]. rewrite D. cbn [kids]. apply in_map_iff. eauto.
      - rewrite (still_view _ S1), <- S2. cbn [fst]. rewrite (proj2 (N.eqb_neq (fst k) 0) Z). exists (snd k). split; [reflexivity|]. split; [exact Wk|reflexivity]. }
    assert (G : exists ds2, rmapm (fun k => if fst k =? 0 then fetch_od M esd k else Ok k) (map (fun x => (chome KOD (dtag (view (if fst x =? 0 then stored_od M (snd x) else snd x))), view (if fst x =? 0 then stored_od M (snd x) else snd x))) ds) = Ok ds2 /\
        Forall (fun k => wf (snd k)) ds2 /\ Forall2 like ds2 (map (fun k => (fst k, if fst k =? 0 then given_od e (snd k) else snd k)) ds)).
    { clear -T. induction ds as [|k ds IH]; [exists []; repeat split; constructor|]. destruct (IH (fun x J => T x (or_intror J))) as (ds2 & A & B & C). destruct (T k (or_introl eq_refl)) as (d & D1 & D2 & D3).
      exists ((fst k, d) :: ds2). cbn [map rmapm]. rewrite D1. cbn [bind]. rewrite A. split; [reflexivity|]. split; [constructor; [exact D2|exact B]|]. constructor; [split; [reflexivity|exact D3]|exact C]. }
    destruct G as (ds2 & G1 & G2 & G3). exists (mkCmd KOD ds2). cbn [fst snd] in *. rewrite G1. split; [reflexivity|]. destruct (like_cenc KOD _ _ G3) as [C1 C2]. split; [|exact C1].
    destruct WG as (KG & _ & LG). split; [|split; [exact G2|rewrite C2; exact LG]]. cbn [c_kind c_ds kind_ok] in *. clear -G3 KG. revert KG. induction G3 as [|x y a b [E1 _] H IH]; intros KG; [constructor|]. inversion KG; subst. constructor; [rewrite E1; assumption|auto].
  - unfold stored, cview, given, plain_cmd, cids, ces in *. cbn [c_kind c_ds] in *. destruct P as [P1 P0].
    assert (X : csorted (but 0 ds ++ map (fun k => (1, ref_to M k)) (at_ 0 ds)) = map (fun k => (1, ref_to M k)) (at_ 0 ds) ++ at_ 2 ds).
    { unfold csorted.
      change (filter (fun k : N * desc => fst k =? 0)) with (@at_ desc 0). change (filter (fun k : N * desc => fst k =? 1)) with (@at_ desc 1). change (filter (fun k : N * desc => fst k =? 2)) with (@at_ desc 2).
      rewrite !at_app, !at_but, !at_all. change (1 =? 0) with false. change (0 =? 0) with true. change (1 =? 1) with true. change (2 =? 0) with false. change (1 =? 2) with false. cbn match. rewrite P1, !app_nil_r. reflexivity. }
    rewrite X, map_app, map_map.
    assert (Y : map (fun x => (chome (KES id) (dtag (view (snd x))), view (snd x))) (at_ 2 ds) = at_ 2 ds).
    { rewrite <- (map_id (at_ 2 ds)) at 2. apply map_ext_in. intros k J. apply in_at in J. destruct (S k (proj1 J)) as [S1 S2]. rewrite (still_view _ S1), <- S2. destruct k; reflexivity. }
    rewrite Y. cbn [snd].
    assert (V : map (fun x => (chome (KES id) (dtag (view (ref_to M x))), view (ref_to M x))) (at_ 0 ds) = map (fun x => (1, ref_to M x)) (at_ 0 ds)) by (apply map_ext; intros k; rewrite (still_view _ (still_ref M k)); reflexivity).
    rewrite V. unfold fetch_cmd. cbn [c_kind c_ds].
    change (in_member 1 (map (fun x => (1, ref_to M x)) (at_ 0 ds) ++ at_ 2 ds)) with (at_ 1 (map (fun x => (1, ref_to M x)) (at_ 0 ds) ++ at_ 2 ds)).
    assert (Z2 : at_ 1 (at_ 2 ds) = []) by (unfold at_; rewrite filter_filter_eq; reflexivity).
    rewrite at_app, at_all, Z2, app_nil_r. change (1 =? 1) with true. cbn match.
    assert (Q : rmapm (fetch_ref M esd) (map (fun x => (1, ref_to M x)) (at_ 0 ds)) = Ok (map (fun k => e (esid (snd k))) (at_ 0 ds))).
    { assert (Q : forall k, In k (at_ 0 ds) -> fetch_ref M esd (1, ref_to M k) = Ok (e (esid (snd k)))).
      { intros k J. destruct (E (esid (snd k))) as (E1 & E2 & E3); [apply in_map_iff; eauto|]. apply fetch_ref_ok; [|assumption|assumption|assumption]. apply I, in_map_iff. eauto. }
      clear -Q. induction (at_ 0 ds) as [|k l IH]; [reflexivity|]. cbn [map rmapm]. rewrite Q by (left; reflexivity). cbn [bind]. rewrite IH by (intros; apply Q; right; assumption). reflexivity. }
    rewrite Q. cbn [bind]. rewrite map_map.
    assert (B1 : filter (fun k => negb (fst k =? 1)) (map (fun x => (1, ref_to M x)) (at_ 0 ds) ++ at_ 2 ds) = at_ 2 ds).
    { rewrite filter_app. assert (B2 : filter (fun k : N * desc => negb (fst k =? 1)) (map (fun x => (1, ref_to M x)) (at_ 0 ds)) = []) by (clear; induction (at_ 0 ds) as [|k l IH]; [reflexivity|exact IH]). rewrite B2. cbn [app].
      unfold at_. clear. induction ds as [|k l IH]; [reflexivity|]. cbn [filter]. destruct (N.eqb_spec (fst k) 2) as [E|E]; [|exact IH]. cbn [filter]. rewrite E. change (2 =? 1) with false. cbn [negb]. cbn match. rewrite IH. reflexivity. }
    rewrite B1. eexists. split; [reflexivity|].
    assert (CS : csorted (at_ 2 ds ++ map (fun k => (0, e (esid (snd k)))) (at_ 0 ds)) = csorted (map (fun k => (fst k, if fst k =? 0 then e (esid (snd k)) else snd k)) ds)).
    { unfold csorted. change (filter (fun k : N * desc => fst k =? 0)) with (@at_ desc 0). change (filter (fun k : N * desc => fst k =? 1)) with (@at_ desc 1). change (filter (fun k : N * desc => fst k =? 2)) with (@at_ desc 2).
      rewrite !at_app, !at_all, (at_zero (fun k => e (esid (snd k)))), !(at_other (fun k => e (esid (snd k)))) by discriminate.
      change (0 =? 0) with true. change (0 =? 1) with false. change (0 =? 2) with false. cbn match. rewrite !app_nil_r, P1.
      assert (T : forall m, at_ m (at_ 2 ds) = if m =? 2 then at_ m ds else []) by (intros m; apply filter_filter_eq). rewrite !T. reflexivity. }
    destruct WG as (KG & FG & LG). cbn [c_kind c_ds kind_ok] in *.
    assert (CB : cbody (mkCmd (KES id) (at_ 2 ds ++ map (fun k => (0, e (esid (snd k)))) (at_ 0 ds))) = cbody (mkCmd (KES id) (map (fun k => (fst k, if fst k =? 0 then e (esid (snd k)) else snd k)) ds))) by (unfold cbody; cbn [c_kind c_ds]; rewrite CS; reflexivity).
    split; [|unfold cenc; rewrite CB; reflexivity]. split; [|split; [|rewrite CB; exact LG]]; cbn [c_kind c_ds kind_ok].
    + split; [apply KG|]. apply Forall_app. split; [|apply Forall_forall; intros k J; apply in_map_iff in J; destruct J as (k0 & <- & _); reflexivity].
      apply Forall_forall. intros k J. apply in_at in J. destruct J as [_ ->]. reflexivity.
    + rewrite Forall_forall in *. intros k J. apply FG. apply in_app_or in J. destruct J as [J|J].
      * apply in_at in J. destruct J as [J J2]. apply in_map_iff. exists k. rewrite J2. change (2 =? 0) with false. cbn match. rewrite <- J2. destruct k; auto.
      * apply in_map_iff in J. destruct J as (k0 & <- & J). apply in_at in J. destruct J as [J J2]. apply in_map_iff. exists k0. rewrite J2. split; [reflexivity|exact J].
  - exists (mkCmd KTools ds). unfold stored, given. cbn [c_kind]. rewrite as_read_view by exact R. split; [reflexivity|]. split; [exact W|reflexivity].
  - exists (mkCmd (KOther t d) ds). unfold stored, given. cbn [c_kind]. rewrite as_read_view by exact R. split; [reflexivity|]. split; [exact W|reflexivity].
Qed.
Lemma fetch_loop_ok M esd e cs : len M < 65535 -> Forall as_read cs -> Forall plain_cmd cs -> incl (fids cs) M ->
  (forall i, In i (flat_map ces cs) -> esd i = Ok (e i) /\ is_esd (e i) /\ plain_es (e i)) -> Forall (fun c => cwf (given e c)) cs ->
  forall f, (length (fenc (map (stored M) cs)) < f)%nat ->
  exists c2, fetch_loop M esd f (fenc (map (stored M) cs)) = Ok c2 /\ Forall cwf c2 /\ fenc c2 = fenc (map (given e) cs).
Proof.
  intros L. induction cs as [|c cs IH]; intros R P I E G f LF; [exists []; destruct f; repeat split; constructor|].
  inversion R as [|? ? R1 R2]; subst. inversion P as [|? ? P1 P2]; subst. inversion G as [|? ? G1 G2]; subst.
  cbn [fenc fids flat_map map] in *. fold (fenc (map (stored M) cs)) in *. fold (fids cs) in I. fold (fenc (map (given e) cs)).
  destruct (cenc_ne (stored M c)) as (x & t & X). destruct f as [|f]; [elim (Nat.nlt_0_r _ LF)|].
  assert (I1 : incl (cids c) M) by (intros i J; apply I, in_or_app; auto). assert (I2 : incl (fids cs) M) by (intros i J; apply I, in_or_app; auto).
  destruct (wf_stored M c ltac:(lia) I1 R1) as [WS _].
  pose proof (cread_ok (stored M c) (fenc (map (stored M) cs)) 0 WS) as Q.
  destruct (fetch_cmd_ok M esd e c L R1 P1 I1 (fun i J => E i (in_or_app _ _ _ (or_introl J))) G1) as (c1 & A1 & A2 & A3).
  rewrite app_length in LF. rewrite X in Q, LF |- *. cbn [app length] in *.
  destruct (IH R2 P2 I2 (fun i J => E i (in_or_app _ _ _ (or_intror J))) G2 f ltac:(lia)) as (c2 & B1 & B2 & B3).
  exists (c1 :: c2). cbn [fetch_loop]. rewrite Q. cbn [bind fst snd inp]. rewrite A1. cbn [bind]. rewrite B1. cbn [bind]. split; [reflexivity|]. split; [constructor; assumption|]. cbn [fenc flat_map]. fold (fenc c2). rewrite A3, B3. reflexivity.
Qed.
Lemma fetch_ok M esd e cs : len M < 65535 -> Forall as_read cs -> Forall plain_cmd cs -> incl (fids cs) M ->
  (forall i, In i (flat_map ces cs) -> esd i = Ok (e i) /\ is_esd (e i) /\ plain_es (e i)) -> Forall (fun c => cwf (given e c)) cs ->
  len (fenc (map (given e) cs)) < 4294967296 -> fetch_frame M esd (fenc (map (stored M) cs)) = Ok (fenc (map (given e) cs)).
Proof.
  intros L R P I E G LF. destruct (fetch_loop_ok M esd e cs L R P I E G _ (Nat.lt_succ_diag_r _)) as (c2 & A & B & C). unfold fetch_frame. rewrite A. cbn [bind]. rewrite frame_write_ok; [rewrite C; reflexivity|exact B|rewrite C; exact LF].
Qed.

Lemma store_fuel f : forall i m, (length i < f)%nat -> snd (store_loop f i m) <> Err OutOfFuel.
Proof.
  assert (SB : forall A B (x : st A) (k : A -> st B), (forall m, snd (x m) <> Err OutOfFuel) -> (forall a m, snd (k a m) <> Err OutOfFuel) -> forall m, snd (sbind x k m) <> Err OutOfFuel).
  { intros A B x k X K m. unfold sbind. specialize (X m). destruct (x m) as [m' [a|e|]]; cbn [snd] in *; [apply K|congruence|discriminate]. }
  assert (SR : forall A (a : A) m, snd (sret a m) <> Err OutOfFuel) by (intros; discriminate).
  assert (SM : forall A B (g : A -> st B) l, (forall a m, snd (g a m) <> Err OutOfFuel) -> forall m, snd (smap g l m) <> Err OutOfFuel).
  { intros A B g l G. induction l as [|a l IH]; intros m; cbn [smap]; [apply SR|]. apply SB; [apply G|intros b]. apply SB; [apply IH|intros; apply SR]. }
  assert (SA : forall i m, snd (add_track i m) <> Err OutOfFuel) by (intros i m; unfold add_track; destruct (i =? 0); discriminate).
  assert (SP : forall k m, snd (store_ptr k m) <> Err OutOfFuel).
  { intros k. destruct (names_cases k) as [(t & id & tool & es & ks & ->)|(_ & X & _)]; [|rewrite X; apply SR]. cbn [store_ptr]. destruct (_ || _)%bool; [apply SR|]. apply SB; [apply SA|intros; apply SR]. }
  assert (SE : forall k m, snd (store_es k m) <> Err OutOfFuel).
  { intros [n [h ks]] m. unfold store_es. cbn [snd]. destruct h; try discriminate. apply SB; [apply SA|intros _]. apply SB; [apply SM, SP|intros; discriminate]. }
  assert (SO : forall k m, snd (store_od k m) <> Err OutOfFuel).
  { intros [n [h ks]] m. unfold store_od. cbn [snd]. destruct h; try discriminate. apply SB; [apply SM, SP|intros a]. apply SB; [apply SM, SE|intros; apply SR]. }
  assert (SC : forall c m, snd (store_cmd c m) <> Err OutOfFuel).
  { intros c m. unfold store_cmd. destruct (c_kind c); try apply SR; (apply SB; [|intros; apply SR]); apply SM; [intros a; destruct (fst a =? 0); [apply SO|apply SR]|apply SE]. }
  induction f as [|f IH]; intros i m L; [elim (Nat.nlt_0_r _ L)|]. destruct i as [|x t]; [discriminate|]. cbn [store_loop].
  destruct (cread_total (x :: t) 0) as (T1 & _ & T3). destruct (cread (mkR (x :: t) 0)) as [[c s]|e|]; [|cbn [snd]; congruence|discriminate].
  destruct (T3 c s eq_refl) as (p & P & NE). assert (L1 : (length (inp s) < f)%nat) by (rewrite P, app_length in L; destruct p; [congruence|cbn [length] in L; lia]).
  apply SB; [apply SC|intros a m']. apply SB; [intros; apply IH; exact L1|intros; apply SR].
Qed.

(* Reads.v -- readers followed on complete input only, and boxes whose
   readers ignore errors or contain other boxes. *)
From Verif Require Import Base Codec AtomModel AtomSpec AtomProofs AtomProps BoxModel BoxSpec BoxProofs.

Definition reads {A} (n : N) (m : rd A) (bs : list N) (a : A) : Prop :=
  forall r, m (mkR (bs ++ r) n) = Ok (a, mkR r (w32 (n + len bs))).

Lemma reads_of {A} n (m : rd A) bs a : parses n m bs a -> reads n m bs a.
Proof. intros [H _]. exact H. Qed.
Lemma reads_bind {A B} n (m : rd A) (k : A -> rd B) b1 b2 a b :
  reads n m b1 a -> reads (w32 (n + len b1)) (k a) b2 b -> reads n (rbind m k) (b1 ++ b2) b.
Proof.
  intros H1 K1 r. unfold rbind. rewrite <- app_assoc, H1, K1, w32_add_l. lens. rewrite N.add_assoc. reflexivity.
Qed.
Lemma reads_bind_last {A B} n (m : rd A) (k : A -> rd B) bs a b :
  reads n m bs a -> reads (w32 (n + len bs)) (k a) [] b -> reads n (rbind m k) bs b.
Proof. intros H K. rewrite <- (app_nil_r bs). eapply reads_bind; eassumption. Qed.
Lemma reads_ret {A} n (a b : A) : n < 4294967296 -> a = b -> reads n (rret a) [] b.
Proof. intros Hn <- r. unfold rret. cbn [app]. lens. rewrite N.add_0_r, w32_small by assumption. reflexivity. Qed.
Lemma reads_or {A} n (m : rd A) bs a (f : rd A -> rd A) :
  (forall s r, m s = Ok r -> f m s = Ok r) -> reads n m bs a -> reads n (f m) bs a.
Proof. intros F H r. apply F, H. Qed.
Lemma reads_rmap {A B} (f : A -> B) n m bs a : reads n m bs a -> reads n (rmap f m) bs (f a).
Proof. intros H. unfold rmap. eapply reads_bind_last; [exact H|]. apply reads_ret; [apply w32_lt|reflexivity]. Qed.
Lemma reads_bind_nil {A B} n (m : rd A) (k : A -> rd B) bs a b :
  (forall s, rdn s = n -> m s = Ok (a, s)) -> reads n (k a) bs b -> reads n (rbind m k) bs b.
Proof. intros H K r. unfold rbind. rewrite H by reflexivity. apply K. Qed.

(* as [exact], without the condition on truncated bodies: a truncated box is
   refused by its header already *)
Definition faithful {T} (c : codec T) (y : layout T) : Prop :=
  (forall t, l_ok y t -> plain_type (c_ty c t) /\ c_known c (c_ty c t) = true /\ c_ty c (l_view y t) = c_ty c t /\
     c_ty c t = l_ty y t) /\
  (forall t, l_ok y t -> 8 + len (l_body y t) < 4294967296 ->
     c_size c t = 8 + len (l_body y t) /\ writes (c_w c t) (l_body y t) /\
     reads 8 (c_rd c (mkH (8 + len (l_body y t)) 0 (c_ty c t) [] 8)) (l_body y t) (l_view y t)).

Lemma exact_faithful {T} (c : codec T) y : exact c y -> faithful c y.
Proof.
  intros [H1 H2]. split; [exact H1|]. intros t Ht Hl. destruct (H2 t Ht Hl) as (A & B & C).
  split; [exact A|]. split; [exact B|]. apply reads_of. exact C.
Qed.
Lemma faithful_codec {T} (c : codec T) y : faithful c y ->
  codec_exact (c_leaf c) (c_ty c) (c_size c) (c_w c) (l_body y) (l_view y) (c_known c) (l_ok y).
Proof.
  intros [H1 H2]. constructor.
  - intros ty E. unfold c_leaf. rewrite E. reflexivity.
  - intros t Ht. destruct (H1 t Ht) as ((A & B & C & D) & K & V & _). auto.
  - intros t Ht Hl. destruct (H2 t Ht Hl) as (A & B & _). auto.
  - intros t r Ht Hl. destruct (H2 t Ht Hl) as (_ & _ & P). exists (c_rd c). eexists. split.
    + unfold c_leaf. rewrite (proj1 (proj2 (H1 t Ht))). reflexivity.
    + apply P.
Qed.
Lemma faithful_round_trip {T} (c : codec T) y t :
  faithful c y -> l_ok y t -> 8 + len (l_body y t) < 4294967296 -> round_trip c y t.
Proof.
  intros E Ht Hl. pose proof (faithful_codec c y E) as CE. destruct E as [H1 H2].
  assert (W : wf T (c_ty c) (c_known c) (l_ok y) (ALeaf T t)) by exact Ht.
  assert (B : len (enc T (c_ty c) (l_body y) (ALeaf T t)) < 4294967296) by (cbn [enc]; unfold box; lens; lia).
  unfold round_trip. rewrite <- (proj2 (proj2 (proj2 (H1 t Ht)))).
  split; [|split; [|split]].
  - rewrite (proj1 (H2 t Ht Hl)). unfold box. lens. lia.
  - destruct (C06_tree_round_trip _ _ _ _ _ (fun _ => t) _ _ _ _ CE (ALeaf T t) [] W B) as (_ & A & _). exact A.
  - intros dflt rest.
    destruct (C06_tree_round_trip _ _ _ _ _ (fun _ => dflt) _ _ _ _ CE (ALeaf T t) rest W B) as (_ & _ & A). exact A.
  - intros dflt p q E Hq.
    destruct (C06_truncated_tree_rejected _ _ _ _ _ (fun _ => dflt) _ _ _ _ CE (ALeaf T t) p q W B E Hq) as (e & A & _).
    exists e. exact A.
Qed.
Lemma faithful_sum {A B} (a : codec A) (b : codec B) ya yb :
  faithful a ya -> faithful b yb -> (forall t, l_ok yb t -> c_known a (c_ty b t) = false) ->
  faithful (csum a b) (lsum ya yb).
Proof.
  intros [A1 A2] [B1 B2] D. split.
  - intros [t|t] Ht; cbn [csum lsum c_ty l_view c_known l_ok] in *.
    + destruct (A1 t Ht) as (P & K & V & Q). rewrite K, V. auto.
    + destruct (B1 t Ht) as (P & K & V & Q). rewrite K, V, orb_true_r. auto.
  - intros [t|t] Ht Hl; cbn [csum lsum c_ty l_view c_size c_w c_rd l_body h_type l_ok] in *.
    + destruct (A2 t Ht Hl) as (P & Q & R). rewrite (proj1 (proj2 (A1 t Ht))).
      split; [exact P|]. split; [exact Q|]. apply reads_rmap. exact R.
    + destruct (B2 t Ht Hl) as (P & Q & R). rewrite (D t Ht).
      split; [exact P|]. split; [exact Q|]. apply reads_rmap. exact R.
Qed.
Ltac rnext :=
  lazymatch goal with
  | |- reads _ (rbind _ _) (_ ++ _) _ => eapply reads_bind
  | |- reads _ (rbind _ _) _ _ => eapply reads_bind_last
  | |- reads _ (rret _) [] _ => apply reads_ret; [first [apply w32_lt | lia] | try reflexivity]
  end.

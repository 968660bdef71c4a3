(* BoxProofs.v *)
From Verif Require Import Base Codec AtomModel AtomSpec AtomProofs AtomProps BoxModel BoxSpec.

Lemma exact_codec {T} (c : codec T) y : exact c y ->
  codec_exact (c_leaf c) (c_ty c) (c_size c) (c_w c) (l_body y) (l_view y) (c_known c) (l_ok y).
Proof.
  intros [H1 H2]. constructor.
  - intros ty E. unfold c_leaf. rewrite E. reflexivity.
  - intros t Ht. destruct (H1 t Ht) as ((A & B & C & D) & K & V & _). auto.
  - intros t Ht Hl. destruct (H2 t Ht Hl) as (A & B & _). auto.
  - intros t r Ht Hl. destruct (H2 t Ht Hl) as (_ & _ & P). exists (c_rd c). eexists. split.
    + unfold c_leaf. rewrite (proj1 (proj2 (H1 t Ht))). reflexivity.
    + apply P.
Qed.

Lemma robust_codec {T} (c : codec T) : robust c -> codec_robust (c_leaf c).
Proof.
  intros H ty p h E. unfold c_leaf in E. destruct (c_known c ty); [|discriminate]. injection E as <-. apply H.
Qed.

Lemma exact_round_trip {T} (c : codec T) y t :
  exact c y -> l_ok y t -> 8 + len (l_body y t) < 4294967296 -> round_trip c y t.
Proof.
  intros E Ht Hl. pose proof (exact_codec c y E) as CE. destruct E as [H1 H2].
  assert (W : wf T (c_ty c) (c_known c) (l_ok y) (ALeaf T t)) by exact Ht.
  assert (B : len (enc T (c_ty c) (l_body y) (ALeaf T t)) < 4294967296) by (cbn [enc]; unfold box; lens; lia).
  unfold round_trip. rewrite <- (proj2 (proj2 (proj2 (H1 t Ht)))).
  split; [|split; [|split]].
  - rewrite (proj1 (H2 t Ht Hl)). unfold box. lens. lia.
  - destruct (C06_tree_round_trip _ _ _ _ _ (fun _ => t) _ _ _ _ CE (ALeaf T t) [] W B) as (_ & A & _). exact A.
  - intros dflt rest.
    destruct (C06_tree_round_trip _ _ _ _ _ (fun _ => dflt) _ _ _ _ CE (ALeaf T t) rest W B) as (_ & _ & A). exact A.
  - intros dflt p q E Hq.
    destruct (C06_truncated_tree_rejected _ _ _ _ _ (fun _ => dflt) _ _ _ _ CE (ALeaf T t) p q W B E Hq) as (e & A & _).
    exists e. exact A.
Qed.

(* one tree with two kinds of boxes *)
Lemma tame_rmap {A B} (f : A -> B) m : tame m -> tame (rmap f m).
Proof. intros H. unfold rmap. apply tame_bind; [exact H|intros; apply tame_ret]. Qed.
Lemma consumes_rmap {A B} (f : A -> B) m : consumes m -> consumes (rmap f m).
Proof. intros H. unfold rmap. apply consumes_bind; [exact H|intros; apply consumes_ret]. Qed.
Lemma parses_rmap {A B} (f : A -> B) n m bs a : parses n m bs a -> parses n (rmap f m) bs (f a).
Proof. intros H. unfold rmap. pnext; [exact H|]. pnext. Qed.

Lemma safe_rmap {A B} (f : A -> B) m : safe m -> safe (rmap f m).
Proof.
  intros H s Hs. destruct (H s Hs) as [[H1 H2] H3]. unfold rmap, rbind. destruct (m s) as [[a s1]|e|].
  - unfold rret. split; [split; discriminate|]. intros b s' E. injection E as <- <-. apply (H3 a s1 eq_refl).
  - split; [split; congruence|discriminate].
  - congruence.
Qed.
Lemma robust_sum {A B} (a : codec A) (b : codec B) : robust a -> robust b -> robust (csum a b).
Proof.
  intros Ha Hb h. cbn [csum c_rd]. destruct (c_known a (h_type h)).
  - apply safe_rmap, Ha.
  - apply safe_rmap, Hb.
Qed.
Lemma exact_sum {A B} (a : codec A) (b : codec B) ya yb :
  exact a ya -> exact b yb -> (forall t, l_ok yb t -> c_known a (c_ty b t) = false) ->
  exact (csum a b) (lsum ya yb).
Proof.
  intros [A1 A2] [B1 B2] D. split.
  - intros [t|t] Ht; cbn [csum lsum c_ty l_view c_known l_ok] in *.
    + destruct (A1 t Ht) as (P & K & V & Q). rewrite K, V. auto.
    + destruct (B1 t Ht) as (P & K & V & Q). rewrite K, V, orb_true_r. auto.
  - intros [t|t] Ht Hl; cbn [csum lsum c_ty l_view c_size c_w c_rd l_body h_type l_ok] in *.
    + destruct (A2 t Ht Hl) as (P & Q & R). rewrite (proj1 (proj2 (A1 t Ht))).
      split; [exact P|]. split; [exact Q|]. apply parses_rmap. exact R.
    + destruct (B2 t Ht Hl) as (P & Q & R). rewrite (D t Ht).
      split; [exact P|]. split; [exact Q|]. apply parses_rmap. exact R.
Qed.

(* full boxes *)
Ltac cons_step :=
  lazymatch goal with
  | |- consumes (rbind _ _) => apply consumes_bind; [cons_step|intros; cons_step]
  | |- consumes (rret _) => apply consumes_ret
  | |- consumes (rerr _) => apply consumes_err
  | |- consumes rub => apply consumes_ub
  | |- consumes get8 => apply consumes_get8
  | |- consumes get16 => apply consumes_get16
  | |- consumes get32 => apply consumes_get32
  | |- consumes get64 => apply consumes_get64
  | |- consumes getrdn => apply consumes_getrdn
  | |- consumes get_full => unfold get_full; cons_step
  | |- consumes (take _) => apply consumes_take
  | |- consumes (rrep _ _) => apply consumes_rrep; cons_step
  | |- consumes (if ?b then _ else _) => destruct b; cons_step
  | |- consumes (match ?b with _ => _ end) => destruct b; cons_step
  | _ => idtac
  end.
Lemma tame_get_full : tame get_full.
Proof. unfold get_full. apply tame_bind; [apply tame_get32|intros; apply tame_ret]. Qed.
Ltac tame_step :=
  lazymatch goal with
  | |- tame (rbind _ _) => apply tame_bind; [tame_step|intros; tame_step]
  | |- tame (rret _) => apply tame_ret
  | |- tame (rerr _) => apply tame_err; try discriminate
  | |- tame get8 => apply tame_get8
  | |- tame get16 => apply tame_get16
  | |- tame get32 => apply tame_get32
  | |- tame get64 => apply tame_get64
  | |- tame getrdn => apply tame_getrdn
  | |- tame get_full => apply tame_get_full
  | |- tame (take _) => apply tame_take
  | |- tame (rrep _ _) => apply tame_rrep; tame_step
  | |- tame (if ?b then _ else _) => destruct b; tame_step
  | |- tame (match ?b with _ => _ end) => destruct b; tame_step
  | _ => idtac
  end.
Ltac robust_tac rd := intros h; apply safe_of; [change (consumes (rd h)); unfold rd; cons_step|change (tame (rd h)); unfold rd; tame_step].

(* reading bytesRead consumes nothing *)
Lemma parses_getrdn {B} n (k : N -> rd B) bs b : parses n (k n) bs b -> parses n (rbind getrdn k) bs b.
Proof. intros H. eapply parses_bind_nil; [intros s Es; unfold getrdn; rewrite Es; reflexivity|exact H]. Qed.

Lemma len_full v f : len (full v f) = 4. Proof. reflexivity. Qed.
Global Hint Rewrite len_full : len.
Lemma parses_full n v f : full_ok v f -> parses n get_full (full v f) (v, f).
Proof. intros [H1 H2]. apply parses_get_full; assumption. Qed.
Lemma writes_full v f : writes (put8 v ;; put24 f) (full v f).
Proof. unfold full. wstep. Qed.
Lemma writes_full_seq v f w bs : writes w bs -> writes (put8 v ;; put24 f ;; w) (full v f ++ bs).
Proof.
  intros H. unfold full. rewrite <- app_assoc. apply writes_seq; [apply writes_put8|]. apply writes_seq; [apply writes_put24|exact H].
Qed.
Ltac plain := repeat split; try reflexivity; try discriminate.

(* solve the reading half by following the layout *)
Ltac pauto :=
  lazymatch goal with
  | |- parses _ (rbind getrdn _) _ _ => apply parses_getrdn
  | |- parses _ (rbind _ _) _ _ => pnext; [pauto|cbn [fst snd]]
  | |- parses _ get8 _ _ => apply parses_get8; try assumption; try lia
  | |- parses _ get16 _ _ => apply parses_get16; try assumption; try lia
  | |- parses _ get32 _ _ => apply parses_get32; try assumption; try lia
  | |- parses _ get64 _ _ => apply parses_get64; try assumption; try lia
  | |- parses _ get_full _ _ => apply parses_full; try assumption
  | |- parses _ (rret _) _ _ => pnext
  | _ => idtac
  end.

(* ShapeProofs.v -- deciding that a box tree is legal, for examples. *)
From Verif Require Import Base AtomModel AtomSpec AtomProofs BoxModel BoxSpec.

Section Shape.
Variable L : Type.
Variable leafType : L -> N.
Variable leafKnown : N -> bool.
Variable leafOk : L -> Prop.

Fixpoint single_b (c : N) (tys : list N) : bool :=
  match tys with
  | [] => true
  | t :: r => forallb (fun g => negb (one_of t g) || forallb (fun t' => negb (one_of t' g)) r) (single c) && single_b c r
  end.
Definition bytes_b (l : list N) : bool := forallb (fun x => x <? 256) l.
Definition saux_b (k : atom L) : bool :=
  negb (atype L leafType k =? code "saiz") && negb (atype L leafType k =? code "saio").
Fixpoint shape (a : atom L) : bool :=
  match a with
  | AOpaque _ ty uu d => (ty <? 4294967296) && negb (holds_boxes ty) && negb (free_type ty) && negb (leafKnown ty) &&
      (len uu =? (if ty =? code "uuid" then 16 else 0)) && bytes_b uu && bytes_b d
  | AFree _ ty d => free_type ty && bytes_b d
  | ALeaf _ _ => true
  | ABoxes _ ty ks => holds_boxes ty && forallb shape ks && single_b ty (map (atype L leafType) (filter (fun k => negb (free_box L k)) ks)) &&
      (negb (ty =? code "stbl") || (forallb saux_b ks && forallb (fun g => existsb (fun k => one_of (atype L leafType k) g) ks) mandatory))
  end.
Fixpoint leaves (a : atom L) : list L :=
  match a with ALeaf _ l => [l] | ABoxes _ _ ks => flat_map leaves ks | _ => [] end.

Lemma bytes_b_ok l : bytes_b l = true -> bytes l.
Proof. unfold bytes_b. intros H. rewrite forallb_forall in H. apply Forall_forall. intros x I. apply N.ltb_lt, H, I. Qed.
Lemma single_b_ok c tys : single_b c tys = true -> singles_ok c tys.
Proof.
  induction tys as [|t r IH]; intros H; [exact I|]. cbn [single_b] in H. apply andb_true_iff in H. destruct H as [H1 H2]. split; [|auto].
  intros g Ig Og. rewrite forallb_forall in H1. specialize (H1 g Ig). rewrite Og in H1. cbn [negb orb] in H1.
  apply Forall_forall. intros t' It. rewrite forallb_forall in H1. apply negb_true_iff, H1, It.
Qed.
Lemma shape_ok a : shape a = true -> Forall leafOk (leaves a) -> wf L leafType leafKnown leafOk a.
Proof.
  induction a as [ty uu d|ty d|l|ty ks IH] using atom_ind'; intros H Hl; cbn [shape leaves wf] in *.
  - rewrite !andb_true_iff, !negb_true_iff in H. destruct H as ((((((A & B) & C) & D) & F) & G) & K).
    apply N.ltb_lt in A. apply N.eqb_eq in F. auto 8 using bytes_b_ok.
  - apply andb_true_iff in H. destruct H. auto using bytes_b_ok.
  - inversion_clear Hl. assumption.
  - rewrite !andb_true_iff in H. destruct H as (((A & B) & C) & D). split; [exact A|]. split; [|split; [apply single_b_ok, C|]].
    + clear C D. induction IH as [|k ks Pk Hk IHk]; [exact I|]. cbn [forallb flat_map] in *. apply andb_true_iff in B. destruct B as [B1 B2].
      apply Forall_app in Hl. destruct Hl as [L1 L2]. split; [apply Pk; assumption|apply IHk; assumption].
    + intros ->. rewrite N.eqb_refl in D. cbn [negb orb] in D. apply andb_true_iff in D. destruct D as [D1 D2]. split.
      * apply Forall_forall. intros k Ik. rewrite forallb_forall in D1. specialize (D1 k Ik). unfold saux_b in D1. rewrite andb_true_iff, !negb_true_iff, !N.eqb_neq in D1. exact D1.
      * apply Forall_forall. intros g Ig. rewrite forallb_forall in D2. specialize (D2 g Ig). apply existsb_exists in D2. exact D2.
Qed.
End Shape.

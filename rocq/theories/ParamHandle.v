(* ParamHandle.v -- handles of visual descriptions with a configuration box
   first. *)
From Verif Require Import Base Codec AtomModel AtomSpec AtomProofs AtomProps BitLemmas BoxModel BoxSpec BoxProofs Reads KidsModel KidsProofs TextModel TextSpec TextProofs EntryModel EntrySpec EntryProofs EntryProps BitModel BitSpec BitProofs ParamModel ParamSpec ParamProofs SpsProofs.

Lemma set_at_is l i : i < 4294967296 -> len l < 4294967296 -> set_at l i = kth_set l i.
Proof.
  intros Hi Hl. unfold set_at, kth_set. destruct (N.eqb_spec i 0) as [->|Z].
  - change (sub32 0 1) with 4294967295. destruct (N.leb_spec (len l) 4294967295); [reflexivity|lia].
  - rewrite sub32_le by lia. unfold nthN. destruct (N.leb_spec (len l) (i - 1)) as [G|G].
    + rewrite (proj2 (nth_error_None l _)) by (unfold len in G; lia). reflexivity.
    + destruct (nth_error l (N.to_nat (i - 1))) eqn:E; [reflexivity|]. apply nth_error_None in E. unfold len in G. lia.
Qed.

Section Handles.
Context {X O : Type} (c : codec X) (y : layout X) (o : codec O) (yo : layout O).
Hypothesis F : faithful c y.
Hypothesis D : disjoint c y.
Hypothesis FO : faithful o yo.
Notation T := (avcc + (hvcc + (vvcc + (vvnc + X))))%type.
Notation pc := (pcodec c).
Notation py := (playout y).
Notation FP := (pcodec_faithful c y F D).

Lemma leaf_settled (t : T) : l_ok py t -> l_view py t = t -> settled pc py (ALeaf T t).
Proof. intros H V. split; [exact H|]. split; [reflexivity|]. cbn [strip]. rewrite V. reflexivity. Qed.

(* a handle and the entry in it *)
Definition vis_ent (ty : N) (f : vfix) (l : list (atom T)) : ent T O := EVis ty f l.
Definition vis_bytes (ty : N) (f : vfix) (l : list (atom T)) : list N := entry_bytes pc py yo (EVis ty f l).
Definition vis_ok (ty : N) (f : vfix) (l : list (atom T)) : Prop :=
  is_visual ty = true /\ vfix_ok f /\ Forall (settled pc py) l /\ 86 + len (kids_bytes pc py l) < 4294967296.
Lemma visual_plain ty : is_visual ty = true -> ty < 4294967296 /\ ty <> code "uuid".
Proof.
  unfold is_visual. intros H. apply existsb_exists in H. destruct H as (k & I & E). apply N.eqb_eq in E. subst k.
  cbn [In] in I. repeat (destruct I as [<-|I]; [split; [reflexivity|discriminate]|]). destruct I.
Qed.
Lemma vis_entry_ok ty f l : vis_ok ty f l -> entry_ok pc py o yo (vis_ent ty f l) /\ 8 + len (entry_body pc py yo (vis_ent ty f l)) < 4294967296.
Proof.
  intros (H1 & H2 & H3 & H4). destruct (visual_plain ty H1) as [P Q]. split.
  - split; [exact P|]. split; [exact Q|]. split; [left; exact H1|]. split; [exact H2|].
    eapply Forall_impl; [|exact H3]. intros k (K & _). exact K.
  - cbn [vis_ent entry_body]. lens. rewrite (vfix_len f H2). lia.
Qed.
Lemma vis_written ty f l : vis_ok ty f l -> entry_w pc o (vis_ent ty f l) = Ok (vis_bytes ty f l).
Proof. intros H. destruct (vis_entry_ok ty f l H) as [E L]. apply (entry_w_is pc py pdflt o yo FP FO _ E L). Qed.
Lemma vis_lasting ty f l : vis_ok ty f l -> lasting pc py o yo (vis_ent ty f l).
Proof.
  intros H. destruct (vis_entry_ok ty f l H) as [E L]. destruct H as (H1 & H2 & H3 & H4).
  destruct (settled_view pc py l H3) as [V _]. unfold lasting. cbn [vis_ent entry_view]. rewrite H1, V. auto.
Qed.
Lemma vis_handle vis ty f l : vis_ok ty f l -> of_handle pc pdflt o vis (vis_bytes ty f l) = Ok (vis_ent ty f l).
Proof.
  intros H. destruct (vis_entry_ok ty f l H) as [E L]. destruct H as (H1 & H2 & H3 & H4). destruct (visual_plain ty H1) as [P Q]. destruct vis.
  - apply (visual_handle pc py pdflt o yo FP); auto.
  - unfold vis_bytes. etransitivity; [apply (of_handle_is pc py pdflt o yo FP FO _ E L)|].
    cbn [vis_ent entry_view]. rewrite H1. destruct (settled_view pc py l H3) as [-> _]. reflexivity.
Qed.
Lemma vis_entry vis types ty f l : vis_ok ty f l -> existsb (N.eqb ty) types = true -> entry_of c o vis types (vis_bytes ty f l) = Ok (ty, f, l).
Proof. intros H E. unfold entry_of. rewrite vis_handle by exact H. cbn [bind vis_ent ent_ty]. rewrite E. reflexivity. Qed.
Lemma vis_refused vis types ty f l : vis_ok ty f l -> existsb (N.eqb ty) types = false -> entry_of c o vis types (vis_bytes ty f l) = Err MP4BadParamErr.
Proof. intros H E. unfold entry_of. rewrite vis_handle by exact H. cbn [bind vis_ent ent_ty]. rewrite E. reflexivity. Qed.
Lemma vis_dims ty f l : vis_ok ty f l -> get_dims pc pdflt o (vis_bytes ty f l) = Ok (v_w f, v_h f).
Proof. intros H. unfold get_dims. rewrite vis_handle by exact H. reflexivity. Qed.
Lemma vis_set_dims ty f l w h : vis_ok ty f l -> w < 65536 -> h < 65536 ->
  vis_ok ty (sized f w h) l /\ set_dims pc pdflt o (vis_bytes ty f l) w h = Ok (vis_bytes ty (sized f w h) l).
Proof.
  intros H Hw Hh. assert (G : vis_ok ty (sized f w h) l).
  { destruct H as (H1 & (A1 & A2 & A3 & A4 & A5 & A6) & H3). split; [exact H1|]. split; [|exact H3]. unfold sized. repeat split; cbn; tauto. }
  split; [exact G|]. unfold set_dims. rewrite vis_handle by exact H. cbn [bind vis_ent]. apply (vis_written _ _ _ G).
Qed.
Lemma kids_len_app l x : len (kids_bytes pc py (l ++ [x])) = len (kids_bytes pc py l) + len (kid_enc pc py x).
Proof. unfold kids_bytes. rewrite flat_map_app. cbn [flat_map]. lens. lia. Qed.
Lemma vis_add_ext oadd ty f l x : vis_ok ty f l -> settled pc py x -> 86 + len (kids_bytes pc py l) + len (kid_enc pc py x) < 4294967296 ->
  vis_ok ty f (l ++ [x]) /\ add_ext pc pdflt o oadd (vis_bytes ty f l) x = Ok (vis_bytes ty f (l ++ [x])).
Proof.
  intros H Hx Hl. assert (G : vis_ok ty f (l ++ [x])).
  { destruct H as (H1 & H2 & H3 & H4). split; [exact H1|]. split; [exact H2|]. split; [apply Forall_app; auto|]. rewrite kids_len_app. lia. }
  split; [exact G|]. unfold add_ext. rewrite vis_handle by exact H. cbn [bind vis_ent]. apply (vis_written _ _ _ G).
Qed.

(* other boxes beside the configuration *)
Definition other_box (k : atom T) : Prop := settled pc py k /\ ~ In (atype T (c_ty pc) k) config_types.
Lemma ext_none l ty : Forall other_box l -> In ty config_types -> ext_of c l ty = None.
Proof.
  intros H I. unfold ext_of. induction H as [|k l [_ K] _ IH]; [reflexivity|]. cbn [find].
  destruct (N.eqb_spec (atype T (c_ty pc) k) ty) as [E|_]; [rewrite E in K; contradiction|exact IH].
Qed.
Lemma ext_cons t l ty : ext_of c (ALeaf T t :: l) ty = if c_ty pc t =? ty then Some (ALeaf T t) else ext_of c l ty.
Proof. unfold ext_of. cbn [find atype]. reflexivity. Qed.
Lemma kids_len_cons (t : T) l : len (kids_bytes pc py (ALeaf T t :: l)) = 8 + len (l_body py t) + len (kids_bytes pc py l).
Proof. unfold kids_bytes. cbn [flat_map]. lens. unfold kid_enc at 1. cbn [enc]. unfold box. lens. lia. Qed.
Lemma vis_first ty f (t : T) l : is_visual ty = true -> vfix_ok f -> l_ok py t -> l_view py t = t -> Forall other_box l ->
  94 + len (l_body py t) + len (kids_bytes pc py l) < 4294967296 -> vis_ok ty f (ALeaf T t :: l).
Proof.
  intros H1 H2 H3 H4 H5 H6. split; [exact H1|]. split; [exact H2|]. split.
  - constructor; [apply leaf_settled; assumption|]. eapply Forall_impl; [|exact H5]. intros k [K _]. exact K.
  - rewrite kids_len_cons. lia.
Qed.
End Handles.

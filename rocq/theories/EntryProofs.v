From Verif Require Import Base Codec AtomModel AtomSpec AtomProofs AtomProps BoxModel BoxSpec BoxProofs Reads KidsModel KidsProofs TextModel TextSpec TextProofs EntryModel EntrySpec.

Lemma reads_rrep {A B} (m : rd B) (enc : A -> list N) (f : A -> B) l :
  (forall a n, In a l -> n < 4294967296 -> reads n m (enc a) (f a)) ->
  forall n, n < 4294967296 -> reads n (rrep (length l) m) (flat_map enc l) (map f l).
Proof.
  induction l as [|a l IH]; intros H n Hn; cbn [length rrep flat_map map].
  - apply reads_ret; [exact Hn|reflexivity].
  - eapply reads_bind; [apply H; [left; reflexivity|exact Hn]|].
    eapply reads_bind_last; [apply IH; [intros; apply H; [right|]; assumption|apply w32_lt]|].
    apply reads_ret; [apply w32_lt|reflexivity].
Qed.
Lemma take_len6 : 6%nat = N.to_nat 6. Proof. reflexivity. Qed.
Lemma reads_take n k bs : len bs = N.of_nat k -> reads n (take k) bs bs.
Proof. intros H. apply reads_of, parses_take_eq. unfold len in H. lia. Qed.

Lemma vfix_reads n f : vfix_ok f -> n < 4294967296 -> reads n vfix_rd (vfix_bytes f) f.
Proof.
  intros (H1 & H2 & H3 & H4 & H5 & H6 & H7 & H8 & H9 & H10 & H11 & H12 & H13) Hn. unfold vfix_rd, vfix_bytes.
  repeat first
    [ eapply reads_bind; [first [apply reads_take; assumption | apply reads_of, parses_get16; assumption | apply reads_of, parses_get32; assumption | apply reads_of, parses_get8; assumption]|]
    | eapply reads_bind_last; [apply reads_of, parses_get16; assumption|] ].
  apply reads_ret; [apply w32_lt|]. destruct f. reflexivity.
Qed.
Lemma vfix_writes f : writes (vfix_w f) (vfix_bytes f).
Proof. unfold vfix_w, vfix_bytes. repeat (apply writes_seq; [wstep|]). wstep. Qed.
Lemma vfix_len f : vfix_ok f -> len (vfix_bytes f) = 78.
Proof. intros (H1 & _ & H3 & _ & _ & _ & _ & _ & _ & _ & H11 & _). unfold vfix_bytes. lens. lia. Qed.
Lemma afix_reads n f : afix_ok f -> n < 4294967296 -> reads n afix_rd (afix_bytes f) f.
Proof.
  intros (H1 & H2 & H3 & H4 & H5 & H6 & H7 & H8) Hn. unfold afix_rd, afix_bytes.
  repeat first
    [ eapply reads_bind; [first [apply reads_take; assumption | apply reads_of, parses_get16; assumption | apply reads_of, parses_get32; assumption]|]
    | eapply reads_bind_last; [apply reads_of, parses_get16; assumption|] ].
  apply reads_ret; [apply w32_lt|]. destruct f. reflexivity.
Qed.
Lemma afix_writes f : writes (afix_w f) (afix_bytes f).
Proof. unfold afix_w, afix_bytes. repeat (apply writes_seq; [wstep|]). wstep. Qed.
Lemma afix_len f : afix_ok f -> len (afix_bytes f) = 28.
Proof. intros (H1 & _ & H3 & _). unfold afix_bytes. lens. lia. Qed.

(* ------------------------------------------------------------------ *)
(* the boxes at the end                                                *)

Section Boxes.
Context {T : Type} (c : codec T) (y : layout T) (dflt : T).
Hypothesis F : faithful c y.

Lemma box_at_reads k n : kid_ok c y k -> len (kid_enc c y k) < 4294967296 ->
  reads n (box_at c dflt) (kid_enc c y k) (strip T (l_view y) k).
Proof.
  intros Hk Hl r. unfold box_at. cbn [inp rdn]. pose proof (faithful_codec c y F) as [K1 K2 K3 K4]. unfold parse_top.
  destruct (parse_enc T (c_leaf c) (c_ty c) (c_size c) (c_w c) (fun _ => dflt) (l_body y) (l_view y) (c_known c) (l_ok y)
      K1 K2 K3 K4 k (length (kid_enc c y k ++ r) + 3) r Hk Hl) as [E _]; [unfold kid_enc; lia|].
  fold (kid_enc c y k) in E. rewrite E. reflexivity.
Qed.
Lemma kid_free k : kid_ok c y k -> is_free (atype T (c_ty c) (strip T (l_view y) k)) = free_box T k.
Proof.
  intros Hk. pose proof (faithful_codec c y F) as [K1 K2 K3 K4].
  destruct (atype_facts T (c_ty c) (fun _ => dflt) (l_view y) (c_known c) (l_ok y) K2 k Hk) as (A1 & A2 & A3). rewrite A3, A2. reflexivity.
Qed.
Lemma len_kids_cons k ks : len (flat_map (kid_enc c y) (k :: ks)) = len (kid_enc c y k) + len (flat_map (kid_enc c y) ks).
Proof. cbn [flat_map]. lens. reflexivity. Qed.

(* [t]: the tail of less than eight bytes that is left alone *)
Lemma exts_loop_reads kids : forall fuel acc size n r t, Forall (kid_ok c y) kids ->
  size = n + len (flat_map (kid_enc c y) kids) + t -> t < 8 -> size < 4294967296 -> (length kids <= fuel)%nat ->
  exts_loop c dflt fuel size acc (mkR (flat_map (kid_enc c y) kids ++ r) n) = Ok (acc ++ kid_view y kids, mkR r size).
Proof.
  induction kids as [|k ks IH]; intros fuel acc size n r t Hk E Ht Hs Hf.
  - cbn [flat_map app] in *. rewrite len_nil in E. destruct fuel; cbn [exts_loop rdn inp].
    + destruct (N.ltb_spec n size) as [L|L]; [destruct (N.ltb_spec (size - n) 8); [|lia]|]; unfold kid_view; cbn [map filter]; rewrite app_nil_r; [reflexivity|].
      replace size with n by lia. reflexivity.
    + destruct (N.ltb_spec n size) as [L|L]; [destruct (N.ltb_spec (size - n) 8); [|lia]|]; unfold kid_view; cbn [map filter]; rewrite app_nil_r; [reflexivity|].
      replace size with n by lia. reflexivity.
  - inversion_clear Hk as [|? ? Wk Wr]. destruct fuel as [|fuel]; [cbn [length] in Hf; lia|]. cbn [length] in Hf.
    rewrite len_kids_cons in E. pose proof (kid_pos c y k) as P. cbn [exts_loop rdn inp].
    destruct (N.ltb_spec n size); [|lia]. destruct (N.ltb_spec (size - n) 8); [lia|].
    cbn [flat_map]. rewrite <- app_assoc, (box_at_reads k n Wk) by lia. cbn [bind fst snd].
    rewrite w32_small by lia. rewrite kid_free by exact Wk. rewrite (IH fuel _ size _ r t Wr); try lia.
    unfold kid_view. cbn [map filter]. rewrite free_strip. destruct (free_box T k); cbn [negb]; [reflexivity|]. rewrite <- app_assoc. reflexivity.
Qed.
Lemma kids_short kids : (8 * length kids <= length (flat_map (kid_enc c y) kids))%nat.
Proof.
  induction kids as [|k ks IH]; [cbn; lia|]. cbn [flat_map length]. rewrite app_length. pose proof (kid_pos c y k) as P. unfold len in P. lia.
Qed.
Lemma exts_reads n kids h : Forall (kid_ok c y) kids -> h_size h = n + len (flat_map (kid_enc c y) kids) -> h_size h < 4294967296 ->
  reads n (exts_rd c dflt h) (flat_map (kid_enc c y) kids) (kid_view y kids).
Proof.
  intros Hk E Hs r. unfold exts_rd. cbn [inp]. rewrite (exts_loop_reads kids _ _ _ _ _ 0 Hk); try lia.
  - rewrite w32_small by lia. rewrite <- E. reflexivity.
  - pose proof (kids_short kids). rewrite app_length. lia.
Qed.
Lemma audio_loop_reads kids v1 : forall fuel acc size n r, Forall (kid_ok c y) kids ->
  size = n + len (flat_map (kid_enc c y) kids) -> size < 4294967296 -> (length kids <= fuel)%nat ->
  audio_loop c dflt fuel size v1 acc (mkR (flat_map (kid_enc c y) kids ++ r) n) = Ok (acc ++ kid_view y kids, mkR r size).
Proof.
  induction kids as [|k ks IH]; intros fuel acc size n r Hk E Hs Hf.
  - cbn [flat_map app] in *. rewrite len_nil in E. destruct fuel; cbn [audio_loop rdn inp]; (destruct (N.ltb_spec n size) as [L|L]; [lia|]);
      unfold kid_view; cbn [map filter]; rewrite app_nil_r; replace size with n by lia; reflexivity.
  - inversion_clear Hk as [|? ? Wk Wr]. destruct fuel as [|fuel]; [cbn [length] in Hf; lia|]. cbn [length] in Hf.
    rewrite len_kids_cons in E. pose proof (kid_pos c y k) as P. cbn [audio_loop rdn inp].
    destruct (N.ltb_spec n size); [|lia].
    cbn [flat_map]. rewrite <- app_assoc, (box_at_reads k n Wk) by lia. cbn [rdn].
    rewrite w32_small by lia. destruct (N.ltb_spec size (n + len (kid_enc c y k))); [lia|]. cbn [andb].
    rewrite kid_free by exact Wk. rewrite (IH fuel _ size _ r Wr); try lia.
    unfold kid_view. cbn [map filter]. rewrite free_strip. destruct (free_box T k); cbn [negb]; [reflexivity|]. rewrite <- app_assoc. reflexivity.
Qed.
Lemma audio_reads n kids h v1 : Forall (kid_ok c y) kids -> h_size h = n + len (flat_map (kid_enc c y) kids) -> h_size h < 4294967296 ->
  reads n (audio_exts c dflt h v1) (flat_map (kid_enc c y) kids) (kid_view y kids).
Proof.
  intros Hk E Hs r. unfold audio_exts. cbn [inp]. rewrite (audio_loop_reads kids v1 _ _ _ _ _ Hk); try lia.
  - rewrite w32_small by lia. rewrite <- E. reflexivity.
  - pose proof (kids_short kids). rewrite app_length. lia.
Qed.
(* a header does not fit into less than eight bytes *)
Lemma hdr_short t : len t < 8 -> exists e, parse_hdr (mkR t 0) = Err e.
Proof.
  intros H. unfold parse_hdr, rbind at 1.
  destruct t as [|b1 [|b2 [|b3 [|b4 t]]]]; [eexists; reflexivity..|]. unfold get32 at 1. cbn [inp].
  destruct (if _ =? 0 then _ else _) as [size size64]. destruct (negb (size =? 1) && _); [eexists; reflexivity|].
  destruct t as [|c1 [|c2 [|c3 [|c4 t]]]]; [unfold rbind, get32; cbn [inp]; eexists; reflexivity..|].
  revert H. lens. lia.
Qed.
Lemma box_at_short t n : len t < 8 -> exists e, box_at c dflt (mkR t n) = Err e.
Proof.
  intros H. unfold box_at, parse_top. cbn [inp]. rewrite Nat.add_comm. cbn [Nat.add]. rewrite parse_atom_S.
  destruct (hdr_short t H) as [e E]. rewrite E. exists e. reflexivity.
Qed.
Lemma audio_loop_tail kids v1 t : 0 < len t < 8 -> forall fuel acc size n, Forall (kid_ok c y) kids ->
  size = n + len (flat_map (kid_enc c y) kids) + len t -> size < 4294967296 -> (length kids < fuel)%nat ->
  audio_loop c dflt fuel size v1 acc (mkR (flat_map (kid_enc c y) kids ++ t) n) = UB.
Proof.
  intros Ht. induction kids as [|k ks IH]; intros fuel acc size n Hk E Hs Hf; (destruct fuel as [|fuel]; [lia|]).
  - cbn [flat_map app] in *. rewrite len_nil in E. cbn [audio_loop rdn]. destruct (N.ltb_spec n size) as [L|L]; [|lia].
    destruct (box_at_short t n) as [e ->]; [lia|]. reflexivity.
  - inversion_clear Hk as [|? ? Wk Wr]. cbn [length] in Hf.
    rewrite len_kids_cons in E. pose proof (kid_pos c y k) as P. cbn [audio_loop rdn inp].
    destruct (N.ltb_spec n size); [|lia].
    cbn [flat_map]. rewrite <- app_assoc, (box_at_reads k n Wk) by lia. cbn [rdn].
    rewrite w32_small by lia. destruct (N.ltb_spec size (n + len (kid_enc c y k))); [lia|]. cbn [andb].
    apply IH; try assumption; lia.
Qed.
End Boxes.

(* ------------------------------------------------------------------ *)
(* entries                                                             *)

Lemma types_mpeg ty : among ty mpeg_types = is_mpeg ty. Proof. reflexivity. Qed.
Lemma types_visual ty : among ty visual_types = is_visual ty. Proof. reflexivity. Qed.
Lemma types_audio ty : among ty audio_types = is_audio ty. Proof. reflexivity. Qed.
Lemma existsb_in l ty : existsb (N.eqb ty) l = true <-> In ty l.
Proof. rewrite existsb_exists. split; [intros (x & I & E); apply N.eqb_eq in E; subst; exact I|intros I; exists ty; split; [exact I|apply N.eqb_refl]]. Qed.
Lemma visual_not_mpeg ty : is_visual ty = true -> is_mpeg ty = false.
Proof. intros H. apply existsb_in in H. cbn [In] in H. decompose [or False] H; subst ty; reflexivity. Qed.
Lemma audio_not_mpeg ty : is_audio ty = true -> is_mpeg ty = false /\ is_visual ty = false.
Proof. intros H. apply existsb_in in H. cbn [In] in H. decompose [or False] H; subst ty; split; reflexivity. Qed.

Section Ents.
Context {T O : Type} (c : codec T) (y : layout T) (dflt : T) (o : codec O) (yo : layout O).
Hypothesis F : faithful c y.
Hypothesis FO : faithful o yo.
Notation ent := (ent T O).
Notation hd8 e := (mkH (8 + len (entry_body c y yo e)) 0 (entry_type yo e) [] 8).

Lemma ent_ty_is e : entry_ok c y o yo e -> ent_ty o e = entry_type yo e.
Proof.
  destruct e; try reflexivity. intros (_ & _ & H & _). cbn [ent_ty entry_type]. apply (proj1 FO _ H).
Qed.
Lemma ent_size_is e : entry_ok c y o yo e -> 8 + len (entry_body c y yo e) < 4294967296 ->
  ent_size c o e = 8 + len (entry_body c y yo e).
Proof.
  intros (_ & _ & H) Hl. destruct e as [ty r d b l|ty r d l|ty f l|ty f l|x]; cbn [ent_size entry_body] in *; unfold kids_bytes in *.
  - destruct H as (_ & H1 & _ & H3). revert Hl. lens. intros Hl. rewrite w32_small by lia. rewrite (boxes_size_ok c y dflt F) by (assumption || lia). lia.
  - destruct H as (_ & H1 & _ & H3). revert Hl. lens. intros Hl. rewrite (boxes_size_ok c y dflt F) by (assumption || lia). lia.
  - destruct H as (_ & H1 & H3). revert Hl. lens. rewrite (vfix_len f H1). intros Hl. rewrite (boxes_size_ok c y dflt F) by (assumption || lia). lia.
  - destruct H as (_ & H1 & H3). revert Hl. lens. rewrite (afix_len f H1). intros Hl. rewrite (boxes_size_ok c y dflt F) by (assumption || lia). lia.
  - destruct H as (H & _). apply (proj2 FO x H Hl).
Qed.
Lemma ent_writes e : entry_ok c y o yo e -> 8 + len (entry_body c y yo e) < 4294967296 ->
  writes (ent_w c o e) (entry_body c y yo e).
Proof.
  intros (_ & _ & H) Hl. destruct e as [ty r d b l|ty r d l|ty f l|ty f l|x]; cbn [ent_w entry_body] in *; unfold kids_bytes in *.
  - destruct H as (_ & H1 & _ & H3). revert Hl. lens. intros Hl. repeat (apply writes_seq; [wstep|]). apply (boxes_writes c y dflt F); [assumption|lia].
  - destruct H as (_ & H1 & _ & H3). revert Hl. lens. intros Hl. repeat (apply writes_seq; [wstep|]). apply (boxes_writes c y dflt F); [assumption|lia].
  - destruct H as (_ & H1 & H3). revert Hl. lens. intros Hl. apply writes_seq; [apply vfix_writes|]. apply (boxes_writes c y dflt F); [assumption|lia].
  - destruct H as (_ & H1 & H3). revert Hl. lens. intros Hl. apply writes_seq; [apply afix_writes|]. apply (boxes_writes c y dflt F); [assumption|lia].
  - destruct H as (H & _). apply (proj2 FO x H Hl).
Qed.
Lemma entry_w_is e : entry_ok c y o yo e -> 8 + len (entry_body c y yo e) < 4294967296 ->
  entry_w c o e = Ok (entry_bytes c y yo e).
Proof.
  intros H Hl. unfold entry_w. rewrite (ent_size_is e H Hl), (ent_ty_is e H). unfold entry_bytes, box.
  apply writes_run; [|lens; lia|exact Hl]. rewrite app_assoc. apply writes_seq; [apply writes_base; lia|apply ent_writes; assumption].
Qed.

Lemma dri_pair d : d < 65536 -> be16 d = [d / 256; d mod 256].
Proof. intros H. unfold be16. rewrite (N.mod_small (d / 256)) by lia. reflexivity. Qed.
(* an entry that is read as bytes *)
Lemma gen_reads ty r d b : len r = 6 -> d < 65536 -> 8 + len (r ++ be16 d ++ b) < 4294967296 ->
  reads 8 (gen_rd (T:=T) (O:=O) (mkH (8 + len (r ++ be16 d ++ b)) 0 ty [] 8)) (r ++ be16 d ++ b) (EGen ty r d b []).
Proof.
  intros Hr Hd. lens. intros Hl. unfold gen_rd. cbn [h_size h_type].
  rnext; [apply reads_take; assumption|]. rewrite Hr. change (w32 (8 + 6)) with 14.
  rnext; [apply reads_of, parses_get16; exact Hd|]. change (w32 (14 + len (be16 d))) with 16.
  eapply reads_bind_nil; [intros s E; unfold getrdn; rewrite E; reflexivity|].
  rewrite sub32_le by lia.
  rnext; [apply reads_take; lia|]. rnext.
Qed.
Lemma raw_is ty r d b : len r = 6 -> raw (T:=T) (O:=O) ty (r ++ be16 d ++ b) d = EGen ty r d b [].
Proof.
  intros Hr. unfold raw. f_equal.
  - assert (E : 6%nat = length r) by (unfold len in Hr; lia). rewrite E, firstn_app, firstn_all, Nat.sub_diag, firstn_O, app_nil_r. reflexivity.
  - assert (E : 8%nat = length (r ++ be16 d)) by (rewrite app_length; unfold len in Hr; cbn [length be16]; lia).
    rewrite E, app_assoc, skipn_app, skipn_all, Nat.sub_diag. reflexivity.
Qed.
(* every entry begins with six bytes and the data reference index *)
Lemma body_split e : entry_ok c y o yo e -> (forall x, e <> EOther x) ->
  exists r b, entry_body c y yo e = r ++ be16 (ent_dri (fun _ => 0) e) ++ b /\ len r = 6 /\ ent_dri (fun _ => 0) e < 65536.
Proof.
  intros (_ & _ & H) N. destruct e as [ty r d b l|ty r d l|ty f l|ty f l|x]; cbn [entry_body ent_dri] in *.
  - destruct H as (_ & H1 & H2 & _). eauto.
  - destruct H as (_ & H1 & H2 & _). eauto.
  - destruct H as (_ & (H1 & H2 & _) & _). unfold vfix_bytes. exists (v_res f). eexists. split; [|split; [exact H1|exact H2]]. rewrite <- app_assoc. f_equal. rewrite <- app_assoc. reflexivity.
  - destruct H as (_ & (H1 & H2 & _) & _). unfold afix_bytes. exists (a_res f). eexists. split; [|split; [exact H1|exact H2]]. rewrite <- app_assoc. f_equal. rewrite <- app_assoc. reflexivity.
  - destruct (N x eq_refl).
Qed.
Lemma ent_reads e : entry_ok c y o yo e -> 8 + len (entry_body c y yo e) < 4294967296 ->
  reads 8 (ent_rd c dflt o false (hd8 e)) (entry_body c y yo e) (entry_view c y yo e).
Proof.
  intros H Hl.
  assert (G : forall d r b ty, entry_body c y yo e = r ++ be16 d ++ b -> len r = 6 -> d < 65536 -> entry_type yo e = ty -> is_generic o ty ->
     reads 8 (ent_rd c dflt o false (hd8 e)) (entry_body c y yo e) (raw ty (entry_body c y yo e) d)).
  { intros d r b ty E Hr Hd Et (G1 & G2 & G3 & G4). unfold ent_rd. cbn [h_type].
    rewrite types_mpeg, types_visual, types_audio, Et, G1, G2, G3, G4, E, raw_is by exact Hr.
    apply gen_reads; try assumption. rewrite <- E. exact Hl. }
  pose proof H as (_ & _ & H'). destruct e as [ty r d b l|ty r d l|ty f l|ty f l|x]; cbn [entry_view].
  - destruct H' as (A & B & C & D). eapply G; eauto; reflexivity.
  - destruct H' as (A & B & C & D). destruct (is_mpeg ty) eqn:M.
    + unfold ent_rd. cbn [h_type entry_type]. rewrite types_mpeg, M. unfold mpeg_rd. cbn [h_type entry_body]. cbn [entry_body] in Hl. revert Hl. lens. intros Hl.
      rnext; [apply reads_take; assumption|]. rewrite B. change (w32 (8 + 6)) with 14.
      rnext; [apply reads_of, parses_get16; exact C|]. change (w32 (14 + len (be16 d))) with 16.
      rnext; [apply (exts_reads c y dflt F); [exact D|cbn [h_size]; unfold kids_bytes in *; lens; lia|cbn [h_size]; lens; lia]|]. rnext.
    + eapply G; [| | |reflexivity|]; [reflexivity|assumption|assumption|]. destruct A as [A|A]; [congruence|exact A].
  - destruct H' as (A & B & D). destruct (is_visual ty) eqn:M.
    + unfold ent_rd. cbn [h_type entry_type]. rewrite types_mpeg, types_visual, M, (visual_not_mpeg _ M). unfold vis_rd. cbn [h_type entry_body]. cbn [entry_body] in Hl. revert Hl. lens. rewrite (vfix_len f B). intros Hl.
      rnext; [apply vfix_reads; [exact B|lia]|]. rewrite (vfix_len f B). change (w32 (8 + 78)) with 86.
      rnext; [apply (exts_reads c y dflt F); [exact D|cbn [h_size]; unfold kids_bytes in *; lens; lia|cbn [h_size]; lens; lia]|]. rnext.
    + destruct (body_split _ H) as (r & b & E1 & E2 & E3); [congruence|]. eapply G; [exact E1|assumption|assumption|reflexivity|].
      destruct A as [A|A]; [congruence|exact A].
  - destruct H' as (A & B & D). destruct (is_audio ty) eqn:M.
    + unfold ent_rd. cbn [h_type entry_type]. destruct (audio_not_mpeg _ M) as [M1 M2]. rewrite types_mpeg, types_visual, types_audio, M, M1, M2. unfold aud_rd. cbn [h_type entry_body]. cbn [entry_body] in Hl. revert Hl. lens. rewrite (afix_len f B). intros Hl.
      rnext; [apply afix_reads; [exact B|lia]|]. rewrite (afix_len f B). change (w32 (8 + 28)) with 36.
      rnext; [apply (audio_reads c y dflt F); [exact D|cbn [h_size]; unfold kids_bytes in *; lens; lia|cbn [h_size]; lens; lia]|]. rnext.
    + destruct (body_split _ H) as (r & b & E1 & E2 & E3); [congruence|]. eapply G; [exact E1|assumption|assumption|reflexivity|].
      destruct A as [A|A]; [congruence|exact A].
  - destruct H' as (A & B & C & D). unfold ent_rd. cbn [h_type entry_type entry_body] in *.
    destruct (proj1 FO x A) as (K1 & K2 & K3 & K4).
    rewrite types_mpeg, types_visual, types_audio, B, C, D, <- K4, K2. apply reads_rmap. apply (proj2 FO x A Hl).
Qed.
Lemma entry_reads n e : entry_ok c y o yo e -> 8 + len (entry_body c y yo e) < 4294967296 ->
  reads n (entry_at c dflt o false) (entry_bytes c y yo e) (entry_view c y yo e).
Proof.
  intros H Hl r. unfold entry_at. cbn [inp rdn]. unfold entry_bytes. rewrite parse_hdr_box; [|apply H|apply H|exact Hl].
  cbn [bind fst snd h_read inp]. rewrite (ent_reads e H Hl). cbn [bind fst snd inp].

  edestruct (skip_none (hd8 e) (len (box (entry_type yo e) (entry_body c y yo e) ++ r) - len r) r) as [K1 K2].
  { cbn [h_size]. destruct (N.eqb_spec (8 + len (entry_body c y yo e)) 1); [lia|]. lens. rewrite len_box. lia. }
  rewrite K1, K2. cbn [h_size]. rewrite len_box. reflexivity.
Qed.
Lemma len_entry e : len (entry_bytes c y yo e) = 8 + len (entry_body c y yo e).
Proof. apply len_box. Qed.
Lemma of_handle_is e : entry_ok c y o yo e -> 8 + len (entry_body c y yo e) < 4294967296 ->
  of_handle c dflt o false (entry_bytes c y yo e) = Ok (entry_view c y yo e).
Proof.
  intros H Hl. unfold of_handle. pose proof (entry_reads 0 e H Hl []) as R. rewrite app_nil_r in R. rewrite R. reflexivity.
Qed.

(* the description box *)
Lemma to_nat_len {A} (l : list A) : N.to_nat (len l) = length l.
Proof. unfold len. lia. Qed.
Lemma ents_len l : len l <= len (flat_map (entry_bytes c y yo) l).
Proof. induction l as [|e l IH]; [apply N.le_0_l|]. cbn [flat_map]. lens. rewrite len_entry. lia. Qed.
Lemma stsd_sum l n : Forall (entry_ok c y o yo) l -> n + len (flat_map (entry_bytes c y yo) l) < 4294967296 ->
  fold_left (fun n e => w32 (n + ent_size c o e)) l n = n + len (flat_map (entry_bytes c y yo) l).
Proof.
  revert n. induction l as [|e l IH]; intros n H Hl; cbn [fold_left flat_map] in *; [lens; lia|].
  inversion_clear H. revert Hl. lens. rewrite len_entry. intros Hl. rewrite ent_size_is by (assumption || lia).
  rewrite w32_small by lia. rewrite IH by (assumption || lia). lia.
Qed.
Lemma stsd_faithful : faithful (stsd_codec c dflt o) (stsd_layout c y o yo).
Proof.
  split; [intros t _; plain|]. intros [v f l] (Hf & H) Hl.
  cbn [stsd_codec stsd_layout c_size c_w c_rd c_ty l_body l_view l_ok sd_ver sd_flags sd_ents] in *.
  assert (Hl' := Hl). revert Hl'. unfold full at 1. lens. clear Hl. intros Hl.
  assert (Hle : forall e, In e l -> 8 + len (entry_body c y yo e) <= len (flat_map (entry_bytes c y yo) l)).
  { intros e I. rewrite <- len_entry. clear -I. induction l as [|a l IH]; [destruct I|]. cbn [flat_map]. lens. destruct I as [->|I]; [lia|]. specialize (IH I). lia. }
  split; [|split].
  - unfold stsd_size. cbn [sd_ents]. rewrite stsd_sum by (assumption || lia). lia.
  - unfold stsd_w. cbn [sd_ver sd_flags sd_ents]. apply writes_full_seq. apply writes_seq; [wstep|].
    apply writes_map. intros e I. rewrite Forall_forall in H. specialize (Hle e I).
    rewrite entry_w_is by (auto || lia). apply writes_embed. rewrite ent_size_is by (auto || lia). apply len_entry.
  - unfold stsd_rd. cbn [h_size].
    rnext; [apply reads_of, parses_full; exact Hf|]. cbn [fst snd]. 
    match goal with |- reads ?n _ _ _ => change n with 12 end.
    rnext; [apply reads_of, parses_get32|]. { pose proof (ents_len l). lia. }
    match goal with |- reads ?n _ _ _ => change n with 16 end.
    rnext; [rewrite to_nat_len; apply reads_rrep; [|lia]|].
    { intros e n I Hn. rewrite Forall_forall in H. apply entry_reads; [auto|specialize (Hle e I); lia]. }
    eapply reads_bind_nil; [intros s E; unfold getrdn; rewrite E; reflexivity|].
    rewrite w32_small by lia. unfold full. lens. 
    match goal with |- reads _ (if ?a =? ?b then _ else _) _ _ => replace a with b by lia end. rewrite N.eqb_refl. apply reads_ret; [lia|reflexivity].
Qed.
End Ents.

(* ------------------------------------------------------------------ *)
(* data references                                                     *)

Section Dref.
Context {T : Type} (c : codec T) (y : layout T) (dflt : T).
Hypothesis F : faithful c y.

Lemma dref_faithful : faithful (dref_codec c dflt) (dref_layout c y).
Proof.
  split; [intros t _; plain|]. intros [v f l] (Hf & H) Hl.
  cbn [dref_codec dref_layout c_size c_w c_rd c_ty l_body l_view l_ok dr_ver dr_flags dr_kids] in *. unfold kids_bytes in *.
  assert (Hl' := Hl). revert Hl'. unfold full at 1. lens. clear Hl. intros Hl.
  assert (Hle : forall e, In e l -> len (kid_enc c y e) <= len (flat_map (kid_enc c y) l)).
  { intros e I. clear -I. induction l as [|a l IH]; [destruct I|]. cbn [flat_map]. lens. destruct I as [->|I]; [lia|]. specialize (IH I). lia. }
  split; [|split].
  - unfold dref_size. cbn [dr_kids]. rewrite (boxes_size_ok c y dflt F) by (assumption || lia). lia.
  - unfold dref_w. cbn [dr_ver dr_flags dr_kids]. apply writes_full_seq. apply writes_seq; [wstep|].
    apply (boxes_writes c y dflt F); [assumption|lia].
  - unfold dref_rd. cbn [h_size].
    rnext; [apply reads_of, parses_full; exact Hf|]. cbn [fst snd]. 
    match goal with |- reads ?n _ _ _ => change n with 12 end.
    rnext; [apply reads_of, parses_get32|]. { pose proof (kids_short c y l). unfold len in *. lia. }
    match goal with |- reads ?n _ _ _ => change n with 16 end.
    rnext; [rewrite to_nat_len; apply reads_rrep; [|lia]|].
    { intros e n I Hn. rewrite Forall_forall in H. apply (box_at_reads c y dflt F); [auto|specialize (Hle e I); lia]. }
    eapply reads_bind_nil; [intros s E; unfold getrdn; rewrite E; reflexivity|].
    rewrite w32_small by lia. unfold full. lens. 
    match goal with |- reads _ (if ?a =? ?b then _ else _) _ _ => replace a with b by lia end. rewrite N.eqb_refl. apply reads_ret; [lia|reflexivity].
Qed.
End Dref.

(* ------------------------------------------------------------------ *)
(* readers never leave defined behaviour, audio entries apart          *)

Section Safe.
Context {T O : Type} (c : codec T) (dflt : T) (o : codec O).
Hypothesis R : robust c.
Hypothesis RO : robust o.

Lemma box_at_good s : bytes (inp s) ->
  (box_at c dflt s <> UB /\ box_at c dflt s <> Err OutOfFuel) /\
  (forall a s', box_at c dflt s = Ok (a, s') -> exists p, inp s = p ++ inp s' /\ 8 <= len p).
Proof.
  intros Hb. unfold box_at, parse_top.
  destruct (proj1 (parse_good T (c_leaf c) (c_ty c) (fun _ => dflt) (robust_codec c R) (length (inp s) + 3)) (inp s) Hb ltac:(lia)) as (A & B & C & _).
  destruct (snd (parse_atom T (c_leaf c) (c_ty c) (fun _ => dflt) (length (inp s) + 3) (inp s))) as [[[a sz] r]|e|].
  - cbn [bind fst snd]. split; [split; discriminate|]. intros a' s' E. injection E as <- <-. cbn [inp].
    destruct (C _ _ _ eq_refl) as (pre & E1 & E2 & _). eauto.
  - cbn [bind]. split; [split; congruence|discriminate].
  - congruence.
Qed.
Lemma box_at_safe : safe (box_at c dflt).
Proof.
  intros s Hb. destruct (box_at_good s Hb) as [A B]. split; [exact A|]. intros a s' E. destruct (B a s' E) as (p & E1 & _). eauto.
Qed.
Lemma exts_loop_good fuel : forall size acc s, bytes (inp s) -> (length (inp s) < fuel)%nat ->
  (exts_loop c dflt fuel size acc s <> UB /\ exts_loop c dflt fuel size acc s <> Err OutOfFuel) /\
  (forall a s', exts_loop c dflt fuel size acc s = Ok (a, s') -> exists p, inp s = p ++ inp s').
Proof.
  induction fuel as [|fuel IH]; intros size acc s Hb Hf; [lia|]. cbn [exts_loop].
  destruct (rdn s <? size); [destruct (size - rdn s <? 8)|].
  - split; [split; discriminate|]. intros a s' E. injection E as <- <-. exists []. reflexivity.
  - destruct (box_at_good s Hb) as [[A1 A2] A3]. destruct (box_at c dflt s) as [[a s1]|e|]; cbn [bind fst snd].
    + destruct (A3 a s1 eq_refl) as (p & E & P).
      assert (B1 : bytes (inp s1)) by (rewrite E in Hb; apply bytes_app in Hb; tauto).
      assert (L : (length (inp s1) < fuel)%nat).
      { rewrite E, app_length in Hf. unfold len in P. lia. }
      destruct (IH size (if is_free (atype T (c_ty c) a) then acc else acc ++ [a]) s1 B1 L) as [I1 I2]. split; [exact I1|].
      intros x s' Ex. destruct (I2 x s' Ex) as [q Eq]. exists (p ++ q). rewrite E, Eq, app_assoc. reflexivity.
    + split; [split; congruence|discriminate].
    + congruence.
  - split; [split; discriminate|]. intros a s' E. injection E as <- <-. exists []. reflexivity.
Qed.
Lemma exts_safe h : safe (exts_rd c dflt h).
Proof. intros s Hb. apply exts_loop_good; [exact Hb|lia]. Qed.

Lemma safe_take k : safe (take k). Proof. apply safe_of; [apply consumes_take|apply tame_take]. Qed.
Lemma safe_get8 : safe get8. Proof. apply safe_of; [apply consumes_get8|apply tame_get8]. Qed.
Lemma safe_get16 : safe get16. Proof. apply safe_of; [apply consumes_get16|apply tame_get16]. Qed.
Lemma safe_get32 : safe get32. Proof. apply safe_of; [apply consumes_get32|apply tame_get32]. Qed.
Lemma safe_getrdn : safe getrdn.
Proof. intros s _. split; [split; discriminate|]. intros a s' E. injection E as <- <-. exists []. reflexivity. Qed.
Lemma safe_err {A} e : e <> OutOfFuel -> safe (@rerr A e).
Proof. intros H s _. split; [split; [discriminate|]|discriminate]. intros E. injection E as E. congruence. Qed.
Lemma safe_rrep {A} (m : rd A) n : safe m -> safe (rrep n m).
Proof.
  intros H. induction n as [|n IH]; cbn [rrep]; [apply safe_ret|]. apply safe_bind; [exact H|intros a]. apply safe_bind; [exact IH|intros l; apply safe_ret].
Qed.
Ltac sstep := first [apply safe_take | apply safe_get8 | apply safe_get16 | apply safe_get32 | apply safe_getrdn | apply exts_safe | apply safe_ret |
  apply safe_bind; [|intros ?]].
Lemma vfix_safe : safe vfix_rd. Proof. unfold vfix_rd. repeat sstep. Qed.
Lemma ent_safe vis h : is_audio (h_type h) = false -> safe (ent_rd c dflt o vis h).
Proof.
  intros A. unfold ent_rd. rewrite types_audio, A.
  destruct (among (h_type h) mpeg_types); [unfold mpeg_rd; repeat sstep|].
  destruct (among (h_type h) visual_types); [unfold vis_rd; apply safe_bind; [apply vfix_safe|intros f; repeat sstep]|].
  destruct (c_known o (h_type h)); [apply safe_bind; [apply RO|intros; apply safe_ret]|].
  destruct vis; [unfold vis_rd; apply safe_bind; [apply vfix_safe|intros f; repeat sstep]|unfold gen_rd; repeat sstep].
Qed.
Lemma dref_safe : robust (dref_codec c dflt).
Proof.
  intros h. cbn [dref_codec c_rd]. unfold dref_rd. apply safe_bind; [unfold get_full; repeat sstep|intros vf].
  apply safe_bind; [apply safe_get32|intros n]. apply safe_bind; [apply safe_rrep, box_at_safe|intros l]. apply safe_bind; [apply safe_getrdn|intros br].
  destruct (br =? h_size h); [apply safe_ret|apply safe_err; discriminate].
Qed.
End Safe.

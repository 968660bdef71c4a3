From Coq Require FinFun.
From Verif Require Import Base Codec BitLemmas AtomModel AtomSpec AtomProofs BoxModel BoxSpec BoxProofs Reads IndexProofs KidsModel KidsProofs TextModel TextSpec TextProofs
  EntryModel EntrySpec EntryProofs EntryProps SmallModel SmallSpec SmallProofs MebxModel MebxSpec.

Lemma rest_reads n bs h : h_size h = n + len bs -> h_size h < 4294967296 -> reads n (rest_of h) bs bs.
Proof.
  intros E Hl. unfold rest_of. eapply reads_bind_nil; [intros s Es; unfold getrdn; rewrite Es; reflexivity|].
  destruct (N.ltb_spec (h_size h) n); [lia|]. apply reads_take. lia.
Qed.
Lemma four_same ns : four_only ns = four_bytes ns. Proof. reflexivity. Qed.
Lemma keyd_faithful : faithful keyd_codec keyd_layout.
Proof.
  split; [intros t _; plain|]. intros [ns v] (H1 & H2) Hl. cbn [keyd_codec keyd_layout c_size c_w c_rd c_ty l_body l_view l_ok kd_ns kd_val] in *.
  revert Hl. lens. intros Hl. split; [rewrite w32_small; lia|]. unfold keyd_w, keyd_rd. cbn [kd_ns kd_val]. split.
  - apply writes_seq; [wstep|]. rewrite four_same. destruct (N.eqb_spec (len v) 4) as [|D]; cbn [negb andb]; [wstep|].
    destruct (four_bytes ns) eqn:E; [specialize (H2 eq_refl); contradiction|wstep].
  - rnext; [apply reads_of, parses_get32, H1|]. match goal with |- reads ?n _ _ _ => change n with 12 end.
    rnext; [apply rest_reads; cbn [h_size]; lens; lia|]. apply reads_ret; [apply w32_lt|reflexivity].
Qed.
Lemma loca_faithful : faithful loca_codec loca_layout.
Proof.
  split; [intros t _; plain|]. intros t (s & Hs & Hn & ->) Hl. cbn [loca_codec loca_layout c_size c_w c_rd c_ty l_body l_view l_ok] in *.
  unfold loca_size, loca_w, loca_rd. rewrite (slen_cstr s Hs). revert Hl. rewrite len_cstr. intros Hl.
  destruct (N.ltb_spec 0 (len s)) as [L|L]; [|destruct s; [congruence|revert L; lens; lia]].
  split; [rewrite w32_small; lia|]. split; [apply writes_str, Hs|].
  rnext; [apply rest_reads; cbn [h_size]; rewrite ?len_cstr; lia|]. destruct s; [congruence|]. apply reads_ret; [apply w32_lt|reflexivity].
Qed.
Lemma setu_faithful : faithful setu_codec setu_layout.
Proof.
  split; [intros t _; plain|]. intros b _ Hl. cbn [setu_codec setu_layout c_size c_w c_rd c_ty l_body l_view l_ok] in *. unfold same in *.
  split; [apply w32_small; lia|]. split; [wstep|]. apply rest_reads; cbn [h_size]; lia.
Qed.

(* ------------------------------------------------------------------ *)
(* boxes of which some types come once                                 *)

Section Held.
Context {T : Type} (c : codec T) (y : layout T) (dflt : T).
Hypothesis F : faithful c y.
Notation ty := (atype T (c_ty c)).
Lemma held_loop_reads once e kids : forall fuel acc size n r, Forall (kid_ok c y) kids ->
  lone c once (acc ++ map (strip T (l_view y)) kids) ->
  size = n + len (kids_bytes c y kids) -> size < 4294967296 -> (length kids <= fuel)%nat ->
  held_loop c dflt (add_once c once e) fuel size acc (mkR (kids_bytes c y kids ++ r) n) = Ok (acc ++ kid_view y kids, mkR r size).
Proof.
  unfold kids_bytes. induction kids as [|k ks IH]; intros fuel acc size n r Hk Hn E Hs Hf.
  - cbn [flat_map app] in *. rewrite len_nil in E. unfold kid_view. cbn [map filter].
    destruct fuel; cbn [held_loop rdn inp]; (destruct (N.ltb_spec n size) as [L|L]; [lia|]); (destruct (N.eqb_spec n size); [|lia]);
      rewrite app_nil_r; replace size with n by lia; reflexivity.
  - inversion_clear Hk as [|? ? Wk Wr]. destruct fuel as [|fuel]; [cbn [length] in Hf; lia|]. cbn [length] in Hf.
    rewrite len_kids_cons in E. pose proof (kid_pos c y k) as P. cbn [held_loop rdn inp].
    destruct (N.ltb_spec n size); [|lia].
    cbn [flat_map]. rewrite <- app_assoc, (box_at_reads c y dflt F k n Wk) by lia. cbn [bind fst snd].
    rewrite w32_small by lia. rewrite (kid_free c y dflt F k Wk).
    unfold kid_view. cbn [map filter]. rewrite free_strip. cbn [map] in Hn. destruct (free_box T k); cbn [negb].
    + apply IH; try assumption; try lia. unfold lone in *. revert Hn. rewrite !map_app, !filter_app. cbn [map filter].
      destruct (existsb _ once); [apply NoDup_remove_1|auto].
    + assert (A : add_once c once e acc (strip T (l_view y) k) = Ok (acc ++ [strip T (l_view y) k])).
      { unfold add_once. destruct (among (ty (strip T (l_view y) k)) once) eqn:M; [|reflexivity]. cbn [andb].
        destruct (existsb (fun k0 => ty k0 =? ty (strip T (l_view y) k)) acc) eqn:X; [exfalso|reflexivity].
        apply existsb_exists in X. destruct X as (z & I & Ez). apply N.eqb_eq in Ez. unfold lone in Hn. rewrite map_app, filter_app in Hn. cbn [map filter] in Hn.
        unfold among in M. rewrite M in Hn. apply NoDup_remove_2 in Hn. apply Hn. apply in_or_app. left. apply filter_In. split; [|exact M].
        rewrite <- Ez. apply in_map, I. }
      rewrite A. cbn [bind]. rewrite (IH fuel _ size _ r Wr); try lia; [rewrite <- app_assoc; reflexivity|]. rewrite <- app_assoc. exact Hn.
Qed.
Lemma lone_view once kids : Forall (kid_ok c y) kids -> lone c once kids -> lone c once (map (strip T (l_view y)) kids).
Proof.
  intros Hk. unfold lone. replace (map ty (map (strip T (l_view y)) kids)) with (map ty kids); [auto|]. rewrite map_map. apply map_ext_in. intros k I.
  rewrite Forall_forall in Hk. symmetry. apply (typed_atype c y dflt F k (Hk k I)).
Qed.
Lemma held_reads once e n kids h : Forall (kid_ok c y) kids -> lone c once kids -> h_size h = n + len (kids_bytes c y kids) -> h_size h < 4294967296 ->
  reads n (held_rd c dflt (add_once c once e) h) (kids_bytes c y kids) (kid_view y kids).
Proof.
  intros Hk Hn E Hs r. unfold held_rd. cbn [inp]. rewrite (held_loop_reads once e kids _ _ _ _ _ Hk); try lia.
  - rewrite w32_small by lia. rewrite <- E. reflexivity.
  - apply lone_view; assumption.
  - pose proof (kids_short c y kids). unfold kids_bytes. rewrite app_length. lia.
Qed.
Hypothesis R : robust c.
Lemma held_loop_good add fuel : (forall acc a, add acc a <> UB /\ add acc a <> Err OutOfFuel) ->
  forall size acc s, bytes (inp s) -> (length (inp s) < fuel)%nat ->
  (held_loop c dflt add fuel size acc s <> UB /\ held_loop c dflt add fuel size acc s <> Err OutOfFuel) /\
  (forall a s', held_loop c dflt add fuel size acc s = Ok (a, s') -> exists p, inp s = p ++ inp s').
Proof.
  intros Ha. induction fuel as [|fuel IH]; intros size acc s Hb Hf; [lia|]. cbn [held_loop]. destruct (rdn s <? size).
  - destruct (box_at_good c dflt R s Hb) as [[A1 A2] A3]. destruct (box_at c dflt s) as [[a s1]|e|]; cbn [bind fst snd].
    + destruct (A3 a s1 eq_refl) as (p & E & P).
      assert (B1 : bytes (inp s1)) by (rewrite E in Hb; apply bytes_app in Hb; tauto).
      assert (L : (length (inp s1) < fuel)%nat).
      { rewrite E, app_length in Hf. unfold len in P. lia. }
      assert (G : forall acc', (held_loop c dflt add fuel size acc' s1 <> UB /\ held_loop c dflt add fuel size acc' s1 <> Err OutOfFuel) /\
        (forall x s', held_loop c dflt add fuel size acc' s1 = Ok (x, s') -> exists q, inp s = q ++ inp s')).
      { intros acc'. destruct (IH size acc' s1 B1 L) as [I1 I2]. split; [exact I1|].
        intros x s' Ex. destruct (I2 x s' Ex) as [q Eq]. exists (p ++ q). rewrite E, Eq, app_assoc. reflexivity. }
      destruct (is_free _); [apply G|]. destruct (Ha acc a) as [Q1 Q2]. destruct (add acc a) as [acc'|e|]; cbn [bind]; [apply G| |congruence].
      split; [split; congruence|discriminate].
    + split; [split; congruence|discriminate].
    + congruence.
  - destruct (rdn s =? size).
    + split; [split; discriminate|]. intros a s' E. injection E as <- <-. exists []. reflexivity.
    + split; [split; discriminate|discriminate].
Qed.
Lemma add_once_good once e acc a : e <> OutOfFuel -> add_once c once e acc a <> UB /\ add_once c once e acc a <> Err OutOfFuel.
Proof. intros D. unfold add_once. destruct (_ && _); split; congruence. Qed.
Lemma held_safe once e h : e <> OutOfFuel -> safe (held_rd c dflt (add_once c once e) h).
Proof. intros D s Hb. apply held_loop_good; [intros; apply add_once_good, D|exact Hb|lia]. Qed.
End Held.

(* ------------------------------------------------------------------ *)
(* the key table                                                       *)

Section Keys.
Context {X : Type} (x : codec X) (y : layout X) (dx : X).
Hypothesis F : faithful x y.
Hypothesis A : apart y.
Lemma apart_from l t : l_ok y t -> (forall u, In u l -> In u [code "keyd"; code "loca"; code "setu"; code "keys"]) -> existsb (N.eqb (c_ty x t)) l = false.
Proof.
  intros Ht Hl. destruct (existsb _ l) eqn:E; [exfalso|reflexivity]. apply existsb_in in E. apply (A t Ht). apply Hl.
  rewrite <- (proj2 (proj2 (proj2 (proj1 F t Ht)))). exact E.
Qed.
Lemma not_known u t : l_ok y t -> In u [code "keyd"; code "loca"; code "setu"; code "keys"] -> (u =? c_ty x t) = false.
Proof.
  intros Ht Hu. destruct (N.eqb_spec u (c_ty x t)) as [E|]; [exfalso|reflexivity]. apply (A t Ht). rewrite <- (proj2 (proj2 (proj2 (proj1 F t Ht)))), <- E. exact Hu.
Qed.
Lemma kkid_faithful : faithful (kkid_codec x) (kkid_layout y).
Proof.
  apply faithful_sum; [apply keyd_faithful|apply faithful_sum; [apply loca_faithful|apply faithful_sum; [apply setu_faithful|exact F|]|]|].
  - intros t Ht. apply not_known; [exact Ht|cbn; auto].
  - intros [b|t] Ht; [reflexivity|]. apply not_known; [exact Ht|cbn; auto].
  - intros [b|[b|t]] Ht; [reflexivity..|]. apply not_known; [exact Ht|cbn; auto].
Qed.
Notation kc := (kkid_codec x). Notation ky := (kkid_layout y).
Lemma len_key k : len (key_bytes x y k) = 8 + len (kids_bytes kc ky (ky_kids k)). Proof. apply len_box. Qed.
Lemma key_size_is k : key_ok x y k -> len (key_bytes x y k) < 4294967296 -> key_size x k = len (key_bytes x y k).
Proof.
  intros (_ & _ & Hk & _) Hl. rewrite len_key in *. unfold key_size. apply (boxes_size_ok kc ky (kdflt dx) kkid_faithful); assumption.
Qed.
Lemma key_w_is k : key_ok x y k -> len (key_bytes x y k) < 4294967296 -> key_w x k = Ok (key_bytes x y k).
Proof.
  intros H Hl. unfold key_w. rewrite (key_size_is k H Hl). destruct H as (H1 & H2 & H3 & H4). rewrite len_key in *. unfold key_bytes, box.
  apply writes_run; [|lens; lia|exact Hl]. rewrite app_assoc. apply writes_seq; [apply writes_base; lia|].
  apply (boxes_writes kc ky (kdflt dx) kkid_faithful); [exact H3|]. unfold kids_bytes in *. lia.
Qed.
Lemma key_at_is k r : key_ok x y k -> len (key_bytes x y k) < 4294967296 ->
  key_at x dx (key_bytes x y k ++ r) = Ok (key_view y k, len (key_bytes x y k), r).
Proof.
  intros (H1 & H2 & H3 & H4) Hl. rewrite len_key in Hl. unfold key_at. unfold key_bytes at 1. rewrite parse_hdr_box by assumption.
  cbn [bind fst snd h_read inp].
  assert (E : key_rd x dx (mkH (8 + len (kids_bytes kc ky (ky_kids k))) 0 (ky_id k) [] 8) (mkR (kids_bytes kc ky (ky_kids k) ++ r) 8) =
    Ok (key_view y k, mkR r (w32 (8 + len (kids_bytes kc ky (ky_kids k)))))).
  { unfold key_rd. apply reads_rmap with (f := mkKey (ky_id k)).
    apply (held_reads kc ky (kdflt dx) kkid_faithful); [exact H3|exact H4|reflexivity|exact Hl]. }
  rewrite E. cbn [bind fst snd inp h_size].
  edestruct (skip_none (mkH (8 + len (kids_bytes kc ky (ky_kids k))) 0 (ky_id k) [] 8) (len (key_bytes x y k ++ r) - len r) r) as [K1 K2].
  { cbn [h_size]. destruct (N.eqb_spec (8 + len (kids_bytes kc ky (ky_kids k))) 1); [lia|]. lens. rewrite len_key. lia. }
  rewrite K1, K2, len_key. reflexivity.
Qed.
Lemma keys_size_is l : Forall (key_ok x y) l -> forall n, n + len (flat_map (key_bytes x y) l) < 4294967296 ->
  fold_left (fun n k => w32 (n + key_size x k)) l n = n + len (flat_map (key_bytes x y) l).
Proof.
  induction 1 as [|k l Hk _ IH]; intros n Hl; cbn [flat_map fold_left] in *; lens; [lia|]. pose proof (len_key k).
  rewrite (key_size_is k Hk) by lia. rewrite w32_small by lia. rewrite IH; lia.
Qed.
Lemma keys_loop_reads l : forall fuel acc size n r, Forall (key_ok x y) l -> NoDup (map ky_id acc ++ map ky_id l) ->
  size = n + len (flat_map (key_bytes x y) l) -> size < 4294967296 -> (length l <= fuel)%nat ->
  keys_loop x dx fuel size acc (mkR (flat_map (key_bytes x y) l ++ r) n) = Ok (acc ++ map (key_view y) l, mkR r size).
Proof.
  induction l as [|k l IH]; intros fuel acc size n r Hk Hn E Hs Hf.
  - cbn [flat_map app map] in *. rewrite len_nil in E.
    destruct fuel; cbn [keys_loop rdn inp]; (destruct (N.ltb_spec n size) as [L|L]; [lia|]); (destruct (N.eqb_spec n size); [|lia]);
      rewrite app_nil_r; replace size with n by lia; reflexivity.
  - inversion_clear Hk as [|? ? Wk Wr]. destruct fuel as [|fuel]; [cbn [length] in Hf; lia|]. cbn [length] in Hf.
    cbn [flat_map] in *. rewrite len_app in E. pose proof (len_key k) as P. cbn [keys_loop rdn inp].
    destruct (N.ltb_spec n size); [|lia]. rewrite <- app_assoc, (key_at_is k _ Wk) by lia. cbn [bind fst snd].
    rewrite w32_small by lia. destruct (N.ltb_spec size (n + len (key_bytes x y k))); [lia|].
    cbn [map] in Hn. assert (D : existsb (fun k' => ky_id k' =? ky_id (key_view y k)) acc = false).
    { destruct (existsb _ acc) eqn:B; [exfalso|reflexivity]. apply existsb_exists in B. destruct B as (z & I & Ez). apply N.eqb_eq in Ez.
      apply NoDup_remove_2 in Hn. apply Hn, in_or_app. left. change (ky_id k) with (ky_id (key_view y k)). rewrite <- Ez. apply in_map, I. }
    rewrite D, (IH fuel _ size _ r Wr); try lia.
    + cbn [map]. rewrite <- app_assoc. reflexivity.
    + rewrite map_app, <- app_assoc. exact Hn.
Qed.
Lemma keys_short l : (length l <= length (flat_map (key_bytes x y) l))%nat.
Proof. induction l as [|k l IH]; [cbn; lia|]. cbn [flat_map length]. rewrite app_length. pose proof (len_key k). unfold len in *. lia. Qed.
Lemma key_le k l : In k l -> len (key_bytes x y k) <= len (flat_map (key_bytes x y) l).
Proof. induction l as [|a l IH]; [intros []|]. cbn [flat_map]. lens. intros [->|I]; [lia|]. specialize (IH I). lia. Qed.
Lemma keys_faithful : faithful (keys_codec x dx) (keys_layout x y).
Proof.
  split; [intros t _; plain|]. intros l (H & Hn) Hl. cbn [keys_codec keys_layout c_size c_w c_rd c_ty l_body l_view l_ok] in *.
  split; [apply keys_size_is; assumption|]. split.
  - apply writes_map. intros k I. pose proof (key_le k l I). rewrite Forall_forall in H. rewrite (key_w_is k) by (auto || lia).
    apply writes_embed. rewrite key_size_is by (auto || lia). reflexivity.
  - intros r. unfold keys_rd. cbn [inp h_size]. rewrite (keys_loop_reads l); try assumption; try reflexivity.
    + rewrite w32_small by exact Hl. reflexivity.
    + rewrite app_length. pose proof (keys_short l). lia.
Qed.
Lemma mkid_faithful : faithful (mkid_codec x dx) (mkid_layout x y).
Proof. apply faithful_sum; [apply keys_faithful|exact F|]. intros t Ht. apply not_known; [exact Ht|cbn; auto]. Qed.
Lemma mebx_faithful : faithful (mebx_codec x dx) (mebx_layout x y dx).
Proof.
  split; [intros t _; plain|]. intros [r d k] (H1 & H2 & H3 & H4) Hl.
  cbn [mebx_codec mebx_layout c_size c_w c_rd c_ty l_body l_view l_ok mx_res mx_dri mx_kids] in *. revert Hl. lens. intros Hl.
  assert (Lk : len (flat_map (kid_enc (mkid_codec x dx) (mkid_layout x y)) k) = len (kids_bytes (mkid_codec x dx) (mkid_layout x y) k)) by reflexivity.
  split; [rewrite (boxes_size_ok _ _ (inr dx) mkid_faithful) by (try exact H3; rewrite Lk; lia); rewrite Lk; lia|].
  split; [unfold mebx_w; cbn [mx_res mx_dri mx_kids]; repeat (apply writes_seq; [wstep|]); apply (boxes_writes _ _ (inr dx) mkid_faithful); [exact H3|rewrite Lk; lia]|].
  unfold mebx_rd. rnext; [apply reads_take; exact H1|]. rewrite H1. change (w32 (8 + 6)) with 14. rnext; [apply reads_of, parses_get16, H2|].
  match goal with |- reads ?n _ _ _ => change n with 16 end.
  rnext; [apply (held_reads _ _ (inr dx) mkid_faithful); [exact H3|exact H4|cbn [h_size]; lens; lia|cbn [h_size]; lens; lia]|].
  apply reads_ret; [apply w32_lt|reflexivity].
Qed.
End Keys.

(* ------------------------------------------------------------------ *)
(* metx, mett                                                          *)
Lemma gets_reads s : text s -> forall room n, (length s < room)%nat -> n < 4294967296 -> reads n (gets room) (cstr s) (cstr s).
Proof.
  unfold cstr. induction 1 as [|b s Hb _ IH]; intros room n Hr Hn; (destruct room as [|room]; [cbn [length] in Hr; lia|]); cbn [gets app length] in *.
  - apply (reads_bind_last _ _ _ _ 0); [apply reads_of, (parses_get8 n 0); lia|]. apply reads_ret; [apply w32_lt|reflexivity].
  - change (b :: s ++ [0]) with ([b] ++ (s ++ [0])). replace [b] with (be8 b) by (unfold be8, w8; rewrite N.mod_small by lia; reflexivity).
    eapply reads_bind; [apply reads_of, parses_get8; lia|]. destruct (N.eqb_spec b 0); [lia|].
    eapply reads_bind_last; [apply IH; [lia|apply w32_lt]|]. apply reads_ret; [apply w32_lt|]. unfold be8, w8. rewrite N.mod_small by lia. reflexivity.
Qed.
Lemma gets_long s r : text s -> forall room n, (room <= length s)%nat -> gets room (mkR (cstr s ++ r) n) = UB.
Proof.
  intros Hs. unfold cstr. induction Hs as [|b s Hb _ IH]; intros room n Hr.
  - cbn [length] in Hr. assert (room = 0)%nat by lia. subst room. reflexivity.
  - destruct room as [|room]; [reflexivity|]. cbn [gets app length] in *. unfold rbind at 1. unfold get8 at 1. cbn [inp rdn].
    destruct (N.eqb_spec b 0); [lia|]. unfold rbind at 1. rewrite IH by lia. reflexivity.
Qed.
Lemma short_str b : short b -> exists s, text s /\ len s < 1024 /\ ostr b = cstr s /\ ostr_len b = len s /\ writes (ostr_w b) (cstr s).
Proof.
  destruct b as [b|]; cbn [short ostr ostr_len ostr_w].
  - intros (s & H1 & H2 & ->). exists s. rewrite (slen_cstr s H1). repeat split; try assumption. apply writes_str, H1.
  - intros _. exists []. repeat split; [constructor|]. apply (writes_put8 0).
Qed.
Lemma str_reads n s h : text s -> len s < 1024 -> n < h_size h -> n < 4294967296 -> reads n (str_if h) (cstr s) (Some (cstr s)).
Proof.
  intros H1 H2 H3 H4. unfold str_if. eapply reads_bind_nil; [intros st Es; unfold getrdn; rewrite Es; reflexivity|].
  destruct (N.ltb_spec n (h_size h)); [|lia]. apply reads_rmap, gets_reads; [exact H1|unfold len in H2; lia|exact H4].
Qed.
Section Meta.
Context {X : Type} (x : codec X) (y : layout X) (dx : X).
Hypothesis F : faithful x y.
Lemma metx_faithful : faithful (metx_codec x dx) (metx_layout x y).
Proof.
  split; [intros t _; plain|]. intros [r d e ns lo k] (H1 & H2 & H3 & H4 & H5 & H6) Hl.
  cbn [metx_codec metx_layout c_size c_w c_rd c_ty l_body l_view l_ok mt_res mt_dri mt_enc mt_ns mt_loc mt_exts] in *.
  destruct (short_str _ H3) as (s1 & A1 & B1 & C1 & D1 & W1). destruct (short_str _ H4) as (s2 & A2 & B2 & C2 & D2 & W2). destruct (short_str _ H5) as (s3 & A3 & B3 & C3 & D3 & W3).
  rewrite C1, C2, C3 in *. unfold metx_size, metx_w, metx_rd. cbn [mt_res mt_dri mt_enc mt_ns mt_loc mt_exts]. rewrite D1, D2, D3.
  revert Hl. lens. rewrite ?len_cstr. intros Hl.
  assert (Lk : len (flat_map (kid_enc x y) k) = len (kids_bytes x y k)) by reflexivity. rewrite w32_small by lia.
  split; [rewrite (boxes_size_ok x y dx F) by (try exact H6; rewrite Lk; lia); rewrite Lk; lia|].
  split; [repeat (apply writes_seq; [wstep || assumption|]); apply (boxes_writes x y dx F); [exact H6|rewrite Lk; lia]|].
  rnext; [apply reads_take; exact H1|]. rewrite H1. change (w32 (8 + 6)) with 14. rnext; [apply reads_of, parses_get16, H2|].
  match goal with |- reads ?n _ _ _ => change n with 16 end.
  rnext; [apply str_reads; try assumption; cbn [h_size]; lens; rewrite ?len_cstr; lia|]. rewrite len_cstr, w32_small by lia.
  rnext; [apply str_reads; try assumption; cbn [h_size]; lens; rewrite ?len_cstr; lia|]. rewrite len_cstr, w32_small by lia.
  rnext; [apply str_reads; try assumption; cbn [h_size]; lens; rewrite ?len_cstr; lia|]. rewrite len_cstr, w32_small by lia.
  rnext; [apply (exts_reads x y dx F); [exact H6|cbn [h_size]; rewrite Lk; lens; rewrite ?len_cstr; lia|cbn [h_size]; lens; rewrite ?len_cstr; lia]|].
  apply reads_ret; [apply w32_lt|reflexivity].
Qed.
Lemma mett_faithful : faithful (mett_codec x dx) (mett_layout x y).
Proof.
  split; [intros t _; plain|]. intros [r d e ns k] (H1 & H2 & H3 & H4 & H6) Hl.
  cbn [mett_codec mett_layout c_size c_w c_rd c_ty l_body l_view l_ok me_res me_dri me_enc me_mime me_exts] in *.
  destruct (short_str _ H3) as (s1 & A1 & B1 & C1 & D1 & W1). destruct (short_str _ H4) as (s2 & A2 & B2 & C2 & D2 & W2).
  rewrite C1, C2 in *. unfold mett_size, mett_w, mett_rd. cbn [me_res me_dri me_enc me_mime me_exts]. rewrite D1, D2.
  revert Hl. lens. rewrite ?len_cstr. intros Hl.
  assert (Lk : len (flat_map (kid_enc x y) k) = len (kids_bytes x y k)) by reflexivity. rewrite w32_small by lia.
  split; [rewrite (boxes_size_ok x y dx F) by (try exact H6; rewrite Lk; lia); rewrite Lk; lia|].
  split; [repeat (apply writes_seq; [wstep || assumption|]); apply (boxes_writes x y dx F); [exact H6|rewrite Lk; lia]|].
  rnext; [apply reads_take; exact H1|]. rewrite H1. change (w32 (8 + 6)) with 14. rnext; [apply reads_of, parses_get16, H2|].
  match goal with |- reads ?n _ _ _ => change n with 16 end.
  rnext; [apply str_reads; try assumption; cbn [h_size]; lens; rewrite ?len_cstr; lia|]. rewrite len_cstr, w32_small by lia.
  rnext; [apply str_reads; try assumption; cbn [h_size]; lens; rewrite ?len_cstr; lia|]. rewrite len_cstr, w32_small by lia.
  rnext; [apply (exts_reads x y dx F); [exact H6|cbn [h_size]; rewrite Lk; lens; rewrite ?len_cstr; lia|cbn [h_size]; lens; rewrite ?len_cstr; lia]|].
  apply reads_ret; [apply w32_lt|reflexivity].
Qed.
Hypothesis A : apart y.
Lemma mentry_faithful : faithful (mentry_codec x dx) (mentry_layout x y dx).
Proof.
  apply faithful_sum; [apply metx_faithful|apply faithful_sum; [apply mett_faithful|apply mebx_faithful; assumption|]|].
  - intros t _. reflexivity.
  - intros [t|t] _; reflexivity.
Qed.
End Meta.

(* ------------------------------------------------------------------ *)
(* adding metadata                                                     *)
Lemma code_ascii a b c d : a < 128 -> b < 128 -> c < 128 -> d < 128 -> char_code a b c d = a * 16777216 + b * 65536 + c * 256 + d.
Proof.
  intros. unfold char_code, sext. repeat match goal with |- context [?v <? 128] => destruct (N.ltb_spec v 128); [|lia] end.
  rewrite !w32_small by lia.
  replace (N.lor (c * 256) d) with (c * 256 + d) by (symmetry; apply (lor_mul 8 c d); change (2 ^ 8) with 256; lia).
  replace (N.lor (a * 16777216) (b * 65536)) with (a * 16777216 + b * 65536) by (symmetry; apply (lor_mul 24 a (b * 65536)); change (2 ^ 24) with 16777216; lia).
  replace (a * 16777216 + b * 65536) with ((a * 256 + b) * 65536) by lia.
  replace (N.lor ((a * 256 + b) * 65536) (c * 256 + d)) with ((a * 256 + b) * 65536 + (c * 256 + d)) by (symmetry; apply (lor_mul 16 (a * 256 + b) (c * 256 + d)); change (2 ^ 16) with 65536; lia).
  lia.
Qed.
Lemma code_high a b c d : 128 <= d < 256 -> a < 256 -> b < 256 -> c < 256 -> char_code a b c d / 256 mod 16777216 = 16777215.
Proof.
  intros H Ha Hb Hc. unfold char_code. unfold sext at 4. destruct (N.ltb_spec d 128); [lia|].
  rewrite N.lor_assoc. match goal with |- N.lor ?p _ / _ mod _ = _ => generalize p end. intros p.
  change 16777216 with (2 ^ 24). change 256 with (2 ^ 8). rewrite <- N.shiftr_div_pow2, <- N.land_ones, N.shiftr_lor.
  replace (N.shiftr (4294967040 + d) 8) with (N.ones 24) by (rewrite N.shiftr_div_pow2; change (2 ^ 8) with 256; change (N.ones 24) with 16777215; lia).
  change 16777215 with (N.ones 24). apply N.bits_inj. intros i. rewrite N.land_spec, N.lor_spec. destruct (N.testbit (N.shiftr p 8) i), (N.testbit (N.ones 24) i); reflexivity.
Qed.
Lemma bytes_of_code a b c d : a < 256 -> b < 256 -> c < 256 -> d < 256 -> be32 (a * 16777216 + b * 65536 + c * 256 + d) = [a; b; c; d].
Proof. intros. unfold be32. f_equal; [lia|f_equal; [lia|f_equal; [lia|f_equal; lia]]]. Qed.
Lemma value_is q : clean q ->
  (do v <- key_value (q_id q) (q_ns q) (q_val q); new_keyd (q_ns q) v) = match value q with Some v => Ok (mkKeyd (q_ns q) v) | None => Err MP4BadParamErr end.
Proof.
  intros (H1 & _ & _ & Hv). unfold key_value, value, new_keyd. rewrite !four_same. destruct (four_bytes (q_ns q)) eqn:F.
  - destruct (q_val q) as [b|].
    + destruct (Hv eq_refl) as [L A]. destruct b as [|b0 [|b1 [|b2 [|b3 r]]]]; try (revert L; lens; lia). cbn [firstn] in A.
      inversion_clear A as [|? ? A0 Ar]. inversion_clear Ar as [|? ? A1 Ar']. inversion_clear Ar' as [|? ? A2 Ar]. inversion_clear Ar as [|? ? A3 _].
      rewrite code_ascii by assumption. destruct (list_eq_dec N.eq_dec _ _) as [E|E].
      * assert (r = []) by (unfold be32 in E; congruence). subst r. unfold be32 in E. injection E as E0 E1 E2 E3.
        destruct (N.eqb_spec (q_id q) (b0 * 16777216 + b1 * 65536 + b2 * 256 + b3)) as [D|D]; [|exfalso; apply D; lia]. reflexivity.
      * destruct (N.eqb_spec (q_id q) (b0 * 16777216 + b1 * 65536 + b2 * 256 + b3)) as [D|D]; [|reflexivity].
        destruct (N.eqb_spec (len (b0 :: b1 :: b2 :: b3 :: r)) 4) as [D'|D']; [exfalso|reflexivity].
        apply E. destruct r; [|revert D'; lens; lia]. rewrite D, bytes_of_code by lia. reflexivity.
    + cbn [bind]. reflexivity.
  - destruct (q_val q) as [[|b r]|]; cbn [bind]; [reflexivity| |reflexivity]. rewrite andb_false_r. cbn [orb].
    destruct (N.eqb_spec (len (b :: r)) 0) as [D|D]; [revert D; lens; lia|reflexivity].
Qed.

(* the first free id *)
Lemma grant_some k ids : forall n a, grant k ids n = Some a -> first_free ids n a.
Proof.
  induction k as [|k IH]; intros n a; cbn [grant]; unfold first_free; destruct (N.ltb_spec n last_id); try discriminate;
    destruct (existsb (N.eqb n) ids) eqn:E.
  - discriminate.
  - intros H'. injection H' as <-. split; [lia|]. split; [intros I; apply existsb_in in I; congruence|lia].
  - intros G. destruct (IH _ _ G) as (G1 & G2 & G3). split; [lia|]. split; [exact G2|]. intros m Hm. destruct (N.eq_dec m n) as [->|D]; [apply existsb_in, E|apply G3; lia].
  - intros H'. injection H' as <-. split; [lia|]. split; [intros I; apply existsb_in in I; congruence|lia].
Qed.
Lemma grant_finds k ids a : forall n, first_free ids n a -> a - n <= N.of_nat k -> grant k ids n = Some a.
Proof.
  induction k as [|k IH]; intros n (G1 & G2 & G3) Hk; cbn [grant]; (destruct (N.ltb_spec n last_id); [|lia]); destruct (existsb (N.eqb n) ids) eqn:E.
  - apply existsb_in in E. assert (a = n) by lia. subst a. contradiction.
  - f_equal. destruct (N.eq_dec n a) as [|D]; [assumption|]. assert (I : In n ids) by (apply G3; lia). apply existsb_in in I. congruence.
  - apply IH; [|lia]. apply existsb_in in E. split; [|split; [exact G2|intros; apply G3; lia]]. assert (n <> a) by congruence. lia.
  - f_equal. destruct (N.eq_dec n a) as [|D]; [assumption|]. assert (I : In n ids) by (apply G3; lia). apply existsb_in in I. congruence.
Qed.
Lemma grant_is ids n a : grant (length ids) ids n = Some a <-> first_free ids n a.
Proof.
  split; [apply grant_some|]. intros H. apply grant_finds; [exact H|]. destruct H as (H1 & _ & H3).
  set (l := map (fun i => n + N.of_nat i) (seq 0 (N.to_nat (a - n)))).
  assert (ND : NoDup l). { apply FinFun.Injective_map_NoDup; [intros i j E; lia|apply seq_NoDup]. }
  assert (I : incl l ids). { intros m Hm. apply in_map_iff in Hm. destruct Hm as (i & <- & Hi). apply in_seq in Hi. apply H3. lia. }
  pose proof (NoDup_incl_length ND I) as L. unfold l in L. rewrite map_length, seq_length in L. lia.
Qed.

Section Calls.
Context {X : Type} (x : codec X) (y : layout X) (dx : X).
Definition key_of (i : item) : mkey (X:=X) :=
  mkKey (it_id i) (ALeaf kkid (inl (mkKeyd (it_ns i) (it_val i))) ::
    match it_loc i with Some s => [ALeaf kkid (inr (inl (Some (cstr s))))] | None => [] end ++
    match it_setup i with Some b => [ALeaf kkid (inr (inr (inl b)))] | None => [] end).
Definition state (dri : N) (its : list item) : mebx (X:=X) := mkMebx (repeat 0 6) dri [ALeaf _ (inl (map key_of its))].
Lemma exists_id its n : existsb (fun k => ky_id k =? n) (map key_of its) = existsb (N.eqb n) (map it_id its).
Proof. induction its as [|i its IH]; [reflexivity|]. cbn [map existsb key_of ky_id]. rewrite IH, N.eqb_sym. reflexivity. Qed.
Lemma search_grant its k : forall n lst, match grant k (map it_id its) n with
  | Some a => search k (map key_of its) n lst = Fresh a
  | None => if n <? last_id then exists m, search k (map key_of its) n lst = Taken m /\ In m (map it_id its) else search k (map key_of its) n lst = lst
  end.
Proof.
  induction k as [|k IH]; intros n lst; cbn [grant search]; fold last_id; rewrite exists_id; (destruct (N.ltb_spec n last_id); [|reflexivity]);
    destruct (existsb (N.eqb n) (map it_id its)) eqn:E; try reflexivity.
  - exists n. split; [reflexivity|apply existsb_in, E].
  - specialize (IH (n + 1) (Taken n)). destruct (grant k (map it_id its) (n + 1)); [exact IH|].
    destruct (N.ltb_spec (n + 1) last_id); [exact IH|]. exists n. split; [exact IH|apply existsb_in, E].
Qed.
Lemma add_declared i d : key_add x (ky_kids (key_of i)) (ALeaf kkid (inl d)) = Err MP4BadDataErr.
Proof. reflexivity. Qed.
Lemma add_is dri its q : clean q ->
  mebx_add x (state dri its) (q_id q) (q_ns q) (q_val q) (q_loc q) (q_setup q) =
  match answer its q with Ok i => Ok (it_id i, state dri (its ++ [i])) | Err e => Err e | UB => UB end.
Proof.
  intros C. pose proof (value_is q C) as V. destruct C as (C1 & C2 & C3 & C4). unfold mebx_add, answer. cbn [state mx_kids table_in]. rewrite map_length.
  pose proof (search_grant its (length its) (q_id q) Nothing) as S.
  destruct (N.eqb_spec (q_id q) last_id) as [E|D].
  - rewrite E in *. destruct (grant _ _ _) as [a|] eqn:G; [apply grant_some in G; destruct G as (G & _); lia|]. change (last_id <? last_id) with false in S. cbn match in S. rewrite S. reflexivity.
  - destruct (N.ltb_spec (q_id q) last_id) as [L|L]; [|unfold last_id in *; lia].
    destruct (value q) as [v|] eqn:Ev.
    + (* the value is accepted *)
      destruct (key_value (q_id q) (q_ns q) (q_val q)) as [v'|e|] eqn:Ek; cbn [bind] in V; try discriminate.
      assert (v' = v). { unfold new_keyd in V. destruct (_ || _); congruence. } subst v'.
      destruct (grant (length its) (map it_id its) (q_id q)) as [a|] eqn:G.
      * rewrite S. cbn [bind]. rewrite V. cbn [bind]. change (key_add x [] ?d) with (Ok [d]). cbn [bind].
        unfold setup_ok. destruct (q_loc q) as [s|], (q_setup q) as [[|b0 b]|]; cbn [bind].
        -- change (key_add x [?d] (ALeaf kkid (inr (inl ?l)))) with (Ok [d; ALeaf kkid (inr (inl l))]). cbn [bind]. destruct (q_ns q =? NS_uiso); reflexivity.
        -- change (key_add x [?d] (ALeaf kkid (inr (inl ?l)))) with (Ok [d; ALeaf kkid (inr (inl l))]). cbn [bind]. change (code "uiso") with NS_uiso.
           destruct (q_ns q =? NS_uiso); cbn [negb]; [reflexivity|]. unfold new_setu. destruct (N.eqb_spec (len (b0 :: b)) 0) as [Z|Z]; [revert Z; lens; lia|]. cbn [bind].
           unfold state, key_of. rewrite map_app. reflexivity.
        -- unfold state, key_of. rewrite map_app. reflexivity.
        -- destruct (q_ns q =? NS_uiso); reflexivity.
        -- change (code "uiso") with NS_uiso.
           destruct (q_ns q =? NS_uiso); cbn [negb]; [reflexivity|]. unfold new_setu. destruct (N.eqb_spec (len (b0 :: b)) 0) as [Z|Z]; [revert Z; lens; lia|]. cbn [bind].
           unfold state, key_of. rewrite map_app. reflexivity.
        -- unfold state, key_of. rewrite map_app. reflexivity.
      * destruct S as (m & S & I). rewrite S. cbn [bind]. rewrite V. cbn [bind].
        destruct (find (fun k => ky_id k =? m) (map key_of its)) as [k|] eqn:Ef.
        -- apply find_some in Ef. destruct Ef as [Ik _]. apply in_map_iff in Ik. destruct Ik as (i & <- & _). rewrite add_declared. reflexivity.
        -- exfalso. apply in_map_iff in I. destruct I as (i & Ei & Ii). pose proof (find_none _ _ Ef (key_of i) (in_map key_of _ _ Ii)) as Z.
           cbn in Z. rewrite Ei, N.eqb_refl in Z. discriminate.
    + assert (Q : forall A (f : list N -> keyd -> res A), (do v <- key_value (q_id q) (q_ns q) (q_val q); do d <- new_keyd (q_ns q) v; f v d) = Err MP4BadParamErr).
      { intros A f. destruct (key_value _ _ _) as [v'|e|]; cbn [bind] in *; try congruence. rewrite V. reflexivity. }
      destruct (grant (length its) (map it_id its) (q_id q)) as [a|] eqn:G; [rewrite S; apply (Q _ (fun _ d => _))|].
      destruct S as (m & S & _). rewrite S. apply (Q _ (fun _ d => _)).
Qed.
Definition item_ok (i : item) : Prop :=
  it_id i < last_id /\ it_ns i < 4294967296 /\ (four_bytes (it_ns i) = true -> len (it_val i) = 4) /\
  match it_loc i with Some s => text s /\ s <> [] | None => True end.
Lemma answer_ok its q i : clean q -> answer its q = Ok i -> item_ok i /\ first_free (map it_id its) (q_id q) (it_id i).
Proof.
  intros (C1 & C2 & C3 & C4). unfold answer. destruct (q_id q =? last_id); [discriminate|]. destruct (value q) as [v|] eqn:V; [|discriminate].
  destruct (grant _ _ _) as [n|] eqn:G; [|discriminate]. destruct (setup_ok q); [|discriminate]. intros E. injection E as <-.
  apply grant_some in G. split; [|exact G]. destruct G as (G & _). split; [apply G|]. split; [exact C2|]. split; [|exact C3]. cbn [it_ns it_val].
  intros F. unfold value in V. rewrite F in V. destruct (q_val q); [destruct (list_eq_dec _ _ _)|]; congruence || injection V as <-; subst; reflexivity.
Qed.
Lemma calls_is dri qs : forall its, Forall clean qs -> Forall item_ok its -> NoDup (map it_id its) ->
  calls x (state dri its) qs = (fst (history its qs), state dri (snd (history its qs))) /\
  Forall item_ok (snd (history its qs)) /\ NoDup (map it_id (snd (history its qs))).
Proof.
  induction qs as [|q qs IH]; intros its Hq Hi Hn; cbn [calls history fst snd]; [auto|]. inversion_clear Hq as [|? ? Cq Cqs].
  rewrite (add_is dri its q Cq). destruct (answer its q) as [i|e|] eqn:A; cbn [fst snd].
  - destruct (answer_ok its q i Cq A) as (I1 & I2 & I3 & _). destruct (IH (its ++ [i]) Cqs) as (J1 & J2 & J3).
    + apply Forall_app. auto.
    + rewrite map_app. cbn [map]. apply NoDup_rev in Hn. rewrite <- (rev_involutive (map it_id its ++ [it_id i])). apply NoDup_rev. rewrite rev_app_distr. cbn [rev app].
      constructor; [|exact Hn]. rewrite <- in_rev. exact I3.
    + rewrite J1. auto.
  - destruct (IH its Cqs Hi Hn) as (J1 & J2 & J3). rewrite J1. auto.
  - auto.
Qed.
Hypothesis F : faithful x y.
Hypothesis A : apart y.
Lemma key_of_ok i : item_ok i -> it_id i <> code "uuid" -> key_ok x y (key_of i) /\ key_bytes x y (key_of i) = item_bytes i /\ key_view y (key_of i) = key_of i.
Proof.
  intros (H1 & H2 & H3 & H4) Hu. assert (it_id i < 4294967296) by (unfold last_id in H1; lia). split; [|split].
  - split; [assumption|]. split; [exact Hu|]. split.
    + cbn [key_of ky_kids]. constructor; [split; assumption|]. apply Forall_app. split.
      * destruct (it_loc i) as [s|]; [|constructor]. constructor; [|constructor]. exists s. tauto.
      * destruct (it_setup i) as [b|]; [|constructor]. constructor; [exact I|constructor].
    + unfold lone. cbn [key_of ky_kids]. destruct (it_loc i), (it_setup i); vm_compute; repeat constructor; cbn; intuition discriminate.
  - unfold key_bytes, item_bytes. cbn [key_of ky_id ky_kids]. unfold kids_bytes. destruct (it_loc i), (it_setup i); cbn [app flat_map]; rewrite ?app_nil_r; reflexivity.
  - unfold key_view, key_of. cbn [ky_id ky_kids]. destruct (it_loc i), (it_setup i); reflexivity.
Qed.
Lemma state_ok dri its : dri < 65536 -> Forall item_ok its -> NoDup (map it_id its) -> ~ In (code "uuid") (map it_id its) ->
  l_ok (mebx_layout x y dx) (state dri its) /\ box (code "mebx") (l_body (mebx_layout x y dx) (state dri its)) = mebx_bytes dri its /\
  l_view (mebx_layout x y dx) (state dri its) = state dri its.
Proof.
  intros Hd Hi Hn Hu.
  assert (K : forall i, In i its -> key_ok x y (key_of i) /\ key_bytes x y (key_of i) = item_bytes i /\ key_view y (key_of i) = key_of i).
  { intros i I. rewrite Forall_forall in Hi. apply key_of_ok; [apply Hi, I|]. intros E. apply Hu. rewrite <- E. apply in_map, I. }
  split; [|split].
  - cbn [mebx_layout l_ok state mx_res mx_dri mx_kids]. split; [reflexivity|]. split; [exact Hd|]. split.
    + constructor; [|constructor]. split.
      * rewrite Forall_map, Forall_forall. intros i I. apply K, I.
      * rewrite map_map. exact Hn.
    + unfold lone. vm_compute. repeat constructor. intros [].
  - cbn [mebx_layout l_body state mx_res mx_dri mx_kids]. unfold mebx_bytes, kids_bytes. cbn [flat_map]. rewrite app_nil_r.
    do 3 f_equal. change (kid_enc _ _ (ALeaf _ (inl ?t))) with (box (code "keys") (flat_map (key_bytes x y) t)). f_equal.
    rewrite !flat_map_concat_map, map_map. f_equal. apply map_ext_in. intros i I. apply K, I.
  - cbn [mebx_layout l_view state mx_res mx_dri mx_kids]. unfold state. f_equal. unfold kid_view. cbn [map filter strip free_box negb mkid_layout lsum l_view keys_layout].
    do 3 f_equal. rewrite map_map. apply map_ext_in. intros i I. apply K, I.
Qed.
Lemma entry_state dri its : dri < 65536 -> Forall item_ok its -> NoDup (map it_id its) -> ~ In (code "uuid") (map it_id its) ->
  let e := EOther (inr (inr (state dri its))) : ent X mentry in
  lasting x y (mentry_codec x dx) (mentry_layout x y dx) e /\ entry_bytes x y (mentry_layout x y dx) e = mebx_bytes dri its /\
  entry_view x y (mentry_layout x y dx) e = e.
Proof.
  intros Hd Hi Hn Hu e. destruct (state_ok dri its Hd Hi Hn Hu) as (S1 & S2 & S3).
  assert (OK : entry_ok x y (mentry_codec x dx) (mentry_layout x y dx) e).
  { split; [reflexivity|]. split; [discriminate|]. split; [exact S1|]. repeat split. }
  assert (V : entry_view x y (mentry_layout x y dx) e = e).
  { unfold e. cbn [entry_view mentry_layout lsum l_view]. rewrite S3. reflexivity. }
  split; [|split; [exact S2|exact V]]. split; [exact OK|]. rewrite V. auto.
Qed.
Lemma config_of i : keyd_of (key_of i) = Some (mkKeyd (it_ns i) (it_val i)) /\ loca_of (key_of i) = option_map (fun s => Some (cstr s)) (it_loc i) /\
  setu_of (key_of i) = it_setup i.
Proof. destruct i as [a b v [s|] [u|]]; repeat split. Qed.
Lemma mentry_dri_is t : l_ok (mentry_layout x y dx) t -> mentry_dri t = dri_at (box (l_ty (mentry_layout x y dx) t) (l_body (mentry_layout x y dx) t)).
Proof.
  destruct t as [t|[t|t]]; cbn [mentry_layout lsum l_ok l_ty l_body mentry_dri metx_layout mett_layout mebx_layout]; intros (H1 & H2 & _); rewrite dri_box by assumption; reflexivity.
Qed.
End Calls.

(* ------------------------------------------------------------------ *)
(* reading any bytes                                                   *)
Section Safe.
Context {X : Type} (x : codec X) (dx : X).
Hypothesis R : robust x.
Lemma rest_safe h : safe (rest_of h).
Proof. unfold rest_of. apply safe_bind; [apply safe_getrdn|intros br]. destruct (_ <? _); [apply safe_err; discriminate|apply safe_take]. Qed.
Lemma keyd_robust : robust keyd_codec.
Proof. intros h. cbn [keyd_codec c_rd]. unfold keyd_rd. apply safe_bind; [apply safe_get32|intros ns]. apply safe_bind; [apply rest_safe|intros v; apply safe_ret]. Qed.
Lemma loca_robust : robust loca_codec.
Proof. intros h. cbn [loca_codec c_rd]. unfold loca_rd. apply safe_bind; [apply rest_safe|intros [|]; apply safe_ret]. Qed.
Lemma setu_robust : robust setu_codec. Proof. intros h. apply rest_safe. Qed.
Lemma kkid_robust : robust (kkid_codec x).
Proof. apply robust_sum; [apply keyd_robust|]. apply robust_sum; [apply loca_robust|]. apply robust_sum; [apply setu_robust|exact R]. Qed.
Lemma key_safe h : safe (key_rd x dx h).
Proof. apply safe_rmap. apply (held_safe _ _ kkid_robust). discriminate. Qed.
Lemma key_at_good i : bytes i -> (key_at x dx i <> UB /\ key_at x dx i <> Err OutOfFuel) /\
  (forall k sz r, key_at x dx i = Ok (k, sz, r) -> exists p, i = p ++ r /\ 8 <= len p).
Proof.
  intros Hb. unfold key_at. destruct (parse_hdr (mkR i 0)) as [[h s]|e|] eqn:E; cbn [bind fst snd].
  2:{ pose proof (proj2 (parse_hdr_tame (mkR i 0))). split; [split; congruence|discriminate]. }
  2:{ pose proof (proj1 (parse_hdr_tame (mkR i 0))). congruence. }
  destruct (parse_hdr_ok i h s Hb E) as (pre & Ei & L1 & L2 & _).
  assert (B : bytes (inp s)) by (rewrite Ei in Hb; apply bytes_app in Hb; tauto).
  destruct (key_safe h (mkR (inp s) (h_read h)) B) as [[K1 K2] K3].
  destruct (key_rd x dx h (mkR (inp s) (h_read h))) as [[k s1]|e|] eqn:Ek; cbn [bind fst snd].
  - split; [split; discriminate|]. intros k' sz r Er. injection Er as <- <- <-. destruct (K3 _ _ eq_refl) as [p Ep]. cbn [inp] in Ep.
    unfold skip_tail. match goal with |- context [skipn ?n _] => generalize n end. intros n.
    exists (pre ++ p ++ firstn n (inp s1)). rewrite <- !app_assoc, firstn_skipn, <- Ep. split; [exact Ei|]. lens. lia.
  - split; [split; congruence|discriminate].
  - congruence.
Qed.
Lemma qt_safe : safe qt_keys.
Proof.
  unfold qt_keys. apply safe_bind; [apply safe_get32|intros _]. apply safe_bind; [apply safe_get32|intros n]. apply safe_bind; [|intros l; apply safe_ret].
  apply safe_rrep. apply safe_bind; [apply safe_get32|intros sz]. apply safe_bind; [apply safe_get32|intros t; apply safe_take].
Qed.
Lemma qt_some s u s' : bytes (inp s) -> qt_keys s = Ok (u, s') -> exists p, inp s = p ++ inp s' /\ 1 <= len p.
Proof.
  intros Hb. unfold qt_keys. unfold rbind at 1. destruct (get32 s) as [[a s1]|e|] eqn:E1; try discriminate. intros H.
  destruct (get32_inv _ _ _ E1) as (p1 & Hi1 & Hl1 & _).
  assert (B1 : bytes (inp s1)) by (rewrite Hi1 in Hb; apply bytes_app in Hb; tauto).
  assert (S : safe (let* n := get32 in let* _ := rrep (N.to_nat n) (let* sz := get32 in let* _ := get32 in take (N.to_nat (sub32 sz 8))) in rret tt)).
  { apply safe_bind; [apply safe_get32|intros n]. apply safe_bind; [|intros l; apply safe_ret].
    apply safe_rrep. apply safe_bind; [apply safe_get32|intros sz]. apply safe_bind; [apply safe_get32|intros t; apply safe_take]. }
  destruct (S s1 B1) as [_ S2]. destruct (S2 _ _ H) as [q Eq]. exists (p1 ++ q). rewrite <- app_assoc, <- Eq. split; [exact Hi1|]. lens. lia.
Qed.
Lemma keys_loop_good fuel : forall size acc s, bytes (inp s) -> (length (inp s) < fuel)%nat ->
  (keys_loop x dx fuel size acc s <> UB /\ keys_loop x dx fuel size acc s <> Err OutOfFuel) /\
  (forall a s', keys_loop x dx fuel size acc s = Ok (a, s') -> exists p, inp s = p ++ inp s').
Proof.
  induction fuel as [|fuel IH]; intros size acc s Hb Hf; [lia|]. cbn [keys_loop]. destruct (rdn s <? size).
  - assert (G : forall acc' s1 p, inp s = p ++ inp s1 -> 1 <= len p ->
      (keys_loop x dx fuel size acc' s1 <> UB /\ keys_loop x dx fuel size acc' s1 <> Err OutOfFuel) /\
      (forall a s', keys_loop x dx fuel size acc' s1 = Ok (a, s') -> exists q, inp s = q ++ inp s')).
    { intros acc' s1 p E P. assert (B1 : bytes (inp s1)) by (rewrite E in Hb; apply bytes_app in Hb; tauto).
      assert (L : (length (inp s1) < fuel)%nat). { rewrite E, app_length in Hf. unfold len in P. lia. }
      destruct (IH size acc' s1 B1 L) as [I1 I2]. split; [exact I1|].
      intros z s' Ez. destruct (I2 z s' Ez) as [q Eq]. exists (p ++ q). rewrite E, Eq, app_assoc. reflexivity. }
    destruct (key_at_good (inp s) Hb) as [[A1 A2] A3]. destruct (key_at x dx (inp s)) as [[[k sz] r]|e|]; cbn [bind fst snd].
    + destruct (A3 k sz r eq_refl) as (p & E & P). destruct (size <? w32 (rdn s + sz)).
      * destruct (qt_safe s Hb) as [[Q1 Q2] _]. destruct (qt_keys s) as [[u s1]|e|] eqn:Eq; cbn [bind fst snd].
        -- destruct (qt_some s u s1 Hb Eq) as (q & E1 & P1). apply (G acc s1 q E1 P1).
        -- split; [split; congruence|discriminate].
        -- congruence.
      * destruct (existsb _ acc); [split; [split; discriminate|discriminate]|]. apply (G _ (mkR r _) p E). lia.
    + split; [split; congruence|discriminate].
    + congruence.
  - destruct (rdn s =? size).
    + split; [split; discriminate|]. intros a s' E. injection E as <- <-. exists []. reflexivity.
    + split; [split; discriminate|discriminate].
Qed.
Lemma keys_robust : robust (keys_codec x dx).
Proof. intros h s Hb. apply keys_loop_good; [exact Hb|lia]. Qed.
Lemma mebx_robust : robust (mebx_codec x dx).
Proof.
  intros h. cbn [mebx_codec c_rd]. unfold mebx_rd. apply safe_bind; [apply safe_take|intros r]. apply safe_bind; [apply safe_get16|intros d].
  apply safe_bind; [|intros l; apply safe_ret]. apply held_safe; [|discriminate]. apply robust_sum; [apply keys_robust|exact R].
Qed.
End Safe.

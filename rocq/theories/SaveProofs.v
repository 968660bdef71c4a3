(* SaveProofs.v *)
From Verif Require Import Base Codec ChunkSpec ChunkModel ChunkProofs SaveSpec SaveModel.

Lemma combine_app_eq {A B} (a1 a2 : list A) (b1 b2 : list B) :
  length a1 = length b1 -> combine (a1 ++ a2) (b1 ++ b2) = combine a1 b1 ++ combine a2 b2.
Proof.
  revert b1. induction a1 as [|x a1 IH]; intros [|y b1] H; try discriminate; [reflexivity|].
  cbn [app combine]. f_equal. apply IH. cbn in H. lia.
Qed.
Lemma combine_repeat {A B} (x : A) (l : list B) : combine (repeat x (length l)) l = map (fun y => (x, y)) l.
Proof. induction l as [|y l IH]; [reflexivity|]. cbn [length repeat combine map]. rewrite IH. reflexivity. Qed.

(* shifting a segment *)
Lemma stco_moved_seg v f a m b base fin off :
  m <> [] -> len a + len m + len b < 4294967296 ->
  stco_moved (mkStco v f (a ++ m ++ b)) (len a + 1) (len a + len m) base fin off =
  Ok (mkStco v f (a ++ map (move1 base fin off) m ++ b)).
Proof.
  intros Hm Hl. unfold stco_moved. cbn [co_list co_ver co_flags]. rewrite !len_app.
  assert (1 <= len m) by (destruct m; [congruence|rewrite len_cons; lia]).
  destruct (N.eqb_spec (len a + 1) 0); [lia|]. destruct (N.ltb_spec (len a + (len m + len b)) (len a + 1)); [lia|].
  destruct (N.eqb_spec (len a + len m) 0); [lia|]. destruct (N.ltb_spec (len a + (len m + len b)) (len a + len m)); [lia|]. cbn [orb].
  replace (N.to_nat (len a + 1 - 1)) with (length a) by (unfold len; lia).
  replace (N.to_nat (len a + len m - (len a + 1 - 1))) with (length m) by (unfold len; lia).
  rewrite firstn_app, firstn_all, Nat.sub_diag, firstn_O, app_nil_r.
  rewrite (skipn_app (length a) a), skipn_all, Nat.sub_diag. cbn [skipn app].
  rewrite (firstn_app (length m) m b), firstn_all, Nat.sub_diag, firstn_O, app_nil_r.
  replace (skipn (length a + length m) (a ++ m ++ b)) with b.
  - reflexivity.
  - rewrite app_assoc, <- app_length, (skipn_app (length (a ++ m)) (a ++ m) b), skipn_all, Nat.sub_diag. reflexivity.
Qed.

Definition move_own (own : N -> bool) base fin off (ch : list chunk) (l : list N) : list N :=
  map (fun p => if own (snd (fst p)) then move1 base fin off (snd p) else snd p) (combine ch l).

Lemma runs_moved_ok es : forall own saved self base fin off v f a b k,
  rising es k -> k < 4294967296 ->
  (es <> [] -> hd_chunk es = len a + 1) -> len a + len b + 1 = k -> (es = [] -> b = []) ->
  (saved <> 0 -> self = own saved) ->
  (forall g s d, In (g, s, d) es -> d <> 0) ->
  runs_moved es (fun d => Ok (own d)) saved self base fin off (mkStco v f (a ++ b)) =
  Ok (mkStco v f (a ++ move_own own base fin off (chunks_of es k) b)).
Proof.
  induction es as [|[[g s] d] es IH]; intros own saved self base fin off v f a b k Hr Hk Hh Hl Hb Hsv Hd.
  - rewrite Hb by reflexivity. reflexivity.
  - assert (Hd1 : d <> 0) by (apply (Hd g s d); left; reflexivity).
    specialize (Hh ltac:(discriminate)). cbn [hd_chunk] in Hh.
    cbn [runs_moved co_list].
    assert (Eb : (if d =? saved then Ok self else Ok (own d)) = Ok (own d)).
    { destruct (N.eqb_spec d saved) as [<-|]; [rewrite Hsv by assumption; reflexivity|reflexivity]. }
    rewrite Eb. cbn [bind].
    (* split b into this run and the rest *)
    assert (E : exists m b', b = m ++ b' /\ chunks_of ((g, s, d) :: es) k = repeat (s, d) (length m) ++ chunks_of es k /\ m <> [] /\
       (es = [] -> b' = []) /\ (es <> [] -> hd_chunk es = len (a ++ m) + 1) /\
       match es with [] => sub32 (w32 (len (a ++ b) + 1)) g | (f2, _, _) :: _ => sub32 f2 g end = len m).
    { destruct es as [|[[g2 s2] d2] es].
      - exists b, []. rewrite app_nil_r. cbn [chunks_of rising] in *. rewrite app_nil_r.
        split; [reflexivity|]. split; [f_equal; unfold len in *; lia|].
        split; [intros ->; unfold len in *; cbn [length] in *; lia|]. split; [reflexivity|]. split; [congruence|].
        rewrite len_app. rewrite w32_small by lia. rewrite sub32_small by lia. lia.
      - destruct Hr as [_ [Hg Hr]]. pose proof (rising_lt _ _ _ _ _ Hr) as Hg2.
        exists (firstn (N.to_nat (g2 - g)) b), (skipn (N.to_nat (g2 - g)) b). rewrite firstn_skipn.
        assert (L : length (firstn (N.to_nat (g2 - g)) b) = N.to_nat (g2 - g)) by (apply firstn_length_le; unfold len in *; lia).
        split; [reflexivity|]. rewrite L. split; [reflexivity|]. split; [intros E; rewrite E in L; cbn in L; lia|].
        split; [discriminate|]. split; [intros _; cbn [hd_chunk]; rewrite len_app; unfold len in *; rewrite L; lia|].
        rewrite sub32_small by lia. unfold len. rewrite L. lia. }
    destruct E as (m & b' & -> & Ec & Hm & He & Hh' & Ek).
    rewrite !len_app in *. rewrite Ec.
    assert (Em : move_own own base fin off (repeat (s, d) (length m) ++ chunks_of es k) (m ++ b') =
       (if own d then map (move1 base fin off) m else m) ++ move_own own base fin off (chunks_of es k) b').
    { unfold move_own. rewrite combine_app_eq by (rewrite repeat_length; reflexivity). rewrite map_app. f_equal.
      rewrite combine_repeat, map_map. cbn [fst snd]. destruct (own d); [reflexivity|apply map_id]. }
    rewrite Em.
    assert (Hres : (if own d then
       stco_moved (mkStco v f (a ++ m ++ b')) g (sub32 (w32 (g + match es with [] => sub32 (w32 (len a + (len m + len b') + 1)) g | (f2, _, _) :: _ => sub32 f2 g end)) 1) base fin off
       else Ok (mkStco v f (a ++ m ++ b'))) = Ok (mkStco v f (a ++ (if own d then map (move1 base fin off) m else m) ++ b'))).
    { destruct (own d); [|reflexivity]. rewrite Ek.
      rewrite w32_small by lia. rewrite sub32_small by lia. subst g.
      replace (len a + 1 + len m - 1) with (len a + len m) by lia.
      apply stco_moved_seg; [exact Hm|lia]. }
    replace (len (a ++ m ++ b')) with (len a + (len m + len b')) by (rewrite !len_app; lia).
    rewrite Hres. cbn [bind]. clear Hres Em Eb Ec Ek.
    assert (Hr' : rising es k).
    { destruct es as [|[[? ?] ?] ?]; [exact I|apply Hr]. }
    rewrite !(app_assoc a).
    rewrite IH with (k := k); try assumption.
    + rewrite <- !app_assoc. reflexivity.
    + intros H. rewrite Hh' by exact H. rewrite len_app. destruct (own d); unfold len; rewrite ?map_length; lia.
    + rewrite len_app. destruct (own d); unfold len in *; rewrite ?map_length; lia.
    + destruct (N.eqb_spec d saved) as [->|]; intros; reflexivity.
    + intros g' s' d' Hin. apply (Hd g' s' d'). right. exact Hin.
Qed.

Definition trk_ok (own : N -> bool) (k : trk) : Prop :=
  table_ok (tk_runs k) (len (co_list (tk_offs k)) + 1) /\
  (forall g s d, In (g, s, d) (tk_runs k) -> d <> 0 /\ tk_self k d = Ok (own d)) /\ tk_saio k = 0.
Definition trk_chunks (k : trk) : list chunk := chunks_of (tk_runs k) (len (co_list (tk_offs k)) + 1).

Lemma runs_moved_ext es f g : (forall x s d, In (x, s, d) es -> f d = g d) -> forall saved self base fin off t,
  runs_moved es f saved self base fin off t = runs_moved es g saved self base fin off t.
Proof.
  induction es as [|[[x s] d] es IH]; intros H; intros; [reflexivity|]. cbn [runs_moved]. rewrite (H x s d (or_introl eq_refl)).
  specialize (IH (fun x' s' d' Hin => H x' s' d' (or_intror Hin))).
  destruct (if d =? saved then Ok self else g d) as [b| |]; cbn [bind]; [|reflexivity|reflexivity].
  match goal with |- context [bind (if b then ?x else ?y) _] => destruct (if b then x else y) end; cbn [bind]; [apply IH|reflexivity|reflexivity].
Qed.

Lemma trk_moved_ok own k base fin off : trk_ok own k ->
  trk_moved base fin off k = Ok (mkTrk (tk_runs k)
    (mkStco (co_ver (tk_offs k)) (co_flags (tk_offs k)) (move_own own base fin off (trk_chunks k) (co_list (tk_offs k)))) (tk_self k) (tk_saio k)).
Proof.
  intros ((Hr & Hk & Hh) & Hs & H0). unfold trk_moved, trk_chunks.
  rewrite (runs_moved_ext _ _ (fun d => Ok (own d)) (fun g s d Hin => proj2 (Hs g s d Hin))).
  assert (Hd : forall g s d, In (g, s, d) (tk_runs k) -> d <> 0) by (intros g s d Hin; apply (Hs g s d Hin)). clear Hs.
  destruct k as [es [v f l] sf n]. cbn [tk_runs tk_offs tk_self tk_saio co_list co_ver co_flags] in *.
  assert (Hn : es = [] -> l = []).
  { intros ->. destruct l; [reflexivity|]. rewrite len_cons in Hh. lia. }
  pose proof (runs_moved_ok es own 0 false base fin off v f [] l (len l + 1) Hr Hk) as P. cbn [app] in P.
  rewrite P; [|intros H; destruct es as [|[[? ?] ?] ?]; [congruence|exact Hh]|unfold len; cbn; lia|exact Hn|congruence|exact Hd].
  cbn [bind]. subst n. reflexivity.
Qed.

Lemma move_own_shift own lo hi off ch l :
  own_inside own lo hi ch l -> (forall x, lo <= x < hi -> (0 <= Z.of_N x + off < 18446744073709551616)%Z) ->
  move_own own lo hi off ch l = shift_own own off ch l.
Proof.
  unfold own_inside, move_own, shift_own. intros H Hx. apply map_ext_in. intros [[s d] x] Hin. rewrite Forall_forall in H.
  specialize (H _ Hin). cbn [fst snd] in *. destruct (own d); [|reflexivity]. specialize (H eq_refl). unfold move1.
  destruct (N.leb_spec lo x); [|lia]. destruct (N.ltb_spec x hi); [|lia]. cbn [andb]. unfold u64_of. specialize (Hx x H).
  rewrite Z.mod_small by lia. reflexivity.
Qed.

Lemma shift_own_length own d ch l : length ch = length l -> length (shift_own own d ch l) = length l.
Proof. intros H. unfold shift_own. rewrite map_length, combine_length. lia. Qed.
Lemma shift_own_inside own d lo hi lo' hi' ch : forall l,
  own_inside own lo hi ch l -> (forall x, lo <= x < hi -> lo' <= Z.to_N (Z.of_N x + d) < hi') ->
  own_inside own lo' hi' ch (shift_own own d ch l).
Proof.
  unfold own_inside, shift_own. induction ch as [|[s e] ch IH]; intros [|x l] H Hx; cbn [combine map]; try constructor.
  - cbn [fst snd]. inversion_clear H as [|? ? H1 H2]. cbn [fst snd] in H1. intros E. rewrite E. apply Hx. auto.
  - apply IH; [inversion H; assumption|exact Hx].
Qed.
Lemma shift_own_back own d ch : forall l, length ch = length l ->
  (forall p, In p (combine ch l) -> own (snd (fst p)) = true -> (0 <= Z.of_N (snd p) + d)%Z) ->
  shift_own own (- d) ch (shift_own own d ch l) = l.
Proof.
  unfold shift_own. induction ch as [|[s e] ch IH]; intros [|x l] H Hx; try discriminate; [reflexivity|].
  cbn [combine map fst snd]. f_equal.
  - destruct (own e) eqn:E; [|reflexivity]. specialize (Hx ((s, e), x) (or_introl eq_refl) E). cbn [snd] in Hx. lia.
  - apply IH; [cbn in H; lia|]. intros p Hp. apply Hx. right. exact Hp.
Qed.

Definition trk_inside (own : N -> bool) (lo hi : N) (k : trk) : Prop :=
  own_inside own lo hi (trk_chunks k) (co_list (tk_offs k)).
Definition trk_shift (own : N -> bool) (d : Z) (k : trk) : trk :=
  mkTrk (tk_runs k) (mkStco (co_ver (tk_offs k)) (co_flags (tk_offs k)) (shift_own own d (trk_chunks k) (co_list (tk_offs k))))
    (tk_self k) (tk_saio k).

Lemma trk_len own k : trk_ok own k -> length (trk_chunks k) = length (co_list (tk_offs k)).
Proof.
  intros ((Hr & Hk & Hh) & _). unfold trk_chunks. destruct (tk_runs k) as [|[[g s] d] es] eqn:E.
  - destruct (co_list (tk_offs k)); [reflexivity|rewrite len_cons in Hh; lia].
  - pose proof (len_chunks _ _ Hr ltac:(discriminate)) as L. subst g. cbn [hd_chunk] in L. unfold len in *. lia.
Qed.
Lemma trk_shift_chunks own d k : trk_ok own k -> trk_chunks (trk_shift own d k) = trk_chunks k.
Proof.
  intros H. pose proof (trk_len own k H) as L. unfold trk_shift, trk_chunks at 1. cbn [tk_runs tk_offs co_list].
  unfold len. rewrite shift_own_length by exact L. reflexivity.
Qed.
Lemma trk_shift_ok own d k : trk_ok own k -> trk_ok own (trk_shift own d k).
Proof.
  intros H. pose proof (trk_len own k H) as L. destruct H as (A & B). split; [|exact B].
  unfold trk_shift. cbn [tk_runs tk_offs co_list]. unfold len. rewrite shift_own_length by exact L. exact A.
Qed.

Lemma trk_moved_shift own lo hi off k : trk_ok own k -> trk_inside own lo hi k ->
  (forall x, lo <= x < hi -> (0 <= Z.of_N x + off < 18446744073709551616)%Z) ->
  trk_moved lo hi off k = Ok (trk_shift own off k).
Proof.
  intros Hk Hi Hx. rewrite (trk_moved_ok own) by exact Hk. unfold trk_shift. rewrite (move_own_shift own) by assumption. reflexivity.
Qed.
(* which descriptions of a track refer to data in this file *)
Definition trk_own (k : trk) (d : N) : bool := match tk_self k d with Ok b => b | _ => false end.
Definition trk_fine (k : trk) : Prop := trk_ok (trk_own k) k.
Definition trk_within (lo hi : N) (k : trk) : Prop := trk_inside (trk_own k) lo hi k.
Definition trk_shifted (d : Z) (k : trk) : trk := trk_shift (trk_own k) d k.
Lemma moov_moved_shift lo hi off ks : Forall trk_fine ks -> Forall (trk_within lo hi) ks ->
  (forall x, lo <= x < hi -> (0 <= Z.of_N x + off < 18446744073709551616)%Z) ->
  moov_moved lo hi off ks = Ok (map (trk_shifted off) ks).
Proof.
  intros Hk Hi Hx. induction ks as [|k ks IH]; [reflexivity|]. inversion_clear Hk. inversion_clear Hi.
  cbn [moov_moved map]. rewrite (trk_moved_shift (trk_own k)) by assumption. cbn [bind]. rewrite IH by assumption. reflexivity.
Qed.
Lemma trk_shift_back own d k : trk_ok own k ->
  (forall p, In p (combine (trk_chunks k) (co_list (tk_offs k))) -> own (snd (fst p)) = true -> (0 <= Z.of_N (snd p) + d)%Z) ->
  trk_shift own (- d) (trk_shift own d k) = k.
Proof.
  intros H Hp. unfold trk_shift at 1. rewrite trk_shift_chunks by exact H. unfold trk_shift. cbn [tk_runs tk_offs tk_self tk_saio co_ver co_flags co_list].
  rewrite shift_own_back; [|apply (trk_len own k H)|exact Hp]. destruct k as [a [b c e] f g]. reflexivity.
Qed.

Lemma trk_shifted_fine d k : trk_fine k -> trk_fine (trk_shifted d k).
Proof. apply trk_shift_ok. Qed.

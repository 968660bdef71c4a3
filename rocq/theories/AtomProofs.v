(* AtomProofs.v *)
From Verif Require Import Base Codec StreamProofs HandleProofs AtomModel AtomSpec.

Lemma parses_get_full n v f : v < 256 -> f < 16777216 -> parses n get_full (be8 v ++ be24 f) (v, f).
Proof.
  intros Hv Hf. unfold get_full.
  replace (be8 v ++ be24 f) with (be32 (v * 16777216 + f)).
  - pnext; [apply parses_get32; lia|]. pnext. f_equal.
    + rewrite N.shiftr_div_pow2. change (2 ^ 24) with 16777216. lia.
    + change 16777215 with (N.ones 24). rewrite N.land_ones. change (2 ^ 24) with 16777216. lia.
  - unfold be32, be8, be24. cbn [app]. f_equal; [lia|]. f_equal; [lia|]. f_equal; [lia|]. f_equal; lia.
Qed.

Lemma byte4_lt a b c d : is_byte a -> is_byte b -> is_byte c -> is_byte d ->
  a * 16777216 + b * 65536 + c * 256 + d < 4294967296.
Proof. unfold is_byte; lia. Qed.

Lemma get32_inv s v s' : get32 s = Ok (v, s') ->
  exists pre, inp s = pre ++ inp s' /\ len pre = 4 /\ (bytes (inp s) -> v < 4294967296).
Proof.
  destruct s as [i n]. unfold get32; cbn [inp rdn]. intros H.
  destruct i as [|a [|b [|c [|d i]]]]; try discriminate. injection H as <- <-.
  exists [a; b; c; d]. repeat split. intros Hb. unfold bytes in Hb.
  repeat match goal with H : Forall _ (_ :: _) |- _ => inversion_clear H end.
  apply byte4_lt; assumption.
Qed.
Lemma take_inv k s d s' : take k s = Ok (d, s') -> inp s = d ++ inp s' /\ length d = k.
Proof.
  unfold take. destruct (Nat.leb_spec k (length (inp s))); [|discriminate].
  intros E; injection E as <- <-. cbn [inp]. split; [symmetry; apply firstn_skipn|].
  apply firstn_length_le; assumption.
Qed.

Lemma sub32_le a b : b <= a -> a < 4294967296 -> sub32 a b = a - b.
Proof. intros; apply sub32_exact; assumption. Qed.

Lemma parse_hdr_ok i h st :
  bytes i -> parse_hdr (mkR i 0) = Ok (h, st) ->
  exists pre, i = pre ++ inp st /\ len pre = h_read h /\ 8 <= h_read h /\
    (h_size h <> 1 -> h_read h <= h_size h /\ h_size h <= len i /\ h_size h < 4294967296).
Proof.
  intros Hb. unfold parse_hdr, rbind at 1.
  destruct (get32 (mkR i 0)) as [[sz s1]| |] eqn:E1; try discriminate.
  destruct (get32_inv _ _ _ E1) as (p1 & Hi1 & Hl1 & Hv1). cbn [inp] in *.
  specialize (Hv1 Hb).
  set (pr := if sz =? 0 then _ else _). 
  assert (Hpr : (fst pr = 1 \/ (fst pr = len (inp s1) + 4 /\ fst pr < 4294967296) \/ (fst pr = sz /\ sz <> 0))).
  { unfold pr; clear pr. destruct (N.eqb_spec sz 0).
    - rewrite shiftr32. destruct (N.ltb_spec (len (inp s1) + 4) 4294967296); cbn [negb fst]; lia.
    - cbn [fst]. lia. }
  destruct pr as [size size64]. cbn [fst] in Hpr.
  destruct (negb (size =? 1) && (len (inp s1) <? sub32 size 4)) eqn:Ec; [discriminate|].
  unfold rbind at 1. destruct (get32 s1) as [[ty s2]| |] eqn:E2; try discriminate.
  destruct (get32_inv _ _ _ E2) as (p2 & Hi2 & Hl2 & _).
  unfold rbind at 1.
  assert (Hu : forall uu s3, (if ty =? T_uuid then take 16 else rret []) s2 = Ok (uu, s3) ->
     exists p, inp s2 = p ++ inp s3 /\ len p = (if ty =? T_uuid then 16 else 0)).
  { intros uu s3. destruct (ty =? T_uuid).
    - intros E. apply take_inv in E. destruct E as [E1' E2']. exists uu. split; [assumption|]. unfold len. rewrite E2'. reflexivity.
    - intros E; injection E as <- <-. exists []. split; reflexivity. }
  destruct ((if ty =? T_uuid then take 16 else rret []) s2) as [[uu s3]| |]; try discriminate.
  destruct (Hu _ _ eq_refl) as (p3 & Hi3 & Hl3). clear Hu.
  unfold rbind at 1.
  assert (Hu : forall v s4, (if size =? 1 then get64 else rret size64) s3 = Ok (v, s4) ->
     exists p, inp s3 = p ++ inp s4 /\ len p = (if size =? 1 then 8 else 0)).
  { intros v s4. destruct (size =? 1).
    - unfold get64, rbind. destruct (get32 s3) as [[x y]| |] eqn:Ex; try discriminate.
      destruct (get32 y) as [[x' y']| |] eqn:Ex'; try discriminate. intros E; injection E as <- <-.
      apply get32_inv in Ex. apply get32_inv in Ex'. destruct Ex as (pa & Ea & La & _), Ex' as (pb & Eb & Lb & _).
      exists (pa ++ pb). rewrite Ea, Eb, app_assoc. split; [reflexivity|]. lens. lia.
    - intros E; injection E as <- <-. exists []. split; reflexivity. }
  destruct ((if size =? 1 then get64 else rret size64) s3) as [[v s4]| |]; try discriminate.
  destruct (Hu _ _ eq_refl) as (p4 & Hi4 & Hl4). clear Hu.
  destruct (negb (size =? 1) && (size <? _)) eqn:Ed; [discriminate|].
  intros E; injection E as <- <-. cbn [h_read h_size].
  exists (p1 ++ p2 ++ p3 ++ p4). split; [rewrite Hi1, Hi2, Hi3, Hi4, !app_assoc; reflexivity|].
  split; [lens; lia|]. split; [lia|].
  intros Hs. assert (Es : size =? 1 = false) by (apply N.eqb_neq; assumption).
  rewrite Es in *. cbn [negb andb] in *.
  assert (Hsz : size < 4294967296) by (destruct Hpr as [?|[[? ?]|[? ?]]]; lia).
  assert (Hge : 8 <= size) by lia.
  rewrite sub32_le in Ec by lia.
  assert (len i = 4 + len (inp s1)) by (rewrite Hi1; lens; lia).
  lia.
Qed.

(* a reader that meets no undefined behaviour and only returns library codes *)
Definition tame {A} (m : rd A) : Prop := forall s, m s <> UB /\ m s <> Err OutOfFuel.
(* on bytes: no undefined behaviour, only library codes, and a success leaves a suffix of the input *)
Definition safe {A} (m : rd A) : Prop := forall s, bytes (inp s) ->
  (m s <> UB /\ m s <> Err OutOfFuel) /\ (forall a s', m s = Ok (a, s') -> exists p, inp s = p ++ inp s').
Lemma safe_of {A} (m : rd A) : consumes m -> tame m -> safe m.
Proof. intros C T s _. split; [apply T|]. intros a s'. apply C. Qed.
Lemma tame_ret {A} (a : A) : tame (rret a). Proof. split; discriminate. Qed.
Lemma tame_bind {A B} (m : rd A) (k : A -> rd B) : tame m -> (forall a, tame (k a)) -> tame (rbind m k).
Proof.
  intros H1 H2 s. unfold rbind. destruct (H1 s) as [U F]. destruct (m s) as [[a s']|e|].
  - apply H2.
  - split; congruence.
  - split; congruence.
Qed.
Lemma tame_take k : tame (take k).
Proof. intros s; unfold take; destruct (Nat.leb _ _); split; discriminate. Qed.
Lemma tame_get8 : tame get8.
Proof. intros [[|a j] n]; unfold get8; cbn [inp]; split; discriminate. Qed.
Lemma tame_get16 : tame get16.
Proof. intros [[|a [|b j]] n]; unfold get16; cbn [inp]; split; discriminate. Qed.
Lemma tame_get32 : tame get32.
Proof. intros [[|a [|b [|c [|d j]]]] n]; unfold get32; cbn [inp]; split; discriminate. Qed.
Lemma tame_get64 : tame get64.
Proof. unfold get64. repeat (apply tame_bind; [apply tame_get32|intros]). apply tame_ret. Qed.
Lemma tame_err {A} e : e <> OutOfFuel -> tame (@rerr A e).
Proof. intros H s. unfold rerr. split; congruence. Qed.
Lemma tame_getrdn : tame getrdn. Proof. split; discriminate. Qed.
Lemma tame_rrep {A} n (m : rd A) : tame m -> tame (rrep n m).
Proof.
  intros H; induction n as [|n IH]; cbn [rrep]; [apply tame_ret|].
  apply tame_bind; [assumption|intros]. apply tame_bind; [assumption|intros]. apply tame_ret.
Qed.

Lemma parse_hdr_tame : tame parse_hdr.
Proof.
  unfold parse_hdr. apply tame_bind; [apply tame_get32|]. intros sz s.
  match goal with |- context [let '(a, b) := ?p in _] => destruct p as [size size64] end.
  destruct (negb (size =? 1) && _); [split; discriminate|].
  revert s. change (tame (let* ty := get32 in
     let* uuid := (if ty =? T_uuid then take 16 else rret []) in
     let* size64 := (if size =? 1 then get64 else rret size64) in
     let parsed := 8 + (if ty =? T_uuid then 16 else 0) + (if size =? 1 then 8 else 0) in
     if negb (size =? 1) && (size <? parsed) then rerr MP4BadDataErr
     else rret (mkH size size64 ty uuid parsed))).
  apply tame_bind; [apply tame_get32|intros ty].
  apply tame_bind; [destruct (ty =? T_uuid); [apply tame_take|apply tame_ret]|intros uu].
  apply tame_bind; [destruct (size =? 1); [apply tame_get64|apply tame_ret]|intros v].
  cbv zeta. destruct (negb (size =? 1) && _); [apply tame_err; discriminate|apply tame_ret].
Qed.

Lemma skip_tail_suffix n l : exists p, l = p ++ skip_tail n l.
Proof. unfold skip_tail. eexists. symmetry. apply firstn_skipn. Qed.
Lemma len_skip_tail n l : len (skip_tail n l) = len l - N.min n (len l).
Proof. unfold skip_tail, len. rewrite skipn_length. lia. Qed.

Section Sums.
Variable L : Type.
Notation atom := (atom L).
Definition sumb (l : list atom) : N := fold_right (fun k n => nboxes L k + n) 0 l.
Definition maxd (l : list atom) : N := fold_right (fun k n => N.max (depth L k) n) 0 l.
Lemma sumb_cons k l : sumb (k :: l) = nboxes L k + sumb l. Proof. reflexivity. Qed.
Lemma maxd_cons k l : maxd (k :: l) = N.max (depth L k) (maxd l). Proof. reflexivity. Qed.
Lemma sumb_app a b : sumb (a ++ b) = sumb a + sumb b.
Proof. induction a as [|x a IH]; cbn [app]; [reflexivity|]. rewrite !sumb_cons, IH. lia. Qed.
Lemma maxd_app a b : maxd (a ++ b) = N.max (maxd a) (maxd b).
Proof. induction a as [|x a IH]; cbn [app]; [change (maxd []) with 0; lia|]. rewrite !maxd_cons, IH. lia. Qed.
Lemma nboxes_boxes ty kids : nboxes L (ABoxes L ty kids) = 1 + sumb kids.
Proof.
  cbn [nboxes]. unfold sumb. induction kids as [|k r IH]; cbn [fold_right]; [reflexivity|]. lia.
Qed.

End Sums.

Section Proofs.
Variable L : Type.
Variable leafP : N -> option (hdr -> rd L).
Variable leafType : L -> N.
Variable dflt : N -> L.
Notation atom := (atom L).
Notation sumb := (sumb L).
Notation maxd := (maxd L).
Notation parse_atom := (parse_atom L leafP leafType dflt).
Notation parse_kids := (parse_kids L leafP leafType dflt).
Notation setup_new := (setup_new L leafType dflt).

(* contract of the box codecs plugged into the tree, for robustness *)
Hypothesis leaf_safe : forall ty p h, leafP ty = Some p -> safe (p h).


Definition body_of (f : nat) (h : hdr) (r : list N) : cm (atom * list N) :=
  if is_container (h_type h) then
     cbind (parse_kids f (h_type h) (h_size h) (h_read h) [] r) (fun kr =>
     cret (0, false) (Ok (ABoxes L (h_type h) (setup_new (h_type h) (fst kr)), snd kr)))
   else cret (0, false)
    (if is_free (h_type h) then
     do (d, st') <- take (N.to_nat (sub32 (h_size h) (h_read h))) (mkR r (h_read h));
     Ok (AFree L (h_type h) d, inp st')
    else match leafP (h_type h) with
     | Some p => do (l, st') <- p h (mkR r (h_read h)); Ok (ALeaf L l, inp st')
     | None =>
         do (d, st') <- take (N.to_nat (sub32 (h_size h) (h_read h))) (mkR r (h_read h));
         Ok (AOpaque L (h_type h) (h_uuid h) d, inp st')
     end).
Lemma parse_atom_S f i : parse_atom (S f) i =
  cbind (cret (1, false) (parse_hdr (mkR i 0))) (fun hs =>
    cbind (body_of f (fst hs) (inp (snd hs))) (fun ar =>
      cret (skip_count (fst hs) (len i - len (snd ar)), h_size (fst hs) =? 1)
        (Ok ((fst ar, h_size (fst hs)), skip_tail (skip_count (fst hs) (len i - len (snd ar))) (snd ar))))).
Proof. reflexivity. Qed.
Lemma parse_kids_S f c size br kids i : parse_kids (S f) c size br kids i =
  if br <? size then
    cbind (parse_atom f i) (fun asr =>
      if is_free (atype L leafType (fst (fst asr))) then parse_kids f c size (w32 (br + snd (fst asr))) kids (snd asr)
      else if slot_used L leafType c kids (atype L leafType (fst (fst asr))) then cret (0, false) (Err (dup_err c))
      else parse_kids f c size (w32 (br + snd (fst asr))) (kids ++ [fst (fst asr)]) (snd asr))
  else cret (0, false) (if br =? size then Ok (kids, i) else Err MP4BadDataErr).
Proof. reflexivity. Qed.

Lemma setup_new_bound c kids :
  sumb (setup_new c kids) <= sumb kids + 5 /\ maxd (setup_new c kids) <= N.max 1 (maxd kids).
Proof.
  unfold setup_new. destruct (c =? T_stbl); [|split; lia].
  assert (G : forall ms ks, sumb (fold_left (fun ks m => if slot_used L leafType c ks m then ks else ks ++ [ALeaf L (dflt m)]) ms ks)
     <= sumb ks + len ms /\
     maxd (fold_left (fun ks m => if slot_used L leafType c ks m then ks else ks ++ [ALeaf L (dflt m)]) ms ks)
     <= N.max 1 (maxd ks)).
  { induction ms as [|m ms IH]; intros ks; cbn [fold_left]; lens; [split; lia|].
    destruct (slot_used L leafType c ks m).
    - specialize (IH ks). lia.
    - specialize (IH (ks ++ [ALeaf L (dflt m)])). rewrite sumb_app, maxd_app in IH.
      change (sumb [ALeaf L (dflt m)]) with 1 in IH. change (maxd [ALeaf L (dflt m)]) with 1 in IH. lia. }
  specialize (G [T_stts; T_stsd; T_stsz; T_stsc; T_stco] kids). cbn [len] in G. lens. exact G.
Qed.

Definition atom_good (i : list N) (r : cm ((atom * N) * list N)) : Prop :=
  snd r <> UB /\ snd r <> Err OutOfFuel /\
  (forall a sz rest, snd r = Ok ((a, sz), rest) ->
     exists pre, i = pre ++ rest /\ 8 <= len pre /\ nboxes L a <= len pre /\
       8 * depth L a <= len pre + 8 /\ (sz <> 1 -> sz <= len pre) /\
       (snd (fst r) = false -> fst (fst r) <= len pre)) /\
  (snd (fst r) = false -> fst (fst r) <= len i + 1).
Definition kids_good (kids : list atom) (i : list N) (r : cm (list atom * list N)) : Prop :=
  snd r <> UB /\ snd r <> Err OutOfFuel /\
  (forall ks rest, snd r = Ok (ks, rest) ->
     exists pre new, i = pre ++ rest /\ ks = kids ++ new /\ sumb new <= len pre /\
       8 * maxd new <= len pre + 8 /\
       (snd (fst r) = false -> fst (fst r) <= len pre)) /\
  (snd (fst r) = false -> fst (fst r) <= len i + 1).

Lemma parse_good : forall f,
  (forall i, bytes i -> (length i < f)%nat -> atom_good i (parse_atom f i)) /\
  (forall c size br kids i, bytes i -> (length i + 1 < f)%nat ->
     kids_good kids i (parse_kids f c size br kids i)).
Proof.
  induction f as [|f [IHa IHk]]; [split; intros; lia|]. split.
  - intros i Hb Hf. rewrite parse_atom_S.
    unfold cbind at 1. cbn [cret snd fst].
    destruct (parse_hdr (mkR i 0)) as [[h st]|e|] eqn:Eh.
    2:{ split; [discriminate|]. split; [intros E; injection E as E; pose proof (parse_hdr_tame (mkR i 0)) as [_ P]; rewrite Eh in P; congruence|].
        split; [intros; discriminate|]. cbn [fst snd]. lia. }
    2:{ pose proof (parse_hdr_tame (mkR i 0)) as [P _]. congruence. }
    cbn [fst snd].
    destruct (parse_hdr_ok _ _ _ Hb Eh) as (pre & Ei & Hl & H8 & Hsz).
    assert (Hbr : bytes (inp st)) by (rewrite Ei in Hb; apply bytes_app in Hb; tauto).
    assert (Hlen : len i = h_read h + len (inp st)) by (rewrite Ei; lens; lia).
    (* the body *)
    set (body := body_of f h (inp st)).
    assert (B : snd body <> UB /\ snd body <> Err OutOfFuel /\
      (forall a r', snd body = Ok (a, r') -> exists q, inp st = q ++ r' /\ nboxes L a <= len q + 8 /\ 8 * depth L a <= len q + 16 /\
          (snd (fst body) = false -> fst (fst body) <= len q)) /\
      (snd (fst body) = false -> fst (fst body) <= len (inp st) + 1)).
    { unfold body, body_of; clear body. destruct (is_container (h_type h)).
      - assert (Hk : (length (inp st) + 1 < f)%nat) by (unfold len in Hlen; lia).
        specialize (IHk (h_type h) (h_size h) (h_read h) [] (inp st) Hbr Hk).
        destruct IHk as (K1 & K2 & K3 & K4). unfold cbind.
        destruct (snd (parse_kids f (h_type h) (h_size h) (h_read h) [] (inp st))) as [[ks rest]|e|] eqn:Ek.
        + unfold cret; cbn [fst snd]. split; [discriminate|]. split; [discriminate|].
          destruct (K3 _ _ eq_refl) as (q & new & Q1 & Q2 & Q3 & Q4 & Q5). cbn [app] in Q2. subst ks.
          split.
          * intros a r' E; injection E as <- <-. exists q. split; [assumption|].
            pose proof (setup_new_bound (h_type h) new) as [S1 S2].
            rewrite nboxes_boxes. cbn [depth]. fold (maxd (setup_new (h_type h) new)).
            split; [lia|]. split; [lia|]. rewrite orb_false_r, N.add_0_r. assumption.
          * rewrite orb_false_r, N.add_0_r. assumption.
        + cbn [fst snd]. split; [discriminate|]. split; [congruence|]. split; [intros; discriminate|]. assumption.
        + congruence.
      - unfold cret. cbn [fst snd].
        assert (O : forall (m : rd (list N)) (k : list N -> atom), (forall d, nboxes L (k d) = 1 /\ depth L (k d) = 1) ->
            tame m -> consumes m ->
            let r := (do (d, st') <- m (mkR (inp st) (h_read h)); Ok (k d, inp st')) in
            r <> UB /\ r <> Err OutOfFuel /\
            (forall a r', r = Ok (a, r') -> exists q, inp st = q ++ r' /\ nboxes L a <= len q + 8 /\ 8 * depth L a <= len q + 16 /\ (false = false -> 0 <= len q)) /\
            (false = false -> 0 <= len (inp st) + 1)).
        { intros m k Hk Ht Hc. cbv zeta. destruct (Ht (mkR (inp st) (h_read h))) as [Hu Ho].
          destruct (m (mkR (inp st) (h_read h))) as [[d s']|e|] eqn:Em; cbn [bind].
          - split; [discriminate|]. split; [discriminate|]. split; [|lia]. intros a r' E; injection E as <- <-.
            destruct (Hc _ _ _ Em) as [q Hq]. exists q. cbn [inp] in Hq. destruct (Hk d). split; [assumption|]. lia.
          - split; [discriminate|]. split; [congruence|]. split; [intros; discriminate|lia].
          - exfalso; apply Hu; reflexivity. }
        destruct (is_free (h_type h)).
        { apply (O (take (N.to_nat (sub32 (h_size h) (h_read h)))) (AFree L (h_type h))).
          - intros; split; reflexivity.
          - apply tame_take.
          - apply consumes_take. }
        destruct (leafP (h_type h)) as [p|] eqn:Ep.
        { destruct (leaf_safe _ _ h Ep (mkR (inp st) (h_read h)) Hbr) as [[Hu Ho] Hcs].
          destruct (p h (mkR (inp st) (h_read h))) as [[l s']|e|] eqn:Em; cbn [bind].
          - split; [discriminate|]. split; [discriminate|]. split; [|lia]. intros a r' E; injection E as <- <-.
            destruct (Hcs _ _ eq_refl) as [q Hq]. exists q. cbn [inp] in Hq.
            cbn [nboxes depth]. split; [assumption|]. lia.
          - split; [discriminate|]. split; [congruence|]. split; [intros; discriminate|lia].
          - exfalso; apply Hu; reflexivity. }
        apply (O (take (N.to_nat (sub32 (h_size h) (h_read h)))) (AOpaque L (h_type h) (h_uuid h))).
        + intros; split; reflexivity.
        + apply tame_take.
        + apply consumes_take. }
    clearbody body. destruct B as (B1 & B2 & B3 & B4). unfold atom_good, cbind, cret.
    destruct body as [[steps large] [[a r']|e|]]; cbn [fst snd] in *.
    + destruct (B3 _ _ eq_refl) as (q & Q1 & Q2 & Q3 & Q4).
      assert (Hlr : len (inp st) = len q + len r') by (rewrite Q1; lens; lia).
      remember (skip_count h (len i - len r')) as n eqn:En.
      destruct (skip_tail_suffix n r') as [t Ht].
      pose proof (len_skip_tail n r') as Lt.
      assert (Hn : h_size h <> 1 -> n <= len r').
      { intros Hs. rewrite En. unfold skip_count. destruct (N.eqb_spec (h_size h) 1); [contradiction|]. specialize (Hsz Hs). lia. }
      assert (Htl : len r' = len t + len (skip_tail n r')) by (transitivity (len (t ++ skip_tail n r')); [f_equal; exact Ht | lens; lia]).
      split; [discriminate|]. split; [discriminate|]. split.
      * intros a0 sz rest E; injection E as <- <- <-. exists (pre ++ q ++ t).
        split; [rewrite <- !app_assoc, <- Ht, <- Q1; assumption|]. lens.
        split; [lia|]. split; [lia|]. split; [lia|]. split.
        -- intros Hs. specialize (Hsz Hs). specialize (Hn Hs).
           unfold skip_count in En. destruct (N.eqb_spec (h_size h) 1); [contradiction|]. lia.
        -- intros Hlg. destruct (N.eqb_spec (h_size h) 1) as [|Hs]; [rewrite !orb_true_r in Hlg; discriminate|].
           specialize (Hn Hs). rewrite orb_false_r in Hlg.
           destruct large; [discriminate|]. specialize (Q4 eq_refl). lia.
      * intros Hlg. destruct (N.eqb_spec (h_size h) 1) as [|Hs]; [rewrite !orb_true_r in Hlg; discriminate|].
        specialize (Hn Hs). rewrite orb_false_r in Hlg. destruct large; [discriminate|].
        specialize (Q4 eq_refl). lia.
    + split; [discriminate|]. split; [congruence|]. split; [intros; discriminate|].
      intros Hlg. destruct large; [discriminate|]. specialize (B4 eq_refl). lia.
    + congruence.
  - intros c size br kids i Hb Hf. rewrite parse_kids_S.
    destruct (br <? size).
    + specialize (IHa i Hb ltac:(lia)). destruct IHa as (A1 & A2 & A3 & A4).
      unfold cbind. destruct (parse_atom f i) as [[st1 lg1] [[[a sz] rest]|e|]] eqn:Ea; cbn [fst snd] in *.
      2:{ split; [discriminate|]. split; [intros E; injection E as E; apply A2; rewrite E; reflexivity|].
          split; [intros; discriminate|]. assumption. }
      2: congruence.
      destruct (A3 _ _ _ eq_refl) as (pre & Ei & H8 & Hn & Hd & _ & Hs).
      assert (Hbr : bytes rest) by (rewrite Ei in Hb; apply bytes_app in Hb; tauto).
      assert (Hlen : len i = len pre + len rest) by (rewrite Ei; lens; lia).
      set (br' := w32 (br + sz)).
      assert (Hf' : (length rest + 1 < f)%nat) by (unfold len in *; lia).
      assert (R : forall kids', (kids' = kids \/ kids' = kids ++ [a]) ->
        kids_good kids i ((st1 + fst (fst (parse_kids f c size br' kids' rest)), lg1 || snd (fst (parse_kids f c size br' kids' rest))),
                          snd (parse_kids f c size br' kids' rest))).
      { intros kids' Hk. destruct (IHk c size br' kids' rest Hbr Hf') as (K1 & K2 & K3 & K4).
        destruct (parse_kids f c size br' kids' rest) as [[st2 lg2] r2]; cbn [fst snd] in *.
        split; [assumption|]. split; [assumption|]. split; cbn [fst snd].
        - intros ks rest' E. destruct (K3 _ _ E) as (q & new & Q1 & Q2 & Q3 & Q4 & Q5).
          exists (pre ++ q). destruct Hk as [-> | ->].
          + exists new. split; [rewrite Ei, Q1, app_assoc; reflexivity|]. split; [assumption|]. lens.
            split; [lia|]. split; [lia|]. intros Hl. apply orb_false_iff in Hl. destruct Hl as [H1 H2].
            specialize (Hs H1). specialize (Q5 H2). lia.
          + exists (a :: new). split; [rewrite Ei, Q1, app_assoc; reflexivity|].
            split; [rewrite Q2, <- app_assoc; reflexivity|]. lens. rewrite sumb_cons, maxd_cons.
            split; [lia|]. split; [lia|]. intros Hl. apply orb_false_iff in Hl. destruct Hl as [H1 H2].
            specialize (Hs H1). specialize (Q5 H2). lia.
        - intros Hl. apply orb_false_iff in Hl. destruct Hl as [H1 H2].
          specialize (Hs H1). specialize (K4 H2). lia. }
      destruct (is_free (atype L leafType a)); [apply R; auto|].
      destruct (slot_used L leafType c kids (atype L leafType a)).
      * unfold cret; cbn [fst snd]. split; [discriminate|]. split; [unfold dup_err; destruct (c =? T_edts); discriminate|].
        split; [intros; discriminate|]. rewrite orb_false_r. cbn [fst snd]. intros Hl. specialize (Hs Hl). lia.
      * apply R; auto.
    + unfold cret. destruct (br =? size); cbn [fst snd].
      * split; [discriminate|]. split; [discriminate|]. split; [|cbn [fst]; lia].
        intros ks rest E. injection E as <- <-. exists [], []. cbn [app]. rewrite app_nil_r. change (sumb []) with 0. change (maxd []) with 0. lens.
        cbn [fst snd]; repeat split; intros; lia.
      * split; [discriminate|]. split; [discriminate|]. split; [intros; discriminate|]. cbn [fst]; lia.
Qed.

(* more fuel changes nothing once there is enough *)
Lemma fuel_mono : forall f,
  (forall i, snd (parse_atom f i) <> Err OutOfFuel -> parse_atom (S f) i = parse_atom f i) /\
  (forall c size br kids i, snd (parse_kids f c size br kids i) <> Err OutOfFuel ->
     parse_kids (S f) c size br kids i = parse_kids f c size br kids i).
Proof.
  induction f as [|f [IHa IHk]].
  - split; [intros i H; exfalso; apply H; reflexivity|].
    intros c size br kids i H. rewrite parse_kids_S. cbn [AtomModel.parse_kids] in *.
    destruct (br <? size); [exfalso; apply H; reflexivity | reflexivity].
  - split.
    + intros i H. rewrite (parse_atom_S (S f)), (parse_atom_S f). rewrite parse_atom_S in H.
      unfold cbind at 1 in H. unfold cbind at 1. unfold cbind at 2.
      unfold cret at 1 in H. unfold cret at 1 3. cbn [fst snd] in *.
      destruct (parse_hdr (mkR i 0)) as [[h st]|e|]; [|reflexivity|reflexivity]. cbn [fst snd] in *.
      assert (B : body_of (S f) h (inp st) = body_of f h (inp st)).
      { unfold body_of in *. destruct (is_container (h_type h)); [|reflexivity].
        rewrite IHk; [reflexivity|]. intros E. apply H. unfold cbind. rewrite E. reflexivity. }
      rewrite B. reflexivity.
    + intros c size br kids i H. rewrite (parse_kids_S (S f)), (parse_kids_S f). rewrite parse_kids_S in H.
      destruct (br <? size); [|reflexivity].
      rewrite IHa by (intros E; apply H; unfold cbind; rewrite E; reflexivity).
      unfold cbind in *. destruct (snd (parse_atom f i)) as [[[a sz] rest]|e|]; [|reflexivity|reflexivity].
      cbn [fst snd] in *.
      destruct (is_free (atype L leafType a)); [rewrite IHk by assumption; reflexivity|].
      destruct (slot_used L leafType c kids (atype L leafType a)); [reflexivity|].
      rewrite IHk by assumption. reflexivity.
Qed.

Lemma fuel_irrelevant i f f' :
  bytes i -> (length i < f)%nat -> (length i < f')%nat -> parse_atom f i = parse_atom f' i.
Proof.
  intros Hb H1 H2.
  assert (G : forall k, parse_atom (S (length i) + k) i = parse_atom (S (length i)) i).
  { induction k as [|k IH]; [rewrite Nat.add_0_r; reflexivity|].
    rewrite <- IH. rewrite Nat.add_succ_r. apply (proj1 (fuel_mono _)).
    destruct (proj1 (parse_good (S (length i) + k)) i Hb ltac:(lia)) as (_ & F & _). exact F. }
  replace f with (S (length i) + (f - S (length i)))%nat by lia.
  replace f' with (S (length i) + (f' - S (length i)))%nat by lia.
  rewrite !G. reflexivity.
Qed.
End Proofs.

(* ------------------------------------------------------------------ *)
(* Round trip                                                          *)

Section AtomInd.
Variable L : Type.
Variable P : atom L -> Prop.
Hypothesis HO : forall ty uu d, P (AOpaque L ty uu d).
Hypothesis HF : forall ty d, P (AFree L ty d).
Hypothesis HL : forall l, P (ALeaf L l).
Hypothesis HB : forall ty kids, Forall P kids -> P (ABoxes L ty kids).
Fixpoint atom_ind' (a : atom L) : P a :=
  match a with
  | AOpaque _ ty uu d => HO ty uu d
  | AFree _ ty d => HF ty d
  | ALeaf _ l => HL l
  | ABoxes _ ty kids => HB ty kids
      ((fix go (ks : list (atom L)) : Forall P ks :=
          match ks with [] => Forall_nil _ | k :: r => Forall_cons k (atom_ind' k) (go r) end) kids)
  end.
End AtomInd.

Lemma len_box ty body : len (box ty body) = 8 + len body.
Proof. unfold box. lens. lia. Qed.

Lemma parse_hdr_box ty body r :
  ty < 4294967296 -> ty <> T_uuid -> 8 + len body < 4294967296 ->
  parse_hdr (mkR (box ty body ++ r) 0) = Ok (mkH (8 + len body) 0 ty [] 8, mkR (body ++ r) 8).
Proof.
  intros Ht Hu Hl. unfold box, parse_hdr. rewrite <- !app_assoc. unfold rbind at 1.
  rewrite (proj1 (parses_get32 0 (8 + len body) Hl)). cbn [inp].
  destruct (N.eqb_spec (8 + len body) 0); [lia|].
  destruct (N.eqb_spec (8 + len body) 1); [lia|]. cbn [negb andb].
  rewrite sub32_le by lia. lens.
  destruct (N.ltb_spec (4 + (len body + len r)) (8 + len body - 4)); [lia|].
  unfold rbind. rewrite (proj1 (parses_get32 _ ty Ht)).
  destruct (N.eqb_spec ty T_uuid); [contradiction|]. unfold rret.
  destruct (N.ltb_spec (8 + len body) (8 + 0 + 0)); [lia|]. lens. reflexivity.
Qed.
Lemma parse_hdr_uuid uu d r :
  len uu = 16 -> 8 + len (uu ++ d) < 4294967296 ->
  parse_hdr (mkR (box T_uuid (uu ++ d) ++ r) 0) = Ok (mkH (8 + len (uu ++ d)) 0 T_uuid uu 24, mkR (d ++ r) 24).
Proof.
  intros Hu Hl. unfold box, parse_hdr. rewrite <- !app_assoc. unfold rbind at 1.
  rewrite (proj1 (parses_get32 0 (8 + len (uu ++ d)) Hl)). cbn [inp]. lens.
  destruct (N.eqb_spec (8 + (len uu + len d)) 0); [lia|].
  destruct (N.eqb_spec (8 + (len uu + len d)) 1); [lia|]. cbn [negb andb].
  rewrite sub32_le by lia.
  destruct (N.ltb_spec (4 + (len uu + (len d + len r))) (8 + (len uu + len d) - 4)); [lia|].
  unfold rbind. rewrite (proj1 (parses_get32 _ T_uuid ltac:(vm_compute; reflexivity))).
  rewrite N.eqb_refl.
  rewrite (proj1 (parses_take_eq _ 16 uu ltac:(unfold len in Hu; lia))). unfold rret.
  destruct (N.ltb_spec (8 + (len uu + len d)) (8 + 16 + 0)); [lia|]. rewrite Hu. reflexivity.
Qed.

Lemma is_container_lt ty : is_container ty = true -> ty < 4294967296 /\ ty <> T_uuid /\ is_free ty = false.
Proof.
  unfold is_container. intros H. apply existsb_exists in H. destruct H as (x & Hx & E).
  apply N.eqb_eq in E. subst x.
  repeat (destruct Hx as [<-|Hx]; [vm_compute; repeat split; congruence|]). destruct Hx.
Qed.
Lemma is_free_lt ty : is_free ty = true -> ty < 4294967296 /\ ty <> T_uuid /\ is_container ty = false.
Proof.
  unfold is_free. intros H. apply orb_true_iff in H. rewrite !N.eqb_eq in H.
  destruct H; subst ty; vm_compute; repeat split; congruence.
Qed.

Lemma fold_add_w32 (ws : list (N * N)) acc :
  acc + fold_right (fun p s => snd p + s) 0 ws < 4294967296 ->
  fold_left (fun acc p => w32 (acc + snd p)) ws acc = acc + fold_right (fun p s => snd p + s) 0 ws.
Proof.
  revert acc; induction ws as [|p ws IH]; intros acc H; cbn [fold_left fold_right] in *; [lia|].
  rewrite w32_small by lia. rewrite IH by lia. lia.
Qed.

Lemma filter_none {A} (f : A -> bool) l : Forall (fun x => f x = false) l -> filter f l = [].
Proof. induction 1; cbn [filter]; [reflexivity|]. rewrite H. assumption. Qed.
Lemma writes_embed sz b : len b = sz -> writes (embed sz (Ok b)) b.
Proof.
  intros <- s H Hs. unfold embed. rewrite w32_small by lia.
  destruct (N.ltb_spec (wsz s) (len (wout s) + len b)); [lia|]. reflexivity.
Qed.

Lemma writes_base size ty : size <> 1 -> writes (write_base size 0 ty) (be32 size ++ be32 ty).
Proof.
  intros H. unfold write_base. destruct (N.eqb_spec size 1); [contradiction|].
  eapply writes_eq; [wstep|]. rewrite app_nil_r. reflexivity.
Qed.

Lemma skip_none h n r : (if h_size h =? 1 then h_size64 h else h_size h) <= n -> skip_count h n = 0 /\ skip_tail 0 r = r.
Proof.
  intros H. split.
  - unfold skip_count. destruct (h_size h =? 1); lia.
  - unfold skip_tail. rewrite N.min_0_l. reflexivity.
Qed.

(* the specification's lists and the code's *)
Fixpoint slots_distinct (c : N) (tys : list N) : Prop :=
  match tys with
  | [] => True
  | t :: r => (forall m, slot c t = Some m -> Forall (fun t' => slot c t' <> Some m) r) /\ slots_distinct c r
  end.
Lemma holds_is ty : holds_boxes ty = is_container ty.
Proof. reflexivity. Qed.
Lemma free_is ty : free_type ty = is_free ty.
Proof. unfold free_type, one_of, is_free. cbn [existsb]. rewrite orb_false_r. reflexivity. Qed.
Lemma slot_group_of c gs t m :
  (forall k, slot c k = match find (fun p => one_of k (snd p)) gs with Some p => Some (fst p) | None => None end) ->
  map snd gs = single c -> NoDup (map fst gs) -> slot c t = Some m ->
  exists g, In g (single c) /\ one_of t g = true /\ forall t', slot c t' = Some m -> one_of t' g = true.
Proof.
  intros E1 E2 E3 H. rewrite E1 in H.
  destruct (find (fun p => one_of t (snd p)) gs) as [[a g]|] eqn:F; [|discriminate].
  cbn in H. injection H as ->. apply find_some in F. destruct F as [F1 F2]. cbn in F2.
  exists g. split; [rewrite <- E2; apply in_map_iff; exists (m, g); auto|]. split; [exact F2|].
  intros t' H'. rewrite E1 in H'.
  destruct (find (fun p => one_of t' (snd p)) gs) as [[a' g']|] eqn:F'; [|discriminate].
  cbn in H'. injection H' as ->. apply find_some in F'. destruct F' as [F1' F2']. cbn in F2'.
  assert (g = g'); [|subst; assumption].
  clear - E3 F1 F1'. induction gs as [|[x y] r IH]; [destruct F1|].
  cbn in E3. apply NoDup_cons_iff in E3. destruct E3 as [N1 N2].
  destruct F1 as [F1|F1], F1' as [F1'|F1'].
  - congruence.
  - injection F1 as -> ->. elim N1. apply in_map_iff. exists (m, g'). auto.
  - injection F1' as -> ->. elim N1. apply in_map_iff. exists (m, g). auto.
  - auto.
Qed.
Ltac keys k l := match l with
  | ?x :: ?r => destruct (N.eqb_spec k x); [subst; reflexivity|]; keys k r
  | [] => idtac end.
Ltac shut := cbv -[N.eqb]; repeat match goal with
  | H : ?k <> ?x |- context[?k =? ?x] => rewrite (proj2 (N.eqb_neq k x) H)
  | |- context[?a =? ?b] => let v := eval vm_compute in (a =? b) in
      match v with true => change (a =? b) with true | false => change (a =? b) with false end
  end; reflexivity.
Ltac group c ms := let gs := eval vm_compute in (combine ms (single c)) in apply (slot_group_of c gs);
  [ let k := fresh "k" in intros k;
    let l := eval vm_compute in (flat_map (map code) (single c)) in keys k l; shut
  | reflexivity
  | vm_compute; repeat (constructor; [cbn; intuition discriminate|]); constructor
  | assumption ].
Lemma slot_group c t m : slot c t = Some m -> exists g, In g (single c) /\ one_of t g = true /\
  forall t', slot c t' = Some m -> one_of t' g = true.
Proof.
  intros H.
  destruct (N.eqb_spec c T_dinf); [subst; group T_dinf [T_dref]|].
  destruct (N.eqb_spec c T_edts); [subst; group T_edts [T_elst]|].
  destruct (N.eqb_spec c T_mdia); [subst; group T_mdia [T_mdhd; T_elng; T_hdlr; T_minf]|].
  destruct (N.eqb_spec c T_minf); [subst; group T_minf [T_mdhd; T_dinf; T_stbl]|].
  destruct (N.eqb_spec c T_moov); [subst; group T_moov [T_iods; T_mvhd; T_udta; T_meta; T_meco; T_mvex]|].
  destruct (N.eqb_spec c T_trak); [subst; group T_trak [T_tkhd; T_edts; T_udta; T_tref; T_trgr; T_mdia; T_meta; T_meco]|].
  destruct (N.eqb_spec c T_stbl); [subst; group T_stbl [T_stts; T_ctts; T_cslg; T_stss; T_stsd; T_stsz; T_stsc; T_stco; T_stsh; T_stdp; T_padb; T_sdtp]|].
  destruct (N.eqb_spec c T_rinf); [subst; group T_rinf [T_frma; T_schm; T_schi]|].
  destruct (N.eqb_spec c T_jp2h); [subst; group T_jp2h [T_ihdr; T_bpcc; T_colr]|].
  exfalso. unfold slot in H.
  rewrite ?(proj2 (N.eqb_neq c _)) in H by assumption. discriminate.
Qed.
Lemma singles_slots c tys : singles_ok c tys -> slots_distinct c tys.
Proof.
  induction tys as [|t r IH]; intros H; [exact I|]. destruct H as [H1 H2]. split; [|auto].
  intros m Hm. destruct (slot_group _ _ _ Hm) as (g & G1 & G2 & G3).
  eapply Forall_impl; [|exact (H1 g G1 G2)]. cbn. intros t' E E'. rewrite (G3 _ E') in E. discriminate.
Qed.
Lemma mandatory_slot g m : In (m, g) (combine [T_stts; T_stsd; T_stsz; T_stsc; T_stco] mandatory) ->
  forall t, one_of t g = true -> slot T_stbl t = Some m.
Proof.
  intros H t E. unfold one_of in E. apply existsb_exists in E. destruct E as (s & Hs & E). apply N.eqb_eq in E. subst t.
  cbn in H. repeat (destruct H as [H|H]; [injection H as <- <-; cbn in Hs;
    repeat (destruct Hs as [<-|Hs]; [reflexivity|]); destruct Hs|]). destruct H.
Qed.

Ltac spec_types := repeat match goal with
  | H : context[holds_boxes _] |- _ => rewrite holds_is in H
  | H : context[free_type _] |- _ => rewrite free_is in H
  | H : context[code ?s] |- _ => change (code s) with T_uuid in H
  end.
Section RoundTrip.
Variable L : Type.
Variable leafP : N -> option (hdr -> rd L).
Variable leafType : L -> N.
Variable leafSize : L -> N.
Variable leafW : L -> wr.
Variable dflt : N -> L.
Variable leafBody : L -> list N.
Variable leafView : L -> L.
Variable leafKnown : N -> bool.
Variable leafOk : L -> Prop.
Notation atom := (atom L).
Notation parse_atom := (parse_atom L leafP leafType dflt).
Notation parse_kids := (parse_kids L leafP leafType dflt).
Notation setup_new := (setup_new L leafType dflt).
Notation atype := (atype L leafType).
Notation enc := (enc L leafType leafBody).
Notation strip := (strip L leafView).
Notation wf := (wf L leafType leafKnown leafOk).
Notation asize := (asize L leafType leafSize).
Notation awrite := (awrite L leafType leafSize leafW).
Notation free_box := (free_box L).

Hypothesis leaf_known : forall ty, leafKnown ty = false -> leafP ty = None.
Hypothesis leaf_type : forall l, leafOk l ->
  leafType l < 4294967296 /\ leafType l <> T_uuid /\ is_container (leafType l) = false /\
  is_free (leafType l) = false /\ leafType (leafView l) = leafType l.
Hypothesis leaf_write : forall l, leafOk l -> 8 + len (leafBody l) < 4294967296 ->
  leafSize l = 8 + len (leafBody l) /\ writes (leafW l) (leafBody l).
Hypothesis leaf_parse : forall l r, leafOk l -> 8 + len (leafBody l) < 4294967296 ->
  exists p n, leafP (leafType l) = Some p /\
    p (mkH (8 + len (leafBody l)) 0 (leafType l) [] 8) (mkR (leafBody l ++ r) 8) = Ok (leafView l, mkR r n).

Lemma wf_kids ty kids : wf (ABoxes L ty kids) ->
  is_container ty = true /\ Forall wf kids /\
  slots_distinct ty (map atype (filter (fun k => negb (free_box k)) kids)) /\
  (ty = T_stbl -> Forall (fun k => atype k <> T_saiz /\ atype k <> T_saio) kids /\
         forall m, In m [T_stts; T_stsd; T_stsz; T_stsc; T_stco] ->
           exists k, In k kids /\ slot T_stbl (atype k) = Some m).
Proof.
  cbn [AtomSpec.wf]. intros (H1 & H2 & H3 & H4). split; [rewrite <- holds_is; assumption|].
  split; [|split; [apply singles_slots; assumption|]].
  - clear H3 H4. induction kids as [|k r IH]; constructor; [apply H2 | apply IH, H2].
  - intros E. destruct (H4 E) as [H5 H6]. split; [exact H5|]. clear - H6.
    intros m Hm. rewrite Forall_forall in H6.
    assert (Hg : exists g, In (m, g) (combine [T_stts; T_stsd; T_stsz; T_stsc; T_stco] mandatory)).
    { cbn in Hm. repeat (destruct Hm as [<-|Hm]; [eexists; cbn; auto 6|]). destruct Hm. }
    destruct Hg as [g Hg]. pose proof (in_combine_r _ _ _ _ Hg) as Hi.
    destruct (H6 g Hi) as (k & K1 & K2). exists k. split; [exact K1|]. exact (mandatory_slot _ _ Hg _ K2).
Qed.

Lemma atype_facts a : wf a -> atype a < 4294967296 /\ is_free (atype a) = free_box a /\ atype (strip a) = atype a.
Proof.
  destruct a as [ty uu d|ty d|l|ty kids]; intros H.
  - cbn [AtomSpec.wf AtomModel.atype AtomSpec.free_box AtomSpec.strip] in *. spec_types. tauto.
  - cbn [AtomSpec.wf AtomModel.atype AtomSpec.free_box AtomSpec.strip] in *. spec_types. destruct H as [H _].
    split; [apply is_free_lt; assumption|]. auto.
  - cbn [AtomSpec.wf AtomModel.atype AtomSpec.free_box AtomSpec.strip] in *. spec_types.
    destruct (leaf_type _ H) as (A & B & C & D & E). auto.
  - apply wf_kids in H. cbn [AtomModel.atype AtomSpec.free_box AtomSpec.strip].
    destruct (is_container_lt _ (proj1 H)) as (A & B & C). auto.
Qed.
Lemma free_strip a : free_box (strip a) = free_box a.
Proof. destruct a; reflexivity. Qed.

(* sizes and bytes written *)
Lemma no_aux {B} ty kids (g : atom -> B) : Forall wf kids ->
  (ty = T_stbl -> Forall (fun k => atype k <> T_saiz /\ atype k <> T_saio) kids) ->
  let sz := map (fun k => (atype k, g k)) kids in
  (if ty =? T_stbl then sz ++ filter (fun p => fst p =? T_saiz) sz ++ filter (fun p => fst p =? T_saio) sz else sz) = sz.
Proof.
  intros _ H sz. destruct (N.eqb_spec ty T_stbl) as [E|]; [|reflexivity].
  specialize (H E). unfold sz.
  rewrite !(filter_none _ (map _ kids)).
  - rewrite !app_nil_r. reflexivity.
  - rewrite Forall_map. eapply Forall_impl; [|exact H]. intros k [A B']. cbn [fst]. apply N.eqb_neq; assumption.
  - rewrite Forall_map. eapply Forall_impl; [|exact H]. intros k [A B']. cbn [fst]. apply N.eqb_neq; assumption.
Qed.

Lemma write_enc a : wf a -> len (enc a) < 4294967296 -> asize a = len (enc a) /\ awrite a = Ok (enc a).
Proof.
  induction a as [ty uu d|ty d|l|ty kids IH] using atom_ind'; intros Hw Hl.
  - cbn [AtomSpec.wf AtomSpec.enc AtomModel.asize AtomModel.awrite] in *. spec_types. rewrite len_box in Hl. rewrite len_box. lens.
    destruct Hw as (H1 & H2 & H3 & H4 & H5 & H6 & H7).
    assert (Es : w32 ((if ty =? T_uuid then 24 else 8) + len d) = 8 + (len uu + len d)).
    { rewrite H5 in *. rewrite w32_small; destruct (ty =? T_uuid); lia. }
    split; [assumption|]. rewrite Es. apply writes_run; [|rewrite len_box; lens; lia|lia].
    eapply writes_eq; [eapply writes_seq; [apply writes_base; lia|eapply writes_seq; [|apply writes_putl]]|].
    + instantiate (1 := uu). destruct (ty =? T_uuid); [apply writes_putl|].
      apply len_0 in H5. subst uu. apply writes_ret.
    + unfold box. lens. rewrite <- !app_assoc. reflexivity.
  - cbn [AtomSpec.wf AtomSpec.enc AtomModel.asize AtomModel.awrite] in *. spec_types. rewrite len_box in Hl. rewrite len_box.
    rewrite w32_small by lia. split; [reflexivity|]. apply writes_run; [|rewrite len_box; lia|lia].
    eapply writes_eq; [eapply writes_seq; [apply writes_base; lia|apply writes_putl]|].
    unfold box. rewrite <- !app_assoc. reflexivity.
  - cbn [AtomSpec.wf AtomSpec.enc AtomModel.asize AtomModel.awrite] in *. spec_types. rewrite len_box in Hl. rewrite len_box.
    destruct (leaf_write _ Hw Hl) as [E W]. rewrite E. split; [reflexivity|].
    apply writes_run; [|rewrite len_box; lia|lia].
    eapply writes_eq; [eapply writes_seq; [apply writes_base; lia|exact W]|].
    unfold box. rewrite <- !app_assoc. reflexivity.
  - destruct (wf_kids _ _ Hw) as (H1 & H2 & H3 & H4).
    cbn [AtomSpec.enc AtomModel.asize AtomModel.awrite] in *. rewrite len_box in Hl. rewrite len_box.
    assert (K : Forall (fun a => asize a = len (enc a) /\ awrite a = Ok (enc a)) kids).
    { assert (Hall : Forall (fun a => len (enc a) < 4294967296) kids).
      { clear - Hl. induction kids as [|k r IHr]; constructor; cbn [flat_map] in Hl; lens; [lia|apply IHr; lia]. }
      clear - IH H2 Hall. induction kids as [|k r IHr]; constructor;
        inversion_clear IH; inversion_clear H2; inversion_clear Hall; auto. }
    pose proof (no_aux ty kids asize H2 (fun e => proj1 (H4 e))) as E1. cbv zeta in E1. rewrite E1. clear E1.
    assert (S : fold_right (fun p s => snd p + s) 0 (map (fun k => (atype k, asize k)) kids) = len (flat_map enc kids)).
    { clear - K. induction K as [|k r [Hk _] Hr IHr]; cbn [map fold_right flat_map]; [reflexivity|]. lens. cbn [snd]. lia. }
    rewrite fold_add_w32 by (rewrite S; lia). rewrite S. split; [reflexivity|].
    pose proof (no_aux ty kids (fun k => (asize k, awrite k)) H2 (fun e => proj1 (H4 e))) as E1. cbv zeta in E1. rewrite E1. clear E1.
    apply writes_run; [|rewrite len_box; lia|lia].
    eapply writes_eq; [eapply writes_seq; [apply writes_base; lia|]|].
    + instantiate (1 := flat_map enc kids). clear - K.
      induction K as [|k r [K1 K2] Hr IHr]; cbn [map wmap flat_map]; [apply writes_ret|].
      apply writes_seq; [cbn [fst snd]; rewrite K1, K2; apply writes_embed; reflexivity|exact IHr].
    + unfold box. rewrite <- !app_assoc. reflexivity.
Qed.

(* reading *)
Lemma slot_used_false c acc t tys :
  slots_distinct c (map atype acc ++ t :: tys) -> slot_used L leafType c acc t = false.
Proof.
  intros H. unfold slot_used. destruct (slot c t) as [m|] eqn:Em; [|reflexivity].
  induction acc as [|a acc IH]; cbn [existsb]; [reflexivity|].
  cbn [map app slots_distinct] in H. destruct H as [H1 H2]. rewrite (IH H2).
  destruct (slot c (atype a)) as [m'|] eqn:Ea; [|reflexivity].
  destruct (N.eqb_spec m' m) as [->|]; [|reflexivity].
  specialize (H1 _ eq_refl). rewrite Forall_app in H1. destruct H1 as [_ H1]. inversion_clear H1. congruence.
Qed.

Lemma setup_new_full c kids :
  (c = T_stbl -> forall m, In m [T_stts; T_stsd; T_stsz; T_stsc; T_stco] ->
           exists k, In k kids /\ slot T_stbl (atype k) = Some m) ->
  setup_new c kids = kids.
Proof.
  intros H. unfold AtomModel.setup_new. destruct (N.eqb_spec c T_stbl) as [->|]; [|reflexivity].
  specialize (H eq_refl).
  assert (U : forall m, In m [T_stts; T_stsd; T_stsz; T_stsc; T_stco] -> slot_used L leafType T_stbl kids m = true).
  { intros m Hm. destruct (H m Hm) as (k & Hk & Ek). unfold slot_used.
    assert (Em : slot T_stbl m = Some m).
    { repeat (destruct Hm as [<-|Hm]; [reflexivity|]). destruct Hm. }
    rewrite Em. apply existsb_exists. exists k. split; [assumption|]. rewrite Ek. apply N.eqb_refl. }
  cbn [fold_left]. rewrite !U by (cbn [In]; auto 10). reflexivity.
Qed.

Lemma parse_enc a : forall f r, wf a -> len (enc a) < 4294967296 -> (length (enc a ++ r) < f)%nat ->
  snd (parse_atom f (enc a ++ r)) = Ok ((strip a, len (enc a)), r) /\
  fst (fst (parse_atom f (enc a ++ r))) = nboxes L a.
Proof.
  induction a as [ty uu d|ty d|l|ty kids IH] using atom_ind'; intros f r Hw Hl Hf;
    (destruct f as [|f]; [lia|]).
  - rewrite parse_atom_S. cbn [AtomSpec.wf AtomSpec.enc AtomSpec.strip] in *. spec_types. rewrite len_box in Hl.
    destruct Hw as (H1 & H2 & H3 & H4 & H5 & H6 & H7).
    destruct (N.eqb_spec ty T_uuid) as [->|Hu].
    + unfold cret, cbind. cbn [fst snd]. rewrite parse_hdr_uuid by assumption. cbn [fst snd inp].
      unfold body_of. cbn [h_type]. rewrite H2, H3, (leaf_known _ H4). cbn [h_size h_read h_uuid].
      rewrite sub32_le by (lens; lia).
      rewrite (proj1 (parses_take_eq 24 (N.to_nat (8 + len (uu ++ d) - 24)) d ltac:(lens; unfold len in *; lia))).
      unfold cret. cbn [bind fst snd inp].
      edestruct (skip_none (mkH (8 + len (uu ++ d)) 0 T_uuid uu 24) (len (box T_uuid (uu ++ d) ++ r) - len r) r) as [K1 K2].
      { cbn [h_size]. destruct (N.eqb_spec (8 + len (uu ++ d)) 1); [lia|]. lens. rewrite len_box. lens. lia. }
      rewrite K1, K2. cbn [fst snd]. rewrite len_box. split; reflexivity.
    + apply len_0 in H5. subst uu. cbn [app] in *.
      unfold cret, cbind. cbn [fst snd]. rewrite parse_hdr_box by assumption. cbn [fst snd inp].
      unfold body_of. cbn [h_type]. rewrite H2, H3, (leaf_known _ H4). cbn [h_size h_read h_uuid].
      rewrite sub32_le by lia.
      rewrite (proj1 (parses_take_eq 8 (N.to_nat (8 + len d - 8)) d ltac:(unfold len in *; lia))).
      unfold cret. cbn [bind fst snd inp].
      edestruct (skip_none (mkH (8 + len d) 0 ty [] 8) (len (box ty d ++ r) - len r) r) as [K1 K2].
      { cbn [h_size]. destruct (N.eqb_spec (8 + len d) 1); [lia|]. lens. rewrite len_box. lia. }
      rewrite K1, K2. cbn [fst snd]. rewrite len_box. split; reflexivity.
  - rewrite parse_atom_S. cbn [AtomSpec.wf AtomSpec.enc AtomSpec.strip] in *. spec_types. rewrite len_box in Hl.
    destruct Hw as [H1 H2]. destruct (is_free_lt _ H1) as (T1 & T2 & T3).
    unfold cret, cbind. cbn [fst snd]. rewrite parse_hdr_box by assumption. cbn [fst snd inp].
    unfold body_of. cbn [h_type]. rewrite T3, H1. cbn [h_size h_read h_uuid].
    rewrite sub32_le by lia.
    rewrite (proj1 (parses_take_eq 8 (N.to_nat (8 + len d - 8)) d ltac:(unfold len in *; lia))).
    unfold cret. cbn [bind fst snd inp].
    edestruct (skip_none (mkH (8 + len d) 0 ty [] 8) (len (box ty d ++ r) - len r) r) as [K1 K2].
    { cbn [h_size]. destruct (N.eqb_spec (8 + len d) 1); [lia|]. lens. rewrite len_box. lia. }
    rewrite K1, K2. cbn [fst snd]. rewrite len_box. split; reflexivity.
  - rewrite parse_atom_S. cbn [AtomSpec.wf AtomSpec.enc AtomSpec.strip] in *. spec_types. rewrite len_box in Hl.
    destruct (leaf_type _ Hw) as (T1 & T2 & T3 & T4 & T5).
    unfold cret, cbind. cbn [fst snd]. rewrite parse_hdr_box by assumption. cbn [fst snd inp].
    unfold body_of. cbn [h_type]. rewrite T3, T4.
    destruct (leaf_parse l r Hw Hl) as (p & n & Ep & E). rewrite Ep. cbn [h_read]. rewrite E.
    unfold cret. cbn [bind fst snd inp].
    edestruct (skip_none (mkH (8 + len (leafBody l)) 0 (leafType l) [] 8) (len (box (leafType l) (leafBody l) ++ r) - len r) r) as [K1 K2].
    { cbn [h_size]. destruct (N.eqb_spec (8 + len (leafBody l)) 1); [lia|]. lens. rewrite len_box. lia. }
    rewrite K1, K2. cbn [fst snd h_size]. rewrite len_box. split; reflexivity.
  - rewrite parse_atom_S. destruct (wf_kids _ _ Hw) as (H1 & H2 & H3 & H4).
    cbn [AtomSpec.enc AtomSpec.strip] in *. rewrite len_box in Hl.
    destruct (is_container_lt _ H1) as (T1 & T2 & T3).
    assert (K : forall f' acc tot, (length (flat_map enc kids ++ r) + 1 < f')%nat -> tot < 4294967296 ->
      slots_distinct ty (map atype acc ++ map atype (filter (fun k => negb (free_box k)) kids)) ->
      forall br, br + len (flat_map enc kids) = tot ->
      snd (parse_kids f' ty tot br acc (flat_map enc kids ++ r)) =
        Ok (acc ++ filter (fun k => negb (free_box k)) (map strip kids), r) /\
      fst (fst (parse_kids f' ty tot br acc (flat_map enc kids ++ r))) = sumb L kids).
    { clear Hf Hw H3 H4 Hl. induction kids as [|k ks IHks]; intros f' acc tot Hf' Ht Hs br Hbr.
      - cbn [flat_map app map filter] in *. lens. destruct f' as [|f']; [lia|]. rewrite parse_kids_S.
        destruct (N.ltb_spec br tot); [lia|]. destruct (N.eqb_spec br tot); [|lia].
        unfold cret. cbn [fst snd]. rewrite app_nil_r. split; reflexivity.
      - inversion_clear IH as [|? ? IHk IHr]. inversion_clear H2 as [|? ? Wk Wr].
        cbn [flat_map] in *. lens. rewrite <- app_assoc in *.
        destruct f' as [|f']; [lia|]. rewrite parse_kids_S.
        assert (Hpos : 8 <= len (enc k)).
        { clear. destruct k; cbn [AtomSpec.enc]; rewrite len_box; lia. }
        destruct (N.ltb_spec br tot); [|lia].
        specialize (IHk f' (flat_map enc ks ++ r) Wk ltac:(lia) ltac:(lia)). destruct IHk as [Ik1 Ik2].
        destruct (atype_facts _ Wk) as (A1 & A2 & A3).
        unfold cbind. rewrite Ik1. cbn [fst snd].
        rewrite A3, A2. rewrite w32_small by lia.
        assert (Hf2 : (length (flat_map enc ks ++ r) + 1 < f')%nat).
        { rewrite app_length in Hf'. unfold len in Hpos. lia. }
        cbn [filter map] in *. rewrite free_strip. rewrite sumb_cons.
        destruct (free_box k) eqn:Ef; cbn [negb map] in *.
        + specialize (IHks IHr Wr f' acc tot Hf2 Ht Hs (br + len (enc k)) ltac:(lia)). destruct IHks as [I1 I2].
          rewrite Ik2, I2, I1. split; reflexivity.
        + rewrite (slot_used_false _ _ _ _ Hs).
          specialize (IHks IHr Wr f' (acc ++ [strip k]) tot Hf2 Ht).
          rewrite map_app, <- app_assoc in IHks. cbn [map app] in IHks. rewrite A3 in IHks.
          specialize (IHks Hs (br + len (enc k)) ltac:(lia)). destruct IHks as [I1 I2].
          rewrite Ik2, I2, I1. rewrite <- app_assoc. split; reflexivity. }
    specialize (K f [] (8 + len (flat_map enc kids))
      ltac:(unfold box in Hf; rewrite !app_length in Hf; cbn [be32 length] in Hf; rewrite app_length; lia) Hl H3 8 eq_refl).
    destruct (parse_kids f ty (8 + len (flat_map enc kids)) 8 [] (flat_map enc kids ++ r)) as [[nk lg] rk] eqn:EK.
    cbn [fst snd] in K. destruct K as [-> ->].
    unfold cret, cbind. cbn [fst snd]. rewrite parse_hdr_box by assumption. cbn [fst snd inp].
    unfold body_of. cbn [h_type]. rewrite H1. cbn [h_size h_read].
    unfold cret, cbind. rewrite EK. cbn [fst snd].
    edestruct (skip_none (mkH (8 + len (flat_map enc kids)) 0 ty [] 8) (len (box ty (flat_map enc kids) ++ r) - len r) r) as [S1 S2].
    { cbn [h_size]. destruct (N.eqb_spec (8 + len (flat_map enc kids)) 1); [lia|]. lens. rewrite len_box. lia. }
    rewrite S1, S2. cbn [fst snd]. cbn [app]. rewrite nboxes_boxes. rewrite len_box.
    split; [|lia].
    rewrite setup_new_full; [reflexivity|].
    intros E m Hm. destruct (proj2 (H4 E) m Hm) as (k & Hk & Ek). exists (strip k).
    assert (Wk : wf k) by (rewrite Forall_forall in H2; auto).
    destruct (atype_facts _ Wk) as (A1 & A2 & A3). rewrite A3. split; [|assumption].
    apply filter_In. split; [apply in_map; assumption|]. rewrite free_strip, <- A2.
    destruct (is_free (atype k)) eqn:Ef; [exfalso|reflexivity].
    unfold is_free in Ef. apply orb_true_iff in Ef. rewrite !N.eqb_eq in Ef.
    destruct Ef as [Ef|Ef]; rewrite Ef in Ek; vm_compute in Ek; discriminate.
Qed.

(* truncation *)
Lemma box_truncated ty body p q f :
  8 + len body < 4294967296 -> box ty body = p ++ q -> q <> [] ->
  exists e, snd (parse_atom (S f) p) = Err e /\ (e = MP4IOErr \/ e = MP4BadDataErr).
Proof.
  intros Hl E Hq. rewrite parse_atom_S. unfold cbind, cret. cbn [fst snd].
  assert (Hlen : len p + len q = 8 + len body) by (rewrite <- len_box with (ty := ty), E; lens; lia).
  assert (Hq0 : len q <> 0) by (intros E0; apply Hq, len_0; assumption).
  unfold box in E. destruct (app_split_cases _ _ _ _ E) as [[q1 [E1 Hq1]] | [p2 [E1 E2]]].
  - unfold parse_hdr, rbind at 1. rewrite (proj2 (parses_get32 0 (8 + len body) Hl) _ _ E1 Hq1). eexists; split; [reflexivity|auto].
  - unfold parse_hdr, rbind at 1. rewrite E1, (proj1 (parses_get32 0 (8 + len body) Hl)). cbn [inp].
    destruct (N.eqb_spec (8 + len body) 0); [lia|].
    destruct (N.eqb_spec (8 + len body) 1); [lia|]. cbn [negb andb].
    rewrite sub32_le by lia. subst p. lens.
    destruct (N.ltb_spec (len p2) (8 + len body - 4)); [|lia]. eexists; split; [reflexivity|auto].
Qed.
Lemma enc_truncated a p q f :
  wf a -> len (enc a) < 4294967296 -> enc a = p ++ q -> q <> [] ->
  exists e, snd (parse_atom (S f) p) = Err e /\ (e = MP4IOErr \/ e = MP4BadDataErr).
Proof.
  intros _ Hl E Hq. destruct a; cbn [AtomSpec.enc] in *; rewrite len_box in Hl; eapply box_truncated; eassumption.
Qed.
End RoundTrip.

From Verif Require Import Base Codec AtomModel BitLemmas BitModel BitSpec BitProofs EntryModel EntryProofs ParamModel ParamSpec ParamProofs.

Ltac tnext :=
  lazymatch goal with
  | |- takes _ (bbind _ _) (_ ++ _) _ => eapply takes_bind
  | |- takes _ (bbind _ _) _ _ => eapply takes_bind_last
  end.
Ltac tu := first [apply takes_ue; lia | apply takes_byte; assumption].
Lemma takes_nil {A C} pe (m : br A) (k : A -> br C) X a c : takes pe m [] a -> takes pe (k a) X c -> takes pe (bbind m k) X c.
Proof. intros H1 H2. change X with ([] ++ X). eapply takes_bind; eassumption. Qed.

Lemma avc_takes h s : h < 256 -> h mod 32 = 7 -> avc_ok s -> (is_high (i_prof s) = true -> i_chroma s <> 3) ->
  takes false avc_sps (u 8 h ++ avc_bits s)
    (i_prof s, i_compat s, i_level s, if is_high (i_prof s) then (i_chroma s, i_luma s, i_cdepth s) else (0, 0, 0)).
Proof.
  intros Hh Ht (H1 & H2 & H3 & H4 & H5 & H6 & H7) Hc. unfold avc_sps, avc_bits.
  tnext; [tu|]. rewrite land31, Ht. change (negb (7 =? 7)) with false. cbn iota.
  tnext; [tu|]. tnext; [tu|]. tnext; [tu|]. tnext; [tu|]. rewrite high_is. destruct (is_high (i_prof s)).
  - specialize (Hc eq_refl). replace (i_chroma s =? 3) with false by lia. cbn [app]. tnext; [tu|]. tnext; [tu|]. tnext; [tu|]. apply takes_ret.
  - apply takes_ret.
Qed.

Lemma takes_times {A} pe (m : br A) (Xs : list (list bool)) (as_ : list A) :
  Forall2 (takes pe m) Xs as_ -> takes pe (times (length as_) m) (concat Xs) as_.
Proof.
  induction 1 as [|X a Xs l H _ IH]; cbn [times length concat]; [apply takes_ret|].
  tnext; [exact H|]. eapply takes_bind_last; [exact IH|]. apply takes_ret.
Qed.
(* n bytes, whatever they are *)
Lemma takes_bytes pe n : forall X, len X = 8 * N.of_nat n -> exists l, takes pe (times n (get_byte pe)) X l.
Proof.
  induction n as [|n IH]; intros X H.
  - assert (X = []) as -> by (apply len_0; lia). exists []. apply takes_ret.
  - destruct (split_at X 8) as (a & b & -> & La); [lia|]. destruct (IH b) as (l & Hl); [revert H; lens; lia|].
    exists (value a :: l). cbn [times]. tnext; [|eapply takes_bind_last; [exact Hl|apply takes_ret]].
    unfold get_byte. eapply takes_bind_last; [apply takes_bits; [exact La|lia]|]. rewrite w8_small; [apply takes_ret|].
    pose proof (value_lt a). rewrite La in *. assumption.
Qed.
Lemma takes_bits_any pe n X : len X = n -> 0 < n <= 32 -> exists v, takes pe (get_bits pe n) X v.
Proof. intros. eexists. apply takes_bits; assumption. Qed.
Lemma u_1 v : u 1 v = [N.odd v].
Proof. cbn [u]. change (N.of_nat 0) with 0. rewrite N.bit0_odd. reflexivity. Qed.
Lemma takes_flag pe (b : bool) : takes pe (get_bits pe 1) [b] (b2n b).
Proof. eapply takes_eq; [apply (takes_bits pe 1 [b]); [reflexivity|lia]|reflexivity|destruct b; reflexivity]. Qed.
Lemma u_2 n a b v w : w < 2 ^ N.of_nat b -> n = (a + b)%nat -> u n (v * 2 ^ N.of_nat b + w) = u a v ++ u b w.
Proof.
  intros H ->. assert (P : 2 ^ N.of_nat b <> 0) by (apply N.pow_nonzero; discriminate).
  rewrite u_split. rewrite N.div_add_l by exact P. rewrite N.div_small, N.add_0_r by exact H. f_equal.
  apply u_mod. rewrite N.add_comm, N.mod_add by exact P. reflexivity.
Qed.

Lemma takes_word pe v : v < 4294967296 ->
  takes pe (times 4 (get_byte pe)) (u 32 v) [v / 16777216; v / 65536 mod 256; v / 256 mod 256; v mod 256].
Proof.
  intros H. eapply takes_eq; [apply (takes_times pe (get_byte pe) [u 8 (v / 16777216); u 8 (v / 65536 mod 256); u 8 (v / 256 mod 256); u 8 (v mod 256)] [v / 16777216; v / 65536 mod 256; v / 256 mod 256; v mod 256])| |reflexivity].
  - repeat constructor; apply takes_byte; lia.
  - cbn [concat]. rewrite app_nil_r. pose proof (u_split 8 24 v) as E1. pose proof (u_split 8 16 v) as E2. pose proof (u_split 8 8 v) as E3. cbn [Nat.add] in E1, E2, E3. rewrite E1, E2, E3.
    change (2 ^ N.of_nat 24) with 16777216. change (2 ^ N.of_nat 16) with 65536. change (2 ^ N.of_nat 8) with 256.
    f_equal. f_equal; [|f_equal]; apply u_mod; change (2 ^ N.of_nat 8) with 256; lia.
Qed.
Lemma word_is v : v < 4294967296 ->
  N.lor (N.lor (N.lor (w32 (N.shiftl (v / 16777216) 24)) (N.shiftl (v / 65536 mod 256) 16)) (N.shiftl (v / 256 mod 256) 8)) (v mod 256) = v.
Proof.
  intros H. rewrite !shiftl_mul. change (2 ^ 24) with 16777216. change (2 ^ 16) with 65536. change (2 ^ 8) with 256. rewrite w32_small by lia.
  rewrite (or_high 24 (v / 16777216 * 16777216)), (or_high 16 (_ + v / 65536 mod 256 * 65536)), (or_high 8) by (change (2 ^ 24) with 16777216; change (2 ^ 16) with 65536; change (2 ^ 8) with 256; lia). lia.
Qed.

Definition subs_pres (l : list (option N * option N)) : list (N * N) := map (fun x => (b2n (is_some (fst x)), b2n (is_some (snd x)))) l.
Lemma takes_pres pe l : takes pe (times (length l) (sub_present pe)) (flat_map (fun x => [is_some (fst x); is_some (snd x)]) l) (subs_pres l).
Proof.
  induction l as [|[a b] l IH]; cbn [length times flat_map subs_pres map]; [apply takes_ret|].
  tnext; [|eapply takes_bind_last; [exact IH|apply takes_ret]].
  unfold sub_present. cbn [fst snd]. change [is_some a; is_some b] with ([is_some a] ++ [is_some b]).
  tnext; [apply takes_flag|]. eapply takes_bind_last; [apply takes_flag|].
  eapply takes_eq; [apply takes_ret|reflexivity|]. destruct a, b; reflexivity.
Qed.
Lemma takes_levels l : takes true (sub_levels (subs_pres l)) (flat_map (fun x => opt_bits (u 88) (fst x) ++ opt_bits (u 8) (snd x)) l) tt.
Proof.
  induction l as [|[a b] l IH]; cbn [subs_pres map sub_levels flat_map fst snd]; [apply takes_ret|].
  assert (A : exists x, takes true (if negb (b2n (is_some a) =? 0) then times 11 (get_byte true) else bret []) (opt_bits (u 88) a) x).
  { destruct a as [v|]; cbn [is_some b2n N.eqb negb opt_bits]; [apply takes_bytes; rewrite len_u; reflexivity|exists []; apply takes_ret]. }
  destruct A as (x & A). rewrite <- app_assoc. eapply takes_bind; [exact A|].
  tnext; [|exact IH]. destruct b as [v|]; cbn [is_some b2n N.eqb negb opt_bits]; [|apply takes_ret].
  destruct (takes_bytes true 1 (u 8 v) (len_u 8 v)) as (y & Hy).
  eapply takes_bind_last; [|apply takes_ret].
  unfold get_byte. eapply takes_bind_last; [apply takes_bits; [apply len_u|cbn; lia]|]. apply takes_ret.
Qed.

Lemma takes_crop pe (c : option (N * N * (N * N))) : match c with Some (a, b, (x, y)) => a < 65536 /\ b < 65536 /\ x < 65536 /\ y < 65536 | None => True end ->
  exists l, takes pe (get! x := get_bits pe 1 in if negb (w8 x =? 0) then times 4 (golomb pe) else bret [])
    (match c with Some (a, b, (c, d)) => [true] ++ ue a ++ ue b ++ ue c ++ ue d | None => [false] end) l.
Proof.
  destruct c as [[[a b] [x y]]|]; intros H.
  - exists [a; b; x; y]. tnext; [apply takes_flag|]. cbn [b2n]. change (negb (w8 1 =? 0)) with true. cbn iota.
    eapply takes_eq; [apply (takes_times pe (golomb pe) [ue a; ue b; ue x; ue y] [a; b; x; y])|cbn [concat]; rewrite app_nil_r; reflexivity|reflexivity].
    repeat constructor; apply takes_ue; lia.
  - exists []. eapply takes_bind_last; [apply takes_flag|]. apply takes_ret.
Qed.
Lemma takes_assoc {A B C} pe (m : br A) (f : A -> br B) (k : B -> br C) X c :
  takes pe (bbind (bbind m f) k) X c -> takes pe (bbind m (fun a => bbind (f a) k)) X c.
Proof. intros H s Z R. destruct (H s Z R) as (s' & E & R'). exists s'. split; [|exact R']. rewrite <- E. unfold bbind. destruct (m s) as [[]|?|]; reflexivity. Qed.
Definition hevc_out (s : hevc_syntax) : hsps :=
  mkHsps (e_nest s) (e_idc s) (e_compat s) (e_level s) (e_chroma s) (e_w s) (e_h s) (e_luma s) (e_cdepth s).
Lemma hevc_takes h1 h2 s : h1 < 256 -> h1 / 2 = 33 -> h2 < 256 -> hevc_ok s ->
  takes true hevc_sps (u 8 h1 ++ u 8 h2 ++ hevc_bits s) (hevc_out s).
Proof.
  intros Hh Ht Hh2 (H1 & H2 & H3 & H4 & H5 & H6 & H7 & H8 & H9 & H10 & H11 & H12 & H13 & H14 & H15). unfold hevc_sps, hevc_bits.
  assert (B1 : u 4 (e_vps s) ++ u 3 (len (e_subs s)) ++ u 1 (e_nest s) = u 8 (e_vps s * 16 + len (e_subs s) * 2 + e_nest s)).
  { replace (e_vps s * 16 + len (e_subs s) * 2 + e_nest s) with (e_vps s * 2 ^ N.of_nat 4 + (len (e_subs s) * 2 ^ N.of_nat 1 + e_nest s))
      by (change (2 ^ N.of_nat 4) with 16; change (2 ^ N.of_nat 1) with 2; lia).
    rewrite (u_2 8 4 4), (u_2 4 3 1); [reflexivity|change (2 ^ N.of_nat 1) with 2; lia|reflexivity|change (2 ^ N.of_nat 4) with 16; change (2 ^ N.of_nat 1) with 2; lia|reflexivity]. }
  assert (B2 : u 2 (e_space s) ++ u 1 (e_tier s) ++ u 5 (e_idc s) = u 8 (e_space s * 64 + e_tier s * 32 + e_idc s)).
  { replace (e_space s * 64 + e_tier s * 32 + e_idc s) with (e_space s * 2 ^ N.of_nat 6 + (e_tier s * 2 ^ N.of_nat 5 + e_idc s))
      by (change (2 ^ N.of_nat 6) with 64; change (2 ^ N.of_nat 5) with 32; lia).
    rewrite (u_2 8 2 6), (u_2 6 1 5); [reflexivity|change (2 ^ N.of_nat 5) with 32; lia|reflexivity|change (2 ^ N.of_nat 6) with 64; change (2 ^ N.of_nat 5) with 32; lia|reflexivity]. }
  match goal with |- takes _ _ (_ ++ _ ++ _ ++ _ ++ _ ++ _ ++ _ ++ _ ++ ?Y) _ => remember Y as rest eqn:Er end.
  replace (u 4 (e_vps s) ++ u 3 (len (e_subs s)) ++ u 1 (e_nest s) ++ u 2 (e_space s) ++ u 1 (e_tier s) ++ u 5 (e_idc s) ++ rest)
    with (u 8 (e_vps s * 16 + len (e_subs s) * 2 + e_nest s) ++ u 8 (e_space s * 64 + e_tier s * 32 + e_idc s) ++ rest)
    by (rewrite <- B1, <- B2, <- !app_assoc; reflexivity). subst rest.
  tnext; [tu|]. rewrite shiftr_div. change (2 ^ 1) with 2. rewrite Ht. change (negb (33 =? 33)) with false. cbn iota.
  tnext; [tu|]. tnext; [apply takes_byte; lia|]. cbv zeta.
  assert (E1 : N.shiftr (N.land (e_vps s * 16 + len (e_subs s) * 2 + e_nest s) 15) 1 + 1 = len (e_subs s) + 1)
    by (rewrite land15, shiftr_div; change (2 ^ 1) with 2; lia).
  assert (E2 : N.land (e_vps s * 16 + len (e_subs s) * 2 + e_nest s) 1 = e_nest s) by (rewrite BitLemmas.land1; lia).
  rewrite E1, E2. tnext; [apply takes_byte; lia|]. replace (N.land _ 31) with (e_idc s) by (rewrite land31; lia).
  tnext; [apply takes_word; exact H7|]. cbn [nth]. rewrite word_is by exact H7.
  destruct (takes_bytes true 6 (u 48 (e_constraints s))) as (l6 & T6); [rewrite len_u; reflexivity|].
  tnext; [exact T6|]. tnext; [tu|].
  replace (len (e_subs s) + 1 - 1) with (len (e_subs s)) by lia.
  tnext; [replace (N.to_nat (len (e_subs s))) with (length (e_subs s)) by (unfold len; lia); apply takes_pres|].
  replace (1 <? len (e_subs s) + 1) with (0 <? len (e_subs s)) by lia.
  assert (T7 : exists v, takes true (if 0 <? len (e_subs s) then get_bits true (16 - len (e_subs s) * 2) else bret 0)
                 (if 0 <? len (e_subs s) then repeat false (2 * (8 - length (e_subs s))) else []) v).
  { destruct (N.ltb_spec 0 (len (e_subs s))); [apply takes_bits_any; lens; unfold len in *; lia|exists 0; apply takes_ret]. }
  destruct T7 as (v7 & T7). tnext; [exact T7|]. tnext; [apply takes_levels|]. tnext; [tu|]. tnext; [tu|].
  assert (T8 : exists v, takes true (if e_chroma s =? 3 then get_bits true 1 else bret 0) (if e_chroma s =? 3 then [e_sep s] else []) v).
  { destruct (e_chroma s =? 3); [apply takes_bits_any; [reflexivity|lia]|exists 0; apply takes_ret]. }
  destruct T8 as (v8 & T8). tnext; [exact T8|]. tnext; [tu|]. tnext; [tu|].
  destruct (takes_crop true (e_crop s) H13) as (l9 & T9). apply takes_assoc. tnext; [exact T9|].
  tnext; [tu|]. tnext; [tu|]. apply takes_ret.
Qed.

(* as [takes], when the number of bits left is r modulo 8 *)
Definition takesr {A} (r : N) (m : br A) (X : list bool) (a : A) : Prop :=
  forall s B, len (X ++ B) mod 8 = r -> repr true s (X ++ B) -> exists s', m s = Ok (a, s') /\ repr true s' B.
Lemma takesr_of {A} r (m : br A) X a : takes true m X a -> takesr r m X a.
Proof. intros H s B _ R. apply H. exact R. Qed.
Lemma takesr_bind {A C} r r' (m : br A) (k : A -> br C) X Y a c :
  takesr r m X a -> (r' + len X) mod 8 = r -> r' < 8 -> takesr r' (k a) Y c -> takesr r (bbind m k) (X ++ Y) c.
Proof.
  intros H1 E L H2 s B Hr R. rewrite <- app_assoc in *. destruct (H1 s _ Hr R) as (s1 & E1 & R1).
  destruct (H2 s1 B) as (s2 & E2 & R2); [revert Hr; rewrite (len_app X); lia|exact R1|].
  exists s2. split; [|exact R2]. unfold bbind. rewrite E1. exact E2.
Qed.
Lemma takesr_align : takesr 5 align (repeat false 5) [0; 0; 0; 0; 0].
Proof.
  intros s B Hr R. assert (E : b_cur s mod 8 = 5).
  { destruct R as (h & l & H1 & H2 & _ & _ & _ & H6 & _). rewrite H6, len_app, len_bits in Hr. rewrite H1. lia. }
  unfold align. rewrite E. change (N.to_nat 5) with (length [0; 0; 0; 0; 0]).
  apply (takes_times true (get_bits true 1) [[false]; [false]; [false]; [false]; [false]]); [|exact R].
  repeat constructor; apply (takes_flag true false).
Qed.
Definition octets (n : nat) (X : list bool) : list N := map (fun i => value (firstn 8 (skipn (8 * i) X))) (seq 0 n).
Lemma octets_S n a b : length a = 8%nat -> octets (S n) (a ++ b) = value a :: octets n b.
Proof.
  intros H. unfold octets. cbn [seq map]. f_equal.
  - rewrite Nat.mul_0_r. cbn [skipn]. rewrite <- H, firstn_app, Nat.sub_diag, firstn_all, firstn_O, app_nil_r. reflexivity.
  - rewrite <- seq_shift, map_map. apply map_ext. intros i. f_equal. f_equal. rewrite skipn_app. rewrite skipn_all2 by lia. cbn [app].
    f_equal. lia.
Qed.
Lemma takes_octets pe n : forall X, len X = 8 * N.of_nat n -> takes pe (times n (get_byte pe)) X (octets n X).
Proof.
  induction n as [|n IH]; intros X H.
  - assert (X = []) as -> by (apply len_0; lia). apply takes_ret.
  - destruct (split_at X 8) as (a & b & -> & La); [lia|]. specialize (IH b). rewrite octets_S by (unfold len in La; lia).
    cbn [times]. tnext; [|eapply takes_bind_last; [apply IH; revert H; lens; lia|apply takes_ret]].
    unfold get_byte. eapply takes_bind_last; [apply takes_bits; [exact La|lia]|]. rewrite w8_small; [apply takes_ret|].
    pose proof (value_lt a). rewrite La in *. assumption.
Qed.
Lemma takes_vflag (b : bool) : takes true flag [b] b.
Proof. unfold flag. eapply takes_bind_last; [apply takes_flag|]. eapply takes_eq; [apply takes_ret|reflexivity|destruct b; reflexivity]. Qed.
Lemma takes_vflags pe l : takes pe (times (length l) (get_bits pe 1)) l (map b2n l).
Proof.
  induction l as [|b l IH]; cbn [length times map]; [apply takes_ret|]. change (b :: l) with ([b] ++ l).
  tnext; [apply takes_flag|]. eapply takes_bind_last; [exact IH|apply takes_ret].
Qed.
Lemma takes_vlevels l : Forall (fun o => match o with Some v => v < 256 | None => True end) l ->
  takes true (vvc_sub_levels (map b2n (map is_some l))) (flat_map (u 8) (somes l)) l.
Proof.
  unfold somes. induction 1 as [|o l H _ IH]; cbn [map vvc_sub_levels flat_map]; [apply takes_ret|].
  rewrite flat_map_app. tnext; [|eapply takes_bind_last; [exact IH|apply takes_ret]].
  destruct o as [v|]; cbn [is_some b2n flat_map app]; [|apply takes_ret]. change (w8 1 =? 0) with false. cbn iota. rewrite app_nil_r.
  eapply takes_bind_last; [apply takes_byte; exact H|apply takes_ret].
Qed.
Lemma skip_skip {A} a b (l : list A) : skipn a (skipn b l) = skipn (b + a) l.
Proof. revert l. induction b as [|b IH]; intros l; [reflexivity|]. destruct l as [|x l]; [destruct a; reflexivity|]. cbn [skipn Nat.add]. apply IH. Qed.
Lemma takes_gci g : len g = 71 -> takes true vvc_gci ([true] ++ g ++ u 8 0 ++ [false])
  (32 + value (firstn 5 g), 10, octets 9 (skipn 5 (g ++ repeat false 6)) ++ [0]).
Proof.
  intros Hg. unfold vvc_gci. tnext; [apply takes_flag|]. cbn [b2n]. change (w8 1 =? 0) with false. cbn iota.
  destruct (split_at g 5) as (g5 & g' & -> & L5); [lia|]. destruct (split_at g' 64) as (g64 & g2 & -> & L64); [revert Hg; lens; lia|].
  assert (L2 : len g2 = 2) by (revert Hg; lens; lia).
  assert (N5 : length g5 = 5%nat) by (unfold len in L5; lia).
  rewrite firstn_app, N5. cbn [Nat.sub]. rewrite firstn_O, app_nil_r, (firstn_all2 g5) by lia.
  assert (E9 : skipn 5 ((g5 ++ g64 ++ g2) ++ repeat false 6) = g64 ++ g2 ++ repeat false 6).
  { rewrite <- !app_assoc, skipn_app, N5. cbn [Nat.sub]. rewrite (skipn_all2 g5) by lia. reflexivity. }
  rewrite E9. clear E9.
  change (u 8 0 ++ [false]) with (repeat false 6 ++ repeat false 3). rewrite <- !app_assoc.
  tnext; [apply takes_bits; [exact L5|lia]|].
  replace (g64 ++ g2 ++ repeat false 6 ++ repeat false 3) with ((g64 ++ g2 ++ repeat false 6) ++ repeat false 3) by (rewrite <- !app_assoc; reflexivity).
  set (X := g64 ++ g2 ++ repeat false 6).
  tnext; [apply takes_octets; unfold X; lens; lia|].
  eapply takes_bind_last; [apply (takes_bits true 3 (repeat false 3)); [reflexivity|lia]|].
  rewrite value_falses. cbv zeta. change (w8 0) with 0.
  assert (E : N.land (nth 8 (octets 9 X) 0) 31 = 0).
  { unfold octets. cbn [seq map nth]. unfold X. change (8 * 8)%nat with 64%nat. rewrite skipn_app. replace (length g64) with 64%nat by (unfold len in L64; lia).
    rewrite skipn_all2 by (unfold len in L64; lia). cbn [Nat.sub skipn app].
    destruct g2 as [|a [|b [|? ?]]]; try (revert L2; lens; lia). destruct a, b; reflexivity. }
  rewrite E. change (N.lor (N.shiftl 0 3) 0) with 0. change (10 + (0 + 3) / 8) with 10. change (10 <? 10) with false. cbn iota.
  eapply takes_eq; [apply takes_ret|reflexivity|]. change (w8 (N.shiftl 0 5)) with 0.
  pose proof (value_lt g5) as V. rewrite L5 in V. rewrite w8_small by (change (2 ^ 5) with 32 in V; lia). rewrite N.lor_comm, (or_high 5) by (reflexivity || exact V).
  reflexivity.
Qed.
Lemma vptl_takes sub chroma p : sub < 7 -> vvc_ptl_ok sub p -> exists f,
  takesr 0 (vvc_ptl (sub + 1) chroma) (vptl_bits p) f /\ forall w h d, f w h d =
    mkPtl 0 (sub + 1) 0 chroma d (match q_gci p with Some _ => 10 | None => 1 end) (q_idc p) (q_tier p) (q_level p) (b2n (q_frame p)) (b2n (q_multi p))
      (match q_gci p with Some g => 32 + value (firstn 5 g) | None => 0 end)
      (match q_gci p with Some g => octets 9 (skipn 5 (g ++ repeat false 6)) ++ [0] | None => [] end) (q_subs p) 0 w h 0.
Proof.
  intros Hs (H1 & H2 & H3 & H4 & H5 & H6). unfold vptl_bits, vvc_ptl.
  assert (B1 : u 7 (q_idc p) ++ u 1 (q_tier p) = u 8 (q_idc p * 2 + q_tier p)).
  { replace (q_idc p * 2) with (q_idc p * 2 ^ N.of_nat 1) by reflexivity. rewrite (u_2 8 7 1); [reflexivity|exact H2|reflexivity]. }
  rewrite app_assoc, B1. eexists. split.
  - eapply (takesr_bind 0 0); [apply takesr_of, takes_byte; lia|rewrite len_u; reflexivity|lia|].
    eapply (takesr_bind 0 0); [apply takesr_of, takes_byte; exact H3|rewrite len_u; reflexivity|lia|].
    change ([q_frame p; q_multi p] ++ ?x) with ([q_frame p] ++ [q_multi p] ++ x).
    eapply (takesr_bind 0 7); [apply takesr_of, takes_flag|reflexivity|lia|].
    eapply (takesr_bind 7 6); [apply takesr_of, takes_flag|reflexivity|lia|].
    match goal with |- takesr _ _ (_ ++ ?Y) _ => remember Y as rest eqn:Er end.
    assert (G : takesr 6 vvc_gci (match q_gci p with Some g => [true] ++ g ++ u 8 0 ++ [false] | None => [false] end)
      (match q_gci p with Some g => 32 + value (firstn 5 g) | None => 0 end, match q_gci p with Some _ => 10 | None => 1 end,
       match q_gci p with Some g => octets 9 (skipn 5 (g ++ repeat false 6)) ++ [0] | None => [] end)).
    { apply takesr_of. destruct (q_gci p) as [g|]; [apply takes_gci; exact H4|]. unfold vvc_gci. eapply takes_bind_last; [apply takes_flag|]. apply takes_ret. }
    replace (match q_gci p with Some g => [true] ++ g ++ u 8 0 ++ repeat false 6 | None => [false] ++ repeat false 5 end ++ rest)
      with ((match q_gci p with Some g => [true] ++ g ++ u 8 0 ++ [false] | None => [false] end) ++ repeat false 5 ++ rest).
    2:{ destruct (q_gci p) as [g|]; [|reflexivity]. rewrite !app_assoc. f_equal. rewrite <- !app_assoc. reflexivity. }
    eapply (takesr_bind 6 5); [exact G| |lia|].
    { destruct (q_gci p) as [g|]; [|reflexivity]. lens. rewrite H4. reflexivity. }
    eapply (takesr_bind 5 0); [apply takesr_align|reflexivity|lia|]. subst rest. apply takesr_of.
    replace (sub + 1 - 1) with (len (q_subs p)) by lia. rewrite to_nat_len.
    tnext; [rewrite <- (map_length is_some); apply takes_vflags|].
    replace (1 <? sub + 1) with (0 <? len (q_subs p)) by lia.
    tnext. { instantiate (1 := if 0 <? len (q_subs p) then map b2n (repeat false (8 - length (q_subs p))) else []).
      destruct (N.ltb_spec 0 (len (q_subs p))); [|apply takes_ret].
      replace (N.to_nat (9 - (sub + 1))) with (length (repeat false (8 - length (q_subs p)))) by (rewrite repeat_length; unfold len in *; lia). apply takes_vflags. }
    tnext; [apply takes_vlevels; exact H6|]. eapply takes_bind_last; [apply takes_byte; lia|]. change (0 <? 0) with false. cbn iota.
    eapply takes_bind_last; [apply takes_ret|]. apply takes_ret.
  - intros w h d. cbn [fst snd]. rewrite shiftr_div, BitLemmas.land1. change (2 ^ 1) with 2.
    replace ((q_idc p * 2 + q_tier p) / 2) with (q_idc p) by lia. replace ((q_idc p * 2 + q_tier p) mod 2) with (q_tier p) by lia.
    replace (w8 (b2n (q_frame p))) with (b2n (q_frame p)) by (destruct (q_frame p); reflexivity).
    replace (w8 (b2n (q_multi p))) with (b2n (q_multi p)) by (destruct (q_multi p); reflexivity). reflexivity.
Qed.

Lemma takes_along size ctb v : size < 65536 -> 32 <= ctb <= 128 -> exists x, takes true (if ctb <? size then get_bits true (uv_bits size ctb) else bret 0) (along size ctb v) x.
Proof.
  intros H1 H2. unfold along. destruct (N.ltb_spec ctb size); [|exists 0; apply takes_ret].
  assert (E : uv_bits size ctb = N.log2_up (cdiv size ctb)) by (unfold uv_bits, cdiv; rewrite w32_small by lia; reflexivity). rewrite E.
  assert (B : 2 <= cdiv size ctb <= 65536).
  { unfold cdiv. split; [apply N.div_le_lower_bound; lia|apply N.div_le_upper_bound; [lia|]]. nia. }
  apply takes_bits_any; [rewrite len_u; lia|]. split.
  - apply N.log2_up_pos. lia.
  - assert (N.log2_up (cdiv size ctb) <= N.log2_up 65536) by (apply N.log2_up_le_mono; lia). change (N.log2_up 65536) with 16 in *. lia.
Qed.
Lemma takes_subpics w h ctb indep same : w < 65536 -> h < 65536 -> 32 <= ctb <= 128 -> forall l num ui, ui + len l = num + 1 ->
  takes true (vvc_subpics w h ctb num (length l) ui indep same) (pics_bits w h ctb indep same (ui =? 0) l) tt.
Proof.
  intros Hw Hh Hc l. induction l as [|p l IH]; intros num ui E; cbn [length vvc_subpics pics_bits]; [apply takes_ret|].
  revert E. lens. intros E. rewrite app_assoc. tnext.
  2:{ specialize (IH num (ui + 1)). replace (ui + 1 =? 0) with false in IH by lia. apply IH. lia. }
  unfold vvc_subpic. 
  destruct (takes_along w ctb (p_x p) Hw Hc) as (x1 & T1). destruct (takes_along h ctb (p_y p) Hh Hc) as (x2 & T2).
  destruct (takes_along w ctb (p_w p) Hw Hc) as (x3 & T3). destruct (takes_along h ctb (p_h p) Hh Hc) as (x4 & T4).
  tnext.
  - replace (negb same || (ui =? 0)) with (negb (same && negb (ui =? 0))) by (destruct same, (ui =? 0); reflexivity).
    destruct (same && negb (ui =? 0)); cbn [negb]; [apply takes_ret|].
    replace (0 <? ui) with (negb (ui =? 0)) by lia.
    replace (ui <? num) with (negb match l with [] => true | _ => false end) by (destruct l; revert E; lens; cbn [negb]; lia).
    destruct (ui =? 0); cbn [negb andb app].
    + eapply takes_nil; [apply takes_ret|]. eapply takes_nil; [apply takes_ret|]. destruct l; cbn [negb andb].
      * eapply takes_nil; [apply takes_ret|]. eapply takes_nil; [apply takes_ret|]. apply takes_ret.
      * tnext; [exact T3|]. eapply takes_bind_last; [exact T4|]. apply takes_ret.
    + rewrite <- app_assoc. tnext; [exact T1|]. tnext; [exact T2|]. destruct l; cbn [negb andb].
      * eapply takes_nil; [apply takes_ret|]. eapply takes_nil; [apply takes_ret|]. apply takes_ret.
      * tnext; [exact T3|]. eapply takes_bind_last; [exact T4|]. apply takes_ret.
  - destruct indep; [apply takes_ret|]. destruct (takes_bits_any true 2 (u 2 (p_flags p))) as (v & T); [apply len_u|lia|].
    eapply takes_bind_last; [exact T|apply takes_ret].
Qed.
Lemma takes_info w h ctb x : w < 65536 -> h < 65536 -> 32 <= ctb <= 128 -> subpics_ok x -> takes true (vvc_subpic_info w h ctb) (info_bits w h ctb x) tt.
Proof.
  intros Hw Hh Hc (H1 & H2 & H3). unfold vvc_subpic_info, info_bits. tnext; [apply takes_ue; lia|].
  replace (0 <? len (u_pics x) - 1) with (1 <? len (u_pics x)) by lia.
  match goal with |- takes _ _ (_ ++ ?Y) _ => remember Y as rest eqn:Er end.
  assert (T : takes true (get! fs := (if 1 <? len (u_pics x) then get! a := flag in get! b := flag in bret (a, b) else bret (false, false)) in
      if 1 <? len (u_pics x) then vvc_subpics w h ctb (len (u_pics x) - 1) (N.to_nat (len (u_pics x) - 1 + 1)) 0 (fst fs) (snd fs) else bret tt)
    (if 1 <? len (u_pics x) then [u_indep x; u_same x] ++ pics_bits w h ctb (u_indep x) (u_same x) true (u_pics x) else []) tt).
  { destruct (N.ltb_spec 1 (len (u_pics x))); [|eapply takes_bind_last; [apply takes_ret|apply takes_ret]].
    tnext. { change [u_indep x; u_same x] with ([u_indep x] ++ [u_same x]). tnext; [apply takes_vflag|]. eapply takes_bind_last; [apply takes_vflag|apply takes_ret]. }
    cbn [fst snd]. replace (N.to_nat (len (u_pics x) - 1 + 1)) with (length (u_pics x)) by (unfold len in *; lia).
    apply (takes_subpics w h ctb (u_indep x) (u_same x) Hw Hh Hc (u_pics x) _ 0). lia. }
  apply takes_assoc. tnext; [exact T|]. subst rest. tnext; [apply takes_ue; lia|].
  destruct (u_ids x) as [[l|]|]; cbn [app].
  - change (true :: true :: ?z) with ([true] ++ [true] ++ z). tnext; [apply takes_vflag|]. cbn iota. tnext; [apply takes_vflag|]. cbn iota.
    rewrite w32_small by lia.
    eapply takes_bind_last; [|apply takes_ret]. replace (N.to_nat (len (u_pics x) - 1 + 1)) with (length l) by (unfold len in *; lia).
    assert (G : forall l : list N, takes true (times (length l) (get_bits true (u_idlen x + 1))) (flat_map (u (N.to_nat (u_idlen x + 1))) l)
       (map (fun v => value (u (N.to_nat (u_idlen x + 1)) v)) l)).
    { intros k. induction k as [|v k IH]; cbn [length times flat_map map]; [apply takes_ret|].
      tnext; [apply takes_bits; [rewrite len_u; lia|lia]|]. eapply takes_bind_last; [exact IH|apply takes_ret]. }
    apply G.
  - change [true; false] with ([true] ++ [false]). tnext; [apply takes_vflag|]. cbn iota. eapply takes_bind_last; [apply takes_vflag|]. apply takes_ret.
  - eapply takes_bind_last; [apply takes_vflag|]. apply takes_ret.
Qed.
(* what the reader returns; the lower constraint bytes with one more *)
Definition vvc_out (s : vvc_syntax) : option vptl :=
  match w_ptl s with
  | Some p => Some (mkPtl 0 (w_sub s + 1) 0 (w_chroma s) (w_depth s) (match q_gci p with Some _ => 10 | None => 1 end) (q_idc p) (q_tier p) (q_level p)
      (b2n (q_frame p)) (b2n (q_multi p)) (match q_gci p with Some g => 32 + value (firstn 5 g) | None => 0 end)
      (match q_gci p with Some g => octets 9 (skipn 5 (g ++ repeat false 6)) ++ [0] | None => [] end) (q_subs p) 0 (w_w s) (w_h s) 0)
  | None => None
  end.
Lemma takes_win (c : option (N * N * (N * N))) : match c with Some (a, b, (x, y)) => a < 65536 /\ b < 65536 /\ x < 65536 /\ y < 65536 | None => True end ->
  exists l, takes true (get! x := flag in if x then times 4 (golomb true) else bret [])
    (match c with Some (a, b, (c, d)) => [true] ++ ue a ++ ue b ++ ue c ++ ue d | None => [false] end) l.
Proof.
  destruct c as [[[a b] [x y]]|]; intros H.
  - exists [a; b; x; y]. tnext; [apply takes_vflag|].
    eapply takes_eq; [apply (takes_times true (golomb true) [ue a; ue b; ue x; ue y] [a; b; x; y])|cbn [concat]; rewrite app_nil_r; reflexivity|reflexivity].
    repeat constructor; apply takes_ue; lia.
  - exists []. eapply takes_bind_last; [apply takes_vflag|]. apply takes_ret.
Qed.
Lemma vvc_takes h0 h1 s : h0 < 256 -> h1 < 256 -> h1 / 8 = 15 -> vvc_ok s ->
  takesr 0 vvc_sps (u 8 h0 ++ u 8 h1 ++ vvc_bits s) (w_w s, w_h s, vvc_out s).
Proof.
  intros Hh0 Hh1 Ht (Hi & H1 & H2 & H3 & H4 & H5 & H6 & H7 & H8 & H9). unfold vvc_sps, vvc_bits. cbv zeta.
  match goal with |- takesr _ _ (_ ++ _ ++ _ ++ _ ++ _ ++ _ ++ _ ++ ?Y) _ => remember Y as rest eqn:Er end.
  set (fl := match w_ptl s with Some _ => 1 | None => 0 end).
  assert (B : u 3 (w_sub s) ++ u 2 (w_chroma s) ++ u 2 (w_ctu s) ++ u 1 fl = u 8 (w_sub s * 32 + w_chroma s * 8 + w_ctu s * 2 + fl)).
  { replace (w_sub s * 32 + w_chroma s * 8 + w_ctu s * 2 + fl) with (w_sub s * 2 ^ N.of_nat 5 + (w_chroma s * 2 ^ N.of_nat 3 + (w_ctu s * 2 ^ N.of_nat 1 + fl)))
      by (change (2 ^ N.of_nat 5) with 32; change (2 ^ N.of_nat 3) with 8; change (2 ^ N.of_nat 1) with 2; lia).
    assert (fl < 2) by (unfold fl; destruct (w_ptl s); lia).
    rewrite (u_2 8 3 5), (u_2 5 2 3), (u_2 3 2 1);
      [reflexivity|change (2 ^ N.of_nat 1) with 2; lia|reflexivity|change (2 ^ N.of_nat 3) with 8; change (2 ^ N.of_nat 1) with 2; lia|reflexivity
      |change (2 ^ N.of_nat 5) with 32; change (2 ^ N.of_nat 3) with 8; change (2 ^ N.of_nat 1) with 2; lia|reflexivity]. }
  set (ptl := match w_ptl s with Some p => vptl_bits p | None => [] end).
  replace (u 3 (w_sub s) ++ u 2 (w_chroma s) ++ u 2 (w_ctu s) ++ match w_ptl s with Some p => [true] ++ vptl_bits p | None => [false] end ++ rest)
    with (u 8 (w_sub s * 32 + w_chroma s * 8 + w_ctu s * 2 + fl) ++ ptl ++ rest).
  2:{ rewrite <- B, <- !app_assoc. do 3 f_equal. unfold fl, ptl. destruct (w_ptl s); reflexivity. }
  assert (Fl : fl < 2) by (unfold fl; destruct (w_ptl s); lia).
  eapply (takesr_bind 0 0); [apply takesr_of, takes_byte; exact Hh0|rewrite len_u; reflexivity|lia|].
  eapply (takesr_bind 0 0); [apply takesr_of, takes_byte; exact Hh1|rewrite len_u; reflexivity|lia|].
  rewrite shiftr_div. change (2 ^ 3) with 8 at 1. rewrite Ht. change (negb (15 =? 15)) with false. cbn iota.
  eapply (takesr_bind 0 0); [apply takesr_of, takes_byte; exact Hi|rewrite len_u; reflexivity|lia|].
  eapply (takesr_bind 0 0); [apply takesr_of, takes_byte; lia|rewrite len_u; reflexivity|lia|].
  set (x := w_sub s * 32 + w_chroma s * 8 + w_ctu s * 2 + fl) in *.
  replace (N.shiftr x 5) with (w_sub s) by (rewrite shiftr_div; change (2 ^ 5) with 32; unfold x; lia).
  replace (N.shiftr (N.land x 31) 3) with (w_chroma s) by (rewrite shiftr_div, land31; change (2 ^ 3) with 8; unfold x; lia).
  replace (N.land x 1) with fl by (rewrite BitLemmas.land1; unfold x; lia).
  assert (Ec : N.shiftl 1 (N.shiftr (N.land x 6) 1 + 5) = 2 ^ (w_ctu s + 5)).
  { rewrite shiftl_mul, N.mul_1_l. f_equal. f_equal. change 6 with (N.shiftl 3 1). rewrite field, land3, shiftr_div. change (2 ^ 1) with 2. unfold x. lia. }
  rewrite Ec. assert (Hc : 32 <= 2 ^ (w_ctu s + 5) <= 128) by (assert (w_ctu s = 0 \/ w_ctu s = 1 \/ w_ctu s = 2) as [->|[->| ->]] by lia; cbn; lia).
  assert (P : exists f, takesr 0 (if fl =? 0 then bret None else get! p := vvc_ptl (w_sub s + 1) (w_chroma s) in bret (Some p)) ptl f /\
     match f with Some p => Some (p (w_w s) (w_h s) (w_depth s)) | None => None end = vvc_out s).
  { unfold fl, ptl, vvc_out. destruct (w_ptl s) as [p|].
    - destruct (vptl_takes (w_sub s) (w_chroma s) p H1 H4) as (f & T & E). exists (Some f). split; [|rewrite E; reflexivity].
      cbn [N.eqb]. change (1 =? 0) with false. cbn iota.
      rewrite <- (app_nil_r (vptl_bits p)). intros s0 C Hr R. rewrite app_nil_r in *. destruct (T s0 C Hr R) as (s1 & E1 & R1). exists s1. split; [|exact R1]. unfold bbind. rewrite E1. reflexivity.
    - exists None. split; [apply takesr_of, takes_ret|reflexivity]. }
  destruct P as (f & P & Ef). 
  intros s0 C Hr R. rewrite <- app_assoc in Hr, R. destruct (P s0 _ Hr R) as (s1 & E1 & R1). unfold bbind at 1. rewrite E1. cbn [fst snd].
  revert s1 C E1 R1 Hr R. cut (takes true
    (get! _ := get_bits true 1 in get! resample := flag in get! _ := (if resample then get_bits true 1 else bret 0) in
     get! w := golomb true in get! h := golomb true in get! window := flag in get! _ := (if window then times 4 (golomb true) else bret []) in
     get! sub := flag in get! _ := (if sub then vvc_subpic_info w h (2 ^ (w_ctu s + 5)) else bret tt) in get! depth := golomb true in
     bret (w, h, match f with Some p => Some (p w h depth) | None => None end)) rest (w_w s, w_h s, vvc_out s)).
  { intros G s1 C _ R1 _ _. apply (G s1 C R1). }
  subst rest. tnext; [apply takes_flag|].
  assert (Tr : exists v, takes true (get! resample := flag in if resample then get_bits true 1 else bret 0) (match w_resample s with Some b => [true; b] | None => [false] end) v).
  { destruct (w_resample s) as [b|].
    - exists (b2n b). change [true; b] with ([true] ++ [b]). tnext; [apply takes_vflag|]. apply takes_flag.
    - exists 0. eapply takes_bind_last; [apply takes_vflag|]. apply takes_ret. }
  destruct Tr as (v & Tr). apply takes_assoc. tnext; [exact Tr|]. tnext; [apply takes_ue; lia|]. tnext; [apply takes_ue; lia|].
  destruct (takes_win (w_win s) H7) as (l & Tw). apply takes_assoc. tnext; [exact Tw|].
  assert (Ti : takes true (get! sub := flag in if sub then vvc_subpic_info (w_w s) (w_h s) (2 ^ (w_ctu s + 5)) else bret tt)
     (match w_pics s with Some x => [true] ++ info_bits (w_w s) (w_h s) (2 ^ (w_ctu s + 5)) x | None => [false] end) tt).
  { destruct (w_pics s) as [px|].
    - tnext; [apply takes_vflag|]. apply takes_info; assumption.
    - eapply takes_bind_last; [apply takes_vflag|apply takes_ret]. }
  apply takes_assoc. tnext; [exact Ti|]. eapply takes_bind_last; [apply takes_ue; lia|]. rewrite Ef. apply takes_ret.
Qed.

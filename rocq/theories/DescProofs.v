(* DescProofs.v -- lemmas about the descriptor model. *)
From Verif Require Import Base Codec BitLemmas AtomModel AtomSpec AtomProofs BoxModel BoxSpec BoxProofs HandleProofs DescModel DescSpec.
From Coq Require Import Permutation.

(* ------------------------------------------------------------------ *)
(* lengths                                                              *)

Lemma land128_0 x : x < 256 -> (N.land x 128 =? 0) = (x <? 128).
Proof.
  intros H. assert (E : N.land x 128 = 128 * (x / 128)).
  { assert (B : N.land x 128 = N.shiftl (N.land (N.shiftr x 7) 1) 7).
    { rewrite N.shiftl_land. apply N.bits_inj. intros n. rewrite !N.land_spec. change (N.shiftl 1 7) with 128.
      destruct (N.eqb_spec n 7) as [->|E].
      - rewrite N.shiftl_spec_high' by lia. rewrite N.shiftr_spec'. reflexivity.
      - assert (Z : N.testbit 128 n = false) by (change 128 with (2 ^ 7); apply N.pow2_bits_false; congruence). rewrite Z, !andb_false_r. reflexivity. }
    rewrite B, shiftl_mul, land1, shiftr_div. change (2 ^ 7) with 128. assert (x / 128 < 2) by (apply N.div_lt_upper_bound; lia). rewrite N.mod_small by lia. lia. }
  rewrite E. destruct (N.ltb_spec x 128); destruct (N.eqb_spec (128 * (x / 128)) 0); lia.
Qed.
Lemma len_rd_ok bs r : len_form bs -> forall acc n, acc < 4294967296 -> n < 4294967296 ->
  len_rd (bs ++ r) acc n = Ok (w32 (fold_left (fun a b => a * 128 + b mod 128) bs acc), mkR r (w32 (n + len bs))).
Proof.
  induction bs as [|b bs IH]; intros F acc n Ha Hn; [contradiction|]. cbn [app len_rd fold_left].
  assert (Hb : b < 256 /\ (bs = [] -> b < 128) /\ (bs <> [] -> 128 <= b /\ len_form bs)).
  { cbn [len_form] in F. destruct bs; [split; [lia|]; split; [auto|congruence]|]. destruct F as [F1 F2]. split; [lia|]. split; [discriminate|]. intros _. split; [lia|exact F2]. }
  destruct Hb as (Hb & B1 & B2). rewrite land128_0 by assumption. rewrite land127, shiftl_mul. change (2 ^ 7) with 128.
  assert (E : N.lor (w32 (acc * 128)) (b mod 128) = w32 (acc * 128 + b mod 128)).
  { unfold w32. replace (acc * 128 mod 4294967296) with ((acc mod 33554432) * 2 ^ 7) by (change (2 ^ 7) with 128; lia).
    rewrite lor_mul by (change (2 ^ 7) with 128; lia). change (2 ^ 7) with 128. lia. }
  rewrite E. destruct bs as [|c bs].
  - destruct (N.ltb_spec b 128); [|specialize (B1 eq_refl); lia]. cbn [app fold_left]. lens. reflexivity.
  - destruct (B2 ltac:(discriminate)) as [B3 B4]. destruct (N.ltb_spec b 128); [lia|].
    rewrite (IH B4) by apply w32_lt. f_equal. f_equal.
    + generalize (acc * 128 + b mod 128). clear. generalize (c :: bs). intros l.
      assert (G : forall l a a', w32 a = w32 a' -> w32 (fold_left (fun a b => a * 128 + b mod 128) l a) = w32 (fold_left (fun a b => a * 128 + b mod 128) l a')).
      { clear. induction l as [|x l IH]; intros a a' E; cbn [fold_left]; [exact E|]. apply IH. unfold w32 in *. lia. }
      intros x. apply G. unfold w32. lia.
    + rewrite w32_add_l. f_equal. f_equal. lens. lia.
Qed.
Lemma len_rd_short bs p q : len_form bs -> bs = p ++ q -> q <> [] -> forall acc n, len_rd p acc n = Err MP4IOErr.
Proof.
  revert p. induction bs as [|b bs IH]; intros p F E Q acc n; [contradiction|]. destruct p as [|x p]; [reflexivity|].
  injection E as -> E. cbn [len_rd].
  assert (bs <> []) by (rewrite E; destruct p; [exact Q|discriminate]).
  cbn [len_form] in F. destruct bs as [|c bs]; [contradiction|]. destruct F as [F1 F2].
  rewrite land128_0 by lia. destruct (N.ltb_spec x 128); [lia|]. apply (IH p F2 E Q).
Qed.
Lemma parses_len bs n : n < 4294967296 -> len_form bs -> parses n get_len bs (w32 (len_value bs)).
Proof.
  intros Hn F. split.
  - intros r. unfold get_len. cbn [inp rdn]. apply len_rd_ok; [exact F|reflexivity|exact Hn].
  - intros p q E Q. unfold get_len. cbn [inp rdn]. eapply len_rd_short; eassumption.
Qed.
Lemma len4_form n : n < 268435456 -> len_form (len4 n).
Proof. intros H. unfold len4. cbn [len_form]. lia. Qed.
Lemma len4_value n : n < 268435456 -> len_value (len4 n) = n.
Proof. intros H. unfold len_value, len4. cbn [fold_left]. lia. Qed.
Lemma parses_len4 l n : n < 4294967296 -> l < 268435456 -> parses n get_len (len4 l) l.
Proof.
  intros Hn H. eapply parses_eq; [apply parses_len; [exact Hn|apply len4_form; exact H]|reflexivity|reflexivity|].
  rewrite len4_value by assumption. apply w32_small. lia.
Qed.
Lemma writes_base tag l : l < 268435456 -> writes (base_w tag (5 + l)) (be8 tag ++ len4 l).
Proof.
  intros H. unfold base_w. assert (E : sub32 (5 + l) 5 = l) by (unfold sub32, w32; lia). rewrite E.
  assert (L : forall x, N.lor (x mod 128) 128 = 128 + x mod 128).
  { intros x. rewrite N.lor_comm. change 128 with (1 * 2 ^ 7) at 1. rewrite lor_mul by (change (2 ^ 7) with 128; lia). reflexivity. }
  rewrite !land127, !L, !shiftr_div. change (2 ^ 21) with 2097152. change (2 ^ 14) with 16384. change (2 ^ 7) with 128.
  eapply writes_eq; [repeat wstep|]. unfold len4, be8. cbn [app]. repeat (f_equal; try lia).
Qed.

(* ------------------------------------------------------------------ *)
(* fields                                                               *)

Lemma bit7 v : N.testbit v 7 = (v / 128 mod 2 =? 1). Proof. apply N.testbit_eqb. Qed.
Lemma bit6 v : N.testbit v 6 = (v / 64 mod 2 =? 1). Proof. apply N.testbit_eqb. Qed.
Lemma bit5 v : N.testbit v 5 = (v / 32 mod 2 =? 1). Proof. apply N.testbit_eqb. Qed.
Lemma bit4 v : N.testbit v 4 = (v / 16 mod 2 =? 1). Proof. apply N.testbit_eqb. Qed.

Lemma writes_pstr url : writes (url_w url) (pstr url).
Proof. unfold url_w, pstr. destruct url; repeat wstep. Qed.
Lemma len_pstr url : len (pstr url) = url_size url.
Proof. unfold pstr, url_size. destruct url; [reflexivity|]. lens. lia. Qed.
Lemma parses_url n url b : n < 4294967296 -> len url < 256 -> (b = match url with [] => false | _ => true end) -> parses n (url_rd b) (pstr url) url.
Proof.
  intros Hn H ->. unfold url_rd, pstr. destruct url as [|x url]; [apply parses_ret; exact Hn|].
  pnext; [apply parses_get8; exact H|]. apply parses_take_eq. unfold len. lia.
Qed.

(* as [writes], for a window that is filled to its end *)
Definition fills (w : wr) (bs : list N) : Prop := forall s, len (wout s) + len bs = wsz s -> wsz s < 4294967296 ->
  w s = Ok (mkW (wout s ++ bs) (wsz s)).
Lemma writes_fills w bs : writes w bs -> fills w bs.
Proof. intros H s E L. apply H; lia. Qed.
Lemma fills_seq a b x y : writes a x -> fills b y -> fills (a ;; b) (x ++ y).
Proof.
  intros A B s E L. revert E. lens. intros E. unfold wseq. rewrite A by lia. cbn [bind].
  rewrite B; cbn [wout wsz]; [rewrite app_assoc; reflexivity| |exact L]. lens. lia.
Qed.
Lemma fills_filled a x : writes a x -> fills (a ;; wfilled) x.
Proof.
  intros A s E L. unfold wseq. rewrite A by lia. cbn [bind]. unfold wfilled. cbn [wout wsz]. lens. rewrite E, N.eqb_refl. reflexivity.
Qed.
Lemma fills_run w bs n : fills w bs -> n = len bs -> n < 4294967296 -> wrun n w = Ok bs.
Proof. intros H -> L. unfold wrun. rewrite H; [reflexivity|reflexivity|exact L]. Qed.
Lemma fills_eq w x y : fills w x -> x = y -> fills w y. Proof. intros H <-. exact H. Qed.
Lemma fills_after a b x y : fills (a ;; b) x -> y = [] -> fills (a ;; (b ;; wret)) (x ++ y).
Proof.
  intros H ->. rewrite app_nil_r. intros s E L. specialize (H s E L). unfold wseq in *. destruct (a s) as [t| |]; cbn [bind] in *; try discriminate.
  rewrite H. reflexivity.
Qed.

Lemma flag_yes x v : flag x v = yes x v. Proof. reflexivity. Qed.
Lemma writes_sl s : sl_ok s -> writes (sl_w s) (fields (HSL s)).
Proof.
  intros [T H]. unfold sl_w. cbn [fields]. apply writes_seq; [wstep|].
  destruct (N.eqb_spec (sl_ts s) 0) as [E|_]; [contradiction|].
  apply writes_seq; [|destruct (sl_dur s =? 0); [eapply writes_eq; [repeat wstep|reflexivity]|]].
  - destruct (N.eqb_spec (sl_pre s) 0) as [P|P]; [|wstep]. destruct H as [H|H]; [lia|].
    match goal with |- writes (put8 ?a ;; _) (be8 ?b ++ _) => assert (E : a = b) end.
    { unfold flag, yes. destruct (sl_austart s =? 0), (sl_auend s =? 0), (sl_rap s =? 0), (sl_rau s =? 0), (sl_pad s =? 0), (sl_ts s =? 0), (sl_idle s =? 0), (sl_dur s =? 0); reflexivity. }
    rewrite E. do 7 (apply writes_seq; [wstep|]).
    eapply writes_eq; [wstep|]. f_equal.
    rewrite !shiftl_mul. change (2 ^ 12) with 4096. change (2 ^ 7) with 128. change (2 ^ 2) with 4. rewrite !w32_small by lia.
    change 4096 with (2 ^ 12) at 1. rewrite lor_mul by (change (2 ^ 12) with 4096; lia).
    replace (sl_deg s * 2 ^ 12 + sl_auseq s * 128) with ((sl_deg s * 32 + sl_auseq s) * 2 ^ 7) by (change (2 ^ 12) with 4096; change (2 ^ 7) with 128; lia).
    rewrite lor_mul by (change (2 ^ 7) with 128; lia).
    replace ((sl_deg s * 32 + sl_auseq s) * 2 ^ 7 + sl_pkseq s * 4) with (((sl_deg s * 32 + sl_auseq s) * 32 + sl_pkseq s) * 2 ^ 2) by (change (2 ^ 2) with 4; change (2 ^ 7) with 128; lia).
    rewrite lor_mul by (change (2 ^ 2) with 4; lia). change (2 ^ 2) with 4. lia.
  - rewrite <- (app_nil_r (_ ++ _)). apply writes_seq; repeat wstep.
Qed.

Lemma head_writes h w bs : head_ok h -> writes w bs -> (order h = [] -> w = wret /\ bs = []) -> fills (head_w h ;; w) (fields h ++ bs).
Proof.
  intros H W O. destruct h as [t d|t|r|oti st up buf mx av|s|esid dep prio ocr url|t id url|id il url p1 p2 p3 p4 p5|t id tool es|id url|]; cbn [head_w order fields head_ok] in *.
  - apply writes_fills, writes_seq; [apply writes_putl|exact W].
  - apply writes_fills, writes_seq; [wstep|exact W].
  - apply writes_fills, writes_seq; [wstep|exact W].
  - apply writes_fills, writes_seq; [|exact W]. destruct H as (H1 & H2 & H3 & H4 & H5).
    apply writes_seq; [wstep|].
    assert (E : N.lor (N.lor (w8 (N.shiftl st 2)) (flag up 2)) 1 = st * 4 + yes up 2 + 1).
    { rewrite shiftl_mul. change (2 ^ 2) with 4. unfold w8. rewrite N.mod_small by lia. change 4 with (2 ^ 2) at 1.
      rewrite lor_mul by (unfold flag; destruct (up =? 0); reflexivity). unfold flag, yes. destruct (up =? 0).
      - rewrite N.add_0_r. rewrite lor_mul by reflexivity. change (2 ^ 2) with 4. lia.
      - replace (st * 2 ^ 2 + 2) with ((st * 2 + 1) * 2 ^ 1) by (change (2 ^ 2) with 4; change (2 ^ 1) with 2; lia).
        rewrite lor_mul by reflexivity. change (2 ^ 1) with 2. lia. }
    rewrite E. repeat (apply writes_seq; [wstep|]). wstep.
  - apply writes_fills, writes_seq; [apply writes_sl; exact H|exact W].
  - apply writes_fills, writes_seq; [|exact W]. destruct H as (H1 & H2 & H3 & H4 & H5).
    apply writes_seq; [wstep|].
    assert (E : N.lor (N.lor (N.lor (w8 prio) (flag ocr 32)) match url with [] => 0 | _ :: _ => 64 end) (flag dep 128) = yes dep 128 + some url 64 + yes ocr 32 + prio).
    { unfold w8. rewrite N.mod_small by lia. unfold flag, yes, some.
      assert (L : forall k a b, b < 2 ^ k -> N.lor b (a * 2 ^ k) = b + a * 2 ^ k) by (intros; rewrite N.lor_comm, lor_mul by assumption; lia).
      change 32 with (1 * 2 ^ 5). change 64 with (1 * 2 ^ 6). change 128 with (1 * 2 ^ 7).
      destruct (ocr =? 0), (dep =? 0), url; rewrite ?N.lor_0_r, ?N.lor_0_l; rewrite ?(L 5) by (cbn; lia); rewrite ?(L 6) by (cbn; lia); rewrite ?(L 7) by (cbn; lia); lia. }
    rewrite E. apply writes_seq; [wstep|]. apply writes_seq; [destruct (dep =? 0); repeat wstep|].
    apply writes_seq; [apply writes_pstr|]. destruct (ocr =? 0); repeat wstep.
  - apply writes_fills, writes_seq; [|exact W]. destruct H as (H1 & H2 & H3).
    assert (E : N.lor (N.lor (w16 (N.shiftl id 6)) match url with [] => 0 | _ :: _ => 32 end) 31 = id * 64 + some url 32 + 31).
    { rewrite shiftl_mul. change (2 ^ 6) with 64. unfold w16. rewrite N.mod_small by lia. unfold some. destruct url.
      - rewrite N.lor_0_r. change 64 with (2 ^ 6). rewrite lor_mul by reflexivity. lia.
      - change 64 with (2 ^ 6) at 1. rewrite lor_mul by reflexivity.
        replace (id * 2 ^ 6 + 32) with ((id * 2 + 1) * 2 ^ 5) by (change (2 ^ 6) with 64; change (2 ^ 5) with 32; lia).
        rewrite lor_mul by reflexivity. change (2 ^ 5) with 32. lia. }
    rewrite E. apply writes_seq; [wstep|apply writes_pstr].
  - apply writes_fills, writes_seq; [|exact W]. destruct H as (H1 & H3 & _).
    assert (E : N.lor (N.lor (N.lor (w16 (N.shiftl id 6)) match url with [] => 0 | _ :: _ => 32 end) (flag il 16)) 15 = id * 64 + some url 32 + yes il 16 + 15).
    { rewrite shiftl_mul. change (2 ^ 6) with 64. unfold w16. rewrite N.mod_small by lia. unfold some, flag, yes.
      assert (A : N.lor (id * 64) match url with [] => 0 | _ :: _ => 32 end = (id * 2 + match url with [] => 0 | _ :: _ => 1 end) * 2 ^ 5).
      { change 64 with (2 ^ 6). rewrite lor_mul by (destruct url; reflexivity). change (2 ^ 6) with 64. change (2 ^ 5) with 32. destruct url; lia. }
      rewrite A. rewrite lor_mul by (destruct (il =? 0); reflexivity).
      replace ((id * 2 + match url with [] => 0 | _ :: _ => 1 end) * 2 ^ 5 + (if il =? 0 then 0 else 16)) with
        ((id * 4 + match url with [] => 0 | _ :: _ => 2 end + (if il =? 0 then 0 else 1)) * 2 ^ 4)
        by (change (2 ^ 5) with 32; change (2 ^ 4) with 16; destruct url, (il =? 0); lia).
      rewrite lor_mul by reflexivity. change (2 ^ 4) with 16. destruct url, (il =? 0); lia. }
    rewrite E. apply writes_seq; [wstep|]. destruct url as [|x url]; [repeat (apply writes_seq; [wstep|]); wstep|apply writes_pstr].
  - destruct (O eq_refl) as [-> ->].
    eapply fills_eq; [|reflexivity].
    intros s E L. rewrite app_nil_r in *. rewrite len_app in E. change (len (be8 id)) with 1 in E. unfold wseq. rewrite (writes_put8 id s) by (change (len (be8 id)) with 1; lia). cbn [bind].
    assert (WW : writes (if id =? 255 then put16 tool;; put16 es else wret) (if id =? 255 then be16 tool ++ be16 es else [])) by (destruct (id =? 255); repeat wstep).
    change (put16 tool;; put16 es) with (fun s0 => do s' <- put16 tool s0; put16 es s') in WW. rewrite WW by (cbn [wout wsz]; lens; lia). cbn [bind].
    unfold wfilled. cbn [wout wsz]. destruct (N.eqb_spec (len ((wout s ++ be8 id) ++ (if id =? 255 then be16 tool ++ be16 es else []))) (wsz s)) as [_|N0]; [|exfalso; apply N0; lens; lia].
    unfold wret. cbn [bind]. rewrite app_assoc. reflexivity.
  - destruct (O eq_refl) as [-> ->].
    assert (WW : writes (put16 id ;; put64 0 ;; put64 0 ;; put32 (len url) ;; putl url) (be16 id ++ be64 0 ++ be64 0 ++ be32 (len url) ++ url)) by (repeat (apply writes_seq; [wstep|]); apply writes_putl).
    apply fills_filled in WW. intros s E L. rewrite app_nil_r in *. specialize (WW s E L).
    unfold wseq in *. destruct (put16 id s) as [s1| |]; cbn [bind] in *; try discriminate. destruct (put64 0 s1) as [s2| |]; cbn [bind] in *; try discriminate.
    destruct (put64 0 s2) as [s3| |]; cbn [bind] in *; try discriminate. destruct (put32 (len url) s3) as [s4| |]; cbn [bind] in *; try discriminate.
    destruct (putl url s4) as [s5| |]; cbn [bind] in *; try discriminate. rewrite WW. reflexivity.
  - apply writes_fills, writes_seq; [wstep|exact W].
Qed.
Lemma head_size_ok h : head_ok h -> head_size h = len (fields h).
Proof.
  intros H. destruct h as [t d|t|r|oti st up buf mx av|s|esid dep prio ocr url|t id url|id il url p1 p2 p3 p4 p5|t id tool es|id url|]; cbn [head_size fields]; try reflexivity.
  - destruct H as [T _]. destruct (N.eqb_spec (sl_ts s) 0); [contradiction|]. lens. destruct (sl_pre s =? 0), (sl_dur s =? 0); lens; lia.
  - lens. rewrite len_pstr. destruct (dep =? 0), (ocr =? 0); lens; lia.
  - lens. rewrite len_pstr. lia.
  - lens. destruct url; [reflexivity|]. rewrite len_pstr. cbn [url_size]. lia.
  - lens. destruct (id =? 255); lens; lia.
  - lens. lia.
Qed.

Lemma parses_at_end n size bs b (k : unit -> rd b) x : n = size -> parses n (k tt) bs x -> parses n (rbind (at_end size) k) bs x.
Proof.
  intros -> H. eapply parses_bind_nil; [|exact H]. intros s E. unfold at_end, rbind, getrdn. rewrite E, N.eqb_refl. reflexivity.
Qed.
Lemma sl_tail m size v : m < 4294967296 -> m <> sub32 size 1 ->
  parses m (let* n := getrdn in let* j := (if n =? sub32 size 1 then get8 else rret 0) in rret v) [] (v : slc).
Proof.
  intros H E. apply parses_getrdn. destruct (N.eqb_spec m (sub32 size 1)); [contradiction|].
  pnext; [apply parses_ret; exact H|]. apply parses_ret_eq; [apply w32_lt|reflexivity].
Qed.
Lemma sub1_ne n : 0 < n < 4294967296 -> n <> sub32 n 1.
Proof. unfold sub32, w32. lia. Qed.
Definition sl_bits (s : slc) : N := yes (sl_austart s) 128 + yes (sl_auend s) 64 + yes (sl_rap s) 32 + yes (sl_rau s) 16 +
              yes (sl_pad s) 8 + yes (sl_ts s) 4 + yes (sl_idle s) 2 + yes (sl_dur s) 1.
Lemma sl_bits_ok s : sl_bits s < 256 /\
  forall k v, In (k, v) [(7, sl_austart s); (6, sl_auend s); (5, sl_rap s); (4, sl_rau s); (3, sl_pad s); (2, sl_ts s); (1, sl_idle s); (0, sl_dur s)] ->
  (if N.testbit (sl_bits s) k then 1 else 0) = one v.
Proof.
  split.
  - unfold sl_bits, yes. destruct (sl_austart s =? 0), (sl_auend s =? 0), (sl_rap s =? 0), (sl_rau s =? 0), (sl_pad s =? 0), (sl_ts s =? 0), (sl_idle s =? 0), (sl_dur s =? 0); reflexivity.
  - intros k v I. unfold sl_bits, one, yes. cbn [In] in I.
    repeat (destruct I as [I|I]; [injection I as <- <-; destruct (sl_austart s =? 0), (sl_auend s =? 0), (sl_rap s =? 0), (sl_rau s =? 0), (sl_pad s =? 0), (sl_ts s =? 0), (sl_idle s =? 0), (sl_dur s =? 0); reflexivity|]). contradiction.
Qed.
Lemma pb {A B} n (m : rd A) (k : A -> rd B) bs bs' a b : n + len bs < 4294967296 ->
  parses n m bs a -> parses (n + len bs) (k a) bs' b -> parses n (rbind m k) (bs ++ bs') b.
Proof. intros L P Q. eapply parses_bind; [exact P|]. rewrite w32_small by exact L. exact Q. Qed.
Lemma pb_ret {A B} n (x : A) (k : A -> rd B) bs b : n < 4294967296 ->
  parses n (k x) bs b -> parses n (rbind (rret x) k) bs b.
Proof. intros L Q. change bs with ([] ++ bs). apply (pb n (rret x) k [] bs x b); [change (len (@nil N)) with 0; lia|apply parses_ret; exact L|change (len (@nil N)) with 0; rewrite N.add_0_r; exact Q]. Qed.
Lemma parses_sl n size s : sl_ok s -> n < 4294967296 -> size = n + len (fields (HSL s)) -> size < 4294967296 ->
  parses n (sl_rd size) (fields (HSL s)) (match head_view (HSL s) with HSL t => t | _ => s end).
Proof.
  intros [T H] Hn Es Hs. unfold sl_rd. cbn [fields head_view] in *. destruct H as [[P D]|[P H]]; rewrite P in *.
  - change (2 =? 0) with false in *. rewrite D in *. change (0 =? 0) with true in *. cbv iota in *. cbn [app] in *.
    revert Es. lens. intros Es.
    apply pb with (a := 2); [lens; lia|apply parses_get8; reflexivity|]. change (2 =? 0) with false. change (2 =? 2) with true. cbv beta iota.
    apply pb_ret; [lens; lia|]. cbn [sl_dur]. change (0 =? 0) with true. cbv iota.
    apply pb_ret; [lens; lia|]. cbn [sl_ts]. change (1 =? 0) with false. cbv iota.
    apply pb_ret; [lens; lia|].
    apply sl_tail; lens; [lia|]. rewrite Es. apply sub1_ne. lia.
  - change (0 =? 0) with true in *. cbv iota in *. fold (sl_bits s) in *. destruct (sl_bits_ok s) as [B1 B2].
    destruct H as (H1 & H2 & H3 & H4 & H5 & H6 & H7 & H8 & H9 & HD).
    revert Es. lens. intros Es.
    apply pb with (a := 0); [lens; lia|apply parses_get8; reflexivity|]. change (0 =? 0) with true. cbv beta iota.
    set (v := mkSlc 0 (one (sl_austart s)) (one (sl_auend s)) (one (sl_rap s)) (one (sl_rau s)) (one (sl_pad s)) (one (sl_ts s)) (one (sl_idle s)) (one (sl_dur s))
        (sl_tsres s) (sl_ocrres s) (sl_tslen s) (sl_ocrlen s) (sl_aulen s) (sl_brlen s) (sl_deg s) (sl_auseq s) (sl_pkseq s) 0 0 0).
    apply pb with (a := v); [lens; lia| |].
    { do 8 (pnext; [first [apply parses_get8; assumption|apply parses_get32; assumption|apply parses_get16; lia]|]).
      apply parses_ret_eq; [apply w32_lt|]. unfold v. rewrite !land31, !shiftr_div. change (2 ^ 12) with 4096. change (2 ^ 7) with 128. change (2 ^ 2) with 4.
      rewrite (B2 7 (sl_austart s)), (B2 6 (sl_auend s)), (B2 5 (sl_rap s)), (B2 4 (sl_rau s)), (B2 3 (sl_pad s)), (B2 2 (sl_ts s)), (B2 1 (sl_idle s)), (B2 0 (sl_dur s)) by (cbn [In]; auto 10).
      assert (E1 : (sl_deg s * 4096 + sl_auseq s * 128 + sl_pkseq s * 4 + 3) / 4096 = sl_deg s) by (clear - H7 H8 H9; lia).
      assert (E2 : (sl_deg s * 4096 + sl_auseq s * 128 + sl_pkseq s * 4 + 3) / 128 mod 32 = sl_auseq s) by (clear - H7 H8 H9; lia).
      assert (E3 : (sl_deg s * 4096 + sl_auseq s * 128 + sl_pkseq s * 4 + 3) / 4 mod 32 = sl_pkseq s) by (clear - H7 H8 H9; lia).
      rewrite E1, E2, E3. reflexivity. }
    assert (T1 : one (sl_ts s) = 1) by (unfold one, yes; destruct (N.eqb_spec (sl_ts s) 0); [contradiction|reflexivity]).
    unfold v. cbn [sl_dur sl_ts sl_pre sl_austart sl_auend sl_rap sl_rau sl_pad sl_idle sl_tsres sl_ocrres sl_tslen sl_ocrlen sl_aulen sl_brlen sl_deg sl_auseq sl_pkseq].
    clear v. lens. destruct (N.eqb_spec (sl_dur s) 0) as [D|D].
    + rewrite D in *. change (one 0) with 0. change (yes 0 (sl_scale s)) with 0. change (yes 0 (sl_audur s)) with 0. change (yes 0 (sl_cudur s)) with 0.
      change (0 =? 0) with true in *. cbv iota in *. revert Es. lens. intros Es.
      apply pb_ret; [lia|]. cbn [sl_ts]. rewrite T1. change (1 =? 0) with false. cbv iota.
      apply pb_ret; [lia|]. apply sl_tail; [lia|]. replace size with (n + 1 + (1 + (4 + (4 + (1 + (1 + (1 + (1 + 2)))))))) by lia. apply sub1_ne. lia.
    + destruct (HD D) as (H10 & H11 & H12). assert (D1 : forall x, yes (sl_dur s) x = x) by (intros; unfold yes; destruct (N.eqb_spec (sl_dur s) 0); [contradiction|reflexivity]).
      rewrite !D1. assert (D2 : one (sl_dur s) = 1) by apply D1. rewrite D2. change (1 =? 0) with false. cbv iota. revert Es. lens. intros Es.
      rewrite <- (app_nil_r (be32 _ ++ _)).
      eapply pb; [lens; lia|do 3 (pnext; [first [apply parses_get32; assumption|apply parses_get16; assumption]|]); apply parses_ret; apply w32_lt|].
      cbn [sl_ts]. rewrite T1. change (1 =? 0) with false. cbv iota. lens.
      apply pb_ret; [lia|]. apply sl_tail; [lia|]. match goal with |- ?x <> _ => replace size with x by lia end. apply sub1_ne. lia.
Qed.

Lemma special_neq t x : special t = false -> In x [1; 2; 3; 4; 6; 10; 14; 15; 16; 17; 21; 96; 98; 99] -> (t =? x) = false.
Proof.
  unfold special. intros H I. destruct (t =? x) eqn:E; [|reflexivity]. exfalso.
  assert (X : existsb (N.eqb t) [1; 2; 3; 4; 6; 10; 14; 15; 16; 17; 21; 96; 98; 99] = true) by (apply existsb_exists; exists x; auto). congruence.
Qed.
Lemma testbit_at x k : N.testbit x k = (x / 2 ^ k mod 2 =? 1).
Proof. apply N.testbit_eqb. Qed.
Lemma parses_head h size : head_ok h -> (order h = [] -> size = 5 + len (fields h)) -> size < 4294967296 ->
  parses 5 (head_rd (htag h) size) (fields h) (head_view h).
Proof.
  intros H S L. destruct h as [t d|t|r|oti st up buf mx av|s|esid dep prio ocr url|t id url|id il url p1 p2 p3 p4 p5|t id tool es|id url|]; cbn [htag fields head_view head_ok order] in *.
  - destruct H as [H1 H2]. specialize (S eq_refl). unfold head_rd.
    rewrite !(special_neq t) by (exact H2 || (cbn [In]; auto 20)). cbn [orb]. cbv iota.
    apply parses_getrdn. eapply parses_bind_last; [apply parses_take_eq; unfold sub32, w32, len in *; lia|]. apply parses_ret, w32_lt.
  - change (head_rd 14 size) with (let* t := get32 in rret (HInc t)). eapply parses_bind_last; [apply parses_get32; exact H|]. apply parses_ret, w32_lt.
  - change (head_rd 15 size) with (let* r := get16 in rret (HRef r)). eapply parses_bind_last; [apply parses_get16; exact H|]. apply parses_ret, w32_lt.
  - destruct H as (H1 & H2 & H3 & H4 & H5).
    change (head_rd 4 size) with (let* oti := get8 in
    let* v := get8 in
    let* b1 := get16 in let* b2 := get8 in
    let* mx := get32 in let* av := get32 in
    rret (HDec oti (N.shiftr v 2) (N.land v 2) (N.lor (N.shiftl b1 8) b2) mx av)).
    assert (E24 : be24 buf = be16 (buf / 256) ++ be8 (buf mod 256)).
    { unfold be24, be16, be8. cbn [app]. rewrite N.div_div by discriminate. change (256 * 256) with 65536. rewrite N.mod_mod by discriminate. reflexivity. }
    rewrite E24, <- app_assoc.
    pnext; [apply parses_get8; exact H1|]. pnext; [apply parses_get8; unfold yes; destruct (up =? 0); lia|].
    pnext; [apply parses_get16; lia|]. pnext; [apply parses_get8; lia|]. pnext; [apply parses_get32; exact H4|]. pnext; [apply parses_get32; exact H5|].
    apply parses_ret_eq; [apply w32_lt|]. rewrite shiftr_div. change (2 ^ 2) with 4.
    assert (E1 : (st * 4 + yes up 2 + 1) / 4 = st) by (unfold yes; destruct (up =? 0); lia).
    assert (E2 : N.land (st * 4 + yes up 2 + 1) 2 = yes up 2).
    { change 2 with (N.shiftl 1 1) at 2. apply N.bits_inj. intros k. rewrite N.land_spec.
      destruct (N.eqb_spec k 1) as [->|K].
      - rewrite !testbit_at. change (N.shiftl 1 1) with 2. change (2 ^ 1) with 2. unfold yes. destruct (up =? 0); change (2 / 2 mod 2 =? 1) with true; rewrite andb_true_r; destruct (N.eqb_spec ((st * 4 + 0 + 1) / 2 mod 2) 1); destruct (N.eqb_spec ((st * 4 + 2 + 1) / 2 mod 2) 1); try reflexivity; exfalso; lia.
      - assert (Z : forall y, y = 0 \/ y = 2 -> N.testbit y k = false).
        { intros y [->| ->]; [apply N.bits_0|]. change 2 with (2 ^ 1). apply N.pow2_bits_false. congruence. }
        rewrite (Z (N.shiftl 1 1)) by (right; reflexivity). rewrite andb_false_r. symmetry. apply Z. unfold yes. destruct (up =? 0); auto. }
    assert (E3 : N.lor (N.shiftl (buf / 256) 8) (buf mod 256) = buf).
    { rewrite shiftl_mul, lor_mul by (change (2 ^ 8) with 256; apply N.mod_lt; discriminate). change (2 ^ 8) with 256. lia. }
    rewrite E1, E2, E3. reflexivity.
  - change (head_rd 6 size) with (let* s := sl_rd size in rret (HSL s)).
    specialize (S eq_refl). eapply parses_bind_last; [apply parses_sl; [exact H|reflexivity|exact S|exact L]|]. apply parses_ret_eq; [apply w32_lt|]. reflexivity.
  - destruct H as (H1 & H2 & H3 & H4 & H5).
    change (head_rd 3 size) with (let* esid := get16 in
    let* v := get8 in
    let* dep := (if N.testbit v 7 then get16 else rret 0) in
    let* url := url_rd (N.testbit v 6) in
    let* ocr := (if N.testbit v 5 then get16 else rret 0) in
    rret (HES esid dep (N.land v 31) ocr url)).
    remember (yes dep 128 + some url 64 + yes ocr 32 + prio) as v.
    assert (V1 : v < 256) by (rewrite Heqv; unfold yes, some; destruct (dep =? 0), (ocr =? 0), url; lia).
    assert (V7 : N.testbit v 7 = negb (dep =? 0)).
    { rewrite testbit_at, Heqv. change (2 ^ 7) with 128. unfold yes, some. destruct (dep =? 0), (ocr =? 0), url; cbn [negb]; first [apply N.eqb_neq|apply N.eqb_eq]; lia. }
    assert (V6 : N.testbit v 6 = match url with [] => false | _ => true end).
    { rewrite testbit_at, Heqv. change (2 ^ 6) with 64. unfold yes, some. destruct (dep =? 0), (ocr =? 0), url; cbn [negb]; first [apply N.eqb_neq|apply N.eqb_eq]; lia. }
    assert (V5 : N.testbit v 5 = negb (ocr =? 0)).
    { rewrite testbit_at, Heqv. change (2 ^ 5) with 32. unfold yes, some. destruct (dep =? 0), (ocr =? 0), url; cbn [negb]; first [apply N.eqb_neq|apply N.eqb_eq]; lia. }
    assert (V0 : N.land v 31 = prio).
    { rewrite land31, Heqv. unfold yes, some. destruct (dep =? 0), (ocr =? 0), url; lia. }
    clear Heqv.
    pnext; [apply parses_get16; exact H1|]. pnext; [apply parses_get8; exact V1|].
    rewrite V7, V5, V0.
    pnext; [instantiate (1 := dep); destruct (N.eqb_spec dep 0) as [->|]; cbn [negb]; [apply parses_ret, w32_lt|apply parses_get16; exact H2]|].
    pnext; [apply parses_url; [apply w32_lt|exact H5|exact V6]|].
    eapply parses_bind_last; [instantiate (1 := ocr); destruct (N.eqb_spec ocr 0) as [->|]; cbn [negb]; [apply parses_ret, w32_lt|apply parses_get16; exact H4]|].
    apply parses_ret, w32_lt.
  - destruct H as (H1 & H2 & H3).
    assert (HH : head_rd t size = (let* v := get16 in
    let* url := url_rd (N.testbit v 5) in
    rret (HOD 1 (N.shiftr v 6) url))) by (destruct H1 as [->| ->]; reflexivity). rewrite HH.
    pnext; [apply parses_get16; unfold some; destruct url; lia|].
    eapply parses_bind_last; [apply parses_url; [apply w32_lt|exact H3|]|].
    { rewrite testbit_at. change (2 ^ 5) with 32. unfold some. destruct url; first [apply N.eqb_neq|apply N.eqb_eq]; lia. }
    apply parses_ret_eq; [apply w32_lt|]. f_equal. rewrite shiftr_div. change (2 ^ 6) with 64. unfold some. destruct url; lia.
  - destruct H as (H1 & H2 & H3 & H4 & H5 & H6 & H7).
    change (head_rd 16 size) with (let* v := get16 in
    let* url := url_rd (N.testbit v 5) in
    let inlp := if N.testbit v 4 then 1 else 0 in
    if N.testbit v 5 then rret (HIOD (N.shiftr v 6) inlp url 0 0 0 0 0)
    else let* a := get8 in let* b := get8 in let* c := get8 in let* d := get8 in let* e := get8 in
         rret (HIOD (N.shiftr v 6) inlp url a b c d e)).
    remember (id * 64 + some url 32 + yes il 16 + 15) as v.
    assert (V1 : v < 65536) by (rewrite Heqv; unfold yes, some; destruct (il =? 0), url; lia).
    assert (V5 : N.testbit v 5 = match url with [] => false | _ => true end).
    { rewrite testbit_at, Heqv. change (2 ^ 5) with 32. unfold yes, some. destruct (il =? 0), url; cbn [negb]; first [apply N.eqb_neq|apply N.eqb_eq]; lia. }
    assert (V4 : (if N.testbit v 4 then 1 else 0) = one il).
    { rewrite testbit_at, Heqv. change (2 ^ 4) with 16. unfold one, yes, some. destruct (il =? 0), url; match goal with |- (if ?a =? ?b then _ else _) = _ => destruct (N.eqb_spec a b) end; try reflexivity; exfalso; lia. }
    assert (V6 : N.shiftr v 6 = id).
    { rewrite shiftr_div, Heqv. change (2 ^ 6) with 64. unfold yes, some. destruct (il =? 0), url; lia. }
    clear Heqv. pnext; [apply parses_get16; exact V1|]. cbv zeta. rewrite V4, V5, V6. destruct url as [|x url].
    + apply pb_ret; [apply w32_lt|]. do 4 (pnext; [apply parses_get8; assumption|]). eapply parses_bind_last; [apply parses_get8; assumption|]. apply parses_ret, w32_lt.
    + eapply parses_bind_last; [apply parses_url; [apply w32_lt|exact H2|reflexivity]|]. apply parses_ret, w32_lt.
  - destruct H as (H1 & H2 & H3 & H4). specialize (S eq_refl).
    assert (HH : head_rd t size = (let* id := get8 in
    let* p := (if id =? 255 then let* t := get16 in let* e := get16 in rret (t, e) else rret (0, 0)) in
    let* e := at_end size in
    rret (HPtr t id (fst p) (snd p)))) by (destruct H1 as [->| ->]; reflexivity). rewrite HH. clear HH.
    revert S. lens. intros S.
    apply pb with (a := id); [lens; destruct (id =? 255); lia|apply parses_get8; exact H2|]. destruct (id =? 255).
    + revert S. lens. intros S. rewrite <- (app_nil_r (be16 tool ++ _)). apply pb with (a := (tool, es)); [lens; lia| |].
      * pnext; [apply parses_get16; exact H3|]. eapply parses_bind_last; [apply parses_get16; exact H4|]. apply parses_ret, w32_lt.
      * lens. apply parses_at_end; [lia|]. apply parses_ret; lia.
    + revert S. lens. intros S. apply pb_ret; [lia|]. apply parses_at_end; [lia|]. apply parses_ret; lia.
  - specialize (S eq_refl). change (head_rd 98 size) with (let* id := get16 in let* a := get64 in let* b := get64 in
    if (a =? 0) && (b =? 0) then
      let* n := get32 in let* url := take (N.to_nat n) in let* e := at_end size in rret (HToolD id url)
    else let* f := get8 in rub).
    revert S. lens. intros S.
    apply pb with (a := id); [lens; lia|apply parses_get16; exact H|].
    apply pb with (a := 0); [lens; lia|apply parses_get64; reflexivity|]. apply pb with (a := 0); [lens; lia|apply parses_get64; reflexivity|].
    change ((0 =? 0) && (0 =? 0))%bool with true. cbv iota. apply pb with (a := len url); [lens; lia|apply parses_get32; lia|].
    eapply parses_bind_last; [apply parses_take_eq; unfold len; lia|]. lens. rewrite w32_small by lia. apply parses_at_end; [lia|]. apply parses_ret; lia.
  - change (head_rd 96 size) with (rret HTools). apply parses_ret; reflexivity.
Qed.

(* ------------------------------------------------------------------ *)
(* sizes and bytes                                                      *)

Fixpoint desc_ind' (P : desc -> Prop) (H : forall h ks, Forall (fun k => P (snd k)) ks -> P (Desc h ks)) (d : desc) : P d :=
  match d with
  | Desc h ks => H h ks ((fix go (l : list (N * desc)) : Forall (fun k => P (snd k)) l :=
      match l with [] => Forall_nil _ | k :: t => Forall_cons k (desc_ind' P H (snd k)) (go t) end) ks)
  end.
Lemma written_sorted {A} h (ks : list (N * A)) : written h ks = sorted h ks.
Proof. unfold written, sorted. destruct h; try reflexivity. Qed.
Lemma filter_map {A B} (f : A -> B) (p : B -> bool) l : filter p (map f l) = map f (filter (fun x => p (f x)) l).
Proof. induction l as [|x l IH]; cbn [map filter]; [reflexivity|]. rewrite IH. destruct (p (f x)); reflexivity. Qed.
Lemma sorted_map {A B} h (f : A -> B) ks : sorted h (map (fun k => (fst k, f (snd k))) ks) = map (fun k => (fst k, f (snd k))) (sorted h ks).
Proof.
  unfold sorted. induction (order h) as [|m o IH]; cbn [flat_map]; [reflexivity|]. rewrite IH, map_app, filter_map. reflexivity.
Qed.
Lemma sorted_in {A} h (ks : list (N * A)) k : In k (sorted h ks) -> In k ks.
Proof. unfold sorted. rewrite in_flat_map. intros (m & _ & H). apply filter_In in H. tauto. Qed.
Lemma flat_map_map' {A B C} (f : B -> list C) (g : A -> B) l : flat_map f (map g l) = flat_map (fun x => f (g x)) l.
Proof. induction l as [|x l IH]; cbn; [reflexivity|]. rewrite IH. reflexivity. Qed.
Lemma enc_body d : enc d = tagged (dtag d) (body d).
Proof.
  destruct d as [h ks]. cbn [enc dtag body]. rewrite sorted_map, flat_map_map'. reflexivity.
Qed.
Lemma len_tagged t b : len (tagged t b) = 5 + len b.
Proof. unfold tagged. lens. change (len (len4 (len b))) with 4. lia. Qed.
Lemma len_enc d : len (enc d) = 5 + len (body d).
Proof. rewrite enc_body. apply len_tagged. Qed.
Lemma len_flat_sum {A} (f : A -> list N) l : len (flat_map f l) = fold_right (fun k s => len (f k) + s) 0 l.
Proof. induction l as [|x l IH]; cbn [flat_map fold_right]; [reflexivity|]. rewrite len_app, IH. reflexivity. Qed.
Lemma wf_inv h ks : wf (Desc h ks) -> head_ok h /\ kids_ok h ks /\ Forall (fun k => wf (snd k)) ks /\ len (body (Desc h ks)) < 268435456.
Proof. intros H. inversion H; subst. auto. Qed.
Lemma dsize_ok d : wf d -> dsize d = len (enc d).
Proof.
  induction d as [h ks IH] using desc_ind'. intros W. rewrite len_enc. apply wf_inv in W. destruct W as (Hh & Hk & Fk & L).
  cbn [dsize]. cbv zeta. rewrite written_sorted, sorted_map, head_size_ok by exact Hh. cbn [body] in *. revert L. lens. intros L.
  assert (E : fold_right (fun p s => snd p + s) 0 (map (fun k => (fst k, dsize (snd k))) (sorted h ks)) = len (flat_map (fun k => enc (snd k)) (sorted h ks))).
  { rewrite len_flat_sum. assert (A : forall k, In k (sorted h ks) -> dsize (snd k) = len (enc (snd k))).
    { intros k I. apply sorted_in in I. rewrite Forall_forall in IH, Fk. apply IH; auto. }
    clear L. revert A. induction (sorted h ks) as [|k l IHl]; intros A; cbn [map fold_right snd]; [reflexivity|].
    rewrite IHl by (intros; apply A; right; assumption). rewrite A by (left; reflexivity). reflexivity. }
  rewrite fold_add_w32; rewrite E; rewrite w32_small; lia.
Qed.
Lemma kids_none h ks : kids_ok h ks -> order h = [] -> ks = [].
Proof. destruct h as [| | | | | | |id il [|u url] p1 p2 p3 p4 p5| | |]; cbn; intros H O; try discriminate; assumption. Qed.
Lemma dwrite_ok d : wf d -> dwrite d = Ok (enc d).
Proof.
  induction d as [h ks IH] using desc_ind'. intros W. pose proof (dsize_ok _ W) as Z. pose proof (len_enc (Desc h ks)) as LE.
  assert (W' := W). apply wf_inv in W'. destruct W' as (Hh & Hk & Fk & L).
  cbn [dwrite]. cbv zeta. rewrite Z. rewrite written_sorted, (sorted_map h (fun d => (dsize d, dwrite d))).
  apply fills_run; [|reflexivity|lia]. rewrite LE. rewrite (enc_body (Desc h ks)). unfold tagged. cbn [dtag]. rewrite app_assoc.
  apply fills_seq; [apply writes_base; exact L|]. cbn [body].
  apply head_writes; [exact Hh| |].
  - rewrite <- (flat_map_map' (fun k => enc (snd k)) (fun k : N * desc => k)), map_id.
    clear Z LE W L. assert (A : forall k, In k (sorted h ks) -> wf (snd k) /\ dwrite (snd k) = Ok (enc (snd k))).
    { intros k I. apply sorted_in in I. rewrite Forall_forall in IH, Fk. split; [auto|]. apply IH; auto. }
    revert A. induction (sorted h ks) as [|k l IHl]; intros A; cbn [map wmap flat_map]; [apply writes_ret|].
    apply writes_seq; [|apply IHl; intros; apply A; right; assumption]. destruct (A k (or_introl eq_refl)) as [A1 A2].
    cbn [fst snd]. rewrite A2. apply writes_embed. symmetry. apply dsize_ok, A1.
  - intros O. rewrite (kids_none _ _ Hk O). unfold sorted. rewrite O. split; reflexivity.
Qed.

(* ------------------------------------------------------------------ *)
(* reading back                                                         *)

(* as [parses], for inputs shorter than [b] *)
Definition parsesb {A} (b : nat) (n : N) (m : rd A) (bs : list N) (a : A) : Prop :=
  (forall r, (length (bs ++ r) < b)%nat -> m (mkR (bs ++ r) n) = Ok (a, mkR r (w32 (n + len bs)))) /\
  (forall p q, bs = p ++ q -> q <> [] -> (length p < b)%nat -> m (mkR p n) = Err MP4IOErr).
Lemma parses_b {A} b n (m : rd A) bs a : parses n m bs a -> parsesb b n m bs a.
Proof. intros [P Q]. split; [intros r _; apply P|intros p q E H _; exact (Q p q E H)]. Qed.
Lemma parsesb_all {A} n (m : rd A) bs a : (forall b, parsesb b n m bs a) -> parses n m bs a.
Proof.
  intros H. split.
  - intros r. apply (proj1 (H (S (length (bs ++ r))))). apply Nat.lt_succ_diag_r.
  - intros p q E Q. apply (proj2 (H (S (length p))) p q E Q). apply Nat.lt_succ_diag_r.
Qed.
Lemma parsesb_bind {A B} b n (m : rd A) (k : A -> rd B) b1 b2 a c :
  parsesb b n m b1 a -> parsesb b (w32 (n + len b1)) (k a) b2 c -> parsesb b n (rbind m k) (b1 ++ b2) c.
Proof.
  intros [H1 H2] [K1 K2]. split.
  - intros r L. unfold rbind. rewrite <- app_assoc in *. rewrite H1 by exact L. rewrite K1 by (rewrite app_length in L; lia).
    rewrite w32_add_l. lens. rewrite N.add_assoc. reflexivity.
  - intros p q E Q L. unfold rbind. destruct (app_split_cases _ _ _ _ E) as [(q1 & E1 & Q1)|(p2 & -> & E2)].
    + rewrite (H2 p q1 E1 Q1 L). reflexivity.
    + rewrite H1 by exact L. apply (K2 p2 q E2 Q). rewrite app_length in L. lia.
Qed.
Lemma parsesb_bind_nil {A B} b n (m : rd A) (k : A -> rd B) bs a c :
  (forall s, rdn s = n -> m s = Ok (a, s)) -> parsesb b n (k a) bs c -> parsesb b n (rbind m k) bs c.
Proof. intros H [K1 K2]; split; intros; unfold rbind; rewrite H by reflexivity; eauto. Qed.

Lemma es_member_home t : es_member t = es_home t.
Proof.
  unfold es_member.
  destruct (N.eqb_spec t 4) as [->|N4]; [reflexivity|]. destruct (N.eqb_spec t 6) as [->|N6]; [reflexivity|].
  destruct (N.eqb_spec t 9) as [->|N9]; [reflexivity|]. destruct (N.eqb_spec t 12) as [->|N12]; [reflexivity|].
  destruct (N.eqb_spec t 67) as [->|N67]; [reflexivity|]. destruct (N.eqb_spec t 10) as [->|N10]; [reflexivity|].
  destruct (N.eqb_spec t 7) as [->|N7]; [reflexivity|]. destruct (N.eqb_spec t 8) as [->|N8]; [reflexivity|]. cbn [orb].
  destruct t as [|p]; [reflexivity|]. do 7 (destruct p as [p|p|]; try reflexivity; try congruence).
Qed.
Lemma od_member_home t : (if between 64 95 t then 3 else od_member t) = od_home t.
Proof.
  unfold od_home, between. destruct ((64 <=? t) && (t <=? 95))%bool; [reflexivity|]. unfold od_member.
  destruct (N.eqb_spec t 3) as [->|N4]; [reflexivity|]. destruct (N.eqb_spec t 14) as [->|N6]; [reflexivity|].
  destruct (N.eqb_spec t 15) as [->|N9]; [reflexivity|]. destruct (N.eqb_spec t 10) as [->|N12]; [reflexivity|].
  destruct t as [|p]; [reflexivity|]. do 4 (destruct p as [p|p|]; try reflexivity; try congruence).
Qed.
Lemma iod_member_home t : (if between 64 95 t then 3 else iod_member t) = (if t =? 15 then 5 else od_home t).
Proof.
  destruct (N.eqb_spec t 15) as [->|N15]; [reflexivity|]. rewrite <- od_member_home. destruct (between 64 95 t); [reflexivity|].
  unfold iod_member, od_member. destruct (N.eqb_spec t 15); [contradiction|]. reflexivity.
Qed.
(* where the reader puts the descriptors [l] *)
Definition placed (h : head) (l : list (N * desc)) : list (N * desc) := map (fun k => (home h (dtag (snd k)), snd k)) l.
Definition is_es (h : head) : Prop := match h with HES _ _ _ _ _ => True | _ => False end.
Definition alone (ks : list (N * desc)) : Prop := forall m, single m = true -> (length (in_member m ks) <= 1)%nat.
Lemma place_ok h acc k : match h with HES _ _ _ _ _ | HOD _ _ _ | HIOD _ _ _ _ _ _ _ _ => True | _ => False end ->
  (is_es h -> alone (acc ++ placed h [k])) -> place (head_view h) acc (snd k) = Ok (acc ++ placed h [k]).
Proof.
  intros C A. destruct h as [| | | | |esid dep prio ocr url|t id url|id il url p1 p2 p3 p4 p5| | |]; try contradiction; cbn [head_view place placed map home].
  - specialize (A I). rewrite es_member_home. unfold es_put. unfold alone in A. cbn [placed map home] in A.
    destruct (single (es_home (dtag (snd k)))) eqn:S; [|reflexivity]. cbn [andb].
    specialize (A _ S). unfold in_member in A. rewrite filter_app, app_length in A. cbn [filter fst] in A. rewrite N.eqb_refl in A. cbn [length] in A.
    destruct (existsb (fun k0 => fst k0 =? es_home (dtag (snd k))) acc) eqn:X; [|reflexivity]. exfalso.
    apply existsb_exists in X. destruct X as (y & Y1 & Y2).
    assert (Y : In y (filter (fun k0 => fst k0 =? es_home (dtag (snd k))) acc)) by (apply filter_In; auto).
    destruct (filter (fun k0 => fst k0 =? es_home (dtag (snd k))) acc); [contradiction|]. cbn [length] in A. lia.
  - rewrite od_member_home. reflexivity.
  - destruct url; cbn [place]; rewrite iod_member_home; reflexivity.
Qed.
Lemma alone_app a b : alone (a ++ b) -> alone a.
Proof. intros H m S. specialize (H m S). unfold in_member in *. rewrite filter_app, app_length in H. lia. Qed.

Lemma kids_loop_ok h size cnt : match h with HES _ _ _ _ _ | HOD _ _ _ | HIOD _ _ _ _ _ _ _ _ => True | _ => False end -> size < 4294967296 ->
  forall b p (l : list (N * desc)) (e : desc -> list N) (v : desc -> desc) acc n, (cnt <= b)%nat ->
  (forall k m, In k l -> parsesb b m p (e (snd k)) (v (snd k))) -> (forall k, In k l -> e (snd k) <> []) ->
  n + len (flat_map (fun k => e (snd k)) l) = size -> (is_es h -> alone (acc ++ placed h (map (fun k => (fst k, v (snd k))) l))) ->
  parsesb cnt n (kids_loop cnt p (head_view h) size acc) (flat_map (fun k => e (snd k)) l) (acc ++ placed h (map (fun k => (fst k, v (snd k))) l)).
Proof.
  intros C S. induction cnt as [|cnt IH]; intros b p l e v acc n B K NE E A.
  - split; intros; exfalso; eapply Nat.nlt_0_r; eassumption.
  - destruct l as [|k l]; cbn [flat_map] in *.
    + change (len []) with 0 in E. cbn [kids_loop]. apply parsesb_bind_nil with (a := n); [intros s <-; reflexivity|].
      destruct (N.ltb_spec n size); [lia|]. cbn [placed map]. rewrite app_nil_r. apply parses_b, parses_ret. lia.
    + revert E. rewrite len_app. intros E. assert (K0 := K k n (or_introl eq_refl)). assert (N0 := NE k (or_introl eq_refl)).
      assert (L0 : 0 < len (e (snd k))) by (destruct (e (snd k)); [contradiction|unfold len; cbn [length]; lia]).
      cbn [map] in *. remember (map (fun k => (fst k, v (snd k))) l) as vl. remember (fst k, v (snd k)) as vk.
      assert (P : place (head_view h) acc (v (snd k)) = Ok (acc ++ placed h [vk])).
      { replace (v (snd k)) with (snd vk) by (rewrite Heqvk; reflexivity). apply place_ok; [exact C|]. intros Q. specialize (A Q). change (vk :: vl) with ([vk] ++ vl) in A. unfold placed in A. rewrite map_app, app_assoc in A. apply alone_app in A. exact A. }
      assert (IH' := IH b p l e v (acc ++ placed h [vk]) (n + len (e (snd k))) ltac:(lia) ltac:(intros; apply K; right; assumption) ltac:(intros; apply NE; right; assumption) ltac:(lia)).
      rewrite <- Heqvl in IH'.
      assert (AA : (acc ++ placed h [vk]) ++ placed h vl = acc ++ placed h (vk :: vl)) by (rewrite <- app_assoc; reflexivity).
      rewrite AA in IH'. specialize (IH' A). destruct IH' as [I1 I2]. destruct K0 as [K1 K2].
      split.
      * intros r L. cbn [kids_loop]. unfold rbind at 1, getrdn. cbn [rdn]. destruct (N.ltb_spec n size); [|lia].
        unfold rbind. rewrite <- app_assoc in *. rewrite K1 by lia. rewrite P. rewrite (w32_small (n + _)) by lia. rewrite I1 by (rewrite app_length in L; unfold len in L0; lia).
        lens. rewrite N.add_assoc. reflexivity.
      * intros p0 q E0 Q L. cbn [kids_loop]. unfold rbind at 1, getrdn. cbn [rdn]. destruct (N.ltb_spec n size); [|lia]. unfold rbind.
        destruct (app_split_cases _ _ _ _ E0) as [(q1 & E1 & Q1)|(p2 & -> & E2)].
        -- rewrite (K2 p0 q1 E1 Q1) by lia. reflexivity.
        -- rewrite K1 by lia. rewrite P. rewrite (w32_small (n + _)) by lia. apply (I2 p2 q E2 Q). rewrite app_length in L. unfold len in L0. lia.
Qed.

Lemma filter_comm {A} (p q : A -> bool) l : filter p (filter q l) = filter q (filter p l).
Proof. induction l as [|x l IH]; cbn [filter]; [reflexivity|]. destruct (q x) eqn:Q, (p x) eqn:P; cbn [filter]; rewrite ?P, ?Q, IH; reflexivity. Qed.
Lemma filter_split {A} (p q : A -> bool) l : length (filter p l) = (length (filter p (filter q l)) + length (filter p (filter (fun x => negb (q x)) l)))%nat.
Proof. induction l as [|x l IH]; cbn [filter]; [reflexivity|]. destruct (q x), (p x) eqn:P; cbn [filter negb]; rewrite ?P; cbn [length]; lia. Qed.
Lemma groups_le {A} (p : N * A -> bool) (o : list N) : NoDup o -> forall ks : list (N * A),
  le (length (filter p (flat_map (fun m => filter (fun k => fst k =? m) ks) o))) (length (filter p ks)).
Proof.
  induction o as [|m o IH]; intros ND ks; cbn [flat_map]; [apply Nat.le_0_l|]. inversion ND as [|? ? M ND']; subst.
  rewrite filter_app, app_length. rewrite (filter_split p (fun k => fst k =? m) ks). specialize (IH ND' (filter (fun x => negb (fst x =? m)) ks)).
  assert (E : flat_map (fun m' => filter (fun k => fst k =? m') ks) o = flat_map (fun m' => filter (fun k => fst k =? m') (filter (fun x => negb (fst x =? m)) ks)) o).
  { clear IH ND ND'. induction o as [|a o IHo]; cbn [flat_map]; [reflexivity|]. rewrite IHo by (intros I; apply M; right; exact I). f_equal.
    assert (AM : a <> m) by (intros ->; apply M; left; reflexivity). clear - AM.
    induction ks as [|k ks IHk]; cbn [filter]; [reflexivity|]. destruct (N.eqb_spec (fst k) a) as [X|X]; destruct (N.eqb_spec (fst k) m) as [Y|Y]; cbn [negb filter]; try congruence.
    - destruct (N.eqb_spec (fst k) a); [|contradiction]. rewrite IHk. reflexivity.
    - destruct (N.eqb_spec (fst k) a); [contradiction|]. exact IHk. }
  rewrite E. lia.
Qed.
Lemma order_nodup h : NoDup (order h).
Proof.
  assert (D : forall l, (nodup N.eq_dec l = l) -> NoDup l) by (intros l <-; apply NoDup_nodup).
  destruct h as [| | | | | | |id il [|u url] p1 p2 p3 p4 p5| | |]; apply D; reflexivity.
Qed.
Lemma sorted_count {A} h (p : N * A -> bool) ks : (length (filter p (sorted h ks)) <= length (filter p ks))%nat.
Proof. apply groups_le, order_nodup. Qed.
Lemma dtag_view d : wf d -> dtag (view d) = if dtag d =? 17 then 1 else dtag d.
Proof.
  destruct d as [h ks]. intros W. apply wf_inv in W. destruct W as (H & _). cbn [view dtag].
  destruct h as [t x| | | | | |t id url|id il [|u url] p1 p2 p3 p4 p5|t| |]; cbn [head_view htag head_ok] in *; try reflexivity.
  - destruct H as [_ H]. rewrite (special_neq t 17) by (exact H || (cbn [In]; auto 20)). reflexivity.
  - destruct H as [[->| ->] _]; reflexivity.
  - destruct H as [[->| ->] _]; reflexivity.
Qed.
Lemma es_single t m : single m = true -> es_home t = m -> In (t, m) [(4, 0); (6, 1); (9, 2); (12, 6)].
Proof.
  intros S E. rewrite <- es_member_home in E. subst m. revert S. unfold es_member.
  destruct (N.eqb_spec t 4) as [E|E]; [rewrite E; left; reflexivity|]. destruct (N.eqb_spec t 6) as [E6|E6]; [rewrite E6; right; left; reflexivity|].
  destruct (N.eqb_spec t 9) as [E9|E9]; [rewrite E9; right; right; left; reflexivity|]. destruct (N.eqb_spec t 12) as [E12|E12]; [rewrite E12; right; right; right; left; reflexivity|].
  destruct (t =? 67); [discriminate|]. destruct (t =? 10); [discriminate|]. destruct ((t =? 7) || (t =? 8))%bool; discriminate.
Qed.
Lemma filter_le {A} (p q : A -> bool) l : (forall x, In x l -> p x = true -> q x = true) -> (length (filter p l) <= length (filter q l))%nat.
Proof.
  induction l as [|x l IH]; intros H; cbn [filter]; [apply Nat.le_refl|]. specialize (IH (fun y I => H y (or_intror I))).
  destruct (p x) eqn:P; [rewrite (H x (or_introl eq_refl) P); cbn [length]; lia|]. destruct (q x); cbn [length]; lia.
Qed.
Lemma kids_alone h ks : is_es h -> kids_ok h ks -> Forall (fun k => wf (snd k)) ks ->
  alone (placed h (map (fun k => (fst k, view (snd k))) (sorted h ks))).
Proof.
  intros E K W m S. destruct h as [| | | | |esid dep prio ocr url| | | | |]; try contradiction. destruct K as [_ K].
  unfold in_member, placed. rewrite map_map, filter_map, map_length. cbn [fst snd home].
  eapply Nat.le_trans; [apply sorted_count|].
  assert (T : exists t, In (t, m) [(4, 0); (6, 1); (9, 2); (12, 6)] /\ forall x, es_home x = m -> x = t).
  { assert (M : In m [0; 1; 2; 6]) by (apply existsb_exists in S; destruct S as (y & Y1 & Y2); apply N.eqb_eq in Y2; subst; exact Y1).
    cbn [In] in M. destruct M as [<-|[<-|[<-|[<-|[]]]]]; [exists 4|exists 6|exists 9|exists 12]; (split; [cbn [In]; tauto|]; intros x X; apply es_single in X; [|reflexivity]; cbn [In] in X; intuition congruence). }
  destruct T as (t & T1 & T2).
  assert (CT : (count t ks <= 1)%nat) by (rewrite Forall_forall in K; apply K; cbn [In] in *; intuition congruence).
  eapply Nat.le_trans; [|exact CT]. apply filter_le. intros k I X. apply N.eqb_eq in X. apply T2 in X.
  rewrite Forall_forall in W. rewrite dtag_view in X by auto. apply N.eqb_eq. destruct (N.eqb_spec (dtag (snd k)) 17) as [Y|Y]; [|exact X].
  exfalso. cbn [In] in T1. intuition congruence.
Qed.

Lemma htag_lt h : head_ok h -> htag h < 256.
Proof. destruct h; cbn [htag head_ok]; intros H; try reflexivity; try tauto; destruct H as [[->| ->] _]; reflexivity. Qed.
Lemma desc_rd_ok d : wf d -> forall f n, parsesb f n (desc_rd f) (enc d) (view d).
Proof.
  induction d as [h ks IH] using desc_ind'. intros W f n.
  pose proof (len_enc (Desc h ks)) as LE. assert (W' := W). apply wf_inv in W'. destruct W' as (Hh & Hk & Fk & L).
  destruct f as [|f]; [split; intros; exfalso; eapply Nat.nlt_0_r; eassumption|].
  remember (5 + len (body (Desc h ks))) as size eqn:Es.
  assert (SL : size < 4294967296) by lia.
  assert (TL : htag h < 256) by (apply htag_lt; exact Hh).
  assert (B : parsesb (S f) 0 (let* tag := get8 in
             let* l := get_len in
             let* n := getrdn in
             let size := w32 (l + n) in
             let* h := head_rd tag size in
             let* ks := kids_rd h size (desc_rd f) in
             rret (Desc h ks, size)) (enc (Desc h ks)) (view (Desc h ks), size)).
  { rewrite enc_body. unfold tagged. cbn [dtag].
    assert (K : parsesb f 1 (let* l := get_len in
             let* n := getrdn in
             let size := w32 (l + n) in
             let* h := head_rd (htag h) size in
             let* ks := kids_rd h size (desc_rd f) in
             rret (Desc h ks, size)) (len4 (len (body (Desc h ks))) ++ body (Desc h ks)) (view (Desc h ks), size)).
    { eapply parsesb_bind; [apply parses_b, parses_len4; [reflexivity|exact L]|]. change (len (len4 (len (body (Desc h ks))))) with 4. change (w32 (1 + 4)) with 5.
      apply parsesb_bind_nil with (a := 5); [intros s <-; reflexivity|]. cbv zeta. rewrite (N.add_comm _ 5), w32_small by lia. rewrite <- Es.
      cbn [body]. cbn [body] in Es. eapply parsesb_bind; [apply parses_b, parses_head; [exact Hh| |exact SL]|].
      { intros O. rewrite Es. unfold sorted. rewrite O. cbn [flat_map]. rewrite app_nil_r. reflexivity. }
      revert Es. lens. intros Es. rewrite w32_small by lia.
      rewrite <- (app_nil_r (flat_map _ _)).
      apply parsesb_bind with (a := placed h (map (fun k => (fst k, view (snd k))) (sorted h ks)));
        [|apply parses_b; apply parses_ret_eq; [apply w32_lt|]; cbn [view]; rewrite sorted_map; reflexivity].
      assert (KB : forall k m, In k (sorted h ks) -> parsesb f m (desc_rd f) (enc (snd k)) (view (snd k))).
      { intros k m I. apply sorted_in in I. rewrite Forall_forall in IH, Fk. apply IH; auto. }
      assert (KN : forall k : N * desc, In k (sorted h ks) -> enc (snd k) <> []) by (intros k _ X; pose proof (len_enc (snd k)) as Y; rewrite X in Y; change (len []) with 0 in Y; lia).
      assert (AL : is_es h -> alone (placed h (map (fun k => (fst k, view (snd k))) (sorted h ks)))) by (intros Q; apply kids_alone; assumption).
      assert (LOOP : match h with HES _ _ _ _ _ | HOD _ _ _ | HIOD _ _ _ _ _ _ _ _ => True | _ => False end ->
        parsesb f (5 + len (fields h)) (fun s => kids_loop (S (length (inp s))) (desc_rd f) (head_view h) size [] s)
          (flat_map (fun k => enc (snd k)) (sorted h ks)) (placed h (map (fun k => (fst k, view (snd k))) (sorted h ks)))).
      { intros C. split.
        - intros r LL. cbn [inp].
          assert (KL := kids_loop_ok h size (S (length (flat_map (fun k => enc (snd k)) (sorted h ks) ++ r))) C SL f (desc_rd f) (sorted h ks) enc view [] (5 + len (fields h)) LL KB KN ltac:(lia) AL).
          apply (proj1 KL). apply Nat.lt_succ_diag_r.
        - intros p q E Q LL. cbn [inp].
          assert (KL := kids_loop_ok h size (S (length p)) C SL f (desc_rd f) (sorted h ks) enc view [] (5 + len (fields h)) LL KB KN ltac:(lia) AL).
          apply (proj2 KL p q E Q). apply Nat.lt_succ_diag_r. }
      assert (LEAF : kids_rd (head_view h) size (desc_rd f) = rret [] -> ks = [] ->
        parsesb f (5 + len (fields h)) (kids_rd (head_view h) size (desc_rd f)) (flat_map (fun k => enc (snd k)) (sorted h ks)) (placed h (map (fun k => (fst k, view (snd k))) (sorted h ks)))).
      { intros -> ->. assert (E0 : sorted h (@nil (N * desc)) = []) by (unfold sorted; induction (order h); [reflexivity|exact IHl]). rewrite E0. apply parses_b, parses_ret. lia. }
      destruct h as [t x|t|r|oti st up buf mx av|s|esid dep prio ocr url|t id url|id il url p1 p2 p3 p4 p5|t id tool es|id url|]; try (apply LEAF; [reflexivity|exact Hk]); try (apply LOOP; exact I).
      - cbn [head_view kids_rd]. apply parsesb_bind_nil with (a := 5 + len (fields (HDec oti st up buf mx av))); [intros s <-; reflexivity|].
        destruct Hk as [->|(d & -> & D)].
        + change (sorted (HDec oti st up buf mx av) (@nil (N * desc))) with (@nil (N * desc)) in *. cbn [flat_map map placed] in *. change (len []) with 0 in Es.
          destruct (N.ltb_spec (5 + len (fields (HDec oti st up buf mx av))) size); [lia|]. apply parses_b, parses_ret. lia.
        + change (sorted (HDec oti st up buf mx av) [(0, d)]) with [(0, d)] in *. cbn [flat_map map snd fst placed home] in *. rewrite app_nil_r in *.
          pose proof (len_enc d) as LD. destruct (N.ltb_spec (5 + len (fields (HDec oti st up buf mx av))) size); [|lia].
          rewrite <- (app_nil_r (enc d)). eapply parsesb_bind; [apply (KB (0, d)); left; reflexivity|].
          assert (WD : wf d) by (inversion Fk; assumption). cbn [snd]. rewrite (dtag_view d WD), D. change (5 =? 17) with false. change (5 =? 5) with true. apply parses_b, parses_ret, w32_lt.
      - destruct url; apply LOOP; exact I.
      - cbn [kids_ok] in Hk. subst ks. change (sorted HTools (@nil (N * desc))) with (@nil (N * desc)) in *. cbn [flat_map map placed fields] in *. change (len []) with 0 in *.
        assert (E5 : size = 5) by lia. rewrite E5. apply parses_b. split; [intros r; reflexivity|]. intros p q E Q. destruct p, q; cbn in E; congruence. }
    destruct K as [K1 K2]. split.
    - intros r LL. rewrite <- app_assoc. eapply eq_trans; [apply (parses_then _ _ _ _ _ _ (parses_get8 0 (htag h) TL))|]. change (w32 (0 + len (be8 (htag h)))) with 1.
      rewrite K1 by (revert LL; rewrite !app_length; cbn [be8 length]; lia). replace (len (be8 (htag h) ++ len4 (len (body (Desc h ks))) ++ body (Desc h ks))) with (1 + len (len4 (len (body (Desc h ks))) ++ body (Desc h ks))) by (lens; lia). reflexivity.
    - intros p q E Q LL. destruct p as [|x p]; [reflexivity|]. cbn [be8 app] in E. injection E as <- E. change (htag h mod 256 :: p) with (be8 (htag h) ++ p).
      eapply eq_trans; [apply (parses_then _ _ _ _ _ _ (parses_get8 0 (htag h) TL))|]. change (w32 (0 + len (be8 (htag h)))) with 1. apply (K2 p q E Q). cbn [length] in LL. lia. }
  destruct B as [B1 B2]. split.
  - intros r LL. cbn [desc_rd inp rdn]. rewrite B1 by exact LL. cbn [inp rdn]. rewrite LE. reflexivity.
  - intros p q E Q LL. cbn [desc_rd inp rdn]. specialize (B2 p q E Q LL). match goal with |- match ?x with _ => _ end = _ => replace x with (Err MP4IOErr : res (desc * N * rst)) by (symmetry; exact B2) end. reflexivity.
Qed.
Lemma desc_read_ok d n : wf d -> parses n desc_read (enc d) (view d).
Proof.
  intros W. split.
  - intros r. apply (proj1 (desc_rd_ok d W _ n)). apply Nat.lt_succ_diag_r.
  - intros p q E Q. apply (proj2 (desc_rd_ok d W _ n) p q E Q). apply Nat.lt_succ_diag_r.
Qed.

(* ------------------------------------------------------------------ *)
(* any input                                                            *)

Definition decent {A} (U : Prop) (b : nat) (m : rd A) : Prop := forall s, (length (inp s) < b)%nat ->
  m s <> Err OutOfFuel /\ (U -> clean (inp s) -> m s <> UB) /\ (forall a s', m s = Ok (a, s') -> exists p, inp s = p ++ inp s').
Lemma decent_of {A} U b (m : rd A) : consumes m -> tame m -> decent U b m.
Proof. intros C T s _. destruct (T s) as [T1 T2]. split; [exact T2|]. split; [intros _ _; exact T1|]. intros a s'. apply C. Qed.
Lemma decent_weak {A} (U V : Prop) b (m : rd A) : (V -> U) -> decent U b m -> decent V b m.
Proof. intros W H s L. destruct (H s L) as (H1 & H2 & H3). auto. Qed.
Lemma decent_bind {A B} U b (m : rd A) (k : A -> rd B) : decent U b m -> (forall a, decent U b (k a)) -> decent U b (rbind m k).
Proof.
  intros H K s L. destruct (H s L) as (H1 & H2 & H3). unfold rbind. destruct (m s) as [[a s1]|e|] eqn:E.
  - destruct (H3 a s1 eq_refl) as [p P]. assert (L1 : (length (inp s1) < b)%nat) by (rewrite P, app_length in L; lia).
    destruct (K a s1 L1) as (K1 & K2 & K3). split; [exact K1|]. split.
    + intros V C. apply K2; [exact V|]. unfold clean in *. rewrite P in C. apply Forall_app in C. apply C.
    + intros c s' E'. destruct (K3 c s' E') as [q Q]. exists (p ++ q). rewrite P, Q, app_assoc. reflexivity.
  - split; [congruence|]. split; [discriminate|]. discriminate.
  - split; [discriminate|]. split; [intros V C; elim (H2 V C); reflexivity|discriminate].
Qed.
Lemma decent_if {A} U b (c : bool) (m m' : rd A) : decent U b m -> decent U b m' -> decent U b (if c then m else m').
Proof. destruct c; auto. Qed.
Lemma consumes_len i : forall acc n a s', len_rd i acc n = Ok (a, s') -> exists p, i = p ++ inp s'.
Proof.
  induction i as [|v t IH]; intros acc n a s' H; cbn [len_rd] in H; [discriminate|]. destruct (N.land v 128 =? 0).
  - injection H as _ <-. exists [v]. reflexivity.
  - apply IH in H. destruct H as [p ->]. exists (v :: p). reflexivity.
Qed.
Lemma decent_len U b : decent U b get_len.
Proof.
  intros s _. unfold get_len. assert (T : forall i acc n, len_rd i acc n <> Err OutOfFuel /\ len_rd i acc n <> UB).
  { induction i as [|v t IH]; intros acc n; cbn [len_rd]; [split; discriminate|]. destruct (N.land v 128 =? 0); [split; discriminate|apply IH]. }
  split; [apply T|]. split; [intros _ _; apply T|]. intros a s'. apply consumes_len.
Qed.
Lemma decent_ret {A} U b (a : A) : decent U b (rret a).
Proof. apply decent_of; [apply consumes_ret|apply tame_ret]. Qed.
Lemma decent_err {A} U b e : e <> OutOfFuel -> decent U b (@rerr A e).
Proof. intros H. apply decent_of; [apply consumes_err|apply tame_err; exact H]. Qed.
Lemma decent_ub {A} (U : Prop) b : ~ U -> decent U b (@rub A).
Proof. intros H s L. split; [discriminate|]. split; [tauto|discriminate]. Qed.
Lemma decent_take U b k : decent U b (take k). Proof. apply decent_of; [apply consumes_take|apply tame_take]. Qed.
Lemma decent_get8 U b : decent U b get8. Proof. apply decent_of; [apply consumes_get8|apply tame_get8]. Qed.
Lemma decent_get16 U b : decent U b get16. Proof. apply decent_of; [apply consumes_get16|apply tame_get16]. Qed.
Lemma decent_get32 U b : decent U b get32. Proof. apply decent_of; [apply consumes_get32|apply tame_get32]. Qed.
Lemma decent_get64 U b : decent U b get64. Proof. apply decent_of; [apply consumes_get64|apply tame_get64]. Qed.
Lemma decent_getrdn U b : decent U b getrdn. Proof. apply decent_of; [apply consumes_getrdn|apply tame_getrdn]. Qed.
Ltac decent_step :=
  lazymatch goal with
  | |- decent _ _ (rbind _ _) => apply decent_bind; [decent_step|intros; decent_step]
  | |- decent _ _ (rret _) => apply decent_ret
  | |- decent _ _ (rerr _) => apply decent_err; discriminate
  | |- decent _ _ rub => apply decent_ub; intuition congruence
  | |- decent _ _ (take _) => apply decent_take
  | |- decent _ _ get8 => apply decent_get8
  | |- decent _ _ get16 => apply decent_get16
  | |- decent _ _ get32 => apply decent_get32
  | |- decent _ _ get64 => apply decent_get64
  | |- decent _ _ getrdn => apply decent_getrdn
  | |- decent _ _ get_len => apply decent_len
  | |- decent _ _ (if _ then _ else _) => apply decent_if; decent_step
  | |- decent _ _ (url_rd _) => unfold url_rd; decent_step
  | |- decent _ _ (at_end _) => unfold at_end; decent_step
  | |- decent _ _ (let _ := _ in _) => cbv zeta; decent_step
  | |- _ => idtac
  end.
Lemma decent_head b tag size : decent (tag <> 98 /\ tag <> 99) b (head_rd tag size).
Proof.
  assert (SL : decent (tag <> 98 /\ tag <> 99) b (sl_rd size)) by (unfold sl_rd; decent_step).
  unfold head_rd.
  repeat match goal with |- decent _ _ (if (?a =? ?b) then _ else _) => destruct (N.eqb_spec a b) | |- decent _ _ (if _ then _ else _) => apply decent_if end; decent_step.
  exact SL.
Qed.
(* a descriptor takes at least a byte *)
Definition eats (b : nat) (p : rd desc) : Prop := forall s a s', (length (inp s) < b)%nat -> p s = Ok (a, s') -> (length (inp s') < length (inp s))%nat.
Lemma place_fuel h ks d : place h ks d <> Err OutOfFuel /\ place h ks d <> UB.
Proof.
  destruct h; cbn [place]; try (split; discriminate).
  - unfold es_put. destruct (_ && _)%bool; split; discriminate.
  - destruct (dtag d =? 99); split; discriminate.
Qed.
Lemma loop_eq cnt p h size ks s : kids_loop (S cnt) p h size ks s =
  if rdn s <? size then match p s with
    | Ok (d, s1) => match place h ks d with Ok ks' => kids_loop cnt p h size ks' s1 | Err e => Err e | UB => UB end
    | Err e => Err e | UB => UB end
  else Ok (ks, s).
Proof.
  cbn [kids_loop]. unfold rbind, getrdn. destruct (rdn s <? size); [|reflexivity]. destruct (p s) as [[d s1]| |]; try reflexivity. destruct (place h ks d); reflexivity.
Qed.
Lemma decent_loop h size U b p cnt : decent U b p -> eats b p -> (cnt <= b)%nat -> forall ks, decent U cnt (kids_loop cnt p h size ks).
Proof.
  intros D E. induction cnt as [|cnt IH]; intros B ks s L; [elim (Nat.nlt_0_r _ L)|].
  rewrite loop_eq. destruct (rdn s <? size); [|apply (decent_ret U (S cnt) ks s L)].
  destruct (D s ltac:(lia)) as (D1 & D2 & D3). destruct (p s) as [[d s1]|e|] eqn:P.
  - destruct (place_fuel h ks d) as [F1 F2]. specialize (E s d s1 ltac:(lia) P). destruct (D3 d s1 eq_refl) as [q Q].
    assert (L1 : (length (inp s1) < cnt)%nat) by lia.
    destruct (place h ks d) as [ks'|e|]; [|split; [congruence|split; discriminate]|congruence].
    destruct (IH ltac:(lia) ks' s1 L1) as (I1 & I2 & I3). split; [exact I1|]. split.
    + intros V C. apply I2; [exact V|]. unfold clean in *. rewrite Q in C. apply Forall_app in C. apply C.
    + intros a s' X. destruct (I3 a s' X) as [r R]. exists (q ++ r). rewrite Q, R, app_assoc. reflexivity.
  - split; [congruence|]. split; discriminate.
  - split; [discriminate|]. split; [intros V C; elim (D2 V C); reflexivity|discriminate].
Qed.
Lemma decent_kids h size U b p : decent U b p -> eats b p -> decent U b (kids_rd h size p).
Proof.
  intros D E. assert (LOOP : decent U b (fun s => kids_loop (S (length (inp s))) p h size [] s)).
  { intros s L. apply (decent_loop h size U b p (S (length (inp s))) D E L [] s). apply Nat.lt_succ_diag_r. }
  destruct h; cbn [kids_rd]; try apply decent_ret; try exact LOOP.
  apply decent_bind; [apply decent_getrdn|intros r]. apply decent_if; [|apply decent_ret]. apply decent_bind; [exact D|intros; apply decent_ret].
Qed.
Definition rest_rd (f : nat) (tag : N) : rd (desc * N) :=
  let* l := get_len in let* n := getrdn in
  let* h := head_rd tag (w32 (l + n)) in let* ks := kids_rd h (w32 (l + n)) (desc_rd f) in rret (Desc h ks, w32 (l + n)).
Lemma desc_rd_eq f s : desc_rd (S f) s =
  match inp s with
  | [] => Err MP4IOErr
  | tag :: t => match rest_rd f tag (mkR t 1) with
                | Ok ((d, size), s') => Ok (d, mkR (inp s') (w32 (rdn s + size)))
                | Err e => Err e
                | UB => UB
                end
  end.
Proof. destruct s as [[|tag t] n]; reflexivity. Qed.
Lemma desc_rd_decent f : decent True f (desc_rd f) /\ eats f (desc_rd f).
Proof.
  induction f as [|f [D E]]; [split; [intros s L; elim (Nat.nlt_0_r _ L)|intros s a s' L; elim (Nat.nlt_0_r _ L)]|].
  assert (K : forall tag, decent (tag <> 98 /\ tag <> 99) f (rest_rd f tag)).
  { intros tag. unfold rest_rd. decent_step; [apply decent_head|]. apply decent_kids; [|exact E].
    apply (decent_weak True); [auto|exact D]. }
  split.
  - intros s L. rewrite desc_rd_eq. destruct s as [i n]. cbn [inp rdn] in *. destruct i as [|tag t]; [split; [discriminate|split; discriminate]|].
    destruct (K tag (mkR t 1)) as (K1 & K2 & K3); [cbn [inp length] in *; lia|]. cbn [inp] in *.
    destruct (rest_rd f tag (mkR t 1)) as [[[d size] s']|e|].
    + split; [discriminate|]. split; [discriminate|]. intros a s2 X. injection X as _ <-. cbn [inp]. destruct (K3 _ _ eq_refl) as [q Q]. exists (tag :: q). rewrite Q. reflexivity.
    + split; [congruence|split; discriminate].
    + split; [discriminate|]. split; [|discriminate]. intros _ C. inversion C as [|x l C1 C2]; subst. elim (K2 C1 C2). reflexivity.
  - intros s a s2 L. rewrite desc_rd_eq. destruct s as [i n]. cbn [inp rdn] in *. destruct i as [|tag t]; [discriminate|].
    destruct (K tag (mkR t 1)) as (K1 & K2 & K3); [cbn [inp length] in *; lia|]. cbn [inp] in *.
    destruct (rest_rd f tag (mkR t 1)) as [[[d size] s']|e|]; try discriminate.
    intros X. injection X as _ <-. cbn [inp length]. destruct (K3 _ _ eq_refl) as [q Q]. rewrite Q, app_length. lia.
Qed.
Lemma desc_read_decent b : decent True b desc_read.
Proof. intros s _. apply (proj1 (desc_rd_decent (S (length (inp s))))). apply Nat.lt_succ_diag_r. Qed.

(* ------------------------------------------------------------------ *)
(* writing again what was read                                          *)

Lemma fields_view h : head_ok h -> fields (head_view h) = fields h.
Proof.
  destruct h as [t d|t|r|oti st up buf mx av|s|esid dep prio ocr url|t id url|id il url p1 p2 p3 p4 p5|t id tool es|id url|]; cbn [head_view fields head_ok]; try reflexivity.
  - intros _. unfold yes. destruct (up =? 0); reflexivity.
  - intros [T [[P D]|[P _]]]; rewrite P.
    + change (2 =? 0) with false. cbv iota. cbn [fields sl_pre sl_dur]. rewrite D. reflexivity.
    + change (0 =? 0) with true. cbv iota. cbn [fields sl_pre sl_austart sl_auend sl_rap sl_rau sl_pad sl_ts sl_idle sl_dur sl_tsres sl_ocrres sl_tslen sl_ocrlen sl_aulen sl_brlen sl_deg sl_auseq sl_pkseq sl_scale sl_audur sl_cudur].
      assert (Y : forall x v, yes (one x) v = yes x v) by (intros x v; unfold one, yes; destruct (x =? 0); reflexivity). rewrite !Y. change (0 =? 0) with true. cbv iota.
      unfold one, yes. destruct (sl_dur s =? 0); reflexivity.
  - intros _. assert (Y : forall x v, yes (one x) v = yes x v) by (intros x v; unfold one, yes; destruct (x =? 0); reflexivity). destruct url; cbn [fields]; rewrite Y; reflexivity.
  - intros _. destruct (id =? 255); reflexivity.
Qed.
Lemma order_view h : order (head_view h) = order h.
Proof. destruct h as [| | | | | | |id il [|u url] p1 p2 p3 p4 p5| | |]; reflexivity. Qed.
Lemma filter_filter_eq {A} (m m' : N) (l : list (N * A)) :
  filter (fun k => fst k =? m) (filter (fun k => fst k =? m') l) = if m =? m' then filter (fun k => fst k =? m) l else [].
Proof.
  induction l as [|k l IH]; cbn [filter]; [destruct (m =? m'); reflexivity|].
  destruct (N.eqb_spec m m') as [->|E].
  - destruct (fst k =? m') eqn:X; cbn [filter]; rewrite ?X, IH; reflexivity.
  - destruct (N.eqb_spec (fst k) m') as [X|X]; cbn [filter]; [|exact IH]. destruct (N.eqb_spec (fst k) m); [congruence|exact IH].
Qed.
Lemma in_group {A} (o : list N) m (l : list (N * A)) : NoDup o ->
  filter (fun k => fst k =? m) (flat_map (fun m' => filter (fun k => fst k =? m') l) o) = if existsb (N.eqb m) o then filter (fun k => fst k =? m) l else [].
Proof.
  induction o as [|m' o IH]; intros ND; [reflexivity|]. inversion ND as [|? ? M ND']; subst. cbn [flat_map existsb]. rewrite filter_app, IH by exact ND'. rewrite filter_filter_eq.
  destruct (N.eqb_spec m m') as [->|E]; [|reflexivity]. cbn [orb].
  assert (X : existsb (N.eqb m') o = false).
  { destruct (existsb (N.eqb m') o) eqn:X; [|reflexivity]. apply existsb_exists in X. destruct X as (y & Y1 & Y2). apply N.eqb_eq in Y2. subst. contradiction. }
  rewrite X, app_nil_r. reflexivity.
Qed.
Lemma sorted_idem {A} h (l : list (N * A)) : sorted h (sorted h l) = sorted h l.
Proof.
  unfold sorted. assert (G : forall o, incl o (order h) -> flat_map (fun m => filter (fun k => fst k =? m) (flat_map (fun m' => filter (fun k => fst k =? m') l) (order h))) o = flat_map (fun m => filter (fun k => fst k =? m) l) o).
  { induction o as [|m o IH]; intros I; cbn [flat_map]; [reflexivity|]. rewrite IH by (intros x X; apply I; right; exact X).
    rewrite in_group by apply order_nodup.
    assert (X : existsb (N.eqb m) (order h) = true) by (apply existsb_exists; exists m; split; [apply I; left; reflexivity|apply N.eqb_refl]). rewrite X. reflexivity. }
  apply G. apply incl_refl.
Qed.
Lemma settled_inv h ks : settled (Desc h ks) -> htag h <> 17 /\ Forall (fun k => settled (snd k) /\ fst k = home h (dtag (snd k))) ks.
Proof. intros H. inversion H; subst. auto. Qed.
Lemma enc_view d : wf d -> settled d -> enc (view d) = enc d.
Proof.
  induction d as [h ks IH] using desc_ind'. intros W S. apply wf_inv in W. destruct W as (Hh & Hk & Fk & L). apply settled_inv in S. destruct S as (S1 & S2).
  rewrite !enc_body. cbn [view dtag].
  assert (T : htag (head_view h) = htag h).
  { destruct h as [| | | | | |t id url|id il [|u url] p1 p2 p3 p4 p5| | |]; try reflexivity. cbn [htag head_view] in *. destruct Hh as [[->| ->] _]; [reflexivity|congruence]. }
  rewrite T. f_equal. cbn [body]. rewrite fields_view by exact Hh. f_equal.
  assert (P : map (fun k => (home h (dtag (snd k)), snd k)) (sorted h (map (fun k => (fst k, view (snd k))) ks)) = sorted h (map (fun k => (fst k, view (snd k))) ks)).
  { rewrite sorted_map, map_map. apply map_ext_in. intros k I. cbn [fst snd]. apply sorted_in in I. rewrite Forall_forall in Fk, S2. destruct (S2 k I) as [S3 S4].
    rewrite dtag_view by auto. rewrite S4. destruct (N.eqb_spec (dtag (snd k)) 17) as [X|X]; [|reflexivity]. exfalso.
    destruct (snd k) as [h' ks']. apply settled_inv in S3. destruct S3 as [S3 _]. apply S3. exact X. }
  rewrite P. assert (SV : forall l : list (N * desc), sorted (head_view h) l = sorted h l) by (intros l; unfold sorted; rewrite order_view; reflexivity).
  rewrite SV, sorted_idem, sorted_map, flat_map_map'. cbn [snd].
  assert (A : forall k, In k (sorted h ks) -> enc (view (snd k)) = enc (snd k)).
  { intros k I. apply sorted_in in I. rewrite Forall_forall in IH, Fk, S2. destruct (S2 k I) as [S3 _]. apply IH; auto. }
  clear - A. induction (sorted h ks) as [|k l IHl]; cbn [flat_map]; [reflexivity|]. rewrite (A k (or_introl eq_refl)), IHl by (intros; apply A; right; assumption). reflexivity.
Qed.

(* ------------------------------------------------------------------ *)
(* descriptors added one after the other                                *)

(* what an ES descriptor contains *)
Definition es_inv (ks : list (N * desc)) : Prop :=
  Forall (fun k => fst k = if between 74 95 (dtag (snd k)) then 3 else es_member (dtag (snd k))) ks /\
  forall m, single m = true -> (length (in_member m ks) <= 1)%nat.
Lemma es_inv_ok ks : es_inv ks -> Forall (fun k => fst k < 8) ks /\ Forall (fun t => (count t ks <= 1)%nat) [4; 6; 9; 12].
Proof.
  intros [F S]. split.
  - eapply Forall_impl; [|exact F]. intros k E. cbn beta in E. rewrite E. unfold es_member. repeat match goal with |- (if ?c then _ else _) < _ => destruct c end; reflexivity.
  - assert (G : forall t m, In (t, m) [(4, 0); (6, 1); (9, 2); (12, 6)] -> (count t ks <= 1)%nat).
    { intros t m I. assert (SM : single m = true) by (cbn [In] in I; intuition (match goal with H : _ = (_, _) |- _ => injection H as <- <- end; reflexivity)).
      eapply Nat.le_trans; [|apply (S m SM)]. unfold count, in_member. apply filter_le. intros k K X. apply N.eqb_eq in X. rewrite Forall_forall in F. rewrite (F k K), X.
      cbn [In] in I. intuition (match goal with H : _ = (_, _) |- _ => injection H as <- <- end; reflexivity). }
    apply Forall_cons; [apply (G 4 0); cbn [In]; auto|]. apply Forall_cons; [apply (G 6 1); cbn [In]; auto|]. apply Forall_cons; [apply (G 9 2); cbn [In]; auto|]. apply Forall_cons; [apply (G 12 6); cbn [In]; auto|]. apply Forall_nil.
Qed.
Lemma es_add ks d ks' e1 e2 e3 e4 e5 : es_inv ks -> desc_add (HES e1 e2 e3 e4 e5) ks d = Ok ks' -> es_inv ks' /\ exists m, ks' = ks ++ [(m, d)].
Proof.
  intros [F S] H. cbn [desc_add] in H. unfold es_put in H. remember (if between 74 95 (dtag d) then 3 else es_member (dtag d)) as m.
  destruct (single m && existsb (fun k => fst k =? m) ks)%bool eqn:X; [discriminate|]. injection H as <-. split; [|eexists; reflexivity]. split.
  - apply Forall_app. split; [exact F|]. repeat constructor. cbn [fst snd]. exact Heqm.
  - intros m' S'. unfold in_member. rewrite filter_app, app_length. cbn [filter fst]. specialize (S m' S'). unfold in_member in S.
    destruct (N.eqb_spec m m') as [<-|NE]; [|cbn [length]; lia]. rewrite S' in X. cbn [andb] in X. cbn [length].
    assert (Z : filter (fun k => fst k =? m) ks = []).
    { destruct (filter (fun k => fst k =? m) ks) as [|y l] eqn:Y; [reflexivity|]. exfalso. assert (I : In y (filter (fun k => fst k =? m) ks)) by (rewrite Y; left; reflexivity).
      apply filter_In in I. assert (existsb (fun k => fst k =? m) ks = true) by (apply existsb_exists; exists y; exact I). congruence. }
    rewrite Z. cbn [length]. lia.
Qed.
Lemma adds_snd h ds : forall ks ks', adds h ks ds = Ok ks' -> map snd ks' = map snd ks ++ ds.
Proof.
  induction ds as [|d ds IH]; intros ks ks' H; cbn [adds] in H; [injection H as <-; rewrite app_nil_r; reflexivity|].
  destruct (desc_add h ks d) as [k1| |] eqn:E; cbn [bind] in H; try discriminate. rewrite (IH _ _ H).
  assert (X : map snd k1 = map snd ks ++ [d]).
  { destruct h; cbn [desc_add] in E; try discriminate.
    - unfold es_put in E. destruct (_ && _)%bool; [discriminate|]. injection E as <-. rewrite map_app. reflexivity.
    - injection E as <-. rewrite map_app. reflexivity.
    - injection E as <-. rewrite map_app. reflexivity.
    - destruct (dtag d =? 99); [|discriminate]. injection E as <-. rewrite map_app. reflexivity. }
  rewrite X, <- app_assoc. reflexivity.
Qed.
Lemma adds_ok h ds ks : match h with HES _ _ _ _ _ | HOD _ _ _ => True | HIOD _ _ url _ _ _ _ _ => url = [] | _ => False end ->
  adds h [] ds = Ok ks -> kids_ok h ks.
Proof.
  intros C H. destruct h as [| | | | |e1 e2 e3 e4 e5|t id url|id il url p1 p2 p3 p4 p5| | |]; try contradiction.
  - cbn [kids_ok]. apply es_inv_ok. assert (G : forall ds ks0 ks, es_inv ks0 -> adds (HES e1 e2 e3 e4 e5) ks0 ds = Ok ks -> es_inv ks).
    { clear. induction ds as [|d ds IH]; intros ks0 ks I H; cbn [adds] in H; [injection H as <-; exact I|].
      destruct (desc_add (HES e1 e2 e3 e4 e5) ks0 d) as [k1| |] eqn:E; cbn [bind] in H; try discriminate. eapply IH; [|exact H]. destruct (es_add _ _ _ _ _ _ _ _ I E) as [J _]. exact J. }
    apply (G ds [] ks); [|exact H]. split; [constructor|]. intros m _. apply Nat.le_0_l.
  - cbn [kids_ok order]. assert (G : forall ds ks0 ks, Forall (fun k : N * desc => In (fst k) [0; 1; 2; 3; 4; 5]) ks0 -> adds (HOD t id url) ks0 ds = Ok ks -> Forall (fun k => In (fst k) [0; 1; 2; 3; 4; 5]) ks).
    { clear. induction ds as [|d ds IH]; intros ks0 ks I H; cbn [adds] in H; [injection H as <-; exact I|]. cbn [desc_add bind] in H. eapply IH; [|exact H].
      apply Forall_app. split; [exact I|]. apply Forall_cons; [|apply Forall_nil]. cbn [fst]. unfold od_member. repeat match goal with |- In (if ?c then _ else _) _ => destruct c end; cbn [In]; auto 10. }
    apply (G ds [] ks); [constructor|exact H].
  - subst url. cbn [kids_ok order]. assert (G : forall ds ks0 ks, Forall (fun k : N * desc => In (fst k) [0; 1; 3; 4; 5]) ks0 -> adds (HIOD id il [] p1 p2 p3 p4 p5) ks0 ds = Ok ks -> Forall (fun k => In (fst k) [0; 1; 3; 4; 5]) ks).
    { clear. induction ds as [|d ds IH]; intros ks0 ks I H; cbn [adds] in H; [injection H as <-; exact I|]. cbn [desc_add bind] in H. eapply IH; [|exact H].
      apply Forall_app. split; [exact I|]. apply Forall_cons; [|apply Forall_nil]. cbn [fst]. unfold iod_member. repeat match goal with |- In (if ?c then _ else _) _ => destruct c end; cbn [In]; auto 10. }
    apply (G ds [] ks); [constructor|exact H].
Qed.

(* ------------------------------------------------------------------ *)
(* the boxes                                                            *)

Lemma dbox_writes b : full_ok (db_ver b) (db_flags b) -> match db_desc b with Some d => wf d | None => True end ->
  writes (dbox_w b) (full (db_ver b) (db_flags b) ++ match db_desc b with Some d => enc d | None => [] end).
Proof.
  intros F W. unfold dbox_w. apply writes_full_seq. destruct (db_desc b) as [d|]; [|apply writes_ret].
  rewrite dwrite_ok by exact W. apply writes_embed. symmetry. apply dsize_ok. exact W.
Qed.
Lemma esds_exact : exact esds_codec esds_layout.
Proof.
  split; [intros t _; plain|]. intros t Ht Hl. unfold esds_codec, esds_layout, dbox_layout in *. cbn [c_size c_w c_rd l_body l_view l_ok c_ty] in *.
  destruct Ht as (F & _ & W). revert Hl. lens. intros Hl. split; [|split].
  - unfold dbox_size. destruct (db_desc t) as [d|]; [rewrite (dsize_ok d W)|]; revert Hl; lens; intros Hl; rewrite w32_small; lia.
  - apply dbox_writes; assumption.
  - unfold esds_read. pnext; [apply parses_full; exact F|]. cbn [fst snd]. apply parses_getrdn. cbn [h_size]. lens.
    destruct (db_desc t) as [d|].
    + pose proof (len_enc d) as LD. destruct (N.eqb_spec (sub32 (8 + (4 + len (enc d))) (w32 (8 + 4))) 0) as [X|X]; [exfalso; revert X; unfold sub32, w32; lia|].
      eapply parses_bind_last; [apply desc_read_ok; exact W|]. apply parses_ret, w32_lt.
    + change (len []) with 0. cbn. apply parses_ret. reflexivity.
Qed.
Lemma iods_exact : exact iods_codec iods_layout.
Proof.
  split; [intros t _; plain|]. intros t Ht Hl. unfold iods_codec, iods_layout, dbox_layout in *. cbn [c_size c_w c_rd l_body l_view l_ok c_ty] in *.
  destruct Ht as (F & NE & W). revert Hl. lens. intros Hl. split; [|split].
  - unfold dbox_size. destruct (db_desc t) as [d|]; [rewrite (dsize_ok d W)|]; revert Hl; lens; intros Hl; rewrite w32_small; lia.
  - apply dbox_writes; assumption.
  - unfold iods_read. pnext; [apply parses_full; exact F|]. cbn [fst snd]. destruct (db_desc t) as [d|]; [|congruence].
    eapply parses_bind_last; [apply desc_read_ok; exact W|]. apply parses_ret, w32_lt.
Qed.

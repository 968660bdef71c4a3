(* Codec.v -- lemmas about Base.v readers and writers. *)
From Verif Require Import Base.

(* [parses n m bs a]: started with bytesRead = n, the reader [m] applied to
   an input that begins with [bs] consumes exactly [bs], returns [a] and
   leaves the rest alone; applied to any strictly shorter prefix of [bs] it
   returns MP4IOErr. *)
Definition parses {A} (n : N) (m : rd A) (bs : list N) (a : A) : Prop :=
  (forall r, m (mkR (bs ++ r) n) = Ok (a, mkR r (w32 (n + len bs)))) /\
  (forall p q, bs = p ++ q -> q <> [] -> m (mkR p n) = Err MP4IOErr).

(* [writes w bs]: run with enough room left, [w] appends exactly [bs]. *)
Definition writes (w : wr) (bs : list N) : Prop :=
  forall s, len (wout s) + len bs <= wsz s -> wsz s < 4294967296 ->
  w s = Ok (mkW (wout s ++ bs) (wsz s)).

Lemma len_nil {A} : len (@nil A) = 0. Proof. reflexivity. Qed.
Lemma len_cons {A} (x : A) l : len (x :: l) = 1 + len l.
Proof. unfold len; cbn [length]; lia. Qed.
Lemma len_app {A} (l1 l2 : list A) : len (l1 ++ l2) = len l1 + len l2.
Proof. unfold len; rewrite app_length; lia. Qed.
Lemma len_map {A B} (f : A -> B) l : len (map f l) = len l.
Proof. unfold len; rewrite map_length; reflexivity. Qed.
Lemma len_repeat {A} (x : A) n : len (repeat x n) = N.of_nat n.
Proof. unfold len; rewrite repeat_length; reflexivity. Qed.
Lemma len_rev {A} (l : list A) : len (rev l) = len l.
Proof. unfold len; rewrite rev_length; reflexivity. Qed.
Lemma len_be8 v : len (be8 v) = 1. Proof. reflexivity. Qed.
Lemma len_be16 v : len (be16 v) = 2. Proof. reflexivity. Qed.
Lemma len_be24 v : len (be24 v) = 3. Proof. reflexivity. Qed.
Lemma len_be32 v : len (be32 v) = 4. Proof. reflexivity. Qed.
Lemma len_be64 v : len (be64 v) = 8. Proof. reflexivity. Qed.
Global Hint Rewrite @len_nil @len_cons @len_app @len_map @len_repeat @len_rev
  len_be8 len_be16 len_be24 len_be32 len_be64 : len.
Ltac lens := autorewrite with len in *.

Lemma len_0 {A} (l : list A) : len l = 0 -> l = [].
Proof. destruct l; lens; [reflexivity | lia]. Qed.
Lemma len_flat_map_const {A} (f : A -> list N) k l :
  (forall a, In a l -> len (f a) = k) -> len (flat_map f l) = k * len l.
Proof.
  induction l as [|a l IH]; intros H; cbn [flat_map]; lens; [lia|].
  rewrite H by (left; reflexivity). rewrite IH by (intros; apply H; right; assumption). lia.
Qed.

Lemma w32_small x : x < 4294967296 -> w32 x = x.
Proof. intros; unfold w32; apply N.mod_small; assumption. Qed.
Lemma w16_small x : x < 65536 -> w16 x = x.
Proof. intros; unfold w16; apply N.mod_small; assumption. Qed.
Lemma w8_small x : x < 256 -> w8 x = x.
Proof. intros; unfold w8; apply N.mod_small; assumption. Qed.
Lemma w64_small x : x < 18446744073709551616 -> w64 x = x.
Proof. intros; unfold w64; apply N.mod_small; assumption. Qed.
Lemma w32_lt x : w32 x < 4294967296. Proof. unfold w32; lia. Qed.
Lemma w16_lt x : w16 x < 65536. Proof. unfold w16; lia. Qed.
Lemma w8_lt x : w8 x < 256. Proof. unfold w8; lia. Qed.
Lemma w64_lt x : w64 x < 18446744073709551616. Proof. unfold w64; lia. Qed.
Lemma w32_idem x : w32 (w32 x) = w32 x.
Proof. apply w32_small, w32_lt. Qed.
Lemma w32_add_l x y : w32 (w32 x + y) = w32 (x + y).
Proof. unfold w32. rewrite N.add_mod_idemp_l; [reflexivity | discriminate]. Qed.
Lemma w32_add_r x y : w32 (x + w32 y) = w32 (x + y).
Proof. unfold w32. rewrite N.add_mod_idemp_r; [reflexivity | discriminate]. Qed.

(* ------------------------------------------------------------------ *)

Lemma parses_eq {A} n n' (m : rd A) bs bs' a a' :
  parses n m bs a -> n = n' -> bs = bs' -> a = a' -> parses n' m bs' a'.
Proof. intros; subst; assumption. Qed.

Lemma parses_fun_eq {A} n (m m' : rd A) bs a :
  (forall s, m s = m' s) -> parses n m bs a -> parses n m' bs a.
Proof. intros E [H1 H2]; split; intros; rewrite <- E; eauto. Qed.

Lemma parses_ret {A} n (a : A) : n < 4294967296 -> parses n (rret a) [] a.
Proof.
  intros Hn. split.
  - intros r. unfold rret. cbn [app]. lens. rewrite N.add_0_r, w32_small by assumption. reflexivity.
  - intros p q H Hq. symmetry in H; apply app_eq_nil in H. tauto.
Qed.

Lemma app_split_cases {A} (b1 b2 p q : list A) :
  b1 ++ b2 = p ++ q ->
  (exists q1, b1 = p ++ q1 /\ q1 <> []) \/ (exists p2, p = b1 ++ p2 /\ b2 = p2 ++ q).
Proof.
  revert p; induction b1 as [|x b1 IH]; intros p H.
  - right. exists p. auto.
  - destruct p as [|y p].
    + left. exists (x :: b1). split; [reflexivity | discriminate].
    + cbn [app] in H. injection H as -> H. destruct (IH _ H) as [[q1 [E Hq]] | [p2 [E1 E2]]].
      * left. exists q1. rewrite E; auto.
      * right. exists p2. rewrite E1; auto.
Qed.

Lemma parses_bind {A B} n (m : rd A) (k : A -> rd B) b1 b2 a b :
  parses n m b1 a -> parses (w32 (n + len b1)) (k a) b2 b ->
  parses n (rbind m k) (b1 ++ b2) b.
Proof.
  intros [H1 H2] [K1 K2]. split.
  - intros r. unfold rbind. rewrite <- app_assoc, H1, K1, w32_add_l. lens. rewrite N.add_assoc. reflexivity.
  - intros p q E Hq. unfold rbind. destruct (app_split_cases _ _ _ _ E) as [[q1 [E1 Hq1]] | [p2 [E1 E2]]].
    + rewrite (H2 _ _ E1 Hq1). reflexivity.
    + rewrite E1, H1. eapply K2; eauto.
Qed.

Lemma parses_then {A B} n (m : rd A) (k : A -> rd B) bs a rest : parses n m bs a ->
  rbind m k (mkR (bs ++ rest) n) = k a (mkR rest (w32 (n + len bs))).
Proof. intros [H _]. unfold rbind. rewrite H. reflexivity. Qed.
(* when the first reader consumes nothing *)
Lemma parses_bind_nil {A B} n (m : rd A) (k : A -> rd B) bs a b :
  (forall s, rdn s = n -> m s = Ok (a, s)) -> parses n (k a) bs b -> parses n (rbind m k) bs b.
Proof.
  intros H [K1 K2]; split; intros; unfold rbind; rewrite H by reflexivity; eauto.
Qed.

Ltac prefix_cases E Hq :=
  repeat match type of E with
  | ?x :: _ = ?p ++ _ =>
      destruct p as [|? ?]; [reflexivity | cbn [app] in E; injection E as <- E]
  | [] = ?p ++ _ => symmetry in E; apply app_eq_nil in E; destruct E; subst; congruence
  end.

Lemma parses_get8 n v : v < 256 -> parses n get8 (be8 v) v.
Proof.
  intros Hv. split.
  - intros r. unfold get8, be8; cbn [inp app rdn]. rewrite N.mod_small by assumption. reflexivity.
  - intros p q E Hq. unfold be8, get8 in *; cbn [inp]. prefix_cases E Hq.
Qed.
Lemma parses_get16 n v : v < 65536 -> parses n get16 (be16 v) v.
Proof.
  intros Hv. split.
  - intros r. unfold get16, be16; cbn [inp app rdn]. match goal with |- Ok (?x, _) = _ => replace x with v by lia end. reflexivity.
  - intros p q E Hq. unfold be16, get16 in *; cbn [inp]. prefix_cases E Hq.
Qed.
Lemma parses_get32 n v : v < 4294967296 -> parses n get32 (be32 v) v.
Proof.
  intros Hv. split.
  - intros r. unfold get32, be32; cbn [inp app rdn]. match goal with |- Ok (?x, _) = _ => replace x with v by lia end. reflexivity.
  - intros p q E Hq. unfold be32, get32 in *; cbn [inp]. prefix_cases E Hq.
Qed.
Lemma parses_ret_eq {A} n (a b : A) : n < 4294967296 -> a = b -> parses n (rret a) [] b.
Proof. intros Hn <-. apply parses_ret; assumption. Qed.
Lemma parses_bind_last {A B} n (m : rd A) (k : A -> rd B) bs a b :
  parses n m bs a -> parses (w32 (n + len bs)) (k a) [] b -> parses n (rbind m k) bs b.
Proof. intros H K. rewrite <- (app_nil_r bs). eapply parses_bind; eassumption. Qed.

Ltac pnext :=
  lazymatch goal with
  | |- parses _ (rbind _ _) (_ ++ _) _ => eapply parses_bind
  | |- parses _ (rbind _ _) _ _ => eapply parses_bind_last
  | |- parses _ (rret _) [] _ =>
      apply parses_ret_eq; [first [apply w32_lt | lia] | try reflexivity]
  end.

Lemma parses_get64 n v : v < 18446744073709551616 -> parses n get64 (be64 v) v.
Proof.
  intros Hv. unfold get64, be64.
  pnext; [apply parses_get32; lia|]. pnext; [apply parses_get32; lia|].
  pnext. lia.
Qed.

Lemma parses_take n bs : parses n (take (length bs)) bs bs.
Proof.
  split.
  - intros r. unfold take; cbn [inp rdn].
    assert (Nat.leb (length bs) (length (bs ++ r)) = true) as ->
      by (apply Nat.leb_le; rewrite app_length; lia).
    rewrite firstn_app, Nat.sub_diag, firstn_all, firstn_O, app_nil_r.
    rewrite skipn_app, Nat.sub_diag, skipn_all. reflexivity.
  - intros p q -> Hq. unfold take; cbn [inp].
    destruct (Nat.leb_spec (length (p ++ q)) (length p)) as [H|H]; [|reflexivity].
    rewrite app_length in H. destruct q; [congruence | cbn [length] in H; lia].
Qed.

Lemma parses_take_eq n k bs : k = length bs -> parses n (take k) bs bs.
Proof. intros ->; apply parses_take. Qed.

Lemma parses_rrep {A} (m : rd A) (enc : A -> list N) l :
  (forall a n, In a l -> parses n m (enc a) a) ->
  forall n, n < 4294967296 -> parses n (rrep (length l) m) (flat_map enc l) l.
Proof.
  induction l as [|a l IH]; intros H n Hn; cbn [rrep length flat_map].
  - apply parses_ret; assumption.
  - eapply parses_bind; [apply H; left; reflexivity|].
    eapply parses_eq.
    + eapply parses_bind; [apply IH; [intros; apply H; right; assumption | apply w32_lt]|].
      apply parses_ret, w32_lt.
    + reflexivity.
    + apply app_nil_r.
    + reflexivity.
Qed.

(* decoding through a view: the reader returns [f a] for the source [a] *)
Lemma parses_rrep_map {A B} (m : rd B) (enc : A -> list N) (f : A -> B) l :
  (forall a n, In a l -> parses n m (enc a) (f a)) ->
  forall n, n < 4294967296 -> parses n (rrep (length l) m) (flat_map enc l) (map f l).
Proof.
  induction l as [|a l IH]; intros H n Hn; cbn [rrep length flat_map map].
  - apply parses_ret; assumption.
  - eapply parses_bind; [apply H; left; reflexivity|].
    eapply parses_eq.
    + eapply parses_bind; [apply IH; [intros; apply H; right; assumption | apply w32_lt]|].
      apply parses_ret, w32_lt.
    + reflexivity.
    + apply app_nil_r.
    + reflexivity.
Qed.

(* ------------------------------------------------------------------ *)

Lemma writes_putl bs : writes (putl bs) bs.
Proof.
  intros s H Hs. unfold putl.
  rewrite w32_small by lia.
  destruct (N.ltb_spec (wsz s) (len (wout s) + len bs)); [lia | reflexivity].
Qed.
Lemma writes_put8 v : writes (put8 v) (be8 v). Proof. apply writes_putl. Qed.
Lemma writes_put16 v : writes (put16 v) (be16 v). Proof. apply writes_putl. Qed.
Lemma writes_put24 v : writes (put24 v) (be24 v). Proof. apply writes_putl. Qed.
Lemma writes_put32 v : writes (put32 v) (be32 v). Proof. apply writes_putl. Qed.
Lemma writes_put64 v : writes (put64 v) (be64 v). Proof. apply writes_putl. Qed.
Lemma writes_ret : writes wret [].
Proof. intros s _ _. unfold wret. rewrite app_nil_r. destruct s; reflexivity. Qed.
Lemma writes_seq a b x y : writes a x -> writes b y -> writes (a ;; b) (x ++ y).
Proof.
  intros Ha Hb s H Hs. unfold wseq. lens. rewrite Ha by lia. cbn [bind].
  rewrite Hb by (cbn [wout wsz]; lens; lia). cbn [wout wsz]. rewrite app_assoc. reflexivity.
Qed.
Lemma writes_map {A} (f : A -> wr) (enc : A -> list N) l :
  (forall a, In a l -> writes (f a) (enc a)) -> writes (wmap f l) (flat_map enc l).
Proof.
  induction l as [|a l IH]; intros H; cbn [wmap flat_map].
  - apply writes_ret.
  - apply writes_seq; [apply H; left; reflexivity | apply IH; intros; apply H; right; assumption].
Qed.
Lemma writes_eq w bs bs' : writes w bs -> bs = bs' -> writes w bs'.
Proof. intros; subst; assumption. Qed.
Lemma writes_run w bs sz : writes w bs -> len bs <= sz -> sz < 4294967296 -> wrun sz w = Ok bs.
Proof.
  intros H Hl Hs. unfold wrun. rewrite H; [reflexivity | cbn [wout wsz]; lens; lia | assumption].
Qed.

Ltac wstep :=
  lazymatch goal with
  | |- writes (put8 _) _ => apply writes_put8
  | |- writes (put16 _) _ => apply writes_put16
  | |- writes (put24 _) _ => apply writes_put24
  | |- writes (put32 _) _ => apply writes_put32
  | |- writes (put64 _) _ => apply writes_put64
  | |- writes (putl _) _ => apply writes_putl
  | |- writes wret _ => apply writes_ret
  | |- writes (wseq _ _) _ => eapply writes_seq; [wstep | wstep]
  | _ => idtac
  end.

(* ------------------------------------------------------------------ *)
(* Consumption: a reader never invents or overruns input               *)

(* every successful run leaves a suffix of its input *)
Definition consumes {A} (m : rd A) : Prop :=
  forall s a s', m s = Ok (a, s') -> exists p, inp s = p ++ inp s'.
Lemma consumes_ret {A} (a : A) : consumes (rret a).
Proof. intros s b s' H; injection H as <- <-. exists []; reflexivity. Qed.
Lemma consumes_bind {A B} (m : rd A) (k : A -> rd B) :
  consumes m -> (forall a, consumes (k a)) -> consumes (rbind m k).
Proof.
  intros H1 H2 s b s' H. unfold rbind in H. destruct (m s) as [[a s1]| |] eqn:E; try discriminate.
  destruct (H1 _ _ _ E) as [p Hp]. destruct (H2 _ _ _ _ H) as [q Hq].
  exists (p ++ q). rewrite Hp, Hq, app_assoc. reflexivity.
Qed.
Lemma consumes_take n : consumes (take n).
Proof.
  intros s a s' H. unfold take in H. destruct (Nat.leb _ _); [|discriminate].
  injection H as <- <-. cbn [inp]. exists (firstn n (inp s)). symmetry; apply firstn_skipn.
Qed.
Lemma consumes_get8 : consumes get8.
Proof.
  intros [i n] a s' H; unfold get8 in H; cbn [inp rdn] in *.
  destruct i as [|x i]; [discriminate|]. injection H as <- <-. exists [x]; reflexivity.
Qed.
Lemma consumes_get16 : consumes get16.
Proof.
  intros [i n] a s' H; unfold get16 in H; cbn [inp rdn] in *.
  destruct i as [|x [|y i]]; try discriminate. injection H as <- <-. exists [x; y]; reflexivity.
Qed.
Lemma consumes_get32 : consumes get32.
Proof.
  intros [i n] a s' H; unfold get32 in H; cbn [inp rdn] in *.
  destruct i as [|x [|y [|z [|t i]]]]; try discriminate.
  injection H as <- <-. exists [x; y; z; t]; reflexivity.
Qed.
Lemma consumes_get64 : consumes get64.
Proof.
  unfold get64. repeat (apply consumes_bind; [apply consumes_get32 | intros]). apply consumes_ret.
Qed.
Lemma consumes_err {A} e : consumes (@rerr A e).
Proof. intros s a s' H; discriminate. Qed.
Lemma consumes_ub {A} : consumes (@rub A).
Proof. intros s a s' H; discriminate. Qed.
Lemma consumes_getrdn : consumes getrdn.
Proof. intros s a s' H; injection H as <- <-. exists []; reflexivity. Qed.
Lemma consumes_rrep {A} n (m : rd A) : consumes m -> consumes (rrep n m).
Proof.
  intros H; induction n as [|n IH]; cbn [rrep]; [apply consumes_ret|].
  apply consumes_bind; [assumption|intros]. apply consumes_bind; [assumption|intros]. apply consumes_ret.
Qed.

(* a reader that never runs into undefined behaviour *)
Definition no_ub {A} (m : rd A) : Prop := forall s, m s <> UB.
Lemma no_ub_ret {A} (a : A) : no_ub (rret a). Proof. intros s H; discriminate. Qed.
Lemma no_ub_err {A} e : no_ub (@rerr A e). Proof. intros s H; discriminate. Qed.
Lemma no_ub_bind {A B} (m : rd A) (k : A -> rd B) :
  no_ub m -> (forall a, no_ub (k a)) -> no_ub (rbind m k).
Proof.
  intros H1 H2 s H. unfold rbind in H. destruct (m s) as [[a s1]| |] eqn:E; try discriminate.
  - apply (H2 _ _ H).
  - apply (H1 _ E).
Qed.
Lemma no_ub_take n : no_ub (take n).
Proof. intros s; unfold take; destruct (Nat.leb _ _); discriminate. Qed.
Lemma no_ub_get8 : no_ub get8.
Proof. intros [[|a i] n]; unfold get8; cbn [inp]; discriminate. Qed.
Lemma no_ub_get16 : no_ub get16.
Proof. intros [[|a [|b i]] n]; unfold get16; cbn [inp]; discriminate. Qed.
Lemma no_ub_get32 : no_ub get32.
Proof. intros [[|a [|b [|c [|d i]]]] n]; unfold get32; cbn [inp]; discriminate. Qed.
Lemma no_ub_get64 : no_ub get64.
Proof.
  unfold get64. repeat (apply no_ub_bind; [apply no_ub_get32 | intros]). apply no_ub_ret.
Qed.
Lemma no_ub_getrdn : no_ub getrdn. Proof. intros s H; discriminate. Qed.
Lemma no_ub_rrep {A} n (m : rd A) : no_ub m -> no_ub (rrep n m).
Proof.
  intros H; induction n as [|n IH]; cbn [rrep]; [apply no_ub_ret|].
  apply no_ub_bind; [assumption|intros]. apply no_ub_bind; [assumption|intros]. apply no_ub_ret.
Qed.

Lemma bytes_app a b : bytes (a ++ b) <-> bytes a /\ bytes b.
Proof. unfold bytes; apply Forall_app. Qed.
Lemma bytes_be8 v : bytes (be8 v).
Proof. unfold bytes, be8, is_byte; repeat constructor; lia. Qed.
Lemma bytes_be16 v : bytes (be16 v).
Proof. unfold bytes, be16, is_byte; repeat constructor; lia. Qed.
Lemma bytes_be24 v : bytes (be24 v).
Proof. unfold bytes, be24, is_byte; repeat constructor; lia. Qed.
Lemma bytes_be32 v : bytes (be32 v).
Proof. unfold bytes, be32, is_byte; repeat constructor; lia. Qed.
Lemma bytes_be64 v : bytes (be64 v).
Proof. apply bytes_app; split; apply bytes_be32. Qed.

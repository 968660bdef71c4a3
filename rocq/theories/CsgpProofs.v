(* CsgpProofs.v -- the compact form of a sample group map written and read. *)
From Verif Require Import Base Codec BitLemmas AtomModel AtomSpec AtomProofs BoxModel BoxSpec BoxProofs HeaderProofs Reads
  GroupModel GroupSpec GroupProofs.

(* ------------------------------------------------------------------ *)
(* bits and bytes                                                       *)

Lemma field_app a b v : field (a + b) v = field a (N.shiftr v (N.of_nat b)) ++ field b v.
Proof.
  induction a as [|a IH]; cbn [field Nat.add app]; [reflexivity|]. rewrite IH. f_equal.
  rewrite N.shiftr_spec by lia. f_equal. lia.
Qed.
Lemma field_mod w : forall k v, (w <= k)%nat -> field w (v mod 2 ^ N.of_nat k) = field w v.
Proof.
  induction w as [|w IH]; intros k v H; cbn [field]; [reflexivity|]. rewrite IH by lia. f_equal.
  apply N.mod_pow2_bits_low. lia.
Qed.
Definition byte_sum (l : list bool) : N :=
  match l with a :: b :: c :: d :: e :: f :: g :: h :: [] =>
    bit a 128 + bit b 64 + bit c 32 + bit d 16 + bit e 8 + bit f 4 + bit g 2 + bit h 1 | _ => 0 end.
Lemma below {P : N -> bool} k : forallb (fun i => P (N.of_nat i)) (seq 0 k) = true -> forall v, v < N.of_nat k -> P v = true.
Proof.
  intros H v Hv. rewrite forallb_forall in H. specialize (H (N.to_nat v)). rewrite N2Nat.id in H. apply H. apply in_seq. lia.
Qed.
Lemma byte_field v : v < 256 -> byte_sum (field 8 v) = v.
Proof.
  intros H. apply N.eqb_eq. revert v H. apply (below (P := fun v => byte_sum (field 8 v) =? v) 256). vm_compute. reflexivity.
Qed.
Lemma bytes8 v r : bytes_of (field 8 v ++ r) = be8 v ++ bytes_of r.
Proof.
  rewrite <- (field_mod 8 8) by lia. change (2 ^ N.of_nat 8) with 256. unfold be8.
  assert (H : v mod 256 < 256) by lia. revert H. generalize (v mod 256). intros x H.
  rewrite <- (byte_field x H) at 2. reflexivity.
Qed.
Lemma bytes16 v r : bytes_of (field 16 v ++ r) = be16 v ++ bytes_of r.
Proof.
  change 16%nat with (8 + 8)%nat. rewrite field_app, <- app_assoc, !bytes8. rewrite N.shiftr_div_pow2. reflexivity.
Qed.
Lemma bytes32 v r : bytes_of (field 32 v ++ r) = be32 v ++ bytes_of r.
Proof.
  change 32%nat with (16 + 16)%nat. rewrite field_app, <- app_assoc, !bytes16. rewrite N.shiftr_div_pow2.
  change (2 ^ N.of_nat 16) with 65536. unfold be16, be32. cbn [app].
  rewrite N.div_div by discriminate. reflexivity.
Qed.
Lemma field44 a b : a < 16 -> b < 16 -> field 4 a ++ field 4 b = field 8 (16 * a + b).
Proof.
  intros Ha Hb. change 8%nat with (4 + 4)%nat. rewrite field_app. f_equal.
  - f_equal. rewrite N.shiftr_div_pow2. change (2 ^ N.of_nat 4) with 16. lia.
  - rewrite <- (field_mod 4 4 (16 * a + b)) by lia. change (2 ^ N.of_nat 4) with 16. f_equal. lia.
Qed.
Lemma nibble_byte a b : a < 16 -> b < 16 -> N.lor (N.shiftl a 4 mod 256) (N.land b 15) = 16 * a + b.
Proof.
  intros Ha Hb. rewrite land15. rewrite N.shiftl_mul_pow2. change (2 ^ 4) with 16.
  rewrite (N.mod_small b) by lia. rewrite N.mod_small by lia. change 16 with (2 ^ 4) at 1. rewrite lor_mul by exact Hb.
  change (2 ^ 4) with 16. lia.
Qed.
Lemma bytes44 a b r : a < 16 -> b < 16 ->
  bytes_of (field 4 a ++ field 4 b ++ r) = be8 (N.lor (N.shiftl a 4 mod 256) (N.land b 15)) ++ bytes_of r.
Proof. intros Ha Hb. rewrite app_assoc, field44, bytes8, nibble_byte by assumption. reflexivity. Qed.
Lemma bytes4 a : a < 16 -> bytes_of (field 4 a) = be8 (N.shiftl a 4).
Proof.
  intros H. assert (E : (match bytes_of (field 4 a) with [x] => x =? N.shiftl a 4 mod 256 | _ => false end) = true).
  { revert a H. apply (below (P := fun a => match bytes_of (field 4 a) with [x] => x =? N.shiftl a 4 mod 256 | _ => false end) 16). vm_compute. reflexivity. }
  unfold be8. destruct (bytes_of (field 4 a)) as [|x [|y l]]; try discriminate. f_equal. lia.
Qed.
Lemma nibble_bits : forall l, Forall (fun x => x < 16) l -> bytes_of (flat_map (field 4) l) = nibbles l.
Proof.
  fix IH 1. intros [|a [|b r]] H; [reflexivity| |].
  - inversion H; subst. cbn [flat_map nibbles]. rewrite app_nil_r. apply bytes4. assumption.
  - inversion H as [|? ? H1 H2]; subst. inversion H2 as [|? ? H3 H4]; subst.
    cbn [nibbles]. change (flat_map (field 4) (a :: b :: r)) with (field 4 a ++ field 4 b ++ flat_map (field 4) r).
    rewrite bytes44 by assumption. f_equal. apply IH. assumption.
Qed.
Lemma flat_bits (w : nat) (enc : N -> list N) : (forall v r, bytes_of (field w v ++ r) = enc v ++ bytes_of r) ->
  forall l, bytes_of (flat_map (field w) l) = flat_map enc l.
Proof. intros H. induction l as [|x l IH]; cbn [flat_map]; [reflexivity|]. rewrite H, IH. reflexivity. Qed.
Lemma pack_bits sz l : width sz -> Forall (fun x => x < 2 ^ sz) l -> bytes_of (flat_map (field (N.to_nat sz)) l) = pack sz l.
Proof.
  intros [<-|[<-|[<-|[<-|[]]]]] H; unfold pack.
  - apply nibble_bits. exact H.
  - apply flat_bits. exact bytes8.
  - apply flat_bits. exact bytes16.
  - apply flat_bits. exact bytes32.
Qed.
Definition pat_ok (psz csz : N) (p : N * N) : Prop := fst p < 2 ^ psz /\ snd p < 2 ^ csz.
Lemma pat_bits psz csz p r : width psz -> width csz -> (psz + csz) mod 8 = 0 -> pat_ok psz csz p ->
  bytes_of ((field (N.to_nat psz) (fst p) ++ field (N.to_nat csz) (snd p)) ++ r) = pack_pat psz csz p ++ bytes_of r.
Proof.
  intros H1 H2 H3 [A B]. rewrite <- app_assoc. unfold pack_pat, pack.
  destruct H1 as [<-|[<-|[<-|[<-|[]]]]], H2 as [<-|[<-|[<-|[<-|[]]]]]; try discriminate H3.
  1: cbn [nibbles andb N.eqb]; change (4 =? 4) with true; cbn [andb]; cbv iota; cbn [nibbles]; rewrite app_nil_r; apply bytes44; assumption.
  all: change (8 =? 4) with false; change (16 =? 4) with false; change (32 =? 4) with false;
    change (8 =? 8) with true; change (16 =? 8) with false; change (32 =? 8) with false;
    change (16 =? 16) with true; change (32 =? 16) with false; cbn [andb]; cbv iota; cbn [flat_map]; rewrite ?app_nil_r, <- ?app_assoc;
    change (N.to_nat 8) with 8%nat; change (N.to_nat 16) with 16%nat; change (N.to_nat 32) with 32%nat;
    rewrite ?bytes8, ?bytes16, ?bytes32; rewrite ?bytes8, ?bytes16, ?bytes32; reflexivity.
Qed.
Lemma pats_bits psz csz r : width psz -> width csz -> (psz + csz) mod 8 = 0 -> forall l, Forall (pat_ok psz csz) l ->
  bytes_of (flat_map (fun p => field (N.to_nat psz) (fst p) ++ field (N.to_nat csz) (snd p)) l ++ r) =
  flat_map (pack_pat psz csz) l ++ bytes_of r.
Proof.
  intros H1 H2 H3. induction 1 as [|p l Hp Hl IH]; cbn [flat_map app]; [reflexivity|].
  rewrite <- app_assoc, pat_bits by assumption. rewrite IH, app_assoc. reflexivity.
Qed.

(* ------------------------------------------------------------------ *)
(* the values read back                                                 *)

Lemma reads_or_ub {A} n (m : rd A) bs a : reads n m bs a -> reads n (or_ub m) bs a.
Proof. intros H r. unfold or_ub. rewrite H. reflexivity. Qed.
Definition stream (sz : N) (up : option N) (l bs : list N) : Prop :=
  if sz =? 4 then
    match up with
    | None => bs = nibbles l
    | Some n => (exists l', l = n :: l' /\ bs = nibbles l') \/ (l = [] /\ bs = [])
    end
  else up = None /\ bs = pack sz l.
Lemma get_data_stream sz up v l bs n : width sz -> n < 4294967296 -> stream sz up (v :: l) bs -> Forall (fun x => x < 2 ^ sz) (v :: l) ->
  exists b1 b2 up', bs = b1 ++ b2 /\ reads n (get_data sz up) b1 (v, up') /\ stream sz up' l b2.
Proof.
  intros W Hn S F. inversion F as [|? ? F1 F2]; subst. unfold stream in *. unfold get_data.
  destruct (N.eqb_spec sz 4) as [->|E4].
  - destruct up as [u|].
    + destruct S as [(l' & E & ->)|[E _]]; [|discriminate]. injection E as -> ->.
      exists [], (nibbles l'), None. split; [reflexivity|]. split; [apply reads_ret; [exact Hn|reflexivity]|reflexivity].
    + subst bs. destruct l as [|b r].
      * exists (be8 (N.shiftl v 4)), [], (Some 0). cbn [nibbles]. split; [rewrite app_nil_r; reflexivity|].
        change (2 ^ 4) with 16 in F1. rewrite N.shiftl_mul_pow2. change (2 ^ 4) with 16.
        split; [|right; split; reflexivity].
        rnext; [apply reads_or_ub, reads_of, parses_get8; lia|]. rnext.
        rewrite N.shiftr_div_pow2, land15. change (2 ^ 4) with 16. f_equal; [lia|]. f_equal. lia.
      * inversion F2 as [|? ? F3 F4]; subst. change (2 ^ 4) with 16 in *.
        exists (be8 (N.lor (N.shiftl v 4 mod 256) (N.land b 15))), (nibbles r), (Some b). cbn [nibbles]. split; [reflexivity|].
        rewrite nibble_byte by assumption. split; [|left; exists r; split; reflexivity].
        rnext; [apply reads_or_ub, reads_of, parses_get8; lia|]. rnext.
        rewrite N.shiftr_div_pow2, land15. change (2 ^ 4) with 16. f_equal; [lia|]. f_equal. lia.
  - destruct S as [-> ->]. destruct W as [<-|[<-|[<-|[<-|[]]]]]; [contradiction| | |]; unfold pack;
      change (8 =? 4) with false in *; change (16 =? 4) with false in *; change (32 =? 4) with false in *;
      change (8 =? 8) with true in *; change (16 =? 8) with false in *; change (32 =? 8) with false in *;
      change (16 =? 16) with true in *; change (32 =? 16) with false in *; cbv iota; cbn [flat_map]; eexists _, _, None;
      (split; [reflexivity|]); (split; [|split; reflexivity]);
      (rnext; [apply reads_or_ub, reads_of; first [apply parses_get8|apply parses_get16|apply parses_get32]; exact F1|]); rnext.
Qed.
Lemma reads_pats psz csz : width psz -> width csz -> (psz + csz) mod 8 = 0 -> forall l, Forall (pat_ok psz csz) l ->
  forall n, n < 4294967296 -> reads n (get_pats (length l) psz csz None) (flat_map (pack_pat psz csz) l) (l, None).
Proof.
  intros H1 H2 H3. induction 1 as [|[p c] l [Hp Hc] Hl IH]; intros n Hn; cbn [length get_pats flat_map].
  { rnext. }
  cbn [fst snd] in *.
  assert (R : reads n (get_pats (S (length l)) psz csz None) (pack_pat psz csz (p, c) ++ flat_map (pack_pat psz csz) l) ((p, c) :: l, None)).
  { cbn [get_pats]. remember (flat_map (pack_pat psz csz) l) as tl eqn:Etl. clear Etl. unfold pack_pat. cbn [fst snd]. destruct (N.eqb_spec psz 4) as [->|P4].
    - destruct (N.eqb_spec csz 4) as [->|C4]; [|exfalso; destruct H2 as [<-|[<-|[<-|[<-|[]]]]]; try discriminate H3; contradiction].
      cbn [andb]. unfold pack. change (4 =? 4) with true. cbv iota. cbn [nibbles]. change (2 ^ 4) with 16 in *.
      rewrite nibble_byte by assumption. rewrite app_nil_r.
      eapply reads_bind; [|].
      + unfold get_data. change (4 =? 4) with true. cbv iota.
        rnext; [apply reads_or_ub, reads_of, parses_get8; lia|].
        apply reads_ret; [apply w32_lt|]. reflexivity.
      + cbv beta iota. rewrite N.shiftr_div_pow2, land15. change (2 ^ 4) with 16.
        replace ((16 * p + c) / 16) with p by lia. replace ((16 * p + c) mod 16) with c by lia.
        unfold get_data at 1. change (4 =? 4) with true. cbv iota.
        eapply reads_bind_nil; [intros; reflexivity|]. cbv beta iota.
        rnext; [apply IH; apply w32_lt|]. cbv beta iota. rnext.
    - destruct (N.eqb_spec csz 4) as [->|C4]; [exfalso; destruct H1 as [<-|[<-|[<-|[<-|[]]]]]; try discriminate H3; contradiction|].
      cbn [andb]. rewrite <- app_assoc.
      assert (one : forall sz v m, width sz -> sz <> 4 -> v < 2 ^ sz -> reads m (get_data sz None) (pack sz [v]) (v, None)).
      { clear. intros sz v m W N4 Hv. destruct W as [<-|[<-|[<-|[<-|[]]]]]; [contradiction| | |]; unfold pack, get_data;
          change (8 =? 4) with false in *; change (16 =? 4) with false in *; change (32 =? 4) with false in *;
          change (8 =? 8) with true in *; change (16 =? 8) with false in *; change (32 =? 8) with false in *;
          change (16 =? 16) with true in *; change (32 =? 16) with false in *; cbv iota; cbn [flat_map]; rewrite app_nil_r;
          (rnext; [apply reads_or_ub, reads_of; first [apply parses_get8|apply parses_get16|apply parses_get32]; exact Hv|]); rnext. }
      rnext; [apply one; assumption|]. cbv beta iota. rnext; [apply one; assumption|]. cbv beta iota.
      rnext; [apply IH; apply w32_lt|]. cbv beta iota. rnext. }
  exact R.
Qed.

(* what the reader makes of a stored index *)
Definition unstored (isz : N) (local : bool) (v : N) : N :=
  if local then (if N.testbit v (isz - 1) then v mod N.shiftl 1 (isz - 1) + 65536 else v) else v.
Lemma printed_le v : printed v <= 13.
Proof.
  unfold printed. generalize (if v <? 2147483648 then v else 4294967296 - v). intros a. destruct (v <? 2147483648);
  repeat (match goal with |- context [if ?b then _ else _] => destruct b end); lia.
Qed.
Lemma reads_descs isz local i : width isz -> i <= 33 -> forall vs rest up bs n, n < 4294967296 ->
  stream isz up (vs ++ rest) bs -> Forall (fun x => x < 2 ^ isz) (vs ++ rest) ->
  exists b1 b2 up', bs = b1 ++ b2 /\
    reads n (get_descs (length vs) i isz local up) b1 (map (unstored isz local) vs, up') /\ stream isz up' rest b2.
Proof.
  intros W Hi. induction vs as [|v vs IH]; intros rest up bs n Hn S F; cbn [length get_descs map].
  - exists [], bs, up. split; [reflexivity|]. split; [rnext|exact S].
  - cbn [app] in *. destruct (get_data_stream isz up v (vs ++ rest) bs n W Hn S F) as (b1 & b2 & up1 & -> & R1 & S1).
    inversion F as [|? ? F1 F2]; subst.
    destruct (IH rest up1 b2 (w32 (n + len b1)) (w32_lt _) S1 F2) as (c1 & c2 & up2 & -> & R2 & S2).
    exists (b1 ++ c1), c2, up2. split; [rewrite app_assoc; reflexivity|]. split; [|exact S2].
    eapply reads_bind; [exact R1|]. cbv beta iota zeta. fold (unstored isz local v).
    pose proof (printed_le (unstored isz local v)). destruct (N.ltb_spec 80 (2 * i + printed (unstored isz local v))); [lia|].
    rnext; [exact R2|]. cbv beta iota. rnext.
Qed.
Lemma cycle_repeated vs p c : len vs = p -> p <> 0 -> cycle vs p c = repeated vs (N.to_nat c).
Proof.
  intros H Hp. unfold cycle, repeated. apply map_ext. intros j. f_equal. unfold len in H.
  rewrite N2Nat.inj_mod, Nat2N.id. f_equal. lia.
Qed.
Lemma reads_groups isz local : width isz -> forall l ds i up bs n, n < 4294967296 -> i + len l <= 34 ->
  Forall (fun p => 1 <= fst p /\ fst p <= snd p) l -> length ds = N.to_nat (fold_right (fun p m => fst p + m) 0 l) ->
  stream isz up ds bs -> Forall (fun x => x < 2 ^ isz) ds ->
  reads n (get_groups l i isz local up) bs (spread l (map (unstored isz local) ds)) \/ (l = [] /\ True).
Proof.
  intros W. induction l as [|[p c] l IH]; intros ds i up bs n Hn Hi Fp Hd S F; [right; auto|left].
  cbn [get_groups fold_right fst snd] in *. inversion Fp as [|? ? [P1 P2] P3]; subst. cbn [fst snd] in *.
  rewrite N.min_l by lia.
  assert (Ld : length (firstn (N.to_nat p) ds) = N.to_nat p) by (rewrite firstn_length; lia).
  rewrite <- (firstn_skipn (N.to_nat p) ds) in S, F. revert Hi. lens. intros Hi.
  destruct (reads_descs isz local i W ltac:(lia) _ _ up bs n Hn S F) as (b1 & b2 & up' & -> & R & S').
  rewrite Ld in R. eapply reads_bind; [exact R|]. cbv beta iota.
  destruct (N.eqb_spec p 0); [lia|]. cbn [andb]. cbn [spread].
  assert (E1 : firstn (N.to_nat p) (map (unstored isz local) ds) = map (unstored isz local) (firstn (N.to_nat p) ds)) by (rewrite firstn_map; reflexivity).
  assert (E2 : skipn (N.to_nat p) (map (unstored isz local) ds) = map (unstored isz local) (skipn (N.to_nat p) ds)) by (rewrite skipn_map; reflexivity).
  rewrite E1, E2. rewrite cycle_repeated by (unfold len; rewrite ?map_length; lia).
  assert (F' : Forall (fun x => x < 2 ^ isz) (skipn (N.to_nat p) ds)) by (apply Forall_app in F; apply F).
  destruct l as [|q l].
  - cbn [get_groups spread]. assert (Hs : skipn (N.to_nat p) ds = []) by (apply skipn_all2; cbn [fold_right] in Hd; lia).
    rewrite Hs in S'. assert (b2 = []).
    { unfold stream in S'. destruct (isz =? 4).
      - destruct up'; [destruct S' as [(? & ? & _)|[_ ->]]; [discriminate|reflexivity]|exact S'].
      - destruct S' as [_ ->]. unfold pack. repeat (destruct (_ =? _)); reflexivity. }
    subst b2. eapply reads_bind_nil; [intros; reflexivity|]. rnext.
  - rnext; [|rnext].
    assert (I1 : i + 1 + len (q :: l) <= 34) by (revert Hi; lens; lia).
    assert (I2 : length (skipn (N.to_nat p) ds) = N.to_nat (fold_right (fun p m => fst p + m) 0 (q :: l))) by (rewrite skipn_length; lia).
    destruct (IH (skipn (N.to_nat p) ds) (i + 1) up' b2 (w32 (n + len b1)) (w32_lt _) I1 P3 I2 S' F') as [R2|[E _]]; [exact R2|discriminate].
Qed.

(* ------------------------------------------------------------------ *)
(* what the compact form of a table looks like                          *)

Lemma lor_top g : g < 2147483648 -> N.lor g (N.shiftl 1 31) = g + 2147483648.
Proof. intros H. change 31 with 31 at 1. rewrite (lor_add_r 31) by exact H. reflexivity. Qed.
Lemma stored_coded s g : widths_ok s -> In g (sg_idx s) -> stored_index s g = coded (sg_local s) (sg_isz s) g.
Proof.
  intros [W H] I. unfold stored_index, coded. destruct H as [(A & B & C)|(A & B & C & D)].
  - rewrite A. cbn [andb]. destruct (sg_frag s) eqn:F; [|reflexivity]. cbn [andb].
    specialize (C eq_refl). rewrite Forall_forall in C. specialize (C g I). destruct (N.leb_spec 65536 g); [lia|reflexivity].
  - rewrite A, B, C. cbn [andb]. rewrite Forall_forall in D. specialize (D g I).
    destruct (N.leb_spec 65536 g); [|reflexivity]. change (32 - 1) with 31. rewrite lor_top by lia. reflexivity.
Qed.
Lemma coded_fits s g : widths_ok s -> In g (sg_idx s) -> coded (sg_local s) (sg_isz s) g < 2 ^ sg_isz s.
Proof.
  intros [W H] I. unfold coded. destruct H as [(A & B & C)|(A & B & C & D)].
  - rewrite A. cbn [andb]. rewrite Forall_forall in B. exact (B g I).
  - rewrite A, C. cbn [andb]. rewrite Forall_forall in D. specialize (D g I).
    change (2 ^ (32 - 1)) with 2147483648. change (2 ^ 32) with 4294967296.
    destruct (N.leb_spec 65536 g); lia.
Qed.
Lemma unstored_coded s g : widths_ok s -> In g (sg_idx s) -> unstored (sg_isz s) (sg_local s) (coded (sg_local s) (sg_isz s) g) = g.
Proof.
  intros [W H] I. unfold unstored, coded. destruct H as [(A & B & C)|(A & B & C & D)].
  - rewrite A. reflexivity.
  - rewrite A, C. cbn [andb]. rewrite Forall_forall in D. specialize (D g I).
    change (2 ^ (32 - 1)) with 2147483648. change (N.shiftl 1 (32 - 1)) with 2147483648. change (32 - 1) with 31.
    rewrite N.testbit_eqb. change (2 ^ 31) with 2147483648.
    destruct (N.leb_spec 65536 g).
    + replace ((g - 65536 + 2147483648) / 2147483648) with 1 by lia. change (1 mod 2 =? 1) with true. cbv iota. lia.
    + rewrite N.div_small by lia. reflexivity.
Qed.

Lemma slice_incl (l : list N) i n x : In x (firstn n (skipn i l)) -> In x l.
Proof.
  intros H. rewrite <- (firstn_skipn i l). apply in_or_app. right.
  rewrite <- (firstn_skipn n (skipn i l)). apply in_or_app. left. exact H.
Qed.
Lemma flat_map_ext_in {A B} (f g : A -> list B) l : (forall x, In x l -> f x = g x) -> flat_map f l = flat_map g l.
Proof. induction l as [|x l IH]; intros H; cbn [flat_map]; [reflexivity|]. rewrite (H x), IH; auto using in_eq, in_cons. Qed.
(* the compact form: patterns and indices give the table back *)
Lemma compact_spread s : spread (ci_pats (compact s)) (ci_desc (compact s)) = map (stored_index s) (sg_idx s).
Proof.
  destruct (compact_segs s) as (l & A & -> & -> & E). rewrite spread_segs by exact A. rewrite E. reflexivity.
Qed.
Lemma compact_pats s : Forall (fun p => 1 <= fst p /\ fst p <= snd p) (ci_pats (compact s)) /\
  total (ci_pats (compact s)) = len (sg_idx s) /\
  len (ci_desc (compact s)) = fold_right (fun p m => fst p + m) 0 (ci_pats (compact s)) /\
  (widths_ok s -> Forall (fun v => v < 2 ^ sg_isz s) (ci_desc (compact s))).
Proof.
  destruct (compact_segs s) as (l & A & -> & -> & E). split; [|split; [|split]].
  - apply Forall_forall. intros p Ip. apply in_map_iff in Ip. destruct Ip as ([[st p0] c] & <- & I). rewrite Forall_forall in A.
    destruct (A _ I) as (B1 & B2 & _). cbn [fst snd]. lia.
  - rewrite <- E. clear E. induction A as [|[[st p] c] l (B1 & B2 & B3 & _) A IH]; [reflexivity|].
    cbn [map total fold_right fst snd flat_map]. lens. rewrite len_slice by exact B3. unfold total in IH. rewrite IH. reflexivity.
  - clear E. induction A as [|[[st p] c] l (B1 & B2 & B3 & _) A IH]; [reflexivity|].
    cbn [map fold_right fst snd flat_map]. lens. rewrite IH. f_equal. fold (slice (sg_idx s) st p).
    apply len_slice. lia.
  - intros W. apply Forall_forall. intros v Iv. apply in_flat_map in Iv. destruct Iv as (x & _ & Iv). apply in_map_iff in Iv.
    destruct Iv as (g & <- & Ig). apply slice_incl in Ig. rewrite stored_coded by assumption. apply coded_fits; assumption.
Qed.
Lemma widest_ge l : forall m, m <= fold_left (fun m v => N.max m (field_size v false)) l m /\
  Forall (fun v => field_size v false <= fold_left (fun m v => N.max m (field_size v false)) l m) l.
Proof.
  induction l as [|x l IH]; intros m; cbn [fold_left]; [split; [lia|constructor]|].
  destruct (IH (N.max m (field_size x false))) as [A B]. split; [lia|]. constructor; [lia|exact B].
Qed.
Lemma widest_width l : width (widest l).
Proof.
  unfold widest. assert (H : width 4) by (left; reflexivity). revert H. generalize 4.
  induction l as [|x l IH]; intros m H; cbn [fold_left]; [exact H|]. apply IH, width_max; [exact H|apply width_field].
Qed.
Lemma widest_fits l : Forall (fun v => v < 4294967296) l -> Forall (fun v => v < 2 ^ widest l) l.
Proof.
  intros H. destruct (widest_ge l 4) as [_ B]. fold (widest l) in B. rewrite Forall_forall in *. intros v I.
  pose proof (field_fits v (H v I)). pose proof (pow_mono _ _ (B v I)). lia.
Qed.
Lemma total_ge l p : In p l -> snd p <= total l.
Proof. induction l as [|q l IH]; intros []; cbn [total fold_right]; [subst; lia|]. specialize (IH H). unfold total in IH. lia. Qed.
Lemma compact_sizes s : len (sg_idx s) < 4294967296 ->
  let c := compact s in width (ci_psz c) /\ width (ci_csz c) /\ (ci_psz c + ci_csz c) mod 8 = 0 /\
  Forall (pat_ok (ci_psz c) (ci_csz c)) (ci_pats c).
Proof.
  intros Hl. cbv zeta. destruct (compact_pats s) as (P & T & _). revert P T. unfold compact.
  match goal with |- context [mkCinfo ?p ?d] => set (pats := p); set (desc := d) end.
  set (psz := widest (map fst pats)). set (csz := widest (map snd pats)).
  assert (W1 : width psz) by apply widest_width. assert (W2 : width csz) by apply widest_width.
  intros P T. assert (E : ci_pats (if (psz + csz) mod 8 =? 0 then mkCinfo pats desc psz csz
             else if psz =? 4 then mkCinfo pats desc 8 csz else mkCinfo pats desc psz 8) = pats)
    by (destruct (_ =? 0); [reflexivity|destruct (_ =? 4); reflexivity]).
  rewrite E in *.
  assert (F : Forall (pat_ok psz csz) pats).
  { assert (F0 : forall p, In p pats -> fst p < 4294967296 /\ snd p < 4294967296).
    { intros p Ip. rewrite Forall_forall in P. specialize (P p Ip). pose proof (total_ge pats p Ip). lia. }
    apply Forall_forall. intros p Ip. split.
    - assert (Q := widest_fits (map fst pats)). rewrite !Forall_forall in Q. apply Q; [|apply in_map; exact Ip].
      intros v Iv. apply in_map_iff in Iv. destruct Iv as (q & <- & Iq). apply F0. exact Iq.
    - assert (Q := widest_fits (map snd pats)). rewrite !Forall_forall in Q. apply Q; [|apply in_map; exact Ip].
      intros v Iv. apply in_map_iff in Iv. destruct Iv as (q & <- & Iq). apply F0. exact Iq. }
  clearbody psz csz. clear E.
  destruct (N.eqb_spec ((psz + csz) mod 8) 0) as [M|M]; cbn [ci_psz ci_csz].
  - repeat split; assumption.
  - destruct (N.eqb_spec psz 4) as [->|N4]; cbn [ci_psz ci_csz].
    + split; [right; left; reflexivity|]. split; [exact W2|].
      split; [destruct W2 as [<-|[<-|[<-|[<-|[]]]]]; try reflexivity; exfalso; apply M; reflexivity|].
      eapply Forall_impl; [|exact F]. intros p [A B]. split; [|exact B]. change (2 ^ 4) with 16 in A. change (2 ^ 8) with 256. lia.
    + split; [exact W1|]. split; [right; left; reflexivity|].
      assert (C4 : csz = 4) by (destruct W1 as [<-|[<-|[<-|[<-|[]]]]], W2 as [<-|[<-|[<-|[<-|[]]]]]; try reflexivity; exfalso; (apply M + apply N4); reflexivity).
      subst csz. split; [destruct W1 as [<-|[<-|[<-|[<-|[]]]]]; try reflexivity; exfalso; apply N4; reflexivity|].
      eapply Forall_impl; [|exact F]. intros p [A B]. split; [exact A|]. change (2 ^ 4) with 16 in B. change (2 ^ 8) with 256. lia.
Qed.

(* ------------------------------------------------------------------ *)
(* the box                                                              *)

Lemma len_nibbles : forall l, len (nibbles l) = (4 * len l + 4) / 8.
Proof.
  fix IH 1. intros [|a [|b r]]; [reflexivity|reflexivity|]. cbn [nibbles]. lens. rewrite IH. lia.
Qed.
Lemma len_pack sz l : width sz -> len (pack sz l) = (len l * sz + 4) / 8.
Proof.
  intros [<-|[<-|[<-|[<-|[]]]]]; unfold pack.
  - change (4 =? 4) with true. cbv iota. rewrite len_nibbles. f_equal. lia.
  - change (8 =? 4) with false. change (8 =? 8) with true. cbv iota. rewrite (len_flat_map_const _ 1) by reflexivity. lia.
  - change (16 =? 4) with false. change (16 =? 8) with false. change (16 =? 16) with true. cbv iota.
    rewrite (len_flat_map_const _ 2) by reflexivity. lia.
  - change (32 =? 4) with false. change (32 =? 8) with false. change (32 =? 16) with false. cbv iota.
    rewrite (len_flat_map_const _ 4) by reflexivity. lia.
Qed.
Lemma len_pack_pat psz csz p : width psz -> width csz -> (psz + csz) mod 8 = 0 -> len (pack_pat psz csz p) = (psz + csz) / 8.
Proof.
  intros H1 H2 H3. unfold pack_pat.
  destruct H1 as [<-|[<-|[<-|[<-|[]]]]], H2 as [<-|[<-|[<-|[<-|[]]]]]; try discriminate H3; reflexivity.
Qed.
Lemma width_code_ok w : width w -> size_code w = width_code w.
Proof. intros [<-|[<-|[<-|[<-|[]]]]]; reflexivity. Qed.
Lemma width_ge w : width w -> 4 <= w <= 32.
Proof. intros [<-|[<-|[<-|[<-|[]]]]]; lia. Qed.

Lemma csgp_bytes s : widths_ok s -> len (sg_idx s) < 4294967296 -> let c := compact s in
  l_body csgp_layout s =
  full (sg_ver s) (bit (sg_local s) 128 + bit (sg_pp s) 64 + 16 * width_code (ci_psz c) + 4 * width_code (ci_csz c) + width_code (sg_isz s)) ++
  be32 (sg_type s) ++ (if sg_pp s then be32 (sg_param s) else []) ++ be32 (len (ci_pats c)) ++
  flat_map (pack_pat (ci_psz c) (ci_csz c)) (ci_pats c) ++ pack (sg_isz s) (ci_desc c).
Proof.
  intros W Hl. cbv zeta. destruct (compact_sizes s Hl) as (W1 & W2 & W3 & F). destruct (compact_pats s) as (_ & _ & _ & D).
  unfold csgp_layout. cbn [l_body]. unfold csgp_body. rewrite pats_bits by assumption.
  rewrite pack_bits by (exact (proj1 W) || exact (D W)). destruct (sg_pp s); reflexivity.
Qed.
Lemma csgp_len s : widths_ok s -> len (sg_idx s) < 4294967296 -> let c := compact s in
  len (l_body csgp_layout s) = 12 + (if sg_pp s then 4 else 0) +
    (len (ci_pats c) * (ci_psz c + ci_csz c) + len (ci_desc c) * sg_isz s + 4) / 8.
Proof.
  intros W Hl. cbv zeta. rewrite csgp_bytes by assumption. destruct (compact_sizes s Hl) as (W1 & W2 & W3 & F). lens.
  rewrite len_pack by exact (proj1 W).
  rewrite (len_flat_map_const _ ((ci_psz (compact s) + ci_csz (compact s)) / 8)) by (intros; apply len_pack_pat; assumption).
  remember (ci_psz (compact s) + ci_csz (compact s)) as q. remember (len (ci_desc (compact s)) * sg_isz s) as d.
  assert (E : len (ci_pats (compact s)) * q = 8 * (q / 8 * len (ci_pats (compact s)))).
  { assert (Q : q = 8 * (q / 8)) by lia. remember (q / 8) as m. rewrite Q. ring. }
  rewrite E. remember (q / 8 * len (ci_pats (compact s))) as k. destruct (sg_pp s); lens; lia.
Qed.

Lemma desc_le s : len (ci_desc (compact s)) <= len (sg_idx s).
Proof.
  destruct (compact_pats s) as (A & B & C & _). rewrite C, <- B. clear B C. induction A as [|p l Hp A IH]; [reflexivity|].
  cbn [fold_right total]. unfold total in IH. lia.
Qed.
Lemma pats_le s : len (ci_pats (compact s)) <= len (sg_idx s).
Proof.
  destruct (compact_pats s) as (A & B & C & _). rewrite <- B. clear B C. induction A as [|p l Hp A IH]; [reflexivity|].
  cbn [fold_right total]. lens. unfold total in IH. lia.
Qed.
Lemma flags_read wi wc wp pp local : width wi -> width wc -> width wp ->
  let f := bit local 128 + bit pp 64 + 16 * width_code wp + 4 * width_code wc + width_code wi in
  f < 256 /\ N.shiftl 4 (N.land f 3) = wi /\ N.shiftl 4 (N.land (N.shiftr f 2) 3) = wc /\
  N.shiftl 4 (N.land (N.shiftr f 4) 3) = wp /\ N.testbit f 7 = local /\ N.testbit f 6 = pp.
Proof.
  intros [<-|[<-|[<-|[<-|[]]]]] [<-|[<-|[<-|[<-|[]]]]] [<-|[<-|[<-|[<-|[]]]]]; destruct pp, local; vm_compute; repeat split.
Qed.
Lemma csgp_faithful : faithful sbgp_codec csgp_layout.
Proof.
  assert (K : forall t, l_ok csgp_layout t -> sbgp_kind t = Compact) by (intros t Ht; exact (proj1 Ht)).
  split.
  { intros t Ht. unfold sbgp_codec. cbn [c_ty c_known l_view csgp_layout l_ty]. rewrite (K t Ht).
    unfold sbgp_kind at 1. cbn [sg_kind]. plain. }
  intros t Ht Hl. specialize (K t Ht). destruct Ht as (_ & Hd & Hv & Hty & Hp & Ha & Hn & Hc & W & H34).
  assert (Hl32 : len (sg_idx t) < 4294967296) by lia.
  pose proof (csgp_bytes t W Hl32) as B. pose proof (csgp_len t W Hl32) as L. cbv zeta in B, L. rewrite L in Hl. rewrite L.
  destruct (compact_sizes t Hl32) as (W1 & W2 & W3 & F). destruct (compact_pats t) as (P1 & P2 & P3 & P4). specialize (P4 W).
  pose proof (desc_le t) as DL.
  unfold sbgp_codec. cbn [c_size c_w c_rd c_ty]. rewrite K. rewrite B.
  assert (C : compacted t = compact t) by (unfold compacted; rewrite Hd; reflexivity).
  set (c := compact t) in *. pose proof (width_ge _ (proj1 W)) as G0. pose proof (width_ge _ W1) as G1. pose proof (width_ge _ W2) as G2.
  split; [|split].
  - unfold sbgp_size. rewrite K.
    assert (Bs : bits t = len (ci_pats c) * (ci_psz c + ci_csz c) + len (ci_desc c) * sg_isz t).
    { unfold bits. rewrite C. apply w32_small. nia. }
    assert (Hb : bits t + 4 < 4294967296) by (rewrite Bs; nia).
    unfold compact_size. rewrite (w32_small (bits t + 4)) by exact Hb. rewrite <- Bs.
    destruct (sg_kind t); try (rewrite w32_small; destruct (sg_pp t); lia).
  - unfold sbgp_write. rewrite K, C. destruct (sg_idx t) as [|x0 xr] eqn:Ex; [contradiction|].
    rewrite !width_code_ok by (assumption || exact (proj1 W)).
    replace (width_code (sg_isz t) + 4 * width_code (ci_csz c) + 16 * width_code (ci_psz c) + (if sg_pp t then 64 else 0) +
             (if sg_local t then 128 else 0)) with
      (bit (sg_local t) 128 + bit (sg_pp t) 64 + 16 * width_code (ci_psz c) + 4 * width_code (ci_csz c) + width_code (sg_isz t))
      by (unfold bit; lia).
    apply writes_full_seq. apply writes_seq; [wstep|]. apply writes_seq; [destruct (sg_pp t); wstep|]. apply writes_seq; [wstep|].
    apply writes_seq; [apply writes_map; intros; wstep|wstep].
  - unfold sbgp_read. cbn [h_type]. destruct (flags_read (sg_isz t) (ci_csz c) (ci_psz c) (sg_pp t) (sg_local t) (proj1 W) W2 W1) as (F0 & F1 & F2 & F3 & F4 & F5).
    remember (bit (sg_local t) 128 + bit (sg_pp t) 64 + 16 * width_code (ci_psz c) + 4 * width_code (ci_csz c) + width_code (sg_isz t)) as fl eqn:Efl. clear Efl.
    rnext; [apply reads_of, parses_full; split; lia|]. cbv beta iota.
    change (1668507504 =? 1935828848) with false. cbv iota zeta. rewrite F1, F2, F3, F4, F5.
    rewrite W3. change (0 =? 0) with true. cbn [negb]. cbv iota.
    rnext; [apply reads_of, parses_get32; exact Hty|].
    assert (R : forall n, n < 4294967296 -> reads n
      (let* n := get32 in
       let* (pats, up) := get_pats (N.to_nat n) (ci_psz c) (ci_csz c) None in
       if 1073741824 <=? total pats then rub
       else let* l := get_groups pats 0 (sg_isz t) (sg_local t) up in
       rret (mkSbgp Compact (sg_ver t) (sg_type t) (if sg_pp t then sg_param t else 0) l false (sg_local t) 4 (sg_pp t) None))
      (be32 (len (ci_pats c)) ++ flat_map (pack_pat (ci_psz c) (ci_csz c)) (ci_pats c) ++ pack (sg_isz t) (ci_desc c))
      (l_view csgp_layout t)).
    { intros n Hn'. rnext; [apply reads_of, parses_get32; lia|]. rewrite len_nat.
      rnext; [apply reads_pats; [exact W1|exact W2|exact W3|exact F|apply w32_lt]|]. cbv beta iota.
      rewrite P2. destruct (N.leb_spec 1073741824 (len (sg_idx t))); [lia|].
      assert (G : reads (w32 (w32 (n + len (be32 (len (ci_pats c)))) + len (flat_map (pack_pat (ci_psz c) (ci_csz c)) (ci_pats c))))
                    (get_groups (ci_pats c) 0 (sg_isz t) (sg_local t) None) (pack (sg_isz t) (ci_desc c))
                    (spread (ci_pats c) (map (unstored (sg_isz t) (sg_local t)) (ci_desc c)))).
      { assert (I1 : 0 + len (ci_pats c) <= 34) by (rewrite N.add_0_l; exact H34).
        assert (I2 : length (ci_desc c) = N.to_nat (fold_right (fun p m => fst p + m) 0 (ci_pats c))) by (unfold len in P3; rewrite <- P3; lia).
        assert (I3 : stream (sg_isz t) None (ci_desc c) (pack (sg_isz t) (ci_desc c))) by (unfold stream, pack; destruct (sg_isz t =? 4); auto).
        destruct (reads_groups (sg_isz t) (sg_local t) (proj1 W) (ci_pats c) (ci_desc c) 0 None (pack (sg_isz t) (ci_desc c))
          (w32 (w32 (n + len (be32 (len (ci_pats c)))) + len (flat_map (pack_pat (ci_psz c) (ci_csz c)) (ci_pats c)))) (w32_lt _) I1 P1 I2 I3 P4) as [R|[R _]].
        - exact R.
        - exfalso. rewrite R in P2. change (total []) with 0 in P2. destruct (sg_idx t); [contradiction|]. revert P2. lens. lia. }
      rnext; [exact G|].
      assert (E : spread (ci_pats c) (map (unstored (sg_isz t) (sg_local t)) (ci_desc c)) = sg_idx t).
      { destruct (compact_segs t) as (l & A1 & A2 & A3 & A4). fold c in A2, A3. rewrite A2, A3.
        etransitivity; [|exact A4]. etransitivity; [|apply map_id]. etransitivity; [|exact (spread_segs (fun x => x) _ _ A1)]. f_equal.
        rewrite flat_map_concat_map, concat_map, map_map, <- flat_map_concat_map. apply flat_map_ext_in. intros x Ix.
        rewrite map_map. apply map_ext_in. intros g Ig. apply slice_incl in Ig.
        rewrite stored_coded, unstored_coded by assumption. reflexivity. }
      rewrite E. rnext. }
    destruct (sg_pp t).
    + rnext; [apply reads_of, parses_get32; exact Hp|]. apply R, w32_lt.
    + cbn [app]. eapply reads_bind_nil; [intros; reflexivity|]. apply R, w32_lt.
Qed.

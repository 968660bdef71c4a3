(* LangProps.v -- property C19. *)
From Verif Require Import Base Codec BitLemmas AtomModel BoxModel BoxSpec BoxProofs HeaderModel HeaderSpec HeaderProofs LangModel LangSpec.

Lemma pack_value a b c : packable a -> packable b -> packable c ->
  pack_language a b c = Ok (Z.to_N ((a - 96) * 1024 + (b - 96) * 32 + (c - 96))).
Proof.
  intros Ha Hb Hc. unfold packable in *. unfold pack_language.
  destruct (Z.ltb_spec a 96); [lia|]. destruct (Z.ltb_spec b 96); [lia|]. cbn [orb]. f_equal.
  unfold u32_of. rewrite !Z.mod_small by lia.
  remember (Z.to_N (a - 96)) as x. remember (Z.to_N (b - 96)) as y. remember (Z.to_N (c - 96)) as z.
  replace (Z.to_N ((a - 96) * 1024)) with (x * 1024) by lia.
  replace (Z.to_N ((b - 96) * 32)) with (y * 32) by lia.
  replace (x * 1024) with (x * 2 ^ 10) by (change (2 ^ 10) with 1024; lia).
  rewrite (lor_mul 10) by (change (2 ^ 10) with 1024; lia).
  replace (x * 2 ^ 10 + y * 32) with ((x * 32 + y) * 2 ^ 5) by (change (2 ^ 10) with 1024; change (2 ^ 5) with 32; lia).
  rewrite (lor_mul 5) by (change (2 ^ 5) with 32; lia).
  change (2 ^ 5) with 32. lia.
Qed.
Lemma get_value h a b c : packable a -> packable b -> packable c ->
  get_language (set_lang h (Z.to_N ((a - 96) * 1024 + (b - 96) * 32 + (c - 96)))) = (a, b, c).
Proof.
  intros Ha Hb Hc. unfold packable in *. unfold get_language, set_lang. cbn [md_lang].
  rewrite !land31, !shiftr_div. change (2 ^ 10) with 1024. change (2 ^ 5) with 32.
  f_equal; [f_equal|]; lia.
Qed.

(* C19: setting a code and getting it back *)
Theorem C19_language_round_trip : forall h a b c,
  packable a -> packable b -> packable c ->
  exists h', set_language h a b c = Ok h' /\ get_language h' = (a, b, c) /\ md_lang h' < 32768.
Proof.
  intros h a b c Ha Hb Hc. exists (set_lang h (Z.to_N ((a - 96) * 1024 + (b - 96) * 32 + (c - 96)))).
  unfold set_language. rewrite pack_value by assumption. cbn [bind]. split; [reflexivity|]. split; [apply get_value; assumption|].
  unfold packable in *. cbn [set_lang md_lang]. lia.
Qed.
Print Assumptions C19_language_round_trip.

(* C19: different codes are stored as different numbers *)
Theorem C19_codes_are_distinct : forall h a b c a' b' c' h1 h2,
  packable a -> packable b -> packable c -> packable a' -> packable b' -> packable c' ->
  set_language h a b c = Ok h1 -> set_language h a' b' c' = Ok h2 -> md_lang h1 = md_lang h2 ->
  (a, b, c) = (a', b', c').
Proof.
  intros h a b c a' b' c' h1 h2 A B C A' B' C' E1 E2 E. unfold set_language in *.
  rewrite pack_value in E1, E2 by assumption. cbn [bind] in *. injection E1 as <-. injection E2 as <-.
  cbn [set_lang md_lang] in E. rewrite <- (get_value h a b c), <- (get_value h a' b' c') by assumption. rewrite E. reflexivity.
Qed.
Print Assumptions C19_codes_are_distinct.

(* C19: the code also survives writing and reading the media header *)
Theorem C19_language_survives_write_and_read : forall h a b c,
  l_ok mdhd_layout h -> packable a -> packable b -> packable c ->
  exists h' bs, set_language h a b c = Ok h' /\ write_box mdhd_codec h' = Ok bs /\
  forall dflt rest, exists g, read_box mdhd_codec dflt (bs ++ rest) = Ok ((ALeaf mdhd g, len bs), rest) /\
    get_language g = (a, b, c).
Proof.
  intros h a b c Hh Ha Hb Hc. destruct (C19_language_round_trip h a b c Ha Hb Hc) as (h' & E & G & L).
  assert (O : l_ok mdhd_layout h').
  { unfold set_language in E. destruct (pack_language a b c); [|discriminate|discriminate]. cbn [bind] in E. injection E as <-.
    cbn [l_ok mdhd_layout set_lang md_ver md_flags md_created md_modified md_timeScale md_duration md_lang md_quality] in *.
    intuition lia. }
  destruct (exact_round_trip _ _ _ mdhd_exact O (mdhd_short _ O)) as (S & W & R & _).
  exists h'. eexists. split; [exact E|]. split; [exact W|]. intros dflt rest. exists h'. split; [|exact G].
  apply R.
Qed.
Print Assumptions C19_language_survives_write_and_read.

Definition fresh_mdhd := mkMdhd 0 0 3913056000 3913056000 30000 0 0 0.
Example C19_language_ex :
  exists h', set_language fresh_mdhd 101 110 103 = Ok h' /\ md_lang h' = 5575 /\ get_language h' = (101, 110, 103)%Z.
Proof. eexists. split; [vm_compute; reflexivity|]. split; reflexivity. Qed.
Example C19_fresh_ok : l_ok mdhd_layout fresh_mdhd.
Proof. repeat split; reflexivity. Qed.

(* what packing does outside the range: an upper case code shifts a negative
   number *)
Theorem C19_upper_case_refuted : pack_language 69 78 71 = UB.
Proof. reflexivity. Qed.
Print Assumptions C19_upper_case_refuted.

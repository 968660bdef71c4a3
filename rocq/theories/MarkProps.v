(* MarkProps.v -- dependency flags (C42), padding bits (C43), and the sdtp,
   stdp and padb parts of C18. *)
From Verif Require Import Base Codec BitLemmas AtomModel AtomProofs BoxModel BoxSpec BoxProofs MarkSpec MarkModel MarkProofs.

(* Any history of adding samples, setting flags and asking for them answers
   as the plain sequence of flags does. *)
Theorem C42_dependency_flags :
  forall os, dvalids [] os -> dep_run (None, 0) os = map Some (dspec [] os).
Proof. intros os V. apply dep_run_ok; [|exact V]. split; [reflexivity|]. split; [reflexivity|reflexivity]. Qed.
Print Assumptions C42_dependency_flags.
Definition ex_dep : list dop :=
  [DAdd 3; DGet 2; DSet 1 [7; 8]; DAdd 2; DSet (-2) [9]; DGet 2; DGet 4; DGet 5; DGet 6; DSet 4 [1; 2]; DSet (-1) [1; 2]].
Example C42_case : dvalids [] ex_dep /\
  dep_run (None, 0) ex_dep = map Some [DDone; DVal 0; DDone; DDone; DDone; DVal 7; DVal 9; DVal 0; DVal 0;
     DErr MP4BadParamErr; DErr MP4BadParamErr].
Proof. split; [vm_compute; repeat split; congruence|vm_compute; reflexivity]. Qed.
(* a position further from the end than there are samples is not rejected *)
Theorem C42_before_start_refuted :
  dep_run (None, 0) [DAdd 1; DSet (-2) [5]] = [Some DDone; None].
Proof. vm_compute. reflexivity. Qed.
Print Assumptions C42_before_start_refuted.

(* Any batches: the padding of a sample is the one given for it, 0 if none
   was given, and 0xF8 as long as no batch had any. *)
Theorem C43_padding_per_sample :
  forall bs, Forall pbatch_ok bs -> len (flat_map pads_of bs) < 4294967295 ->
  exists st, pads_run None 0 bs = Ok st /\
    forall n, 1 <= n <= len (flat_map pads_of bs) ->
      exists v, nth_error (flat_map pads_of bs) (N.to_nat (n - 1)) = Some v /\
        reported_pad st n = Ok (if existsb has_pads bs then v else 248).
Proof.
  intros bs Hb Hl. destruct (pads_run_ok bs None [] eq_refl Hb ltac:(lens; lia)) as (st & E & I & X).
  exists st. split; [exact E|]. intros n Hn. cbn [app] in I.
  destruct (nth_error (flat_map pads_of bs) (N.to_nat (n - 1))) as [v|] eqn:En;
    [|apply nth_error_None in En; unfold len in Hn; lia].
  exists v. split; [reflexivity|]. destruct st as [s|]; cbn [reported_pad pads] in *.
  - replace (existsb has_pads bs) with true.
    2:{ destruct (existsb has_pads bs) eqn:Ex; [reflexivity|]. assert (Some s = None) by (apply X; auto). discriminate. }
    unfold padb_get. rewrite I. destruct (N.ltb_spec (len (flat_map pads_of bs)) n); [lia|].
    destruct (N.eqb_spec n 0); [lia|]. cbn [orb]. rewrite En. reflexivity.
  - destruct X as [X _]. destruct (X eq_refl) as [_ ->]. reflexivity.
Qed.
Print Assumptions C43_padding_per_sample.
Definition ex_pb : list pbatch := [(2, None); (3, Some [1; 2; 3]); (2, Some [5]); (1, None); (2, Some [])].
Example C43_case : Forall pbatch_ok ex_pb /\
  match pads_run None 0 ex_pb with
  | Ok st => map (reported_pad st) [1; 2; 3; 4; 5; 6; 7; 8; 9; 10] = map Ok [0; 0; 1; 2; 3; 5; 5; 0; 0; 0]
  | _ => False end.
Proof. split; [unfold ex_pb; repeat constructor; cbn; lia|vm_compute; reflexivity]. Qed.

(* ------------------------------------------------------------------ *)
Definition sdtp_layout : layout sdtp := mkLayout (fun _ => code "sdtp")
  (fun s => full (sd_ver s) (sd_flags s) ++ sd_list s) (fun s => s)
  (fun s => full_ok (sd_ver s) (sd_flags s)).
Lemma sdtp_robust : robust sdtp_codec.
Proof. robust_tac sdtp_read. Qed.
Lemma sdtp_exact : exact sdtp_codec sdtp_layout.
Proof.
  split; [intros t _; plain|].
  intros t Hf Hl. destruct t as [v f l]. cbn [sdtp_codec sdtp_layout c_size c_w c_rd l_body l_view c_ty sd_ver sd_flags sd_list l_ok] in *.
  lens. split; [unfold sdtp_size; cbn [sd_list]; unfold w32; lia|]. split.
  - unfold sdtp_write; cbn [sd_ver sd_flags sd_list]. apply writes_full_seq. apply writes_putl.
  - unfold sdtp_read. pauto. pauto. cbn [h_size]. pnext.
    + apply parses_take_eq. lens. unfold sub32, w32, len in *. lia.
    + pauto.
Qed.
Theorem C18_sdtp_round_trip :
  forall s, l_ok sdtp_layout s -> 12 + len (sd_list s) < 4294967296 -> round_trip sdtp_codec sdtp_layout s.
Proof.
  intros s H Hl. apply exact_round_trip; [apply sdtp_exact|exact H|]. unfold sdtp_layout; cbn [l_body]. lens. lia.
Qed.
Print Assumptions C18_sdtp_round_trip.
Example C18_sdtp_case : l_ok sdtp_layout (mkSdtp 0 0 [36; 8; 24]) /\
  write_box sdtp_codec (mkSdtp 0 0 [36; 8; 24]) = Ok [0;0;0;15; 115;100;116;112; 0;0;0;0; 36;8;24].
Proof. split; [repeat constructor|vm_compute; reflexivity]. Qed.

Definition stdp_layout : layout stdp := mkLayout (fun _ => code "stdp")
  (fun s => full (dp_ver s) (dp_flags s) ++ flat_map be16 (dp_list s)) (fun s => s)
  (fun s => full_ok (dp_ver s) (dp_flags s) /\ Forall (fun x => x < 65536) (dp_list s)).
Lemma stdp_robust : robust stdp_codec.
Proof. robust_tac stdp_read. Qed.
Lemma stdp_exact : exact stdp_codec stdp_layout.
Proof.
  split; [intros t _; plain|].
  intros t [Hf He] Hl. destruct t as [v f l]. cbn [stdp_codec stdp_layout c_size c_w c_rd l_body l_view c_ty dp_ver dp_flags dp_list] in *.
  lens. assert (Hlen : len (flat_map be16 l) = 2 * len l) by (apply (len_flat_map_const _ 2); intros; lens; lia).
  rewrite Hlen in *.
  split; [unfold stdp_size; cbn [dp_list]; unfold w32; lia|]. split.
  - unfold stdp_write; cbn [dp_ver dp_flags dp_list]. apply writes_full_seq. apply writes_map. intros; wstep.
  - unfold stdp_read. pauto. pauto. cbn [h_size]. pnext.
    + replace (N.to_nat (sub32 (8 + (4 + 2 * len l)) (w32 (8 + len (full v f))) / 2)) with (length l)
        by (lens; unfold sub32, w32, len in *; lia).
      apply (parses_rrep _ be16); [|apply w32_lt]. intros x n0 Hin. rewrite Forall_forall in He. apply parses_get16. auto.
    + pauto.
Qed.
Theorem C18_stdp_round_trip :
  forall s, l_ok stdp_layout s -> 12 + 2 * len (dp_list s) < 4294967296 -> round_trip stdp_codec stdp_layout s.
Proof.
  intros s H Hl. apply exact_round_trip; [apply stdp_exact|exact H|].
  unfold stdp_layout; cbn [l_body]. lens. rewrite (len_flat_map_const _ 2); [lia|]. intros; lens; lia.
Qed.
Print Assumptions C18_stdp_round_trip.
Example C18_stdp_case : l_ok stdp_layout (mkStdp 0 0 [1; 300]) /\
  write_box stdp_codec (mkStdp 0 0 [1; 300]) = Ok [0;0;0;16; 115;116;100;112; 0;0;0;0; 0;1; 1;44].
Proof. split; [repeat constructor|vm_compute; reflexivity]. Qed.

(* two samples per byte, three bits each, first sample in the low half *)
Fixpoint nibbles (l : list N) : list N :=
  match l with
  | [] => []
  | [a] => [a mod 8]
  | a :: b :: r => (a mod 8 + 16 * (b mod 8)) :: nibbles r
  end.
Definition padb_layout : layout padb := mkLayout (fun _ => code "padb")
  (fun s => full (pb_ver s) (pb_flags s) ++ be32 (len (pb_list s)) ++ nibbles (pb_list s))
  (fun s => mkPadb (pb_ver s) (pb_flags s) (map (fun x => x mod 8) (pb_list s)) 0)
  (fun s => full_ok (pb_ver s) (pb_flags s) /\ pb_tail s = 0 /\ len (pb_list s) < 4294967295).
Lemma nibbles_pairs l : nibbles l = pad_pairs l 0.
Proof.
  induction l as [| |a b r IH] using list_ind2; [reflexivity| |]; cbn [nibbles pad_pairs]; rewrite pad_pair_eq.
  - f_equal. change (0 mod 8) with 0. lia.
  - rewrite IH. reflexivity.
Qed.
Lemma be8_bytes l : Forall (fun x => x < 256) l -> flat_map be8 l = l.
Proof. induction 1 as [|x l H _ IH]; [reflexivity|]. cbn [flat_map be8 app]. rewrite IH, N.mod_small by assumption. reflexivity. Qed.
Lemma padb_exact : exact padb_codec padb_layout.
Proof.
  split; [intros t _; plain|].
  intros t (Hf & Ht & Hn) Hl. destruct t as [v f l tl]. cbn [padb_codec padb_layout c_size c_w c_rd l_body l_view c_ty pb_ver pb_flags pb_list pb_tail] in *.
  subst tl. rewrite nibbles_pairs in *. lens. pose proof (len_pad_pairs l 0) as Hp. pose proof (be8_bytes _ (pad_pairs_bytes l 0)) as Hb.
  rewrite Hp in *.
  split; [unfold padb_size; cbn [pb_list]; unfold w32; lia|]. split.
  - unfold padb_write; cbn [pb_ver pb_flags pb_list pb_tail]. apply writes_full_seq. apply writes_seq; [wstep|].
    rewrite <- Hb at 2. apply writes_map. intros; wstep.
  - unfold padb_read. pauto. pauto. destruct (N.eqb_spec (len l) 4294967295); [lia|]. pnext.
    + replace (N.to_nat ((len l + 1) / 2)) with (length (pad_pairs l 0)) by (unfold len in *; lia). rewrite <- Hb at 2. apply (parses_rrep _ be8); [|apply w32_lt].
      intros x n0 Hin. apply parses_get8. pose proof (pad_pairs_bytes l 0) as Q. rewrite Forall_forall in Q. auto.
    + cbn [fst snd]. rewrite pad_pairs_split.
      assert (E1 : firstn (N.to_nat (len l)) (map (fun x => x mod 8) l ++ (if N.odd (len l) then [0 mod 8] else [])) = map (fun x => x mod 8) l).
      { unfold len. rewrite Nat2N.id. rewrite <- (map_length (fun x => x mod 8) l). rewrite firstn_app, Nat.sub_diag, firstn_all. apply app_nil_r. }
      assert (E2 : nth (N.to_nat (len l)) (map (fun x => x mod 8) l ++ (if N.odd (len l) then [0 mod 8] else [])) 0 = 0).
      { unfold len at 1. rewrite Nat2N.id. rewrite app_nth2; rewrite map_length; [|lia]. rewrite Nat.sub_diag. destruct (N.odd (len l)); reflexivity. }
      rewrite E1, E2. pauto.
Qed.
Theorem C18_padb_round_trip :
  forall s, l_ok padb_layout s -> round_trip padb_codec padb_layout s.
Proof.
  intros s H. apply exact_round_trip; [apply padb_exact|exact H|]. destruct H as (_ & _ & Hl).
  unfold padb_layout; cbn [l_body]. lens. rewrite nibbles_pairs, len_pad_pairs. lia.
Qed.
Print Assumptions C18_padb_round_trip.
(* tables built by the interface are in the domain of the round trip *)
Theorem C43_tables_writable :
  forall s count h s', padb_add s count h = Ok s' -> pb_tail s' = 0.
Proof.
  intros s count h s'. unfold padb_add. destruct (4294967295 <=? len (pb_list s) + count); [discriminate|].
  destruct h as [[|x [|y l]]|]; try (intros [= <-]; reflexivity).
  destruct (len (x :: y :: l) =? count); [intros [= <-]; reflexivity|discriminate].
Qed.
Print Assumptions C43_tables_writable.
Example C18_padb_case : l_ok padb_layout (mkPadb 0 0 [1; 2; 11] 0) /\
  write_box padb_codec (mkPadb 0 0 [1; 2; 11] 0) = Ok [0;0;0;18; 112;97;100;98; 0;0;0;0; 0;0;0;3; 33;3].
Proof. split; [repeat constructor|vm_compute; reflexivity]. Qed.
Theorem C18_padb_count_refuted : exists i, read_box padb_codec padb_new i = UB.
Proof. exists [0;0;0;17; 112;97;100;98; 0;0;0;0; 255;255;255;255; 0]. vm_compute. reflexivity. Qed.
Print Assumptions C18_padb_count_refuted.

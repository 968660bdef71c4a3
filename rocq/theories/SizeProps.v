(* SizeProps.v -- sample sizes: C11 and C12. *)
From Verif Require Import Base Codec BitLemmas AtomModel AtomProofs BoxModel BoxSpec BoxProofs SizeSpec SizeModel SizeProofs.

(* Any history of additions (and of choices of the field width), whatever
   unwritten memory reads as: every sample has the size given for it, the
   offset of a sample from an earlier one is the total size between them, and
   other sample numbers are rejected. *)
Theorem C11_size_per_sample :
  forall junk os, Forall zop_ok os -> len (flat_map sizes_of os) < 1073739775 ->
  let L := flat_map sizes_of os in
  exists s, stsz_run (stsz_new junk) os = Ok s /\ sz_count s = len L /\
    (forall n, 1 <= n <= len L -> exists x, nth_error L (N.to_nat (n - 1)) = Some x /\ stsz_get s n = Ok x) /\
    (forall n start, 1 <= start <= n -> n <= len L -> size_between L start n < 4294967296 ->
       exists x, nth_error L (N.to_nat (n - 1)) = Some x /\
         stsz_get_off s n start = Ok (x, size_between L start n)) /\
    (forall n, n = 0 \/ len L < n -> stsz_get s n = Err MP4BadParamErr /\
       forall start, stsz_get_off s n start = Err MP4BadParamErr).
Proof.
  intros junk os V Hl L.
  destruct (stsz_run_ok os (stsz_new junk) [] ltac:(split; reflexivity) V ltac:(lens; lia)) as (s & E & R).
  cbn [app] in R. fold L in R. exists s. split; [exact E|]. split; [apply R|].
  assert (Hn : forall n, 1 <= n <= len L -> nth_error L (N.to_nat (n - 1)) = Some (nth (N.to_nat (n - 1)) L 0)).
  { intros n H. apply nth_error_nth'. unfold len in H. lia. }
  split; [|split].
  - intros n H. eexists. split; [apply Hn, H|]. apply stsz_get_ok; assumption.
  - intros n start H1 H2 H3. eexists. split; [apply Hn; lia|].
    rewrite (stsz_get_off_ok s L n start R H1 H2). rewrite w32_small by assumption. reflexivity.
  - intros n H. unfold stsz_get, stsz_get_off. rewrite (proj1 R).
    replace ((len L <? n) || (n =? 0))%bool with true by lia. auto.
Qed.
Print Assumptions C11_size_per_sample.
Definition ex_z : list zop := [ZAdd 3 [10]; ZAdd 2 [10; 10]; ZField 8; ZAdd 2 [10; 20]; ZAdd 3 [7]; ZAdd 1 [0]].
Example C11_case : Forall zop_ok ex_z /\
  match stsz_run (stsz_new 99) ex_z with
  | Ok s => map (stsz_get s) [1; 5; 6; 7; 8; 10; 11; 12] = map Ok [10; 10; 10; 20; 7; 7; 0] ++ [Err MP4BadParamErr] /\
            stsz_get_off s 8 6 = Ok (7, 30)
  | _ => False end.
Proof.
  split; [|vm_compute; auto]. unfold ex_z.
  repeat (apply Forall_cons; [first [exact I | split; [lia|]; split; [lens; lia|]; repeat constructor; lia]|]). constructor.
Qed.

(* An empty table read from a file keeps a buffer; after a batch of equal
   sizes followed by a different one, the sizes of the first batch are
   whatever that buffer contains. *)
Theorem C11_reread_empty_refuted :
  forall junk, exists s,
    read_box stsz_codec (stsz_new 0) [0;0;0;20; 115;116;115;122; 0;0;0;0; 0;0;0;0; 0;0;0;0] = Ok ((ALeaf stsz s, 20), []) /\
    let s0 := mkStsz (sz_ver s) (sz_flags s) (sz_field s) (sz_size s) (sz_count s) (sz_buf s) junk in
    exists s', stsz_run s0 [ZAdd 2 [10]; ZAdd 1 [20]] = Ok s' /\
      flat_map sizes_of [ZAdd 2 [10]; ZAdd 1 [20]] = [10; 10; 20] /\ stsz_get s' 1 = Ok junk.
Proof.
  intros junk. eexists. split; [vm_compute; reflexivity|]. cbn [sz_ver sz_flags sz_field sz_size sz_count sz_buf].
  eexists. split; [vm_compute; reflexivity|]. split; vm_compute; reflexivity.
Qed.
Print Assumptions C11_reread_empty_refuted.

(* ------------------------------------------------------------------ *)
(* C12                                                                 *)

Definition fits (f : N) (x : N) : Prop :=
  if f =? 4 then x < 16 else if f =? 8 then x < 256 else if f =? 16 then x < 65536 else x < 4294967296.
Definition odd_half (s : stsz) : N := slot s (N.to_nat (sz_count s)) mod 16.
Definition stsz_layout : layout stsz := mkLayout
  (fun s => if (sz_field s =? 32) || negb (sz_size s =? 0) then code "stsz" else code "stz2")
  (fun s => full (sz_ver s) (sz_flags s) ++
     (if (sz_field s =? 32) || negb (sz_size s =? 0) then
        be32 (sz_size s) ++ be32 (sz_count s) ++
        (if sz_size s =? 0 then packed 32 (first_slots s) 0 else [])
      else be32 (sz_field s) ++ be32 (sz_count s) ++ packed (sz_field s) (first_slots s) (odd_half s)))
  (fun s =>
     if negb (sz_size s =? 0) then mkStsz (sz_ver s) (sz_flags s) 32 (sz_size s) (sz_count s) None 0
     else mkStsz (sz_ver s) (sz_flags s) (sz_field s) 0 (sz_count s)
       (Some (first_slots s ++ (if (sz_field s =? 4) && N.odd (sz_count s) then [odd_half s] else []))) 0)
  (fun s => full_ok (sz_ver s) (sz_flags s) /\ sz_size s < 4294967296 /\ sz_count s < 4294967295 /\
     In (sz_field s) [4; 8; 16; 32] /\
     (sz_size s = 0 -> (sz_buf s = None -> sz_count s = 0) /\ Forall (fits (sz_field s)) (first_slots s))).

Lemma stsz_exact : exact stsz_codec stsz_layout.
Proof.
  split.
  - intros t _. destruct t as [v f fs sz n b j]. unfold stsz_codec, stsz_layout, stsz_type, plain_type; cbn [c_ty c_known l_view l_ty sz_field sz_size].
    destruct (N.eqb_spec sz 0) as [->|Hz]; cbn [negb sz_field sz_size].
    + change (0 =? 0) with true. cbn [negb]. rewrite orb_false_r. destruct (N.eqb_spec fs 32); repeat split; try reflexivity; discriminate.
    + rewrite orb_true_r. destruct (N.eqb_spec sz 0); [contradiction|]. cbn [negb]. rewrite orb_true_r. repeat split; try reflexivity; discriminate.
  - intros t (Hf & Hz & Hn & Hin & Hs) Hl. pose proof (len_first_slots t) as Hc. destruct t as [v f fs sz n b j].
    cbn [stsz_codec stsz_layout c_size c_w c_rd l_body l_view c_ty sz_ver sz_flags sz_field sz_size sz_count sz_buf] in *.
    remember (first_slots _) as L eqn:EL. remember (odd_half _) as T eqn:ET.
    assert (HT : T < 16) by (subst T; unfold odd_half; lia).
    destruct (N.eqb_spec sz 0) as [->|Hz0]; cbn [negb orb] in *.
    + rewrite orb_false_r in *. destruct (Hs eq_refl) as [Hb HF]. clear Hs.
      assert (HL0 : b = None -> L = []) by (intros X; apply len_0; rewrite Hc; auto).
      destruct Hin as [<-|[<-|[<-|[<-|[]]]]]; cbn [N.eqb] in *.
      * (* 4 *)
        change (4 =? 32) with false in *. change (4 =? 4) with true in *. cbn [orb negb andb] in *. lens. rewrite len_packed4 in *.
        unfold fits in HF. cbn in HF.
        split; [unfold stsz_boxsize, stsz_table_size; cbn [sz_size sz_field sz_count]; cbn [N.eqb]; change (0 =? 0) with true; change (4 =? 4) with true; cbn iota; unfold w32; lia|]. split.
        -- unfold stsz_write, stsz_type; cbn [sz_ver sz_flags sz_field sz_size sz_count sz_buf]. change (4 =? 32) with false. change (0 =? 0) with true. cbn [orb negb].
           change (T_stz2 =? T_stsz) with false. cbn iota. change (4 =? 4) with true. cbn iota.
           apply writes_full_seq. apply writes_seq; [wstep|]. apply writes_seq; [wstep|].
           destruct b as [b|].
           ++ rewrite <- EL. replace (nib_pairs _ _) with (halves L T) by (rewrite nib_pairs_halves by assumption; subst T; reflexivity).
              change (packed 4 L T) with (halves L T). rewrite <- (be8_id (halves L T)) at 2 by (apply halves_bytes; assumption).
              apply writes_map. intros; wstep.
           ++ rewrite (HL0 eq_refl). rewrite (Hb eq_refl). apply writes_ret.
        -- unfold stsz_read. unfold stsz_type; cbn [sz_field sz_size]. change (4 =? 32) with false. change (0 =? 0) with true. cbn [orb negb]. cbn [h_type].
           pauto. change (T_stz2 =? T_stsz) with false. cbn iota. pauto. pauto. change (4 =? 4) with true. cbn iota.
           destruct (N.eqb_spec n 4294967295); [lia|]. pnext.
           ++ replace (N.to_nat ((n + 1) / 2)) with (length (halves L T)) by (pose proof (len_halves L T) as Q; unfold len in *; lia).
              change (packed 4 L T) with (halves L T). pose proof (halves_bytes L T HF HT) as HB.
              rewrite <- (be8_id (halves L T)) at 2 by exact HB. apply (parses_rrep _ be8); [|apply w32_lt].
              intros x nn Hx. rewrite Forall_forall in HB. apply parses_get8. auto.
           ++ rewrite halves_split by assumption. rewrite Hc. pauto.
      * (* 8 *)
        change (8 =? 32) with false in *. change (8 =? 4) with false in *. cbn [orb negb andb] in *. lens. rewrite len_packed8 in *.
        rewrite app_nil_r. assert (HF' : Forall (fun x => x < 256) L) by exact HF.
        split; [unfold stsz_boxsize, stsz_table_size; cbn [sz_size sz_field sz_count]; change (0 =? 0) with true; change (8 =? 4) with false; change (8 =? 8) with true; cbn iota; unfold w32; lia|]. split.
        -- unfold stsz_write, stsz_type; cbn [sz_ver sz_flags sz_field sz_size sz_count sz_buf]. change (8 =? 32) with false. change (0 =? 0) with true. cbn [orb negb].
           change (T_stz2 =? T_stsz) with false. change (8 =? 4) with false. change (8 =? 8) with true. cbn iota.
           apply writes_full_seq. apply writes_seq; [wstep|]. apply writes_seq; [wstep|].
           destruct b as [b|].
           ++ rewrite <- EL. change (packed 8 L T) with (flat_map be8 L). apply writes_map. intros; wstep.
           ++ rewrite (HL0 eq_refl). rewrite (Hb eq_refl). apply writes_ret.
        -- unfold stsz_read. unfold stsz_type; cbn [sz_field sz_size]. change (8 =? 32) with false. change (0 =? 0) with true. cbn [orb negb]. cbn [h_type].
           pauto. change (T_stz2 =? T_stsz) with false. cbn iota. pauto. pauto. change (8 =? 4) with false. change (8 =? 8) with true. cbn iota.
           unfold stsz_table. destruct (N.eqb_spec n 4294967295); [lia|]. pnext.
           ++ replace (N.to_nat n) with (length L) by (unfold len in *; lia). change (packed 8 L T) with (flat_map be8 L).
              apply (parses_rrep _ be8); [|apply w32_lt]. intros x nn Hx. rewrite Forall_forall in HF'. apply parses_get8. auto.
           ++ pauto.
      * (* 16 *)
        change (16 =? 32) with false in *. change (16 =? 4) with false in *. cbn [orb negb andb] in *. lens. rewrite len_packed16 in *.
        rewrite app_nil_r. assert (HF' : Forall (fun x => x < 65536) L) by exact HF.
        split; [unfold stsz_boxsize, stsz_table_size; cbn [sz_size sz_field sz_count]; change (0 =? 0) with true; change (16 =? 4) with false; change (16 =? 8) with false; change (16 =? 16) with true; cbn iota; unfold w32; lia|]. split.
        -- unfold stsz_write, stsz_type; cbn [sz_ver sz_flags sz_field sz_size sz_count sz_buf]. change (16 =? 32) with false. change (0 =? 0) with true. cbn [orb negb].
           change (T_stz2 =? T_stsz) with false. change (16 =? 4) with false. change (16 =? 8) with false. change (16 =? 16) with true. cbn iota.
           apply writes_full_seq. apply writes_seq; [wstep|]. apply writes_seq; [wstep|].
           destruct b as [b|].
           ++ rewrite <- EL. change (packed 16 L T) with (flat_map be16 L). apply writes_map. intros; wstep.
           ++ rewrite (HL0 eq_refl). rewrite (Hb eq_refl). apply writes_ret.
        -- unfold stsz_read. unfold stsz_type; cbn [sz_field sz_size]. change (16 =? 32) with false. change (0 =? 0) with true. cbn [orb negb]. cbn [h_type].
           pauto. change (T_stz2 =? T_stsz) with false. cbn iota. pauto. pauto. change (16 =? 4) with false. change (16 =? 8) with false. change (16 =? 16) with true. cbn iota.
           unfold stsz_table. destruct (N.eqb_spec n 4294967295); [lia|]. pnext.
           ++ replace (N.to_nat n) with (length L) by (unfold len in *; lia). change (packed 16 L T) with (flat_map be16 L).
              apply (parses_rrep _ be16); [|apply w32_lt]. intros x nn Hx. rewrite Forall_forall in HF'. apply parses_get16. auto.
           ++ pauto.
      * (* 32 *)
        change (32 =? 32) with true in *. change (32 =? 4) with false in *. cbn [orb negb andb] in *. lens. rewrite len_packed32 in *.
        rewrite app_nil_r. assert (HF' : Forall (fun x => x < 4294967296) L) by exact HF.
        split; [unfold stsz_boxsize, stsz_table_size; cbn [sz_size sz_field sz_count]; change (0 =? 0) with true; change (32 =? 4) with false; change (32 =? 8) with false; change (32 =? 16) with false; change (32 =? 32) with true; cbn iota; unfold w32; lia|]. split.
        -- unfold stsz_write, stsz_type; cbn [sz_ver sz_flags sz_field sz_size sz_count sz_buf]. change (32 =? 32) with true. change (0 =? 0) with true. cbn [orb negb].
           change (T_stsz =? T_stsz) with true. cbn iota.
           apply writes_full_seq. apply writes_seq; [wstep|]. apply writes_seq; [wstep|].
           destruct b as [b|].
           ++ rewrite <- EL. change (packed 32 L 0) with (flat_map be32 L). apply writes_map. intros; wstep.
           ++ rewrite (HL0 eq_refl). rewrite (Hb eq_refl). apply writes_ret.
        -- unfold stsz_read. unfold stsz_type; cbn [sz_field sz_size]. change (32 =? 32) with true. change (0 =? 0) with true. cbn [orb negb]. cbn [h_type].
           pauto. change (T_stsz =? T_stsz) with true. cbn iota. pauto. pauto. change (0 =? 0) with true. cbn iota.
           unfold stsz_table. destruct (N.eqb_spec n 4294967295); [lia|]. pnext.
           ++ replace (N.to_nat n) with (length L) by (unfold len in *; lia). change (packed 32 L 0) with (flat_map be32 L).
              apply (parses_rrep _ be32); [|apply w32_lt]. intros x nn Hx. rewrite Forall_forall in HF'. apply parses_get32. auto.
           ++ pauto.
    + rewrite orb_true_r in *. lens. split; [|split].
      * unfold stsz_boxsize, stsz_table_size; cbn [sz_size]. destruct (N.eqb_spec sz 0); [contradiction|]. reflexivity.
      * unfold stsz_write, stsz_type; cbn [sz_ver sz_flags sz_field sz_size sz_count sz_buf]. destruct (N.eqb_spec sz 0); [contradiction|]. cbn [negb].
        rewrite orb_true_r. change (T_stsz =? T_stsz) with true. cbn iota. apply writes_full_seq. wstep.
      * unfold stsz_read. unfold stsz_type; cbn [sz_field sz_size h_type]. destruct (N.eqb_spec sz 0); [contradiction|]. cbn [negb].
        rewrite orb_true_r. pauto. change (T_stsz =? T_stsz) with true. cbn iota. pauto. pauto. destruct (N.eqb_spec sz 0); [contradiction|]. pauto.
Qed.
Theorem C12_size_box_round_trip :
  forall s, l_ok stsz_layout s -> 8 + len (l_body stsz_layout s) < 4294967296 -> round_trip stsz_codec stsz_layout s.
Proof. intros s H Hl. apply exact_round_trip; [apply stsz_exact|exact H|exact Hl]. Qed.
Print Assumptions C12_size_box_round_trip.
(* the table read back gives the same answers *)
Theorem C12_same_sizes :
  forall s n, l_ok stsz_layout s -> stsz_get (l_view stsz_layout s) n = stsz_get s n.
Proof.
  intros s n (_ & _ & Hn & _ & Hs). pose proof (len_first_slots s) as Hc. unfold stsz_get, stsz_layout; cbn [l_view].
  destruct (N.eqb_spec (sz_size s) 0) as [E|E]; cbn [negb sz_count sz_size sz_buf].
  - change (0 =? 0) with true. cbn [negb]. destruct (N.ltb_spec (sz_count s) n); [reflexivity|].
    destruct (N.eqb_spec n 0); [reflexivity|]. cbn [orb]. destruct (Hs E) as [Hb _].
    destruct (sz_buf s) as [b|] eqn:Eb; [|specialize (Hb eq_refl); lia]. f_equal. unfold slot at 1, slots; cbn [sz_buf sz_junk].
    rewrite app_nth1 by (unfold len in Hc; lia). unfold first_slots.
    rewrite (nth_indep _ 0 (slot s 0)) by (rewrite map_length, seq_length; lia).
    rewrite map_nth, seq_nth by lia. reflexivity.
  - destruct (N.eqb_spec (sz_size s) 0); [contradiction|]. reflexivity.
Qed.
Print Assumptions C12_same_sizes.
(* every history of additions can be written, if the sizes fit the field *)
Theorem C12_histories_round_trip :
  forall junk os f, Forall zop_ok os -> len (flat_map sizes_of os) < 1073739775 -> In f [4; 8; 16; 32] ->
  Forall (fits f) (flat_map sizes_of os) ->
  exists s, stsz_run (stsz_new junk) (os ++ [ZField f]) = Ok s /\
    (8 + len (l_body stsz_layout s) < 4294967296 -> round_trip stsz_codec stsz_layout s) /\
    forall n, 1 <= n <= len (flat_map sizes_of os) ->
      exists x, nth_error (flat_map sizes_of os) (N.to_nat (n - 1)) = Some x /\ stsz_get (l_view stsz_layout s) n = Ok x.
Proof.
  intros junk os f V Hl Hin Hfit.
  assert (W : exists s, stsz_run (stsz_new junk) (os ++ [ZField f]) = Ok s /\ reps s (flat_map sizes_of os) /\ sz_field s = f /\
                full_ok (sz_ver s) (sz_flags s) /\ sz_size s < 4294967296).
  { destruct (stsz_run_ok os (stsz_new junk) [] ltac:(split; reflexivity) V ltac:(lens; lia)) as (s & E & R). cbn [app] in R.
    assert (Q : forall os a b, stsz_run a os = Ok b -> Forall zop_ok os -> full_ok (sz_ver a) (sz_flags a) -> sz_size a < 4294967296 ->
               stsz_run a (os ++ [ZField f]) = Ok (stsz_set_field b f) /\ full_ok (sz_ver b) (sz_flags b) /\ sz_size b < 4294967296).
    { clear. induction os as [|o os IH]; intros a b E V H1 H2; cbn [stsz_run app] in *.
      - injection E as ->. auto.
      - inversion_clear V as [|? ? V1 V2]. destruct o as [c l|f'].
        + destruct (stsz_add a c l) as [a1| |] eqn:Ea; cbn [bind] in *; try discriminate.
          apply IH; [exact E|exact V2| |].
          * unfold stsz_add in Ea. destruct l as [|x r]; [discriminate|].
            destruct (negb _); [discriminate|]. destruct (4294959104 <? _); [discriminate|].
            destruct (_ || _)%bool; injection Ea as <-; exact H1.
          * unfold stsz_add in Ea. destruct l as [|x r]; [discriminate|]. destruct V1 as (_ & _ & V1). inversion_clear V1.
            destruct (negb _); [discriminate|]. destruct (4294959104 <? _); [discriminate|].
            destruct (_ || _)%bool; injection Ea as <-; cbn [sz_size]; lia.
        + apply IH; assumption. }
    destruct (Q os _ _ E V) as (Q1 & Q2 & Q3); [unfold full_ok; cbn; lia|cbn; lia|].
    eexists. split; [exact Q1|]. split; [exact R|]. split; [reflexivity|]. split; [exact Q2|exact Q3]. }
  destruct W as (s & E & R & Ef & Hf & Hz). exists s. split; [exact E|].
  assert (OK : l_ok stsz_layout s).
  { split; [exact Hf|]. split; [exact Hz|]. rewrite (proj1 R), Ef. split; [lia|]. split; [exact Hin|]. intros E0. split.
    - intros Eb. destruct R as [_ R]. rewrite E0, Eb in R. change (0 =? 0) with true in R. cbn iota in R. rewrite R. reflexivity.
    - replace (first_slots s) with (flat_map sizes_of os); [exact Hfit|].
      apply nth_ext with (d := 0) (d' := 0).
      + pose proof (len_first_slots s) as Q. rewrite (proj1 R) in Q. unfold len in Q. lia.
      + intros i Hi. rewrite <- (slot_ok s _ i R E0 Hi). unfold first_slots.
        rewrite (nth_indep _ 0 (slot s 0)) by (rewrite map_length, seq_length, (proj1 R); unfold len; lia).
        rewrite map_nth, seq_nth by (rewrite (proj1 R); unfold len; lia). reflexivity. }
  split.
  - intros Hb. apply C12_size_box_round_trip; assumption.
  - intros n Hn. exists (nth (N.to_nat (n - 1)) (flat_map sizes_of os) 0). split.
    + apply nth_error_nth'. unfold len in Hn. lia.
    + rewrite C12_same_sizes by exact OK. apply stsz_get_ok; assumption.
Qed.
Print Assumptions C12_histories_round_trip.
Example C12_case : exists s, stsz_run (stsz_new 99) [ZAdd 3 [1; 2; 11]; ZField 4] = Ok s /\ l_ok stsz_layout s /\
  write_box stsz_codec s = Ok [0;0;0;22; 115;116;122;50; 0;0;0;0; 0;0;0;4; 0;0;0;3; 33;59].
Proof.
  eexists. split; [vm_compute; reflexivity|]. split; [|vm_compute; reflexivity].
  split; [unfold full_ok; cbn; lia|]. split; [cbn; lia|]. split; [cbn; lia|]. split; [cbn; auto|]. intros _.
  split; [discriminate|]. unfold first_slots, slot; cbn. repeat constructor; unfold fits; cbn; lia.
Qed.

(* sizes that do not fit the field are cut off silently *)
Theorem C12_too_wide_refuted :
  exists s bs s', stsz_run (stsz_new 0) [ZAdd 2 [300; 5]; ZField 8] = Ok s /\ write_box stsz_codec s = Ok bs /\
    read_box stsz_codec (stsz_new 0) bs = Ok ((ALeaf stsz s', 22), []) /\
    stsz_get s 1 = Ok 300 /\ stsz_get s' 1 = Ok 44.
Proof. do 3 eexists. repeat split; vm_compute; reflexivity. Qed.
Print Assumptions C12_too_wide_refuted.
Theorem C12_count_refuted : exists i, read_box stsz_codec (stsz_new 0) i = UB.
Proof. exists [0;0;0;24; 115;116;115;122; 0;0;0;0; 0;0;0;0; 255;255;255;255; 0;0;0;1]. vm_compute. reflexivity. Qed.
Print Assumptions C12_count_refuted.

(* DescProps.v -- property C32. *)
From Verif Require Import Base Codec BitLemmas AtomModel AtomProofs BoxModel BoxSpec BoxProofs HandleProofs DescModel DescSpec DescProofs.

(* a length below 2^28 is written on four bytes and read back, whatever
   follows; cut short it is not *)
Theorem C32_length_round_trip : forall tag n, n < 268435456 ->
  wrun 5 (base_w tag (5 + n)) = Ok (be8 tag ++ len4 n) /\
  (forall rest k, k < 4294967296 -> get_len (mkR (len4 n ++ rest) k) = Ok (n, mkR rest (w32 (k + 4)))) /\
  (forall p q k, len4 n = p ++ q -> q <> [] -> k < 4294967296 -> get_len (mkR p k) = Err MP4IOErr).
Proof.
  intros tag n H. split; [|split].
  - apply writes_run; [apply writes_base; exact H|discriminate|reflexivity].
  - intros rest k Hk. apply (proj1 (parses_len4 n k Hk H)).
  - intros p q k E Q Hk. apply (proj2 (parses_len4 n k Hk H) p q E Q).
Qed.
Print Assumptions C32_length_round_trip.
(* lengths written by others, on any number of bytes; 32 bits are kept *)
Theorem C32_length_any_form : forall bs rest k, len_form bs -> k < 4294967296 ->
  get_len (mkR (bs ++ rest) k) = Ok (w32 (len_value bs), mkR rest (w32 (k + len bs))).
Proof. intros bs rest k F Hk. apply (proj1 (parses_len bs k Hk F)). Qed.
Print Assumptions C32_length_any_form.
Example C32_length_ex : len4 300 = [128; 128; 130; 44] /\ len_form [130; 44] /\ len_value [130; 44] = 300.
Proof. repeat split; discriminate || reflexivity. Qed.
(* from 2^28 on the high bits of a length are lost *)
Theorem C32_long_length_refuted : exists n, 268435456 <= n < 4294967291 /\
  exists bs m, wrun 5 (base_w 5 (5 + n)) = Ok (be8 5 ++ bs) /\ get_len (mkR bs 1) = Ok (m, mkR [] 5) /\ m <> n.
Proof. exists 268435457. split; [split; [discriminate|reflexivity]|]. exists [128; 128; 128; 1], 1. vm_compute. repeat split. discriminate. Qed.
Print Assumptions C32_long_length_refuted.

(* every descriptor with legal fields: its announced size is that of the
   bytes written, the length after the tag counts exactly what follows, and
   they are read back, whatever comes after them *)
Theorem C32_descriptor_round_trip : forall d, wf d ->
  enc d = be8 (dtag d) ++ len4 (len (body d)) ++ body d /\
  dsize d = len (enc d) /\ dwrite d = Ok (enc d) /\
  forall rest n, desc_read (mkR (enc d ++ rest) n) = Ok (view d, mkR rest (w32 (n + len (enc d)))).
Proof.
  intros d W. split; [apply enc_body|]. split; [apply dsize_ok, W|]. split; [apply dwrite_ok, W|]. intros rest n. apply (proj1 (desc_read_ok d n W)).
Qed.
Print Assumptions C32_descriptor_round_trip.
Theorem C32_cut_descriptor_rejected : forall d p q n, wf d -> enc d = p ++ q -> q <> [] -> desc_read (mkR p n) = Err MP4IOErr.
Proof. intros d p q n W. apply (proj2 (desc_read_ok d n W) p q). Qed.
Print Assumptions C32_cut_descriptor_rejected.
(* read and written again, it gives the same bytes if every descriptor is
   where a reader puts it *)
Theorem C32_rewritten_the_same : forall d, wf d -> settled d -> enc (view d) = enc d.
Proof. exact enc_view. Qed.
Print Assumptions C32_rewritten_the_same.
(* an elementary stream descriptor with a decoder configuration and its
   specific information, a synchronization configuration and an extension *)
Definition ex_sl : desc := Desc (HSL (mkSlc 0 1 1 0 0 0 1 0 0 1000 0 32 0 0 0 0 5 0 0 0 0)) [].
Definition ex_es : desc := Desc (HES 7 0 3 0 [])
  [(7, Desc (HOther 200 [1; 2; 3]) []); (0, Desc (HDec 64 5 0 6144 128000 128000) [(0, Desc (HOther 5 [17; 144]) [])]); (1, ex_sl)].
Example C32_ex : wf ex_es /\ settled ex_es /\ dwrite ex_es = Ok (enc ex_es) /\ len (enc ex_es) = 62 /\
  view ex_es <> ex_es /\ desc_read (mkR (enc ex_es ++ [9]) 0) = Ok (view ex_es, mkR [9] 62).
Proof.
  split; [|split; [|vm_compute; repeat split; discriminate]].
  - assert (W1 : wf ex_sl).
    { apply Wf; [|reflexivity|apply Forall_nil|reflexivity]. split; [discriminate|]. right. repeat split. }
    apply Wf; [repeat split| |repeat apply Forall_cons; try apply Forall_nil|reflexivity].
    + split; [repeat constructor|repeat constructor].
    + apply Wf; [split; reflexivity|reflexivity|apply Forall_nil|reflexivity].
    + apply Wf; [repeat split| |apply Forall_cons; [|apply Forall_nil]|reflexivity].
      * right. eexists. split; reflexivity.
      * apply Wf; [split; reflexivity|reflexivity|apply Forall_nil|reflexivity].
    + exact W1.
  - apply Settled; [discriminate|]. repeat apply Forall_cons; try apply Forall_nil; (split; [|reflexivity]).
    + apply Settled; [discriminate|apply Forall_nil].
    + apply Settled; [discriminate|]. apply Forall_cons; [|apply Forall_nil]. split; [|reflexivity]. apply Settled; [discriminate|apply Forall_nil].
    + apply Settled; [discriminate|apply Forall_nil].
Qed.

(* descriptors added through the API make legal contents *)
Theorem C32_added_descriptors : forall h ds ks, head_ok h ->
  match h with HES _ _ _ _ _ | HOD _ _ _ => True | HIOD _ _ url _ _ _ _ _ => url = [] | _ => False end ->
  adds h [] ds = Ok ks -> Forall wf ds -> len (body (Desc h ks)) < 268435456 -> wf (Desc h ks) /\ map snd ks = ds.
Proof.
  intros h ds ks H C A F L. assert (M := adds_snd h ds [] ks A). cbn [map app] in M. split; [|exact M].
  apply Wf; [exact H|eapply adds_ok; eassumption| |exact L]. rewrite <- M, Forall_map in F. exact F.
Qed.
Print Assumptions C32_added_descriptors.
(* a second one of those that can be there only once is refused *)
Theorem C32_second_refused : forall e1 e2 e3 e4 e5 ds ks d d', adds (HES e1 e2 e3 e4 e5) [] ds = Ok ks -> In d ds -> dtag d = dtag d' ->
  In (dtag d) [4; 6; 9; 12] -> desc_add (HES e1 e2 e3 e4 e5) ks d' = Err MP4InvalidMediaErr.
Proof.
  intros e1 e2 e3 e4 e5 ds ks d d' A I E T. assert (M := adds_snd _ ds [] ks A). cbn [map app] in M.
  assert (G : forall ds ks0 ks, es_inv ks0 -> adds (HES e1 e2 e3 e4 e5) ks0 ds = Ok ks -> es_inv ks).
  { clear. induction ds as [|d ds IH]; intros ks0 ks I H; cbn [adds] in H; [injection H as <-; exact I|].
    destruct (desc_add (HES e1 e2 e3 e4 e5) ks0 d) as [k1| |] eqn:E; cbn [bind] in H; try discriminate. eapply IH; [|exact H]. destruct (es_add _ _ _ _ _ _ _ _ I E) as [J _]. exact J. }
  assert (V : es_inv ks) by (apply (G ds [] ks); [split; [constructor|intros m _; apply Nat.le_0_l]|exact A]).
  rewrite <- M in I. apply in_map_iff in I. destruct I as (k & K1 & K2). destruct V as [V _]. rewrite Forall_forall in V. specialize (V k K2). rewrite K1 in V.
  cbn [desc_add]. unfold es_put. rewrite <- E, <- V. assert (X : existsb (fun k0 => fst k0 =? fst k) ks = true) by (apply existsb_exists; exists k; split; [exact K2|apply N.eqb_refl]).
  rewrite X. assert (S : single (fst k) = true) by (rewrite V; cbn [In] in T; destruct T as [<-|[<-|[<-|[<-|[]]]]]; reflexivity). rewrite S. reflexivity.
Qed.
Print Assumptions C32_second_refused.
Example C32_added_ex : exists ks, adds (HES 7 0 3 0 []) [] [Desc (HOther 200 [1; 2; 3]) []; ex_sl; Desc (HOther 67 [101]) []] = Ok ks /\
  map fst ks = [7; 1; 5] /\ desc_add (HES 7 0 3 0 []) ks ex_sl = Err MP4InvalidMediaErr.
Proof. eexists. split; [reflexivity|]. split; reflexivity. Qed.

(* any input: the reader stops by itself, leaves a suffix of the input, and
   unless the tag of an IPMP tool or tool description occurs in it has no
   undefined behaviour *)
Theorem C32_reader_total : forall i n,
  desc_read (mkR i n) <> Err OutOfFuel /\ (clean i -> desc_read (mkR i n) <> UB) /\
  (forall d s, desc_read (mkR i n) = Ok (d, s) -> exists p, i = p ++ inp s /\ p <> []).
Proof.
  intros i n. assert (L : (length (inp (mkR i n)) < S (length i))%nat) by apply Nat.lt_succ_diag_r.
  destruct (desc_read_decent (S (length i)) (mkR i n) L) as (H1 & H2 & H3). split; [exact H1|]. split; [exact (H2 I)|].
  intros d s E. destruct (H3 d s E) as [p P]. exists p. split; [exact P|]. intros ->.
  assert (X := proj2 (desc_rd_decent (S (length i))) (mkR i n) d s L E). cbn [inp] in *. cbn [app] in P. rewrite <- P in X. exact (Nat.lt_irrefl _ X).
Qed.
Print Assumptions C32_reader_total.
Example C32_clean_ex : clean (enc ex_es) /\ ~ clean [98].
Proof. split; [apply Forall_forall; intros x X; vm_compute in X; repeat (destruct X as [<-|X]; [split; discriminate|]); contradiction|]. intros H. inversion H as [|x l [A B] C]. congruence. Qed.
Theorem C32_tool_description_refuted : exists i n, desc_read (mkR i n) = UB.
Proof. exists ([98] ++ len4 27 ++ be16 1 ++ be64 1 ++ be64 0 ++ [0] ++ be64 0), 0. vm_compute. reflexivity. Qed.
Print Assumptions C32_tool_description_refuted.

(* a descriptor without a structure of its own that announces more bytes than
   there are is rejected, however the length is written *)
Theorem C32_longer_than_input_rejected : forall tag bs data n, tag < 256 -> special tag = false -> len_form bs -> len bs < 4294967295 ->
  len_value bs < 4294967296 -> len data < len_value bs -> desc_read (mkR (be8 tag ++ bs ++ data) n) = Err MP4IOErr.
Proof.
  intros tag bs data n Ht S F Lb Lv Ld. unfold desc_read. rewrite desc_rd_eq. cbn [be8 app inp]. rewrite (N.mod_small tag) by exact Ht.
  unfold rest_rd. rewrite (parses_then _ _ _ _ _ _ (parses_len bs 1 eq_refl F)). rewrite (w32_small (len_value bs)) by exact Lv. rewrite (w32_small (1 + len bs)) by lia.
  unfold rbind, getrdn. cbn [rdn]. unfold head_rd. rewrite !(special_neq tag) by (exact S || (cbn [In]; auto 20)). cbn [orb]. unfold rbind, getrdn. cbn [rdn].
  assert (E : sub32 (w32 (len_value bs + (1 + len bs))) (1 + len bs) = len_value bs) by (unfold sub32, w32; lia). rewrite E.
  unfold take. cbn [inp]. destruct (Nat.leb_spec (N.to_nat (len_value bs)) (length data)) as [X|X]; [exfalso; unfold len in *; lia|]. reflexivity.
Qed.
Print Assumptions C32_longer_than_input_rejected.
Example C32_longer_ex : special 5 = false /\ desc_read (mkR (be8 5 ++ [3] ++ [1; 2]) 0) = Err MP4IOErr.
Proof. split; reflexivity. Qed.
(* those with fixed fields are not: only the fields are looked at *)
Theorem C32_longer_than_input_accepted_refuted : forall l track n, l < 268435456 -> track < 4294967296 ->
  desc_read (mkR (be8 14 ++ len4 l ++ be32 track) n) = Ok (Desc (HInc track) [], mkR [] (w32 (n + (5 + l)))).
Proof.
  intros l track n Hl Ht. unfold desc_read. rewrite desc_rd_eq. change (be8 14) with [14]. cbn [app inp rdn].
  unfold rest_rd. rewrite (parses_then _ _ _ _ _ _ (parses_len4 l 1 eq_refl Hl)). change (w32 (1 + len (len4 l))) with 5. unfold rbind at 1, getrdn. cbn [rdn].
  change (head_rd 14 (w32 (l + 5))) with (let* t := get32 in rret (HInc t)). rewrite w32_small by lia.
  unfold rbind at 2. rewrite <- (app_nil_r (be32 track)). unfold rbind. rewrite (proj1 (parses_get32 5 track Ht)). cbn [kids_rd rret inp]. rewrite (N.add_comm l 5). reflexivity.
Qed.
Print Assumptions C32_longer_than_input_accepted_refuted.
(* nor are descriptors whose length makes their size wrap *)
Theorem C32_wrapped_size_accepted_refuted : exists d, desc_read (mkR ([3] ++ [143; 255; 255; 255; 127] ++ [0; 1; 0]) 0) = Ok (d, mkR [] 5).
Proof. exists (Desc (HES 1 0 0 0 []) []). vm_compute. reflexivity. Qed.
Print Assumptions C32_wrapped_size_accepted_refuted.

(* values that do not survive: a priority of 32 or more becomes a flag, a
   synchronization configuration that is not 0 or 2 is refused by the reader,
   a duration with a predefined configuration is not looked for *)
Theorem C32_priority_refuted : exists d bs, dwrite d = Ok bs /\ desc_read (mkR bs 0) = Err MP4IOErr.
Proof. exists (Desc (HES 7 0 64 0 []) []). eexists. split; vm_compute; reflexivity. Qed.
Print Assumptions C32_priority_refuted.
Theorem C32_predefined_refuted : exists d bs, dwrite d = Ok bs /\ desc_read (mkR bs 0) = Err MP4InvalidMediaErr.
Proof. exists (Desc (HSL (mkSlc 1 0 0 0 0 0 1 0 0 0 0 0 0 0 0 0 0 0 0 0 0)) []). eexists. split; vm_compute; reflexivity. Qed.
Print Assumptions C32_predefined_refuted.
Theorem C32_predefined_duration_refuted : exists d bs d' s, dwrite d = Ok bs /\ desc_read (mkR bs 0) = Ok (d', s) /\ inp s <> [].
Proof.
  exists (Desc (HSL (mkSlc 2 0 0 0 0 0 1 0 1 0 0 0 0 0 0 0 0 0 90000 1 1)) []). eexists _, _, (mkR [0; 1; 95; 144; 0; 1; 0; 1] 14).
  split; [vm_compute; reflexivity|]. split; [vm_compute; reflexivity|discriminate].
Qed.
Print Assumptions C32_predefined_duration_refuted.
(* an initial object descriptor with a URL loses the others given to it *)
Theorem C32_url_drops_descriptors_refuted : exists h ds ks bs, adds h [] ds = Ok ks /\ ds <> [] /\ Forall wf ds /\
  dwrite (Desc h ks) = Ok bs /\ exists h' s, desc_read (mkR bs 0) = Ok (Desc h' [], s).
Proof.
  exists (HIOD 1 0 [104; 105] 0 0 0 0 0), [Desc (HInc 1) []]. eexists _, _. split; [reflexivity|]. split; [discriminate|].
  split; [apply Forall_cons; [apply Wf; [reflexivity|reflexivity|apply Forall_nil|reflexivity]|apply Forall_nil]|].
  split; [vm_compute; reflexivity|]. eexists _, _. vm_compute. reflexivity.
Qed.
Print Assumptions C32_url_drops_descriptors_refuted.

(* MP4CopyDescriptor: a copy is what a reader makes of the bytes *)
Theorem C32_copy : forall d, wf d -> desc_copy d = Ok (Some (view d)).
Proof.
  intros d W. unfold desc_copy. rewrite dwrite_ok by exact W. pose proof (proj1 (desc_read_ok d 0 W) []) as H. rewrite app_nil_r in H. rewrite H. reflexivity.
Qed.
Print Assumptions C32_copy.
(* when it fails no error is reported, and nothing is stored *)
Theorem C32_copy_error_lost_refuted : exists d e, dwrite d = Err e /\ desc_copy d = Ok None.
Proof. exists (Desc (HSL (mkSlc 0 0 0 0 0 0 0 0 0 0 0 0 0 0 0 0 0 0 0 0 0)) []), MP4NotImplementedErr. split; vm_compute; reflexivity. Qed.
Print Assumptions C32_copy_error_lost_refuted.

(* the boxes that hold a descriptor *)
Theorem C32_esds_round_trip : forall b, l_ok esds_layout b -> 8 + len (l_body esds_layout b) < 4294967296 -> round_trip esds_codec esds_layout b.
Proof. intros b. apply exact_round_trip, esds_exact. Qed.
Print Assumptions C32_esds_round_trip.
Theorem C32_iods_round_trip : forall b, l_ok iods_layout b -> 8 + len (l_body iods_layout b) < 4294967296 -> round_trip iods_codec iods_layout b.
Proof. intros b. apply exact_round_trip, iods_exact. Qed.
Print Assumptions C32_iods_round_trip.
Example C32_esds_ex : l_ok esds_layout (mkDbox 0 0 (Some ex_es)) /\ write_box esds_codec (mkDbox 0 0 (Some ex_es)) = Ok (be32 74 ++ be32 (code "esds") ++ be32 0 ++ enc ex_es).
Proof. split; [|vm_compute; reflexivity]. split; [split; reflexivity|]. split; [exact I|apply C32_ex]. Qed.
(* a descriptor is set once *)
Theorem C32_iods_set_once : forall b d, (db_desc b = None -> iods_set b d = Ok (mkDbox (db_ver b) (db_flags b) (Some d))) /\
  (db_desc b <> None -> iods_set b d = Err MP4BadParamErr).
Proof. intros b d. unfold iods_set. split; [intros ->; reflexivity|]. destruct (db_desc b); [reflexivity|congruence]. Qed.
Print Assumptions C32_iods_set_once.

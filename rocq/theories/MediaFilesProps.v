(* MediaFilesProps.v -- C87: samples of a media whose data are in other files. *)
From Coq Require Import String Ascii.
From Verif Require Import Base Codec AtomModel AtomSpec BoxModel MdatModel TrackModel IlocModel ItemModel TextModel TextSpec TextProofs SizeSpec SizeModel SizeProofs ChunkSpec ChunkModel ChunkProofs ChunkProps EntryModel EntrySpec EntryProofs EntryProps ElsewhereModel SaveSpec ElsewhereSpec ElsewhereProps MediaFilesModel MediaFilesSpec.
Local Ltac Zify.zify_post_hook ::= Z.div_mod_to_equations.

(* a media that says [t], read from a file and not asked anything yet *)
Record says (x : source) (t : told) : Prop := {
  sy_sizes : reps (so_sz x) (t_sizes t);
  sy_offs : co_list (so_co x) = t_offs t;
  sy_chunks : exists k, stsc_inv (so_sc x) k (t_chunks t);
  sy_some : t_chunks t <> [];
  sy_all : len (t_sizes t) <= samples (t_chunks t);
  sy_descs : so_descs x = t_descs t;
  sy_refs : so_dref x = refer (t_refs t) }.
(* the open file is the one of its entry *)
Definition opened (e : around) (x : source) : Prop :=
  match so_open x with None => True | Some (n, d) => entry_file e (so_dref x) n = Ok d end.

Lemma open_data_is e x n : opened e x -> n <> 0 ->
  fst (open_data e x n) = entry_file e (so_dref x) n /\ opened e (snd (open_data e x n)) /\
  exists o, snd (open_data e x n) = with_open x o.
Proof.
  intros O Hn. unfold open_data. destruct (N.eqb_spec n 0); [lia|].
  assert (A : let r := match entry_file e (so_dref x) n with
                | Ok d => (Ok d, with_open x (Some (n, d)))
                | Err c => (Err c, with_open x None)
                | UB => (UB, with_open x None)
                end in fst r = entry_file e (so_dref x) n /\ opened e (snd r) /\ exists o, snd r = with_open x o).
  { destruct (entry_file e (so_dref x) n) eqn:E; cbn [fst snd]; (split; [reflexivity|]; split; [|eauto]); unfold opened; cbn [with_open so_open so_dref]; auto. }
  destruct (so_open x) as [[m d]|] eqn:Q; [|exact A]. destruct (N.eqb_spec m n) as [->|]; [|exact A].
  cbn [fst snd]. unfold opened in *. rewrite Q in *. split; [symmetry; exact O|]. split; [exact O|]. exists (so_open x). destruct x; reflexivity.
Qed.

Lemma says_open x t o : says x t -> says (with_open x o) t.
Proof. intros [A B C D E F G]. split; assumption. Qed.
Lemma says_chunks x t k sc : says x t -> stsc_inv sc k (t_chunks t) -> says (with_chunks x sc) t.
Proof. intros [A B C D E F G] I. split; try assumption. exists k. exact I. Qed.
Lemma opened_chunks e x sc : opened e x -> opened e (with_chunks x sc).
Proof. intros O. exact O. Qed.

Lemma step_says e x t n : n < 4294967296 -> says x t -> opened e x ->
  says (snd (get_sample e x n)) t /\ opened e (snd (get_sample e x n)).
Proof.
  intros Hn S O. unfold get_sample. destruct (N.eq_dec n 0) as [->|N0].
  { unfold stsc_lookup. change (0 =? 0) with true. cbv iota. cbn [snd]. auto. }
  destruct (sy_chunks _ _ S) as (k & I). destruct (stsc_inv_lookup _ k _ n I ltac:(lia) (sy_some _ _ S)) as (c & d & fs & sc & E & I' & _).
  rewrite E. pose proof (says_chunks x t k sc S I') as S1. pose proof (opened_chunks e x sc O) as O1.
  destruct (do so <- stsz_get_off _ _ _; _) as [[[so off] r]| |]; [|cbn [snd]; auto..].
  destruct (N.eq_dec r 0) as [->|R0].
  { unfold open_data. change (0 =? 0) with true. cbv iota. cbn [snd]. auto. }
  destruct (open_data_is e _ r O1 R0) as (_ & O2 & o & E2). destruct (open_data e _ r) as [f x2]. cbn [fst snd] in *. subst x2.
  split; [apply says_open; exact S1|exact O2].
Qed.
Lemma after_says e t ns : Forall (fun n => n < 4294967296) ns -> forall x x', says x t -> opened e x -> after_reads e x ns = Ok x' -> says x' t /\ opened e x'.
Proof.
  induction 1 as [|n ns Hn _ IH]; intros x x' S O E; cbn [after_reads] in E; [injection E as <-; auto|].
  destruct (step_says e x t n Hn S O) as (S1 & O1). destruct (get_sample e x n) as [[r|r|] x1]; cbn [snd] in *; [| |discriminate]; eapply IH; eassumption.
Qed.

Lemma leads_file e ds k d f : k <> 0 -> nthN ds (k - 1) = Some d -> leads e d f -> entry_file e (refer ds) k = Ok f.
Proof.
  intros K D L. unfold entry_file. rewrite len_refer.
  assert (k - 1 < len ds). { unfold nthN in D. assert (nth_error ds (N.to_nat (k - 1)) <> None) as A by congruence. apply nth_error_Some in A. unfold len. lia. }
  destruct (N.ltb_spec (len ds) k); [lia|]. rewrite (get_refer ds k d K D). cbn [bind].
  destruct L as [f dir O|d loc f NH P T L].
  - cbn [ref_box entry_place bind fst snd ul_flags ul_loc]. unfold open_entry. change (1 =? 1) with true. cbv iota. rewrite O. reflexivity.
  - pose proof (located_open e loc f L T) as Q. rewrite <- P in Q. destruct d; [congruence| |]; exact Q.
Qed.
Lemma missing_file e ds k d : k <> 0 -> nthN ds (k - 1) = Some d -> missing e d -> entry_file e (refer ds) k = Err MP4FileNotFoundErr.
Proof.
  intros K D (loc & NH & P & T & S & O & M). unfold entry_file. rewrite len_refer.
  assert (k - 1 < len ds). { unfold nthN in D. assert (nth_error ds (N.to_nat (k - 1)) <> None) as A by congruence. apply nth_error_Some in A. unfold len. lia. }
  destruct (N.ltb_spec (len ds) k); [lia|]. rewrite (get_refer ds k d K D). cbn [bind].
  assert (Q : open_entry e 0 (Some (place d)) = Err MP4FileNotFoundErr).
  { unfold open_entry. change (0 =? 1) with false. cbv iota. rewrite P. unfold path_name, cstr. rewrite (c_string_text loc [] T), (not_schemed loc S).
    destruct (own e) as [[q [dir|]]|] eqn:Oe; [exfalso; exact (O q dir eq_refl)| |]; cbn [bind]; unfold open_file; rewrite (not_schemed loc S), M; reflexivity. }
  destruct d; [congruence| |]; exact Q.
Qed.

Lemma nthN_nth {A} (l : list A) i v d : nthN l i = Some v -> nth (N.to_nat i) l d = v /\ i < len l.
Proof.
  unfold nthN. intros H. split; [apply nth_error_nth; exact H|]. assert (nth_error l (N.to_nat i) <> None) as A0 by congruence. apply nth_error_Some in A0. unfold len. lia.
Qed.

(* what is done for sample [n], whatever was read before: the bytes are
   looked for at the right place of the file of the description of the sample
   before, or of the first *)
Lemma get_is e x t n o s d k r : says x t -> opened e x -> 1 <= n < 4294967296 -> lies t n o s -> o < 4294967296 ->
  description_of_sample (t_chunks t) (if n =? 1 then 1 else n - 1) = Some d -> d <> 0 -> nthN (t_descs t) (d - 1) = Some k -> k <> 0 -> nthN (t_refs t) (k - 1) = Some r ->
  fst (get_sample e x n) = (do f <- entry_file e (refer (t_refs t)) k; do bs <- (if 0 <? s then file_copy f o s else Ok []); Ok (bs, d)) /\
  (forall c, entry_file e (refer (t_refs t)) k = Err c -> so_open (snd (get_sample e x n)) = None).
Proof.
  intros S O Hn (c & fs & d1 & b & C & B & Z & ->) Ho D D0 K K0 R. unfold get_sample.
  destruct (sy_chunks _ _ S) as (q & I). destruct (stsc_inv_lookup _ q _ n I Hn (sy_some _ _ S)) as (c' & d' & fs' & sc & E & I' & A).
  rewrite E. destruct (nthN_nth _ _ _ 0 Z) as (Z1 & Z2). pose proof (sy_all _ _ S).
  destruct (A ltac:(lia)) as ((d0 & A1) & A2). rewrite A1 in C. injection C as -> -> ->. rewrite A2 in D. injection D as ->.
  assert (F : 1 <= fs <= n).
  { unfold chunk_of_sample in A1. destruct (locate _ (n - 1)) as [[[j b0] d2]|] eqn:L; [|discriminate]. injection A1 as _ <- _.
    assert (b0 <= n - 1); [|lia]. clear -L. revert L. generalize (n - 1) as m. generalize (t_chunks t) as ch. intros ch. revert j b0 d2.
    induction ch as [|[s0 d3] ch IH]; intros j b0 d2 m L; cbn [locate] in L; [discriminate|].
    destruct (N.ltb_spec m s0); [injection L as <- <- <-; lia|]. destruct (locate ch (m - s0)) as [[[j1 b1] d4]|] eqn:L1; [|discriminate]. injection L as <- <- <-.
    pose proof (IH _ _ _ _ L1). lia. }
  rewrite (stsz_get_off_ok _ _ n fs (sy_sizes _ _ S)) by lia. rewrite Z1. cbn [bind fst snd].
  unfold stco_get. rewrite (sy_offs _ _ S). destruct (nthN_nth _ _ _ 0 B) as (B1 & B2).
  assert (c <> 0). { unfold chunk_of_sample in A1. destruct (locate _ (n - 1)) as [[[j b0] d2]|]; [|discriminate]. injection A1 as <- _ _. lia. }
  destruct (N.eqb_spec c 0); [lia|]. destruct (N.ltb_spec (len (t_offs t)) c); [lia|]. cbn [orb]. unfold nthN in B. rewrite B. cbn [bind].
  unfold ref_of_desc. rewrite (sy_descs _ _ S). destruct (nthN_nth _ _ _ 0 K) as (K1 & K2). destruct (N.eqb_spec d 0); [lia|]. destruct (N.ltb_spec (len (t_descs t)) d); [lia|].
  cbn [orb]. rewrite K. cbn [bind].
  pose proof (opened_chunks e x sc O) as O1. destruct (open_data_is e _ k O1 K0) as (Q1 & Q2 & o & Q3).
  assert (N3 : forall c0, entry_file e (so_dref x) k = Err c0 -> so_open (snd (open_data e (with_chunks x sc) k)) = None).
  { intros c0 X. unfold open_data. destruct (N.eqb_spec k 0); [lia|]. cbn [with_chunks so_dref so_open]. rewrite X.
    destruct (so_open x) as [[m0 f0]|] eqn:Q; [|reflexivity]. destruct (N.eqb_spec m0 k) as [->|]; [|reflexivity]. unfold opened in O. rewrite Q in O. congruence. }
  destruct (open_data e _ k) as [f x2]. cbn [fst snd] in *. subst f. cbn [with_chunks so_dref] in *. rewrite (sy_refs _ _ S) in *.
  split; [|exact N3].
  assert (W : w32 (size_between (t_sizes t) fs n) = size_between (t_sizes t) fs n) by (apply w32_small; lia). rewrite W.
  assert (W2 : w64 (b + size_between (t_sizes t) fs n) = b + size_between (t_sizes t) fs n) by (unfold w64; apply N.mod_small; lia). rewrite W2. reflexivity.
Qed.

(* the description of the sample before is the one of the sample *)
Lemma desc_same t n d r : 1 <= n -> described t n d r -> ~ later_start t n \/ (exists d0, forall y, In y (map snd (t_chunks t)) -> y = d0) ->
  n <= samples (t_chunks t) -> (exists c fs d0, chunk_of_sample (t_chunks t) n = Some (c, fs, d0)) ->
  forall d', description_of_sample (t_chunks t) (if n =? 1 then 1 else n - 1) = Some d' -> d' = d.
Proof.
  intros Hn (k & D & _) H _ (c & fs & d0 & C) d' D'. destruct H as [H|(d1 & H)].
  - assert (Hf : fs <> n \/ n = 1). { destruct (N.eq_dec n 1); [right; assumption|left]. intros ->. apply H. split; [assumption|]. eauto. }
    pose proof (C13_description _ _ _ _ _ Hn C Hf) as E. unfold chunk_of_sample in C. unfold description_of_sample in D.
    destruct (locate _ (n - 1)) as [[[j b] d2]|]; [|discriminate]. injection C as _ _ <-. injection D as <-. congruence.
  - rewrite (C13_one_description _ _ _ _ H D), (C13_one_description _ _ _ _ H D'). reflexivity.
Qed.

(* Samples that are not the first of a later chunk, and all samples if there
   is one description: after any reads, successful or not, a sample is read
   from its place in the file its data reference leads to. *)
Theorem C87_read : forall e x t ns x' n d r o s f, says x t -> so_open x = None -> Forall (fun i => i < 4294967296) ns -> after_reads e x ns = Ok x' ->
  1 <= n < 4294967296 -> lies t n o s -> described t n d r -> leads e r f -> len f < 2147479552 -> o + s <= len f ->
  ~ later_start t n \/ (exists d0, forall y, In y (map snd (t_chunks t)) -> y = d0) ->
  fst (get_sample e x' n) = Ok (slice f o s, d).
Proof.
  intros e x t ns x' n d r o s f S O Hns A Hn L D F Hf Hi Hc.
  destruct (after_says e t ns Hns x x' S ltac:(unfold opened; rewrite O; exact I) A) as (S1 & O1).
  assert (Y : exists d', description_of_sample (t_chunks t) (if n =? 1 then 1 else n - 1) = Some d' /\ n <= samples (t_chunks t)).
  { destruct (sy_chunks _ _ S) as (q & I). destruct (stsc_inv_lookup _ q _ n I Hn (sy_some _ _ S)) as (c' & d' & fs' & sc & E & I' & A').
    destruct L as (c & fs & d1 & b & C & B & Z & _). destruct (nthN_nth _ _ _ 0 Z) as (_ & Z2). pose proof (sy_all _ _ S). destruct (A' ltac:(lia)) as (_ & A2). exists d'. split; [exact A2|lia]. }
  destruct Y as (d' & D' & Hs).
  assert (E : d' = d) by (eapply desc_same; try eassumption; [lia|destruct L as (c & fs & d1 & b & C & _); eauto]). subst d'.
  destruct D as (k & D & D0 & K & K0 & R).
  destruct (get_is e x' t n o s d k r S1 O1 Hn L ltac:(lia) D' D0 K K0 R) as (G & _). rewrite G, (leads_file e _ k r f K0 R F). cbn [bind].
  destruct (N.ltb_spec 0 s).
  - unfold file_copy. assert (Hsh : N.shiftr o 32 = 0) by (rewrite N.shiftr_div_pow2; apply N.div_small; change (2 ^ 32) with 4294967296; lia).
    rewrite Hsh. change (0 =? 0) with true. cbn [negb]. destruct (N.ltb_spec (len f) (o + s)); [lia|]. reflexivity.
  - assert (s = 0) by lia. subst s. reflexivity.
Qed.
Print Assumptions C87_read.

(* Without this condition: every sample but the first is read from its place
   in the file of the description of the sample before, which is reported. So
   the bytes are right when both descriptions lead to the same file. *)
Theorem C87_sample_before : forall e x t ns x' n d r o s f, says x t -> so_open x = None -> Forall (fun i => i < 4294967296) ns -> after_reads e x ns = Ok x' ->
  2 <= n < 4294967296 -> lies t n o s -> described t (n - 1) d r -> leads e r f -> len f < 2147479552 -> o + s <= len f ->
  fst (get_sample e x' n) = Ok (slice f o s, d).
Proof.
  intros e x t ns x' n d r o s f S O Hns A Hn L (k & D & D0 & K & K0 & R) F Hf Hi.
  destruct (after_says e t ns Hns x x' S ltac:(unfold opened; rewrite O; exact I) A) as (S1 & O1).
  assert (D' : description_of_sample (t_chunks t) (if n =? 1 then 1 else n - 1) = Some d) by (destruct (N.eqb_spec n 1); [lia|exact D]).
  destruct (get_is e x' t n o s d k r S1 O1 ltac:(lia) L ltac:(lia) D' D0 K K0 R) as (G & _). rewrite G, (leads_file e _ k r f K0 R F). cbn [bind].
  destruct (N.ltb_spec 0 s).
  - unfold file_copy. assert (Hsh : N.shiftr o 32 = 0) by (rewrite N.shiftr_div_pow2; apply N.div_small; change (2 ^ 32) with 4294967296; lia).
    rewrite Hsh. change (0 =? 0) with true. cbn [negb]. destruct (N.ltb_spec (len f) (o + s)); [lia|]. reflexivity.
  - assert (s = 0) by lia. subst s. reflexivity.
Qed.
Print Assumptions C87_sample_before.

(* A sample whose file is not there is refused and nothing is left open. *)
Theorem C87_missing : forall e x t ns x' n d r o s, says x t -> so_open x = None -> Forall (fun i => i < 4294967296) ns -> after_reads e x ns = Ok x' ->
  1 <= n < 4294967296 -> lies t n o s -> o < 4294967296 -> described t n d r -> missing e r ->
  ~ later_start t n \/ (exists d0, forall y, In y (map snd (t_chunks t)) -> y = d0) ->
  fst (get_sample e x' n) = Err MP4FileNotFoundErr /\ so_open (snd (get_sample e x' n)) = None.
Proof.
  intros e x t ns x' n d r o s S O Hns A Hn L Ho D M Hc.
  destruct (after_says e t ns Hns x x' S ltac:(unfold opened; rewrite O; exact I) A) as (S1 & O1).
  assert (Y : exists d', description_of_sample (t_chunks t) (if n =? 1 then 1 else n - 1) = Some d' /\ n <= samples (t_chunks t)).
  { destruct (sy_chunks _ _ S) as (q & I). destruct (stsc_inv_lookup _ q _ n I Hn (sy_some _ _ S)) as (c' & d' & fs' & sc & E & I' & A').
    destruct L as (c & fs & d1 & b & C & B & Z & _). destruct (nthN_nth _ _ _ 0 Z) as (_ & Z2). pose proof (sy_all _ _ S). destruct (A' ltac:(lia)) as (_ & A2). exists d'. split; [exact A2|lia]. }
  destruct Y as (d' & D' & Hs).
  assert (E : d' = d) by (eapply desc_same; try eassumption; [lia|destruct L as (c & fs & d1 & b & C & _); eauto]). subst d'.
  destruct D as (k & D & D0 & K & K0 & R).
  destruct (get_is e x' t n o s d k r S1 O1 Hn L ltac:(lia) D' D0 K K0 R) as (G & G2). pose proof (missing_file e _ k r K0 R M) as X. rewrite G, X. split; [reflexivity|]. apply (G2 _ X).
Qed.
Print Assumptions C87_missing.

(* The check of the data references, after any reads: it succeeds when all
   files are there, and fails when one is missing and those before it are
   there. *)
Theorem C87_check : forall e x t ns x', says x t -> so_open x = None -> Forall (fun i => i < 4294967296) ns -> after_reads e x ns = Ok x' ->
  (Forall (fun r => r = Here \/ exists f, leads e r f) (t_refs t) -> check_media e x' = Ok tt) /\
  (forall a r b, t_refs t = a ++ r :: b -> Forall (fun r => r = Here \/ exists f, leads e r f) a -> missing e r -> check_media e x' = Err MP4FileNotFoundErr).
Proof.
  intros e x t ns x' S O Hns A.
  destruct (after_says e t ns Hns x x' S ltac:(unfold opened; rewrite O; exact I) A) as (S1 & O1).
  assert (G : forall r, r = Here \/ (exists f, leads e r f) -> check_entry e (ref_box r) = Ok tt).
  { intros r [->|(f & [f0 dir Q|d loc f0 H P T L])]; [reflexivity|reflexivity|]. rewrite (check_box e d H), P. destruct (located_name e loc f0 L T) as (p & Q & _ & D). rewrite Q. cbn [bind]. rewrite D. reflexivity. }
  assert (K : forall l o i z, Forall (fun r => r = Here \/ exists f, leads e r f) l -> test_entries e o i (map ref_box l ++ z) = test_entries e o (i + len l) z).
  { induction l as [|r l IH]; intros o i z F; [cbn [map app]; f_equal; unfold len; cbn [length]; lia|]. inversion_clear F as [|? ? F1 F2]. cbn [map app test_entries]. rewrite (G r F1).
    destruct (match o with Some _ => _ | None => _ end); cbn [bind]; rewrite IH by exact F2; f_equal; lens; lia. }
  unfold check_media. rewrite (sy_refs _ _ S1), refer_is. cbn [dr_kids]. split.
  - intros F. rewrite <- (app_nil_r (map ref_box _)), K by exact F. reflexivity.
  - intros a r b E F M. rewrite E, map_app, K by exact F. cbn [map test_entries].
    assert (N1 : match so_open x' with Some (m, _) => m =? 1 + len a | None => false end = false).
    { destruct (so_open x') as [[m f]|] eqn:Q; [|reflexivity]. destruct (N.eqb_spec m (1 + len a)) as [->|]; [|reflexivity]. exfalso.
      unfold opened in O1. rewrite Q, (sy_refs _ _ S1) in O1. rewrite (missing_file e (t_refs t) (1 + len a) r) in O1; [discriminate|lia| |exact M].
      unfold nthN. rewrite E. replace (N.to_nat (1 + len a - 1)) with (length a) by (unfold len; lia). rewrite nth_error_app2, Nat.sub_diag by lia. reflexivity. }
    rewrite N1. destruct M as (loc & H & P & T & Sc & Ow & Dk). rewrite (check_box e r H), P. unfold path_name, cstr. rewrite (c_string_text loc [] T), (not_schemed loc Sc).
    destruct (own e) as [[q [dir|]]|] eqn:Oe; [exfalso; exact (Ow q dir eq_refl)| |]; cbn [bind]; rewrite Dk; reflexivity.
Qed.
Print Assumptions C87_check.

(* a media as it is read from a file says what its tables list *)
Theorem C87_tables : forall v1 f1 fd b junk v2 f2 offs v3 f3 es k descs refs, b <> [] -> table_ok es k -> es <> [] -> len b <= samples (chunks_of es k) < 4294967295 ->
  says (mkSource (mkStsz v1 f1 fd 0 (len b) (Some b) junk) (mkStco v2 f2 offs) (mkStsc v3 f3 es 0 0) descs (refer refs) None)
       (mkTold (chunks_of es k) b offs descs refs).
Proof.
  intros v1 f1 fd b junk v2 f2 offs v3 f3 es k descs refs Hb Ht He Hs. split; cbn [so_sz so_co so_sc so_descs so_dref t_chunks t_sizes t_offs t_descs t_refs]; try reflexivity.
  - split; [reflexivity|]. cbn [sz_size sz_buf]. change (0 =? 0) with true. cbv iota. split; [exact Hb|apply firstn_all].
  - exists k. split; [exact Ht|]. split; [reflexivity|]. split; [lia|left; reflexivity].
  - intros E. rewrite E in Hs. cbn in Hs. destruct b; [congruence|]. unfold len in Hs. cbn [length] in Hs. lia.
  - lia.
Qed.
Print Assumptions C87_tables.

(* three files; two chunks of two samples, the second in a file of its own *)
Definition ex_around : around :=
  mkAround (fun p => if list_eq_dec N.eq_dec p (word "a") then Some [1; 2; 3; 4; 5; 6; 7] else if list_eq_dec N.eq_dec p (word "/b") then Some [16; 17; 18; 19; 20; 21; 22; 23] else None)
    (Some ([32; 33; 34; 35; 36; 37; 38; 39; 40], None)).
Definition ex_refs : list dspec := [Url (cstr (word "a")); Url (cstr (word "file:///b")); Here; Url (cstr (word "c"))].
Definition ex_source (es : list run) (descs : list N) : source :=
  mkSource (mkStsz 0 0 0 0 4 (Some [2; 1; 2; 2]) 0) (mkStco 0 0 [1; 3]) (mkStsc 0 0 es 0 0) descs (refer ex_refs) None.
Definition ex_told (es : list run) (descs : list N) : told := mkTold (chunks_of es 3) [2; 1; 2; 2] [1; 3] descs ex_refs.
Lemma ex_says es descs : table_ok es 3 -> es <> [] -> samples (chunks_of es 3) = 4 -> says (ex_source es descs) (ex_told es descs).
Proof. intros A B C. apply (C87_tables 0 0 0 [2; 1; 2; 2] 0 0 0 [1; 3] 0 0 es 3 descs ex_refs); [discriminate|exact A|exact B|rewrite C; split; reflexivity || discriminate]. Qed.
Lemma ex_leads : leads ex_around (Url (cstr (word "a"))) [1; 2; 3; 4; 5; 6; 7] /\ leads ex_around (Url (cstr (word "file:///b"))) [16; 17; 18; 19; 20; 21; 22; 23] /\
  leads ex_around Here [32; 33; 34; 35; 36; 37; 38; 39; 40] /\ missing ex_around (Url (cstr (word "c"))).
Proof.
  assert (S : forall s, schemed s = false -> ~ scheme s) by (intros s E H; apply schemed_ok in H; congruence).
  split; [|split; [|split]].
  - apply (LeadsTo _ _ (word "a")); [discriminate|reflexivity|repeat constructor|]. apply Bare; [intros; discriminate|apply S; reflexivity|reflexivity].
  - apply (LeadsTo _ _ (word "file:///b")); [discriminate|reflexivity|repeat constructor|]. change (word "file:///b") with (word "file://" ++ word "/b"). apply Absolute; [apply S; reflexivity|reflexivity].
  - apply (LeadsHere _ _ None). reflexivity.
  - exists (word "c"). split; [discriminate|]. split; [reflexivity|]. split; [repeat constructor|]. split; [apply S; reflexivity|]. split; [intros; discriminate|reflexivity].
Qed.
Definition ex_runs : list run := [(1, 2, 1); (2, 2, 2)].
Lemma ex_runs_ok : table_ok ex_runs 3 /\ ex_runs <> [] /\ samples (chunks_of ex_runs 3) = 4.
Proof. split; [cbn; repeat split; lia|]. split; [discriminate|reflexivity]. Qed.

(* sample 2 is in the first file and sample 4 in the second, whatever is read
   in between, among them a sample that does not exist *)
Example C87_case : exists x', after_reads ex_around (ex_source ex_runs [1; 2]) [4; 1; 9; 2; 0; 4] = Ok x' /\
  lies (ex_told ex_runs [1; 2]) 4 5 2 /\ lies (ex_told ex_runs [1; 2]) 2 3 1 /\
  described (ex_told ex_runs [1; 2]) 4 2 (Url (cstr (word "file:///b"))) /\ described (ex_told ex_runs [1; 2]) 2 1 (Url (cstr (word "a"))) /\
  ~ later_start (ex_told ex_runs [1; 2]) 4 /\ ~ later_start (ex_told ex_runs [1; 2]) 2 /\
  fst (get_sample ex_around x' 4) = Ok ([21; 22], 2) /\ fst (get_sample ex_around x' 2) = Ok ([4], 1) /\ check_media ex_around x' = Err MP4FileNotFoundErr.
Proof.
  eexists. split; [vm_compute; reflexivity|].
  split; [exists 2, 3, 2, 3; repeat split; reflexivity|]. split; [exists 1, 1, 1, 1; repeat split; reflexivity|].
  split; [exists 2; repeat split; try reflexivity; discriminate|]. split; [exists 1; repeat split; try reflexivity; discriminate|].
  split; [intros (_ & c & d & H); vm_compute in H; discriminate|]. split; [intros (_ & c & d & H); vm_compute in H; discriminate|].
  split; [vm_compute; reflexivity|]. split; vm_compute; reflexivity.
Qed.
(* two descriptions that lead to the same file: sample 3 has its bytes *)
Example C87_sample_before_case : lies (ex_told ex_runs [2; 2]) 3 3 2 /\ described (ex_told ex_runs [2; 2]) 2 1 (Url (cstr (word "file:///b"))) /\
  described (ex_told ex_runs [2; 2]) 3 2 (Url (cstr (word "file:///b"))) /\ fst (get_sample ex_around (ex_source ex_runs [2; 2]) 3) = Ok ([19; 20], 1).
Proof.
  split; [exists 2, 3, 2, 3; repeat split; reflexivity|]. split; [exists 2; repeat split; try reflexivity; discriminate|].
  split; [exists 2; repeat split; try reflexivity; discriminate|]. vm_compute; reflexivity.
Qed.
(* and with a description whose file is not there *)
Example C87_missing_case : exists x', after_reads ex_around (ex_source ex_runs [3; 4]) [1; 2; 4; 2] = Ok x' /\
  lies (ex_told ex_runs [3; 4]) 4 5 2 /\ described (ex_told ex_runs [3; 4]) 4 2 (Url (cstr (word "c"))) /\ ~ later_start (ex_told ex_runs [3; 4]) 4 /\
  so_open x' = Some (3, [32; 33; 34; 35; 36; 37; 38; 39; 40]) /\ fst (get_sample ex_around x' 4) = Err MP4FileNotFoundErr /\
  fst (get_sample ex_around (snd (get_sample ex_around x' 4)) 2) = Ok ([35], 1).
Proof.
  eexists. split; [vm_compute; reflexivity|].
  split; [exists 2, 3, 2, 3; repeat split; reflexivity|]. split; [exists 4; repeat split; try reflexivity; discriminate|].
  split; [intros (_ & c & d & H); vm_compute in H; discriminate|]. split; [vm_compute; reflexivity|]. split; vm_compute; reflexivity.
Qed.

(* The first sample of a later chunk with another description is read from
   the file of the chunk before: the bytes of another file are given. *)
Theorem C87_wrong_file_refuted :
  says (ex_source ex_runs [1; 2]) (ex_told ex_runs [1; 2]) /\ lies (ex_told ex_runs [1; 2]) 3 3 2 /\
  described (ex_told ex_runs [1; 2]) 3 2 (Url (cstr (word "file:///b"))) /\ leads ex_around (Url (cstr (word "file:///b"))) [16; 17; 18; 19; 20; 21; 22; 23] /\
  slice [16; 17; 18; 19; 20; 21; 22; 23] 3 2 = [19; 20] /\
  fst (get_sample ex_around (ex_source ex_runs [1; 2]) 3) = Ok ([4; 5], 1).
Proof.
  destruct ex_runs_ok as (A & B & C).
  split; [apply ex_says; assumption|]. split; [exists 2, 3, 2, 3; repeat split; reflexivity|]. split; [exists 2; repeat split; try reflexivity; discriminate|].
  split; [apply ex_leads|]. split; [reflexivity|vm_compute; reflexivity].
Qed.
Print Assumptions C87_wrong_file_refuted.

(* A file that is shorter than the tables say is read past its end. *)
Definition short_source : source := mkSource (mkStsz 0 0 0 0 4 (Some [2; 1; 2; 9]) 0) (mkStco 0 0 [1; 3]) (mkStsc 0 0 [(1, 2, 1)] 0 0) [1] (refer ex_refs) None.
Definition short_told : told := mkTold (chunks_of [(1, 2, 1)] 3) [2; 1; 2; 9] [1; 3] [1] ex_refs.
Theorem C87_short_file_refuted :
  says short_source short_told /\ lies short_told 4 5 9 /\ described short_told 4 1 (Url (cstr (word "a"))) /\
  leads ex_around (Url (cstr (word "a"))) [1; 2; 3; 4; 5; 6; 7] /\
  fst (get_sample ex_around short_source 3) = Ok ([4; 5], 1) /\ fst (get_sample ex_around short_source 4) = UB.
Proof.
  split; [apply (C87_tables 0 0 0 [2; 1; 2; 9] 0 0 0 [1; 3] 0 0 [(1, 2, 1)] 3 [1] ex_refs); [discriminate|cbn; repeat split; lia|discriminate|split; reflexivity || discriminate]|].
  split; [exists 2, 3, 1, 3; repeat split; reflexivity|]. split; [exists 1; repeat split; try reflexivity; discriminate|].
  split; [apply ex_leads|split; vm_compute; reflexivity].
Qed.
Print Assumptions C87_short_file_refuted.

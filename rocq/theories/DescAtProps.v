(* DescAtProps.v -- C85: the sample description in force at a time. *)
From Verif Require Import Base Codec SttsSpec SttsModel SttsProofs SttsProps ChunkSpec ChunkModel ChunkProofs ChunkProps DescAtSpec DescAtModel.

(* The tables of one media: durations of 1 and more, chunks with at least
   one sample, and every sample in a chunk. *)
Record tables_ok (ts : stts) (es : list (N * N * N)) (k : N) : Prop := {
  tk_times : find_tab (st_entries ts);
  tk_chunks : table_ok es k;
  tk_fits : samples (chunks_of es k) < 4294967295;
  tk_all : len (expand (st_entries ts)) <= samples (chunks_of es k);
  tk_some : chunks_of es k <> [] }.

Lemma desc_at_ok ts sc es k t : tables_ok ts es k -> stsc_inv sc k (chunks_of es k) -> t < total (expand (st_entries ts)) ->
  exists d sc' n, desc_at ts sc t = Ok (d, sc') /\ stsc_inv sc' k (chunks_of es k) /\ covers (expand (st_entries ts)) n t /\
    n <= len (expand (st_entries ts)) /\
    description_of_sample (chunks_of es k) (if n =? 1 then 1 else n - 1) = Some d /\
    exists c fs d0, chunk_of_sample (chunks_of es k) n = Some (c, fs, d0).
Proof.
  intros [K1 K2 K3 K4 K5] I Ht. destruct (C09_search_finds_covering_sample ts t K1 Ht) as (C & _).
  destruct (C09_covering_sample_unique _ t Ht) as (n & _ & Hn & Hu). pose proof (Hu _ C) as En.
  pose proof (ft_len _ K1) as Fl. unfold desc_at. rewrite En in *.
  assert (1 <= n) by (destruct C; assumption).
  destruct (stsc_inv_lookup sc k _ n I ltac:(lia) K5) as (c & d & fs & sc' & E & I' & A).
  rewrite E. cbn [rbind]. destruct (A ltac:(lia)) as ((d0 & A1) & A2).
  exists d, sc', n. split; [reflexivity|]. split; [exact I'|]. split; [exact C|]. split; [exact Hn|]. split; [exact A2|]. eauto.
Qed.

(* what is wanted of the answers *)
Fixpoint answers (want : N -> N -> Prop) (os : list dop) (rs : list (res (option N))) : Prop :=
  match os, rs with
  | [], [] => True
  | DTime t :: os', r :: rs' => (exists d, r = Ok (Some d) /\ want t d) /\ answers want os' rs'
  | DSample _ :: os', r :: rs' => r = Ok None /\ answers want os' rs'
  | _, _ => False
  end.
Lemma answers_run (want : N -> N -> Prop) ts es k os : forall sc, tables_ok ts es k -> stsc_inv sc k (chunks_of es k) ->
  Forall (dop_ok (expand (st_entries ts))) os ->
  (forall t n d, In (DTime t) os -> covers (expand (st_entries ts)) n t ->
     description_of_sample (chunks_of es k) (if n =? 1 then 1 else n - 1) = Some d ->
     (exists c fs d0, chunk_of_sample (chunks_of es k) n = Some (c, fs, d0)) -> want t d) ->
  answers want os (desc_run ts sc os).
Proof.
  induction os as [|[t|n] os IH]; intros sc K I Ho Hw; cbn [desc_run answers]; [exact Logic.I| |].
  - inversion_clear Ho as [|? ? H1 H2]. cbn [dop_ok] in H1.
    destruct (desc_at_ok ts sc es k t K I H1) as (d & sc' & n & E & I' & C & _ & D & X). rewrite E.
    split; [exists d; split; [reflexivity|]; apply (Hw t n d); [left; reflexivity|assumption..]|].
    apply IH; [assumption..|]. intros t0 n0 d1 Hi. apply Hw. right; exact Hi.
  - inversion_clear Ho as [|? ? H1 H2]. cbn [dop_ok] in H1.
    destruct (stsc_inv_lookup sc k _ n I H1 (tk_some _ _ _ K)) as (c & d & fs & sc' & E & I' & _). rewrite E.
    split; [reflexivity|]. apply IH; [assumption..|]. intros t0 n0 d1 Hi. apply Hw. right; exact Hi.
Qed.
Lemma start_inv v f es k : table_ok es k -> samples (chunks_of es k) < 4294967295 ->
  stsc_inv (mkStsc v f es 0 0) k (chunks_of es k).
Proof. intros A B. split; [exact A|]. split; [reflexivity|]. split; [exact B|left; reflexivity]. Qed.

Lemma describes_one ch n d0 d : (forall y, In y (map snd ch) -> y = d0) ->
  (exists c fs x, chunk_of_sample ch n = Some (c, fs, x)) -> description_of_sample ch (if n =? 1 then 1 else n - 1) = Some d ->
  description_of_sample ch n = Some d.
Proof.
  intros H (c & fs & x & X) D. pose proof (C13_one_description _ _ _ _ H D) as ->.
  unfold chunk_of_sample in X. unfold description_of_sample at 1. destruct (locate ch (n - 1)) as [[[j b] d1]|] eqn:L; [|discriminate].
  f_equal. apply (C13_one_description ch d0 n); [exact H|]. unfold description_of_sample. rewrite L. reflexivity.
Qed.

(* If all chunks use one description, every question gets the description of
   the sample decoded at the time, whatever was asked before. *)
Theorem C85_one_description :
  forall ts v f es k d0 os, tables_ok ts es k -> (forall y, In y (map snd (chunks_of es k)) -> y = d0) ->
  Forall (dop_ok (expand (st_entries ts))) os ->
  answers (describes (expand (st_entries ts)) (chunks_of es k)) os (desc_run ts (mkStsc v f es 0 0) os).
Proof.
  intros ts v f es k d0 os K H Ho. apply (answers_run _ ts es k); [exact K| |exact Ho|].
  - apply start_inv; [apply (tk_chunks _ _ _ K)|apply (tk_fits _ _ _ K)].
  - intros t n d _ C D X. exists n. split; [exact C|]. eapply describes_one; eassumption.
Qed.
Print Assumptions C85_one_description.

(* Whatever the descriptions: the answer is right for all times at which the
   sample decoded is not the first of its chunk, and for the first sample. *)
Theorem C85_inside_chunks :
  forall ts v f es k os, tables_ok ts es k -> Forall (dop_ok (expand (st_entries ts))) os ->
  (forall t n, In (DTime t) os -> covers (expand (st_entries ts)) n t -> starts_chunk (chunks_of es k) n -> n = 1) ->
  answers (describes (expand (st_entries ts)) (chunks_of es k)) os (desc_run ts (mkStsc v f es 0 0) os).
Proof.
  intros ts v f es k os K Ho Hs. apply (answers_run _ ts es k); [exact K| |exact Ho|].
  - apply start_inv; [apply (tk_chunks _ _ _ K)|apply (tk_fits _ _ _ K)].
  - intros t n d Hi C D (c & fs & x & X). exists n. split; [exact C|].
    assert (1 <= n) by (destruct C; assumption).
    assert (Hf : fs <> n \/ n = 1).
    { destruct (N.eq_dec fs n) as [->|]; [right|left; assumption]. apply (Hs t n Hi C). exists c, x. exact X. }
    pose proof (C13_description _ _ _ _ _ H X Hf) as E. rewrite E in D. injection D as <-.
    unfold chunk_of_sample in X. unfold description_of_sample. destruct (locate _ (n - 1)) as [[[j b] d1]|]; [|discriminate].
    injection X as _ _ <-. reflexivity.
Qed.
Print Assumptions C85_inside_chunks.

(* In general the answer is the description of the sample before. *)
Theorem C85_sample_before :
  forall ts v f es k os, tables_ok ts es k -> Forall (dop_ok (expand (st_entries ts))) os ->
  answers (fun t d => exists n, covers (expand (st_entries ts)) n t /\
             description_of_sample (chunks_of es k) (if n =? 1 then 1 else n - 1) = Some d)
          os (desc_run ts (mkStsc v f es 0 0) os).
Proof.
  intros ts v f es k os K Ho. apply (answers_run _ ts es k); [exact K| |exact Ho|].
  - apply start_inv; [apply (tk_chunks _ _ _ K)|apply (tk_fits _ _ _ K)].
  - intros t n d _ C D _. eauto.
Qed.
Print Assumptions C85_sample_before.

Definition ex_ts : stts := mkStts 0 0 [(3, 10); (3, 20)] false 0 0 0.
Definition ex_os : list dop := [DTime 15; DSample 6; DTime 0; DTime 29; DTime 89; DTime 70].
Example C85_case : tables_ok ex_ts [(1, 3, 7)] 3 /\ Forall (dop_ok (expand (st_entries ex_ts))) ex_os /\
  desc_run ex_ts (mkStsc 0 0 [(1, 3, 7)] 0 0) ex_os = [Ok (Some 7); Ok None; Ok (Some 7); Ok (Some 7); Ok (Some 7); Ok (Some 7)].
Proof.
  split; [|split; [|vm_compute; reflexivity]].
  - constructor; [constructor; repeat constructor; vm_compute; discriminate|cbn; repeat split; lia|vm_compute; reflexivity|vm_compute; discriminate|discriminate].
  - unfold ex_os. repeat constructor; try reflexivity; discriminate.
Qed.
Example C85_two_case : tables_ok ex_ts [(1, 3, 7); (2, 3, 8)] 3 /\
  desc_run ex_ts (mkStsc 0 0 [(1, 3, 7); (2, 3, 8)] 0 0) [DTime 15; DTime 89; DTime 50; DTime 0] =
  [Ok (Some 7); Ok (Some 8); Ok (Some 8); Ok (Some 7)] /\
  description_of_sample (chunks_of [(1, 3, 7); (2, 3, 8)] 3) 5 = Some 8.
Proof.
  split; [|split; vm_compute; reflexivity].
  constructor; [constructor; repeat constructor; vm_compute; discriminate|cbn; repeat split; lia|vm_compute; reflexivity|vm_compute; discriminate|discriminate].
Qed.

(* During the first sample of the second chunk the description of the first
   chunk is reported. *)
Theorem C85_new_description_refuted :
  tables_ok ex_ts [(1, 3, 7); (2, 3, 8)] 3 /\
  desc_run ex_ts (mkStsc 0 0 [(1, 3, 7); (2, 3, 8)] 0 0) [DTime 30; DTime 49] = [Ok (Some 7); Ok (Some 7)] /\
  describes (expand (st_entries ex_ts)) (chunks_of [(1, 3, 7); (2, 3, 8)] 3) 49 8.
Proof.
  split; [exact (proj1 C85_two_case)|]. split; [vm_compute; reflexivity|].
  exists 4. split; [|reflexivity]. split; [lia|]. exists 20. split; [reflexivity|]. vm_compute. split; [discriminate|reflexivity].
Qed.
Print Assumptions C85_new_description_refuted.

(* After the end nothing is decoded: a time after it is refused, and nothing
   changes; at the end exactly, a description is reported all the same. *)
Theorem C85_after_end :
  forall ts sc t, find_tab (st_entries ts) -> total (expand (st_entries ts)) < t < 9223372036854775808 ->
  desc_at ts sc t = Err MP4BadParamErr.
Proof.
  intros ts sc t [F1 F2 F3 F4] Ht. unfold desc_at, stts_find.
  destruct (st_entries ts) as [|e es] eqn:E; [reflexivity|].
  destruct (find_loop_past t (e :: es) [] find0) as (d & _ & D); try assumption; try reflexivity; try (cbn [app]; lia); try discriminate.
  cbn [app] in D. change (find_loop t (e :: es) 0 1 find0) with (find_loop t (e :: es) (total (expand [])) (1 + len (expand [])) find0).
  rewrite D. destruct (N.eqb_spec t (total (expand (e :: es)))); [lia|]. reflexivity.
Qed.
Print Assumptions C85_after_end.
Example C85_after_end_case : total (expand (st_entries ex_ts)) < 91 < 9223372036854775808 /\
  desc_at ex_ts (mkStsc 0 0 [(1, 3, 7)] 0 0) 91 = Err MP4BadParamErr.
Proof. split; vm_compute; [split|]; reflexivity. Qed.
Theorem C85_at_end_refuted :
  total (expand (st_entries ex_ts)) = 90 /\ desc_run ex_ts (mkStsc 0 0 [(1, 3, 7)] 0 0) [DTime 90] = [Ok (Some 7)] /\
  (forall d, ~ describes (expand (st_entries ex_ts)) (chunks_of [(1, 3, 7)] 3) 90 d).
Proof.
  split; [reflexivity|]. split; [vm_compute; reflexivity|].
  intros d (k & (H & x & A & B) & _). pose proof (dts_succ (expand (st_entries ex_ts)) k x H A) as S. rewrite <- S in B.
  assert (dts (expand (st_entries ex_ts)) (k + 1) <= total (expand (st_entries ex_ts))) by apply total_firstn_le.
  change (total (expand (st_entries ex_ts))) with 90 in *. lia.
Qed.
Print Assumptions C85_at_end_refuted.

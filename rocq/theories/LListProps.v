(* LListProps.v -- C01 *)
From Verif Require Import Base LListModel LListSpec LListProofs.

(* C01. Every history of calls on a fresh list with fewer than 2^32
   insertions runs without undefined behaviour, and every answer is the one
   the plain sequence gives. *)
Theorem C01_list_behaves_as_sequence :
  forall os : list lop,
    inserts os < 4294967296 ->
    lrun (heap0, makeLinkedList) os = Ok (seq_run [] os).
Proof.
  intros os H. eapply lrun_refines; [apply rep_init | exact H].
Qed.
Print Assumptions C01_list_behaves_as_sequence.

(* a non-trivial history meets the hypothesis: inserts at both ends, cached
   lookups backwards and forwards, deletion of first, middle and last *)
Example C01_case :
  let os := [LAdd 10; LAdd 20; LAdd 30; LGet 2; LGet 0; LPrepend 5; LGet 3; LDelete 1;
             LGet 1; LDelete 2; LCount; LAdd 40; LGet 2; LDelete 0; LDelete 0; LDelete 0; LGet 0; LAdd 7; LGet 0] in
  inserts os < 4294967296 /\
  lrun (heap0, makeLinkedList) os =
   Ok [LDone; LDone; LDone; LVal 30; LVal 10; LDone; LVal 30; LDone; LVal 20; LDone; LVal 2;
       LDone; LVal 40; LDone; LDone; LDone; LErr MP4BadParamErr; LDone; LVal 7].
Proof. vm_compute. split; reflexivity. Qed.

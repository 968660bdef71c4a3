(* DescAtSpec.v -- the sample description in force at a time. *)
From Verif Require Import Base SttsSpec ChunkSpec.

(* [d] describes the sample that is decoded at time [t]; [l]: the durations of
   the samples, [ch]: the chunks with their sizes and descriptions *)
Definition describes (l : list N) (ch : list chunk) (t d : N) : Prop :=
  exists k, covers l k t /\ description_of_sample ch k = Some d.
(* [k] is the first sample of a chunk *)
Definition starts_chunk (ch : list chunk) (k : N) : Prop :=
  exists c d, chunk_of_sample ch k = Some (c, k, d).

(* questions put to one media, in any order *)
Inductive dop :=
| DTime (t : N)      (* the description in force at a time *)
| DSample (n : N).   (* the chunk of a sample: moves the remembered position *)
Definition dop_ok (l : list N) (o : dop) : Prop :=
  match o with DTime t => t < total l | DSample n => 1 <= n < 4294967296 end.

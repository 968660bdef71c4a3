(* MediaFilesSpec.v -- where the bytes of a sample should come from. *)
From Verif Require Import Base TextSpec SizeSpec ChunkSpec EntryModel EntrySpec ElsewhereModel ElsewhereSpec SaveSpec.

(* the file a data reference leads to: the one the movie was read from, or
   the one its location names *)
Inductive leads (e : around) : dspec -> list N -> Prop :=
| LeadsHere f dir : own e = Some (f, dir) -> leads e Here f
| LeadsTo d loc f : d <> Here -> place d = cstr loc -> text loc -> located e loc f -> leads e d f.
(* its location is a name of its own and there is no file of this name *)
Definition missing (e : around) (d : dspec) : Prop :=
  exists loc, d <> Here /\ place d = cstr loc /\ text loc /\ ~ scheme loc /\ (forall q dir, own e <> Some (q, Some dir)) /\ disk e loc = None.

(* what a media says: chunks, sizes of the samples, offsets of the chunks, the
   data reference of each description, and the data references *)
Record told := mkTold { t_chunks : list chunk; t_sizes : list N; t_offs : list N; t_descs : list N; t_refs : list dspec }.
(* [d] is the description of sample [n] and [r] its data reference *)
Definition described (t : told) (n d : N) (r : dspec) : Prop :=
  exists k, description_of_sample (t_chunks t) n = Some d /\ d <> 0 /\ nthN (t_descs t) (d - 1) = Some k /\ k <> 0 /\ nthN (t_refs t) (k - 1) = Some r.
(* place and size of sample [n] in its file *)
Definition lies (t : told) (n o s : N) : Prop :=
  exists c fs d b, chunk_of_sample (t_chunks t) n = Some (c, fs, d) /\ nthN (t_offs t) (c - 1) = Some b /\
    nthN (t_sizes t) (n - 1) = Some s /\ o = b + size_between (t_sizes t) fs n.
(* the first sample of a chunk after the first *)
Definition later_start (t : told) (n : N) : Prop := n <> 1 /\ exists c d, chunk_of_sample (t_chunks t) n = Some (c, n, d).

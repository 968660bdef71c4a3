(* TrackSpec.v -- what track ids, track references and track groups promise. *)
From Verif Require Import Base AtomModel BoxModel BoxSpec HeaderSpec TrackModel.

(* a track is created with the next id of the movie, or with a chosen one *)
Inductive creation := Automatic | Chosen (id : N).
Definition create (m : tmovie) (c : creation) : res tmovie :=
  match c with Automatic => new_track m | Chosen id => new_track_with m id end.
(* a history of calls; those which fail change nothing *)
Definition attempt {S} (s : S) (r : res S) : S := match r with Ok s' => s' | _ => s end.
Definition creations (m : tmovie) (cs : list creation) : tmovie := fold_left (fun m c => attempt m (create m c)) cs m.
(* ids differ from each other and from 0, and are below the next id *)
Definition sound (m : tmovie) : Prop :=
  NoDup (tm_ids m) /\ Forall (fun id => 0 < id < tm_next m) (tm_ids m) /\ 0 < tm_next m < 4294967296.

(* references: (type, id) pairs in the order they were added *)
Definition ref_adds (r : trefs) (os : list (N * N)) : trefs :=
  fold_left (fun r o => match ref_add r (fst o) (snd o) with Ok (_, r') => r' | _ => r end) os r.
Definition of_type (ty : N) (os : list (N * N)) : list N := map snd (filter (fun o => fst o =? ty) os).
(* each value once, in the order of first occurrences *)
Definition once (l : list N) : list N := fold_left (fun a x => if existsb (N.eqb x) a then a else a ++ [x]) l [].
Definition ref_ok (o : N * N) : Prop := 0 < snd o < 4294967296.

(* groups: (type, id) pairs *)
Definition group_adds (r : trgrs) (os : list (N * N)) : trgrs :=
  fold_left (fun r o => attempt r (group_add r (snd o) (fst o))) os r.

(* ISO/IEC 14496-12, 8.3.3 and 8.3.4 *)
Definition tref1_layout : layout tref1 := mkLayout x_type (fun x => flat_map be32 (x_ids x)) (fun x => x)
  (fun x => plain_type (x_type x) /\ Forall (fun i => i < 4294967296) (x_ids x)).
Definition tref_layout : layout (list tref1) := mkLayout (fun _ => code "tref")
  (flat_map (fun x => box (x_type x) (l_body tref1_layout x))) (fun l => l) (Forall (l_ok tref1_layout)).
Definition trgr1_layout : layout trgr1 := mkLayout g_type (fun x => full (g_ver x) (g_flags x) ++ be32 (g_id x)) (fun x => x)
  (fun x => plain_type (g_type x) /\ full_ok (g_ver x) (g_flags x) /\ g_id x < 4294967296).
Definition trgr_layout : layout (list trgr1) := mkLayout (fun _ => code "trgr")
  (flat_map (fun x => box (g_type x) (l_body trgr1_layout x))) (fun l => l) (Forall (l_ok trgr1_layout)).

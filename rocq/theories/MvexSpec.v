(* MvexSpec.v -- what a movie extends box holds after a history of calls
   (ISO/IEC 14496-12, 8.8). *)
From Verif Require Import Base BoxSpec BoxModel AtomModel HeaderModel CttsModel SmallModel MvexModel.

(* the defaults and the composition properties given, in order; properties are
   refused before the first defaults *)
Record defs := mkDefs { p_id : N; p_dur : N; p_size : N; p_sync : N; p_pad : N }.
Record comp := mkComp { q_id : N; q_shift : Z; q_least : Z; q_great : Z; q_start : Z; q_end : Z }.
Fixpoint given (cs : list mcall) : list defs :=
  match cs with
  | [] => []
  | SetDefaults id dur size sync pad :: r => mkDefs id dur size sync pad :: given r
  | SetComposition _ _ _ _ _ _ :: r => given r
  end.
Fixpoint taken (started : bool) (cs : list mcall) : list comp :=
  match cs with
  | [] => []
  | SetDefaults _ _ _ _ _ :: r => taken true r
  | SetComposition id a b c d e :: r => if started then mkComp id a b c d e :: taken started r else taken started r
  end.

(* sample flags: three bits of padding above the bit for "not a sync sample" *)
Definition sample_flags (p : defs) : N := p_pad p mod 8 * 131072 + (if p_sync p =? 0 then 65536 else 0).
Definition trex_bytes (entry : N) (p : defs) : list N :=
  box (code "trex") (full 0 0 ++ be32 (p_id p) ++ be32 entry ++ be32 (p_dur p) ++ be32 (p_size p) ++ be32 (sample_flags p)).
Definition trep_bytes (q : comp) : list N :=
  box (code "trep") (full 0 0 ++ be32 (q_id q) ++
    box (code "cslg") (full 0 0 ++ be32 (u32_of (q_shift q)) ++ be32 (u32_of (q_least q)) ++ be32 (u32_of (q_great q)) ++
                       be32 (u32_of (q_start q)) ++ be32 (u32_of (q_end q)))).
(* [entry]: the sample entry index in the box of each track *)
Definition mvex_bytes (entry : N -> N) (ps : list defs) (qs : list comp) : list N :=
  box (code "mvex") (flat_map (fun p => trex_bytes (entry (p_id p)) p) ps ++ flat_map trep_bytes qs).

(* the arguments are of their C types *)
Definition i32 (z : Z) : Prop := (-2147483648 <= z < 2147483648)%Z.
Definition mcall_ok (c : mcall) : Prop :=
  match c with
  | SetDefaults id dur size sync pad => id < 4294967296 /\ dur < 4294967296 /\ size < 4294967296 /\ pad < 256
  | SetComposition id a b c d e => id < 4294967296 /\ i32 a /\ i32 b /\ i32 c /\ i32 d /\ i32 e
  end.
(* the boxes of a mvex that was made, and of one that was read *)
Definition trex_of (entry : N) (p : defs) : trex := mkTrex 0 0 (p_id p) entry (p_dur p) (p_size p) (sample_flags p).
Definition trep_of (q : comp) : trep cslg :=
  mkTrep 0 0 (q_id q) [ALeaf cslg (mkCslg 0 0 (q_shift q) (q_least q) (q_great q) (q_start q) (q_end q) 0)].
(* the tracks of a movie: (id, current sample entry, duration of the media) *)
Definition has_media (ts : list (N * N * N)) (p : defs) : Prop := p_id p <> 0 /\ exists e d, In (p_id p, e, d) ts.
Definition unique (ts : list (N * N * N)) : Prop := NoDup (map (fun t => fst (fst t)) ts).

(* EditSpec.v -- what an edit list says, after ISO/IEC 14496-12, 8.6.6. *)
From Verif Require Import Base AtomModel BoxModel BoxSpec EditModel.

(* sum of the durations of some edits *)
Definition durs (l : list edit) : N := fold_right (fun e a => e_dur e + a) 0 l.

(* [at_time l t k i]: the movie time t lies in segment i (from 0), k ticks
   after the start of the segment *)
Inductive at_time : list edit -> N -> N -> nat -> Prop :=
| at_here e r t : t < e_dur e -> at_time (e :: r) t t 0
| at_next e r t k i : at_time r t k i -> at_time (e :: r) (e_dur e + t) k (S i).

(* the edits after an initial delay *)
Definition after_delay (l : list edit) : list edit :=
  match l with e :: r => if e_empty e then r else l | [] => [] end.

(* byte layout; the rate is a 16.16 fixed point number *)
Definition elst_layout : layout elst := mkLayout (fun _ => code "elst")
  (fun s => full (el_ver s) (el_flags s) ++ be32 (len (el_edits s)) ++
    flat_map (fun e =>
      (if el_ver s =? 1 then be64 (e_dur e) ++ be64 (u64_of (e_time e)) else be32 (e_dur e) ++ be32 (u32_of (e_time e))) ++
      be16 (e_rate e) ++ be16 0) (el_edits s))
  (* a reader takes an edit with negative media time as empty *)
  (fun s => mkElst (el_ver s) (el_flags s)
     (map (fun e => mkEdit (e_dur e) (e_time e) (e_rate e) (e_time e <? 0)%Z) (el_edits s)))
  (fun s => full_ok (el_ver s) (el_flags s) /\
    Forall (fun e => e_rate e < 65536 /\
      if el_ver s =? 1
      then e_dur e < 18446744073709551616 /\ (-9223372036854775808 <= e_time e < 9223372036854775808)%Z
      else e_dur e < 4294967296 /\ (-2147483648 <= e_time e < 2147483648)%Z) (el_edits s)).

(* calls that append media to a track *)
Record insertion := mkIns { i_start : Z; i_media : Z; i_dur : N; i_rate : Z }.

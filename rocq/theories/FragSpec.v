(* FragSpec.v -- the layouts of the boxes of movie fragments and what a reader of a fragment must be told. *)
From Verif Require Import Base AtomModel BoxModel HeaderModel BoxSpec FragModel.

(* ISO/IEC 14496-12, 8.8.7 and 8.8.8 *)
Definition opt (b : bool) (bs : list N) : list N := if b then bs else [].
Definition pick (b : bool) (n : N) : N := if b then n else 0.
Definition tfhd_layout : layout tfhd := mkLayout (fun _ => code "tfhd")
  (fun t => let has := N.testbit (fh_flags t) in
     full (fh_ver t) (fh_flags t) ++ be32 (fh_id t) ++
     opt (has 0) (be64 (fh_base t)) ++ opt (has 1) (be32 (fh_desc t)) ++ opt (has 3) (be32 (fh_dur t)) ++
     opt (has 4) (be32 (fh_size t)) ++ opt (has 5) (be32 (fh_sflags t)))
  (fun t => let has := N.testbit (fh_flags t) in
     mkTfhd (fh_ver t) (fh_flags t) (fh_id t) (pick (has 0) (fh_base t)) (pick (has 1) (fh_desc t))
       (pick (has 3) (fh_dur t)) (pick (has 4) (fh_size t)) (pick (has 5) (fh_sflags t)))
  (fun t => full_ok (fh_ver t) (fh_flags t) /\ fh_id t < 4294967296 /\ fh_base t < 18446744073709551616 /\
     fh_desc t < 4294967296 /\ fh_dur t < 4294967296 /\ fh_size t < 4294967296 /\ fh_sflags t < 4294967296).

Definition rent_ok (e : rent) : Prop :=
  e_dur e < 4294967296 /\ e_size e < 4294967296 /\ e_flags e < 4294967296 /\ e_cto e < 4294967296.
(* bits of the flags for which the standard names no field *)
Definition unknown_bits : list N := [1; 3; 4; 5; 6; 7; 12; 13; 14; 15].
Definition trun_layout : layout trun := mkLayout (fun _ => code "trun")
  (fun t => let has := N.testbit (tr_flags t) in
     full (tr_ver t) (tr_flags t) ++ be32 (len (tr_ents t)) ++
     opt (has 0) (be32 (tr_off t)) ++ opt (has 2) (be32 (tr_first t)) ++
     flat_map (fun e => opt (has 8) (be32 (e_dur e)) ++ opt (has 9) (be32 (e_size e)) ++
                        opt (has 10) (be32 (e_flags e)) ++ opt (has 11) (be32 (e_cto e))) (tr_ents t))
  (fun t => let has := N.testbit (tr_flags t) in
     mkTrun (tr_ver t) (tr_flags t) (pick (has 0) (tr_off t)) (pick (has 2) (tr_first t))
       (map (fun e => mkRent (pick (has 8) (e_dur e)) (pick (has 9) (e_size e))
                             (pick (has 10) (e_flags e)) (pick (has 11) (e_cto e))) (tr_ents t)))
  (fun t => full_ok (tr_ver t) (tr_flags t) /\ len (tr_ents t) < 4294967296 /\
     tr_off t < 4294967296 /\ tr_first t < 4294967296 /\ Forall rent_ok (tr_ents t) /\
     Forall (fun b => N.testbit (tr_flags t) b = false) unknown_bits).

(* ------------------------------------------------------------------ *)
(* What one sample of a run says: duration, size, composition offset, and the flags: bit 16 set
   when the sample is not a sync sample, bits 17-19 padding, bits 20-25 dependencies. *)
Definition is_sync (e : rent) : bool := negb (N.testbit (e_flags e) 16).
Definition padding (e : rent) : N := (e_flags e / 131072) mod 8.
Definition depends (e : rent) : N := (e_flags e / 1048576) mod 64.

(* the numbers, from 1, of the elements with a property *)
Definition numbers {A} (p : A -> bool) (l : list A) : list N :=
  map (fun x => N.of_nat (fst x)) (filter (fun x => p (snd x)) (combine (seq 1 (length l)) l)).
(* what the reader of a run passes on says the same as the samples of the run:
   nothing said about offsets, padding or dependencies means 0, nothing said about sync samples means
   that all of them are; padding, dependencies and sync samples are mentioned only when needed *)
Record tells (r : sref) (l : list rent) : Prop := {
  k_durs : r_durs r = map e_dur l;
  k_sizes : r_sizes r = map e_size l;
  k_ctos : match r_ctos r with Some c => c = map e_cto l | None => Forall (fun e => e_cto e = 0) l end;
  k_sync : match r_sync r with Some s => s = numbers is_sync l /\ Exists (fun e => is_sync e = false) l | None => Forall (fun e => is_sync e = true) l end;
  k_pads : match r_pads r with Some s => s = map padding l /\ Exists (fun e => padding e <> 0) l | None => Forall (fun e => padding e = 0) l end;
  k_deps : match r_deps r with Some s => s = map depends l /\ Exists (fun e => depends e <> 0) l | None => Forall (fun e => depends e = 0) l end }.

(* the runs of a fragment as they are built: 32 bit fields, at least one
   sample in each, at most 2^28 (so that a run fits in a box) *)
Definition run_ok (r : trun) : Prop :=
  tr_ver r < 256 /\ tr_off r < 4294967296 /\ tr_ents r <> [] /\ len (tr_ents r) < 268435455 /\ Forall rent_ok (tr_ents r).
Definition head_ok (t : tfhd) : Prop :=
  fh_ver t < 256 /\ fh_id t < 4294967296 /\ fh_base t < 18446744073709551616 /\ fh_desc t < 4294967296.

(* TrafSpec.v -- what a user sees of the fragment of a track while it is
   written: one sequence of samples, whatever the calls that added them. *)
From Verif Require Import Base GroupModel GroupSpec FragModel MediaSpec MoofModel TrafModel.

(* a sample as the fragment keeps it: the difference flag is bit 16 *)
Definition entry_of (s : smp) : rent :=
  mkRent (m_dur s) (len (m_bytes s)) (if m_sync s then 0 else 65536) (u32_of (m_off s)).
(* the word of flags with bits 20 to 27 replaced by a byte *)
Definition with_mark (g x : N) : N := g mod 1048576 + 1048576 * (x + 256 * (g / 268435456)).
Definition marked (e : rent) (x : N) : rent := mkRent (e_dur e) (e_size e) (with_mark (e_flags e) x) (e_cto e).
Fixpoint mark_at (i : nat) (d : list N) (l : list rent) : list rent :=
  match l, i, d with
  | e :: r, S k, _ => e :: mark_at k d r
  | e :: r, O, x :: d' => marked e x :: mark_at O d' r
  | _, _, _ => l
  end.

(* samples; for each type of group used, the index of every sample; where the
   data are: None nothing yet, Some true in the fragment, Some false elsewhere *)
Record sfrag := mkSfrag { z_ents : list rent; z_map : N -> option (list N); z_here : option bool }.
Definition sfrag0 : sfrag := mkSfrag [] (fun _ => None) None.
Inductive scall :=
| SAdd (here : bool) (ss : list smp)
| SMap (ty g : N) (i : Z) (n : N) | SGroup (ty n : N) | SDeps (i : Z) (d : list N).
Inductive sout := SDone | SErr (e : Z) | SVal (v : N).
Definition start_of (z : sfrag) (i : Z) : Z := first_of (len (z_ents z)) i.
Definition fits_in (z : sfrag) (i : Z) (n : N) : bool := (start_of z i + Z.of_N n <=? Z.of_N (len (z_ents z)))%Z.
Definition map_of (z : sfrag) (ty : N) : list N :=
  match z_map z ty with Some l => l | None => repeat 0 (length (z_ents z)) end.
Definition sstep (z : sfrag) (c : scall) : sfrag * sout :=
  match c with
  | SAdd here ss =>
      match z_here z with
      | Some h => if Bool.eqb h here
                  then (mkSfrag (z_ents z ++ map entry_of ss)
                          (fun ty => option_map (fun l => l ++ repeat 0 (length ss)) (z_map z ty)) (Some here), SDone)
                  else (z, SErr MP4BadDataErr)
      | None => (mkSfrag (z_ents z ++ map entry_of ss)
                   (fun ty => option_map (fun l => l ++ repeat 0 (length ss)) (z_map z ty)) (Some here), SDone)
      end
  | SMap ty g i n =>
      let ok := fits_in z i n in
      let l := if ok then fill (map_of z ty) (Z.to_N (start_of z i)) n g else map_of z ty in
      (mkSfrag (z_ents z) (fun t => if t =? ty then Some l else z_map z t) (z_here z),
       if ok then SDone else SErr MP4BadParamErr)
  | SGroup ty n =>
      (z, if n =? 0 then SErr MP4BadParamErr
          else match z_map z ty with Some l => SVal (nth (N.to_nat (n - 1)) l 0) | None => SErr MP4BadParamErr end)
  | SDeps i d =>
      if fits_in z i (len d)
      then (mkSfrag (mark_at (Z.to_nat (start_of z i)) d (z_ents z)) (z_map z) (z_here z), SDone)
      else (z, SErr MP4BadParamErr)
  end.
(* positions before the first sample are excluded (C84_before_first_refuted,
   C24_before_start_refuted), ends from 2^32 on, and fragments of 2^28 samples *)
Definition position_ok (z : sfrag) (i : Z) (n : N) : Prop :=
  (0 <= start_of z i)%Z /\ (i < 2147483648)%Z /\ (start_of z i + Z.of_N n < 4294967296)%Z.
Definition scall_ok (z : sfrag) (c : scall) : Prop :=
  match c with
  | SAdd _ ss => len (z_ents z) + len ss < 268435455
  | SMap ty g i n => position_ok z i n
  | SGroup _ _ => True
  | SDeps i d => position_ok z i (len d) /\ bytes d
  end.
Fixpoint srun (z : sfrag) (cs : list scall) : sfrag * list sout :=
  match cs with
  | [] => (z, [])
  | c :: r => let '(z1, x) := sstep z c in let '(z2, xs) := srun z1 r in (z2, x :: xs)
  end.
Fixpoint scalls_ok (z : sfrag) (cs : list scall) : Prop :=
  match cs with [] => True | c :: r => scall_ok z c /\ scalls_ok (fst (sstep z c)) r end.

(* the call of the API that says it. By reference, only samples that are all
   sync samples without composition offsets can be added
   (C84_reference_sync_refuted). *)
Definition says (c : fcall) (s : scall) : Prop :=
  match c, s with
  | CAdd off b, SAdd true ss =>
      describes b ss /\ b_entry b = None /\ b_pads b = None /\ (forall l, b_offs b = Some l -> len l = len ss) /\
      len (flat_map m_bytes ss) < 4294967296 /\ off < 4294967296
  | CRef pos b, SAdd false ss =>
      describes b ss /\ b_entry b = None /\ b_pads b = None /\ b_offs b = None /\ b_sync b = None
  | CMap ty g i n _, SMap ty' g' i' n' => ty = ty' /\ g = g' /\ i = i' /\ n = n'
  | CGroup ty n, SGroup ty' n' => ty = ty' /\ n = n'
  | CDeps i d, SDeps i' d' => i = i' /\ d = d'
  | _, _ => False
  end.
Definition out_of (r : res (option N)) : option sout :=
  match r with Ok None => Some SDone | Ok (Some v) => Some (SVal v) | Err e => Some (SErr e) | UB => None end.
(* the samples of a fragment, through all its runs *)
Definition frag_ents (t : traf) : list rent := flat_map tr_ents (f_runs t).
(* 8.8.8: where the data of a run are, the offset being signed *)
Definition located (h : tfhd) (r : trun) : N := w64 (fh_base h + u64_of (s32_of (tr_off r))).

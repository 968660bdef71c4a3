(* TrafModel.v -- a track's part of the fragment being written: samples added
   with their data or by reference, sample groups and dependency marks. *)
From Verif Require Import Base AtomModel BoxModel HeaderModel AuxModel GroupModel FragModel MediaSpec MediaModel MoofModel.

(* MP4TrackFragmentAtom with samples_use_mdat: 0 nothing yet, 1 samples with
   data, 2 samples by reference *)
Record wfrag := mkWfrag { wf_traf : traf; wf_mode : N }.
Definition set_maps (t : traf) (l : list sbgp) : traf :=
  mkTraf (f_hdr t) (f_time t) (f_saiz t) (f_saio t) (f_runs t) (f_sgpd t) l.
Definition set_runs (t : traf) (l : list trun) : traf :=
  mkTraf (f_hdr t) (f_time t) (f_saiz t) (f_saio t) l (f_sgpd t) (f_sbgp t).

(* the loop counting the samples of all runs in u32, TrackFragmentAtom.c:873-881, 929-937 *)
Definition frag_count (rs : list trun) : N := fold_left (fun a r => w32 (a + len (tr_ents r))) rs 0.

(* addSampleGroups, TrackFragmentAtom.c:110-133, after the run has been
   added, 215-219 and 303-307 *)
Definition push_run (t : traf) (r : trun) : res traf :=
  do l <- add_each (f_sbgp t) (len (tr_ents r)); Ok (set_maps (add_run_to t r) l).

(* addSamples, TrackFragmentAtom.c:135-224; [off]: the data already in the
   mdat. The mdat itself and trex->baseMediaDecodeTime: see MoofModel. *)
Definition traf_samples (signed : bool) (w : wfrag) (off : N) (b : mbat) : res wfrag :=
  match b_entry b with
  | Some _ => Err MP4BadDataErr
  | None =>
      if (wf_mode w =? 0) || (wf_mode w =? 1) then
        do r <- frag_run signed off b;
        do t <- push_run (wf_traf w) r;
        Ok (mkWfrag t 1)
      else Err MP4BadDataErr
  end.

(* one sample of addSampleReference, TrackFragmentAtom.c:278-290. Padding
   counts and composition offsets are taken from the memory of the handle
   itself instead of what it refers to: undefined. *)
Definition ref_entry (b : mbat) (i : nat) : res rent :=
  do d <- pick_at (b_durs b) i;
  do s <- pick_at (b_sizes b) i;
  Ok (mkRent d s (match b_sync b with None => 0 | Some _ => 65536 end) 0).
(* addSampleReference, TrackFragmentAtom.c:226-314. The first sync sample
   number is looked for at index -1 of the list: undefined. *)
Definition ref_run (signed : bool) (off : N) (b : mbat) : res trun :=
  match b_pads b, b_offs b with
  | None, None =>
      do es <- mapm (ref_entry b) (seq 0 (N.to_nat (b_count b)));
      match b_sync b with
      | None | Some [] => Ok (mkTrun (b2n signed) 0 off 0 es)
      | Some _ => UB
      end
  | _, _ => if b_count b =? 0 then Ok (mkTrun (b2n signed) 0 off 0 []) else UB
  end.
Definition set_base (h : tfhd) (p : N) : tfhd :=
  mkTfhd (fh_ver h) (fh_flags h) (fh_id h) p (fh_desc h) (fh_dur h) (fh_size h) (fh_sflags h).
Definition set_hdr (t : traf) (h : tfhd) : traf :=
  mkTraf (Some h) (f_time t) (f_saiz t) (f_saio t) (f_runs t) (f_sgpd t) (f_sbgp t).
Definition traf_refs (signed : bool) (w : wfrag) (pos : N) (b : mbat) : res wfrag :=
  match b_entry b with
  | Some _ => Err MP4BadDataErr
  | None =>
      if (wf_mode w =? 0) || (wf_mode w =? 2) then
        match f_hdr (wf_traf w) with
        | None => UB
        | Some h =>
            let h' := if fh_base h =? 0 then set_base h pos else h in
            do r <- ref_run signed (w32 (sub64 pos (fh_base h'))) b;
            do t <- push_run (set_hdr (wf_traf w) h') r;
            Ok (mkWfrag t 2)
        end
      else Err MP4BadDataErr
  end.

(* mapSamplestoGroup, TrackFragmentAtom.c:848-893; an error of the inner
   addSamples is overwritten. A refused request leaves the new map behind. *)
Definition traf_map (t : traf) (ty g : N) (i : Z) (n : N) (k : kind) : res unit * traf :=
  let c := frag_count (f_runs t) in
  match match find_by sg_type ty (f_sbgp t) with
        | Some s => Ok (f_sbgp t, s)
        | None => do s <- (if 0 <? c then sbgp_addSamples (sbgp_new k ty true) c else Ok (sbgp_new k ty true));
                  Ok (f_sbgp t ++ [s], s)
        end with
  | Ok (l, s) =>
      match sbgp_map s g i n with
      | Ok s' => (Ok tt, set_maps t (put_by sg_type ty s' l))
      | Err e => (Err e, set_maps t l)
      | UB => (UB, t)
      end
  | Err e => (Err e, t)
  | UB => (UB, t)
  end.
(* getSampleGroupMap, TrackFragmentAtom.c:895-913 *)
Definition traf_group (t : traf) (ty n : N) : res N :=
  match find_by sg_type ty (f_sbgp t) with Some s => sbgp_get s n | None => Err MP4BadParamErr end.

(* the store of one dependency byte, TrackFragmentAtom.c:960-961 *)
Definition put_mark (e : rent) (x : N) : rent :=
  mkRent (e_dur e) (e_size e) (N.lor (N.land (e_flags e) 4027580415) (N.shiftl x 20)) (e_cto e).
(* the loops of setSampleDependency, TrackFragmentAtom.c:948-964: [pos] is
   fragment_pos, [d] the bytes not yet used *)
Fixpoint mark_ents (pos : Z) (d : list N) (l : list rent) : Z * list N * list rent :=
  match l, d with
  | e :: r, x :: d' =>
      if (0 <=? pos)%Z then let '(p, q, m) := mark_ents (pos + 1) d' r in (p, q, put_mark e x :: m)
      else let '(p, q, m) := mark_ents (pos + 1) d r in (p, q, e :: m)
  | _, _ => (pos, d, l)
  end.
Fixpoint mark_runs (pos : Z) (d : list N) (rs : list trun) : list trun :=
  match rs with
  | [] => []
  | r :: q =>
      let '(p, d', es) := mark_ents pos d (tr_ents r) in
      mkTrun (tr_ver r) (tr_flags r) (tr_off r) (tr_first r) es :: mark_runs p d' q
  end.
(* setSampleDependency, TrackFragmentAtom.c:915-971: the index becomes an s32
   again after the u32 addition, the bound is checked in u32 *)
Definition traf_deps (t : traf) (i : Z) (d : list N) : res traf :=
  let c := frag_count (f_runs t) in
  let i' := if (i <? 0)%Z then s32_of (u32_of (Z.of_N c + i)) else i in
  if c <? w32 (u32_of i' + len d) then Err MP4BadParamErr
  else if (i' =? -2147483648)%Z then UB
  else Ok (set_runs t (mark_runs (- i') d (f_runs t))).

(* the calls of a user while a fragment is open *)
Inductive fcall :=
| CAdd (off : N) (b : mbat) | CRef (pos : N) (b : mbat)
| CMap (ty g : N) (i : Z) (n : N) (k : kind) | CGroup (ty n : N) | CDeps (i : Z) (d : list N).
Definition opt_res (w : wfrag) (r : res wfrag) : wfrag * res (option N) :=
  match r with Ok w' => (w', Ok None) | Err e => (w, Err e) | UB => (w, UB) end.
Definition traf_step (signed : bool) (w : wfrag) (c : fcall) : wfrag * res (option N) :=
  match c with
  | CAdd off b => opt_res w (traf_samples signed w off b)
  | CRef pos b => opt_res w (traf_refs signed w pos b)
  | CMap ty g i n k =>
      let '(r, t) := traf_map (wf_traf w) ty g i n k in
      (mkWfrag t (wf_mode w), match r with Ok _ => Ok None | Err e => Err e | UB => UB end)
  | CGroup ty n => (w, match traf_group (wf_traf w) ty n with Ok v => Ok (Some v) | Err e => Err e | UB => UB end)
  | CDeps i d =>
      match traf_deps (wf_traf w) i d with
      | Ok t => (mkWfrag t (wf_mode w), Ok None) | Err e => (w, Err e) | UB => (w, UB) end
  end.
Fixpoint traf_run (signed : bool) (w : wfrag) (cs : list fcall) : wfrag * list (res (option N)) :=
  match cs with
  | [] => (w, [])
  | c :: r => let '(w1, x) := traf_step signed w c in let '(w2, xs) := traf_run signed w1 r in (w2, x :: xs)
  end.
(* the fragment of a track when it is opened, MoofModel.traf_start *)
Definition wfrag_start (k : wtrk) : wfrag := mkWfrag (traf_start k) 0.

(* SttsModel.v -- the time-to-sample table (TimeToSampleAtom.c) and the media
   calls that search it (MP4Media.c). The entry list is a plain list: the
   linked list behaves as one (C01). Allocation does not fail. *)
From Verif Require Import Base AtomModel BoxModel SttsSpec.

(* struct sttsEntry, TimeToSampleAtom.c:30-34: (sampleCount, sampleDuration);
   MP4TimeToSampleAtom, MP4Atoms.h:785-802. currentEntry is NULL for an empty
   list and otherwise the last entry: every assignment to it (lines 106, 413)
   follows the append of that entry. *)
Record stts := mkStts {
  st_ver : N; st_flags : N;
  st_entries : list (N * N);
  st_found : bool;       (* foundEntry != NULL *)
  st_fnum : N;           (* foundEntryNumber, u32 *)
  st_fsn : N;            (* foundEntrySampleNumber, u32 *)
  st_ftime : N }.        (* foundEntryTime, u64 *)

(* MP4CreateTimeToSampleAtom, TimeToSampleAtom.c:422-450 *)
Definition stts_new : stts := mkStts 0 0 [] false 0 0 0.
Definition with_entries (s : stts) (es : list (N * N)) : stts :=
  mkStts (st_ver s) (st_flags s) es (st_found s) (st_fnum s) (st_fsn s) (st_ftime s).

(* getTotalDuration, TimeToSampleAtom.c:67-90 *)
Definition stts_total (s : stts) : N :=
  fold_left (fun t e => w32 (t + w32 (fst e * snd e))) (st_entries s) 0.

(* addSample, TimeToSampleAtom.c:92-117, on the entry list *)
Fixpoint add_run (es : list (N * N)) (d : N) : list (N * N) :=
  match es with
  | [] => [(1, d)]
  | [(c, d')] => if d' =? d then [(w32 (c + 1), d')] else [(c, d'); (1, d)]
  | e :: r => e :: add_run r d
  end.

(* the loop of addSamples, TimeToSampleAtom.c:130-138 *)
Fixpoint add_all (n i : nat) (pick : nat -> option N) (es : list (N * N)) : res (list (N * N)) :=
  match n with
  | O => Ok es
  | S m => match pick i with None => UB | Some d => add_all m (S i) pick (add_run es d) end
  end.

(* addSamples, TimeToSampleAtom.c:119-143. [durs] are the u32 values in the
   handle (handle sizes not a multiple of 4 are not modelled). Reading past
   the handle is UB. *)
Definition stts_addSamples (s : stts) (count : N) (durs : list N) : res stts :=
  do es <- add_all (N.to_nat count) 0
             (fun i => if 4 <? 4 * len durs then nth_error durs i else nth_error durs 0) (st_entries s);
  Ok (with_entries s es).

(* extendLastSampleDuration, TimeToSampleAtom.c:145-168; currentEntry NULL is
   dereferenced *)
Fixpoint extend_run (es : list (N * N)) (d : N) : res (list (N * N)) :=
  match es with
  | [] => UB
  | [(c, d')] =>
      if c =? 1 then Ok [(c, w32 (d' + d))]
      else Ok (add_run [(sub32 c 1, d')] (w32 (d' + d)))
  | e :: r => do r' <- extend_run r d; Ok (e :: r')
  end.
Definition stts_extend (s : stts) (d : N) : res stts :=
  do es <- extend_run (st_entries s) d; Ok (with_entries s es).

(* the loop of getTimeForSampleNumber, TimeToSampleAtom.c:206-228.
   result: (sampleCTS, sampleDuration, pe != NULL, i, entrySampleNumber, entryTime) *)
Fixpoint time_loop (n : N) (es : list (N * N)) (seen : bool) (i sn tm : N)
  : (N * N) * (bool * N * N * N) :=
  match es with
  | [] => ((18446744073709551615, 0), (seen, i, sn, tm))
  | (c, d) :: r =>
      if n <? w32 (sn + c)
      then ((w64 (tm + w32 (sub32 n sn * d)), d), (true, i, sn, tm))
      else time_loop n r true (w32 (i + 1)) (w32 (sn + c)) (w64 (tm + w32 (c * d)))
  end.

(* getTimeForSampleNumber, TimeToSampleAtom.c:170-236; the duration is
   returned through an s32 *)
Definition stts_time (s : stts) (n : N) : (N * Z) * stts :=
  let '(i, sn, tm) :=
    if st_found s && (st_fsn s <? n) then (st_fnum s, st_fsn s, st_ftime s) else (0, 1, 0) in
  let '((cts, d), (f, i', sn', tm')) := time_loop n (skipn (N.to_nat i) (st_entries s)) false i sn tm in
  ((cts, s32_of d), mkStts (st_ver s) (st_flags s) (st_entries s) f i' sn' tm').

(* ------------------------------------------------------------------ *)
(* findSamples, TimeToSampleAtom.c:238-337                              *)

Record find := mkFind { f_prior : Z; f_exact : Z; f_next : Z; f_num : N;
                        f_dur : option Z; (* None: the caller's variable is left unset *)
                        f_done : bool }.  (* foundSample *)
Definition find0 : find := mkFind (-1) (-1) (-1) 0 None false.

(* one iteration; the boolean says whether the loop is left (break) *)
Definition find_step (t : N) (tm sn : N) (e : N * N) (o : find) : bool * find :=
  let '(c, d) := e in
  let edur := w32 (d * c) in
  let fin := w64 (tm + edur) in
  let o1 :=
    if tm =? t then
      let o' := mkFind (f_prior o) (s64_of tm) (f_next o) sn (Some (s32_of d)) true in
      if w64 (tm + d) <=? fin
      then (true, mkFind (f_prior o') (f_exact o') (s64_of (w64 (tm + d))) (f_num o') (f_dur o') true)
      else (false, o')
    else if tm <? t then (false, mkFind (s64_of tm) (f_exact o) (f_next o) (f_num o) (f_dur o) (f_done o))
    else (true, mkFind (f_prior o) (f_exact o) (s64_of tm) (f_num o) (f_dur o) (f_done o)) in
  if fst o1 then o1
  else let o := snd o1 in
  if fin <? t then (false, mkFind (s64_of fin) (f_exact o) (f_next o) (f_num o) (f_dur o) (f_done o))
  else if fin =? t then
    (false, mkFind (s64_of (sub64 fin d)) (s64_of fin) (f_next o) (w32 (sn + c)) (Some (s32_of d)) true)
  else
    let best := w32 (sub64 t tm / d) in   (* d <> 0 here: edur > 0 *)
    let o' := if f_done o then o
              else mkFind (s64_of (w64 (tm + w32 (best * d)))) (f_exact o) (f_next o)
                          (w32 (sn + best)) (Some (s32_of d)) true in
    let nextT := w64 (w64 (tm + w32 (best * d)) + d) in
    if nextT <=? fin
    then (true, mkFind (f_prior o') (f_exact o') (s64_of nextT) (f_num o') (f_dur o') (f_done o'))
    else (false, o').
Fixpoint find_loop (t : N) (es : list (N * N)) (tm sn : N) (o : find) : find :=
  match es with
  | [] => o
  | (c, d) :: r =>
      let '(stop, o') := find_step t tm sn (c, d) o in
      if stop then o' else find_loop t r (w64 (tm + w32 (d * c))) (w32 (sn + c)) o'
  end.
Definition stts_find (s : stts) (t : N) : find := find_loop t (st_entries s) 0 1 find0.

(* MP4MediaTimeToSampleNum, MP4Media.c:2014-2100, on the table; composition
   offset lookup left out. Result: (sample number, DTS as u64, duration) *)
Definition media_time_to_sample (s : stts) (t : N) : res (N * N * option Z) :=
  let r := stts_find s t in
  if negb (f_exact r =? -1)%Z then Ok (f_num r, u64_of (f_exact r), f_dur r)
  else
    let dts := u64_of (if negb (f_prior r =? -1)%Z then f_prior r else f_next r) in
    let r2 := stts_find s dts in
    if (dts =? 18446744073709551615) || (f_num r2 =? 0) then Err MP4InternalErr
    else Ok (f_num r2, u64_of (f_exact r2), f_dur r2).

(* MP4GetMediaNextInterestingTime, MP4Media.c:1386-1462 *)
Definition next_interesting (s : stts) (edgeok forward : bool) (t : N) : N :=
  let r := stts_find s t in
  if (0 <=? f_exact r)%Z && edgeok then u64_of (f_exact r)
  else if forward then u64_of (f_next r) else u64_of (f_prior r).

(* ------------------------------------------------------------------ *)
(* the box                                                             *)

(* serialize, TimeToSampleAtom.c:339-367 (contents after size and type) *)
Definition stts_write (s : stts) : wr :=
  put8 (st_ver s) ;; put24 (st_flags s) ;; put32 (len (st_entries s)) ;;
  wmap (fun e => put32 (fst e) ;; put32 (snd e)) (st_entries s).
(* calculateSize, TimeToSampleAtom.c:369-385 *)
Definition stts_size (s : stts) : N := w32 (12 + w32 (4 + w32 (8 * len (st_entries s)))).
(* createFromInputStream, TimeToSampleAtom.c:387-420 *)
Definition stts_read (h : hdr) : rd stts :=
  let* vf := get_full in
  let* n := get32 in
  let* es := rrep (N.to_nat n) (let* c := get32 in let* d := get32 in rret (c, d)) in
  rret (mkStts (fst vf) (snd vf) es false 0 0 0).

(* a history of calls on one table; [sop] is in SttsSpec.v *)
Definition step (s : stts) (o : sop) : res (stts * sout) :=
  match o with
  | OAdd c ds => do s' <- stts_addSamples s c ds; Ok (s', RDone)
  | OExtend d => do s' <- stts_extend s d; Ok (s', RDone)
  | OTime n => let '((t, d), s') := stts_time s n in Ok (s', RTime t d)
  | OTotal => Ok (s, RTotal (stts_total s))
  end.
Fixpoint run (s : stts) (os : list sop) : res (list sout) :=
  match os with
  | [] => Ok []
  | o :: r => do (s', x) <- step s o; do l <- run s' r; Ok (x :: l)
  end.


Definition stts_codec : codec stts :=
  mkCodec (N.eqb T_stts) (fun _ => T_stts) stts_size stts_write stts_read.

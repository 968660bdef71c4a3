(* EditModel.v -- edit lists of tracks. *)
From Verif Require Import Base AtomModel BoxModel.

(* edtsEntry, EditListAtom.c:32-38 *)
Record edit := mkEdit { e_dur : N; e_time : Z; e_rate : N; e_empty : bool }.
(* MP4EditListAtom: version, flags and the entry list *)
Record elst := mkElst { el_ver : N; el_flags : N; el_edits : list edit }.
(* MP4CreateEditListAtom, EditListAtom.c:509-540: version 0 and no other assignment to it *)
Definition elst_new : elst := mkElst 0 0 [].
Definition set_edits (s : elst) (l : list edit) : elst := mkElst (el_ver s) (el_flags s) l.

(* getTrackOffset, EditListAtom.c:74-103 *)
Definition edit_offset (l : list edit) : N :=
  match l with [] => 0 | e :: _ => if e_empty e then w32 (e_dur e) else 0 end.
(* setTrackOffset, EditListAtom.c:105-161 *)
Definition edit_setOffset (l : list edit) (start dur : N) : list edit :=
  match l with
  | [] => [mkEdit start (-1) 1 true; mkEdit dur 0 1 false]
  | e :: r => if e_empty e then mkEdit start (e_time e) (e_rate e) true :: r
              else mkEdit start (-1) 1 true :: l
  end.
(* insertSegment, EditListAtom.c:163-221; [ts] and [ms] are s32 *)
Definition edit_insert (l : list edit) (ts ms : Z) (dur rate : N) : res (list edit) :=
  match l with
  | [] => Ok ((if (0 <? ts)%Z then [mkEdit (Z.to_N ts) (-1) 1 true] else []) ++ [mkEdit dur ms rate false])
  | _ => if (ts =? -1)%Z then Ok (l ++ [mkEdit dur ms rate false]) else Err MP4NotImplementedErr
  end.
(* getEffectiveDuration, EditListAtom.c:223-247 *)
Definition edit_duration (l : list edit) : N := fold_left (fun d e => w32 (d + w32 (e_dur e))) l 0.
(* isEmptyEdit, EditListAtom.c:249-272 *)
Definition edit_isEmpty (l : list edit) (seg : N) : res bool :=
  if (seg =? 1) && (len l =? 0) then Ok false
  else if (seg =? 0) || (len l <? seg) then Err MP4BadParamErr
  else match nthN l (seg - 1) with Some e => Ok (e_empty e) | None => Err MP4BadParamErr end.
(* getIndSegmentTime, EditListAtom.c:274-318: movie time, media time and
   duration of a segment. The loop adds up every other entry, also those after
   the segment, but stores the sum only at the segment. *)
Fixpoint edit_seg (l : list edit) (i cur : N) : res (N * Z * N) :=
  match l with
  | [] => Err MP4BadParamErr (* not reached: the index is checked *)
  | e :: r => if i =? 0 then Ok (cur, (if e_empty e then -1 else e_time e)%Z, e_dur e)
              else edit_seg r (i - 1) (w64 (cur + e_dur e))
  end.
Definition edit_segment (l : list edit) (seg : N) : res (N * Z * N) :=
  if (seg =? 0) || (len l <? seg) then Err MP4BadParamErr else edit_seg l (seg - 1) 0.
(* getTimeAndRate, EditListAtom.c:320-387: media time and rate. [best] is the
   pair found so far; the loop does not stop after a normal edit. In an empty
   edit line 363 reads the entry after the one p points to, which lies outside
   the allocation holding it ([i < entryCount] is always true there). *)
Fixpoint edit_rate_go (l : list edit) (t mts dts cur : N) (best : Z * N) : res (Z * N) :=
  match l with
  | [] => Ok best
  | e :: r =>
      if t <=? w64 (cur + e_dur e) then
        if e_empty e then UB
        else edit_rate_go r t mts dts cur
               (s64_of (w64 (u64_of (e_time e) + w64 (sub64 t cur / mts * dts))), e_rate e)
      else edit_rate_go r t mts dts (w64 (cur + e_dur e)) best
  end.
Definition edit_time (l : list edit) (t mts dts : N) : res (Z * N) :=
  if (mts =? 0) || (dts =? 0) then Err MP4BadParamErr
  else edit_rate_go l t mts dts 0 ((-1)%Z, 65536).

(* MP4TrackTimeToMediaTime, MovieTracks.c:986-1052; None: the track has no
   edit list. The result is stored in an s64. *)
Definition track_to_media (el : option elst) (t mts dts : N) : res Z :=
  if mts =? 0 then Err MP4InvalidMediaErr
  else match el with
  | None => Ok (s64_of (w64 (t / mts * dts)))
  | Some s => match el_edits s with
    | [] => Ok (s64_of (w64 (t / mts * dts)))
    | l => do r <- edit_time l t mts dts; Ok (fst r)
    end
  end.

(* MP4InsertMediaIntoTrack, MovieTracks.c:791-876, without the data handler
   part (which does not touch the edit list); [td] is the track duration
   MP4GetTrackDuration reports *)
Definition insert_media (el : option elst) (td mts dts : N) (ts ms : Z) (md : N) (rate : Z) : res (option elst) :=
  if (rate <? 0)%Z || (1 <? rate)%Z then Err MP4BadParamErr
  else if (ts =? 0)%Z && (ms =? 0)%Z && (rate =? 1)%Z && (md =? td)
  then if md =? 0 then Err MP4BadParamErr else Ok el
  else if dts =? 0 then UB (* division by zero *)
  else
    let s := match el with Some s => s | None => elst_new end in
    do l <- edit_insert (el_edits s) ts ms (w64 (md * mts) / dts) (Z.to_N rate);
    Ok (Some (set_edits s l)).
(* MP4SetTrackOffset 914-959 and MP4GetTrackOffset 878-912 of MovieTracks.c *)
Definition set_offset (el : option elst) (td off : N) : option elst :=
  let s := match el with Some s => s | None => elst_new end in
  Some (set_edits s (edit_setOffset (el_edits s) off td)).
Definition get_offset (el : option elst) : N := match el with None => 0 | Some s => edit_offset (el_edits s) end.
(* MP4GetTrackEditlist, MovieTracks.c:1150-1213 *)
Definition get_edit (el : option elst) (i : N) : res (N * Z) :=
  match el with
  | None => Err MP4NotFoundErr
  | Some s => if len (el_edits s) <? i then Err MP4BadParamErr
      else match el_edits s with
      | [] => Err MP4NotFoundErr
      | l => do r <- edit_segment l i; Ok (snd r, snd (fst r))
      end
  end.
(* adjustedDuration TrackAtom.c:86-98 and calculateDuration 165-203: the track
   duration stored in the track header. [md] is the media duration. *)
Definition track_duration (el : option elst) (md dts mts : N) : res N :=
  let d := match el with Some s => edit_duration (el_edits s) | None => 0 end in
  if d =? 0 then if dts =? 0 then Err MP4BadParamErr else Ok (w32 (w64 (w32 md * mts) / dts)) else Ok d.

(* serialize 389-427, calculateSize 429-447, createFromInputStream 449-507.
   In version 1 the s64 media time is shifted right arithmetically, which
   gives its two's complement bytes. *)
Definition elst_write (s : elst) : wr :=
  put8 (el_ver s) ;; put24 (el_flags s) ;; put32 (len (el_edits s)) ;;
  wmap (fun e =>
    (if el_ver s =? 1 then put64 (e_dur e) ;; put64 (u64_of (e_time e))
     else put32 (e_dur e) ;; put32 (u32_of (e_time e))) ;;
    put32 (w32 (e_rate e * 65536))) (el_edits s).
Definition elst_size (s : elst) : N :=
  w32 (w32 (12 + 4) + w32 (len (el_edits s) * ((if el_ver s =? 1 then 16 else 8) + 4))).
Definition elst_read (h : hdr) : rd elst :=
  let* vf := get_full in
  let* n := get32 in
  let* es := rrep (N.to_nat n)
    (let* (d, t) :=
       (if fst vf =? 1 then let* d := get64 in let* t := get64 in rret (d, s64_of t)
        else let* d := get32 in let* t := get32 in rret (d, s32_of t)) in
     let* r := get32 in
     rret (mkEdit d t (if r =? 1 then 1 else r / 65536) (t <? 0)%Z)) in
  rret (mkElst (fst vf) (snd vf) es).
Definition elst_codec : codec elst :=
  mkCodec (fun ty => ty =? 1701606260) (fun _ => 1701606260) elst_size elst_write elst_read. (* 'elst' *)

(* TrackModel.v -- tracks of a movie and their ids; track references and track groups. *)
From Verif Require Import Base AtomModel BoxModel HeaderModel KidsModel.

(* ------------------------------------------------------------------ *)
(* track ids                                                            *)

(* What the functions below use of a movie: nextTrackID of the movie header,
   and the track ids in the headers of its tracks, in the order of the
   tracks. Movie header and track headers are taken to be there. *)
Record tmovie := mkTmovie { tm_next : N; tm_ids : list N }.
(* MP4NewMovieExt, MP4Movies.c:1344; MJ2Movies.c:80; QTMovies.c:75 *)
Definition tmovie_new : tmovie := mkTmovie 1 [].
(* requestTrackID, MovieAtom.c:74-110 *)
Definition request_id (m : tmovie) (id : N) : res (bool * tmovie) :=
  if id =? 0 then Err MP4BadParamErr
  else if tm_next m <=? id then Ok (true, mkTmovie (w32 (id + 1)) (tm_ids m))
  else Ok (negb (existsb (fun x => x =? id) (tm_ids m)), m).
(* newTrackWithID, MovieAtom.c:112-159; MP4NewMovieTrackWithID,
   MP4Movies.c:1026-1041. The new track is the last one. *)
Definition new_track_with (m : tmovie) (id : N) : res tmovie :=
  do (ok, m1) <- request_id m id;
  if ok then Ok (mkTmovie (tm_next m1) (tm_ids m1 ++ [id])) else Err MP4BadParamErr.
(* newTrack, MovieAtom.c:161-172; MP4NewMovieTrack, MP4Movies.c:1009-1024 *)
Definition new_track (m : tmovie) : res tmovie := new_track_with m (tm_next m).
(* MP4GetMovieTrack, MP4Movies.c:821-854: the position of the track, from 0 *)
Fixpoint find_track (l : list N) (i : nat) (id : N) : res nat :=
  match l with
  | [] => Err MP4BadParamErr
  | x :: r => if x =? id then Ok i else find_track r (S i) id
  end.
Definition get_track (m : tmovie) (id : N) : res nat := find_track (tm_ids m) 0 id.

(* ------------------------------------------------------------------ *)
(* track references                                                     *)

(* MP4TrackReferenceTypeAtom: type and track ids *)
Record tref1 := mkTref1 { x_type : N; x_ids : list N }.
(* trackReferences of a track: none, or the atomList of its tref box *)
Definition trefs := option (list tref1).
(* findAtomOfType, TrackReferenceAtom.c:73-98; TrackGroupAtom.c:72-98: the
   position of the first of that type *)
Fixpoint find_type {A} (ty : A -> N) (l : list A) (t : N) (i : nat) : option nat :=
  match l with
  | [] => None
  | x :: r => if ty x =? t then Some i else find_type ty r t (S i)
  end.
(* addTrackID, TrackReferenceTypeAtom.c:110-130 *)
Definition add_id (x : tref1) (id : N) : tref1 :=
  if existsb (fun y => y =? id) (x_ids x) then x else mkTref1 (x_type x) (x_ids x ++ [id]).
(* replacing one entry of a list: assignment through a pointer *)
Fixpoint put_at {A} (l : list A) (i : nat) (x : A) : list A :=
  match l, i with
  | [], _ => []
  | _ :: r, O => x :: r
  | y :: r, S j => y :: put_at r j x
  end.
(* MP4AddTrackReferenceWithID, MovieTracks.c:83-123: the index given back is
   the number of ids after the addition *)
Definition ref_add (r : trefs) (ty id : N) : res (N * trefs) :=
  if id =? 0 then Err MP4BadParamErr
  else
    let l := match r with Some l => l | None => [] end in
    let '(l1, i) := match find_type x_type l ty 0 with Some i => (l, i) | None => (l ++ [mkTref1 ty []], length l) end in
    match nth_error l1 i with
    | Some x => let x' := add_id x id in Ok (w32 (len (x_ids x')), Some (put_at l1 i x'))
    | None => UB
    end.
(* MP4GetTrackReference, MovieTracks.c:600-630: the position of the track in
   the movie *)
Definition ref_get (m : tmovie) (r : trefs) (ty index : N) : res nat :=
  if (ty =? 0) || (index =? 0) then Err MP4BadParamErr
  else match r with
  | None => Err MP4BadParamErr
  | Some l =>
      match find_type x_type l ty 0 with
      | None => Err MP4BadParamErr
      | Some i =>
          match nth_error l i with
          | None => UB
          | Some x =>
              if w32 (len (x_ids x)) <? index then Err MP4BadParamErr
              else match nth_error (x_ids x) (N.to_nat (index - 1)) with
              | None => UB
              | Some id => if id =? 0 then Err MP4InvalidMediaErr else get_track m id
              end
          end
      end
  end.
(* MP4GetTrackReferenceCount, MovieTracks.c:633-656 *)
Definition ref_count (r : trefs) (ty : N) : res N :=
  if ty =? 0 then Err MP4BadParamErr
  else match r with
  | None => Ok 0
  | Some l =>
      match find_type x_type l ty 0 with
      | None => Ok 0
      | Some i => match nth_error l i with Some x => Ok (w32 (len (x_ids x))) | None => UB end
      end
  end.

(* the box of one type: TrackReferenceTypeAtom.c:47-108. Inside a tref every
   type is taken for this box (empty list of prototypes and a default,
   TrackReferenceAtom.c:110-150); types AtomModel.v treats as containers, free
   space or uuid are read that way here instead. bytesToRead is u32
   arithmetic; what is left over after whole ids is skipped by the caller. *)
Definition tref1_read (h : hdr) : rd tref1 :=
  let* n := getrdn in
  let* ids := rrep (N.to_nat (sub32 (h_size h) n / 4)) get32 in
  rret (mkTref1 (h_type h) ids).
Definition tref1_codec : codec tref1 :=
  mkCodec (fun _ => true) x_type (fun x => w32 (8 + 4 * len (x_ids x))) (fun x => wmap put32 (x_ids x))
    tref1_read.
(* the tref box: TrackReferenceAtom.c:41-71, 110-150 *)
Definition leaves {T} (l : list (atom T)) : list T :=
  flat_map (fun a => match a with ALeaf _ x => [x] | _ => [] end) l.
Definition tref_codec : codec (list tref1) :=
  boxed tref1_codec (mkTref1 0 []) 1953654118 (* 'tref' *) (map (ALeaf tref1)) leaves.

(* ------------------------------------------------------------------ *)
(* track groups                                                         *)

(* MP4TrackGroupTypeAtom *)
Record trgr1 := mkTrgr1 { g_type : N; g_ver : N; g_flags : N; g_id : N }.
Definition trgrs := option (list trgr1).
(* MP4AddTrackGroup, MovieTracks.c:352-385 *)
Definition group_add (r : trgrs) (id ty : N) : res trgrs :=
  let l := match r with Some l => l | None => [] end in
  let '(l1, i) := match find_type g_type l ty 0 with Some i => (l, i) | None => (l ++ [mkTrgr1 ty 0 0 0], length l) end in
  match nth_error l1 i with
  | Some x => Ok (Some (put_at l1 i (mkTrgr1 (g_type x) (g_ver x) (g_flags x) id)))
  | None => UB
  end.
(* MP4GetTrackGroup, MovieTracks.c:658-681 *)
Definition group_get (r : trgrs) (ty : N) : res N :=
  if ty =? 0 then Err MP4BadParamErr
  else match r with
  | None => Err MP4BadParamErr
  | Some l =>
      match find_type g_type l ty 0 with
      | None => Err MP4BadParamErr
      | Some i => match nth_error l i with Some x => Ok (g_id x) | None => UB end
      end
  end.
(* TrackGroupTypeAtom.c:34-82; the error of reading version and flags is
   dropped, but then the id is not there either *)
Definition trgr1_read (h : hdr) : rd trgr1 :=
  let* vf := get_full in
  let* id := get32 in
  rret (mkTrgr1 (h_type h) (fst vf) (snd vf) id).
Definition trgr1_codec : codec trgr1 :=
  mkCodec (fun _ => true) g_type (fun _ => 16)
    (fun x => put8 (g_ver x) ;; put24 (g_flags x) ;; put32 (g_id x))
    trgr1_read.
(* TrackGroupAtom.c:46-70, 110-150 *)
Definition trgr_codec : codec (list trgr1) :=
  boxed trgr1_codec (mkTrgr1 0 0 0 0) 1953654642 (* 'trgr' *) (map (ALeaf trgr1)) leaves.

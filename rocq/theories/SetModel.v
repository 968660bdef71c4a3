(* SetModel.v -- the calls that set and report properties kept in the headers
   of a movie, of its tracks and of their media. *)
From Verif Require Import Base AtomModel BoxModel HeaderBoxModel HeaderModel.

(* conversion of an s16 argument to a u32 member, and the cast back *)
Definition s16_u32 (z : Z) : N := Z.to_N (z mod 4294967296)%Z.
Definition u32_s16 (n : N) : Z :=
  let m := w16 n in if m <? 32768 then Z.of_N m else (Z.of_N m - 65536)%Z.

(* nine u32, as copied by memcpy from and to the members qt_matrixA..qt_matrixW,
   which follow each other in both structures (MP4Atoms.h:345-353, 422-430) *)
Record matrix := mkMx { mxA : N; mxB : N; mxU : N; mxC : N; mxD : N; mxV : N; mxX : N; mxY : N; mxW : N }.
(* the matrix used for a NULL argument, MovieTracks.c:448-460, MP4Movies.c:877-889 *)
Definition default_matrix : matrix := mkMx 65536 0 0 0 65536 0 0 0 1073741824.
Definition the_matrix (m : option matrix) : matrix := match m with Some m => m | None => default_matrix end.

(* ------------------------------------------------------------------ *)
(* Tracks: [t] is trak->trackHeader, NULL when the file has none          *)

(* setMatrix TrackAtom.c:220-232, getMatrix 234-245 *)
Definition tkhd_set_matrix (m : matrix) (a : tkhd) : tkhd :=
  mkTkhd (tk_ver a) (tk_flags a) (tk_created a) (tk_modified a) (tk_trackID a) (tk_reserved1 a) (tk_duration a)
    (tk_reserved2 a) (tk_layer a) (tk_altGroup a) (tk_volume a) (tk_reserved3 a)
    (mxA m) (mxB m) (mxU m) (mxC m) (mxD m) (mxV m) (mxX m) (mxY m) (mxW m) (tk_width a) (tk_height a).
Definition tkhd_get_matrix (a : tkhd) : matrix :=
  mkMx (tk_matA a) (tk_matB a) (tk_matU a) (tk_matC a) (tk_matD a) (tk_matV a) (tk_matX a) (tk_matY a) (tk_matW a).
(* the assignment in setLayer TrackAtom.c:254 *)
Definition tkhd_set_layer (z : Z) (a : tkhd) : tkhd :=
  mkTkhd (tk_ver a) (tk_flags a) (tk_created a) (tk_modified a) (tk_trackID a) (tk_reserved1 a) (tk_duration a)
    (tk_reserved2 a) (s16_u32 z) (tk_altGroup a) (tk_volume a) (tk_reserved3 a)
    (tk_matA a) (tk_matB a) (tk_matU a) (tk_matC a) (tk_matD a) (tk_matV a) (tk_matX a) (tk_matY a) (tk_matW a) (tk_width a) (tk_height a).
(* the assignments in setDimensions TrackAtom.c:281-282 *)
Definition tkhd_set_dims (w h : N) (a : tkhd) : tkhd :=
  mkTkhd (tk_ver a) (tk_flags a) (tk_created a) (tk_modified a) (tk_trackID a) (tk_reserved1 a) (tk_duration a)
    (tk_reserved2 a) (tk_layer a) (tk_altGroup a) (tk_volume a) (tk_reserved3 a)
    (tk_matA a) (tk_matB a) (tk_matU a) (tk_matC a) (tk_matD a) (tk_matV a) (tk_matX a) (tk_matY a) (tk_matW a)
    (w32 (N.shiftl w 16)) (w32 (N.shiftl h 16)).
(* the assignment in setVolume TrackAtom.c:310 *)
Definition tkhd_set_volume (z : Z) (a : tkhd) : tkhd :=
  mkTkhd (tk_ver a) (tk_flags a) (tk_created a) (tk_modified a) (tk_trackID a) (tk_reserved1 a) (tk_duration a)
    (tk_reserved2 a) (tk_layer a) (tk_altGroup a) (s16_u32 z) (tk_reserved3 a)
    (tk_matA a) (tk_matB a) (tk_matU a) (tk_matC a) (tk_matD a) (tk_matV a) (tk_matX a) (tk_matY a) (tk_matW a) (tk_width a) (tk_height a).
(* the assignments in setEnabled TrackAtom.c:338-340; flags is a u32 *)
Definition tkhd_set_flags (f : N) (a : tkhd) : tkhd :=
  mkTkhd (tk_ver a) f (tk_created a) (tk_modified a) (tk_trackID a) (tk_reserved1 a) (tk_duration a)
    (tk_reserved2 a) (tk_layer a) (tk_altGroup a) (tk_volume a) (tk_reserved3 a)
    (tk_matA a) (tk_matB a) (tk_matU a) (tk_matC a) (tk_matD a) (tk_matV a) (tk_matX a) (tk_matY a) (tk_matW a) (tk_width a) (tk_height a).
Definition tkhd_set_enabled (e : N) (a : tkhd) : tkhd :=
  tkhd_set_flags (if negb (e =? 0) then N.lor (tk_flags a) 1 else N.land (tk_flags a) 4294967294) a.

(* the check all of them begin with: "if(tkhd == NULL) BAILWITHERROR(MP4InvalidMediaErr)" *)
Definition with_header {H A} (h : option H) (f : H -> A) : res A :=
  match h with Some a => Ok (f a) | None => Err MP4InvalidMediaErr end.

(* MJ2SetTrackMatrix, MovieTracks.c:434-469; None: a NULL matrix *)
Definition set_track_matrix (m : option matrix) (t : option tkhd) : res tkhd := with_header t (tkhd_set_matrix (the_matrix m)).
(* MJ2GetTrackMatrix, MovieTracks.c:471-488 *)
Definition get_track_matrix (t : option tkhd) : res matrix := with_header t tkhd_get_matrix.
(* MJ2SetTrackLayer, MovieTracks.c:490-507, setLayer TrackAtom.c:247-259 *)
Definition set_track_layer (z : Z) (t : option tkhd) : res tkhd := with_header t (tkhd_set_layer z).
(* MJ2GetTrackLayer, MovieTracks.c:509-525, getLayer TrackAtom.c:261-272 *)
Definition get_track_layer (t : option tkhd) : res Z := with_header t (fun a => u32_s16 (tk_layer a)).
(* MJ2SetTrackDimensions, MovieTracks.c:527-544, setDimensions TrackAtom.c:274-287 *)
Definition set_track_dims (w h : N) (t : option tkhd) : res tkhd := with_header t (tkhd_set_dims w h).
(* MJ2GetTrackDimensions, MovieTracks.c:546-562, getDimensions TrackAtom.c:289-301 *)
Definition get_track_dims (t : option tkhd) : res (N * N) :=
  with_header t (fun a => (N.shiftr (tk_width a) 16, N.shiftr (tk_height a) 16)).
(* MJ2SetTrackVolume, MovieTracks.c:564-579, setVolume TrackAtom.c:303-315 *)
Definition set_track_volume (z : Z) (t : option tkhd) : res tkhd := with_header t (tkhd_set_volume z).
(* MJ2GetTrackVolume, MovieTracks.c:581-597, getVolume TrackAtom.c:317-328 *)
Definition get_track_volume (t : option tkhd) : res Z := with_header t (fun a => u32_s16 (tk_volume a)).
(* MP4SetTrackEnabled, MovieTracks.c:67-80, setEnabled TrackAtom.c:330-344 *)
Definition set_track_enabled (e : N) (t : option tkhd) : res tkhd := with_header t (tkhd_set_enabled e).
(* MP4GetTrackEnabled, MovieTracks.c:52-65, getEnabled TrackAtom.c:346-352: no check for NULL *)
Definition get_track_enabled (t : option tkhd) : res N :=
  match t with Some a => Ok (if negb (N.land (tk_flags a) 1 =? 0) then 1 else 0) | None => UB end.
(* MP4GetTrackID, MovieTracks.c:36-50: no check for NULL *)
Definition get_track_id (t : option tkhd) : res N := match t with Some a => Ok (tk_trackID a) | None => UB end.

(* one call that sets something on a track *)
Inductive tcall :=
| TMatrix (m : option matrix)
| TLayer (z : Z)
| TDims (w h : N)
| TVolume (z : Z)
| TEnabled (e : N).
Definition track_call (c : tcall) (t : option tkhd) : res tkhd :=
  match c with
  | TMatrix m => set_track_matrix m t
  | TLayer z => set_track_layer z t
  | TDims w h => set_track_dims w h t
  | TVolume z => set_track_volume z t
  | TEnabled e => set_track_enabled e t
  end.
(* a sequence of them on a track with a header *)
Fixpoint track_calls (cs : list tcall) (a : tkhd) : res tkhd :=
  match cs with
  | [] => Ok a
  | c :: cs => do a <- track_call c (Some a); track_calls cs a
  end.

(* ------------------------------------------------------------------ *)
(* Movies: moov->mvhd                                                     *)

(* setTimeScale MovieAtom.c:174-189; the durations stay as they are *)
Definition mvhd_set_scale (n : N) (a : mvhd) : mvhd :=
  mkMvhd (mv_ver a) (mv_flags a) (mv_created a) (mv_modified a) n (mv_duration a) (mv_rate a) (mv_volume a) (mv_reserved a)
    (mv_matA a) (mv_matB a) (mv_matU a) (mv_matC a) (mv_matD a) (mv_matV a) (mv_matX a) (mv_matY a) (mv_matW a)
    (mv_previewTime a) (mv_previewDuration a) (mv_posterTime a) (mv_selectionTime a) (mv_selectionDuration a)
    (mv_currentTime a) (mv_nextTrackID a).
(* setMatrix MovieAtom.c:204-224, getMatrix 226-246 *)
Definition mvhd_set_matrix (m : matrix) (a : mvhd) : mvhd :=
  mkMvhd (mv_ver a) (mv_flags a) (mv_created a) (mv_modified a) (mv_timeScale a) (mv_duration a) (mv_rate a) (mv_volume a) (mv_reserved a)
    (mxA m) (mxB m) (mxU m) (mxC m) (mxD m) (mxV m) (mxX m) (mxY m) (mxW m)
    (mv_previewTime a) (mv_previewDuration a) (mv_posterTime a) (mv_selectionTime a) (mv_selectionDuration a)
    (mv_currentTime a) (mv_nextTrackID a).
Definition mvhd_get_matrix (a : mvhd) : matrix :=
  mkMx (mv_matA a) (mv_matB a) (mv_matU a) (mv_matC a) (mv_matD a) (mv_matV a) (mv_matX a) (mv_matY a) (mv_matW a).
(* setPreferredRate MovieAtom.c:248-259 *)
Definition mvhd_set_rate (n : N) (a : mvhd) : mvhd :=
  mkMvhd (mv_ver a) (mv_flags a) (mv_created a) (mv_modified a) (mv_timeScale a) (mv_duration a) n (mv_volume a) (mv_reserved a)
    (mv_matA a) (mv_matB a) (mv_matU a) (mv_matC a) (mv_matD a) (mv_matV a) (mv_matX a) (mv_matY a) (mv_matW a)
    (mv_previewTime a) (mv_previewDuration a) (mv_posterTime a) (mv_selectionTime a) (mv_selectionDuration a)
    (mv_currentTime a) (mv_nextTrackID a).
(* setPreferredVolume MovieAtom.c:275-286 *)
Definition mvhd_set_volume (z : Z) (a : mvhd) : mvhd :=
  mkMvhd (mv_ver a) (mv_flags a) (mv_created a) (mv_modified a) (mv_timeScale a) (mv_duration a) (mv_rate a) (s16_u32 z) (mv_reserved a)
    (mv_matA a) (mv_matB a) (mv_matU a) (mv_matC a) (mv_matD a) (mv_matV a) (mv_matX a) (mv_matY a) (mv_matW a)
    (mv_previewTime a) (mv_previewDuration a) (mv_posterTime a) (mv_selectionTime a) (mv_selectionDuration a)
    (mv_currentTime a) (mv_nextTrackID a).

(* MP4SetMovieTimeScale, MP4Movies.c:856-866 *)
Definition set_movie_scale (n : N) (t : option mvhd) : res mvhd :=
  if n =? 0 then Err MP4BadParamErr else with_header t (mvhd_set_scale n).
(* MP4GetMovieTimeScale, MP4Movies.c:427-444 *)
Definition get_movie_scale (t : option mvhd) : res N := with_header t mv_timeScale.
(* MJ2SetMovieMatrix, MP4Movies.c:868-893 *)
Definition set_movie_matrix (m : option matrix) (t : option mvhd) : res mvhd := with_header t (mvhd_set_matrix (the_matrix m)).
(* MJ2GetMovieMatrix, MP4Movies.c:895-904 *)
Definition get_movie_matrix (t : option mvhd) : res matrix := with_header t mvhd_get_matrix.
(* MJ2SetMoviePreferredRate, MP4Movies.c:906-914; MJ2GetMoviePreferredRate 916-925, getPreferredRate MovieAtom.c:261-273 *)
Definition set_movie_rate (n : N) (t : option mvhd) : res mvhd := with_header t (mvhd_set_rate n).
Definition get_movie_rate (t : option mvhd) : res N := with_header t mv_rate.
(* MJ2SetMoviePreferredVolume, MP4Movies.c:927-935; MJ2GetMoviePreferredVolume 937-946, getPreferredVolume MovieAtom.c:288-300 *)
Definition set_movie_volume (z : Z) (t : option mvhd) : res mvhd := with_header t (mvhd_set_volume z).
Definition get_movie_volume (t : option mvhd) : res Z := with_header t (fun a => u32_s16 (mv_volume a)).

Inductive mcall :=
| MScale (n : N)
| MMatrix (m : option matrix)
| MRate (n : N)
| MVolume (z : Z).
Definition movie_call (c : mcall) (t : option mvhd) : res mvhd :=
  match c with
  | MScale n => set_movie_scale n t
  | MMatrix m => set_movie_matrix m t
  | MRate n => set_movie_rate n t
  | MVolume z => set_movie_volume z t
  end.
(* a sequence of them; a refused call changes nothing and the caller goes on *)
Fixpoint movie_calls (cs : list mcall) (a : mvhd) : mvhd :=
  match cs with
  | [] => a
  | c :: cs => movie_calls cs (match movie_call c (Some a) with Ok b => b | _ => a end)
  end.

(* ------------------------------------------------------------------ *)
(* Media: the type of the handler, and minf->mediaHeader                  *)

Inductive mhead := HVideo (a : vmhd) | HSound (a : smhd) | HElse.
(* [handler]: what MP4GetMediaHandlerDescription answers (C57);
   [h]: the media header, None when minf or the header is missing. The header
   is cast to the structure for the handler; when it is another one its
   members are read and written out of place (UB). *)
Definition T_vide := 1986618469. (* MP4VisualHandlerType, MP4Movies.h *)
Definition T_soun := 1936684398. (* MP4AudioHandlerType *)
Definition on_video {A} (handler : res N) (h : option mhead) (f : vmhd -> A) : res A :=
  do ty <- handler;
  if negb (ty =? T_vide) then Err MP4NotImplementedErr else
  match h with None => Err MP4InvalidMediaErr | Some (HVideo a) => Ok (f a) | Some _ => UB end.
Definition on_sound {A} (handler : res N) (h : option mhead) (f : smhd -> A) : res A :=
  do ty <- handler;
  if negb (ty =? T_soun) then Err MP4NotImplementedErr else
  match h with None => Err MP4InvalidMediaErr | Some (HSound a) => Ok (f a) | Some _ => UB end.
(* MJ2SetMediaGraphicsMode, MP4Media.c:495-526; the colours are u16 *)
Definition set_graphics_mode (mode r g b : N) (handler : res N) (h : option mhead) : res vmhd :=
  on_video handler h (fun a => mkVmhd (vm_ver a) (vm_flags a) mode r g b).
(* MJ2GetMediaGraphicsMode, MP4Media.c:528-559 *)
Definition get_graphics_mode (handler : res N) (h : option mhead) : res (N * (N * N * N)) :=
  on_video handler h (fun a => (vm_mode a, (w16 (vm_r a), w16 (vm_g a), w16 (vm_b a)))).
(* MJ2SetMediaSoundBalance, MP4Media.c:561-589 *)
Definition set_sound_balance (z : Z) (handler : res N) (h : option mhead) : res smhd :=
  on_sound handler h (fun a => mkSmhd (sm_ver a) (sm_flags a) (s16_u32 z) (sm_reserved a)).
(* MJ2GetMediaSoundBalance, MP4Media.c:591-619 *)
Definition get_sound_balance (handler : res N) (h : option mhead) : res Z :=
  on_sound handler h (fun a => u32_s16 (sm_balance a)).
(* MP4GetMediaTimeScale, MP4Media.c:621-641 *)
Definition get_media_scale (t : option mdhd) : res N := with_header t md_timeScale.

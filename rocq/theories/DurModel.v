(* DurModel.v -- durations of media, tracks and movies. *)
From Verif Require Import Base AtomModel BoxModel HeaderModel SttsModel EditModel SetModel.

(* A media: its header, and the sample table with the time-to-sample table
   (None: no media information or no sample table; Some None: no such table). *)
Record dmed := mkDmed { dm_mdhd : option mdhd; dm_stbl : option (option stts) }.
(* A track: its header, the edit box (Some None: an edit box without an edit
   list) and the media. *)
Record dtrk := mkDtrk { dk_tkhd : option tkhd; dk_edts : option (option elst); dk_med : option dmed }.
Record dmov := mkDmov { dv_mvhd : option mvhd; dv_trks : list dtrk }.

Definition mdhd_set_duration (d : N) (a : mdhd) : mdhd :=
  mkMdhd (md_ver a) (md_flags a) (md_created a) (md_modified a) (md_timeScale a) d (md_lang a) (md_quality a).
Definition tkhd_set_duration (d : N) (a : tkhd) : tkhd :=
  mkTkhd (tk_ver a) (tk_flags a) (tk_created a) (tk_modified a) (tk_trackID a) (tk_reserved1 a) d
    (tk_reserved2 a) (tk_layer a) (tk_altGroup a) (tk_volume a) (tk_reserved3 a)
    (tk_matA a) (tk_matB a) (tk_matU a) (tk_matC a) (tk_matD a) (tk_matV a) (tk_matX a) (tk_matY a) (tk_matW a) (tk_width a) (tk_height a).
Definition mvhd_set_duration (d : N) (a : mvhd) : mvhd :=
  mkMvhd (mv_ver a) (mv_flags a) (mv_created a) (mv_modified a) (mv_timeScale a) d (mv_rate a) (mv_volume a) (mv_reserved a)
    (mv_matA a) (mv_matB a) (mv_matU a) (mv_matC a) (mv_matD a) (mv_matV a) (mv_matX a) (mv_matY a) (mv_matW a)
    (mv_previewTime a) (mv_previewDuration a) (mv_posterTime a) (mv_selectionTime a) (mv_selectionDuration a)
    (mv_currentTime a) (mv_nextTrackID a).

(* calculateDuration MediaAtom.c:53-72 with getMediaDuration
   MediaInformationAtom.c:745-758 and calculateDuration SampleTableAtom.c:144-160;
   also MP4EndMediaEdits, MP4Media.c:54-70 *)
Definition calc_media (m : dmed) : res dmed :=
  match dm_mdhd m, dm_stbl m with
  | Some h, Some (Some t) => Ok (mkDmed (Some (mdhd_set_duration (stts_total t) h)) (dm_stbl m))
  | _, _ => Err MP4InvalidMediaErr
  end.
(* MP4GetMediaDuration, MP4Media.c:643-667: the answer and the media *)
Definition get_media_duration (m : dmed) : res (N * dmed) :=
  do m' <- calc_media m;
  match dm_mdhd m' with Some h => Ok (md_duration h, m') | None => Err MP4InvalidMediaErr end.

(* calculateDuration TrackAtom.c:165-203 (EditAtom.c:47-60: the edit list is
   not checked for NULL, and neither is the media header); the media is not
   recalculated *)
Definition calc_track (ts : N) (k : dtrk) : res dtrk :=
  match dk_tkhd k with
  | None => Err MP4InvalidMediaErr
  | Some h =>
      match dk_med k with
      | None => Err MP4InvalidMediaErr
      | Some m =>
          match dm_mdhd m with
          | None => UB
          | Some mh =>
              match dk_edts k with
              | Some None => UB
              | e => do d <- track_duration (match e with Some l => l | None => None end) (md_duration mh) (md_timeScale mh) ts;
                     Ok (mkDtrk (Some (tkhd_set_duration d h)) (dk_edts k) (dk_med k))
              end
          end
      end
  end.
(* getDuration TrackAtom.c:205-218 *)
Definition stored_duration (k : dtrk) : res N := with_header (dk_tkhd k) (fun h => w32 (tk_duration h)).

(* the loop of calculateDuration MovieAtom.c:516-529, with the tracks it leaves *)
Fixpoint calc_tracks (ts best : N) (l : list dtrk) : res N * list dtrk :=
  match l with
  | [] => (Ok best, [])
  | k :: r =>
      match calc_track ts k with
      | Ok k' =>
          match stored_duration k' with
          | Ok d => let (o, r') := calc_tracks ts (if best <? d then d else best) r in (o, k' :: r')
          | Err e => (Err e, k' :: r)
          | UB => (UB, k' :: r)
          end
      | Err e => (Err e, k :: r)
      | UB => (UB, k :: r)
      end
  end.
(* calculateDuration MovieAtom.c:499-534: also run when the movie is saved
   (MP4MovieFile.c:59-64, MP4Movies.c:1173) *)
Definition calc_movie (v : dmov) : res unit * dmov :=
  match dv_mvhd v with
  | None => (Err MP4InvalidMediaErr, v)
  | Some h =>
      match calc_tracks (mv_timeScale h) 0 (dv_trks v) with
      | (Ok d, l) => (Ok tt, mkDmov (Some (mvhd_set_duration d h)) l)
      | (Err e, l) => (Err e, mkDmov (Some h) l)
      | (UB, l) => (UB, mkDmov (Some h) l)
      end
  end.

(* the questions of a program about the movie [v] *)
Inductive dask := AskMedia (i : nat) | AskTrack (i : nat) | AskMovie.
Fixpoint dput (l : list dtrk) (i : nat) (k : dtrk) : list dtrk :=
  match l, i with
  | [], _ => []
  | _ :: r, O => k :: r
  | a :: r, S j => a :: dput r j k
  end.
Definition put_track (v : dmov) (i : nat) (k : dtrk) : dmov := mkDmov (dv_mvhd v) (dput (dv_trks v) i k).
Definition put_media (v : dmov) (i : nat) (k : dtrk) (m : dmed) : dmov :=
  put_track v i (mkDtrk (dk_tkhd k) (dk_edts k) (Some m)).
(* MP4EndMediaEdits on the media of the track [i] (numbered from 0) *)
Definition end_edits (v : dmov) (i : nat) : res unit * dmov :=
  match nth_error (dv_trks v) i with
  | None => (Err MP4BadParamErr, v)
  | Some k =>
      match dk_med k with
      | None => (Err MP4InvalidMediaErr, v) (* MP4GetTrackMedia, MovieTracks.c:697-719 *)
      | Some m => match calc_media m with Ok m' => (Ok tt, put_media v i k m') | Err e => (Err e, v) | UB => (UB, v) end
      end
  end.
Definition ask (v : dmov) (q : dask) : res N * dmov :=
  match q with
  | AskMedia i =>
      match nth_error (dv_trks v) i with
      | None => (Err MP4BadParamErr, v)
      | Some k =>
          match dk_med k with
          | None => (Err MP4InvalidMediaErr, v)
          | Some m => match get_media_duration m with Ok (d, m') => (Ok d, put_media v i k m') | Err e => (Err e, v) | UB => (UB, v) end
          end
      end
  | AskTrack i => (* MP4GetTrackDuration, MovieTracks.c:401-432 *)
      match nth_error (dv_trks v) i with
      | None => (Err MP4BadParamErr, v)
      | Some k =>
          match dk_med k, get_movie_scale (dv_mvhd v) with
          | None, _ => (Err MP4InvalidMediaErr, v)
          | _, Err e => (Err e, v)
          | _, UB => (UB, v)
          | Some m, Ok ts =>
              match get_media_duration m with
              | Err e => (Err e, v)
              | UB => (UB, v)
              | Ok (_, m') =>
                  let k' := mkDtrk (dk_tkhd k) (dk_edts k) (Some m') in
                  match calc_track ts k' with
                  | Err e => (Err e, put_track v i k')
                  | UB => (UB, put_track v i k')
                  | Ok k2 => (stored_duration k2, put_track v i k2)
                  end
              end
          end
      end
  | AskMovie => (* MP4GetMovieDuration, MP4Movies.c:407-425 *)
      match calc_movie v with
      | (Ok _, v') => (with_header (dv_mvhd v') mv_duration, v')
      | (Err e, v') => (Err e, v')
      | (UB, v') => (UB, v')
      end
  end.
(* a sequence of questions *)
Fixpoint asks (v : dmov) (qs : list dask) : list (res N) * dmov :=
  match qs with
  | [] => ([], v)
  | q :: qs => let (a, v1) := ask v q in let (r, v2) := asks v1 qs in (a :: r, v2)
  end.
(* the end of editing, for every track *)
Fixpoint end_all (v : dmov) (n : nat) : dmov :=
  match n with O => v | S m => snd (end_edits (end_all v m) m) end.

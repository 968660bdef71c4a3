(* DurSpec.v -- how long media, tracks and movies last. *)
From Verif Require Import Base Codec AtomModel BoxModel HeaderModel SttsSpec SttsModel EditModel EditSpec SetModel SetSpec DurModel.

(* the durations of the samples of a media, together; in its own time scale *)
Definition media_length (m : dmed) : N :=
  match dm_stbl m with Some (Some t) => total (expand (st_entries t)) | _ => 0 end.
Definition track_media (k : dtrk) : N := match dk_med k with Some m => media_length m | None => 0 end.
Definition media_scale (k : dtrk) : N :=
  match dk_med k with Some m => match dm_mdhd m with Some h => md_timeScale h | None => 0 end | None => 0 end.
Definition edit_length (k : dtrk) : N := match dk_edts k with Some (Some e) => durs (el_edits e) | _ => 0 end.
(* in the time scale of the movie: the edit list, or else the media *)
Definition track_length (ts : N) (k : dtrk) : N :=
  if edit_length k =? 0 then track_media k * ts / media_scale k else edit_length k.
Fixpoint longest (l : list N) : N := match l with [] => 0 | a :: r => N.max a (longest r) end.

(* a track with all its boxes whose lengths fit 32 bits *)
Definition whole (ts : N) (k : dtrk) : Prop :=
  dk_tkhd k <> None /\ (exists m h t, dk_med k = Some m /\ dm_mdhd m = Some h /\ dm_stbl m = Some (Some t)) /\
  dk_edts k <> Some None /\ 0 < media_scale k /\ ts < 4294967296 /\
  track_media k < 4294967296 /\ edit_length k < 4294967296 /\ track_length ts k < 4294967296.

(* the headers with the lengths in them, everything else as in [k] and [v] *)
Definition lasting_media (k : dtrk) : dtrk :=
  mkDtrk (dk_tkhd k) (dk_edts k)
    (match dk_med k with
     | Some m => Some (mkDmed (match dm_mdhd m with Some h => Some (mdhd_set_duration (media_length m) h) | None => None end) (dm_stbl m))
     | None => None
     end).
Definition lasting (ts : N) (k : dtrk) : dtrk :=
  mkDtrk (match dk_tkhd k with Some h => Some (tkhd_set_duration (track_length ts k) h) | None => None end)
    (dk_edts k) (dk_med k).
Definition scale_of (v : dmov) : N := match dv_mvhd v with Some h => mv_timeScale h | None => 0 end.
Definition movie_length (v : dmov) : N := longest (map (track_length (scale_of v)) (dv_trks v)).
Definition lasting_movie (v : dmov) : dmov :=
  mkDmov (match dv_mvhd v with Some h => Some (mvhd_set_duration (movie_length v) h) | None => None end)
    (map (lasting (scale_of v)) (dv_trks v)).
Definition whole_movie (v : dmov) : Prop := dv_mvhd v <> None /\ Forall (whole (scale_of v)) (dv_trks v).
(* the media headers say how long the media are *)
Definition settled (k : dtrk) : Prop := lasting_media k = k.

(* the right answer to a question *)
Definition right_answer (v : dmov) (q : dask) : res N :=
  match q with
  | AskMedia i => match nth_error (dv_trks v) i with Some k => Ok (track_media k) | None => Err MP4BadParamErr end
  | AskTrack i => match nth_error (dv_trks v) i with Some k => Ok (track_length (scale_of v) k) | None => Err MP4BadParamErr end
  | AskMovie => Ok (movie_length v)
  end.

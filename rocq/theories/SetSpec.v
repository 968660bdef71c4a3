(* SetSpec.v -- what a program that sets and asks for properties of movies and
   tracks sees: a record of values. *)
From Verif Require Import Base Codec AtomModel BoxModel BoxSpec HeaderBoxModel HeaderModel HeaderSpec SetModel.

Definition is16 (z : Z) : Prop := (-32768 <= z < 32768)%Z.
Definition is32 (n : N) : Prop := n < 4294967296.
Definition matrix_ok (m : matrix) : Prop :=
  is32 (mxA m) /\ is32 (mxB m) /\ is32 (mxU m) /\ is32 (mxC m) /\ is32 (mxD m) /\ is32 (mxV m) /\
  is32 (mxX m) /\ is32 (mxY m) /\ is32 (mxW m).
(* scale 1, no rotation, no translation; 16.16 and 2.30 fixed point numbers *)
Definition identity : matrix := mkMx 65536 0 0 0 65536 0 0 0 1073741824.

(* ------------------------------------------------------------------ *)
(* Tracks                                                              *)

Record tview := mkTview { v_matrix : matrix; v_layer : Z; v_dims : N * N; v_volume : Z; v_enabled : bool }.
Definition tcall_ok (c : tcall) : Prop :=
  match c with
  | TMatrix (Some m) => matrix_ok m
  | TMatrix None => True
  | TLayer z | TVolume z => is16 z
  | TDims w h => w < 65536 /\ h < 65536
  | TEnabled e => is32 e
  end.
(* what a call changes *)
Definition tset (c : tcall) (v : tview) : tview :=
  match c with
  | TMatrix None => mkTview identity (v_layer v) (v_dims v) (v_volume v) (v_enabled v)
  | TMatrix (Some m) => mkTview m (v_layer v) (v_dims v) (v_volume v) (v_enabled v)
  | TLayer z => mkTview (v_matrix v) z (v_dims v) (v_volume v) (v_enabled v)
  | TDims w h => mkTview (v_matrix v) (v_layer v) (w, h) (v_volume v) (v_enabled v)
  | TVolume z => mkTview (v_matrix v) (v_layer v) (v_dims v) z (v_enabled v)
  | TEnabled e => mkTview (v_matrix v) (v_layer v) (v_dims v) (v_volume v) (negb (e =? 0))
  end.
(* the track answers [v] and the identifier [id] *)
Definition answers (t : option tkhd) (v : tview) (id : N) : Prop :=
  get_track_matrix t = Ok (v_matrix v) /\ get_track_layer t = Ok (v_layer v) /\
  get_track_dims t = Ok (v_dims v) /\ get_track_volume t = Ok (v_volume v) /\
  get_track_enabled t = Ok (if v_enabled v then 1 else 0) /\ get_track_id t = Ok id.
(* the rest of the header, with all flags but the lowest *)
Definition track_rest (a : tkhd) :=
  (tk_ver a, N.div2 (tk_flags a), tk_created a, tk_modified a, tk_reserved1 a, tk_duration a, tk_reserved2 a,
   tk_altGroup a, tk_reserved3 a).

(* ------------------------------------------------------------------ *)
(* Movies                                                              *)

Record mview := mkMview { w_scale : N; w_matrix : matrix; w_rate : N; w_volume : Z }.
Definition mcall_ok (c : mcall) : Prop :=
  match c with
  | MScale n => is32 n
  | MMatrix (Some m) => matrix_ok m
  | MMatrix None => True
  | MRate n => is32 n
  | MVolume z => is16 z
  end.
Definition mset (c : mcall) (v : mview) : mview :=
  match c with
  | MScale n => mkMview (if n =? 0 then w_scale v else n) (w_matrix v) (w_rate v) (w_volume v)
  | MMatrix None => mkMview (w_scale v) identity (w_rate v) (w_volume v)
  | MMatrix (Some m) => mkMview (w_scale v) m (w_rate v) (w_volume v)
  | MRate n => mkMview (w_scale v) (w_matrix v) n (w_volume v)
  | MVolume z => mkMview (w_scale v) (w_matrix v) (w_rate v) z
  end.
Definition movie_answers (t : option mvhd) (v : mview) : Prop :=
  get_movie_scale t = Ok (w_scale v) /\ get_movie_matrix t = Ok (w_matrix v) /\
  get_movie_rate t = Ok (w_rate v) /\ get_movie_volume t = Ok (w_volume v).
Definition movie_rest (a : mvhd) :=
  (mv_ver a, mv_flags a, mv_created a, mv_modified a, mv_duration a, mv_reserved a, mv_previewTime a,
   mv_previewDuration a, mv_posterTime a, mv_selectionTime a, mv_selectionDuration a, mv_currentTime a, mv_nextTrackID a).

(* ------------------------------------------------------------------ *)

(* A box written and read again: [a] is written in [n] bytes and the parser,
   given these bytes and anything behind them, reads [b] and leaves the rest *)
Definition saved {T} (c : codec T) (a : T) (n : N) (b : T) : Prop :=
  exists bs, write_box c a = Ok bs /\ len bs = n /\
    forall dflt rest, read_box c dflt (bs ++ rest) = Ok ((ALeaf T b, len bs), rest).

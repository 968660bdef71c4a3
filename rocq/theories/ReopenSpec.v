(* ReopenSpec.v -- movies that are saved, opened again and extended. *)
From Verif Require Import Base Codec AtomModel AtomSpec BoxModel BoxSpec MdatModel MediaSpec MediaModel FileModel FileSpec ReopenModel.

(* every batch has a byte, and paddings are given in bits of a byte *)
Definition storable (o : aop) : Prop :=
  match o with
  | AAdd _ ss _ => (exists s, In s ss /\ m_bytes s <> []) /\ Forall (fun s => bytes (m_bytes s) /\ m_pad s < 8) ss
  | AGet _ _ => True
  end.
(* an opened track: the same samples; there is no description yet for the
   samples to come *)
Definition reopened (t : track) : track := mkTrack (t_smps t) (t_offs t) (t_pads t) false.
(* what can be added to an opened movie: batches without composition offsets,
   to tracks with a sync sample *)
Definition grow_ok (ts : list track) (o : aop) : Prop :=
  match o with
  | AAdd i _ b => b_offs b = None /\ exists t, nth_error ts i = Some t /\ Exists (fun s => m_sync s = true) (t_smps t)
  | AGet _ _ => True
  end.
Fixpoint grows_ok (ts : list track) (os : list aop) : Prop :=
  match os with [] => True | o :: r => grow_ok ts o /\ grows_ok (agrow ts o) r end.

(* a movie in memory: boxes that can be written, without metadata boxes *)
Section Spec.
Context {T E X : Type} (ct : codec T) (yt : layout T) (dt : T) (ce : codec E) (ye : layout E) (cx : codec X) (yx : layout X).
Notation tree := (atom (fleaf (T:=T) (E:=E) (X:=X))).
Record saveable (f : file) (ks : list tree) : Prop := {
  s_sgnt : head_ok ct yt dt ce ye cx yx (code "jP  ") (f_sgnt f);
  s_ftyp : head_ok ct yt dt ce ye cx yx (code "ftyp") (f_ftyp f);
  s_jp2h : head_ok ct yt dt ce ye cx yx (code "jp2h") (f_jp2h f);
  s_meta : f_meta f = None /\ f_meco f = None;
  s_moov : f_moov f = Some ks;
  s_tree : tree_ok ct yt dt ce ye cx yx (ABoxes _ (code "moov") ks);
  s_none : no_metadata ct dt ce cx ks;
  s_trak : forall l, In (ABoxes _ (code "trak") l) ks -> no_metadata ct dt ce cx l }.

(* What can happen to a movie whose tracks are made first: samples are added
   and asked for, and it is saved and opened again, any number of times.
   [saved]: it was opened before. A file [f] in memory has the tables of the
   movie: its other boxes are arbitrary. *)
Context (edri : E -> N).
Definition fits_file (f : file) (ks : list tree) (ts : list track) : Prop :=
  0 < stored ts /\
  len (flat_map (tree_bytes ct yt dt ce ye cx yx) (heads f ++ [ABoxes _ (code "moov") ks])) + stored ts + 16 < 2147483648.
Inductive reach (drefs : N) : bool -> movie * list bool -> list track -> Prop :=
| reach_new : forall junk k, reach drefs false ((repeat (media_new junk drefs) k, mdat_new), repeat false k) (repeat track0 k)
| reach_step : forall saved w ts o x w',
    reach drefs saved w ts -> aop_ok drefs ts o -> stored (agrow ts o) < 4294967296 -> storable o -> (saved = true -> grow_ok ts o) ->
    opened_step w o = Ok (x, w') -> reach drefs saved w' (agrow ts o)
| reach_open : forall saved w ts f ks out f1 f2 w',
    reach drefs saved w ts -> saveable f ks -> movie_of edri f = Ok (fst w) -> fits_file f ks ts ->
    to_file ct dt ce edri cx f = Ok (out, f1) -> open_movie ct dt ce edri cx out = Ok f2 -> opened_of edri f2 = Ok w' ->
    reach drefs true w' (map reopened ts).
End Spec.

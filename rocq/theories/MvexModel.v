(* MvexModel.v -- the movie extends box: the defaults of track fragments,
   composition properties of fragmented tracks, the first fragment and delays
   of fragments. *)
From Verif Require Import Base AtomModel BoxModel HeaderModel KidsModel EntryModel SttsModel CttsModel SmallModel FragModel MdatModel MediaSpec MediaModel MoofModel.

(* the boxes with a parser of their own in a mvex; the composition properties
   are the only such box in a trep here *)
Definition mvkid := (trex + trep cslg)%type.
Definition mvkid_codec : codec mvkid := csum trex_codec (trep_codec cslg_codec cslg_new).
Definition mvkid_dflt : mvkid := inl (mkTrex 0 0 0 0 0 0 0).
(* MovieExtendsAtom.c: serialize 50-68, calculateSize 70-85,
   createFromInputStream 319-337: everything that is read goes into
   trackExtendsList, the loop over the second list finds nothing left *)
Definition T_mvx := fourcc 109 118 101 120.
Record mvex := mkMvex { mv_trex : list (atom mvkid); mv_trep : list (atom mvkid) }.
Definition mvex_w (m : mvex) : wr := boxes_w mvkid_codec (mv_trex m) ;; boxes_w mvkid_codec (mv_trep m).
Definition mvex_rd (h : hdr) : rd mvex := let* l := exts_rd mvkid_codec mvkid_dflt h in rret (mkMvex l []).
Definition mvex_codec : codec mvex :=
  mkCodec (N.eqb T_mvx) (fun _ => T_mvx)
    (fun m => boxes_size mvkid_codec (boxes_size mvkid_codec 8 (mv_trex m)) (mv_trep m)) mvex_w mvex_rd.

(* ISOSetTrackFragmentDefaults, MovieTracks.c:1054-1110: [id] is the id in the
   header of the track; the atom is new, MP4CreateTrackExtendsAtom,
   TrackExtendsAtom.c:95-121. [pad] is a u8. *)
Definition set_defaults (o : option mvex) (id dur size sync pad : N) : mvex :=
  let m := match o with Some m => m | None => mkMvex [] [] end in
  let flags := N.lor (N.shiftl (N.land pad 7) 17) (if sync =? 0 then 65536 else 0) in
  mkMvex (mv_trex m ++ [ALeaf mvkid (inl (mkTrex 0 0 id 0 dur size flags))]) (mv_trep m).

(* getTrackExtensionPropertiesAtom, MovieExtendsAtom.c:264-291: as many steps
   as there are entries of the properties list, through the other list; its
   error is ignored by the only caller. The position of the box found. *)
Fixpoint find_trep (n i : nat) (l : list (atom mvkid)) (id : N) : option nat :=
  match n with
  | O => None
  | S n' =>
      match nth_error l i with
      | None => None
      | Some (ALeaf _ (inr t)) => if tp_track t =? id then Some i else find_trep n' (S i) l id
      | Some _ => find_trep n' (S i) l id
      end
  end.
Definition cslg_set (s : cslg) (a b c d e : Z) : cslg := mkCslg (cs_ver s) (cs_flags s) a b c d e (cs_total s).
(* getAtom of the trep, TrackExtensionPropertiesAtom.c:37-62, and the fields
   set, MovieExtendsAtom.c:128-158: the first cslg, or a new one at the end *)
Fixpoint kids_set (l : list (atom cslg)) (a b c d e : Z) : list (atom cslg) :=
  match l with
  | [] => [ALeaf cslg (cslg_set cslg_new a b c d e)]
  | ALeaf _ s :: r => ALeaf cslg (cslg_set s a b c d e) :: r
  | x :: r => x :: kids_set r a b c d e
  end.
Definition trep_set (t : trep cslg) (a b c d e : Z) : trep cslg :=
  mkTrep (tp_ver t) (tp_flags t) (tp_track t) (kids_set (tp_kids t) a b c d e).
(* setCompositionToDecodeProperties, MovieExtendsAtom.c:111-165 *)
Definition mvex_set (m : mvex) (id : N) (a b c d e : Z) : res mvex :=
  match find_trep (length (mv_trep m)) 0 (mv_trex m) id with
  | Some i =>
      match nth_error (mv_trex m) i with
      | Some (ALeaf _ (inr t)) => Ok (mkMvex (upd (mv_trex m) i (ALeaf mvkid (inr (trep_set t a b c d e)))) (mv_trep m))
      | _ => UB
      end
  | None => Ok (mkMvex (mv_trex m) (mv_trep m ++ [ALeaf mvkid (inr (trep_set (mkTrep 0 0 id []) a b c d e))]))
  end.
(* ISOSetCompositonToDecodePropertiesForFragments, MP4MovieFile.c:462-489 *)
Definition set_composition (o : option mvex) (id : N) (a b c d e : Z) : res mvex :=
  match o with None => Err MP4BadParamErr | Some m => mvex_set m id a b c d e end.

(* a movie record: its moovAtomPtr is a moov, or a moof from the first
   fragment on; then both calls look into the moof as if it were a moov *)
Inductive mstate := InMovie (o : option mvex) | InFragment (m : mvex) (g : frag).
Inductive mcall :=
| SetDefaults (id dur size sync pad : N)
| SetComposition (id : N) (a b c d e : Z).
Definition mcall_run (s : mstate) (c : mcall) : res mstate :=
  match s with
  | InFragment _ _ => UB
  | InMovie o =>
      match c with
      | SetDefaults id dur size sync pad => Ok (InMovie (Some (set_defaults o id dur size sync pad)))
      | SetComposition id a b c d e => do m <- set_composition o id a b c d e; Ok (InMovie (Some m))
      end
  end.
(* a program that goes on after an error *)
Fixpoint mcalls_run (s : mstate) (cs : list mcall) : res mstate :=
  match cs with
  | [] => Ok s
  | c :: r => match mcall_run s c with Ok s' => mcalls_run s' r | Err _ => mcalls_run s r | UB => UB end
  end.

(* getTrackExtendsAtom, MovieExtendsAtom.c:238-262; the pointer keeps its
   value [out] when there is none *)
Fixpoint get_defaults (l : list (atom mvkid)) (id : N) (out : option trex) : option trex :=
  match l with
  | [] => out
  | ALeaf _ (inl t) :: r => if tx_trackID t =? id then Some t else get_defaults r id out
  | _ :: r => get_defaults r id out
  end.

(* the media of a track and its current sample entry, getTrackMedia and
   getSampleDescriptionIndex, MovieAtom.c:424-475: (id, entry, duration of the
   media) of every track that has media; id 0 is refused, a null pointer is
   followed when there is no such track *)
Definition mtrk := (N * N * N)%type.
Definition media_of (ts : list mtrk) (id : N) : res mtrk :=
  if id =? 0 then Err MP4BadParamErr
  else match List.find (fun t => fst (fst t) =? id) ts with Some t => Ok t | None => UB end.
(* setSampleDescriptionIndexes, MovieExtendsAtom.c:293-317: every box in the
   list is taken for a trex *)
Fixpoint set_indexes (ts : list mtrk) (l : list (atom mvkid)) : res (list (atom mvkid)) :=
  match l with
  | [] => Ok []
  | ALeaf _ (inl t) :: r =>
      do k <- media_of ts (tx_trackID t);
      do q <- set_indexes ts r;
      Ok (ALeaf mvkid (inl (mkTrex (tx_ver t) (tx_flags t) (tx_trackID t) (snd (fst k)) (tx_duration t) (tx_size t) (tx_sflags t))) :: q)
  | _ :: _ => UB
  end.
(* maketrackfragments, MovieExtendsAtom.c:167-236, the first time *)
Fixpoint make_tracks (ts : list mtrk) (l : list (atom mvkid)) : res (list wtrk) :=
  match l with
  | [] => Ok []
  | ALeaf _ (inl t) :: r =>
      do k <- media_of ts (tx_trackID t);
      do q <- make_tracks ts r;
      Ok (mkWtrk (tx_trackID t) (mkTdef (tx_descIndex t) (tx_duration t) (tx_size t) (tx_sflags t)) (w32 (snd k)) :: q)
  | _ :: _ => UB
  end.
(* ISOStartMovieFragment, MP4MovieFile.c:341-422, for a movie without
   fragments so far. Putting the movie into its handle is not modelled here
   (FileModel.v): what goes into the file of the mvex is the mvex of the
   result. Not a 3GPP or QuickTime file. *)
Definition start_first (ts : list mtrk) (o : option mvex) : res mstate :=
  match o with
  | None => Err MP4BadParamErr
  | Some m =>
      do l <- set_indexes ts (mv_trex m);
      do ws <- make_tracks ts l;
      Ok (InFragment (mkMvex l (mv_trep m)) (frag_start ws))
  end.

(* ISOAddDelayToTrackFragmentDecodeTime, MP4MovieFile.c:424-460 *)
Definition delay_track (d : N) (x : wtrk * traf) : res (wtrk * traf) :=
  let (w, t) := x in
  match f_time t with
  | None => UB
  | Some td =>
      Ok (mkWtrk (wk_id w) (wk_def w) (w32 (wk_time w + d)),
          mkTraf (f_hdr t) (Some (mkTfdt (td_ver td) (td_flags td) (w64 (td_time td + d)))) (f_saiz t) (f_saio t) (f_runs t) (f_sgpd t) (f_sbgp t))
  end.
Definition frag_delay (d : N) (g : frag) : res frag :=
  do l <- mapm (delay_track d) (g_trks g); Ok (mkFrag l (g_data g)).
Definition add_delay (d : N) (s : mstate) : res mstate :=
  match s with
  | InMovie _ => Err MP4InvalidMediaErr
  | InFragment m g => do g' <- frag_delay d g; Ok (InFragment m g')
  end.

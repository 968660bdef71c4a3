(* ForeignModel.v -- boxes of one's own in a movie and its tracks. *)
From Verif Require Import Base AtomModel ForeignSpec.

Section Foreign.
Variable L : Type.
Variable leafType : L -> N.
Notation atom := (atom L).
Notation atype := (atype L leafType).

(* MP4NewForeignAtom, MP4UserData.c:207-236: the uuid of the structure stays
   zero; MP4NewUUIDAtom, MP4UserData.c:261-292, where MP4CreateAtom makes an
   unknown box for the type 'uuid'. The caller's array has 16 bytes. *)
Definition foreign_new (b : fbox) : atom :=
  match b with
  | FBox ty d => AOpaque _ ty (if ty =? T_uuid then repeat 0 16 else []) d
  | FUuid u d => AOpaque _ T_uuid u d
  end.
(* MP4GetForeignAtom, MP4UserData.c:238-259: the box is taken for an
   MP4UnknownAtom; MP4FreeSpaceAtom has the same members, MP4Atoms.h:284-289,
   1321-1326; those of other boxes are something else. The uuid is written only
   for the type 'uuid'. *)
Definition foreign_get (a : atom) : res (N * option (list N) * list N) :=
  match a with
  | AOpaque _ ty u d => Ok (ty, (if ty =? T_uuid then Some u else None), d)
  | AFree _ ty d => Ok (ty, None, d)
  | _ => UB
  end.

(* MP4AddAtomToMovie, MP4Movies.c:470-482, addAtom, MovieAtom.c:316-364, and
   MP4AddAtomToTrack, MovieTracks.c:744-758, addAtom, TrackAtom.c:375-429: the
   box goes into the list first; then an occupied member is an error, and the
   box stays in the list. *)
Definition add_kid (c : N) (kids : list atom) (a : atom) : option Z * list atom :=
  ((if slot_used L leafType c kids (atype a) then Some (dup_err c) else None), kids ++ [a]).
(* the i-th track, counted from 0, of the boxes of a movie; trackList holds
   them in the order of the list, MovieAtom.c:338-341 *)
Fixpoint add_to_track (i : nat) (kids : list atom) (a : atom) : option (option Z * list atom) :=
  match kids with
  | [] => None
  | ABoxes _ ty ks :: r =>
      if ty =? T_trak then
        match i with
        | O => let (e, ks') := add_kid ty ks a in Some (e, ABoxes _ ty ks' :: r)
        | S j => match add_to_track j r a with Some (e, r') => Some (e, ABoxes _ ty ks :: r') | None => None end
        end
      else match add_to_track i r a with Some (e, r') => Some (e, ABoxes _ ty ks :: r') | None => None end
  | k :: r => match add_to_track i r a with Some (e, r') => Some (e, k :: r') | None => None end
  end.
(* calls on a movie: the results (no error, or the error) and the movie
   after them. A track that does not exist cannot be named: undefined. *)
Definition own_step (m : atom) (o : fop) : res (option Z * atom) :=
  match m with
  | ABoxes _ ty kids =>
      match o with
      | FMovie b => let (e, ks) := add_kid ty kids (foreign_new b) in Ok (e, ABoxes _ ty ks)
      | FTrack i b => match add_to_track i kids (foreign_new b) with Some (e, ks) => Ok (e, ABoxes _ ty ks) | None => UB end
      end
  | _ => UB
  end.
Fixpoint own_run (m : atom) (os : list fop) : res (list (option Z) * atom) :=
  match os with
  | [] => Ok ([], m)
  | o :: r => do x <- own_step m o; do y <- own_run (snd x) r; Ok (fst x :: fst y, snd y)
  end.
End Foreign.

(* SaveModel.v -- moving chunk offsets when a movie is saved or opened:
   mdatMoved of stsc, minf, mdia, trak and moov; LocalPutMovieIntoHandle and
   MergeMovieData as far as the offsets go. *)
From Verif Require Import Base ChunkSpec ChunkModel MdatModel.

(* One track: the runs of its stsc, its stco, and what looking up a sample
   description, its data reference and that entry's self-contained flag gives
   (stsd->getEntry, dref->getEntry, flags & 1). The number of saio boxes in
   the sample table. *)
Record trk := mkTrk { tk_runs : list run; tk_offs : stco; tk_self : N -> res bool; tk_saio : N }.

(* MP4SampleToChunkAtom mdatMoved, SampleToChunkAtom.c:111-183; [saved] and
   [self] are savedDescIndex and savedSelfContained *)
Fixpoint runs_moved (es : list run) (self_of : N -> res bool) (saved : N) (self : bool)
    (base fin : N) (off : Z) (t : stco) : res stco :=
  match es with
  | [] => Ok t
  | (f, s, d) :: r =>
      do b <- (if d =? saved then Ok self else self_of d);
      let saved := if d =? saved then saved else d in
      do t' <- (if b then
          let k := match r with
                   | [] => sub32 (w32 (len (co_list t) + 1)) f
                   | (f2, _, _) :: _ => sub32 f2 f
                   end in
          stco_moved t f (sub32 (w32 (f + k)) 1) base fin off
        else Ok t);
      runs_moved r self_of saved b base fin off t'
  end.

(* MP4SampleAuxiliaryInformationOffsetsAtom mdatMoved,
   SampleAuxiliaryInformationOffsetsAtom.c:187-203: the loop runs to
   j = entry_count inclusive, one past the end of the array, whose size is
   always entry_count (addOffsets 170, mergeOffsets 221, parse 118) *)
Definition saio_moved : res unit := UB.

(* MP4MediaInformationAtom mdatMoved, MediaInformationAtom.c:705-743; through
   mdia (MediaAtom.c:74-87) and trak (TrackAtom.c:134-163). The meta boxes of
   the track are not part of this model. *)
Definition trk_moved (base fin : N) (off : Z) (k : trk) : res trk :=
  do t <- runs_moved (tk_runs k) (tk_self k) 0 false base fin off (tk_offs k);
  do _ <- (if tk_saio k =? 0 then Ok tt else saio_moved);
  Ok (mkTrk (tk_runs k) t (tk_self k) (tk_saio k)).
(* MP4MovieAtom mdatMoved, MovieAtom.c:536-573, all tracks *)
Fixpoint moov_moved (base fin : N) (off : Z) (ks : list trk) : res (list trk) :=
  match ks with
  | [] => Ok []
  | k :: r => do k' <- trk_moved base fin off k; do r' <- moov_moved base fin off r; Ok (k' :: r')
  end.

(* -((s32) x) *)
Definition neg_s32 (x : N) : res Z := if (s32_of x =? -2147483648)%Z then UB else Ok (- s32_of x)%Z.

(* LocalPutMovieIntoHandle, MP4MovieFile.c:33-272, for a movie whose boxes
   before the media data take [head] bytes and whose media data has
   [data] bytes. Result: the tables at the moment they are serialized, and
   after the call. mdat->size is 1 iff the data needs a 64-bit size
   (MediaDataAtom.c:126-153); [include] is include_mdat. *)
Definition large (data : N) : bool := negb (N.shiftr data 32 =? 0).
Definition move_up (head data : N) : N :=
  w32 (w32 (head + 8) + (if large data then 8 else 0)).
Definition save_tables (include : bool) (head data : N) (ks : list trk) : res (list trk * list trk) :=
  if include && large data then Err MP4NotImplementedErr else
  let u := move_up head data in
  do ks1 <- moov_moved 0 data (s32_of u) ks;
  do m <- neg_s32 u;
  do ks2 <- moov_moved u (w64 (data + u)) m ks1;
  Ok (ks1, ks2).

(* MergeMovieData, MP4Movies.c:280-342, for one media data box of [data]
   bytes starting at file offset [at]. The result of mdatMoved is ignored
   there: an error leaves the tables partly moved, here an error. *)
Definition open_tables (at_ data : N) (ks : list trk) : res (list trk) :=
  let o := w32 at_ in
  do m <- neg_s32 o;
  moov_moved o (w64 (data + o)) m ks.

(* MergeMovieData with further media data boxes, MP4Movies.c:314-336: each
   is appended to the first one, and the offsets that point into it move
   there. [ms] are the boxes in file order with the offsets of their data. *)
Fixpoint merge_more (m : mdat) (ms : list (N * mdat)) (ks : list trk) : res (mdat * list trk) :=
  match ms with
  | [] => Ok (m, ks)
  | (at_, o) :: r =>
      let off := w32 at_ in
      do ks' <- moov_moved off (w64 (len (md_data o) + off)) (s32_of (w32 (sub64 (len (md_data m)) off))) ks;
      do m' <- mdat_merge m o;
      merge_more m' r ks'
  end.
Definition merge_data (ms : list (N * mdat)) (ks : list trk) : res (mdat * list trk) :=
  match ms with
  | [] => Ok (mdat_new, ks)
  | (at_, m) :: r => do ks' <- open_tables at_ (len (md_data m)) ks; merge_more m r ks'
  end.

(* FileModel.v -- a movie as the boxes it consists of: writing it out
   (MP4MovieFile.c) and opening it (MP4Movies.c). *)
From Verif Require Import Base AtomModel BoxModel SttsModel CttsModel SyncModel SizeModel MarkModel ChunkSpec ChunkModel
  MdatModel SaveModel TextModel EntryModel MediaSpec MediaModel.

Definition T_sgnt := fourcc 106 80 32 32.
Definition T_moof := fourcc 109 111 111 102.

Section File.
(* extension boxes of sample entries, the sample entries with a parser of
   their own, and all the boxes that are not looked at here *)
Context {T E X : Type} (ct : codec T) (dt : T) (ce : codec E) (edri : E -> N) (cx : codec X).

(* the boxes of a movie that take part in finding its samples, then the others *)
Definition fleaf : Type :=
  mdat + (stts + (ctts + (stss + (stsz + (stsc + (stco + (padb + (stsd (T:=T) (O:=E) + (dref (durl + durn) + X))))))))).
Definition fcodec : codec fleaf :=
  csum mdat_codec (csum stts_codec (csum ctts_codec (csum stss_codec (csum stsz_codec (csum stsc_codec (csum stco_codec
    (csum padb_codec (csum (stsd_codec ct dt ce) (csum (dref_codec entry_codec (inl (mkUrl T_url 0 1 None))) cx))))))))).
Notation tree := (atom fleaf).
Definition L_mdat (a : mdat) : fleaf := inl a.
Definition L_stts (a : stts) : fleaf := inr (inl a).
Definition L_ctts (a : ctts) : fleaf := inr (inr (inl a)).
Definition L_stss (a : stss) : fleaf := inr (inr (inr (inl a))).
Definition L_stsz (a : stsz) : fleaf := inr (inr (inr (inr (inl a)))).
Definition L_stsc (a : stsc) : fleaf := inr (inr (inr (inr (inr (inl a))))).
Definition L_stco (a : stco) : fleaf := inr (inr (inr (inr (inr (inr (inl a)))))).
Definition L_padb (a : padb) : fleaf := inr (inr (inr (inr (inr (inr (inr (inl a))))))).
Definition L_stsd (a : stsd (T:=T) (O:=E)) : fleaf := inr (inr (inr (inr (inr (inr (inr (inr (inl a)))))))).
Definition L_dref (a : dref (durl + durn)) : fleaf := inr (inr (inr (inr (inr (inr (inr (inr (inr (inl a))))))))).
Definition L_other (x : X) : fleaf := inr (inr (inr (inr (inr (inr (inr (inr (inr (inr x))))))))).
Definition is_mdat (l : fleaf) : option mdat := match l with inl a => Some a | _ => None end.
Definition is_stts (l : fleaf) : option stts := match l with inr (inl a) => Some a | _ => None end.
Definition is_ctts (l : fleaf) : option ctts := match l with inr (inr (inl a)) => Some a | _ => None end.
Definition is_stss (l : fleaf) : option stss := match l with inr (inr (inr (inl a))) => Some a | _ => None end.
Definition is_stsz (l : fleaf) : option stsz := match l with inr (inr (inr (inr (inl a)))) => Some a | _ => None end.
Definition is_stsc (l : fleaf) : option stsc := match l with inr (inr (inr (inr (inr (inl a))))) => Some a | _ => None end.
Definition is_stco (l : fleaf) : option stco := match l with inr (inr (inr (inr (inr (inr (inl a)))))) => Some a | _ => None end.
Definition is_padb (l : fleaf) : option padb := match l with inr (inr (inr (inr (inr (inr (inr (inl a))))))) => Some a | _ => None end.
Definition is_stsd (l : fleaf) : option stsd :=
  match l with inr (inr (inr (inr (inr (inr (inr (inr (inl a)))))))) => Some a | _ => None end.
Definition is_dref (l : fleaf) : option (dref (durl + durn)) :=
  match l with inr (inr (inr (inr (inr (inr (inr (inr (inr (inl a))))))))) => Some a | _ => None end.

(* the empty tables a sample table without them gets, SampleTableAtom.c:468-525 *)
Definition fdflt (ty : N) : fleaf :=
  if ty =? T_stts then L_stts stts_new
  else if ty =? T_stsd then L_stsd (mkStsd 0 0 [])
  else if ty =? T_stsz then L_stsz (stsz_new 0)
  else if ty =? T_stsc then L_stsc stsc_new
  else L_stco stco_new.

(* ------------------------------------------------------------------ *)
(* The members containers keep of their children                       *)

(* the child boxes of the child of type [ty]: self->trackMedia and the like,
   set by addAtom (TrackAtom.c:375-429, MediaAtom.c:89-122,
   MediaInformationAtom.c:67-97); there is at most one *)
Fixpoint sub (ty : N) (ks : list tree) : option (list tree) :=
  match ks with
  | [] => None
  | ABoxes _ t l :: r => if t =? ty then Some l else sub ty r
  | _ :: r => sub ty r
  end.
Fixpoint pick {A} (f : fleaf -> option A) (ks : list tree) : option A :=
  match ks with
  | [] => None
  | ALeaf _ l :: r => match f l with Some a => Some a | None => pick f r end
  | _ :: r => pick f r
  end.
(* changing the box a member points to *)
Fixpoint put_sub (ty : N) (g : list tree -> list tree) (ks : list tree) : list tree :=
  match ks with
  | [] => []
  | ABoxes _ t l :: r => if t =? ty then ABoxes _ t (g l) :: r else ABoxes _ t l :: put_sub ty g r
  | k :: r => k :: put_sub ty g r
  end.
Fixpoint put_leaf {A} (f : fleaf -> option A) (x : fleaf) (ks : list tree) : list tree :=
  match ks with
  | [] => []
  | ALeaf _ l :: r => match f l with Some _ => ALeaf _ x :: r | None => ALeaf _ l :: put_leaf f x r end
  | k :: r => k :: put_leaf f x r
  end.
(* the member, or the error given when it is NULL, TrackAtom.c:143,
   MediaAtom.c:79, MediaInformationAtom.c:720-726 *)
Definition need {A} (o : option A) : res A := match o with Some a => Ok a | None => Err MP4InvalidMediaErr end.

(* ------------------------------------------------------------------ *)
(* Tracks as mdatMoved sees them                                       *)

(* dataEntry->flags & 1, SampleToChunkAtom.c:154; of an entry that is neither
   a url nor a urn box other memory is read *)
Definition entry_self (a : atom (durl + durn)) : res bool :=
  match a with
  | ALeaf _ (inl u) => Ok (N.land (ul_flags u) 1 =? 1)
  | ALeaf _ (inr u) => Ok (N.land (un_flags u) 1 =? 1)
  | _ => UB
  end.
(* SampleToChunkAtom.c:145-154 *)
Definition self_of (sd : stsd (T:=T) (O:=E)) (dr : dref (durl + durn)) (d : N) : res bool :=
  do e <- stsd_get sd d; do x <- dref_get dr (ent_dri edri e); entry_self x.
Definition saios (ks : list tree) : N := len (filter (fun a => atype fleaf (c_ty fcodec) a =? T_saio) ks).
(* the members used by mdatMoved of minf, MediaInformationAtom.c:705-743 *)
Definition trk_of (trak : list tree) : res trk :=
  do mdia <- need (sub T_mdia trak);
  do minf <- need (sub T_minf mdia);
  do dinf <- need (sub T_dinf minf);
  do stbl <- need (sub T_stbl minf);
  do dr <- need (pick is_dref dinf);
  do sc <- need (pick is_stsc stbl);
  do cs <- need (pick is_stco stbl);
  do sd <- need (pick is_stsd stbl);
  Ok (mkTrk (sc_entries sc) cs (self_of sd dr) (saios stbl)).
Definition trk_put (trak : list tree) (s : stco) : list tree :=
  put_sub T_mdia (put_sub T_minf (put_sub T_stbl (put_leaf is_stco (L_stco s)))) trak.
(* the tracks of the movie box in order, MovieAtom.c:316-364 *)
Fixpoint moov_trks (ks : list tree) : res (list trk) :=
  match ks with
  | [] => Ok []
  | ABoxes _ t l :: r =>
      if t =? T_trak then do k <- trk_of l; do rs <- moov_trks r; Ok (k :: rs) else moov_trks r
  | _ :: r => moov_trks r
  end.
Fixpoint moov_put (ks : list tree) (ts : list trk) : list tree :=
  match ks with
  | [] => []
  | ABoxes _ t l :: r =>
      if t =? T_trak then
        match ts with
        | k :: ts' => ABoxes _ t (trk_put l (tk_offs k)) :: moov_put r ts'
        | [] => ABoxes _ t l :: moov_put r []
        end
      else ABoxes _ t l :: moov_put r ts
  | k :: r => k :: moov_put r ts
  end.
(* metadata boxes have item locations that move as well (MovieAtom.c:557-568,
   TrackAtom.c:146-158): such movies are not modelled here *)
Definition has_meta (ks : list tree) : bool :=
  existsb (fun a => (atype fleaf (c_ty fcodec) a =? T_meta) || (atype fleaf (c_ty fcodec) a =? T_meco)) ks.
Fixpoint trak_metas (ks : list tree) : bool :=
  match ks with
  | [] => false
  | ABoxes _ t l :: r => ((t =? T_trak) && has_meta l) || trak_metas r
  | _ :: r => trak_metas r
  end.
Definition metas (ks : list tree) : bool := has_meta ks || trak_metas ks.

(* ------------------------------------------------------------------ *)
(* Files                                                               *)

(* MP4PrivateMovieRecord, MP4Impl.h: the boxes at file level that are kept.
   [f_moov]: the children of the movie box. *)
Record file := mkFile { f_sgnt : option tree; f_ftyp : option tree; f_jp2h : option tree;
  f_meta : option tree; f_meco : option tree; f_moov : option (list tree); f_mdat : option mdat }.
Definition f_none : file := mkFile None None None None None None None.

Definition opt {A} (o : option A) : list A := match o with Some a => [a] | None => [] end.
Definition fsize : tree -> N := asize fleaf (c_ty fcodec) (c_size fcodec).
Definition fwrite : tree -> res (list N) := awrite fleaf (c_ty fcodec) (c_size fcodec) (c_w fcodec).
Fixpoint fwrites (l : list tree) : res (list N) :=
  match l with [] => Ok [] | a :: r => do x <- fwrite a; do y <- fwrites r; Ok (x ++ y) end.
Definition moov_box (ks : list tree) : tree := ABoxes _ T_moov ks.

(* LocalPutMovieIntoHandle, MP4MovieFile.c:33-272, without prepend_handle, for
   a movie whose durations are up to date (calculateDuration, line 60). The
   bytes written, and the movie box afterwards. A chunk offset that needs 64
   bits only once it has moved is written wrongly (C15_late_promotion_refuted):
   no result here. *)
Definition put_movie (include : bool) (f : file) : res (list N * file) :=
  let heads := opt (f_sgnt f) ++ opt (f_ftyp f) ++ opt (f_jp2h f) in
  if match f_meta f, f_meco f with None, None => false | _, _ => true end ||
     match f_moov f with Some ks => metas ks | None => false end then UB else
  let head := fold_left (fun a k => w32 (a + fsize k)) (heads ++ opt (option_map moov_box (f_moov f))) 0 in
  do ab <- match f_mdat f, f_moov f with
           | Some d, Some ks =>
               do ts <- moov_trks ks;
               do x <- save_tables include head (len (md_data d)) ts;
               Ok (Some (moov_put ks (fst x)), Some (moov_put ks (snd x)))
           | Some d, None => if include && large (len (md_data d)) then Err MP4NotImplementedErr else Ok (None, None)
           | None, m => Ok (m, m)
           end;
  if match f_moov f, fst ab with
     | Some a, Some b => negb (fsize (moov_box a) =? fsize (moov_box b))
     | _, _ => false end then UB else
  do x <- fwrites (heads ++ opt (option_map moov_box (fst ab)));
  do y <- (match f_mdat f with Some d => if include then mdat_serialize d else Ok [] | None => Ok [] end);
  Ok (x ++ y, mkFile (f_sgnt f) (f_ftyp f) (f_jp2h f) (f_meta f) (f_meco f) (snd ab) (f_mdat f)).
(* MP4PutMovieIntoHandle, MP4MovieFile.c:274-278 *)
Definition to_handle (f : file) : res (list N * file) := put_movie true f.
(* MP4WriteMovieToFile, MP4MovieFile.c:280-337: mdat is not looked at before
   it is used *)
Definition to_file (f : file) : res (list N * file) :=
  do x <- put_movie false f;
  match f_mdat f with
  | None => UB
  | Some d => do y <- mdat_file d; Ok (fst x ++ y, snd x)
  end.

(* one box of the file in the loop of parseMovie, MP4Movies.c:126-191; [at_]
   is where the contents of the box start. Media data boxes are collected,
   with their offsets. Movie fragments are modelled in MergeModel.v only. *)
Definition once {A} (o : option A) (a : A) : res (option A) :=
  match o with Some _ => Err MP4BadDataErr | None => Ok (Some a) end.
Definition take_box (at_ : N) (a : tree) (s : file * list (N * mdat)) : res (file * list (N * mdat)) :=
  let '(f, ms) := s in
  let ty := atype fleaf (c_ty fcodec) a in
  if ty =? T_moov then
    match a with
    | ABoxes _ _ ks =>
        do m <- once (f_moov f) ks;
        Ok (mkFile (f_sgnt f) (f_ftyp f) (f_jp2h f) (f_meta f) (f_meco f) m (f_mdat f), ms)
    | _ => UB
    end
  else if ty =? T_mdat then
    match a with
    | ALeaf _ l =>
        match is_mdat l with
        | Some d => Ok (f, if len (md_data d) =? 0 then ms else ms ++ [(at_, d)])
        | None => UB
        end
    | _ => UB
    end
  else if ty =? T_moof then UB
  else if ty =? T_ftyp then
    do m <- once (f_ftyp f) a; Ok (mkFile (f_sgnt f) m (f_jp2h f) (f_meta f) (f_meco f) (f_moov f) (f_mdat f), ms)
  else if ty =? T_sgnt then
    do m <- once (f_sgnt f) a; Ok (mkFile m (f_ftyp f) (f_jp2h f) (f_meta f) (f_meco f) (f_moov f) (f_mdat f), ms)
  else if ty =? T_jp2h then
    do m <- once (f_jp2h f) a; Ok (mkFile (f_sgnt f) (f_ftyp f) m (f_meta f) (f_meco f) (f_moov f) (f_mdat f), ms)
  else if ty =? T_meta then
    do m <- once (f_meta f) a; Ok (mkFile (f_sgnt f) (f_ftyp f) (f_jp2h f) m (f_meco f) (f_moov f) (f_mdat f), ms)
  else if ty =? T_meco then
    do m <- once (f_meco f) a; Ok (mkFile (f_sgnt f) (f_ftyp f) (f_jp2h f) (f_meta f) m (f_moov f) (f_mdat f), ms)
  else Ok (f, ms).
(* the loop; [pos] is the position in the file *)
Fixpoint top (fuel : nat) (pos : N) (i : list N) (s : file * list (N * mdat)) : res (file * list (N * mdat)) :=
  match fuel with
  | O => Err OutOfFuel
  | S g =>
      match snd (parse_top fleaf (c_leaf fcodec) (c_ty fcodec) fdflt i) with
      | Ok ((a, _), r) =>
          do h <- parse_hdr (mkR i 0);
          do s' <- take_box (pos + h_read (fst h)) a s;
          if len r =? 0 then Ok s' else top g (pos + (len i - len r)) r s'
      | Err e => if (e =? MP4EOF)%Z then Ok s else Err e
      | UB => UB
      end
  end.
(* parseMovie, MP4Movies.c:102-230, with MergeMovieData, 280-342 *)
Definition open_movie (i : list N) : res file :=
  do s <- top (length i + 1) 0 i (f_none, []);
  let '(f, ms) := s in
  match f_moov f, f_ftyp f with
  | None, None => Err MP4BadDataErr
  | _, _ =>
      match ms with
      | [] => Ok f
      | _ =>
          if match f_meta f with Some _ => true | None => false end ||
             match f_moov f with Some ks => metas ks | None => false end then UB else
          do x <- match f_moov f with
                  | Some ks => do ts <- moov_trks ks; do dt <- merge_data ms ts; Ok (fst dt, Some (moov_put ks (snd dt)))
                  | None => do dt <- merge_data ms []; Ok (fst dt, None)
                  end;
          Ok (mkFile (f_sgnt f) (f_ftyp f) (f_jp2h f) (f_meta f) (f_meco f) (snd x) (Some (fst x)))
      end
  end.
End File.

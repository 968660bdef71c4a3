(* ReopenModel.v -- the tables of the tracks of a movie, as the calls that add
   and read samples use them. *)
From Verif Require Import Base AtomModel BoxModel SttsModel CttsModel SyncModel SizeModel MarkModel ChunkSpec ChunkModel
  MdatModel SaveModel TextModel EntryModel MediaSpec MediaModel FileModel.

Section Reopen.
Context {T E X : Type} (edri : E -> N).
Notation tree := (atom (fleaf (T:=T) (E:=E) (X:=X))).

(* The media data the data references lead to. A reference with flags 1 leads
   to the media data of the movie: set when the reference is made
   (MP4Media.c:1190-1204) and when the file is opened (mdatArrived of minf,
   MediaInformationAtom.c:250-283). Data in other files is not modelled here:
   no result. *)
Definition own_ref (a : atom (durl + durn)) : bool :=
  match a with
  | ALeaf _ (inl u) => ul_flags u =? 1
  | ALeaf _ (inr u) => un_flags u =? 1
  | _ => false
  end.
(* The members of a track used by MP4GetIndMediaSampleWithPad,
   MP4Media.c:1748-1789, and MP4AddMediaSamplesPad *)
Definition media_of (trak : list tree) : res media :=
  do mdia <- need (sub T_mdia trak);
  do minf <- need (sub T_minf mdia);
  do dinf <- need (sub T_dinf minf);
  do stbl <- need (sub T_stbl minf);
  do dr <- need (pick is_dref dinf);
  do st <- need (pick is_stts stbl);
  do sz <- need (pick is_stsz stbl);
  do sc <- need (pick is_stsc stbl);
  do co <- need (pick is_stco stbl);
  do sd <- need (pick is_stsd stbl);
  if forallb own_ref (dr_kids dr) then
    Ok (mkMedia st (pick is_ctts stbl) (pick is_stss stbl) (pick is_padb stbl) sz co sc
          (map (ent_dri edri) (sd_ents sd)) (len (dr_kids dr)))
  else UB.
Fixpoint medias (ks : list tree) : res (list media) :=
  match ks with
  | [] => Ok []
  | ABoxes _ t l :: r => if t =? T_trak then do m <- media_of l; do ms <- medias r; Ok (m :: ms) else medias r
  | _ :: r => medias r
  end.
(* all tracks of a movie and its media data. Without media data the bytes are
   looked for in the file (MP4DataHandler.c:32-39): no result. *)
Definition movie_of (f : file (T:=T) (E:=E) (X:=X)) : res movie :=
  match f_moov f, f_mdat f with
  | Some ks, Some d => do ms <- medias ks; Ok (ms, d)
  | _, _ => UB
  end.
(* a movie that was opened: for every track whether currentSampleEntry of its
   sample table is set. The parser does not set it; giving a description with
   a batch does (setSampleEntry, SampleTableAtom.c:163-181). *)
Definition opened_of (f : file (T:=T) (E:=E) (X:=X)) : res (movie * list bool) :=
  do w <- movie_of f; Ok (w, map (fun _ => false) (fst w)).
End Reopen.
(* The calls of MediaModel.v on such a movie. MediaModel.v takes the last
   description for the current one: without a current one
   getCurrentDataReferenceIndex refuses, SampleTableAtom.c:219-235. *)
Definition opened_step (w : movie * list bool) (o : aop) : res (option (info * N) * (movie * list bool)) :=
  match o with
  | AAdd i _ b =>
      match nth_error (snd w) i with
      | None => Err MP4BadParamErr
      | Some c =>
          let c' := c || given_to (b_entry b) in
          if (0 <? b_count b) && negb c' then Err MP4InvalidMediaErr
          else do x <- movie_step (fst w) o; Ok (fst x, (snd x, upd (snd w) i c'))
      end
  | AGet _ _ => do x <- movie_step (fst w) o; Ok (fst x, (snd x, snd w))
  end.
Fixpoint opened_run (w : movie * list bool) (os : list aop) : res (list (option (info * N))) :=
  match os with
  | [] => Ok []
  | o :: r => do x <- opened_step w o; do y <- opened_run (snd x) r; Ok (fst x :: y)
  end.

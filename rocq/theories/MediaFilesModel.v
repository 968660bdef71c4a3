(* MediaFilesModel.v -- samples of a media whose data are in other files. *)
From Verif Require Import Base AtomModel BoxModel MdatModel TrackModel IlocModel ItemModel TextModel SizeModel ChunkSpec ChunkModel EntryModel ElsewhereModel.

(* the tables of a media that say where its samples are: sizes, chunk offsets,
   chunks, the data reference index of each sample description and the data
   reference box; the entry whose file is open and its contents
   (dataHandler and dataEntryIndex, MP4Atoms.h:575-576) *)
Record source := mkSource { so_sz : stsz; so_co : stco; so_sc : stsc; so_descs : list N;
                            so_dref : dref (durl + durn); so_open : option (N * list N) }.
Definition with_open (x : source) (o : option (N * list N)) : source :=
  mkSource (so_sz x) (so_co x) (so_sc x) (so_descs x) (so_dref x) o.
Definition with_chunks (x : source) (sc : stsc) : source :=
  mkSource (so_sz x) (so_co x) sc (so_descs x) (so_dref x) (so_open x).

(* the file of an entry: getEntry, DataReferenceAtom.c:54-70, and
   MP4CreateDataHandler, MP4DataHandler.c:32-39, for entries without an mdat *)
Definition entry_file (e : around) (d : dref (durl + durn)) (n : N) : res (list N) :=
  if len (dr_kids d) <? n then Err MP4BadParamErr
  else do a <- dref_get d n; do p <- entry_place a; open_entry e (fst p) (snd p).
(* openDataHandler, MediaInformationAtom.c:183-232, and closeDataHandler
   133-181: what was open is closed before anything is looked at, so that
   nothing is open when the new entry cannot be opened *)
Definition open_data (e : around) (x : source) (n : N) : res (list N) * source :=
  if n =? 0 then (Err MP4BadParamErr, x)
  else
    let anew := match entry_file e (so_dref x) n with
                | Ok d => (Ok d, with_open x (Some (n, d)))
                | Err c => (Err c, with_open x None)
                | UB => (UB, with_open x None)
                end in
    match so_open x with
    | Some (m, d) => if m =? n then (Ok d, x) else anew
    | None => anew
    end.
(* MP4GetMediaSampleDescription, MP4Media.c:720-776: the data reference index *)
Definition ref_of_desc (x : source) (d : N) : res N :=
  if (d =? 0) || (len (so_descs x) <? d) then Err MP4BadParamErr
  else match nthN (so_descs x) (d - 1) with Some r => Ok r | None => UB end.

(* MP4GetIndMediaSampleWithPad, MP4Media.c:1725-1887: the bytes and the
   description index. Times, sync marks and padding, which are modelled in
   MediaModel.v, are left out. *)
Definition get_sample (e : around) (x : source) (n : N) : res (list N * N) * source :=
  match stsc_lookup (so_sc x) n with
  | Err c => (Err c, x)
  | UB => (UB, x)
  | Ok ((c, d, fs), sc) =>
      let x1 := with_chunks x sc in
      match (do so <- stsz_get_off (so_sz x) n (match fs with Some f => f | None => 0 end);
             do off <- stco_get (so_co x) c;
             do r <- ref_of_desc x d;
             Ok (so, off, r)) with
      | Err c => (Err c, x1)
      | UB => (UB, x1)
      | Ok (so, off, r) =>
          let '(f, x2) := open_data e x1 r in
          (do f <- f;
           do bs <- (if 0 <? fst so then file_copy f (w64 (off + snd so)) (fst so) else Ok []);
           Ok (bs, d), x2)
      end
  end.

(* MP4CheckMediaDataReferences, MP4Media.c:1116-1154, with testDataEntry,
   MediaInformationAtom.c:99-129: the entry that is open is not looked at *)
Fixpoint test_entries (e : around) (o : option (N * list N)) (i : N) (l : list (atom (durl + durn))) : res unit :=
  match l with
  | [] => Ok tt
  | a :: r => do _ <- (if match o with Some (m, _) => m =? i | None => false end then Ok tt else check_entry e a);
              test_entries e o (i + 1) r
  end.
Definition check_media (e : around) (x : source) : res unit := test_entries e (so_open x) 1 (dr_kids (so_dref x)).

(* samples read one after the other, some of them not found *)
Fixpoint after_reads (e : around) (x : source) (ns : list N) : res source :=
  match ns with
  | [] => Ok x
  | n :: r => match get_sample e x n with (UB, _) => UB | (_, x') => after_reads e x' r end
  end.

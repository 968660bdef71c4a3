(* MediaModel.v -- adding samples to a media and reading them back, down to
   the tables and the media data box. *)
From Verif Require Import Base AtomModel BoxModel SttsSpec SttsModel CttsSpec CttsModel SyncSpec SyncModel SizeSpec SizeModel
  MarkSpec MarkModel ChunkSpec ChunkModel MdatModel MediaSpec.

(* The sample table of a media that is being written, SampleTableAtom.c:468-525
   (setupNew), and its data references. [me_descs]: the stsd entries, each as
   its dataReferenceIndex; the current sample entry is the last one
   (setSampleEntry, SampleTableAtom.c:163-181; choosing an older one,
   setDefaultSampleEntry, is not modelled). [me_drefs]: number of dref entries,
   all of them with flag 1 and attached to the movie's mdat
   (DataEntryURLAtom.c:44-104). The cslg box is modelled on its own
   (CttsModel.v): it does not influence the answers here. Sample groups and
   dependency flags: elsewhere. Media that hold object descriptors, which are
   rewritten when added (MediaAtom.c:279-289), are not modelled. *)
Record media := mkMedia {
  me_stts : stts; me_ctts : option ctts; me_stss : option stss; me_padb : option padb;
  me_stsz : stsz; me_stco : stco; me_stsc : stsc; me_descs : list N; me_drefs : N }.
Definition media_new (junk drefs : N) : media :=
  mkMedia stts_new None None None (stsz_new junk) stco_new stsc_new [] drefs.

(* addSamples of the sample table, SampleTableAtom.c:255-430, for samples
   that start at [off]; the description is the last one of the table. Signed
   offsets, groups and dependencies are in other files. *)
Definition media_put (m : media) (descs : list N) (off : N) (b : mbat) : res media :=
  let n := sz_count (me_stsz m) in
  do st <- stts_addSamples (me_stts m) (b_count b) (b_durs b);
  do ct <- stbl_offsets (me_ctts m) n (b_count b) (b_offs b);
  do ss <- stbl_sync (me_stss m) n (b_count b) (b_sync b);
  do pb <- stbl_pads (me_padb m) n (b_count b) (b_pads b);
  do sz <- stsz_add (me_stsz m) (b_count b) (b_sizes b);
  do co <- stco_add (me_stco m) off;
  Ok (mkMedia st ct ss pb sz co (stsc_set (me_stsc m) (len (co_list co)) (b_count b) (len descs)) descs (me_drefs m)).

(* MP4AddMediaSamplesPad MP4Media.c:93-117 -> MediaAtom.c:260-297 ->
   addSamples MediaInformationAtom.c:472-530 -> SampleTableAtom.c:255-430;
   getOffset and addSamples of the data entry DataEntryURLAtom.c:44-61, 77-99.
   After an error the C code leaves some tables changed; the model stops. *)
Definition media_add (m : media) (d : mdat) (b : mbat) : res (media * mdat) :=
  let descs := match b_entry b with Some x => me_descs m ++ [x] | None => me_descs m end in
  if 0 <? b_count b then
    match rev descs with
    | [] => Err MP4InvalidMediaErr
    | dri :: _ =>
        if (dri =? 0) || (me_drefs m <? dri) then Err MP4BadParamErr else
        do m' <- media_put m descs (len (md_data d)) b;
        do d' <- mdat_add d (b_data b);
        Ok (m', d')
    end
  else Ok (mkMedia (me_stts m) (me_ctts m) (me_stss m) (me_padb m) (me_stsz m) (me_stco m) (me_stsc m) descs (me_drefs m), d).

(* the description of the sample and the data handler, MP4Media.c:720-776 and
   openDataHandler MediaInformationAtom.c:183-232: every data reference leads
   to the mdat *)
Definition media_open (m : media) (desc : N) : res unit :=
  if (desc =? 0) || (len (me_descs m) <? desc) then Err MP4BadParamErr
  else match nth_error (me_descs m) (N.to_nat (desc - 1)) with
       | None => UB
       | Some dri => if (dri =? 0) || (me_drefs m <? dri) then Err MP4BadParamErr else Ok tt
       end.

(* an s32 duration assigned to a u64 *)
Definition u64_dur (d : Z) : N := u64_of d.
(* MP4GetIndMediaSampleWithPad, MP4Media.c:1725-1887, all results requested:
   the answer, the description index, and the media with its lookup caches
   updated. On an empty chunk table the first sample of the chunk is not
   written by the lookup; the size table then refuses the number without
   looking at it. *)
Definition media_get (m : media) (d : mdat) (n : N) : res (info * N) * media :=
  let '((t, du), st) := stts_time (me_stts m) n in
  let m1 := mkMedia st (me_ctts m) (me_stss m) (me_padb m) (me_stsz m) (me_stco m) (me_stsc m) (me_descs m) (me_drefs m) in
  match stsc_lookup (me_stsc m) n with
  | Ok ((c, desc, fs), sc) =>
      let m2 := mkMedia st (me_ctts m) (me_stss m) (me_padb m) (me_stsz m) (me_stco m) sc (me_descs m) (me_drefs m) in
      (do so <- stsz_get_off (me_stsz m) n (match fs with Some f => f | None => 0 end);
       do pad <- reported_pad (me_padb m) n;
       do off <- stco_get (me_stco m) c;
       do _ <- media_open m desc;
       do bs <- (if 0 <? fst so then mdat_copy d (w64 (off + snd so)) (fst so) else Ok []);
       do sync <- reported_sync (me_stss m) n;
       Ok (mkInfo bs (fst so) t (comp_offset (me_ctts m) n) (u64_dur du) (given_to (me_ctts m)) sync pad, desc), m2)
  | Err e => (Err e, m1)
  | UB => (UB, m1)
  end.

(* MP4GetMediaSampleWithPad, MP4Media.c:1541-1713: by decoding time. The
   fourth component of the answer is the composition time. [sampleDuration]
   is not written when nothing is found: undefined when used. *)
Record tinfo := mkTinfo { j_bytes : list N; j_size : N; j_dts : N; j_cts : N; j_dur : N;
                          j_hasoff : bool; j_sync : bool; j_pad : N }.
Definition media_at (m : media) (d : mdat) (t : N) : res (tinfo * N) * media :=
  let r := stts_find (me_stts m) t in
  let n := f_num r in
  let dts := if negb (f_exact r =? -1)%Z then u64_of (f_exact r)
             else if negb (f_prior r =? -1)%Z then u64_of (f_prior r) else u64_of (f_next r) in
  match stsc_lookup (me_stsc m) n with
  | Ok ((c, desc, fs), sc) =>
      let m2 := mkMedia (me_stts m) (me_ctts m) (me_stss m) (me_padb m) (me_stsz m) (me_stco m) sc (me_descs m) (me_drefs m) in
      (do so <- stsz_get_off (me_stsz m) n (match fs with Some f => f | None => 0 end);
       do pad <- reported_pad (me_padb m) n;
       do off <- stco_get (me_stco m) c;
       do _ <- media_open m desc;
       do bs <- mdat_copy d (w64 (off + snd so)) (fst so);
       do sync <- reported_sync (me_stss m) n;
       do du <- (match f_dur r with Some x => Ok x | None => UB end);
       Ok (mkTinfo bs (fst so) dts (u64_of (Z.of_N dts + comp_offset (me_ctts m) n)) (u64_dur du)
             (given_to (me_ctts m)) sync pad, desc), m2)
  | Err e => (Err e, m)
  | UB => (UB, m)
  end.

(* a movie: its media and the one media data box they share. A history gives
   nothing for an addition. *)
Definition movie := (list media * mdat)%type.
Definition movie_step (w : movie) (o : aop) : res (option (info * N) * movie) :=
  let '(ms, d) := w in
  match o with
  | AAdd i _ b =>
      match nth_error ms i with
      | None => Err MP4BadParamErr
      | Some m => do x <- media_add m d b; Ok (None, (upd ms i (fst x), snd x))
      end
  | AGet i n =>
      match nth_error ms i with
      | None => Err MP4BadParamErr
      | Some m => let '(r, m') := media_get m d n in do x <- r; Ok (Some x, (upd ms i m', d))
      end
  end.
Fixpoint movie_run (w : movie) (os : list aop) : res (list (option (info * N))) :=
  match os with
  | [] => Ok []
  | o :: r => do x <- movie_step w o; do y <- movie_run (snd x) r; Ok (fst x :: y)
  end.

(* ReaderModel.v -- track readers and synchronization layer packets. *)
From Verif Require Import Base AtomModel BoxModel SttsSpec SttsModel SizeSpec SizeModel EditModel MdatModel MediaSpec MediaModel.

(* MP4TrackReaderStruct, MP4TrackReader.h:30-63, as far as the values are used
   again. [r_edits]: the edit list the reader points to, [] when elst is 0 (it
   is not changed while reading). [r_sl]: slconfig is set. [r_key]: the local
   key of a boxed metadata track, None when isMebxTrack is 0. Object
   descriptor tracks (isODTrack, rewriteODFrame) are not modelled.
   segmentMovieTime is only used inside getNextSegment. *)
Record reader := mkReader {
  r_edits : list edit; r_mts : N; r_dts : N; (* movie and media time scale *)
  r_segs : N; r_seg : N; r_end : N; r_media : Z; r_begin : N;
  r_seq : N; r_count : N; r_desc : N; r_cur : N; r_num : N; r_sl : bool; r_key : option N }.

(* the loop of getNextSegment, MP4OrdinaryTrackReader.c:67-83, over the edits
   from number [seg] on; isEmptyEdit refuses a number with no edit *)
Fixpoint skip_empty (l : list edit) (seg segs : N) : res unit * N :=
  match l with
  | [] => (Err MP4BadParamErr, seg)
  | e :: r => if e_empty e then if seg =? segs then (Err MP4InvalidMediaErr, seg) else skip_empty r (w32 (seg + 1)) segs
              else (Ok tt, seg)
  end.
(* getNextSegment, MP4OrdinaryTrackReader.c:54-109, on a reader with an edit
   list. What was assigned before an error stays. *)
Definition next_segment (rd : reader) (m : media) : res unit * reader :=
  let '(x, s) := skip_empty (if r_seg rd =? 0 then [] else skipn (N.to_nat (r_seg rd - 1)) (r_edits rd)) (r_seg rd) (r_segs rd) in
  let rd1 := mkReader (r_edits rd) (r_mts rd) (r_dts rd) (r_segs rd) s (r_end rd) (r_media rd) (r_begin rd)
               (r_seq rd) (r_count rd) (r_desc rd) (r_cur rd) (r_num rd) (r_sl rd) (r_key rd) in
  match (do _ <- x; edit_segment (r_edits rd) s) with
  | Err e => (Err e, rd1)
  | UB => (UB, rd1)
  | Ok (mt, med, d) =>
      let rd2 := mkReader (r_edits rd) (r_mts rd) (r_dts rd) (r_segs rd) s (r_end rd) med (r_begin rd)
                   (r_seq rd) (r_count rd) (r_desc rd) (r_cur rd) (r_num rd) (r_sl rd) (r_key rd) in
      match media_time_to_sample (me_stts m) (u64_of med) with
      | Err e => (Err e, rd2)
      | UB => (UB, rd2)
      | Ok (n, _, _) =>
          if r_mts rd =? 0 then (UB, rd2) (* division by zero *) else
          let en := w64 (r_dts rd * w64 (mt + d)) / r_mts rd in
          let rd3 := mkReader (r_edits rd) (r_mts rd) (r_dts rd) (r_segs rd) s en med (r_begin rd)
                       (r_seq rd) (r_count rd) (r_desc rd) (r_cur rd) n (r_sl rd) (r_key rd) in
          match media_time_to_sample (me_stts m) (w64 (u64_of med + w64 (r_dts rd * d) / r_mts rd)) with
          | Err e => (Err e, rd3)
          | UB => (UB, rd3)
          | Ok (e, _, _) =>
              if e <? n then (Err MP4InvalidMediaErr, rd3)
              else (Ok tt, mkReader (r_edits rd) (r_mts rd) (r_dts rd) (r_segs rd) s en med (w64 (r_dts rd * mt) / r_mts rd)
                             (r_seq rd) (sub32 e n) (r_desc rd) (r_cur rd) n (r_sl rd) (r_key rd))
          end
      end
  end.

(* MP4CreateOrdinaryTrackReader 335-367 and setupReader 284-333 of
   MP4OrdinaryTrackReader.c, and MP4CreateTrackReader, MP4TrackReader.c:38-114,
   which makes a boxed metadata reader ([key]) of a metadata track. The data
   references were checked (MP4CheckMediaDataReferences): every one leads to the
   file itself. A failed creation returns no reader. *)
Definition reader_new (el : option elst) (mts dts : N) (key : option N) (m : media) : res reader :=
  match match el with Some s => el_edits s | None => [] end with
  | [] => Ok (mkReader [] mts dts 1 0 0 0 0 0 (sz_count (me_stsz m)) 1 0 1 false key)
  | es => let '(x, rd) := next_segment (mkReader es mts dts (len es) 1 0 0 0 0 0 1 0 0 false key) m in
          do _ <- x; Ok rd
  end.

(* big endian number of some bytes *)
Definition num (l : list N) : N := fold_left (fun a b => a * 256 + b) l 0.
(* the items of a boxed metadata sample, MP4OrdinaryTrackReader.c:146-164:
   [acc] is what the output handle holds so far. The loop runs while four bytes
   are left and moves on by the length, which is at least 1: [fuel] bytes.
   Reading outside the sample is undefined. *)
Fixpoint pick (fuel : nat) (key : N) (bs : list N) (acc : option (list N)) : res (option (list N)) :=
  match fuel with
  | O => Ok acc
  | S fu =>
      if len bs <? 4 then Ok acc else
      let ln := num (firstn 4 bs) in
      if ln =? 0 then Ok acc else
      if len bs <? 8 then UB else
      let n := sub32 ln 8 in
      if num (firstn 4 (skipn 4 bs)) =? key then
        if len bs <? 8 + n then UB
        else pick fu key (skipn (N.to_nat ln) bs) (Some (firstn (N.to_nat n) (skipn 8 bs)))
      else pick fu key (skipn (N.to_nat ln) bs) acc
  end.

(* an access unit as getNextAccessUnit reports it. [a_bytes]: None when the
   output handle and size were not written. *)
Record au := mkAu { a_bytes : option (list N); a_sync : bool; a_hasoff : bool; a_cts : Z; a_dts : Z; a_dur : N; a_pad : N }.

(* getNextAccessUnit, MP4OrdinaryTrackReader.c:111-218, all results requested.
   When the sample cannot be read only lookup caches have changed (the
   description index may have, which is left out). An error of getNextSegment is
   returned although the access unit was already stored. *)
Definition next_au (rd : reader) (m : media) (d : mdat) : res au * (reader * media) :=
  if r_segs rd <? r_seg rd then (Err MP4EOF, (rd, m))
  else if (len (r_edits rd) =? 0) && (r_count rd <? r_num rd) then (Err MP4EOF, (rd, m))
  else
    let '(x, m1) := media_get m d (r_num rd) in
    match x with
    | Err e => (Err e, (rd, m1))
    | UB => (UB, (rd, m1))
    | Ok (i, desc) =>
        match (match r_key rd with None => Ok (Some (i_bytes i)) | Some k => pick (length (i_bytes i)) k (i_bytes i) None end) with
        | Err e => (Err e, (rd, m1))
        | UB => (UB, (rd, m1))
        | Ok bytes =>
            (* *outDTS is an s32 *)
            let odts := s32_of (w32 (w64 (sub64 (i_dts i) (u64_of (r_media rd)) + r_begin rd))) in
            let rd1 := fun seg => mkReader (r_edits rd) (r_mts rd) (r_dts rd) (r_segs rd) seg (r_end rd) (r_media rd) (r_begin rd)
                         (r_seq rd) (r_count rd) desc (r_num rd) (w32 (r_num rd + 1)) (r_sl rd) (r_key rd) in
            (* the sum of two s32 must be one *)
            let sum := (odts + i_off i)%Z in
            if i_hasoff i && ((sum <? -2147483648)%Z || (2147483648 <=? sum)%Z) then (UB, (rd1 (r_seg rd), m1)) else
            let octs := if i_hasoff i then s32_of (u32_of sum) else odts in
            if negb (len (r_edits rd) =? 0) && (r_end rd <=? w64 (i_dur i + u64_of odts)) then
              let a := mkAu bytes (i_sync i) (i_hasoff i) octs odts (w32 (sub64 (r_end rd) (u64_of odts))) (i_pad i) in
              let seg := w32 (r_seg rd + 1) in
              if seg <=? r_segs rd then
                let '(y, rd2) := next_segment (rd1 seg) m1 in (do _ <- y; Ok a, (rd2, m1))
              else (Ok a, (rd1 seg, m1))
            else (Ok (mkAu bytes (i_sync i) (i_hasoff i) octs odts (w32 (i_dur i)) (i_pad i)), (rd1 (r_seg rd), m1))
        end
    end.
(* calling it n times *)
Fixpoint read_units (n : nat) (rd : reader) (m : media) (d : mdat) : list (res au) :=
  match n with
  | O => []
  | S k => let '(x, (rd', m')) := next_au rd m d in x :: read_units k rd' m' d
  end.

(* put32, MP4OrdinaryTrackReader.c:38-44 and MP4SLPacket.c:227-233: a u32, high byte first *)
Definition put32b (x : N) : list N :=
  [N.land (N.shiftr x 24) 255; N.land (N.shiftr x 16) 255; N.land (N.shiftr x 8) 255; N.land x 255].
(* the first byte of a packet header, MP4SLPacket.c:293-296 and
   MP4OrdinaryTrackReader.c:256-259 *)
Definition sl_flags (seq : N) (sync hasoff : bool) : N :=
  let v := N.shiftl (N.land seq 31) 3 in
  let v := if sync then N.lor v 4 else v in
  let v := if hasoff then N.lor v 2 else v in
  N.lor v 1.
(* the packet: header and sample are copied into a handle of packetSize bytes *)
Definition sl_packet (header bytes : list N) : res (list N) :=
  if w32 (len bytes + len header) <? len bytes + len header then UB else Ok (header ++ bytes).

(* getNextPacket, MP4OrdinaryTrackReader.c:226-282. sampleSize is not
   initialised: undefined when the access unit was not written. *)
Definition next_packet (rd : reader) (m : media) (d : mdat) : res (list N) * (reader * media) :=
  if r_sl rd then (Err MP4NotImplementedErr, (rd, m)) else
  let '(x, (rd1, m1)) := next_au rd m d in
  match x with
  | Err e => (Err e, (rd1, m1))
  | UB => (UB, (rd1, m1))
  | Ok a =>
      let seq := N.land (w32 (r_seq rd1 + 1)) 31 in
      let rd2 := mkReader (r_edits rd1) (r_mts rd1) (r_dts rd1) (r_segs rd1) (r_seg rd1) (r_end rd1) (r_media rd1) (r_begin rd1)
                   seq (r_count rd1) (r_desc rd1) (r_cur rd1) (r_num rd1) (r_sl rd1) (r_key rd1) in
      (match a_bytes a with
       | None => UB
       | Some bs => sl_packet (sl_flags seq (a_sync a) (a_hasoff a) :: (if a_hasoff a then put32b (u32_of (a_dts a)) else [])
                                 ++ put32b (u32_of (a_cts a))) bs
       end, (rd2, m1))
  end.

(* MP4GetElementaryStreamPacket, MP4SLPacket.c:235-328. [clock]: the media is a
   clock reference stream; object descriptor streams are not modelled. Result:
   the packet, the decoding time and the duration. *)
Definition stream_packet (m : media) (d : mdat) (clock : bool) (seq t : N) : res (list N * N * N) * media :=
  let '(x, m1) := media_at m d t in
  (do j <- x;
   let j := fst j in
   if clock then Err MP4NotImplementedErr else
   do p <- sl_packet (sl_flags seq (j_sync j) (j_hasoff j) :: (if j_hasoff j then put32b (w32 (j_dts j)) else [])
                        ++ put32b (w32 (j_cts j)) ++ put32b (j_size j)) (j_bytes j);
   Ok (p, j_dts j, j_dur j), m1).

(* MP4TrackReaderSetSLConfig, MP4TrackReader.c:208-221: 0 is refused *)
Definition set_sl (rd : reader) (given : bool) : res reader :=
  if given then Ok (mkReader (r_edits rd) (r_mts rd) (r_dts rd) (r_segs rd) (r_seg rd) (r_end rd) (r_media rd) (r_begin rd)
                      (r_seq rd) (r_count rd) (r_desc rd) (r_cur rd) (r_num rd) true (r_key rd))
  else Err MP4BadParamErr.

(* A movie with open readers, each on the media with the number beside it.
   [mts]: the movie time scale; the media time scale plays no role without
   edits. *)
Inductive rop :=
| RNew (i : nat)         (* open a reader on track i, which has no edits *)
| RNext (k : nat)        (* next access unit of reader k *)
| RPacket (k : nat)      (* next packet of reader k *)
| ROther (o : aop).      (* add samples or read one by number *)
Inductive rout :=
| ONew | OUnit (a : au) | OPacket (p : list N) | OEnd | OAnswer (a : option info).
Record rmovie := mkRm { rm_movie : movie; rm_readers : list (nat * reader) }.
Definition rstep (w : rmovie) (o : rop) : res (rout * rmovie) :=
  let '(ms, d) := rm_movie w in
  match o with
  | RNew i =>
      match nth_error ms i with
      | None => Err MP4BadParamErr
      | Some m => do rd <- reader_new None 1 1 None m; Ok (ONew, mkRm (ms, d) (rm_readers w ++ [(i, rd)]))
      end
  | RNext k =>
      match nth_error (rm_readers w) k with
      | None => Err MP4BadParamErr
      | Some (i, rd) =>
          match nth_error ms i with
          | None => Err MP4BadParamErr
          | Some m =>
              let '(x, (rd', m')) := next_au rd m d in
              let w' := mkRm (upd ms i m', d) (upd (rm_readers w) k (i, rd')) in
              match x with
              | Ok a => Ok (OUnit a, w')
              | Err e => if (e =? MP4EOF)%Z then Ok (OEnd, w') else Err e
              | UB => UB
              end
          end
      end
  | RPacket k =>
      match nth_error (rm_readers w) k with
      | None => Err MP4BadParamErr
      | Some (i, rd) =>
          match nth_error ms i with
          | None => Err MP4BadParamErr
          | Some m =>
              let '(x, (rd', m')) := next_packet rd m d in
              let w' := mkRm (upd ms i m', d) (upd (rm_readers w) k (i, rd')) in
              match x with
              | Ok p => Ok (OPacket p, w')
              | Err e => if (e =? MP4EOF)%Z then Ok (OEnd, w') else Err e
              | UB => UB
              end
          end
      end
  | ROther o => do x <- movie_step (ms, d) o; Ok (OAnswer (option_map fst (fst x)), mkRm (snd x) (rm_readers w))
  end.
Fixpoint rrun (w : rmovie) (os : list rop) : res (list rout) :=
  match os with
  | [] => Ok []
  | o :: r => do x <- rstep w o; do y <- rrun (snd x) r; Ok (fst x :: y)
  end.

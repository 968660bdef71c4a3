(* ChunkModel.v -- chunk tables: stsc (SampleToChunkAtom.c), stco and co64
   (ChunkOffsetAtom.c). *)
From Verif Require Import Base AtomModel BoxModel ChunkSpec.

(* ------------------------------------------------------------------ *)
(* MP4SampleToChunkAtom; entries (firstChunk, samplesPerChunk,
   sampleDescriptionIndex) SampleToChunkAtom.c:65-70; [sc_idx] is
   foundEntryNumber, [sc_first] foundEntryFirstSampleNumber *)
Record stsc := mkStsc { sc_ver : N; sc_flags : N; sc_entries : list run; sc_idx : N; sc_first : N }.
(* MP4CreateSampleToChunkAtom, SampleToChunkAtom.c:340-368 *)
Definition stsc_new : stsc := mkStsc 0 0 [] 0 0.

(* setEntry, SampleToChunkAtom.c:72-109 *)
Fixpoint set_run (es : list run) (f s d : N) : list run :=
  match es with
  | [] => [(f, s, d)]
  | [(f0, s0, d0)] => if (s0 =? s) && (d0 =? d) then [(f0, s0, d0)] else [(f0, s0, d0); (f, s, d)]
  | e :: r => e :: set_run r f s d
  end.
Definition stsc_set (t : stsc) (f s d : N) : stsc :=
  mkStsc (sc_ver t) (sc_flags t) (set_run (sc_entries t) f s d) (sc_idx t) (sc_first t).

(* what one lookup writes: chunk number, description index, first sample of
   the chunk (None: not written), then foundEntryNumber and
   foundEntryFirstSampleNumber *)
Definition found := (N * N * option N * N * N)%type.
(* the body of both branches, SampleToChunkAtom.c:224-231 and 243-249 *)
Definition run_hit (e : run) (n i first : N) : res found :=
  let '(f, s, d) := e in
  if s =? 0 then UB else
  let c := w32 (f + sub32 n first / s) in
  Ok (c, d, Some (w32 (w32 (sub32 c f * s) + first)), i, first).
(* the loop, SampleToChunkAtom.c:214-257; at the end of an empty list
   nothing is found *)
Fixpoint stsc_scan (n : N) (es : list run) (i first : N) (old : N) : res found :=
  match es with
  | [] => Ok (0, 0, None, old, first)
  | (f, s, d) :: r =>
      match r with
      | [] => run_hit (f, s, d) n i first
      | (f2, _, _) :: _ =>
          let k := w32 (sub32 f2 f * s) in
          if n <=? w32 (first + k) then run_hit (f, s, d) n i first
          else stsc_scan n r (w32 (i + 1)) (w32 (first + k)) old
      end
  end.
(* lookupSample, SampleToChunkAtom.c:185-262 *)
Definition stsc_lookup (t : stsc) (n : N) : res ((N * N * option N) * stsc) :=
  if n =? 0 then Err MP4BadParamErr else
  let hit := negb (sc_first t =? 0) && (sc_first t <? n) in
  let i := if hit then sc_idx t else 0 in
  let first := if hit then sc_first t else 1 in
  do r <- stsc_scan n (skipn (N.to_nat i) (sc_entries t)) i first (sc_idx t);
  let '(c, d, fs, i', first') := r in
  Ok ((c, d, fs), mkStsc (sc_ver t) (sc_flags t) (sc_entries t) i' first').

(* histories; a new chunk gets the next number (getChunkCount after
   addOffset, SampleTableAtom.c:402-406) *)
Fixpoint stsc_run (t : stsc) (k : N) (os : list cop) : list (res (option (N * N * option N))) :=
  match os with
  | [] => []
  | CAdd s d :: r => Ok None :: stsc_run (stsc_set t k s d) (k + 1) r
  | CLook n :: r =>
      match stsc_lookup t n with
      | Ok (x, t') => Ok (Some x) :: stsc_run t' k r
      | Err e => Err e :: stsc_run t k r
      | UB => [UB]
      end
  end.

(* serialize 264-291, calculateSize 293-306, createFromInputStream 308-338 *)
Definition put_run (e : run) : wr := let '(f, s, d) := e in put32 f ;; put32 s ;; put32 d.
Definition stsc_write (t : stsc) : wr :=
  put8 (sc_ver t) ;; put24 (sc_flags t) ;; put32 (len (sc_entries t)) ;; wmap put_run (sc_entries t).
Definition stsc_size (t : stsc) : N := w32 (12 + w32 (4 + w32 (12 * len (sc_entries t)))).
Definition get_run : rd run :=
  let* f := get32 in let* s := get32 in let* d := get32 in rret (f, s, d).
Definition set_runs (es : list run) : list run :=
  fold_left (fun a e => let '(f, s, d) := e in set_run a f s d) es [].
Definition stsc_read (h : hdr) : rd stsc :=
  let* vf := get_full in
  let* n := get32 in
  let* es := rrep (N.to_nat n) get_run in
  rret (mkStsc (fst vf) (snd vf) (set_runs es) 0 0).
Definition stsc_codec : codec stsc :=
  mkCodec (N.eqb T_stsc) (fun _ => T_stsc) stsc_size stsc_write stsc_read.

(* ------------------------------------------------------------------ *)
(* MP4ChunkOffsetAtom; [co_list] is offsets[0..entryCount), 64-bit values.
   The type field is set by calculateSize. *)
Record stco := mkStco { co_ver : N; co_flags : N; co_list : list N }.
Definition stco_new : stco := mkStco 0 0 [].
(* addOffset, ChunkOffsetAtom.c:81-104: allocatedSize is a 32-bit byte count *)
Definition stco_add (t : stco) (off : N) : res stco :=
  if 4294967296 <=? 8 * (len (co_list t) + 1) then UB
  else Ok (mkStco (co_ver t) (co_flags t) (co_list t ++ [off])).
(* getChunkOffset, ChunkOffsetAtom.c:135-148 *)
Definition stco_get (t : stco) (n : N) : res N :=
  if (n =? 0) || (len (co_list t) <? n) then Err MP4BadParamErr
  else match nth_error (co_list t) (N.to_nat (n - 1)) with Some v => Ok v | None => UB end.
(* the type chosen by calculateSize, ChunkOffsetAtom.c:112-120 *)
Fixpoint stco_large (l : list N) : bool :=
  match l with [] => false | x :: r => if negb (N.shiftr x 32 =? 0) then true else stco_large r end.
Definition stco_type (t : stco) : N := if stco_large (co_list t) then T_co64 else T_stco.
(* calculateSize 106-133, serialize 45-77 for a given type, createFromInputStream 172-216 *)
Definition stco_size (t : stco) : N :=
  if stco_type t =? T_stco then w32 (12 + w32 (4 + w32 (4 * len (co_list t))))
  else w32 (12 + w32 (4 + w32 (8 * len (co_list t)))).
Definition stco_write_as (ty : N) (t : stco) : wr :=
  put8 (co_ver t) ;; put24 (co_flags t) ;; put32 (len (co_list t)) ;;
  if ty =? T_stco then wmap (fun x => put32 (w32 x)) (co_list t) else wmap put64 (co_list t).
Definition stco_write (t : stco) : wr := stco_write_as (stco_type t) t.
Definition stco_read (h : hdr) : rd stco :=
  let* vf := get_full in
  let* n := get32 in
  let* l := rrep (N.to_nat n) (if h_type h =? T_stco then get32 else get64) in
  rret (mkStco (fst vf) (snd vf) l).
Definition stco_codec : codec stco :=
  mkCodec (fun ty => (ty =? T_stco) || (ty =? T_co64)) stco_type stco_size stco_write stco_read.

(* mdatMoved, ChunkOffsetAtom.c:150-170: chunks first..last (from 1); [off] is a
   signed 32-bit number added to 64-bit offsets *)
Definition move1 (base fin : N) (off : Z) (x : N) : N :=
  if (base <=? x) && (x <? fin) then u64_of (Z.of_N x + off) else x.
Definition stco_moved (t : stco) (first last base fin : N) (off : Z) : res stco :=
  let n := len (co_list t) in
  if (first =? 0) || (n <? first) || (last =? 0) || (n <? last) then Err MP4BadParamErr
  else Ok (mkStco (co_ver t) (co_flags t)
         (firstn (N.to_nat (first - 1)) (co_list t) ++
          map (move1 base fin off) (firstn (N.to_nat (last - (first - 1))) (skipn (N.to_nat (first - 1)) (co_list t))) ++
          skipn (N.to_nat (first - 1) + N.to_nat (last - (first - 1))) (co_list t))).

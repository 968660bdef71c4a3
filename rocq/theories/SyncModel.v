(* SyncModel.v -- sync samples: the stss and stsh boxes. *)
From Verif Require Import Base AtomModel BoxModel.

(* MP4SyncSampleAtom, MP4Atoms.h; [ss_list] is sampleNumbers[0..entryCount).
   MP4CreateSyncSampleAtom SyncSampleAtom.c:234-258 *)
Record stss := mkStss { ss_ver : N; ss_flags : N; ss_list : list N; ss_nonsync : bool }.
Definition stss_new : stss := mkStss 0 0 [] false.

(* isSyncSample, SyncSampleAtom.c:45-78 *)
Fixpoint sync_scan (n : N) (l : list N) : bool :=
  match l with
  | [] => false
  | s :: r => if n =? s then true else if n <? s then false else sync_scan n r
  end.
Definition stss_is_sync (s : stss) (n : N) : res bool :=
  if n =? 0 then Err MP4BadParamErr else Ok (sync_scan n (ss_list s)).

(* the second loop of addSamples, SyncSampleAtom.c:150-159 *)
Fixpoint stss_offsets (begin count : N) (l : list N) : res (list N) :=
  match l with
  | [] => Ok []
  | o :: r =>
      if (o =? 0) || (count <? o) then Err MP4BadParamErr
      else do r' <- stss_offsets begin count r; Ok (w32 (begin + (o - 1)) :: r')
  end.
(* the first loop, SyncSampleAtom.c:146-149 *)
Definition stss_prior (k : N) : list N := map (fun i => N.of_nat i + 1) (seq 0 (N.to_nat k)).
(* addSamples, SyncSampleAtom.c:80-166. The buffer holds 4 * newSampleCount
   bytes computed in 32 bits: if that wraps, the loops write past it. After
   an error the C code leaves a half updated structure; the model stops. *)
Definition stss_add (s : stss) (begin count : N) (l : list N) : res stss :=
  if begin =? 0 then Err MP4BadParamErr else
  let fresh := (len (ss_list s) =? 0) && negb (ss_nonsync s) in
  let prior := if fresh then stss_prior (begin - 1) else [] in
  let flag := if len (ss_list s) =? 0 then (if ss_nonsync s then len l =? 0 else true) else ss_nonsync s in
  if 4294967296 <=? 4 * (len (ss_list s) + len prior + len l) then UB else
  do os <- stss_offsets begin count l;
  Ok (mkStss (ss_ver s) (ss_flags s) (ss_list s ++ prior ++ os) flag).

(* the stss part of addSamples of the sample table, SampleTableAtom.c:325-347
   and 361-365; [n] samples are already there *)
Definition stbl_sync (st : option stss) (n count : N) (h : option (list N)) : res (option stss) :=
  match h with
  | None => Ok st
  | Some l =>
      match st with
      | Some s => do s' <- stss_add s (w32 (n + 1)) count l; Ok (Some s')
      | None => if len l =? count then Ok None
                else do s' <- stss_add stss_new (w32 (n + 1)) count l; Ok (Some s')
      end
  end.
Fixpoint sync_run (st : option stss) (n : N) (bs : list (N * option (list N))) : res (option stss) :=
  match bs with
  | [] => Ok st
  | (count, h) :: r => do st' <- stbl_sync st n count h; sync_run st' (w32 (n + count)) r
  end.
(* what a sample query reports, MP4Media.c:1688-1698, 1862-1872, 1993-2003:
   MP4MediaSampleNotSync is set iff there is a table and it says no *)
Definition reported_sync (st : option stss) (n : N) : res bool :=
  match st with None => Ok true | Some s => stss_is_sync s n end.

(* serialize 168-188, calculateSize 190-203, createFromInputStream 205-232.
   The parser allocates entryCount + 1 words, computed in 32 bits; for
   2^32 - 1 entries that is an empty block and the first entry stored is
   out of bounds. *)
Definition stss_write (s : stss) : wr :=
  put8 (ss_ver s) ;; put24 (ss_flags s) ;; put32 (len (ss_list s)) ;; wmap put32 (ss_list s).
Definition stss_size (s : stss) : N := w32 (12 + w32 (4 + w32 (4 * len (ss_list s)))).
Definition stss_read (h : hdr) : rd stss :=
  let* vf := get_full in
  let* n := get32 in
  if n =? 4294967295 then (let* _ := get32 in rub) else
  let* l := rrep (N.to_nat n) get32 in
  rret (mkStss (fst vf) (snd vf) l false).
Definition stss_codec : codec stss :=
  mkCodec (N.eqb T_stss) (fun _ => T_stss) stss_size stss_write stss_read.

(* MP4ShadowSyncAtom; entries (shadowedSampleNumber, syncSampleNumber), the
   second one a signed number kept here as its 32-bit word.
   serialize ShadowSyncAtom.c:50-74, calculateSize 76-89, createFromInputStream
   91-120 *)
Record stsh := mkStsh { sh_ver : N; sh_flags : N; sh_entries : list (N * N) }.
Definition stsh_write (s : stsh) : wr :=
  put8 (sh_ver s) ;; put24 (sh_flags s) ;; put32 (len (sh_entries s)) ;;
  wmap (fun e => put32 (fst e) ;; put32 (snd e)) (sh_entries s).
Definition stsh_size (s : stsh) : N := w32 (12 + w32 (4 + w32 (8 * len (sh_entries s)))).
Definition stsh_read (h : hdr) : rd stsh :=
  let* vf := get_full in
  let* n := get32 in
  let* es := rrep (N.to_nat n) (let* a := get32 in let* b := get32 in rret (a, b)) in
  rret (mkStsh (fst vf) (snd vf) es).
Definition stsh_codec : codec stsh :=
  mkCodec (N.eqb T_stsh) (fun _ => T_stsh) stsh_size stsh_write stsh_read.

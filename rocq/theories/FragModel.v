(* FragModel.v -- movie fragments: the track fragment header, track runs, the
   choice of defaults when writing and their use when reading. *)
From Verif Require Import Base AtomModel BoxModel HeaderModel.

(* ------------------------------------------------------------------ *)
(* 'tfhd', TrackFragmentHeaderAtom.c                                    *)

(* MP4TrackFragmentHeaderAtom, MP4Atoms.h:1467-1476 *)
Record tfhd := mkTfhd { fh_ver : N; fh_flags : N; fh_id : N; fh_base : N; fh_desc : N; fh_dur : N; fh_size : N; fh_sflags : N }.
Definition tfhd_new : tfhd := mkTfhd 0 0 0 0 0 0 0 0.
(* bits of the flags, MP4Atoms.h:1519-1528 *)
Definition fh_base_present (f : N) := N.testbit f 0.
Definition fh_desc_present (f : N) := N.testbit f 1.
Definition fh_dur_present (f : N) := N.testbit f 3.
Definition fh_size_present (f : N) := N.testbit f 4.
Definition fh_sflags_present (f : N) := N.testbit f 5.
Definition fh_empty (f : N) := N.testbit f 16.
Definition fh_from_moof (f : N) := N.testbit f 17.

(* a field written when its bit is set *)
Definition wopt (b : bool) (w : wr) : wr := if b then w else wret.
(* a field read when its bit is set; the structure was zeroed when created *)
Definition ropt (b : bool) (m : rd N) : rd N := if b then m else rret 0.
Definition sopt (b : bool) (n : N) : N := if b then n else 0.

(* serialize, TrackFragmentHeaderAtom.c:36-75 *)
Definition tfhd_write (t : tfhd) : wr :=
  put8 (fh_ver t) ;; put24 (fh_flags t) ;; put32 (fh_id t) ;;
  wopt (fh_base_present (fh_flags t)) (put64 (fh_base t)) ;;
  wopt (fh_desc_present (fh_flags t)) (put32 (fh_desc t)) ;;
  wopt (fh_dur_present (fh_flags t)) (put32 (fh_dur t)) ;;
  wopt (fh_size_present (fh_flags t)) (put32 (fh_size t)) ;;
  wopt (fh_sflags_present (fh_flags t)) (put32 (fh_sflags t)).
(* calculateSize, TrackFragmentHeaderAtom.c:77-99 *)
Definition tfhd_size (t : tfhd) : N :=
  let f := fh_flags t in
  16 + sopt (fh_base_present f) 8 + sopt (fh_desc_present f) 4 + sopt (fh_dur_present f) 4 +
  sopt (fh_size_present f) 4 + sopt (fh_sflags_present f) 4.
(* createFromInputStream, TrackFragmentHeaderAtom.c:101-139 *)
Definition tfhd_read (h : hdr) : rd tfhd :=
  let* (v, f) := get_full in
  let* i := get32 in
  let* b := ropt (fh_base_present f) get64 in
  let* d := ropt (fh_desc_present f) get32 in
  let* u := ropt (fh_dur_present f) get32 in
  let* z := ropt (fh_size_present f) get32 in
  let* g := ropt (fh_sflags_present f) get32 in
  rret (mkTfhd v f i b d u z g).
Definition tfhd_codec : codec tfhd :=
  mkCodec (N.eqb 1952868452) (fun _ => 1952868452) tfhd_size tfhd_write tfhd_read. (* 'tfhd' *)

(* ------------------------------------------------------------------ *)
(* 'trun', TrackFragmentRunAtom.c                                       *)

(* MP4TrackRunEntry; the composition offset is kept as its 32 bits *)
Record rent := mkRent { e_dur : N; e_size : N; e_flags : N; e_cto : N }.
Definition rent0 : rent := mkRent 0 0 0 0.
(* MP4TrackRunAtom, MP4Atoms.h:1601-1612; samplecount is the length of the
   list, data_offset is kept as its 32 bits *)
Record trun := mkTrun { tr_ver : N; tr_flags : N; tr_off : N; tr_first : N; tr_ents : list rent }.
Definition trun_new : trun := mkTrun 0 0 0 0 [].
Definition tr_off_present (f : N) := N.testbit f 0.
Definition tr_first_present (f : N) := N.testbit f 2.
Definition tr_dur_present (f : N) := N.testbit f 8.
Definition tr_size_present (f : N) := N.testbit f 9.
Definition tr_flags_present (f : N) := N.testbit f 10.
Definition tr_cto_present (f : N) := N.testbit f 11.

(* serialize, TrackFragmentRunAtom.c:86-135 *)
Definition rent_write (f : N) (e : rent) : wr :=
  wopt (tr_dur_present f) (put32 (e_dur e)) ;; wopt (tr_size_present f) (put32 (e_size e)) ;;
  wopt (tr_flags_present f) (put32 (e_flags e)) ;; wopt (tr_cto_present f) (put32 (e_cto e)).
Definition trun_write (t : trun) : wr :=
  put8 (tr_ver t) ;; put24 (tr_flags t) ;; put32 (len (tr_ents t)) ;;
  wopt (tr_off_present (tr_flags t)) (put32 (tr_off t)) ;;
  wopt (tr_first_present (tr_flags t)) (put32 (tr_first t)) ;;
  wmap (rent_write (tr_flags t)) (tr_ents t).
(* calculateSize, TrackFragmentRunAtom.c:137-164 *)
Definition rent_size (f : N) : N :=
  sopt (tr_dur_present f) 4 + sopt (tr_size_present f) 4 + sopt (tr_flags_present f) 4 + sopt (tr_cto_present f) 4.
Definition trun_size (t : trun) : N :=
  w32 (16 + sopt (tr_off_present (tr_flags t)) 4 + sopt (tr_first_present (tr_flags t)) 4 +
       rent_size (tr_flags t) * len (tr_ents t)).
(* bitcount, TrackFragmentRunAtom.c:166-174, of the eight bits from [k] on *)
Definition bits_from (k f : N) : N :=
  fold_right (fun i a => (if N.testbit f (k + i) then 1 else 0) + a) 0 [0; 1; 2; 3; 4; 5; 6; 7].
(* unknown optional fields are skipped *)
Definition junk (n : N) : rd unit := let* _ := rrep (N.to_nat n) get32 in rret tt.
Definition b2n (b : bool) : N := if b then 1 else 0.
(* createFromInputStream, TrackFragmentRunAtom.c:176-248; calloc(samplecount,
   16) is taken to succeed *)
Definition rent_read (f : N) : rd rent :=
  let* d := ropt (tr_dur_present f) get32 in
  let* s := ropt (tr_size_present f) get32 in
  let* g := ropt (tr_flags_present f) get32 in
  let* c := ropt (tr_cto_present f) get32 in
  let* _ := junk (bits_from 8 f - b2n (tr_dur_present f) - b2n (tr_size_present f) -
                  b2n (tr_flags_present f) - b2n (tr_cto_present f)) in
  rret (mkRent d s g c).
Definition trun_read (h : hdr) : rd trun :=
  let* (v, f) := get_full in
  let* n := get32 in
  let* o := ropt (tr_off_present f) get32 in
  let* s := ropt (tr_first_present f) get32 in
  let* _ := junk (bits_from 0 f - b2n (tr_off_present f) - b2n (tr_first_present f)) in
  let* l := rrep (N.to_nat n) (rent_read f) in
  rret (mkTrun v f o s l).
Definition trun_codec : codec trun :=
  mkCodec (N.eqb 1953658222) (fun _ => 1953658222) trun_size trun_write trun_read. (* 'trun' *)

(* ------------------------------------------------------------------ *)
(* writing: the choice of defaults                                      *)

Definition or0 (a b : N) : N := if a =? 0 then b else a.
(* calculateDefaults, TrackFragmentRunAtom.c:42-55; [k] is flags_index - 1 *)
Definition run_defaults (k : nat) (t : tfhd) (r : trun) : tfhd :=
  match tr_ents r with
  | [] => t
  | e :: _ =>
      mkTfhd (fh_ver t) (fh_flags t) (fh_id t) (fh_base t) (fh_desc t)
        (or0 (fh_dur t) (e_dur e)) (or0 (fh_size t) (e_size e))
        (if fh_sflags t =? 0 then match nth_error (tr_ents r) k with Some x => e_flags x | None => fh_sflags t end
         else fh_sflags t)
  end.
(* the loop of setFlags, TrackFragmentRunAtom.c:71-82: the flags so far as
   the six bits; it stops when all four per sample fields are needed *)
Record rbits := mkBits { rb_off : bool; rb_first : bool; rb_dur : bool; rb_size : bool; rb_flags : bool; rb_cto : bool }.
Fixpoint scan (t : tfhd) (first : bool) (l : list rent) (b : rbits) : rbits :=
  match l with
  | [] => b
  | e :: r =>
      let df := negb first && negb (e_flags e =? fh_sflags t) in
      let b' := mkBits (rb_off b) (if df then false else rb_first b)
                  (rb_dur b || negb (e_dur e =? fh_dur t)) (rb_size b || negb (e_size e =? fh_size t))
                  (rb_flags b || df) (rb_cto b || negb (e_cto e =? 0)) in
      if rb_dur b' && rb_size b' && rb_flags b' && rb_cto b' then b' else scan t false r b'
  end.
Definition bits_flags (b : rbits) : N :=
  b2n (rb_off b) + 4 * b2n (rb_first b) + 256 * b2n (rb_dur b) + 512 * b2n (rb_size b) +
  1024 * b2n (rb_flags b) + 2048 * b2n (rb_cto b).
(* setFlags, TrackFragmentRunAtom.c:57-84: the first entry is read whether
   there is one or not *)
Definition run_setflags (t : tfhd) (r : trun) : res trun :=
  match tr_ents r with
  | [] => UB
  | e :: _ =>
      let b := scan t true (tr_ents r)
                 (mkBits (negb (tr_off r =? 0)) (negb (e_flags e =? fh_sflags t)) false false false false) in
      Ok (mkTrun (tr_ver r) (bits_flags b) (tr_off r) (e_flags e) (tr_ents r))
  end.
(* the defaults of a track: desc, duration, size, flags (MP4TrackExtendsAtom) *)
Record tdef := mkTdef { df_desc : N; df_dur : N; df_size : N; df_flags : N }.
Definition set_tflags (t : tfhd) (f : N) : tfhd :=
  mkTfhd (fh_ver t) f (fh_id t) (fh_base t) (fh_desc t) (fh_dur t) (fh_size t) (fh_sflags t).
Fixpoint mapm {A B} (f : A -> res B) (l : list A) : res (list B) :=
  match l with [] => Ok [] | x :: r => do y <- f x; do ys <- mapm f r; Ok (y :: ys) end.
(* calculateSize of the track fragment, TrackFragmentAtom.c:382-455, as far
   as it changes the header and the runs. None: a fragment without runs is
   not written (size 0). *)
Definition traf_prepare (d : tdef) (t : tfhd) (rs : list trun) : res (option (tfhd * list trun)) :=
  let t0 := mkTfhd (fh_ver t) (fh_flags t) (fh_id t) (fh_base t) (fh_desc t) 0 0 0 in
  match rs with
  | [] => Ok None
  | _ =>
      let t1 := fold_left (run_defaults 1) rs t0 in
      let t2 := if fh_sflags t1 =? 0 then fold_left (run_defaults 0) rs t1 else t1 in
      let f := 1 + 2 * b2n (negb (df_desc d =? fh_desc t2)) + 8 * b2n (negb (df_dur d =? fh_dur t2)) +
               16 * b2n (negb (df_size d =? fh_size t2)) + 32 * b2n (negb (df_flags d =? fh_sflags t2)) in
      do rs' <- mapm (run_setflags t2) rs;
      Ok (Some (set_tflags t2 f, rs'))
  end.

(* ------------------------------------------------------------------ *)
(* reading: mergeFragments and mergeRuns                                *)

(* mergeFragments, MovieFragmentAtom.c:108-133: what is absent comes from the
   track's defaults. [moof]: streamOffset of the moof, [prev]: end of the data
   of the track fragment before. *)
Definition traf_fill (d : tdef) (moof prev : N) (t : tfhd) : tfhd :=
  let f := fh_flags t in
  mkTfhd (fh_ver t) f (fh_id t)
    (if fh_base_present f then fh_base t else if fh_from_moof f then moof else prev)
    (if fh_desc_present f then fh_desc t else df_desc d)
    (if fh_dur_present f then fh_dur t else df_dur d)
    (if fh_size_present f then fh_size t else df_size d)
    (if fh_sflags_present f then fh_sflags t else df_flags d).
(* calculateDataEnd, TrackFragmentAtom.c:757-816; u32 throughout. totalsize
   is never reset. *)
Fixpoint data_end (t : tfhd) (rs : list trun) (total end_ : N) : N :=
  match rs with
  | [] => end_
  | r :: q =>
      let start := if tr_off_present (tr_flags r) then w32 (fh_base t + tr_off r) else end_ in
      let total' := w32 (total + (if tr_size_present (tr_flags r)
                                  then fold_right (fun e a => e_size e + a) 0 (tr_ents r)
                                  else fh_size t * len (tr_ents r))) in
      data_end t q total' (w32 (start + total'))
  end.
Definition traf_end (t : tfhd) (rs : list trun) : N := data_end t rs 0 (w32 (fh_base t)).

(* the arguments mergeRuns makes for addSampleReference of the media and for
   setSampleDependency *)
Record sref := mkSref { r_pos : N; r_durs : list N; r_sizes : list N; r_ctos : option (list N);
                        r_sync : option (list N); r_pads : option (list N); r_deps : option (list N) }.
(* the flags of one sample, TrackFragmentAtom.c:536-558 *)
Definition merged_flags (t : tfhd) (r : trun) (first : bool) (e : rent) : N :=
  if first && tr_first_present (tr_flags r) then tr_first r
  else if tr_flags_present (tr_flags r) then e_flags e else fh_sflags t.
Fixpoint flags_of (t : tfhd) (r : trun) (first : bool) (l : list rent) : list N :=
  match l with [] => [] | e :: q => merged_flags t r first e :: flags_of t r false q end.
(* numbers from [n] on of the samples whose difference flag is clear *)
Fixpoint sync_from (n : N) (l : list N) : list N :=
  match l with [] => [] | g :: q => if N.testbit g 16 then sync_from (n + 1) q else n :: sync_from (n + 1) q end.
(* mergeRuns for one run, TrackFragmentAtom.c:486-611. With no sample the
   first entry is written all the same when the run has first sample flags.
   Sample counts from 2^30 on are counted modulo 2^30. *)
Definition merge_run (t : tfhd) (r : trun) : res sref :=
  let f := tr_flags r in
  let l := firstn (N.to_nat (len (tr_ents r) mod 1073741824)) (tr_ents r) in
  if tr_first_present f && (len (tr_ents r) =? 0) then UB
  else
    let gs := flags_of t r true l in
    let pads := map (fun g => N.land (N.shiftr g 17) 7) gs in
    let deps := map (fun g => N.land (N.shiftr g 20) 63) gs in
    Ok (mkSref (w64 (fh_base t + u64_of (s32_of (tr_off r))))
          (map (fun e => if tr_dur_present f then e_dur e else fh_dur t) l)
          (map (fun e => if tr_size_present f then e_size e else fh_size t) l)
          (if tr_cto_present f then Some (map e_cto l) else None)
          (if forallb (fun g => negb (N.testbit g 16)) gs then None else Some (sync_from 1 gs))
          (if forallb (N.eqb 0) pads then None else Some pads)
          (if forallb (N.eqb 0) deps then None else Some deps)).

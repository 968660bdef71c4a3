(* IndexModel.v -- segment index, subsegment index and sub-sample information:
   SegmentIndexAtom.c, SubsegmentIndexAtom.c, SubSampleInformationAtom.c, MovieTracks.c. *)
From Verif Require Import Base AtomModel BoxModel.

(* --- 'sidx' --- *)
(* SIDXReference and MP4SegmentIndexAtom, MP4Atoms.h *)
Record sref := mkSref { sr_type : N; sr_size : N; sr_dur : N; sr_sap : N; sr_saptype : N; sr_delta : N }.
(* sx_count: referenceCount (u16); the list has its own length *)
Record sidx := mkSidx { sx_ver : N; sx_flags : N; sx_id : N; sx_scale : N; sx_time : N; sx_first : N; sx_res : N; sx_count : N; sx_list : list sref }.
(* serialize, SegmentIndexAtom.c:126-168; a shift of an u8 promoted to int by
   31 places is taken as the compilers do, as the u32 with that bit *)
Definition sref_write (r : sref) : wr :=
  put32 (N.lor (w32 (N.shiftl (sr_type r) 31)) (sr_size r)) ;; put32 (sr_dur r) ;;
  put32 (N.lor (N.lor (w32 (N.shiftl (sr_sap r) 31)) (w32 (N.shiftl (sr_saptype r) 28))) (sr_delta r)).
Fixpoint srefs_write (n : nat) (l : list sref) : wr :=
  match n, l with
  | O, _ => wret
  | S _, [] => werr MP4BadParamErr
  | S k, r :: t => sref_write r ;; srefs_write k t
  end.
Definition sidx_write (t : sidx) : wr :=
  put8 (sx_ver t) ;; put24 (sx_flags t) ;; put32 (sx_id t) ;; put32 (sx_scale t) ;; put32 (sx_time t) ;; put32 (sx_first t) ;;
  put16 (sx_res t) ;; put16 (sx_count t) ;; srefs_write (N.to_nat (sx_count t)) (sx_list t).
(* calculateSize, SegmentIndexAtom.c:170-192 *)
Definition sidx_size (t : sidx) : N := 12 + 20 + 4 * sx_count t + 12 * sx_count t.
(* createFromInputStream, SegmentIndexAtom.c:194-245; addReference, :43-88,
   adds one to the announced number, which is the bound of the loop *)
Definition sref_read : rd sref :=
  let* a := get32 in let* d := get32 in let* b := get32 in
  rret (mkSref (N.land (N.shiftr a 31) 1) (N.land a 32767) d (N.land (N.shiftr b 31) 1) (N.land (N.shiftr b 28) 7) (N.land b 268435455)).
(* [fuel]: the loop ends within 65536 rounds, when the u16 wraps *)
Fixpoint srefs_read (fuel : nat) (i cnt : N) : rd (N * list sref) :=
  match fuel with
  | O => rret (cnt, [])
  | S f => if i <? cnt then let* r := sref_read in let* p := srefs_read f (i + 1) (w16 (cnt + 1)) in rret (fst p, r :: snd p)
           else rret (cnt, [])
  end.
(* an error of the header is overwritten, but the next read fails too *)
Definition sidx_read (h : hdr) : rd sidx :=
  let* vf := get_full in
  let* id := get32 in let* sc := get32 in let* tm := get32 in let* fo := get32 in let* rs := get16 in let* n := get16 in
  let* p := srefs_read (N.to_nat 65536) 0 n in
  rret (mkSidx (fst vf) (snd vf) id sc tm fo rs (fst p) (snd p)).
Definition sidx_codec : codec sidx := mkCodec (N.eqb 1936286840) (fun _ => 1936286840) (* 'sidx' *) sidx_size sidx_write sidx_read.

(* --- 'ssix' --- *)
Record srange := mkSrange { rg_level : N; rg_size : N }.
(* ssix: subsegmentCount and each rangeCount are the lengths of the lists *)
Record ssix := mkSsix { sq_ver : N; sq_flags : N; sq_list : list (list srange) }.
(* serialize, SubsegmentIndexAtom.c:138-180: the range taken is the one with
   the number of the subsegment *)
Definition srange_write (o : option srange) : wr :=
  match o with Some r => put32 (N.lor (w32 (N.shiftl (rg_level r) 28)) (rg_size r)) | None => werr MP4BadParamErr end.
Fixpoint subseg_write (i : nat) (l : list (list srange)) : wr :=
  match l with
  | [] => wret
  | s :: r => put32 (len s) ;; wmap (fun _ => srange_write (nth_error s i)) s ;; subseg_write (S i) r
  end.
Definition ssix_write (t : ssix) : wr := put8 (sq_ver t) ;; put24 (sq_flags t) ;; put32 (len (sq_list t)) ;; subseg_write 0 (sq_list t).
(* calculateSize, SubsegmentIndexAtom.c:182-209 *)
Definition ssix_size (t : ssix) : N := fold_left (fun n s => w32 (n + 4 + 4 * len s)) (sq_list t) 16.
(* createFromInputStream, SubsegmentIndexAtom.c:211-261 *)
Definition srange_read : rd srange := let* x := get32 in rret (mkSrange (N.land (N.shiftr x 24) 255) (N.land x 16777215)).
Definition subseg_read : rd (list srange) := let* n := get32 in rrep (N.to_nat n) srange_read.
Definition ssix_read (h : hdr) : rd ssix :=
  let* vf := get_full in let* n := get32 in let* l := rrep (N.to_nat n) subseg_read in rret (mkSsix (fst vf) (snd vf) l).
Definition ssix_codec : codec ssix := mkCodec (N.eqb 1936943480) (fun _ => 1936943480) (* 'ssix' *) ssix_size ssix_write ssix_read.

(* --- 'subs' --- *)
Record subsmp := mkSubsmp { ss_size : N; ss_prio : N; ss_disc : N; ss_param : N }.
(* subsample_count[i] is the length of the list *)
Record sentry := mkSentry { se_delta : N; se_list : list subsmp }.
Record subs := mkSubs { su_ver : N; su_flags : N; su_list : list sentry }.
Definition subs_new : subs := mkSubs 0 0 [].   (* SubSampleInformationAtom.c:308-332 *)
(* serialize, SubSampleInformationAtom.c:59-94 *)
Definition subsmp_write (ver : N) (x : subsmp) : wr :=
  (if ver =? 1 then put32 (ss_size x) else put16 (ss_size x)) ;; put8 (ss_prio x) ;; put8 (ss_disc x) ;; put32 (ss_param x).
Definition sentry_write (ver : N) (e : sentry) : wr := put32 (se_delta e) ;; put16 (len (se_list e)) ;; wmap (subsmp_write ver) (se_list e).
Definition subs_write (t : subs) : wr := put8 (su_ver t) ;; put24 (su_flags t) ;; put32 (len (su_list t)) ;; wmap (sentry_write (su_ver t)) (su_list t).
(* calculateSize, SubSampleInformationAtom.c:96-114 *)
Definition subs_size (t : subs) : N :=
  fold_left (fun n e => w32 (n + len (se_list e) * (if su_ver t =? 1 then 10 else 8))) (su_list t) (w32 (12 + w32 (4 + len (su_list t) * 6))).
(* createFromInputStream, SubSampleInformationAtom.c:248-306; TESTMALLOC is
   given the count instead of the pointer *)
Definition subsmp_read (ver : N) : rd subsmp :=
  let* s := (if ver =? 1 then get32 else get16) in let* p := get8 in let* d := get8 in let* c := get32 in rret (mkSubsmp s p d c).
Definition sentry_read (ver : N) : rd sentry :=
  let* d := get32 in let* n := get16 in
  if n =? 0 then rerr MP4NoMemoryErr else let* l := rrep (N.to_nat n) (subsmp_read ver) in rret (mkSentry d l).
Definition subs_read (h : hdr) : rd subs :=
  let* vf := get_full in let* n := get32 in let* l := rrep (N.to_nat n) (sentry_read (fst vf)) in rret (mkSubs (fst vf) (snd vf) l).
Definition subs_codec : codec subs := mkCodec (N.eqb 1937072755) (fun _ => 1937072755) (* 'subs' *) subs_size subs_write subs_read.

(* addEntry and addEntry2, SubSampleInformationAtom.c:116-246, through
   MP4AddSubSampleInformationEntry and -Entry2, MovieTracks.c:310-350. The
   handles hold arrays of u32, here lists; reading past their end is
   undefined. Without parameters they are 0. *)
Record subarg := mkSubarg { sa_delta : N; sa_count : N; sa_sizes : list N; sa_prios : list N; sa_discs : list N; sa_params : option (list N) }.
Fixpoint zip_subs (n : nat) (s p d : list N) (c : option (list N)) : res (list subsmp) :=
  match n with
  | O => Ok []
  | S k =>
      match s, p, d, c with
      | x :: s', y :: p', z :: d', None => do r <- zip_subs k s' p' d' None; Ok (mkSubsmp x y z 0 :: r)
      | x :: s', y :: p', z :: d', Some (w :: c') => do r <- zip_subs k s' p' d' (Some c'); Ok (mkSubsmp x y z w :: r)
      | _, _, _, _ => UB
      end
  end.
Definition subs_add (t : subs) (a : subarg) : res subs :=
  do l <- zip_subs (N.to_nat (sa_count a)) (sa_sizes a) (sa_prios a) (sa_discs a) (sa_params a);
  Ok (mkSubs (if existsb (fun x => 65535 <? ss_size x) l then 1 else su_ver t) (su_flags t) (su_list t ++ [mkSentry (sa_delta a) l])).
(* MP4SetSubSampleInformationFlags, MovieTracks.c:193-206 *)
Definition subs_set_flags (t : subs) (f : N) : subs := mkSubs (su_ver t) f (su_list t).
Inductive subop := SAdd (a : subarg) | SFlags (f : N).
Definition subs_step (r : res subs) (o : subop) : res subs :=
  do t <- r; match o with SAdd a => subs_add t a | SFlags f => Ok (subs_set_flags t f) end.
Definition subs_run (os : list subop) : res subs := fold_left subs_step os (Ok subs_new).
(* MP4GetSubSampleInformationEntryFromTrack, MovieTracks.c:208-308, on the
   sub-sample information boxes of the sample table, in order: flags, and for
   each entry its delta, count, sizes, priorities and discardable fields *)
Definition subs_get (l : list subs) : res (N * list (N * N * (list N * list N * list N))) :=
  match l with
  | [] => Err MP4NotFoundErr
  | t :: _ => Ok (su_flags t, map (fun e => (se_delta e, len (se_list e), (map ss_size (se_list e), map ss_prio (se_list e), map ss_disc (se_list e)))) (su_list t))
  end.

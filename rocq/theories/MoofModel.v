(* MoofModel.v -- movie fragments as they are written and read: the boxes
   traf and moof, adding samples to a fragment, putting a fragment into the
   file, merging the fragments of a file into the movie. *)
From Verif Require Import Base AtomModel BoxModel HeaderModel AuxModel GroupModel KidsModel FragModel MdatModel MediaSpec SttsModel MediaModel.

(* ------------------------------------------------------------------ *)
(* the boxes                                                            *)

(* the boxes a traf knows; the last are sbgp and csgp *)
Definition fkid := (tfhd + (tfdt + (saiz + (saio + (trun + (sgpd + sbgp))))))%type.
Definition fkid_codec : codec fkid :=
  csum tfhd_codec (csum tfdt_codec (csum saiz_codec (csum saio_codec (csum trun_codec (csum sgpd_codec sbgp_codec))))).
Definition K_hdr (x : tfhd) : fkid := inl x.
Definition K_time (x : tfdt) : fkid := inr (inl x).
Definition K_saiz (x : saiz) : fkid := inr (inr (inl x)).
Definition K_saio (x : saio) : fkid := inr (inr (inr (inl x))).
Definition K_run (x : trun) : fkid := inr (inr (inr (inr (inl x)))).
Definition K_sgpd (x : sgpd) : fkid := inr (inr (inr (inr (inr (inl x))))).
Definition K_sbgp (x : sbgp) : fkid := inr (inr (inr (inr (inr (inr x))))).

(* MP4TrackFragmentAtom, MP4Atoms.h; [f_runs] is its atomList *)
Record traf := mkTraf { f_hdr : option tfhd; f_time : option tfdt; f_saiz : list saiz; f_saio : list saio;
                        f_runs : list trun; f_sgpd : list sgpd; f_sbgp : list sbgp }.
Definition traf_new : traf := mkTraf None None [] [] [] [] [].
(* the order of serialize, TrackFragmentAtom.c:354-376 *)
Definition olist {A} (o : option A) : list A := match o with Some x => [x] | None => [] end.
Definition traf_boxes (t : traf) : list fkid :=
  map K_hdr (olist (f_hdr t)) ++ map K_time (olist (f_time t)) ++ map K_saiz (f_saiz t) ++ map K_saio (f_saio t) ++
  map K_run (f_runs t) ++ map K_sgpd (f_sgpd t) ++ map K_sbgp (f_sbgp t).
(* addAtom, TrackFragmentAtom.c:50-85: a second tfhd or tfdt replaces the
   first; what is not known is dropped *)
Definition traf_take (t : traf) (k : fkid) : traf :=
  match k with
  | inl x => mkTraf (Some x) (f_time t) (f_saiz t) (f_saio t) (f_runs t) (f_sgpd t) (f_sbgp t)
  | inr (inl x) => mkTraf (f_hdr t) (Some x) (f_saiz t) (f_saio t) (f_runs t) (f_sgpd t) (f_sbgp t)
  | inr (inr (inl x)) => mkTraf (f_hdr t) (f_time t) (f_saiz t ++ [x]) (f_saio t) (f_runs t) (f_sgpd t) (f_sbgp t)
  | inr (inr (inr (inl x))) => mkTraf (f_hdr t) (f_time t) (f_saiz t) (f_saio t ++ [x]) (f_runs t) (f_sgpd t) (f_sbgp t)
  | inr (inr (inr (inr (inl x)))) => mkTraf (f_hdr t) (f_time t) (f_saiz t) (f_saio t) (f_runs t ++ [x]) (f_sgpd t) (f_sbgp t)
  | inr (inr (inr (inr (inr (inl x))))) => mkTraf (f_hdr t) (f_time t) (f_saiz t) (f_saio t) (f_runs t) (f_sgpd t ++ [x]) (f_sbgp t)
  | inr (inr (inr (inr (inr (inr x))))) => mkTraf (f_hdr t) (f_time t) (f_saiz t) (f_saio t) (f_runs t) (f_sgpd t) (f_sbgp t ++ [x])
  end.
Definition traf_add (t : traf) (a : atom fkid) : traf := match a with ALeaf _ k => traf_take t k | _ => t end.
(* serialize, calculateSize (as far as the sizes go), createFromInputStream
   (PARSE_ATOM_LIST), TrackFragmentAtom.c:354-455, 818-840. A traf without
   runs has size 0 and is not written: see [moof_boxes]. *)
Definition traf_codec : codec traf :=
  boxed fkid_codec (K_hdr tfhd_new) 1953653094 (* 'traf' *) (fun t => map (ALeaf fkid) (traf_boxes t)) (fun l => fold_left traf_add l traf_new).

(* MP4MovieFragmentAtom; what is not an mfhd is kept in the atomList, and
   taken for a traf later *)
Definition mkid := (mfhd + traf)%type.
Definition mkid_codec : codec mkid := csum mfhd_codec traf_codec.
Record moof := mkMoof { mo_hdr : option mfhd; mo_list : list (atom mkid) }.
Definition written_traf (a : atom mkid) : bool :=
  match a with ALeaf _ (inr t) => match f_runs t with [] => false | _ => true end | _ => true end.
(* serialize and calculateSize, MovieFragmentAtom.c:210-242 *)
Definition moof_boxes (m : moof) : list (atom mkid) :=
  map (fun x => ALeaf mkid (inl x)) (olist (mo_hdr m)) ++ filter written_traf (mo_list m).
(* addAtom, MovieFragmentAtom.c:259-281 *)
Definition moof_add (m : moof) (a : atom mkid) : moof :=
  match a with ALeaf _ (inl x) => mkMoof (Some x) (mo_list m) | _ => mkMoof (mo_hdr m) (mo_list m ++ [a]) end.
Definition moof_codec : codec moof :=
  boxed mkid_codec (inl (mkMfhd 0 0 0)) 1836019558 (* 'moof' *) moof_boxes (fun l => fold_left moof_add l (mkMoof None [])).

(* ------------------------------------------------------------------ *)
(* writing                                                              *)

(* a track of a movie that is being written in fragments: its id, the
   defaults of its trex and trex->baseMediaDecodeTime *)
Record wtrk := mkWtrk { wk_id : N; wk_def : tdef; wk_time : N }.
(* maketrackfragments, MovieExtendsAtom.c:167-236 *)
Definition traf_start (w : wtrk) : traf :=
  mkTraf (Some (mkTfhd 0 0 (wk_id w) 0 (df_desc (wk_def w)) 0 0 0)) (Some (mkTfdt 0 0 (wk_time w))) [] [] [] [] [].

(* an entry of an array of 32 bit numbers with one for all or one each:
   [i >= count ? a[0] : a[i]] *)
Definition pick_at (l : list N) (i : nat) : res N :=
  match nth_error l i with Some x => Ok x | None => match l with x :: _ => Ok x | [] => UB end end.
(* addSamples, TrackFragmentAtom.c:135-224. [signed]:
   useSignedCompositionTimeOffsets. Padding counts are taken from the bytes of
   the handle itself instead of those it refers to: undefined. Groups: not
   modelled here. *)
Definition frag_entry (b : mbat) (i : nat) : res rent :=
  do d <- pick_at (b_durs b) i;
  do s <- pick_at (b_sizes b) i;
  do c <- (match b_offs b with None => Ok 0 | Some l => match nth_error l i with Some x => Ok x | None => UB end end);
  Ok (mkRent d s (match b_sync b with None => 0 | Some _ => 65536 end) c).
Definition flip_sync (e : rent) : rent := mkRent (e_dur e) (e_size e) (N.lxor (e_flags e) 65536) (e_cto e).
Fixpoint flip_all (syncs : list N) (l : list rent) : res (list rent) :=
  match syncs with
  | [] => Ok l
  | s :: q => match nth_error l (N.to_nat (s - 1)) with
              | Some e => if s =? 0 then UB else flip_all q (upd l (N.to_nat (s - 1)) (flip_sync e))
              | None => UB end
  end.
Definition frag_run (signed : bool) (off : N) (b : mbat) : res trun :=
  match b_pads b with
  | Some _ => UB
  | None =>
      do es <- mapm (frag_entry b) (seq 0 (N.to_nat (b_count b)));
      do es' <- (match b_sync b with None => Ok es | Some l => flip_all l es end);
      Ok (mkTrun (b2n signed) 0 (w32 off) 0 es')
  end.
(* the fragment being written: its tracks and its mdat. An error of addData
   is ignored by the code. *)
Record frag := mkFrag { g_trks : list (wtrk * traf); g_data : mdat }.
Definition add_run_to (t : traf) (r : trun) : traf :=
  mkTraf (f_hdr t) (f_time t) (f_saiz t) (f_saio t) (f_runs t ++ [r]) (f_sgpd t) (f_sbgp t).
Definition frag_add (signed : bool) (g : frag) (i : nat) (b : mbat) : res frag :=
  match nth_error (g_trks g) i with
  | None => Err MP4BadParamErr
  | Some (w, t) =>
      match b_entry b with
      | Some _ => Err MP4BadDataErr
      | None =>
          do r <- frag_run signed (len (md_data (g_data g))) b;
          do d <- mdat_add (g_data g) (b_data b);
          let w' := mkWtrk (wk_id w) (wk_def w) (fold_left (fun a e => w32 (a + e_dur e)) (tr_ents r) (wk_time w)) in
          Ok (mkFrag (upd (g_trks g) i (w', add_run_to t r)) d)
      end
  end.
Definition frag_start (ws : list wtrk) : frag := mkFrag (map (fun w => (w, traf_start w)) ws) mdat_new.

(* calculateSize of the track fragments: defaults and flags are chosen *)
Definition traf_ready (x : wtrk * traf) : res traf :=
  let (w, t) := x in
  match f_hdr t with
  | None => UB
  | Some h =>
      do p <- traf_prepare (wk_def w) h (f_runs t);
      Ok (match p with
          | None => t
          | Some (h', rs) => mkTraf (Some h') (f_time t) (f_saiz t) (f_saio t) rs (f_sgpd t) (f_sbgp t)
          end)
  end.
(* mdatMoved, TrackFragmentAtom.c:87-108; only a fragment with samples in the
   mdat is changed, the others are not written *)
Definition traf_moved (base : N) (t : traf) : traf :=
  mkTraf (match f_hdr t with
          | Some h => Some (mkTfhd (fh_ver h) (fh_flags h) (fh_id h) base (fh_desc h) (fh_dur h) (fh_size h) (fh_sflags h))
          | None => None end) (f_time t) (f_saiz t) (f_saio t) (f_runs t) (f_sgpd t) (f_sbgp t).
(* LocalPutMovieIntoHandle, MP4MovieFile.c:33-272, for a fragment: the movie
   handle [pre] is not empty, there is no file level meta box. The mdat
   offset is an s32. *)
Definition frag_put (seq : N) (pre : list N) (g : frag) : res (list N) :=
  do ts <- mapm traf_ready (g_trks g);
  let mo := mkMoof (Some (mkMfhd 0 0 seq)) (map (fun t => ALeaf mkid (inr t)) ts) in
  let up := w32 (len pre + c_size moof_codec mo + 8) in
  let mo' := mkMoof (mo_hdr mo) (map (fun t => ALeaf mkid (inr (traf_moved (u64_of (s32_of up)) t))) ts) in
  do h <- write_box moof_codec mo';
  do d <- mdat_serialize (g_data g);
  Ok (pre ++ h ++ d).

(* a movie written in fragments: the additions to each, in order. The time of
   each trex goes on from fragment to fragment; ISOStartMovieFragment,
   MP4MovieFile.c:341-422, numbers them from 1. *)
Fixpoint frag_adds (signed : bool) (g : frag) (os : list (nat * mbat)) : res frag :=
  match os with [] => Ok g | (i, b) :: r => do g' <- frag_add signed g i b; frag_adds signed g' r end.
Fixpoint frags_put (signed : bool) (seq : N) (pre : list N) (ws : list wtrk) (fs : list (list (nat * mbat))) : res (list N) :=
  match fs with
  | [] => Ok pre
  | os :: r =>
      do g <- frag_adds signed (frag_start ws) os;
      do f <- frag_put seq pre g;
      frags_put signed (w32 (seq + 1)) f (map fst (g_trks g)) r
  end.

(* ------------------------------------------------------------------ *)
(* reading                                                              *)

(* addSampleReference of the media, MediaInformationAtom.c:380-435, after
   setDefaultSampleEntry, SampleTableAtom.c:188-202 (its error is ignored: no
   current entry). The data references are not yet attached to an mdat. *)
Definition media_ref (m : media) (desc off : N) (b : mbat) : res media :=
  if desc =? 0 then Err MP4InvalidMediaErr else
  match nth_error (me_descs m) (N.to_nat (desc - 1)) with
  | None => Err MP4InvalidMediaErr
  | Some dri =>
      do m' <- media_put m (me_descs m) off b;
      if (dri =? 0) || (me_drefs m <? dri) then Err MP4BadParamErr else Ok m'
  end.
(* the arguments of mergeRuns, TrackFragmentAtom.c:577-584; the bytes are not
   among them *)
Definition sref_bat (s : sref) : mbat :=
  mkBat (len (r_durs s)) [] (r_durs s) (r_sizes s) None (r_ctos s) (r_sync s) (r_pads s).
(* mergeRuns, TrackFragmentAtom.c:470-611, without groups and dependency
   flags. The caller forgets an error; the model stops. *)
Fixpoint merge_runs (u : tfhd) (rs : list trun) (m : media) : res media :=
  match rs with
  | [] => Ok m
  | r :: q => do s <- merge_run u r; do m' <- media_ref m (fh_desc u) (r_pos s) (sref_bat s); merge_runs u q m'
  end.
(* a track of the movie that is read: id, trex defaults, media, duration in
   the media header *)
Record rtrk := mkRtrk { rk_id : N; rk_def : tdef; rk_media : media; rk_dur : N }.
Fixpoint find_trk (id : N) (l : list rtrk) : option nat :=
  match l with [] => None | r :: q => if rk_id r =? id then Some 0%nat else option_map S (find_trk id q) end.
Definition with_stts (m : media) (s : stts) : media :=
  mkMedia s (me_ctts m) (me_stss m) (me_padb m) (me_stsz m) (me_stco m) (me_stsc m) (me_descs m) (me_drefs m).
(* mergeFragments for one traf, MovieFragmentAtom.c:104-205. A track id
   without trex leaves the pointer uninitialised (MovieExtendsAtom.c:238-262).
   Empty edits and the edit list are not modelled, nor group descriptions and
   auxiliary information: a traf with those is refused here. *)
Definition merge_traf (pos : N) (ks : list rtrk) (prev : N) (t : traf) : res (list rtrk * N) :=
  match f_hdr t with
  | None => UB
  | Some h =>
      match find_trk (fh_id h) ks with
      | None => UB
      | Some i =>
          match nth_error ks i with
          | None => UB
          | Some k =>
              let u := traf_fill (rk_def k) pos prev h in
              let m := rk_media k in
              do m1 <- (match f_time t with
                        | None => Ok m
                        | Some d =>
                            if td_time d <? rk_dur k then Err MP4InvalidMediaErr
                            else if rk_dur k <? td_time d then
                              do s <- stts_extend (me_stts m) (w32 (td_time d - rk_dur k)); Ok (with_stts m s)
                            else Ok m
                        end);
              do k' <- (if fh_empty (fh_flags u) then Ok (mkRtrk (rk_id k) (rk_def k) m1 (rk_dur k))
                        else do m2 <- merge_runs u (f_runs t) m1;
                             Ok (mkRtrk (rk_id k) (rk_def k) m2 (stts_total (me_stts m2))));
              Ok (upd ks i k', traf_end u (f_runs t))
          end
      end
  end.
Definition plain_traf (t : traf) : bool :=
  match f_saiz t, f_saio t, f_sgpd t, f_sbgp t with [], [], [], [] => true | _, _, _, _ => false end.
Fixpoint merge_trafs (pos : N) (ks : list rtrk) (prev : N) (l : list (atom mkid)) : res (list rtrk) :=
  match l with
  | [] => Ok ks
  | ALeaf _ (inr t) :: q =>
      if plain_traf t then do x <- merge_traf pos ks prev t; merge_trafs pos (fst x) (snd x) q
      else Err MP4NotImplementedErr
  | _ => UB      (* another box is used as if it were a traf *)
  end.
(* MergeMovieFragments, MP4Movies.c:238-277: [last] is the number of the
   fragment before *)
Fixpoint merge_moofs (last : option N) (ks : list rtrk) (l : list (N * moof)) : res (list rtrk) :=
  match l with
  | [] => Ok ks
  | (pos, m) :: q =>
      match mo_hdr m with
      | None => Err MP4BadDataErr
      | Some h =>
          if match last with Some s => mf_sequence h <=? s | None => false end then Err MP4BadDataErr
          else do ks' <- merge_trafs pos ks pos (mo_list m); merge_moofs (Some (mf_sequence h)) ks' q
      end
  end.
(* the boxes at the top of the file, as far as fragments are concerned,
   parseMovie MP4Movies.c:115-203, with the offset of each *)
Definition tkid := (moof + mdat)%type.
Definition tkid_codec : codec tkid := csum moof_codec mdat_codec.
Fixpoint parse_frags (fuel : nat) (pos : N) (i : list N) : res (list (N * moof)) :=
  match i with
  | [] => Ok []
  | _ =>
      match fuel with
      | O => Err OutOfFuel
      | S f =>
          do x <- read_box tkid_codec (inr mdat_new) i;
          do l <- parse_frags f (pos + snd (fst x)) (snd x);
          Ok (match fst (fst x) with ALeaf _ (inl m) => (pos, m) :: l | _ => l end)
      end
  end.
Definition read_frags (ks : list rtrk) (pos : N) (i : list N) : res (list rtrk) :=
  do l <- parse_frags (length i + 1) pos i; merge_moofs None ks l.
(* MP4GetIndMediaSample asked for one sample after the other. The data
   handler of a file that is read in place copies from the file,
   FileMappingDataHandler.c:131-155: [d] is the whole file. *)
Fixpoint media_asks (m : media) (d : mdat) (ns : list N) : list (res (info * N)) :=
  match ns with [] => [] | n :: r => let (x, m') := media_get m d n in x :: media_asks m' d r end.

(* AuxModel.v -- sample auxiliary information: its sizes and its offsets. *)
From Verif Require Import Base AtomModel BoxModel MdatModel.

(* ------------------------------------------------------------------ *)
(* 'saiz', SampleAuxiliaryInformationSizesAtom.c                        *)

(* MP4SampleAuxiliaryInformationSizesAtom, MP4Atoms.h *)
Record saiz := mkSaiz { z_ver : N; z_flags : N; z_type : N; z_param : N; z_def : N; z_count : N; z_sizes : list N }.
(* MP4CreateSampleAuxiliaryInformationSizesAtom, SampleAuxiliaryInformationSizesAtom.c:217-249 *)
Definition saiz_new : saiz := mkSaiz 0 0 0 0 0 0 [].

(* serialize, SampleAuxiliaryInformationSizesAtom.c:38-71; more entries than the table has are read outside it *)
Definition saiz_write (s : saiz) : wr :=
  put8 (z_ver s) ;; put24 (z_flags s) ;;
  (if N.testbit (z_flags s) 0 then put32 (z_type s) ;; put32 (z_param s) else wret) ;;
  put8 (z_def s) ;; put32 (z_count s) ;;
  (if z_def s =? 0
   then if len (z_sizes s) <? z_count s then wub else wmap put8 (firstn (N.to_nat (z_count s)) (z_sizes s))
   else wret).
(* calculateSize, SampleAuxiliaryInformationSizesAtom.c:73-97 *)
Definition saiz_size (s : saiz) : N :=
  w32 (12 + (if N.testbit (z_flags s) 0 then 8 else 0) + 5 + (if z_def s =? 0 then z_count s else 0)).
(* createFromInputStream, SampleAuxiliaryInformationSizesAtom.c:99-131. The
   sizes go into an array of n bytes (line 120), but read8 stores 32 bits at
   each (MP4Impl.h:191-194, MP4FileMappingInputStream.c:63-72): the last three
   stores run past the array's end. [room] says whether the block has three
   spare bytes, which C does not promise; the codec of the library is
   [saiz_codec], without them. *)
Definition saiz_read_in (room : bool) (h : hdr) : rd saiz :=
  let* (v, f) := get_full in
  let* (t, p) := (if N.testbit f 0 then let* t := get32 in let* p := get32 in rret (t, p) else rret (0, 0)) in
  let* d := get8 in
  let* n := get32 in
  let* l := (if d =? 0 then
               if room || (n =? 0) then rrep (N.to_nat n) get8
               else let* k := rrep (N.to_nat (n - 3)) get8 in let* x := get8 in rub
             else rret []) in
  rret (mkSaiz v f t p d n l).
Definition saiz_codec_in (room : bool) : codec saiz :=
  mkCodec (N.eqb 1935763834) (fun _ => 1935763834) saiz_size saiz_write (saiz_read_in room). (* 'saiz' *)
Definition saiz_codec : codec saiz := saiz_codec_in false.

(* one size for all the samples of a call, or one for each *)
Definition each_size (n : N) (sizes : list N) : option (list N) :=
  match sizes with
  | [x] => Some (repeat x (N.to_nat n))
  | _ => if len sizes =? n then Some sizes else None
  end.
(* addSizes, SampleAuxiliaryInformationSizesAtom.c:133-172; with a default
   size the sizes are not looked at. The buffer is too small once the count
   passes 2^32. *)
Definition saiz_add (s : saiz) (n : N) (sizes : list N) : res saiz :=
  if z_def s =? 0 then
    match each_size n sizes with
    | None => Err MP4BadParamErr
    | Some l =>
        if 4294967296 <=? z_count s + n then UB
        else Ok (mkSaiz (z_ver s) (z_flags s) (z_type s) (z_param s) (z_def s) (z_count s + n)
                        (z_sizes s ++ map (fun x => x mod 256) l))
    end
  else Ok (mkSaiz (z_ver s) (z_flags s) (z_type s) (z_param s) (z_def s) (w32 (z_count s + n)) (z_sizes s)).
(* mergeSizes, SampleAuxiliaryInformationSizesAtom.c:174-215 *)
Definition saiz_merge (s o : saiz) : res saiz :=
  if negb (z_def s =? 0) && (z_def s =? z_def o)
  then Ok (mkSaiz (z_ver s) (z_flags s) (z_type s) (z_param s) (z_def s) (w32 (z_count s + z_count o)) (z_sizes s))
  else
    let own := if z_def s =? 0 then z_sizes s else repeat (z_def s) (N.to_nat (z_count s)) in
    let add := if z_def o =? 0 then z_sizes o else repeat (z_def o) (N.to_nat (z_count o)) in
    if (4294967296 <=? z_count s + z_count o) || (len add <? z_count o) then UB
    else Ok (mkSaiz (z_ver s) (z_flags s) (z_type s) (z_param s) 0 (z_count s + z_count o) (own ++ add)).

(* ------------------------------------------------------------------ *)
(* 'saio', SampleAuxiliaryInformationOffsetsAtom.c                      *)

(* MP4SampleAuxiliaryInformationOffsetsAtom; entry_count is the length of the
   list, [o_total] totalOffset, [o_extra] additionalOffset *)
Record saio := mkSaio { o_ver : N; o_flags : N; o_type : N; o_param : N; o_offs : list N; o_total : N; o_extra : N }.
Definition saio_new : saio := mkSaio 0 0 0 0 [] 0 0.
(* serialize, SampleAuxiliaryInformationOffsetsAtom.c:37-75 *)
Definition saio_write (s : saio) : wr :=
  put8 (o_ver s) ;; put24 (o_flags s) ;;
  (if N.testbit (o_flags s) 0 then put32 (o_type s) ;; put32 (o_param s) else wret) ;;
  put32 (len (o_offs s)) ;;
  wmap (fun o => if o_ver s =? 0 then put32 (w32 (w64 (o + o_extra s))) else put64 o) (o_offs s).
(* calculateSize, SampleAuxiliaryInformationOffsetsAtom.c:77-106 *)
Definition saio_size (s : saio) : N :=
  w32 (12 + (if N.testbit (o_flags s) 0 then 8 else 0) + 4 + len (o_offs s) * (if o_ver s =? 0 then 4 else 8)).
(* createFromInputStream, SampleAuxiliaryInformationOffsetsAtom.c:108-143 *)
Definition saio_read (h : hdr) : rd saio :=
  let* (v, f) := get_full in
  let* (t, p) := (if N.testbit f 0 then let* t := get32 in let* p := get32 in rret (t, p) else rret (0, 0)) in
  let* n := get32 in
  let* l := rrep (N.to_nat n) (if v =? 0 then get32 else get64) in
  rret (mkSaio v f t p l 0 0).
Definition saio_codec : codec saio :=
  mkCodec (N.eqb 1935763823) (fun _ => 1935763823) saio_size saio_write saio_read. (* 'saio' *)

(* the loop of addOffsets *)
Fixpoint running (t : N) (l : list N) : list N * N :=
  match l with [] => ([], t) | x :: r => let '(o, e) := running (w64 (t + x)) r in (t :: o, e) end.
(* addOffsets, SampleAuxiliaryInformationOffsetsAtom.c:145-185; the buffer
   size is computed as u32, it is too small from 2^29 entries on *)
Definition saio_add (s : saio) (n : N) (sizes : list N) : res saio :=
  match each_size n sizes with
  | None => Err MP4BadParamErr
  | Some l =>
      if 536870912 <=? len (o_offs s) + n then UB
      else let '(os, t) := running (o_total s) l in
           Ok (mkSaio (o_ver s) (o_flags s) (o_type s) (o_param s) (o_offs s ++ os) t (o_extra s))
  end.
(* mergeOffsets, SampleAuxiliaryInformationOffsetsAtom.c:205-231 *)
Definition saio_merge (s o : saio) (base : N) : res saio :=
  if 536870912 <=? len (o_offs s) + len (o_offs o) then UB
  else Ok (mkSaio (o_ver s) (o_flags s) (o_type s) (o_param s) (o_offs s ++ map (fun x => w64 (base + x)) (o_offs o))
                  (o_total o) (o_extra s)).
Definition set_total (s : saio) (t : N) : saio :=
  mkSaio (o_ver s) (o_flags s) (o_type s) (o_param s) (o_offs s) t (o_extra s).

(* ------------------------------------------------------------------ *)
(* the auxiliary information of a track                                 *)

(* the two lists of the sample table, and the media data both samples and
   auxiliary information go to *)
Record auxs := mkAuxs { x_saiz : list saiz; x_saio : list saio; x_mdat : mdat }.
(* isUsingAuxInfoPropertiesFlag, aux_info_type, aux_info_type_parameter *)
Definition key := (N * N * N)%type.
Definition zmatch (k : key) (s : saiz) : bool :=
  (N.land (z_flags s) 1 =? fst (fst k)) && (z_type s =? snd (fst k)) && (z_param s =? snd k).
Definition omatch (k : key) (s : saio) : bool :=
  (N.land (o_flags s) 1 =? fst (fst k)) && (o_type s =? snd (fst k)) && (o_param s =? snd k).
Fixpoint last_ix {A} (p : A -> bool) (l : list A) (i : nat) (acc : option nat) : option nat :=
  match l with [] => acc | x :: r => last_ix p r (S i) (if p x then Some i else acc) end.
Fixpoint set_ix {A} (l : list A) (i : nat) (v : A) : list A :=
  match l, i with [], _ => [] | _ :: r, O => v :: r | x :: r, S j => x :: set_ix r j v end.
(* getSampleAuxiliaryInformation, SampleTableAtom.c:806-845: the last box
   that matches in each list; an entry missing in the second list is an
   uninitialised pointer *)
Definition aux_find (t : auxs) (k : key) : res (option nat * option nat) :=
  if (length (x_saio t) <? length (x_saiz t))%nat then UB
  else Ok (last_ix (zmatch k) (x_saiz t) 0 None, last_ix (omatch k) (firstn (length (x_saiz t)) (x_saio t)) 0 None).
(* MP4SetupSampleAuxiliaryInformation, MP4Media.c:2192-2249 *)
Definition aux_setup (t : auxs) (k : key) (d : N) : res auxs :=
  do r <- aux_find t k;
  match fst r with
  | Some _ => Err MP4BadParamErr
  | None =>
      let f := fst (fst k) in
      let z := if f =? 0 then mkSaiz 0 0 0 0 d 0 [] else mkSaiz 0 1 (snd (fst k)) (snd k) d 0 [] in
      let o := if f =? 0 then saio_new else mkSaio 0 1 (snd (fst k)) (snd k) [] 0 0 in
      Ok (mkAuxs (x_saiz t ++ [z]) (x_saio t ++ [o]) (x_mdat t))
  end.
(* MP4AddSampleAuxiliaryInformation, MP4Media.c:2251-2336, for a media whose
   current description refers to the file itself: getOffset is the length of
   the media data (DataInformationAtom.c), dinf->addSamples appends to it. The
   boxes are changed as far as the call gets. *)
Definition aux_add (t : auxs) (k : key) (data : list N) (n : N) (sizes : list N) : res unit * auxs :=
  if n =? 0 then (Ok tt, t)
  else match aux_find t k with
  | Ok (Some i, Some j) =>
      match nth_error (x_saiz t) i, nth_error (x_saio t) j with
      | Some z, Some o =>
          let o1 := set_total o (len (md_data (x_mdat t))) in
          let os1 := set_ix (x_saio t) j o1 in
          match mdat_add (x_mdat t) data with
          | Ok m =>
              match saiz_add z n sizes with
              | Ok z' =>
                  let zs := set_ix (x_saiz t) i z' in
                  match saio_add o1 n sizes with
                  | Ok o' => (Ok tt, mkAuxs zs (set_ix (x_saio t) j o') m)
                  | Err e => (Err e, mkAuxs zs os1 m)
                  | UB => (UB, t)
                  end
              | Err e => (Err e, mkAuxs (x_saiz t) os1 m)
              | UB => (UB, t)
              end
          | Err e => (Err e, mkAuxs (x_saiz t) os1 (x_mdat t))
          | UB => (UB, t)
          end
      | _, _ => (UB, t)
      end
  | Ok _ => (Err MP4BadParamErr, t)
  | Err e => (Err e, t)
  | UB => (UB, t)
  end.
(* MP4GetSampleAuxiliaryInformationForSample, MP4Media.c:2392-2475, for a
   sample in this file; lookupSample refuses sample 0 *)
Definition aux_get (t : auxs) (k : key) (n : N) : res (list N) :=
  do r <- aux_find t k;
  match r with
  | (Some i, Some j) =>
      match nth_error (x_saiz t) i, nth_error (x_saio t) j with
      | Some z, Some o =>
          if z_count z <? n then Err MP4EOF
          else if n =? 0 then Err MP4BadParamErr
          else
            match (if z_def z =? 0 then nth_error (z_sizes z) (N.to_nat (n - 1)) else Some (z_def z)),
                  nth_error (o_offs o) (N.to_nat (n - 1)) with
            | Some s, Some p => if 0 <? s then mdat_copy (x_mdat t) p s else Ok []
            | _, _ => UB
            end
      | _, _ => UB
      end
  | _ => Err MP4BadParamErr
  end.

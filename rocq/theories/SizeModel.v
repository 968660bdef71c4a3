(* SizeModel.v -- sample sizes: the stsz and stz2 boxes (SampleSizeAtom.c). *)
From Verif Require Import Base AtomModel BoxModel SizeSpec.

(* MP4SampleSizeAtom, MP4Atoms.h:1195-1217. [sz_buf]: sizes, None for NULL; the
   slots that have been stored, from index 0. [sz_junk]: what an allocated
   slot that was never stored reads as (realloc, line 87). The type field is
   recomputed by setfieldsize before it is used (lines 195 and 254). *)
Record stsz := mkStsz { sz_ver : N; sz_flags : N; sz_field : N; sz_size : N; sz_count : N;
                        sz_buf : option (list N); sz_junk : N }.
(* MP4CreateSampleSizeAtom, SampleSizeAtom.c:358-384 *)
Definition stsz_new (junk : N) : stsz := mkStsz 0 0 32 0 0 None junk.

Definition slots (s : stsz) : list N := match sz_buf s with Some b => b | None => [] end.
Definition slot (s : stsz) (i : nat) : N := nth i (slots s) (sz_junk s).
(* store l from index i *)
Definition store (b : list N) (junk : N) (i : nat) (l : list N) : list N :=
  firstn i (b ++ repeat junk i) ++ l ++ skipn (i + length l) b.

(* lines 59-66 *)
Fixpoint varying (x : N) (l : list N) : bool :=
  match l with [] => false | y :: r => if negb (y =? x) then true else varying x r end.

(* addSamples, SampleSizeAtom.c:46-115. An empty handle is read out of
   bounds. A handle with neither one size nor one per sample leaves slots
   unset or runs past the buffer: counted as undefined. The buffer size is
   computed in 32 bits and grows by 8192 until large enough, which must not
   wrap. *)
Definition stsz_add (s : stsz) (count : N) (sizes : list N) : res stsz :=
  match sizes with
  | [] => UB
  | x :: rest =>
      if negb ((len sizes =? 1) || (len sizes =? count)) then UB else
      if 4294959104 <? 4 * (count + sz_count s + 1) then UB else
      if varying x rest || (x =? 0) || ((0 <? sz_count s) && negb (x =? sz_size s)) then
        let b := match sz_buf s with
                 | Some b => b
                 | None => repeat (sz_size s) (N.to_nat (sz_count s))
                 end in
        let new := if 1 <? len sizes then sizes else repeat x (N.to_nat count) in
        Ok (mkStsz (sz_ver s) (sz_flags s) (sz_field s) 0 (w32 (sz_count s + count))
              (Some (store b (sz_junk s) (N.to_nat (sz_count s)) new)) (sz_junk s))
      else
        Ok (mkStsz (sz_ver s) (sz_flags s) (sz_field s) x (w32 (sz_count s + count)) (sz_buf s) (sz_junk s))
  end.

(* getSampleSize, SampleSizeAtom.c:117-139 *)
Definition stsz_get (s : stsz) (n : N) : res N :=
  if (sz_count s <? n) || (n =? 0) then Err MP4BadParamErr
  else if negb (sz_size s =? 0) then Ok (sz_size s)
  else match sz_buf s with None => UB | Some _ => Ok (slot s (N.to_nat (n - 1))) end.
(* getSampleSizeAndOffset, SampleSizeAtom.c:141-174 *)
Fixpoint stsz_sum (s : stsz) (i k : nat) (acc : N) : N :=
  match k with O => acc | S k' => stsz_sum s (S i) k' (w32 (acc + slot s i)) end.
Definition stsz_get_off (s : stsz) (n start : N) : res (N * N) :=
  if (sz_count s <? n) || (n =? 0) then Err MP4BadParamErr
  else if (start =? 0) || (n <? start) then Err MP4BadParamErr
  else if negb (sz_size s =? 0) then Ok (sz_size s, w32 ((n - start) * sz_size s))
  else match sz_buf s with
       | None => UB
       | Some _ => Ok (slot s (N.to_nat (n - 1)), stsz_sum s (N.to_nat (start - 1)) (N.to_nat (n - start)) 0)
       end.

(* histories; ISOSetSampleSizeField MP4Media.c:370-387 *)
Definition stsz_set_field (s : stsz) (f : N) : stsz :=
  mkStsz (sz_ver s) (sz_flags s) f (sz_size s) (sz_count s) (sz_buf s) (sz_junk s).
Fixpoint stsz_run (s : stsz) (os : list zop) : res stsz :=
  match os with
  | [] => Ok s
  | ZAdd count sizes :: r => do s' <- stsz_add s count sizes; stsz_run s' r
  | ZField f :: r => stsz_run (stsz_set_field s f) r
  end.

(* setfieldsize, SampleSizeAtom.c:176-185 *)
Definition stsz_type (s : stsz) : N :=
  if (sz_field s =? 32) || negb (sz_size s =? 0) then T_stsz else T_stz2.
(* calculateSize, SampleSizeAtom.c:248-279 *)
Definition stsz_table_size (s : stsz) : N :=
  if sz_size s =? 0 then
    if sz_field s =? 4 then w32 (sz_count s + 1) / 2
    else if sz_field s =? 8 then sz_count s
    else if sz_field s =? 16 then w32 (2 * sz_count s)
    else if sz_field s =? 32 then w32 (4 * sz_count s)
    else 0
  else 0.
Definition stsz_boxsize (s : stsz) : N := w32 (w32 (12 + 8) + stsz_table_size s).
(* serialize, SampleSizeAtom.c:187-246; reading slots of a NULL array is
   undefined *)
Definition first_slots (s : stsz) : list N := map (slot s) (seq 0 (N.to_nat (sz_count s))).
Fixpoint nib_pairs (l : list N) (tail : N) : list N :=
  match l with
  | [] => []
  | [a] => [N.lor (N.land a 15) (N.shiftl (N.land tail 15) 4)]
  | a :: b :: r => N.lor (N.land a 15) (N.shiftl (N.land b 15) 4) :: nib_pairs r tail
  end.
Definition stsz_write (s : stsz) : wr :=
  put8 (sz_ver s) ;; put24 (sz_flags s) ;;
  if stsz_type s =? T_stsz then
    put32 (sz_size s) ;; put32 (sz_count s) ;;
    if sz_size s =? 0 then
      match sz_buf s with None => if sz_count s =? 0 then wret else wub | Some _ => wmap put32 (first_slots s) end
    else wret
  else
    put32 (sz_field s) ;; put32 (sz_count s) ;;
    match sz_buf s with
    | None => if sz_count s =? 0 then wret else wub
    | Some _ =>
        if sz_field s =? 4 then wmap put8 (nib_pairs (first_slots s) (slot s (N.to_nat (sz_count s))))
        else if sz_field s =? 8 then wmap put8 (first_slots s)
        else if sz_field s =? 16 then wmap put16 (first_slots s)
        else wret
    end.
(* createFromInputStream, SampleSizeAtom.c:281-356. calloc of sampleCount + 1
   entries computed in 32 bits: with 2^32 - 1 samples the first store is out
   of bounds. Slots after the table are not read before being stored except
   the odd half byte, which is stored here. *)
Definition nib_split (x : N) : list N := [N.land x 15; N.land (N.shiftr x 4) 15].
Definition stsz_table (n : N) (m : rd N) : rd (list N) :=
  if n =? 4294967295 then (let* _ := m in rub) else rrep (N.to_nat n) m.
Definition stsz_read (h : hdr) : rd stsz :=
  let* vf := get_full in
  if h_type h =? T_stsz then
    let* sz := get32 in
    let* n := get32 in
    if sz =? 0 then
      let* l := stsz_table n get32 in
      rret (mkStsz (fst vf) (snd vf) 32 0 n (Some l) 0)
    else rret (mkStsz (fst vf) (snd vf) 32 sz n None 0)
  else
    let* f := get32 in
    let* n := get32 in
    let done l := rret (mkStsz (fst vf) (snd vf) f 0 n (Some l) 0) in
    if f =? 4 then
      (if n =? 4294967295 then (let* _ := get8 in rub) else
       let* bs := rrep (N.to_nat ((n + 1) / 2)) get8 in done (flat_map nib_split bs))
    else if f =? 8 then (let* l := stsz_table n get8 in done l)
    else if f =? 16 then (let* l := stsz_table n get16 in done l)
    else done [].
Definition stsz_codec : codec stsz :=
  mkCodec (fun ty => (ty =? T_stsz) || (ty =? T_stz2)) stsz_type stsz_boxsize stsz_write stsz_read.

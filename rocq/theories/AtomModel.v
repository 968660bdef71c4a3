(* AtomModel.v -- box headers, the recursive box parser and the generic
   container boxes (MP4Atoms.c, MP4Impl.h, and the container atom files). *)
From Verif Require Import Base.

(* MP4_FOUR_CHAR_CODE, MP4Movies.h: big-endian packing of four characters *)
Definition fourcc (a b c d : N) : N := a * 16777216 + b * 65536 + c * 256 + d.

(* atom types, MP4Atoms.h:36-172 *)
Definition T_uuid := fourcc 117 117 105 100.
Definition T_free := fourcc 102 114 101 101.
Definition T_skip := fourcc 115 107 105 112.
Definition T_moov := fourcc 109 111 111 118.
Definition T_mvhd := fourcc 109 118 104 100.
Definition T_iods := fourcc 105 111 100 115.
Definition T_udta := fourcc 117 100 116 97.
Definition T_meta := fourcc 109 101 116 97.
Definition T_meco := fourcc 109 101 99 111.
Definition T_mvex := fourcc 109 118 101 120.
Definition T_trak := fourcc 116 114 97 107.
Definition T_tkhd := fourcc 116 107 104 100.
Definition T_edts := fourcc 101 100 116 115.
Definition T_elst := fourcc 101 108 115 116.
Definition T_tref := fourcc 116 114 101 102.
Definition T_trgr := fourcc 116 114 103 114.
Definition T_mdia := fourcc 109 100 105 97.
Definition T_mdhd := fourcc 109 100 104 100.
Definition T_elng := fourcc 101 108 110 103.
Definition T_hdlr := fourcc 104 100 108 114.
Definition T_minf := fourcc 109 105 110 102.
Definition T_vmhd := fourcc 118 109 104 100.
Definition T_smhd := fourcc 115 109 104 100.
Definition T_hmhd := fourcc 104 109 104 100.
Definition T_dinf := fourcc 100 105 110 102.
Definition T_dref := fourcc 100 114 101 102.
Definition T_stbl := fourcc 115 116 98 108.
Definition T_stts := fourcc 115 116 116 115.
Definition T_ctts := fourcc 99 116 116 115.
Definition T_cslg := fourcc 99 115 108 103.
Definition T_stss := fourcc 115 116 115 115.
Definition T_stsd := fourcc 115 116 115 100.
Definition T_stsz := fourcc 115 116 115 122.
Definition T_stz2 := fourcc 115 116 122 50.
Definition T_stsc := fourcc 115 116 115 99.
Definition T_stco := fourcc 115 116 99 111.
Definition T_co64 := fourcc 99 111 54 52.
Definition T_stsh := fourcc 115 116 115 104.
Definition T_stdp := fourcc 115 116 100 112.
Definition T_padb := fourcc 112 97 100 98.
Definition T_sdtp := fourcc 115 100 116 112.
Definition T_saiz := fourcc 115 97 105 122.
Definition T_saio := fourcc 115 97 105 111.
Definition T_sgpd := fourcc 115 103 112 100.
Definition T_sbgp := fourcc 115 98 103 112.
Definition T_csgp := fourcc 99 115 103 112.
Definition T_iprp := fourcc 105 112 114 112.
Definition T_ipco := fourcc 105 112 99 111.
Definition T_ipma := fourcc 105 112 109 97.
Definition T_schi := fourcc 115 99 104 105.
Definition T_rinf := fourcc 114 105 110 102.
Definition T_frma := fourcc 102 114 109 97.
Definition T_schm := fourcc 115 99 104 109.
Definition T_jp2h := fourcc 106 112 50 104.
Definition T_ihdr := fourcc 105 104 100 114.
Definition T_bpcc := fourcc 98 112 99 99.
Definition T_colr := fourcc 99 111 108 114.

(* ------------------------------------------------------------------ *)
(* Headers                                                             *)

(* The proto atom filled in by MP4ParseAtomUsingProtoList, MP4Atoms.c:768-848;
   [h_read] is bytesParsed. *)
Record hdr := mkH { h_size : N; h_size64 : N; h_type : N; h_uuid : list N; h_read : N }.

(* read the header of one box, MP4Atoms.c:790-848. [len r] is
   inputStream->available after the size field.  getStreamOffset and the
   debug messages are not modelled. *)
Definition parse_hdr : rd hdr :=
  let* sz := get32 in
  fun s =>
    let avail := len (inp s) in
    let '(size, size64) :=
      if sz =? 0 then
        let the_size := avail + 4 in
        if negb (N.shiftr the_size 32 =? 0) then (1, the_size + 8) else (the_size, 0)
      else (sz, 0) in
    if negb (size =? 1) && (avail <? sub32 size 4) then Err MP4BadDataErr
    else
    (let* ty := get32 in
     let* uuid := (if ty =? T_uuid then take 16 else rret []) in
     let* size64 := (if size =? 1 then get64 else rret size64) in
     let parsed := 8 + (if ty =? T_uuid then 16 else 0) + (if size =? 1 then 8 else 0) in
     if negb (size =? 1) && (size <? parsed) then rerr MP4BadDataErr
     else rret (mkH size size64 ty uuid parsed)) s.

(* MP4SerializeCommonBaseAtomFields, MP4Atoms.c:945-970 *)
Definition write_base (size size64 ty : N) : wr :=
  put32 size ;; put32 ty ;; (if size =? 1 then put64 size64 else wret).
(* MP4SerializeCommonFullAtomFields, MP4Atoms.c:972-984 *)
Definition write_full (size size64 ty ver flags : N) : wr :=
  write_base size size64 ty ;; put8 ver ;; put24 flags.
(* fullAtomCreateFromInputStream, MP4Atoms.c:105-126 *)
Definition get_full : rd (N * N) :=
  let* v := get32 in rret (N.shiftr v 24, N.land v 16777215).

(* ------------------------------------------------------------------ *)
(* Box trees                                                           *)

(* An error code outside MP4Err: the recursion fuel of the model ran out.
   AtomProps.v proves it never appears when fuel exceeds the input length. *)
Definition OutOfFuel : Z := 99999.

Section Tree.
(* Boxes with their own parser (tables, headers, sample entries ...):
   [L] is the type of their contents, [leafP ty] the body parser for that
   type (None: no such box), [leafW] the bytes following the common header. *)
Variable L : Type.
Variable leafP : N -> option (hdr -> rd L).
Variable leafType : L -> N.
Variable leafSize : L -> N.
Variable leafW : L -> wr.
(* the empty tables stbl creates when one is missing *)
Variable dflt : N -> L.

Inductive atom :=
| AOpaque (ty : N) (uuid data : list N)    (* MP4UnknownAtom, UnknownAtom.c *)
| AFree (ty : N) (data : list N)           (* MP4FreeSpaceAtom, FreeSpaceAtom.c *)
| ALeaf (l : L)
| ABoxes (ty : N) (kids : list atom).      (* containers with an atomList *)

(* the boxes whose createFromInputStream is PARSE_ATOM_LIST and whose
   children live in one atomList, MP4Impl.h:605-629 *)
Definition is_container (ty : N) : bool :=
  existsb (N.eqb ty) [T_moov; T_trak; T_mdia; T_minf; T_dinf; T_edts; T_stbl; T_iprp; T_ipco;
                      T_schi; T_rinf; T_jp2h].

(* the member a child of type [k] is stored in when added to a container of
   type [c]; None when the container keeps no such member *)
Definition slot (c k : N) : option N :=
  if c =? T_dinf then (* DataInformationAtom.c:100-117 *)
    if k =? T_dref then Some k else None
  else if c =? T_edts then (* EditAtom.c:62-75 *)
    if k =? T_elst then Some k else None
  else if c =? T_mdia then (* MediaAtom.c:89-122 *)
    if existsb (N.eqb k) [T_mdhd; T_elng; T_hdlr; T_minf] then Some k else None
  else if c =? T_minf then (* MediaInformationAtom.c:67-97 *)
    if existsb (N.eqb k) [T_mdhd; T_vmhd; T_smhd; T_hmhd] then Some T_mdhd
    else if existsb (N.eqb k) [T_dinf; T_stbl] then Some k else None
  else if c =? T_moov then (* MovieAtom.c:316-364 *)
    if existsb (N.eqb k) [T_iods; T_mvhd; T_udta; T_meta; T_meco; T_mvex] then Some k else None
  else if c =? T_trak then (* TrackAtom.c:375-429 *)
    if existsb (N.eqb k) [T_tkhd; T_edts; T_udta; T_tref; T_trgr; T_mdia; T_meta; T_meco] then Some k else None
  else if c =? T_stbl then (* SampleTableAtom.c:87-142 *)
    if existsb (N.eqb k) [T_stts; T_ctts; T_cslg; T_stss; T_stsd; T_stsc; T_stsh; T_stdp; T_padb; T_sdtp] then Some k
    else if existsb (N.eqb k) [T_stsz; T_stz2] then Some T_stsz
    else if existsb (N.eqb k) [T_stco; T_co64] then Some T_stco else None
  else if c =? T_rinf then (* RestrictedSchemeInfoAtom.c:118-142 *)
    if existsb (N.eqb k) [T_frma; T_schm; T_schi] then Some k else None
  else if c =? T_jp2h then (* MJ2HeaderAtom.c:80-127 *)
    if existsb (N.eqb k) [T_ihdr; T_bpcc; T_colr] then Some k else None
  else None. (* iprp (ItemPropertiesAtom.c:38-62), ipco, schi *)
(* the error a second child for an occupied member gives *)
Definition dup_err (c : N) : Z := if c =? T_edts then MP4InvalidMediaErr else MP4BadDataErr.

Definition atype (a : atom) : N :=
  match a with AOpaque ty _ _ => ty | AFree ty _ => ty | ALeaf l => leafType l | ABoxes ty _ => ty end.

Definition slot_used (c : N) (kids : list atom) (k : N) : bool :=
  match slot c k with
  | None => false
  | Some m => existsb (fun a => match slot c (atype a) with Some m' => m' =? m | None => false end) kids
  end.

(* SampleTableAtom.c:468-525 setupNew, run after parsing an stbl: missing
   stts, stsd, stsz, stsc, stco are created empty *)
Definition setup_new (c : N) (kids : list atom) : list atom :=
  if c =? T_stbl then
    fold_left (fun ks m => if slot_used c ks m then ks else ks ++ [ALeaf (dflt m)])
              [T_stts; T_stsd; T_stsz; T_stsc; T_stco] kids
  else kids.

(* the skip loop at the end of MP4ParseAtomUsingProtoList,
   MP4Atoms.c:866-894: number of iterations; read8 errors are ignored. *)
Definition skip_count (h : hdr) (consumed : N) : N :=
  if h_size h =? 1 then h_size64 h - consumed else h_size h - consumed.
Definition skip_tail (n : N) (rest : list N) : list N :=
  skipn (N.to_nat (N.min n (len rest))) rest.

Definition is_free (ty : N) : bool := (ty =? T_free) || (ty =? T_skip).

(* Results with a cost: the number of boxes begun plus skip-loop iterations,
   and whether some box announced a 64-bit size. The cost is an observation
   of the execution; it influences nothing. *)
Definition cost := (N * bool)%type.
Definition cm (A : Type) := (cost * res A)%type.
Definition cret {A} (c : cost) (r : res A) : cm A := (c, r).
Definition cbind {A B} (m : cm A) (k : A -> cm B) : cm B :=
  match snd m with
  | Ok a => let r := k a in ((fst (fst m) + fst (fst r), snd (fst m) || snd (fst r)), snd r)
  | Err e => (fst m, Err e)
  | UB => (fst m, UB)
  end.

(* One box. The returned number is atom->size, which the parent adds to its
   own bytesRead (MP4Impl.h:611): 1 for a box with a 64-bit size. *)
Fixpoint parse_atom (fuel : nat) (i : list N) {struct fuel} : cm ((atom * N) * list N) :=
  match fuel with
  | O => cret (0, false) (Err OutOfFuel)
  | S f =>
      cbind (cret (1, false) (parse_hdr (mkR i 0))) (fun hs =>
      let h := fst hs in
      let r := inp (snd hs) in
      cbind
        (if is_container (h_type h) then
           cbind (parse_kids f (h_type h) (h_size h) (h_read h) [] r) (fun kr =>
           cret (0, false) (Ok (ABoxes (h_type h) (setup_new (h_type h) (fst kr)), snd kr)))
         else cret (0, false)
          (if is_free (h_type h) then
           (* FreeSpaceAtom.c:83-108 *)
           do (d, st') <- take (N.to_nat (sub32 (h_size h) (h_read h))) (mkR r (h_read h));
           Ok (AFree (h_type h) d, inp st')
          else match leafP (h_type h) with
           | Some p => do (l, st') <- p h (mkR r (h_read h)); Ok (ALeaf l, inp st')
           | None =>
               (* UnknownAtom.c:75-98 *)
               do (d, st') <- take (N.to_nat (sub32 (h_size h) (h_read h))) (mkR r (h_read h));
               Ok (AOpaque (h_type h) (h_uuid h) d, inp st')
           end)) (fun ar =>
      let n := skip_count h (len i - len (snd ar)) in
      cret (n, h_size h =? 1) (Ok ((fst ar, h_size h), skip_tail n (snd ar)))))
  end
(* PARSE_ATOM_INCLUDES, MP4Impl.h:605-620, with the container's addAtom *)
with parse_kids (fuel : nat) (c size br : N) (kids : list atom) (i : list N) {struct fuel}
  : cm (list atom * list N) :=
  if br <? size then
    match fuel with
    | O => cret (0, false) (Err OutOfFuel)
    | S f =>
        cbind (parse_atom f i) (fun asr =>
        let a := fst (fst asr) in
        let br' := w32 (br + snd (fst asr)) in
        if is_free (atype a) then parse_kids f c size br' kids (snd asr)
        else if slot_used c kids (atype a) then cret (0, false) (Err (dup_err c))
        else parse_kids f c size br' (kids ++ [a]) (snd asr))
    end
  else cret (0, false) (if br =? size then Ok (kids, i) else Err MP4BadDataErr).

(* MP4ParseAtom on a stream holding exactly [i] *)
Definition parse_top (i : list N) : cm ((atom * N) * list N) :=
  parse_atom (length i + 3) i.

(* ------------------------------------------------------------------ *)
(* Writing                                                             *)

(* the lists an stbl adds to its size and writes: atomList, then the two
   auxiliary lists which parsed saiz/saio children are in as well
   (SampleTableAtom.c:121-127, 432-466) *)
Definition written_kids (c : N) (kids : list atom) : list atom :=
  if c =? T_stbl then
    kids ++ filter (fun a => atype a =? T_saiz) kids ++ filter (fun a => atype a =? T_saio) kids
  else kids.

(* calculateSize: UnknownAtom.c:57-73, FreeSpaceAtom.c:68-81, containers
   ADD_ATOM_LIST_SIZE MP4Impl.h:446-465; u32 arithmetic *)
Fixpoint asize (a : atom) : N :=
  match a with
  | AOpaque ty _ d => w32 ((if ty =? T_uuid then 24 else 8) + len d)
  | AFree _ d => w32 (8 + len d)
  | ALeaf l => leafSize l
  | ABoxes ty kids =>
      let sz := map (fun k => (atype k, asize k)) kids in
      let ws := if ty =? T_stbl
                then sz ++ filter (fun p => fst p =? T_saiz) sz ++ filter (fun p => fst p =? T_saio) sz
                else sz in
      fold_left (fun acc p => w32 (acc + snd p)) ws 8
  end.

(* serialize: each child is written into its own window of asize bytes
   (SERIALIZE_ATOM_LIST MP4Impl.h:543-568: check, then the child's own
   serialize with its own bytesWritten) *)
Definition embed (sz : N) (bs : res (list N)) : wr := fun s =>
  if wsz s <? w32 (len (wout s) + sz) then Err MP4IOErr
  else do b <- bs; Ok (mkW (wout s ++ b) (wsz s)).

Fixpoint awrite (a : atom) : res (list N) :=
  match a with
  | AOpaque ty uuid d => (* UnknownAtom.c:36-55 *)
      wrun (asize a) (write_base (asize a) 0 ty ;;
                      (if ty =? T_uuid then putl uuid else wret) ;; putl d)
  | AFree ty d => (* FreeSpaceAtom.c:43-66 *)
      wrun (asize a) (write_base (asize a) 0 ty ;; putl d)
  | ALeaf l => wrun (leafSize l) (write_base (leafSize l) 0 (leafType l) ;; leafW l)
  | ABoxes ty kids =>
      let ks := map (fun k => (atype k, (asize k, awrite k))) kids in
      let ws := if ty =? T_stbl
                then ks ++ filter (fun p => fst p =? T_saiz) ks ++ filter (fun p => fst p =? T_saio) ks
                else ks in
      wrun (asize a) (write_base (asize a) 0 ty ;; wmap (fun p => embed (fst (snd p)) (snd (snd p))) ws)
  end.
End Tree.

(* TextModel.v -- the boxes that carry text, and the file type box. *)
From Verif Require Import Base AtomModel BoxModel.

(* ------------------------------------------------------------------ *)
(* C strings in a heap buffer                                          *)

(* the characters before the first zero byte: strlen is their number *)
Fixpoint chars (b : list N) : list N :=
  match b with [] => [] | x :: r => if x =? 0 then [] else x :: chars r end.
(* whether the buffer holds a zero byte; when it does not, strlen, strcpy and
   printf read past its end *)
Definition terminated (b : list N) : bool := existsb (N.eqb 0) b.
Definition slen (b : list N) : N := len (chars b).
(* PUTBYTES(p, strlen(p) + 1) *)
Definition put_str (b : list N) : wr :=
  if terminated b then putl (chars b ++ [0]) else wub.

(* ------------------------------------------------------------------ *)
(* HandlerAtom.c                                                       *)

Definition T_mhlr := fourcc 109 104 108 114.
Definition T_appl := fourcc 97 112 112 108.
(* MP4HandlerAtom; [hd_name] is nameUTF8[0..nameLength) *)
Record hdlr := mkHdlr { hd_ver : N; hd_flags : N; hd_ctype : N; hd_type : N; hd_manu : N; hd_cflags : N; hd_mask : N;
  hd_qt : bool; hd_name : list N }.
(* serialize, HandlerAtom.c:44-80 *)
Definition hdlr_write (a : hdlr) : wr :=
  put8 (hd_ver a) ;; put24 (hd_flags a) ;;
  put32 (if hd_qt a then T_mhlr else hd_ctype a) ;; put32 (hd_type a) ;;
  put32 (if hd_qt a then T_appl else hd_manu a) ;; put32 (hd_cflags a) ;; put32 (hd_mask a) ;;
  (if hd_qt a then put8 (len (hd_name a)) ;; putl (hd_name a) else putl (hd_name a) ;; put8 0).
(* calculateSize, HandlerAtom.c:82-95 *)
Definition hdlr_size (a : hdlr) : N := w32 (12 + 20 + len (hd_name a) + 1).
(* pascaltocstr, HandlerAtom.c:123-131: the first [s[0]] characters after the
   length byte move to the front and a zero follows; only called when the
   buffer holds exactly s[0]+1 bytes *)
Definition pascaltocstr (b : list N) : list N :=
  match b with [] => [] | x :: r => firstn (N.to_nat x) r ++ [0] ++ skipn (N.to_nat x + 1) b end.
(* createFromInputStream, HandlerAtom.c:133-182. The name buffer has
   bytesLeft bytes: with none, looking at its first byte is undefined (160).
   char is signed. The debug message buffer of 256 bytes takes 19 more than
   the name (175); a name without zero byte is read past its end there. *)
Definition hdlr_read (h : hdr) : rd hdlr :=
  let* vf := get_full in
  let* ct := get32 in let* ht := get32 in let* mn := get32 in let* cf := get32 in let* cm := get32 in
  let* br := getrdn in
  let n := sub32 (h_size h) br in
  let* b := take (N.to_nat n) in
  match b with
  | [] => rub
  | x :: _ =>
      let pascal := (x =? n - 1) && (x <? 128) in
      let b' := if pascal then pascaltocstr b else b in
      let nl := if pascal || (last b 0 =? 0) then n - 1 else n in
      if (0 <? nl) && (negb (terminated b') || (237 <? slen b')) then rub
      else rret (mkHdlr (fst vf) (snd vf) ct ht mn cf cm false (firstn (N.to_nat nl) b'))
  end.
Definition hdlr_codec : codec hdlr :=
  mkCodec (N.eqb T_hdlr) (fun _ => T_hdlr) hdlr_size hdlr_write hdlr_read.
(* setName, HandlerAtom.c:97-121; the argument is a C string *)
Definition hdlr_set_name (a : hdlr) (name : list N) (qt : bool) : hdlr :=
  mkHdlr (hd_ver a) (hd_flags a) (hd_ctype a) (hd_type a) (hd_manu a) (hd_cflags a) (hd_mask a) qt (chars name).
(* MP4GetMediaHandlerDescription, MP4Media.c:1352-1386: the type and the
   contents of the handle *)
Definition hdlr_describe (a : hdlr) : N * list N := (hd_type a, hd_name a).

(* ------------------------------------------------------------------ *)
(* DataEntryURLAtom.c, for the types 'url ' and 'alis'                 *)

Definition T_url := fourcc 117 114 108 32.
Definition T_alis := fourcc 97 108 105 115.
(* MP4DataEntryURLAtom; [ul_loc] is the buffer location points to, of
   locationLength bytes. The link to the media data is not modelled here. *)
Record durl := mkUrl { ul_ty : N; ul_ver : N; ul_flags : N; ul_loc : option (list N) }.
(* serialize, DataEntryURLAtom.c:102-124 *)
Definition url_write (a : durl) : wr :=
  put8 (ul_ver a) ;; put24 (ul_flags a) ;;
  (if N.land (ul_flags a) 1 =? 0 then match ul_loc a with Some b => put_str b | None => wret end else wret).
(* calculateSize, DataEntryURLAtom.c:126-142 *)
Definition url_size (a : durl) : N :=
  w32 (12 + (if N.land (ul_flags a) 1 =? 0 then match ul_loc a with Some b => 1 + slen b | None => 0 end else 0)).
(* createFromInputStream, DataEntryURLAtom.c:144-181. A location shorter
   than 200 bytes is printed into a debug message (168); the contents of an
   'alis' go into a buffer of 256 bytes on the stack (174). *)
Definition url_read (h : hdr) : rd durl :=
  let* vf := get_full in
  let* br := getrdn in
  let n := sub32 (h_size h) br in
  if n =? 0 then rret (mkUrl (h_type h) (fst vf) (snd vf) None)
  else if h_type h =? T_url then
    let* b := take (N.to_nat n) in
    if (n <? 200) && negb (terminated b) then rub
    else rret (mkUrl (h_type h) (fst vf) (snd vf) (Some b))
  else if 256 <? n then rub
  else let* _ := take (N.to_nat n) in rret (mkUrl (h_type h) (fst vf) (snd vf) None).
Definition url_codec : codec durl :=
  mkCodec (fun ty => (ty =? T_alis) || (ty =? T_url)) ul_ty url_size url_write url_read.

(* ------------------------------------------------------------------ *)
(* DataEntryURNAtom.c                                                  *)

Definition T_urn := fourcc 117 114 110 32.
(* MP4DataEntryURNAtom. [un_name] is what the field name points to: the
   atom's descriptive name after MP4CreateDataEntryURNAtom
   (DataEntryURNAtom.c:208), the caller's name after MP4AddMediaDataReference
   (MP4Media.c:1236-1238); [un_read] is nameURN, set by the parser only. *)
Record durn := mkUrn { un_ver : N; un_flags : N; un_loc : option (list N); un_name : list N; un_read : option (list N) }.
(* "data entry URN", DataEntryURNAtom.c:208 *)
Definition urn_label : list N := [100;97;116;97;32;101;110;116;114;121;32;85;82;78;0].
(* serialize, DataEntryURNAtom.c:103-130 *)
Definition urn_write (a : durn) : wr :=
  put8 (un_ver a) ;; put24 (un_flags a) ;;
  (if N.land (un_flags a) 1 =? 0 then
     match un_loc a with Some b => put_str b ;; put_str (un_name a) | None => wret end
   else wret).
(* calculateSize, DataEntryURNAtom.c:132-149 *)
Definition urn_size (a : durn) : N :=
  w32 (12 + (if N.land (un_flags a) 1 =? 0 then
               match un_loc a with Some b => 1 + slen b | None => 0 end + (1 + slen (un_name a))
             else 0)).
(* the bytes after the first zero, if there is one *)
Fixpoint after_zero (b : list N) : option (list N) :=
  match b with [] => None | x :: r => if x =? 0 then Some r else after_zero r end.
(* createFromInputStream, DataEntryURNAtom.c:151-195: the name comes first *)
Definition urn_read (h : hdr) : rd durn :=
  let* vf := get_full in
  let* br := getrdn in
  let n := sub32 (h_size h) br in
  let* b := take (N.to_nat n) in
  if n =? 0 then rret (mkUrn (fst vf) (snd vf) (Some []) urn_label (Some []))
  else match after_zero b with
       | None => rerr MP4BadDataErr
       | Some l => rret (mkUrn (fst vf) (snd vf) (Some l) urn_label (Some (chars b ++ [0])))
       end.
Definition urn_codec : codec durn := mkCodec (N.eqb T_urn) (fun _ => T_urn) urn_size urn_write urn_read.

(* ------------------------------------------------------------------ *)
(* ExtendedLanguageTag.c                                               *)

(* [el_tag] is the buffer extended_language points to *)
Record elng := mkElng { el_ver : N; el_flags : N; el_tag : list N }.
(* serialize 43-58, calculateSize 60-75, createFromInputStream 77-96 *)
Definition elng_write (a : elng) : wr := put8 (el_ver a) ;; put24 (el_flags a) ;; put_str (el_tag a).
Definition elng_size (a : elng) : N := w32 (12 + (slen (el_tag a) + 1)).
Definition elng_read (h : hdr) : rd elng :=
  let* vf := get_full in
  let* br := getrdn in
  let* b := take (N.to_nat (sub32 (h_size h) br)) in
  rret (mkElng (fst vf) (snd vf) b).
Definition elng_codec : codec elng := mkCodec (N.eqb T_elng) (fun _ => T_elng) elng_size elng_write elng_read.

(* MP4SetMediaExtendedLanguageTag, MP4Media.c:416-439, with
   setExtendedLanguageTag MediaAtom.c:487-498 and addAtom MediaAtom.c:89-122:
   the media box is [kids], its list of children, of which the first elng is
   the member extendedLanguageTag. The new box is always appended; the error
   of a second one is ignored and the member keeps the first. *)
Definition set_language {A} (is_elng : A -> bool) (mk : elng -> A) (kids : list A) (tag : list N) : list A :=
  kids ++ [mk (mkElng 0 0 (chars tag ++ [0]))].
(* MP4GetMediaExtendedLanguageTag, MP4Media.c:467-493: None is the NULL
   result, UB an unterminated tag *)
Definition get_language {A} (view : A -> option elng) (kids : list A) : res (option (list N)) :=
  match flat_map (fun a => match view a with Some e => [e] | None => [] end) kids with
  | [] => Ok None
  | e :: _ => if terminated (el_tag e) then Ok (Some (chars (el_tag e))) else UB
  end.

(* ------------------------------------------------------------------ *)
(* CopyrightAtom.c                                                     *)

Definition T_cprt := fourcc 99 112 114 116.
(* [cp_notice] is the buffer notice points to, None for NULL *)
Record cprt := mkCprt { cp_ver : N; cp_flags : N; cp_lang : N; cp_notice : option (list N) }.
(* serialize 44-62, calculateSize 64-77 (strlen of a NULL notice is
   undefined), createFromInputStream 79-102 *)
Definition cprt_write (a : cprt) : wr :=
  match cp_notice a with
  | None => wub
  | Some b => put8 (cp_ver a) ;; put24 (cp_flags a) ;; put16 (cp_lang a) ;; put_str b
  end.
Definition cprt_size (a : cprt) : N :=
  w32 (12 + (3 + match cp_notice a with Some b => slen b | None => 0 end)).
Definition cprt_read (h : hdr) : rd cprt :=
  let* vf := get_full in
  let* l := get16 in
  let* br := getrdn in
  let n := sub32 (h_size h) br in
  if n =? 0 then rret (mkCprt (fst vf) (snd vf) l None)
  else let* b := take (N.to_nat n) in rret (mkCprt (fst vf) (snd vf) l (Some b)).
Definition cprt_codec : codec cprt := mkCodec (N.eqb T_cprt) (fun _ => T_cprt) cprt_size cprt_write cprt_read.

(* ------------------------------------------------------------------ *)
(* SchemeTypeAtom.c                                                    *)

(* [sm_url] is the buffer scheme_url points to *)
Record schm := mkSchm { sm_ver : N; sm_flags : N; sm_type : N; sm_version : N; sm_url : option (list N) }.
(* calculateSize, SchemeTypeAtom.c:73-94, recomputes the flags *)
Definition schm_has_url (a : schm) : bool := match sm_url a with Some b => 0 <? slen b | None => false end.
Definition schm_size (a : schm) : N :=
  w32 (12 + 8 + (if schm_has_url a then 1 + match sm_url a with Some b => slen b | None => 0 end else 0)).
(* serialize, SchemeTypeAtom.c:49-71, after calculateSize *)
Definition schm_write (a : schm) : wr :=
  put8 (sm_ver a) ;; put24 (if schm_has_url a then 1 else 0) ;; put32 (sm_type a) ;; put32 (sm_version a) ;;
  (if schm_has_url a then match sm_url a with Some b => put_str b | None => wret end else wret).
(* createFromInputStream, SchemeTypeAtom.c:96-142 *)
Definition schm_read (h : hdr) : rd schm :=
  let* vf := get_full in
  let* ty := get32 in let* ve := get32 in
  let* br := getrdn in
  let n := sub32 (h_size h) br in
  if n =? 0 then
    (if N.land (snd vf) 1 =? 0 then rret (mkSchm (fst vf) (snd vf) ty ve None) else rerr MP4BadDataErr)
  else if N.land (snd vf) 1 =? 0 then rerr MP4BadDataErr
  else
    let* b := take (N.to_nat n) in
    if (n <? 200) && negb (terminated b) then rub
    else rret (mkSchm (fst vf) (snd vf) ty ve (Some b)).
Definition schm_codec : codec schm := mkCodec (N.eqb T_schm) (fun _ => T_schm) schm_size schm_write schm_read.

(* ------------------------------------------------------------------ *)
(* MJ2FileTypeAtom.c                                                   *)

Definition T_ftyp := fourcc 102 116 121 112.
(* ISOFileTypeAtom; [ft_list] is compatibilityList[0..itemCount) *)
Record ftyp := mkFtyp { ft_brand : N; ft_minor : N; ft_list : list N }.
(* MJ2CreateFileTypeAtom, MJ2FileTypeAtom.c:205-242 *)
Definition ftyp_new : ftyp := mkFtyp 0 0 [].
(* serialize 44-69, calculateSize 71-85 *)
Definition ftyp_write (a : ftyp) : wr := put32 (ft_brand a) ;; put32 (ft_minor a) ;; wmap put32 (ft_list a).
Definition ftyp_size (a : ftyp) : N := w32 (8 + 8 + len (ft_list a) * 4).
(* createFromInputStream, MJ2FileTypeAtom.c:154-203: whole numbers are read
   while four bytes remain, then up to three bytes too many are an error *)
Definition ftyp_read (h : hdr) : rd ftyp :=
  let* b := get32 in
  let* m := get32 in
  let* br := getrdn in
  let n := sub32 (h_size h) br in
  if n <? 4 then rerr MP4BadDataErr
  else
    let* l := rrep (N.to_nat (n / 4)) get32 in
    if n mod 4 =? 0 then rret (mkFtyp b m l) else rerr MP4BadDataErr.
Definition ftyp_codec : codec ftyp := mkCodec (N.eqb T_ftyp) (fun _ => T_ftyp) ftyp_size ftyp_write ftyp_read.
(* getStandard, MJ2FileTypeAtom.c:95-111 *)
Definition ftyp_get (a : ftyp) (s : N) : N := if existsb (N.eqb s) (ft_list a) then s else 0.
(* addStandard, MJ2FileTypeAtom.c:113-131 *)
Definition ftyp_add (a : ftyp) (s : N) : ftyp :=
  if ftyp_get a s =? 0 then mkFtyp (ft_brand a) (ft_minor a) (ft_list a ++ [s]) else a.
(* setBrand, MJ2FileTypeAtom.c:133-152 *)
Definition ftyp_set (a : ftyp) (s minor : N) : ftyp :=
  let a1 := mkFtyp s minor (ft_list a) in
  let a2 := if ft_brand a =? 0 then a1 else ftyp_add a1 (ft_brand a) in
  ftyp_add a2 s.
(* ISOIsMovieCompatibleBrand, MP4Movies.c:992-1007 *)
Definition ftyp_is (a : ftyp) (s : N) : res unit := if ftyp_get a s =? s then Ok tt else Err MP4NotFoundErr.

(* DescModel.v -- MPEG-4 descriptors: their sizes, writers and readers. *)
From Verif Require Import Base AtomModel BoxModel.

(* MP4SLConfigDescriptor, MP4Descriptors.h:220-248; the start times are never
   read or written *)
Record slc := mkSlc { sl_pre : N; sl_austart : N; sl_auend : N; sl_rap : N; sl_rau : N; sl_pad : N; sl_ts : N; sl_idle : N; sl_dur : N;
  sl_tsres : N; sl_ocrres : N; sl_tslen : N; sl_ocrlen : N; sl_aulen : N; sl_brlen : N;
  sl_deg : N; sl_auseq : N; sl_pkseq : N; sl_scale : N; sl_audur : N; sl_cudur : N }.

(* the descriptor structures of MP4Descriptors.h:137-297 without the
   descriptors inside them. Strings are lists, their length is
   URLStringLength. *)
Inductive head :=
| HOther (tag : N) (data : list N)              (* MP4DefaultDescriptor *)
| HInc (track : N)                              (* MP4ES_ID_IncDescriptor *)
| HRef (ref : N)                                (* MP4ES_ID_RefDescriptor *)
| HDec (oti stype up buf maxb avgb : N)         (* MP4DecoderConfigDescriptor *)
| HSL (s : slc)                                 (* MP4SLConfigDescriptor *)
| HES (esid dep prio ocr : N) (url : list N)    (* MP4ES_Descriptor *)
| HOD (tag id : N) (url : list N)               (* MP4ObjectDescriptor *)
| HIOD (id inlp : N) (url : list N) (p1 p2 p3 p4 p5 : N) (* MP4InitialObjectDescriptor *)
| HPtr (tag id tool es : N)                     (* MP4IPMPDescriptorPointer *)
| HToolD (id : N) (url : list N)                (* MP4IPMPToolDescriptor with the tool id 0 *)
| HTools.                                       (* MP4IPMPToolListDescriptor *)

(* a descriptor and those inside it, each with the member it is kept in:
   of MP4ES_Descriptor 0 decoderConfig, 1 slConfig, 2 ipiPtr, 3 IPIDataSet,
   4 IPMPDescriptorPointers, 5 langDesc, 6 qos, 7 extensionDescriptors;
   of the object descriptors 0 ESDescriptors, 1 ES_ID_IncDescriptors,
   2 ES_ID_RefDescriptors, 3 OCIDescriptors, 4 IPMPDescriptorPointers,
   5 extensionDescriptors; of the others 0, the only one *)
Inductive desc := Desc (h : head) (kids : list (N * desc)).

(* the tag a structure is created with: MP4Descriptors.c:64-127 *)
Definition htag (h : head) : N :=
  match h with
  | HOther t _ => t | HInc _ => 14 | HRef _ => 15 | HDec _ _ _ _ _ _ => 4 | HSL _ => 6
  | HES _ _ _ _ _ => 3 | HOD t _ _ => t | HIOD _ _ _ _ _ _ _ _ => 16 | HPtr t _ _ _ => t
  | HToolD _ _ => 98 | HTools => 96
  end.
Definition dtag (d : desc) : N := match d with Desc h _ => htag h end.

(* the members in the order they are written *)
Definition members (h : head) : list N :=
  match h with
  | HDec _ _ _ _ _ _ => [0]                     (* MP4DecoderConfigDescriptor.c:62 *)
  | HES _ _ _ _ _ => [0; 1; 2; 3; 4; 5; 6; 7]   (* MP4ESDescriptor.c:150-157 *)
  | HOD _ _ _ => [0; 1; 2; 3; 4; 5]             (* MP4ObjectDescriptor.c:112-117 *)
  | HIOD _ _ url _ _ _ _ _ =>                   (* MP4InitialObjectDescriptor.c:107-123 *)
      match url with [] => [0; 1; 3; 4; 5] | _ => [5] end
  | HTools => [0]                               (* MP4IPMPToolList.c:75 *)
  | _ => []
  end.
Definition in_member {A} (m : N) (ks : list (N * A)) : list (N * A) := filter (fun k => fst k =? m) ks.
Definition written {A} (h : head) (ks : list (N * A)) : list (N * A) :=
  flat_map (fun m => in_member m ks) (members h).

(* ------------------------------------------------------------------ *)
(* calculateSize                                                        *)

Definition url_size (url : list N) : N := match url with [] => 0 | _ => len url + 1 end.
(* what calculateSize adds to DESCRIPTOR_TAG_LEN_SIZE for a structure's own
   fields: MP4DefaultDescriptor.c:38-39, MP4ES_ID_IncDescriptor.c:36-37,
   MP4ES_ID_RefDescriptor.c:36-37, MP4DecoderConfigDescriptor.c:35-36,
   SLConfigDescriptor.c:36-50, MP4ESDescriptor.c:100-104,
   MP4ObjectDescriptor.c:77-79, MP4InitialObjectDescriptor.c:72-77,
   MP4IPMPDescriptorPointer.c:33-38, MP4IPMPToolDescriptor.c:49-54 *)
Definition head_size (h : head) : N :=
  match h with
  | HOther _ data => len data
  | HInc _ => 4
  | HRef _ => 2
  | HDec _ _ _ _ _ _ => 13
  | HSL s => 1 + (if sl_pre s =? 0 then 15 else 0) + (if sl_dur s =? 0 then 0 else 8) +
             (if sl_ts s =? 0 then let t := w32 (sl_tslen s * 2) in t / 8 + (if N.land t 127 =? 0 then 0 else 1) else 0)
  | HES _ dep _ ocr url => 3 + (if dep =? 0 then 0 else 2) + (if ocr =? 0 then 0 else 2) + url_size url
  | HOD _ _ url => 2 + url_size url
  | HIOD _ _ url _ _ _ _ _ => 2 + match url with [] => 5 | _ => len url + 1 end
  | HPtr _ id _ _ => 1 + (if id =? 255 then 4 else 0)
  | HToolD _ url => 18 + 4 + len url
  | HTools => 0
  end.
(* ADD_DESCRIPTOR_SIZE and ADD_DESCRIPTOR_LIST_SIZE, MP4Impl.h:412-444 *)
Fixpoint dsize (d : desc) : N :=
  match d with
  | Desc h ks =>
      let ss := map (fun k => (fst k, dsize (snd k))) ks in
      fold_left (fun a k => w32 (a + snd k)) (written h ss) (w32 (5 + head_size h))
  end.

(* ------------------------------------------------------------------ *)
(* serialize                                                            *)

(* MP4EncodeBaseDescriptor, BaseDescriptor.c:30-56 *)
Definition base_w (tag size : N) : wr :=
  let l := sub32 size 5 in
  put8 tag ;;
  put8 (N.lor (N.land (N.shiftr l 21) 127) 128) ;; put8 (N.lor (N.land (N.shiftr l 14) 127) 128) ;;
  put8 (N.lor (N.land (N.shiftr l 7) 127) 128) ;; put8 (N.land l 127).

Definition url_w (url : list N) : wr := match url with [] => wret | _ => put8 (len url) ;; putl url end.
Definition flag (b v : N) : N := if b =? 0 then 0 else v.
(* if(self->bytesWritten != self->size) BAILWITHERROR(MP4BadDataErr) *)
Definition wfilled : wr := fun s => if len (wout s) =? wsz s then Ok s else Err MP4BadDataErr.

(* SLConfigDescriptor.c:71-105 *)
Definition sl_w (s : slc) : wr :=
  put8 (sl_pre s) ;;
  (if sl_pre s =? 0 then
     put8 (N.lor (N.lor (N.lor (N.lor (N.lor (N.lor (N.lor (flag (sl_austart s) 128) (flag (sl_auend s) 64)) (flag (sl_rap s) 32))
       (flag (sl_rau s) 16)) (flag (sl_pad s) 8)) (flag (sl_ts s) 4)) (flag (sl_idle s) 2)) (flag (sl_dur s) 1)) ;;
     put32 (sl_tsres s) ;; put32 (sl_ocrres s) ;; put8 (sl_tslen s) ;; put8 (sl_ocrlen s) ;; put8 (sl_aulen s) ;; put8 (sl_brlen s) ;;
     put16 (N.lor (N.lor (N.lor (w32 (N.shiftl (sl_deg s) 12)) (w32 (N.shiftl (sl_auseq s) 7))) (w32 (N.shiftl (sl_pkseq s) 2))) 3)
   else wret) ;;
  (if sl_dur s =? 0 then wret else put32 (sl_scale s) ;; put16 (sl_audur s) ;; put16 (sl_cudur s)) ;;
  (if sl_ts s =? 0 then werr MP4NotImplementedErr else wret).

(* a structure's own fields *)
Definition head_w (h : head) : wr :=
  match h with
  | HOther _ data => putl data                  (* MP4DefaultDescriptor.c:56 *)
  | HInc t => put32 t                           (* MP4ES_ID_IncDescriptor.c:54 *)
  | HRef r => put16 r                           (* MP4ES_ID_RefDescriptor.c:54 *)
  | HDec oti st up buf mx av =>                 (* MP4DecoderConfigDescriptor.c:54-61 *)
      put8 oti ;; put8 (N.lor (N.lor (w8 (N.shiftl st 2)) (flag up 2)) 1) ;; put24 buf ;; put32 mx ;; put32 av
  | HSL s => sl_w s
  | HES esid dep prio ocr url =>                (* MP4ESDescriptor.c:130-149 *)
      put16 esid ;;
      put8 (N.lor (N.lor (N.lor (w8 prio) (flag ocr 32)) (match url with [] => 0 | _ => 64 end)) (flag dep 128)) ;;
      (if dep =? 0 then wret else put16 dep) ;; url_w url ;; (if ocr =? 0 then wret else put16 ocr)
  | HOD _ id url =>                             (* MP4ObjectDescriptor.c:102-111 *)
      put16 (N.lor (N.lor (w16 (N.shiftl id 6)) (match url with [] => 0 | _ => 32 end)) 31) ;; url_w url
  | HIOD id inlp url p1 p2 p3 p4 p5 =>           (* MP4InitialObjectDescriptor.c:100-117 *)
      put16 (N.lor (N.lor (N.lor (w16 (N.shiftl id 6)) (match url with [] => 0 | _ => 32 end)) (flag inlp 16)) 15) ;;
      (match url with
       | [] => put8 p1 ;; put8 p2 ;; put8 p3 ;; put8 p4 ;; put8 p5
       | _ => url_w url
       end)
  | HPtr _ id tool es =>                        (* MP4IPMPDescriptorPointer.c:54-60 *)
      put8 id ;; (if id =? 255 then put16 tool ;; put16 es else wret) ;; wfilled
  | HToolD id url =>                            (* MP4IPMPToolDescriptor.c:95-102, 127 *)
      put16 id ;; put64 0 ;; put64 0 ;; put32 (len url) ;; putl url ;; wfilled
  | HTools => wret
  end.
(* SERIALIZE_DESCRIPTOR and SERIALIZE_DESCRIPTOR_LIST, MP4Impl.h:488-541:
   the same check and window as for atoms *)
Fixpoint dwrite (d : desc) : res (list N) :=
  match d with
  | Desc h ks =>
      let es := map (fun k => (fst k, (dsize (snd k), dwrite (snd k)))) ks in
      wrun (dsize d) (base_w (htag h) (dsize d) ;; head_w h ;;
                      wmap (fun k => embed (fst (snd k)) (snd (snd k))) (written h es))
  end.

(* ------------------------------------------------------------------ *)
(* addDescriptor                                                        *)

Definition between (a b x : N) : bool := (a <=? x) && (x <=? b).
(* the members of an ES descriptor that hold one descriptor only *)
Definition single (m : N) : bool := existsb (N.eqb m) [0; 1; 2; 6].
(* the switch of MP4ESDescriptor.c:44-84 and 212-252 *)
Definition es_member (tag : N) : N :=
  if tag =? 4 then 0 else if tag =? 6 then 1 else if tag =? 9 then 2 else if tag =? 12 then 6
  else if tag =? 67 then 5 else if tag =? 10 then 4 else if (tag =? 7) || (tag =? 8) then 3 else 7.
(* the switches of MP4ObjectDescriptor.c:36-61 and 158-184 *)
Definition od_member (tag : N) : N :=
  if tag =? 3 then 0 else if tag =? 14 then 1 else if tag =? 15 then 2 else if tag =? 10 then 4 else 5.
(* the switches of MP4InitialObjectDescriptor.c:36-56 and 174-195 *)
Definition iod_member (tag : N) : N :=
  if tag =? 3 then 0 else if tag =? 14 then 1 else if tag =? 10 then 4 else 5.
(* putting a descriptor into a member of an ES descriptor *)
Definition es_put (ks : list (N * desc)) (m : N) (d : desc) : res (list (N * desc)) :=
  if single m && existsb (fun k => fst k =? m) ks then Err MP4InvalidMediaErr else Ok (ks ++ [(m, d)]).
(* addDescriptor: MP4ESDescriptor.c:32-90, MP4ObjectDescriptor.c:31-67,
   MP4InitialObjectDescriptor.c:31-62, MP4IPMPToolList.c:27-45; the others
   have none *)
Definition desc_add (h : head) (ks : list (N * desc)) (d : desc) : res (list (N * desc)) :=
  match h with
  | HES _ _ _ _ _ => es_put ks (if between 74 95 (dtag d) then 3 else es_member (dtag d)) d
  | HOD _ _ _ => Ok (ks ++ [(od_member (dtag d), d)])
  | HIOD _ _ _ _ _ _ _ _ => Ok (ks ++ [(iod_member (dtag d), d)])
  | HTools => if dtag d =? 99 then Ok (ks ++ [(0, d)]) else Err MP4BadParamErr
  | _ => UB
  end.

(* ------------------------------------------------------------------ *)
(* createFromInputStream                                                *)

(* the length bytes, MP4Descriptors.c:52-62; the counter sizeBytes is the
   same as bytesRead *)
Fixpoint len_rd (i : list N) (acc n : N) : res (N * rst) :=
  match i with
  | [] => Err MP4IOErr
  | v :: t =>
      let acc' := N.lor (w32 (N.shiftl acc 7)) (N.land v 127) in
      if N.land v 128 =? 0 then Ok (acc', mkR t (w32 (n + 1))) else len_rd t acc' (w32 (n + 1))
  end.
Definition get_len : rd N := fun s => len_rd (inp s) 0 (rdn s).

Definition url_rd (f : bool) : rd (list N) :=
  if f then let* n := get8 in take (N.to_nat n) else rret [].
(* if(self->bytesRead != self->size) BAILWITHERROR(MP4BadDataErr) *)
Definition at_end (size : N) : rd unit := let* n := getrdn in if n =? size then rret tt else rerr MP4BadDataErr.

(* SLConfigDescriptor.c:138-225 *)
Definition sl_rd (size : N) : rd slc :=
  let* p := get8 in
  let* s := (if p =? 0 then
      let* f := get8 in
      let* tsres := get32 in let* ocrres := get32 in
      let* tslen := get8 in let* ocrlen := get8 in let* aulen := get8 in let* brlen := get8 in
      let* l := get16 in
      let b := fun k => if N.testbit f k then 1 else 0 in
      rret (mkSlc 0 (b 7) (b 6) (b 5) (b 4) (b 3) (b 2) (b 1) (b 0) tsres ocrres tslen ocrlen aulen brlen
              (N.shiftr l 12) (N.land (N.shiftr l 7) 31) (N.land (N.shiftr l 2) 31) 0 0 0)
    else if p =? 2 then rret (mkSlc 2 0 0 0 0 0 1 0 0 0 0 0 0 0 0 0 0 0 0 0 0)   (* handlePredefined, :114-136 *)
    else rerr MP4InvalidMediaErr) in
  let* s := (if sl_dur s =? 0 then rret s else
      let* a := get32 in let* b := get16 in let* c := get16 in
      rret (mkSlc (sl_pre s) (sl_austart s) (sl_auend s) (sl_rap s) (sl_rau s) (sl_pad s) (sl_ts s) (sl_idle s) (sl_dur s)
              (sl_tsres s) (sl_ocrres s) (sl_tslen s) (sl_ocrlen s) (sl_aulen s) (sl_brlen s) (sl_deg s) (sl_auseq s) (sl_pkseq s) a b c)) in
  let* x := (if sl_ts s =? 0 then
      let t := 2 * sl_tslen s in
      let n := if N.land t 7 =? 0 then t / 8 else 1 + t / 8 in
      if 1024 <? n then rerr MP4NotImplementedErr else take (N.to_nat n)
    else rret []) in
  let* n := getrdn in
  let* j := (if n =? sub32 size 1 then get8 else rret 0) in
  rret s.

(* a structure's own fields. Readers that store 32 bits through a pointer to a
   local u8 (MP4IPMPTool.c:139,148, MP4IPMPToolDescriptor.c:139,157) overwrite
   what is beside it on the stack. *)
Definition head_rd (tag size : N) : rd head :=
  if (tag =? 2) || (tag =? 16) then             (* MP4InitialObjectDescriptor.c:131-161 *)
    let* v := get16 in
    let* url := url_rd (N.testbit v 5) in
    let inlp := if N.testbit v 4 then 1 else 0 in
    if N.testbit v 5 then rret (HIOD (N.shiftr v 6) inlp url 0 0 0 0 0)
    else let* a := get8 in let* b := get8 in let* c := get8 in let* d := get8 in let* e := get8 in
         rret (HIOD (N.shiftr v 6) inlp url a b c d e)
  else if tag =? 3 then                         (* MP4ESDescriptor.c:165-204 *)
    let* esid := get16 in
    let* v := get8 in
    let* dep := (if N.testbit v 7 then get16 else rret 0) in
    let* url := url_rd (N.testbit v 6) in
    let* ocr := (if N.testbit v 5 then get16 else rret 0) in
    rret (HES esid dep (N.land v 31) ocr url)
  else if tag =? 4 then                         (* MP4DecoderConfigDescriptor.c:69-94 *)
    let* oti := get8 in
    let* v := get8 in
    let* b1 := get16 in let* b2 := get8 in
    let* mx := get32 in let* av := get32 in
    rret (HDec oti (N.shiftr v 2) (N.land v 2) (N.lor (N.shiftl b1 8) b2) mx av)
  else if tag =? 14 then let* t := get32 in rret (HInc t) (* MP4ES_ID_IncDescriptor.c:61-72 *)
  else if tag =? 15 then let* r := get16 in rret (HRef r) (* MP4ES_ID_RefDescriptor.c:61-72 *)
  else if tag =? 6 then let* s := sl_rd size in rret (HSL s)
  else if (tag =? 1) || (tag =? 17) then        (* MP4ObjectDescriptor.c:125-146 *)
    let* v := get16 in
    let* url := url_rd (N.testbit v 5) in
    rret (HOD 1 (N.shiftr v 6) url)
  else if tag =? 99 then                        (* MP4IPMPTool.c:136-148 *)
    let* a := get64 in let* b := get64 in let* f := get8 in rub
  else if tag =? 96 then rret HTools            (* MP4IPMPToolList.c:82-88 *)
  else if tag =? 98 then                        (* MP4IPMPToolDescriptor.c:134-184 *)
    let* id := get16 in let* a := get64 in let* b := get64 in
    if (a =? 0) && (b =? 0) then
      let* n := get32 in let* url := take (N.to_nat n) in let* e := at_end size in rret (HToolD id url)
    else let* f := get8 in rub
  else if (tag =? 10) || (tag =? 21) then       (* MP4IPMPDescriptorPointer.c:67-84 *)
    let* id := get8 in
    let* p := (if id =? 255 then let* t := get16 in let* e := get16 in rret (t, e) else rret (0, 0)) in
    let* e := at_end size in
    rret (HPtr tag id (fst p) (snd p))
  else                                          (* MP4DefaultDescriptor.c:63-77 *)
    let* n := getrdn in
    let* data := take (N.to_nat (sub32 size n)) in
    rret (HOther tag data).

(* keeping a descriptor found inside another *)
Definition place (h : head) (ks : list (N * desc)) (d : desc) : res (list (N * desc)) :=
  match h with
  | HES _ _ _ _ _ => es_put ks (es_member (dtag d)) d                       (* MP4ESDescriptor.c:207-254 *)
  | HOD _ _ _ => Ok (ks ++ [(if between 64 95 (dtag d) then 3 else od_member (dtag d), d)]) (* MP4ObjectDescriptor.c:145-187 *)
  | HIOD _ _ _ _ _ _ _ _ => Ok (ks ++ [(if between 64 95 (dtag d) then 3 else iod_member (dtag d), d)]) (* MP4InitialObjectDescriptor.c:161-198 *)
  | HTools => if dtag d =? 99 then Ok (ks ++ [(0, d)]) else Err MP4InvalidMediaErr (* MP4IPMPToolList.c:89-104 *)
  | _ => Ok ks
  end.
(* while(self->bytesRead < self->size): parse one, keep it, add its announced
   size to bytesRead. Every descriptor takes at least a byte of input, so
   [n] longer than the input is never used up. *)
Fixpoint kids_loop (n : nat) (p : rd desc) (h : head) (size : N) (ks : list (N * desc)) : rd (list (N * desc)) :=
  let* r := getrdn in
  if r <? size then
    match n with
    | O => rerr OutOfFuel
    | S n' => let* d := p in
              match place h ks d with Ok ks' => kids_loop n' p h size ks' | Err e => rerr e | UB => rub end
    end
  else rret ks.
Definition kids_rd (h : head) (size : N) (p : rd desc) : rd (list (N * desc)) :=
  match h with
  | HDec _ _ _ _ _ _ =>                         (* MP4DecoderConfigDescriptor.c:95-110 *)
      let* r := getrdn in
      if r <? size then let* d := p in rret (if dtag d =? 5 then [(0, d)] else []) else rret []
  | HES _ _ _ _ _ | HOD _ _ _ | HIOD _ _ _ _ _ _ _ _ | HTools => fun s => kids_loop (S (length (inp s))) p h size [] s
  | _ => rret []
  end.
(* MP4ParseDescriptor, MP4Descriptors.c:35-140, with the caller's
   bytesRead += desc->size. The descriptor's own bytesRead starts at 0. Bytes
   announced and not read stay in the stream. The depth of the recursion is
   limited by [f], which is more than enough if it exceeds the input's
   length; the C stack is not modelled. *)
Fixpoint desc_rd (f : nat) : rd desc :=
  match f with
  | O => rerr OutOfFuel
  | S f' => fun s =>
      match (let* tag := get8 in
             let* l := get_len in
             let* n := getrdn in
             let size := w32 (l + n) in
             let* h := head_rd tag size in
             let* ks := kids_rd h size (desc_rd f') in
             rret (Desc h ks, size)) (mkR (inp s) 0)
      with
      | Ok ((d, size), s') => Ok (d, mkR (inp s') (w32 (rdn s + size)))
      | Err e => Err e
      | UB => UB
      end
  end.
Definition desc_read : rd desc := fun s => desc_rd (S (length (inp s))) s.

(* MP4CopyDescriptor, MP4Descriptors.c:142-181: writes and reads back; the
   error code is replaced by that of MP4DisposeHandle. None: no error, but
   no copy either. *)
Definition desc_copy (d : desc) : res (option desc) :=
  match dwrite d with
  | Ok bs => match desc_read (mkR bs 0) with Ok (d', _) => Ok (Some d') | Err _ => Ok None | UB => UB end
  | Err _ => Ok None
  | UB => UB
  end.

(* ------------------------------------------------------------------ *)
(* the boxes 'esds' (ESDAtom.c) and 'iods' (ObjectDescriptorAtom.c)     *)

Record dbox := mkDbox { db_ver : N; db_flags : N; db_desc : option desc }.
(* ESDAtom.c:63-78, ObjectDescriptorAtom.c:79-92 *)
Definition dbox_size (b : dbox) : N := w32 (12 + match db_desc b with Some d => dsize d | None => 0 end).
(* ESDAtom.c:44-61, ObjectDescriptorAtom.c:62-77 *)
Definition dbox_w (b : dbox) : wr :=
  put8 (db_ver b) ;; put24 (db_flags b) ;; match db_desc b with Some d => embed (dsize d) (dwrite d) | None => wret end.
(* ESDAtom.c:80-105 *)
Definition esds_read (h : hdr) : rd dbox :=
  let* vf := get_full in
  let* n := getrdn in
  if sub32 (h_size h) n =? 0 then rret (mkDbox (fst vf) (snd vf) None)
  else let* d := desc_read in rret (mkDbox (fst vf) (snd vf) (Some d)).
(* ObjectDescriptorAtom.c:94-113; its bytesRead is not increased, which nothing looks at *)
Definition iods_read (h : hdr) : rd dbox :=
  let* vf := get_full in
  let* d := desc_read in rret (mkDbox (fst vf) (snd vf) (Some d)).
Definition esds_codec : codec dbox := mkCodec (N.eqb 1702061171) (fun _ => 1702061171) dbox_size dbox_w esds_read. (* 'esds' *)
Definition iods_codec : codec dbox := mkCodec (N.eqb 1768907891) (fun _ => 1768907891) dbox_size dbox_w iods_read. (* 'iods' *)
(* setDescriptor, ObjectDescriptorAtom.c:43-58 *)
Definition iods_set (b : dbox) (d : desc) : res dbox :=
  match db_desc b with Some _ => Err MP4BadParamErr | None => Ok (mkDbox (db_ver b) (db_flags b) (Some d)) end.

(* OdModel.v -- object descriptor streams: the commands in their samples, what
   adding a sample to such a track does to them, and what reading one gives. *)
From Verif Require Import Base AtomModel BoxModel DescModel.

(* ------------------------------------------------------------------ *)
(* Commands                                                            *)

(* MP4Descriptors.h:250-262, 305-309 and MP4DefaultCommand.c. [KES] has the
   objectDescriptorID. *)
Inductive ckind := KOD | KES (id : N) | KTools | KOther (tag : N) (data : list N).
(* a command and the descriptors in it, each with the member it is kept in:
   0 objectDescriptors, ESDescriptors or ipmpToolDescriptors,
   1 ES_ID_RefDescriptors, 2 extensionDescriptors *)
Record cmd := mkCmd { c_kind : ckind; c_ds : list (N * desc) }.
Definition ctag (k : ckind) : N := match k with KOD => 1 | KES _ => 3 | KTools => 9 | KOther t _ => t end.
(* the switches of ODUpdateCommand.c:35-46 and 98-109, ESUpdateCommand.c:35-51
   and 112-128; IPMPToolUpdateCommand.c:32-38 *)
Definition cplace (k : ckind) (d : desc) : res N :=
  match k with
  | KOD => Ok (if dtag d =? 1 then 0 else 2)
  | KES _ => Ok (if dtag d =? 3 then 0 else if dtag d =? 15 then 1 else 2)
  | KTools => if dtag d =? 98 then Ok 0 else Err MP4BadDataErr
  | KOther _ _ => Ok 2
  end.
(* the lists in the order they are written *)
Definition cwritten {A} (ks : list (N * A)) : list (N * A) := flat_map (fun m => in_member m ks) [0; 1; 2].
(* calculateSize: ODUpdateCommand.c:53-68, ESUpdateCommand.c:58-75,
   IPMPToolUpdateCommand.c:45-60, MP4DefaultCommand.c:32-45 *)
Definition csize (c : cmd) : N :=
  fold_left (fun a k => w32 (a + dsize (snd k))) (cwritten (c_ds c))
    (w32 (5 + match c_kind c with KES _ => 2 | KOther _ d => len d | _ => 0 end)).
(* serialize: ODUpdateCommand.c:70-86, ESUpdateCommand.c:77-97,
   IPMPToolUpdateCommand.c:62-77, MP4DefaultCommand.c:47-62 *)
Definition cwrite (c : cmd) : res (list N) :=
  wrun (csize c) (base_w (ctag (c_kind c)) (csize c) ;;
    match c_kind c with KES id => put16 (w32 (N.shiftl id 6)) | KOther _ d => putl d | _ => wret end ;;
    wmap (fun k => embed (dsize (snd k)) (dwrite (snd k))) (cwritten (c_ds c))).
(* createFromInputStream: ODUpdateCommand.c:88-117, ESUpdateCommand.c:98-135,
   IPMPToolUpdateCommand.c:79-98, MP4DefaultCommand.c:64-78. The descriptors
   are read with MP4ParseDescriptor; every one takes input, so [n] longer than
   the input is never used up. *)
Fixpoint clist (n : nat) (k : ckind) (size : N) (ks : list (N * desc)) : rd (list (N * desc)) :=
  let* r := getrdn in
  if r <? size then
    match n with
    | O => rerr OutOfFuel
    | S n' => let* d := desc_read in
              match cplace k d with Ok m => clist n' k size (ks ++ [(m, d)]) | Err e => rerr e | UB => rub end
    end
  else rret ks.
Definition clist_rd (k : ckind) (size : N) : rd cmd := fun s => rmap (mkCmd k) (clist (S (length (inp s))) k size []) s.
(* MP4ParseCommand, MP4Commands.c:35-93 *)
Definition cread : rd cmd := fun s =>
  (let* tag := get8 in
   let* l := get_len in
   let* n := getrdn in
   let size := w32 (l + n) in
   if tag =? 1 then clist_rd KOD size
   else if tag =? 3 then let* v := get16 in clist_rd (KES (N.shiftr v 6)) size
   else if tag =? 9 then clist_rd KTools size
   else let* data := take (N.to_nat (sub32 size n)) in rret (mkCmd (KOther tag data) [])) (mkR (inp s) 0).

(* while(is->available > 0) MP4ParseCommand: MediaAtom.c:663-673,
   MP4SLPacket.c:66-77 *)
Fixpoint frame_rd (f : nat) (i : list N) : res (list cmd) :=
  match i with
  | [] => Ok []
  | _ => match f with
         | O => Err OutOfFuel
         | S f' => do cs <- cread (mkR i 0); do r <- frame_rd f' (inp (snd cs)); Ok (fst cs :: r)
         end
  end.
Definition frame_read (i : list N) : res (list cmd) := frame_rd (S (length i)) i.
(* calculateSize of each, the sum of the sizes as a u32, a buffer of that
   size, serialize of each at the sum of the sizes before it: MediaAtom.c:
   805-827, MP4SLPacket.c:177-196. Bytes that a command counts and does not
   write would keep what the buffer held: taken as undefined. *)
Fixpoint pieces (cs : list cmd) : res (list N) :=
  match cs with
  | [] => Ok []
  | c :: r => do b <- cwrite c; do t <- pieces r; if len b =? csize c then Ok (b ++ t) else UB
  end.
Definition frame_write (cs : list cmd) : res (list N) :=
  if fold_right (fun c n => csize c + n) 0 cs <? 4294967296 then pieces cs else UB.

(* ------------------------------------------------------------------ *)
(* Adding a sample: MP4ParseODFrame, MediaAtom.c:591-852               *)

(* the track references of type 'mpod' are changed on the way, and keep the
   change when there is an error *)
Definition st (A : Type) : Type := list N -> list N * res A.
Definition sret {A} (a : A) : st A := fun m => (m, Ok a).
Definition sbind {A B} (x : st A) (k : A -> st B) : st B := fun m =>
  match x m with (m', Ok a) => k a m' | (m', Err e) => (m', Err e) | (m', UB) => (m', UB) end.
(* addTrackID, TrackReferenceTypeAtom.c:109-131; trackIDCount after it *)
Definition add_track (id : N) : st N := fun m =>
  if id =? 0 then (m, Err MP4BadParamErr)
  else let m' := if existsb (N.eqb id) m then m else m ++ [id] in (m', Ok (len m')).
(* storeIPMPDescriptorPointers, MediaAtom.c:854-895, over the members of an
   object descriptor or ES descriptor: number 4 in both *)
Definition store_ptr (k : N * desc) : st (N * desc) :=
  match k with
  | (4, Desc (HPtr t id tool es) ks) =>
      if (es =? 0) || (es =? 65535) then sret k
      else sbind (add_track es) (fun n => sret (4, Desc (HPtr t id tool (w16 n)) ks))
  | _ => sret k
  end.
Fixpoint smap {A B} (f : A -> st B) (l : list A) : st (list B) :=
  match l with [] => sret [] | a :: r => sbind (f a) (fun b => sbind (smap f r) (fun t => sret (b :: t))) end.
(* one ES descriptor, MediaAtom.c:699-727, 755-780: the reference for it. The
   descriptor itself is destroyed afterwards. *)
Definition store_es (k : N * desc) : st desc :=
  match snd k with
  | Desc (HES esid _ _ _ _) ks =>
      sbind (add_track esid) (fun _ => sbind (smap store_ptr ks) (fun _ => fun m => (m, Ok (Desc (HRef (len m)) []))))
  | _ => fun m => (m, UB)
  end.
(* one object descriptor, MediaAtom.c:685-747: the tag is changed, the
   references come after those that are there *)
Definition store_od (k : N * desc) : st (N * desc) :=
  match snd k with
  | Desc (HOD _ id url) ks =>
      sbind (smap store_ptr ks) (fun ks1 =>
      sbind (smap store_es (in_member 0 ks1)) (fun rs =>
      sret (fst k, Desc (HOD 17 id url) (filter (fun k => negb (fst k =? 0)) ks1 ++ map (fun r => (2, r)) rs))))
  | _ => fun m => (m, UB)
  end.
(* the switch of MediaAtom.c:676-803 *)
Definition store_cmd (c : cmd) : st cmd :=
  match c_kind c with
  | KOD => sbind (smap (fun k => if fst k =? 0 then store_od k else sret k) (c_ds c)) (fun ks => sret (mkCmd KOD ks))
  | KES id =>
      sbind (smap store_es (in_member 0 (c_ds c))) (fun rs =>
      sret (mkCmd (KES id) (filter (fun k => negb (fst k =? 0)) (c_ds c) ++ map (fun r => (1, r)) rs)))
  | _ => sret c
  end.
Fixpoint store_loop (f : nat) (i : list N) : st (list cmd) := fun m =>
  match i with
  | [] => (m, Ok [])
  | _ => match f with
         | O => (m, Err OutOfFuel)
         | S f' => match cread (mkR i 0) with
                   | Ok (c, s) => sbind (store_cmd c) (fun c' => sbind (store_loop f' (inp s)) (fun r => sret (c' :: r))) m
                   | Err e => (m, Err e)
                   | UB => (m, UB)
                   end
         end
  end.
(* the track references and the sample afterwards. The error code is replaced
   by that of MP4GetListEntryCount and MP4DeleteLinkedList on the list of
   commands, which succeed (832-849): no error is ever reported. [m] is what
   the 'mpod' reference holds, empty if it has to be made; the track reference
   and track group boxes made here are not part of the model. *)
Definition store_frame (m : list N) (sample : list N) : res (list N * list N) :=
  match store_loop (S (length sample)) sample m with
  | (m', Ok cs) => match frame_write cs with Ok b => Ok (m', b) | Err _ => Ok (m', sample) | UB => UB end
  | (m', Err _) => Ok (m', sample)
  | (_, UB) => UB
  end.
(* addSamples of MediaAtom.c:260-297 for such a track up to the call of
   minf->addSamples: one sample at a time *)
Definition add_od_sample (count : N) (m : list N) (sample : list N) : res (list N * list N) :=
  if count =? 0 then Ok (m, sample) else if negb (count =? 1) then Err MP4NotImplementedErr else store_frame m sample.

(* ------------------------------------------------------------------ *)
(* Reading a sample: rewriteODFrame, MP4SLPacket.c:39-225              *)

Section Fetch.
(* [m]: the ids of the 'mpod' reference; [esd]: makeESD *)
Variable m : list N.
Variable esd : N -> res desc.
(* rewriteIPMPDescriptorPointers, MP4SLPacket.c:333-370: the index is not
   checked *)
Definition fetch_ptr (k : N * desc) : res (N * desc) :=
  match k with
  | (4, Desc (HPtr t id tool es) ks) =>
      if (es =? 0) || (es =? 65535) then Ok k
      else match nthN m (es - 1) with Some x => Ok (4, Desc (HPtr t id tool (w16 x)) ks) | None => UB end
  | _ => Ok k
  end.
Fixpoint rmapm {A B} (f : A -> res B) (l : list A) : res (list B) :=
  match l with [] => Ok [] | a :: r => do b <- f a; do t <- rmapm f r; Ok (b :: t) end.
(* MP4SLPacket.c:93-111, 135-153: index 0 reads in front of the array *)
Definition fetch_ref (k : N * desc) : res desc :=
  match snd k with
  | Desc (HRef r) _ =>
      if len m <? r then Err MP4InvalidMediaErr
      else if r =? 0 then UB
      else match nthN m (r - 1) with
           | None => UB
           | Some t =>
               do e <- esd t;
               match e with
               | Desc (HES a b c d u) ks => do ks' <- rmapm fetch_ptr ks; Ok (Desc (HES a b c d u) ks')
               | _ => UB
               end
           end
  | _ => UB
  end.
(* MP4SLPacket.c:84-130 *)
Definition fetch_od (k : N * desc) : res (N * desc) :=
  match snd k with
  | Desc (HOD t id url) ks =>
      do ks1 <- rmapm fetch_ptr ks;
      do es <- rmapm fetch_ref (in_member 2 ks1);
      Ok (fst k, Desc (HOD t id url) (filter (fun k => negb (fst k =? 2)) ks1 ++ map (fun e => (0, e)) es))
  | _ => UB
  end.
(* the switch of MP4SLPacket.c:78-176 *)
Definition fetch_cmd (c : cmd) : res cmd :=
  match c_kind c with
  | KOD => do ks <- rmapm (fun k => if fst k =? 0 then fetch_od k else Ok k) (c_ds c); Ok (mkCmd KOD ks)
  | KES id =>
      do es <- rmapm fetch_ref (in_member 1 (c_ds c));
      Ok (mkCmd (KES id) (filter (fun k => negb (fst k =? 1)) (c_ds c) ++ map (fun e => (0, e)) es))
  | _ => Ok c
  end.
Fixpoint fetch_loop (f : nat) (i : list N) : res (list cmd) :=
  match i with
  | [] => Ok []
  | _ => match f with
         | O => Err OutOfFuel
         | S f' => do cs <- cread (mkR i 0); do c' <- fetch_cmd (fst cs); do r <- fetch_loop f' (inp (snd cs)); Ok (c' :: r)
         end
  end.
Definition fetch_frame (sample : list N) : res (list N) :=
  do cs <- fetch_loop (S (length sample)) sample; frame_write cs.
End Fetch.

(* ------------------------------------------------------------------ *)
(* makeESD, MP4Movies.c:484-602                                        *)

(* [d]: what MP4GetMediaESD gives for the sample description in use at that
   time; [dep], [ocr]: the first id of the 'dpnd' and 'sync' references; [cfg]:
   the configuration given to the reader; the time scales of movie and media.
   Without a copy (MP4CopyDescriptor) the pointer is not set. *)
Definition sl_cfg (s : slc) (movie media : N) : slc :=
  mkSlc (sl_pre s) (sl_austart s) (sl_auend s) (sl_rap s) (sl_rau s) (sl_pad s) (sl_ts s) (sl_idle s) (sl_dur s)
    media movie (sl_tslen s) (sl_ocrlen s) (sl_aulen s) (sl_brlen s) (sl_deg s) (sl_auseq s) (sl_pkseq s) media media media.
Definition sl_mp4 (movie media : N) : slc := mkSlc 0 0 0 1 0 0 1 0 0 media movie 32 0 0 0 0 0 5 media media media.
Definition or_else (a : option N) (b : N) : N := match a with Some x => x | None => b end.
Definition make_esd (d : desc) (track : N) (dep ocr : option N) (cfg : option slc) (movie media : N) : res desc :=
  do c <- desc_copy d;
  match c with
  | Some (Desc (HES _ de pr oc url) ks) =>
      do s <- match cfg with
              | Some s => Ok (sl_cfg s movie media)
              | None => match in_member 1 ks with
                        | [] => Err MP4InvalidMediaErr
                        | (_, Desc (HSL s) _) :: _ =>
                            (* a configuration that stays is freed (591-595) and used *)
                            if sl_pre s =? 2 then Ok (sl_mp4 movie media) else UB
                        | _ => UB
                        end
              end;
      Ok (Desc (HES track (or_else dep de) pr (or_else ocr oc) url) (filter (fun k => negb (fst k =? 1)) ks ++ [(1, Desc (HSL s) [])]))
  | _ => UB
  end.

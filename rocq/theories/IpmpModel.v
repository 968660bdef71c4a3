(* IpmpModel.v -- the calls that make IPMP tools, descriptor pointers, tool
   descriptors, initialization data and update commands in handles. A handle
   is the list of its bytes. What a handle holds after a call that failed is
   not modelled: those that fail before they write leave it as it was. *)
From Verif Require Import Base AtomModel BoxModel DescModel OdModel.

(* ------------------------------------------------------------------ *)
(* IPMP data and initialization data                                   *)

(* MP4IPMPXDefaultData, MP4IPMPXData.h; the version is 1 in all that are read *)
Record xdata := mkXd { xd_tag : N; xd_data : list N }.
(* MP4ParseIPMPXData, MP4IPMPXData.c:33-84, and createFromInputStream,
   MP4IPMPXDefaultData.c:58-72, with the caller's bytesRead += data->size *)
Definition xdata_rd : rd xdata := fun s =>
  match (let* tag := get8 in
         let* l := get_len in
         let* n := getrdn in
         let size := w32 (l + n) in
         let* v := get8 in
         if v =? 1 then
           let* r := getrdn in
           let* data := take (N.to_nat (sub32 size r)) in
           rret (mkXd tag data, size)
         else rerr MP4BadDataErr) (mkR (inp s) 0)
  with
  | Ok ((d, size), s') => Ok (d, mkR (inp s') (w32 (rdn s + size)))
  | Err e => Err e
  | UB => UB
  end.
(* calculateSize, MP4IPMPXDefaultData.c:27-39 *)
Definition xdata_size (x : xdata) : N := w32 (6 + len (xd_data x)).
(* serialize, MP4IPMPXDefaultData.c:41-56; MP4EncodeBaseIPMPXData,
   MP4IPMPXData.c:86-114: the bytes of MP4EncodeBaseDescriptor and the version *)
Definition xdata_write (x : xdata) : res (list N) :=
  wrun (xdata_size x) (base_w (xd_tag x) (xdata_size x) ;; put8 1 ;; putl (xd_data x)).

(* MP4IPMPInitialize, MP4IPMPInitialize.h *)
Record xinit := mkXi { xi_cp : N; xi_seq : N; xi_data : list xdata }.
(* calculateSize, MP4IPMPInitialize.c:39-63 *)
Definition xinit_size (i : xinit) : N := fold_left (fun a x => w32 (a + xdata_size x)) (xi_data i) 3.
(* one entry is written behind what is there, without a look at the room and
   at its error: a loss of either is taken as undefined *)
Definition append (b : res (list N)) : wr := fun s =>
  match b with
  | Ok b => if wsz s <? len (wout s) + len b then UB else Ok (mkW (wout s ++ b) (wsz s))
  | _ => UB
  end.
(* serialize, MP4IPMPInitialize.c:65-91 *)
Definition xinit_write (i : xinit) : res (list N) :=
  wrun (xinit_size i) (put8 (xi_cp i) ;; put8 (xi_seq i) ;; put8 (len (xi_data i)) ;;
                       wmap (fun x => append (xdata_write x)) (xi_data i)).
(* createFromInputStream, MP4IPMPInitialize.c:93-117. The two codes are read
   as 32 bits into u8 members; what is written beyond them is padding or set
   afterwards. *)
Definition xinit_rd : rd xinit :=
  let* cp := get8 in let* sq := get8 in let* n := get8 in
  let* l := rrep (N.to_nat n) xdata_rd in
  rret (mkXi cp sq l).
(* MP4NewIPMPInitialize, MP4IPMPX.c:322-346; the arguments are u8 *)
Definition new_init (cp sq : N) : res (list N) :=
  if cp =? 255 then Err MP4BadParamErr else xinit_write (mkXi cp sq []).
(* MP4AddIPMPDataToIPMPInitialize, MP4IPMPX.c:349-397 *)
Definition add_init (h data : list N) : res (list N) :=
  do i <- xinit_rd (mkR h 0);
  do x <- xdata_rd (mkR data 0);
  xinit_write (mkXi (xi_cp (fst i)) (xi_seq (fst i)) (xi_data (fst i) ++ [fst x])).

(* ------------------------------------------------------------------ *)
(* Tools                                                               *)

(* a u64 of a handle in the order of a little-endian machine *)
Definition le_u64 (b : list N) : N := fold_right (fun x a => x + 256 * a) 0 b.
(* the identifiers in altGroupInfoH, MP4IPMPX.c:61-70: (lower, upper) *)
Fixpoint alt_ids (n : nat) (b : list N) : list (N * N) :=
  match n with
  | O => []
  | S n' => (le_u64 (firstn 8 b), le_u64 (firstn 8 (skipn 8 b))) :: alt_ids n' (skipn 16 b)
  end.
(* MP4IPMPTool without URLs: none can be added, see [add_url] *)
Record tool := mkTool { t_lo : N; t_up : N; t_alts : list (N * N); t_par : option (list N) }.
(* calculateSize, MP4IPMPTool.c:28-71 *)
Definition tool_size (t : tool) : N :=
  w32 (5 + 17 + (if 0 <? len (t_alts t) then 1 + 16 * len (t_alts t) else 0) +
       match t_par t with Some p => 4 + len p | None => 0 end + 1).
(* serialize, MP4IPMPTool.c:73-134 *)
Definition tool_write (t : tool) : res (list N) :=
  wrun (tool_size t)
    (base_w 99 (tool_size t) ;;
     put64 (t_up t) ;; put64 (t_lo t) ;;
     put8 ((if 0 <? len (t_alts t) then 1 else 0) * 128 + (match t_par t with Some _ => 1 | None => 0 end) * 64) ;;
     (if 0 <? len (t_alts t) then
        put8 (len (t_alts t)) ;; wmap (fun a => put64 (snd a) ;; put64 (fst a)) (t_alts t)
      else wret) ;;
     (match t_par t with Some p => put32 (len p) ;; putl p | None => wret end) ;;
     put8 0 ;; wfilled).
(* MP4NewIPMPTool, MP4IPMPX.c:30-101 *)
Definition new_tool (lo up : N) (alts par : option (list N)) : res (list N) :=
  match alts with
  | None => tool_write (mkTool lo up [] par)
  | Some b =>
      if negb (len b mod 16 =? 0) || (len b =? 0) then Err MP4BadParamErr
      else tool_write (mkTool lo up (alt_ids (N.to_nat (len b / 16)) b) par)
  end.
(* MP4AddUrlToIPMPTool, MP4IPMPX.c:104-149: reading a tool is undefined, see
   [head_rd]; any other descriptor is used as a tool, which is undefined too *)
Definition add_url (h url : list N) : res (list N) := do d <- desc_read (mkR h 0); UB.
(* MP4NewIPMPToolListDescriptor, MP4IPMPX.c:152-175 *)
Definition new_tools : res (list N) := dwrite (Desc HTools []).
(* MP4AddToolToIPMPToolList, MP4IPMPX.c:178-227 *)
Definition add_tool (h t : list N) : res (list N) :=
  do d <- desc_read (mkR h 0);
  do x <- desc_read (mkR t 0);
  match fst d with Desc hd ks => do ks' <- desc_add hd ks (fst x); dwrite (Desc hd ks') end.

(* ------------------------------------------------------------------ *)
(* Pointers and tool descriptors                                       *)

(* MP4NewIPMPDescriptorPointer, MP4IPMPX.c:229-266; u8 and u16 *)
Definition new_ptr (id tool : N) : res (list N) :=
  if negb (id =? 255) then
    if negb (tool =? 0) then Err MP4BadParamErr else dwrite (Desc (HPtr 10 id tool 0) [])
  else if tool =? 0 then Err MP4BadParamErr else dwrite (Desc (HPtr 10 id tool 0) []).

(* MP4NewIPMPToolDescriptor, MP4IPMPX.c:268-319. With the tool id 0 the size
   is that of the URL, a null pointer (MP4IPMPToolDescriptor.c:49-54). With
   initialization data the structure is freed twice at the end: by its own
   destroy (MP4IPMPInitialize.c:135) and by that of the descriptor
   (MP4IPMPToolDescriptor.c:200-204). Otherwise calculateSize and serialize
   are MP4IPMPToolDescriptor.c:55-77 and 103-127. *)
Definition new_toold (id lo up : N) (init : option (list N)) : res (list N) :=
  if id =? 0 then Err MP4BadParamErr
  else match init with
       | Some b => do i <- xinit_rd (mkR b 0); UB
       | None =>
           if (lo =? 0) && (up =? 0) then UB
           else wrun 25 (base_w 98 25 ;; put16 id ;; put64 up ;; put64 lo ;; put8 0 ;; put8 0 ;; wfilled)
       end.
(* MP4AddIPMPDataToIPMPToolDescriptor, MP4IPMPX.c:400-446. The only tool
   descriptors that are read have the tool id 0, and those are written without
   their data; other descriptors are used as tool descriptors. *)
Definition add_toold (h data : list N) : res (list N) :=
  do d <- desc_read (mkR h 0);
  do x <- xdata_rd (mkR data 0);
  match fst d with Desc (HToolD id url) ks => dwrite (fst d) | _ => UB end.

(* ------------------------------------------------------------------ *)
(* Update commands                                                     *)

(* MP4NewIPMPToolDescriptorUpdate, MP4IPMPX.c:449-470 *)
Definition new_update : res (list N) := cwrite (mkCmd KTools []).
(* MP4AddIPMPToolDescriptorToUpdate, MP4IPMPX.c:473-521; other commands with
   no addDescriptor call a null pointer *)
Definition add_update (h t : list N) : res (list N) :=
  do c <- cread (mkR h 0);
  do x <- desc_read (mkR t 0);
  match c_kind (fst c) with
  | KOther _ _ => UB
  | k => do m <- cplace k (fst x); cwrite (mkCmd k (c_ds (fst c) ++ [(m, fst x)]))
  end.

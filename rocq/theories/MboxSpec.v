(* MboxSpec.v -- the meta box: its parts as bytes, and what a history of
   calls leaves in it. *)
From Verif Require Import Base Codec AtomModel AtomSpec AtomProofs BoxModel BoxSpec HeaderModel HeaderSpec TextModel TextSpec KidsModel KidsProofs MboxModel.

(* ------------------------------------------------------------------ *)
(* The boxes                                                           *)

(* a group: its id and the ids of its members; the type of the box is the
   type of the group *)
Definition egrp_layout : layout egrp := mkLayout eg_type
  (fun g => full (eg_ver g) (eg_flags g) ++ be32 (eg_id g) ++ be32 (len (eg_ids g)) ++ flat_map be32 (eg_ids g)) (fun g => g)
  (fun g => plain_type (eg_type g) /\ full_ok (eg_ver g) (eg_flags g) /\ eg_id g < 4294967296 /\
     Forall (fun i => i < 4294967296) (eg_ids g) /\ len (eg_ids g) < 4294967296 /\ eg_rest g = []).
Definition grpl_layout : layout (list egrp) := mkLayout (fun _ => code "grpl")
  (fun l => flat_map (fun g => box (eg_type g) (l_body egrp_layout g)) l) (fun l => l) (Forall (l_ok egrp_layout)).

(* information on an item: strings are written with a zero; a missing one is
   an empty one. Content type and encoding are there in versions 0 and 1 and
   for items of type 'mime', the type URI for items of type 'uri '. *)
Definition ostr (b : option (list N)) : list N := match b with Some s => s | None => [0] end.
Definition has_content (a : infe) : bool := (in_ver a <? 2) || (in_type a =? code "mime").
Definition has_uri (a : infe) : bool := negb (has_content a) && (in_type a =? code "uri ").
Definition infe_strings (a : infe) : list N :=
  ostr (in_name a) ++ (if has_content a then ostr (in_ct a) ++ ostr (in_ce a) else if has_uri a then ostr (in_uri a) else []).
(* an extension is there in version 1 when it has a type *)
Definition has_ext (a : infe) : bool := (in_ver a =? 1) && negb (in_exttype a =? 0).
Definition infe_ext (a : infe) : list N :=
  if has_ext a then be32 (in_exttype a) ++ match in_ext a with Some d => d | None => [] end else [].
(* the four bytes of a number in the other order *)
Definition reversed (n : N) : N := fold_left (fun a b => a * 256 + b) (rev (be32 n)) 0.
Definition ostr_ok (b : option (list N)) : Prop := match b with Some s => exists t, text t /\ s = cstr t | None => True end.
Definition infe_layout : layout infe := mkLayout (fun _ => code "infe")
  (fun a => full (in_ver a) (in_flags a) ++ (if in_ver a =? 3 then be32 (in_id a) else be16 (in_id a)) ++ be16 (in_prot a) ++
     (if 2 <=? in_ver a then be32 (in_type a) else []) ++ infe_strings a ++ infe_ext a)
  (fun a => mkInfe (in_ver a) (in_flags a) (in_id a) (in_prot a) (if 2 <=? in_ver a then in_type a else 0)
     (Some (ostr (in_name a)))
     (if has_content a then Some (ostr (in_ct a)) else None) (if has_content a then Some (ostr (in_ce a)) else None)
     (if has_uri a then Some (ostr (in_uri a)) else None)
     (if has_ext a then reversed (in_exttype a) else 0)
     (if has_ext a then Some (match in_ext a with Some d => d | None => [] end) else None))
  (fun a => in_ver a <= 3 /\ in_flags a < 16777216 /\ in_id a < (if in_ver a =? 3 then 4294967296 else 65536) /\ in_prot a < 65536 /\
     (2 <= in_ver a -> in_type a < 4294967296) /\ ostr_ok (in_name a) /\ (has_content a = true -> ostr_ok (in_ct a) /\ ostr_ok (in_ce a)) /\
     (has_uri a = true -> ostr_ok (in_uri a)) /\
     (in_ver a = 1 -> in_exttype a < 4294967296 /\ match in_ext a with Some d => in_exttype a <> 0 /\ bytes d | None => True end) /\
     len (infe_strings a) + len (infe_ext a) <= 4096).

Section Spec.
Context {X : Type} (x : codec X) (y : layout X).
Notation iinf := (iinf (X:=X)). Notation sinf := (sinf (X:=X)). Notation ipro := (ipro (X:=X)). Notation mbox := (mbox (X:=X)). Notation kid := (kid (X:=X)).
(* no free space among the entries: they are counted *)
Definition no_free {T} (l : list (atom T)) : Prop := Forall (fun k => free_box T k = false) l.
Definition iinf_kid_layout : layout (infe + X) := lsum infe_layout y.
Definition iinf_layout : layout iinf := mkLayout (fun _ => code "iinf")
  (fun a => full (ii_ver a) (ii_flags a) ++ (if ii_ver a =? 0 then be16 (len (ii_kids a)) else be32 (len (ii_kids a))) ++
     flat_map (kid_enc (iinf_kid x) iinf_kid_layout) (ii_kids a))
  (fun a => mkIinf (ii_ver a) (ii_flags a) (kid_view iinf_kid_layout (ii_kids a)))
  (fun a => full_ok (ii_ver a) (ii_flags a) /\ len (ii_kids a) < (if ii_ver a =? 0 then 65536 else 4294967296) /\
     no_free (ii_kids a) /\ Forall (kid_ok (iinf_kid x) iinf_kid_layout) (ii_kids a)).
(* protection: the original format, the scheme and what belongs to it *)
Definition sub_layout : layout sub := lsum frma_layout (lsum schm_layout y).
Definition sinf_boxes (s : sinf) : list (atom sub) :=
  match sf_frma s with Some f => [ALeaf sub (inl f)] | None => [] end ++
  match sf_schm s with Some m => [ALeaf sub (inr (inl m))] | None => [] end ++
  match sf_schi s with Some l => [ABoxes sub (code "schi") l] | None => [] end.
Definition sinf_layout : layout sinf := mkLayout (fun _ => code "sinf")
  (fun s => flat_map (kid_enc (sub_codec x) sub_layout) (sinf_boxes s))
  (fun s => mkSinf (sf_frma s) (option_map (l_view schm_layout) (sf_schm s)) (option_map (kid_view sub_layout) (sf_schi s)))
  (fun s => Forall (kid_ok (sub_codec x) sub_layout) (sinf_boxes s)).
Definition ipro_kid_layout : layout (sinf + X) := lsum sinf_layout y.
Definition ipro_layout : layout ipro := mkLayout (fun _ => code "ipro")
  (fun a => full (ip_ver a) (ip_flags a) ++ be16 (len (ip_kids a)) ++ flat_map (kid_enc (ipro_kid x) ipro_kid_layout) (ip_kids a))
  (fun a => mkIpro (ip_ver a) (ip_flags a) (kid_view ipro_kid_layout (ip_kids a)))
  (fun a => full_ok (ip_ver a) (ip_flags a) /\ len (ip_kids a) < 65536 /\
     no_free (ip_kids a) /\ Forall (kid_ok (ipro_kid x) ipro_kid_layout) (ip_kids a)).

Definition kid_layout : layout kid := mkLayout
  (fun k => match k with KPitm a => l_ty pitm_layout a | KIinf a => l_ty iinf_layout a | KIpro a => l_ty ipro_layout a
                    | KGrpl a => l_ty grpl_layout a | KOther a => l_ty y a end)
  (fun k => match k with KPitm a => l_body pitm_layout a | KIinf a => l_body iinf_layout a | KIpro a => l_body ipro_layout a
                    | KGrpl a => l_body grpl_layout a | KOther a => l_body y a end)
  (fun k => match k with KPitm a => KPitm (l_view pitm_layout a) | KIinf a => KIinf (l_view iinf_layout a) | KIpro a => KIpro (l_view ipro_layout a)
                    | KGrpl a => KGrpl (l_view grpl_layout a) | KOther a => KOther (l_view y a) end)
  (fun k => match k with KPitm a => l_ok pitm_layout a | KIinf a => l_ok iinf_layout a | KIpro a => l_ok ipro_layout a
                    | KGrpl a => l_ok grpl_layout a | KOther a => l_ok y a end).
(* of these a meta box has at most one *)
Definition once_codes : list N :=
  [code "hdlr"; code "dinf"; code "iloc"; code "pitm"; code "iinf"; code "iref"; code "idat"; code "ipro"; code "iprp"; code "grpl"].
Definition of_type (ty : N) (l : list (atom kid)) : list (atom kid) := filter (fun k => atype kid (c_ty (kid_codec x)) k =? ty) l.
Definition mbox_layout : layout mbox := mkLayout (fun _ => code "meta")
  (fun m => full (mb_ver m) (mb_flags m) ++ flat_map (kid_enc (kid_codec x) kid_layout) (mb_kids m))
  (fun m => mkMbox (mb_ver m) (mb_flags m) (kid_view kid_layout (mb_kids m)))
  (fun m => full_ok (mb_ver m) (mb_flags m) /\ Forall (kid_ok (kid_codec x) kid_layout) (mb_kids m) /\
     Forall (fun ty => len (of_type ty (mb_kids m)) <= 1) once_codes).
(* the other boxes do not include those of this file *)
Definition apart : Prop := Forall (fun ty => c_known x ty = false)
  [code "pitm"; code "iinf"; code "infe"; code "ipro"; code "sinf"; code "frma"; code "schm"; code "grpl"].
End Spec.

(* ------------------------------------------------------------------ *)
(* What the calls keep                                                 *)

(* what is known of an item: nothing more, an extension, or a type *)
Inductive form := Plain | Extended (ty : N) (data : list N) | Typed (ty : N) (uri : option (list N)).
(* [f_content]: content type and encoding given, None when they are gone *)
Record info := mkInfo { f_id : N; f_prot : N; f_name : list N; f_content : option (option (list N) * option (list N));
  f_hidden : bool; f_form : form }.
Record protection := mkProt { p_type : N; p_version : N; p_url : option (list N); p_boxes : list (N * list N) }.
Record group := mkGroup { g_type : N; g_id : N; g_members : list N }.
Record mstate := mkMstate { s_primary : option N; s_infos : list info; s_prots : list protection; s_groups : list group }.
Definition mstate0 : mstate := mkMstate None [] [] [].

Inductive mop :=
| MPrimary (id : N)
| MInfo (id prot : N) (name content_type encoding : option (list N))
| MExtend (id ty : N) (data : list N)
| MType (id ty : N) (uri : option (list N))
| MHide (id : N)
| MProtect (ty version : N) (url : option (list N))
| MProtectInfo (k ty : N) (data : list N)
| MGroup (ty id : N)
| MEntity (id entity : N)
| MSave.
Inductive mout := MDone | MIndex (k : N) | MRefused.

Definition info_of (s : mstate) (id : N) : option info := find (fun i => f_id i =? id) (s_infos s).
Definition group_of (s : mstate) (id : N) : option group := find (fun g => g_id g =? id) (s_groups s).
(* protections are counted from 1 *)
Definition prot_of (s : mstate) (k : N) : option protection := if k =? 0 then None else nthN (s_prots s) (k - 1).
Definition or_empty (o : option (list N)) : list N := match o with Some b => b | None => [] end.
Definition change {A} (p : A -> bool) (f : A -> A) (l : list A) : list A := map (fun a => if p a then f a else a) l.
Definition set_form (v : form) (i : info) : info := mkInfo (f_id i) (f_prot i) (f_name i) (f_content i) (f_hidden i) v.
Definition set_hidden (i : info) : info := mkInfo (f_id i) (f_prot i) (f_name i) (f_content i) true (f_form i).
Definition with_infos (s : mstate) (l : list info) : mstate := mkMstate (s_primary s) l (s_prots s) (s_groups s).
Definition with_groups (s : mstate) (l : list group) : mstate := mkMstate (s_primary s) (s_infos s) (s_prots s) l.
Definition with_prots (s : mstate) (l : list protection) : mstate := mkMstate (s_primary s) (s_infos s) l (s_groups s).
Fixpoint change_at {A} (k : nat) (f : A -> A) (l : list A) : list A :=
  match l, k with [], _ => [] | a :: r, O => f a :: r | a :: r, S k' => a :: change_at k' f r end.

(* Saving: content type and encoding are kept by the forms that carry them, a
   type URI by the type 'uri '; an empty scheme address is none. *)
Definition content_form (v : form) : bool := match v with Typed ty _ => ty =? code "mime" | _ => true end.
Definition saved_form (v : form) : form :=
  match v with Typed ty u => Typed ty (if ty =? code "uri " then Some (or_empty u) else None) | _ => v end.
Definition saved_info (i : info) : info :=
  mkInfo (f_id i) (f_prot i) (f_name i) (if content_form (f_form i) then Some (None, None) else None) (f_hidden i) (saved_form (f_form i)).
Definition saved_prot (p : protection) : protection :=
  mkProt (p_type p) (p_version p) (match p_url p with Some [] => None | u => u end) (p_boxes p).
Definition saved (s : mstate) : mstate :=
  mkMstate (s_primary s) (map saved_info (s_infos s)) (map saved_prot (s_prots s)) (s_groups s).

Definition mstep_spec (s : mstate) (o : mop) : mout * mstate :=
  match o with
  | MPrimary id => (MDone, mkMstate (Some id) (s_infos s) (s_prots s) (s_groups s))
  | MInfo id prot name ct ce => (MDone, with_infos s (s_infos s ++ [mkInfo id prot (or_empty name) (Some (ct, ce)) false Plain]))
  | MExtend id ty d =>
      match info_of s id with Some _ => (MDone, with_infos s (change (fun i => f_id i =? id) (set_form (Extended ty d)) (s_infos s))) | None => (MRefused, s) end
  | MType id ty uri =>
      match info_of s id with Some _ => (MDone, with_infos s (change (fun i => f_id i =? id) (set_form (Typed ty (Some (or_empty uri)))) (s_infos s))) | None => (MRefused, s) end
  | MHide id =>
      match info_of s id, s_primary s with
      | Some _, Some p => if p =? id then (MRefused, s) else (MDone, with_infos s (change (fun i => f_id i =? id) set_hidden (s_infos s)))
      | _, _ => (MRefused, s)
      end
  | MProtect ty v url => (MIndex (len (s_prots s) + 1), with_prots s (s_prots s ++ [mkProt ty v url []]))
  | MProtectInfo k ty d =>
      if (1 <=? k) && (k <=? len (s_prots s))
      then (MDone, with_prots s (change_at (N.to_nat (k - 1)) (fun p => mkProt (p_type p) (p_version p) (p_url p) (p_boxes p ++ [(ty, d)])) (s_prots s)))
      else (MRefused, s)
  | MGroup ty id =>
      match group_of s id with Some _ => (MRefused, s) | None => (MDone, with_groups s (s_groups s ++ [mkGroup ty id []])) end
  | MEntity id e =>
      match group_of s id with
      | Some _ => (MDone, with_groups s (change (fun g => g_id g =? id) (fun g => mkGroup (g_type g) (g_id g) (g_members g ++ [e])) (s_groups s)))
      | None => (MRefused, s)
      end
  | MSave => (MDone, saved s)
  end.
Fixpoint mrun_spec (s : mstate) (os : list mop) : list mout * mstate :=
  match os with [] => ([], s) | o :: r => let (a, s1) := mstep_spec s o in let (l, s2) := mrun_spec s1 r in (a :: l, s2) end.

(* the bytes *)
Definition info_bytes (i : info) : list N :=
  full (match f_form i with Plain => 0 | Extended _ _ => 1 | Typed _ _ => 2 end) (if f_hidden i then 1 else 0) ++
  be16 (f_id i) ++ be16 (f_prot i) ++ match f_form i with Typed ty _ => be32 ty | _ => [] end ++ cstr (f_name i) ++
  (if content_form (f_form i) then [0; 0]
   else match f_form i with Typed ty u => if ty =? code "uri " then cstr (or_empty u) else [] | _ => [] end) ++
  match f_form i with Extended ty d => be32 ty ++ d | _ => [] end.
Definition prot_bytes (p : protection) : list N :=
  box (code "schm") (match p_url p with
                     | Some (c :: u) => full 0 1 ++ be32 (p_type p) ++ be32 (p_version p) ++ cstr (c :: u)
                     | _ => full 0 0 ++ be32 (p_type p) ++ be32 (p_version p)
                     end) ++
  box (code "schi") (flat_map (fun b => box (fst b) (snd b)) (p_boxes p)).
Definition group_bytes (g : group) : list N :=
  full 0 0 ++ be32 (g_id g) ++ be32 (len (g_members g)) ++ flat_map be32 (g_members g).
Definition state_len (s : mstate) : N :=
  (match s_primary s with Some _ => 14 | None => 0 end) +
  (if len (s_infos s) =? 0 then 0 else 14 + len (flat_map (fun i => box (code "infe") (info_bytes i)) (s_infos s))) +
  (if len (s_prots s) =? 0 then 0 else 14 + len (flat_map (fun p => box (code "sinf") (prot_bytes p)) (s_prots s))) +
  (if len (s_groups s) =? 0 then 0 else 8 + len (flat_map (fun g => box (g_type g) (group_bytes g)) (s_groups s))).

(* What can be saved: numbers that fit their fields; no content type and
   encoding where they would be written; extensions whose type reads the same
   backwards; strings and extension within 4096 bytes; scheme boxes of types
   not read in a special way; group types likewise. *)
Definition info_ok (i : info) : Prop :=
  f_id i < 65536 /\ f_prot i < 65536 /\
  (content_form (f_form i) = true -> f_content i = None \/ f_content i = Some (None, None)) /\
  match f_form i with
  | Extended ty d => 0 < ty < 4294967296 /\ reversed ty = ty /\ bytes d
  | Typed ty _ => ty < 4294967296
  | Plain => True
  end /\ len (info_bytes i) <= 4104.
Definition prot_ok {X} (x : codec X) (p : protection) : Prop :=
  p_type p < 4294967296 /\ p_version p < 4294967296 /\
  Forall (fun b => fst b < 4294967296 /\ holds_boxes (fst b) = false /\ free_type (fst b) = false /\ fst b <> code "uuid" /\
     fst b <> code "frma" /\ fst b <> code "schm" /\ c_known x (fst b) = false /\ bytes (snd b)) (p_boxes p).
Definition group_ok (g : group) : Prop :=
  plain_type (g_type g) /\ g_id g < 4294967296 /\ Forall (fun i => i < 4294967296) (g_members g).
Definition state_ok {X} (x : codec X) (s : mstate) : Prop :=
  Forall info_ok (s_infos s) /\ Forall (prot_ok x) (s_prots s) /\ Forall group_ok (s_groups s) /\
  len (s_infos s) < 65536 /\ len (s_prots s) < 65536.

(* what is asked of a call: strings are text; information on an item is set
   once; an item is hidden only when there is a primary item, or no
   information at all *)
Definition otext (o : option (list N)) : Prop := match o with Some b => text b | None => True end.
Definition mop_ok {X} (x : codec X) (room : N) (s : mstate) (o : mop) : Prop :=
  match o with
  | MPrimary id => id < 65536
  | MInfo id prot name _ _ => info_of s id = None /\ prot < 65536 /\ otext name
  | MExtend _ _ _ => True
  | MType _ _ uri => otext uri
  | MHide _ => s_primary s <> None \/ s_infos s = []
  | MProtect _ _ url => otext url /\ len (s_prots s) < 65535
  | MProtectInfo _ _ _ => True
  | MGroup _ _ => True
  | MEntity id _ => len (match group_of s id with Some g => g_members g | None => [] end) < 4294967295
  | MSave => state_ok x s /\ state_len s <= room
  end.
Fixpoint mops_ok {X} (x : codec X) (room : N) (s : mstate) (os : list mop) : Prop :=
  match os with [] => True | o :: r => mop_ok x room s o /\ mops_ok x room (snd (mstep_spec s o)) r end.

(* ------------------------------------------------------------------ *)
(* The calls of the library. A call that is refused leaves the box; saving
   writes the box and reads it again. *)
Section Calls.
Context {X : Type} (x : codec X) (dx : X).
Definition attempt {A} (m : A) (r : res A) : res (mout * A) :=
  match r with Ok m' => Ok (MDone, m') | Err _ => Ok (MRefused, m) | UB => UB end.
Definition mstep (m : mbox (X:=X)) (o : mop) : res (mout * mbox (X:=X)) :=
  match o with
  | MPrimary id => Ok (MDone, set_primary m id)
  | MInfo id prot name ct ce => Ok (MDone, set_info m id prot name ct ce)
  | MExtend id ty d => attempt m (set_ext m id d ty)
  | MType id ty uri => attempt m (set_type m id ty uri)
  | MHide id => attempt m (hide m id)
  | MProtect ty v url => let (k, m') := new_prot m ty v url in Ok (MIndex k, m')
  | MProtectInfo k ty d => attempt m (add_prot m k (AOpaque _ ty [] d))
  | MGroup ty id => attempt m (new_group m ty id)
  | MEntity id e => attempt m (add_entity m id e)
  | MSave =>
      do b <- write_box (mbox_codec x dx) m;
      do r <- read_box (mbox_codec x dx) m b;
      match fst (fst r) with ALeaf _ m' => Ok (MDone, m') | _ => UB end
  end.
Fixpoint mrun (m : mbox (X:=X)) (os : list mop) : res (list mout * mbox (X:=X)) :=
  match os with
  | [] => Ok ([], m)
  | o :: r => do a <- mstep m o; do b <- mrun (snd a) r; Ok (fst a :: fst b, snd b)
  end.
End Calls.
(* the box before the first call: boxes of other types, read as they were
   written *)
Definition other_codes : list N := [code "pitm"; code "iinf"; code "ipro"; code "grpl"].
Definition start {X} (x : codec X) (y : layout X) (v f : N) (base : list (atom (kid (X:=X)))) : Prop :=
  full_ok v f /\ Forall (kid_ok (kid_codec x) (kid_layout x y)) base /\ kid_view (kid_layout x y) base = base /\
  Forall (fun k => ~ In (atype kid (c_ty (kid_codec x)) k) other_codes) base /\
  Forall (fun ty => len (of_type x ty base) <= 1) once_codes.

(* TextSpec.v -- the boxes that carry text, as the standard lays them out. *)
From Verif Require Import Base BoxSpec TextModel.

(* text: bytes none of which is zero; in a file it is followed by a zero *)
Definition text (s : list N) : Prop := Forall (fun x => 0 < x < 256) s.
Definition cstr (s : list N) : list N := s ++ [0].

(* hdlr: five numbers, then the name, as a C string or -- QuickTime -- after
   its length. A reader always takes it for the former. *)
Definition hdlr_layout : layout hdlr := mkLayout (fun _ => code "hdlr")
  (fun a => full (hd_ver a) (hd_flags a) ++
     be32 (if hd_qt a then code "mhlr" else hd_ctype a) ++ be32 (hd_type a) ++
     be32 (if hd_qt a then code "appl" else hd_manu a) ++ be32 (hd_cflags a) ++ be32 (hd_mask a) ++
     (if hd_qt a then be8 (len (hd_name a)) ++ hd_name a else cstr (hd_name a)))
  (fun a => mkHdlr (hd_ver a) (hd_flags a) (if hd_qt a then code "mhlr" else hd_ctype a) (hd_type a)
     (if hd_qt a then code "appl" else hd_manu a) (hd_cflags a) (hd_mask a) false (hd_name a))
  (fun a => full_ok (hd_ver a) (hd_flags a) /\ hd_ctype a < 4294967296 /\ hd_type a < 4294967296 /\
     hd_manu a < 4294967296 /\ hd_cflags a < 4294967296 /\ hd_mask a < 4294967296 /\ text (hd_name a) /\
     (if hd_qt a then len (hd_name a) < 128
      else len (hd_name a) < 238 /\ (forall x r, hd_name a = x :: r -> x <> len (hd_name a) \/ 128 <= x))).

(* url: the location, unless the flags say the data is in this file *)
Definition in_this_file (flags : N) : bool := N.testbit flags 0.
Definition url_layout : layout durl := mkLayout (fun _ => code "url ")
  (fun a => full (ul_ver a) (ul_flags a) ++
     (if in_this_file (ul_flags a) then [] else match ul_loc a with Some b => b | None => [] end))
  (fun a => mkUrl (code "url ") (ul_ver a) (ul_flags a) (if in_this_file (ul_flags a) then None else ul_loc a))
  (fun a => ul_ty a = code "url " /\ full_ok (ul_ver a) (ul_flags a) /\
     match ul_loc a with Some b => exists s, text s /\ b = cstr s | None => True end).

Definition elng_layout : layout elng := mkLayout (fun _ => code "elng")
  (fun a => full (el_ver a) (el_flags a) ++ el_tag a) (fun a => a)
  (fun a => full_ok (el_ver a) (el_flags a) /\ exists s, text s /\ el_tag a = cstr s).
Definition cprt_layout : layout cprt := mkLayout (fun _ => code "cprt")
  (fun a => full (cp_ver a) (cp_flags a) ++ be16 (cp_lang a) ++ match cp_notice a with Some b => b | None => [] end)
  (fun a => a)
  (fun a => full_ok (cp_ver a) (cp_flags a) /\ cp_lang a < 65536 /\ exists s, text s /\ cp_notice a = Some (cstr s)).
(* schm: the flags say whether the address follows; an empty one does not,
   and the flags are those of the address whatever they were before *)
Definition address (a : schm) : option (list N) :=
  match sm_url a with Some b => if hd 0 b =? 0 then None else Some b | None => None end.
Definition schm_layout : layout schm := mkLayout (fun _ => code "schm")
  (fun a => full (sm_ver a) (match address a with Some _ => 1 | None => 0 end) ++ be32 (sm_type a) ++ be32 (sm_version a) ++
     match address a with Some b => b | None => [] end)
  (fun a => mkSchm (sm_ver a) (match address a with Some _ => 1 | None => 0 end) (sm_type a) (sm_version a) (address a))
  (fun a => sm_ver a < 256 /\ sm_type a < 4294967296 /\ sm_version a < 4294967296 /\
     match sm_url a with Some b => exists s, text s /\ b = cstr s | None => True end).
(* ftyp: the brand, its version and at least one compatible brand *)
Definition ftyp_layout : layout ftyp := mkLayout (fun _ => code "ftyp")
  (fun a => be32 (ft_brand a) ++ be32 (ft_minor a) ++ flat_map be32 (ft_list a)) (fun a => a)
  (fun a => ft_brand a < 4294967296 /\ ft_minor a < 4294967296 /\ Forall (fun s => s < 4294967296) (ft_list a) /\
     ft_list a <> []).

(* The brands of a file: the brand and version set last, and every brand
   ever set or added, once each, in the order they came. *)
Inductive bop := BSet (brand minor : N) | BAdd (brand : N).
Fixpoint brand_now (now : N * N) (os : list bop) : N * N :=
  match os with
  | [] => now
  | BSet b m :: r => brand_now (b, m) r
  | BAdd _ :: r => brand_now now r
  end.
Definition named (o : bop) : N := match o with BSet b _ => b | BAdd b => b end.
Definition once (l : list N) (b : N) : list N := if existsb (N.eqb b) l then l else l ++ [b].
Definition brands (os : list bop) : list N := fold_left once (map named os) [].

(* what is in the name field of an hdlr box that the parser trips over: no
   byte at all, or neither a QuickTime string nor a C string of at most 237
   characters *)
Definition quicktime (b : list N) : Prop := exists x r, b = x :: r /\ x < 128 /\ x = len r.
Definition hostile_name (b : list N) : Prop := b = [] \/ (~ quicktime b /\ ~ In 0 (firstn 238 b)).

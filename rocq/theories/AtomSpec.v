(* AtomSpec.v -- what a box tree means as bytes, independent of the
   library's size calculation, writer and parser. *)
From Coq Require Import String Ascii.
From Verif Require Import Base AtomModel.
Local Open Scope string_scope.
Local Open Scope N_scope.

(* a four character code, as written in the standard *)
Fixpoint code_from (acc : N) (s : string) : N :=
  match s with EmptyString => acc | String c r => code_from (acc * 256 + N_of_ascii c) r end.
Definition code (s : string) : N := code_from 0 s.
Definition one_of (ty : N) (l : list string) : bool := existsb (fun s => ty =? code s) l.

(* the boxes that consist of boxes and nothing else *)
Definition holds_boxes (ty : N) : bool :=
  one_of ty ["moov"; "trak"; "mdia"; "minf"; "dinf"; "edts"; "stbl"; "iprp"; "ipco"; "schi"; "rinf"; "jp2h"].
(* free space *)
Definition free_type (ty : N) : bool := one_of ty ["free"; "skip"].
(* the boxes of which a container may hold at most one, as groups *)
Definition single (c : N) : list (list string) :=
  (if c =? code "moov" then [["iods"]; ["mvhd"]; ["udta"]; ["meta"]; ["meco"]; ["mvex"]]
  else if c =? code "trak" then [["tkhd"]; ["edts"]; ["udta"]; ["tref"]; ["trgr"]; ["mdia"]; ["meta"]; ["meco"]]
  else if c =? code "mdia" then [["mdhd"]; ["elng"]; ["hdlr"]; ["minf"]]
  else if c =? code "minf" then [["mdhd"; "vmhd"; "smhd"; "hmhd"]; ["dinf"]; ["stbl"]]
  else if c =? code "dinf" then [["dref"]]
  else if c =? code "edts" then [["elst"]]
  else if c =? code "stbl" then
    [["stts"]; ["ctts"]; ["cslg"]; ["stss"]; ["stsd"]; ["stsz"; "stz2"]; ["stsc"]; ["stco"; "co64"];
     ["stsh"]; ["stdp"]; ["padb"]; ["sdtp"]]
  else if c =? code "rinf" then [["frma"]; ["schm"]; ["schi"]]
  else if c =? code "jp2h" then [["ihdr"]; ["bpcc"]; ["colr"]]
  else []).
(* no two children compete for one place in the container *)
Fixpoint singles_ok (c : N) (tys : list N) : Prop :=
  match tys with
  | [] => True
  | t :: r => (forall g, In g (single c) -> one_of t g = true -> Forall (fun t' => one_of t' g = false) r) /\ singles_ok c r
  end.
(* what every sample table needs *)
Definition mandatory : list (list string) :=
  [["stts"]; ["stsd"]; ["stsz"; "stz2"]; ["stsc"]; ["stco"; "co64"]].
Local Close Scope string_scope.

Section Spec.
Variable L : Type.
Variable leafType : L -> N.
Variable leafBody : L -> list N.    (* the bytes after size and type *)
Variable leafView : L -> L.         (* what a reader gets back; identity unless a codec normalises *)
Variable leafKnown : N -> bool.     (* types with their own codec *)
Variable leafOk : L -> Prop.
Notation atom := (atom L).
Notation atype := (atype L leafType).

(* A box is its total length, its four character type and its contents. *)
Definition box (ty : N) (body : list N) : list N := be32 (8 + len body) ++ be32 ty ++ body.
Fixpoint enc (a : atom) : list N :=
  match a with
  | AOpaque _ ty uuid d => box ty (uuid ++ d)
  | AFree _ ty d => box ty d
  | ALeaf _ l => box (leafType l) (leafBody l)
  | ABoxes _ ty kids => box ty (flat_map enc kids)
  end.

(* free space boxes disappear from every container *)
Definition free_box (a : atom) : bool := match a with AFree _ _ _ => true | _ => false end.
Fixpoint strip (a : atom) : atom :=
  match a with
  | ALeaf _ l => ALeaf _ (leafView l)
  | ABoxes _ ty kids => ABoxes _ ty (filter (fun k => negb (free_box k)) (map strip kids))
  | _ => a
  end.

(* a legal box tree. For a sample table: the five mandatory tables are
   present, and no auxiliary information boxes (written twice, see
   C06_stbl_saiz_refuted). *)
Fixpoint wf (a : atom) : Prop :=
  match a with
  | AOpaque _ ty uuid d =>
      ty < 4294967296 /\ holds_boxes ty = false /\ free_type ty = false /\ leafKnown ty = false /\
      len uuid = (if ty =? code "uuid" then 16 else 0) /\ bytes uuid /\ bytes d
  | AFree _ ty d => free_type ty = true /\ bytes d
  | ALeaf _ l => leafOk l
  | ABoxes _ ty kids =>
      holds_boxes ty = true /\
      (fix all (ks : list atom) : Prop := match ks with [] => True | k :: r => wf k /\ all r end) kids /\
      singles_ok ty (map atype (filter (fun k => negb (free_box k)) kids)) /\
      (ty = code "stbl" -> Forall (fun k => atype k <> code "saiz" /\ atype k <> code "saio") kids /\
         Forall (fun g => exists k, In k kids /\ one_of (atype k) g = true) mandatory)
  end.

(* number of boxes, and nesting depth *)
Fixpoint nboxes (a : atom) : N :=
  match a with
  | ABoxes _ _ kids => fold_right (fun k n => nboxes k + n) 1 kids
  | _ => 1
  end.
Fixpoint depth (a : atom) : N :=
  match a with
  | ABoxes _ _ kids => 1 + fold_right (fun k n => N.max (depth k) n) 0 kids
  | _ => 1
  end.
End Spec.

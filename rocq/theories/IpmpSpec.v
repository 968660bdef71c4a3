(* IpmpSpec.v -- IPMP structures as ISO/IEC 14496-1 and 14496-13 lay them
   out. *)
From Verif Require Import Base Codec AtomModel BoxModel BoxSpec DescModel DescSpec OdModel OdSpec IpmpModel.

(* one piece of IPMP data: class tag, length, version 1, contents *)
Definition piece (t : N) (d : list N) : list N := tagged t (1 :: d).
(* the same with the length on any number of bytes *)
Definition piece_in (t : N) (lb d : list N) : list N := be8 t ++ lb ++ 1 :: d.
Definition piece_ok (t : N) (lb d : list N) : Prop :=
  t < 256 /\ len_form lb /\ len lb < 1000 /\ len_value lb = 1 + len d /\ 1 + len d < 268435456.
(* initialization data: control point, sequence code, number of pieces *)
Definition inits (cp sq : N) (l : list (N * list N)) : list N :=
  be8 cp ++ be8 sq ++ be8 (len l) ++ flat_map (fun p => piece (fst p) (snd p)) l.
(* pieces whose length can be written *)
Definition fits (p : N * list N) : Prop := fst p < 256 /\ 1 + len (snd p) < 268435456.
(* pieces added one after the other to a handle *)
Fixpoint add_all (h : list N) (l : list (list N)) : res (list N) :=
  match l with [] => Ok h | d :: r => do h' <- add_init h d; add_all h' r end.

(* a number as a little-endian machine keeps it *)
Definition le64 (v : N) : list N := rev (be64 v).
(* identifiers of 128 bits: (lower, upper); in a file the upper half first *)
Definition id_file (a : N * N) : list N := be64 (snd a) ++ be64 (fst a).
Definition id_memory (a : N * N) : list N := le64 (fst a) ++ le64 (snd a).
Definition id_ok (a : N * N) : Prop := fst a < 18446744073709551616 /\ snd a < 18446744073709551616.
(* an IPMP tool: identifier, flags, alternatives, description, URLs *)
Definition tool_bytes (lo up : N) (ids : list (N * N)) (par : option (list N)) : list N :=
  tagged 99 (id_file (lo, up) ++
    be8 (match ids with [] => 0 | _ => 128 end + match par with None => 0 | Some _ => 64 end) ++
    match ids with [] => [] | _ => be8 (len ids) ++ flat_map id_file ids end ++
    match par with None => [] | Some p => be32 (len p) ++ p end ++ be8 0).
(* a handle of identifiers; no handle when there are none *)
Definition ids_handle (ids : list (N * N)) : option (list N) :=
  match ids with [] => None | _ => Some (flat_map id_memory ids) end.

(* a descriptor of a tool found at a URL *)
Definition url_tool (id : N) (url : list N) : list N :=
  tagged 98 (be16 id ++ be64 0 ++ be64 0 ++ be32 (len url) ++ url).
Definition url_tools (l : list (N * list N)) : list N := tagged 9 (flat_map (fun t => url_tool (fst t) (snd t)) l).
Definition url_ok (t : N * list N) : Prop := fst t < 65536 /\ len (snd t) < 268435434.
Definition as_kids (l : list (N * list N)) : list (N * desc) := map (fun t => (0, Desc (HToolD (fst t) (snd t)) [])) l.
Fixpoint add_updates (h : list N) (l : list (list N)) : res (list N) :=
  match l with [] => Ok h | d :: r => do h' <- add_update h d; add_updates h' r end.

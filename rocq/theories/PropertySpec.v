(* PropertySpec.v -- item properties: the association box and what was associated. *)
From Verif Require Import Base AtomModel BoxModel BoxSpec HeaderSpec PropertyModel.

(* ISO/IEC 23008-12, 9.3: essential flag, then an index of 7 or 15 bits *)
Definition assoc_bytes (w : bool) (a : assoc) : list N :=
  if w then be16 (as_ess a * 32768 + as_idx a) else be8 (as_ess a * 128 + as_idx a).
Definition pentry_bytes (ver : N) (w : bool) (e : pentry) : list N :=
  (if ver =? 0 then be16 (pe_item e) else be32 (pe_item e)) ++ be8 (len (pe_list e)) ++ flat_map (assoc_bytes w) (pe_list e).
Definition wide_flag (flags : N) : bool := N.odd flags.
(* the 15-bit form loses the essential flag when read *)
Definition assoc_ok (w : bool) (a : assoc) : Prop :=
  if w then as_ess a = 0 /\ as_idx a < 32768 else as_ess a < 2 /\ as_idx a < 128.
Definition ipma_ok (t : ipma) : Prop :=
  full_ok (pm_ver t) (pm_flags t) /\ len (pm_list t) < 4294967296 /\
  Forall (fun e => pe_item e < (if pm_ver t =? 0 then 65536 else 4294967296) /\ len (pe_list e) < 256 /\
    Forall (assoc_ok (wide_flag (pm_flags t))) (pe_list e)) (pm_list t).
Definition ipma_layout : layout ipma := mkLayout (fun _ => code "ipma")
  (fun t => full (pm_ver t) (pm_flags t) ++ be32 (len (pm_list t)) ++ flat_map (pentry_bytes (pm_ver t) (wide_flag (pm_flags t))) (pm_list t))
  (fun t => t) ipma_ok.

(* the properties associated with item [id], in order *)
Definition props_of (id : N) (l : list (N * N * N)) : list N :=
  map (fun x => fst (fst x)) (filter (fun x => snd (fst x) =? id) l).
(* the same with their essential flags and their numbers among all, from [k] *)
Fixpoint assocs_from (k id : N) (l : list (N * N * N)) : list assoc :=
  match l with
  | [] => []
  | x :: r => if snd (fst x) =? id then mkAssoc (snd x) k :: assocs_from (k + 1) id r else assocs_from (k + 1) id r
  end.

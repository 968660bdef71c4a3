(* OdSpec.v -- commands of object descriptor streams (ISO/IEC 14496-1), and
   how a file keeps them (ISO/IEC 14496-14): elementary stream descriptors
   and stream numbers are replaced by positions in a list of tracks. *)
From Verif Require Import Base Codec AtomModel BoxModel BoxSpec DescModel DescSpec OdModel.

(* ------------------------------------------------------------------ *)
(* Commands                                                            *)

Definition cfields (k : ckind) : list N :=
  match k with KES id => be16 (id * 64) | KOther _ data => data | _ => [] end.
(* the lists one after the other *)
Definition csorted {A} (ks : list (N * A)) : list (N * A) :=
  filter (fun k => fst k =? 0) ks ++ filter (fun k => fst k =? 1) ks ++ filter (fun k => fst k =? 2) ks.
Definition cbody (c : cmd) : list N := cfields (c_kind c) ++ flat_map (fun k => enc (snd k)) (csorted (c_ds c)).
Definition cenc (c : cmd) : list N := tagged (ctag (c_kind c)) (cbody c).
(* the list a reader keeps a descriptor in *)
Definition chome (k : ckind) (tag : N) : N :=
  match k, tag with
  | KOD, 1 => 0 | KOD, _ => 2
  | KES _, 3 => 0 | KES _, 15 => 1 | KES _, _ => 2
  | _, _ => 0
  end.
Definition cview (c : cmd) : cmd :=
  mkCmd (c_kind c) (map (fun k => (chome (c_kind c) (dtag (view (snd k))), view (snd k))) (csorted (c_ds c))).
Definition kind_ok (k : ckind) (ks : list (N * desc)) : Prop :=
  match k with
  | KOD => Forall (fun k => fst k < 3) ks
  | KES id => id < 1024 /\ Forall (fun k => fst k < 3) ks
  | KTools => Forall (fun k => fst k = 0 /\ dtag (snd k) = 98) ks
  | KOther t _ => t < 256 /\ t <> 1 /\ t <> 3 /\ t <> 9 /\ ks = []
  end.
Definition cwf (c : cmd) : Prop :=
  kind_ok (c_kind c) (c_ds c) /\ Forall (fun k => wf (snd k)) (c_ds c) /\ len (cbody c) < 268435456.
Definition fenc (cs : list cmd) : list N := flat_map cenc cs.

(* ------------------------------------------------------------------ *)
(* Streams as positions in a list                                      *)

Definition esid (d : desc) : N := match d with Desc (HES id _ _ _ _) _ => id | _ => 0 end.
Definition refno (d : desc) : N := match d with Desc (HRef r) _ => r | _ => 0 end.
(* the stream an IPMP descriptor pointer names: 0 and 65535 name none *)
Definition names (k : N * desc) : list N :=
  match k with (4, Desc (HPtr _ _ _ es) _) => if (es =? 0) || (es =? 65535) then [] else [es] | _ => [] end.
Definition kids (d : desc) : list (N * desc) := match d with Desc _ ks => ks end.
Definition at_ {A} (m : N) (ks : list (N * A)) : list (N * A) := filter (fun k => fst k =? m) ks.
Definition but {A} (m : N) (ks : list (N * A)) : list (N * A) := filter (fun k => negb (fst k =? m)) ks.
(* the streams a command names, in the order in which it names them *)
Definition od_ids (d : desc) : list N := flat_map names (kids d) ++ map (fun k => esid (snd k)) (at_ 0 (kids d)).
Definition cids (c : cmd) : list N :=
  match c_kind c with
  | KOD => flat_map (fun k => od_ids (snd k)) (at_ 0 (c_ds c))
  | KES _ => map (fun k => esid (snd k)) (at_ 0 (c_ds c))
  | _ => []
  end.
(* those with an elementary stream descriptor *)
Definition ces (c : cmd) : list N :=
  match c_kind c with
  | KOD => flat_map (fun k => map (fun k => esid (snd k)) (at_ 0 (kids (snd k)))) (at_ 0 (c_ds c))
  | KES _ => map (fun k => esid (snd k)) (at_ 0 (c_ds c))
  | _ => []
  end.
Definition fids (cs : list cmd) : list N := flat_map cids cs.
(* a list that gets the streams it does not have yet *)
Definition grow1 (m : list N) (i : N) : list N := if existsb (N.eqb i) m then m else m ++ [i].
Definition grow (m : list N) (ids : list N) : list N := fold_left grow1 ids m.
(* the position of a stream, counted from 1; 0 if it is not there *)
Fixpoint pos (m : list N) (i : N) : N :=
  match m with
  | [] => 0
  | x :: r => if x =? i then 1 else match pos r i with 0 => 0 | p => p + 1 end
  end.
(* every stream is new, or the one that was added last *)
Fixpoint good (m : list N) (ids : list N) : Prop :=
  match ids with
  | [] => True
  | i :: r => i <> 0 /\ (~ In i m \/ last m 0 = i) /\ good (grow1 m i) r
  end.

(* what a command becomes *)
Definition put_ptr (f : N -> N) (k : N * desc) : N * desc :=
  match k with
  | (4, Desc (HPtr t id tool es) ks) => (4, Desc (HPtr t id tool (if (es =? 0) || (es =? 65535) then es else f es)) ks)
  | _ => k
  end.
Definition ref_to (m : list N) (k : N * desc) : desc := Desc (HRef (pos m (esid (snd k)))) [].
Definition stored_od (m : list N) (d : desc) : desc :=
  match d with
  | Desc (HOD _ id url) ks => Desc (HOD 17 id url) (but 0 (map (put_ptr (pos m)) ks) ++ map (fun k => (2, ref_to m k)) (at_ 0 ks))
  | _ => d
  end.
Definition stored (m : list N) (c : cmd) : cmd :=
  match c_kind c with
  | KOD => mkCmd KOD (map (fun k => (fst k, if fst k =? 0 then stored_od m (snd k) else snd k)) (c_ds c))
  | KES id => mkCmd (KES id) (but 0 (c_ds c) ++ map (fun k => (1, ref_to m k)) (at_ 0 (c_ds c)))
  | _ => c
  end.

(* ... and what a reader makes of it: the elementary stream descriptor of the
   track in place of the one that was there *)
Definition given_od (e : N -> desc) (d : desc) : desc :=
  match d with
  | Desc h ks => Desc h (map (fun k => (fst k, if fst k =? 0 then e (esid (snd k)) else snd k)) ks)
  end.
Definition given (e : N -> desc) (c : cmd) : cmd :=
  match c_kind c with
  | KOD => mkCmd KOD (map (fun k => (fst k, if fst k =? 0 then given_od e (snd k) else snd k)) (c_ds c))
  | KES id => mkCmd (KES id) (map (fun k => (fst k, if fst k =? 0 then e (esid (snd k)) else snd k)) (c_ds c))
  | _ => c
  end.

(* commands as a player expects them: elementary stream descriptors rather
   than references, and no pointers to streams inside them *)
Definition plain_es (d : desc) : Prop := flat_map names (kids d) = [].
Definition plain_od (d : desc) : Prop :=
  at_ 2 (kids d) = [] /\ Forall (fun k => plain_es (snd k)) (at_ 0 (kids d)).
Definition plain_cmd (c : cmd) : Prop :=
  match c_kind c with
  | KOD => Forall (fun k => plain_od (snd k)) (at_ 0 (c_ds c))
  | KES _ => at_ 1 (c_ds c) = [] /\ Forall (fun k => plain_es (snd k)) (at_ 0 (c_ds c))
  | _ => True
  end.
(* descriptors and commands as they are after reading: each descriptor in its
   list, list after list, and fields that are not written 0 *)
Inductive still : desc -> Prop :=
| Still h ks : head_view h = h -> sorted h ks = ks ->
    Forall (fun k => still (snd k) /\ fst k = home h (dtag (snd k))) ks -> still (Desc h ks).
Definition as_read (c : cmd) : Prop :=
  cwf c /\ csorted (c_ds c) = c_ds c /\ Forall (fun k => still (snd k) /\ fst k = chome (c_kind c) (dtag (snd k))) (c_ds c).
Definition is_esd (d : desc) : Prop := match d with Desc (HES _ _ _ _ _) _ => True | _ => False end.
(* samples added one after the other: the list of tracks and the samples as
   they are in the file *)
Fixpoint add_samples (m : list N) (ss : list (list N)) : res (list N * list (list N)) :=
  match ss with
  | [] => Ok (m, [])
  | s :: r => do x <- add_od_sample 1 m s; do y <- add_samples (fst x) r; Ok (fst y, snd x :: snd y)
  end.

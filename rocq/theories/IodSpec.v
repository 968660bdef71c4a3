(* IodSpec.v -- the initial object descriptor of a movie: what was added to it,
   and what a player gets (ISO/IEC 14496-1, 8.6.3 and 8.6.4). *)
From Verif Require Import Base Codec AtomModel BoxModel BoxSpec DescModel DescSpec OdModel OdSpec IodModel.

Definition inc (d : desc) : N := match d with Desc (HInc t) _ => t | _ => 0 end.
Definition is_inc (d : desc) : Prop := match d with Desc (HInc _) _ => True | _ => False end.
(* what a player gets: the fields, the elementary stream descriptors of the
   tracks in the order in which they were added, then the other members *)
Definition members (l : list N) (ks : list (N * desc)) : list N :=
  flat_map (fun m => flat_map (fun k => enc (snd k)) (at_ m ks)) l.
Definition streams (e : N -> desc) (ks : list (N * desc)) : list N := flat_map (fun k => enc (e (inc (snd k)))) (at_ 1 ks).
Definition given_iod (e : N -> desc) (h : head) (ks : list (N * desc)) : list N :=
  match h with
  | HIOD _ _ _ _ _ _ _ _ => tagged 2 (fields h ++ streams e ks ++ members [3; 4; 5] ks)
  | _ => tagged 1 (fields h ++ streams e ks ++ members [3; 4; 5] ks)
  end.
Definition len_iod (e : N -> desc) (h : head) (ks : list (N * desc)) : N :=
  len (fields h) + len (streams e ks) + len (members [3; 4; 5] ks).

(* calls on the descriptor of a movie *)
Inductive iop := OTrack (id : N) | ODesc (d : desc) | OInline (f : N) | OGet.
(* what can be added, and where it goes *)
Definition addable (d : desc) : bool := negb (iod_refused (dtag d)).
Definition ikid (o : iop) : list (N * desc) :=
  match o with
  | OTrack id => [(1, Desc (HInc id) [])]
  | ODesc d => if addable d then [(if dtag d =? 10 then 4 else 5, d)] else []
  | _ => []
  end.
Definition ihead (h : head) (o : iop) : head :=
  match h, o with
  | HIOD id _ u a b c e g, OInline f => HIOD id (if f =? 0 then 0 else 1) u a b c e g
  | _, _ => h
  end.
(* one call: the descriptor afterwards, and whether it was refused *)
Definition istep (esd : N -> res desc) (d : option desc) (o : iop) : option desc * res (option (list N)) :=
  match o with
  | OTrack id => match iod_add_track d id with Ok d' => (Some d', Ok None) | Err e => (d, Err e) | UB => (None, UB) end
  | ODesc x => match iod_add_desc d (enc x) with Ok d' => (Some d', Ok None) | Err e => (d, Err e) | UB => (None, UB) end
  | OInline f => match iod_set_inline d f with Ok (Some d') => (Some d', Ok None) | Ok None => (d, Ok None) | Err e => (d, Err e) | UB => (None, UB) end
  | OGet => match iod_get esd d with (d', Ok b) => (d', Ok (Some b)) | (d', Err e) => (d', Err e) | (d', UB) => (d', UB) end
  end.
Fixpoint iruns (esd : N -> res desc) (d : option desc) (os : list iop) : option desc * list (res (option (list N))) :=
  match os with
  | [] => (d, [])
  | o :: r => let x := istep esd d o in let y := iruns esd (fst x) r in (fst y, snd x :: snd y)
  end.
(* ... and what is expected of it *)
Definition ianswer (e : N -> desc) (h : head) (ks : list (N * desc)) (o : iop) : res (option (list N)) :=
  match o with
  | ODesc d => if addable d then Ok None else Err MP4BadParamErr
  | OGet => Ok (Some (given_iod e h ks))
  | _ => Ok None
  end.
Fixpoint ianswers (e : N -> desc) (h : head) (ks : list (N * desc)) (os : list iop) : list (res (option (list N))) :=
  match os with [] => [] | o :: r => ianswer e h ks o :: ianswers e (ihead h o) (ks ++ ikid o) r end.
Definition iop_ok (o : iop) : Prop :=
  match o with OTrack id => id < 4294967296 | ODesc d => wf d /\ still d | _ => True end.
(* a descriptor as the calls make it, or a reader of the file: an initial one
   that is not elsewhere, or one with the tag 17; no elementary stream
   descriptors, references only to tracks *)
Definition root_ok (h : head) : Prop :=
  match h with HIOD _ _ [] _ _ _ _ _ => head_ok h | HOD t _ _ => t = 17 /\ head_ok h | _ => False end.
Definition kid_in (k : N * desc) : Prop := In (fst k) [1; 3; 4; 5] /\ wf (snd k) /\ (fst k = 1 -> is_inc (snd k)).

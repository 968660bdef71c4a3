(* HandleSpec.v -- handles as byte strings.

   A handle is a pair (front, view): [view] is what the user sees, [front]
   the bytes hidden by MP4SetHandleOffset.  None marks a byte the
   specification leaves unspecified (after growing). *)
From Verif Require Import Base HandleModel.

Definition sh := (list obyte * list obyte)%type.

Definition sp_resize (n : N) (v : list obyte) : list obyte :=
  firstn (N.to_nat n) v ++ repeat None (N.to_nat n - length v).

Definition sp_step (p : list sh) (o : hop) : list sh * hout :=
  match o with
  | HNew n => (p ++ [([], repeat (Some 0) (N.to_nat n))], HDone)
  | HSetSize i n => match nth_error p i with
                    | Some (f, v) => (setn p i (f, sp_resize n v), HDone)
                    | None => (p, HDone) end
  | HSetOffset i o =>
      match nth_error p i with
      | Some (f, v) =>
          if o <=? len f + len v
          then (setn p i (firstn (N.to_nat o) (f ++ v), skipn (N.to_nat o) (f ++ v)), HDone)
          else match v with
               | [] => (setn p i (sp_resize o f, []), HDone)
               | _ => (p, HErr MP4BadParamErr) end
      | None => (p, HDone) end
  | HPoke i k x => match nth_error p i with
                   | Some (f, v) => (setn p i (f, setn v (N.to_nat k) (Some x)), HDone)
                   | None => (p, HDone) end
  | HCat d s => match nth_error p d, nth_error p s with
                | Some (f, v), Some (_, w) => (setn p d (f, v ++ w), HDone)
                | _, _ => (p, HDone) end
  | HGetSize i => match nth_error p i with
                  | Some (_, v) => (p, HNum (len v)) | None => (p, HDone) end
  | HRead i => match nth_error p i with
               | Some (_, v) => (p, HBytes v) | None => (p, HDone) end
  end.

Definition total (s : sh) : N := len (fst s) + len (snd s).

(* the calls the claim is about: existing handles, positions inside the
   view, distinct handles for MP4HandleCat, sizes below 2^32, offsets below 2^31 *)
Definition op_valid (p : list sh) (o : hop) : Prop :=
  match o with
  | HNew n => n < 4294967296
  | HSetSize i n => exists f v, nth_error p i = Some (f, v) /\ len f + n < 4294967296
  | HSetOffset i o => exists s, nth_error p i = Some s /\ o < 2147483648
  | HPoke i k _ => exists f v, nth_error p i = Some (f, v) /\ k < len v
  | HCat d s => d <> s /\ exists f v g w, nth_error p d = Some (f, v) /\ nth_error p s = Some (g, w) /\
                 len f + len v + len w < 4294967296
  | HGetSize i | HRead i => exists s, nth_error p i = Some s
  end.

Fixpoint sp_run (p : list sh) (os : list hop) : list hout :=
  match os with [] => [] | o :: t => let (p', r) := sp_step p o in r :: sp_run p' t end.
Fixpoint hist_valid (p : list sh) (os : list hop) : Prop :=
  match os with
  | [] => True
  | o :: t => op_valid p o /\ hist_valid (fst (sp_step p o)) t
  end.

(* an actual answer agrees with the specified one: same shape and length,
   and every specified byte is as specified *)
Definition byte_agrees (spec actual : obyte) : Prop := spec = None \/ spec = actual.
Definition out_agrees (spec actual : hout) : Prop :=
  match spec, actual with
  | HBytes l, HBytes m => Forall2 byte_agrees l m
  | _, _ => spec = actual
  end.

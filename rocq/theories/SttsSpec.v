(* SttsSpec.v -- samples with durations: what the time questions mean. *)
From Verif Require Import Base.

Definition total (l : list N) : N := fold_right N.add 0 l.
(* decoding time of sample n (numbered from 1): the durations before it *)
Definition dts (l : list N) (n : N) : N := total (firstn (N.to_nat (n - 1)) l).
Definition dur (l : list N) (n : N) : option N := nth_error l (N.to_nat (n - 1)).
(* sample k is the one being decoded at time t *)
Definition covers (l : list N) (k t : N) : Prop :=
  1 <= k /\ exists d, dur l k = Some d /\ dts l k <= t < dts l k + d.

(* the samples described by a table of (count, duration) runs *)
Definition expand (es : list (N * N)) : list N := flat_map (fun e => repeat (snd e) (N.to_nat (fst e))) es.
Definition all_pos (es : list (N * N)) : Prop := Forall (fun e => 1 <= fst e) es.
Definition durs_pos (es : list (N * N)) : Prop := Forall (fun e => 1 <= snd e) es.
(* k is the first sample of a run *)
Definition run_start (es : list (N * N)) (k : N) : Prop :=
  exists pre post, es = pre ++ post /\ post <> [] /\ k = 1 + len (expand pre).

(* histories *)
Inductive sop :=
| OAdd (count : N) (durs : list N)   (* one duration for all, or one each *)
| OExtend (d : N)
| OTime (n : N)
| OTotal.
Inductive sout :=
| RDone
| RTime (t : N) (d : Z)
| RTotal (t : N).

Definition batch (count : N) (durs : list N) : list N :=
  match durs with
  | [d] => repeat d (N.to_nat count)
  | _ => firstn (N.to_nat count) durs
  end.
Definition batch_ok (count : N) (durs : list N) : Prop := len durs = 1 \/ count <= len durs.
Fixpoint extend_last (l : list N) (d : N) : list N :=
  match l with [] => [] | [x] => [x + d] | x :: r => x :: extend_last r d end.

Definition sstep (l : list N) (o : sop) : list N * sout :=
  match o with
  | OAdd c ds => (l ++ batch c ds, RDone)
  | OExtend d => (extend_last l d, RDone)
  | OTime n => (l, match dur l n with
                   | Some d => RTime (dts l n) (Z.of_N d)
                   | None => RTime 18446744073709551615 0   (* all ones: no such sample *)
                   end)
  | OTotal => (l, RTotal (total l))
  end.
Fixpoint sruns (l : list N) (os : list sop) : list sout :=
  match os with
  | [] => []
  | o :: r => snd (sstep l o) :: sruns (fst (sstep l o)) r
  end.

Definition grows (o : sop) : bool := match o with OAdd _ _ | OExtend _ => true | _ => false end.
(* Legal histories: total time and count stay representable, and samples
   that do not exist yet are not asked for before more are added. *)
Fixpoint legal (l : list N) (os : list sop) : Prop :=
  match os with
  | [] => True
  | o :: r =>
      let l' := fst (sstep l o) in
      total l' < 4294967296 /\ Forall (fun d => d < 2147483648) l' /\ len l' < 4294967295 /\
      (match o with
       | OAdd c ds => batch_ok c ds /\ c < 4294967296
       | OExtend d => l <> []
       | OTime n => 1 <= n < 4294967296 /\ (n <= len l \/ existsb grows r = false)
       | OTotal => True
       end) /\ legal l' r
  end.

(* the sample before k starts here; -1 if there is none *)
Definition prior_start (l : list N) (k : N) : Z :=
  if k =? 1 then (-1)%Z else Z.of_N (dts l (k - 1)).

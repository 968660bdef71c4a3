(* MediaSpec.v -- adding samples to the tracks of a movie and reading them back. *)
From Verif Require Import Base.

(* a sample, as the person who adds it thinks of it *)
Record smp := mkSmp { m_bytes : list N; m_dur : N; m_off : Z; m_sync : bool; m_pad : N }.

(* the arguments of one MP4AddMediaSamplesPad call *)
Record mbat := mkBat {
  b_count : N; b_data : list N; b_durs : list N; b_sizes : list N;
  b_entry : option N;               (* sample description: its data reference index *)
  b_offs : option (list N); b_sync : option (list N); b_pads : option (list N) }.

(* one value for all the samples, or one for each *)
Definition per_sample (l xs : list N) : Prop := l = xs \/ exists x, l = [x] /\ Forall (eq x) xs.
(* the arguments say the same as the list of samples *)
Record describes (b : mbat) (ss : list smp) : Prop := {
  d_some : ss <> [];
  d_count : b_count b = len ss;
  d_data : b_data b = flat_map m_bytes ss;
  d_sizes : per_sample (b_sizes b) (map (fun s => len (m_bytes s)) ss);
  d_durs : per_sample (b_durs b) (map m_dur ss);
  d_offs : match b_offs b with
           | None => Forall (fun s => m_off s = 0%Z) ss
           | Some l => per_sample l (map (fun s => u32_of (m_off s)) ss) end;
  d_sync : match b_sync b with
           | None => Forall (fun s => m_sync s = true) ss
           | Some l => (* the positions of the sync samples, from 1, in order *)
               l = map (fun p => N.of_nat (fst p)) (filter (fun p => m_sync (snd p)) (combine (seq 1 (length ss)) ss)) end;
  d_pads : match b_pads b with
           | None | Some [] => Forall (fun s => m_pad s = 0) ss
           | Some l => per_sample l (map m_pad ss) end;
  d_range : Forall (fun s => m_dur s < 2147483648 /\ (-2147483648 <= m_off s < 2147483648)%Z) ss }.

(* a track: its samples so far and what kinds of information were given *)
Record track := mkTrack { t_smps : list smp; t_offs : bool; t_pads : bool; t_desc : bool }.
Definition track0 : track := mkTrack [] false false false.
Definition given_to {A} (o : option A) : bool := match o with Some _ => true | None => false end.
Definition tadd (t : track) (ss : list smp) (b : mbat) : track :=
  mkTrack (t_smps t ++ ss) (t_offs t || given_to (b_offs b)) (t_pads t || given_to (b_pads b))
          (t_desc t || given_to (b_entry b)).

(* the answer to a question about one sample *)
Record info := mkInfo { i_bytes : list N; i_size : N; i_dts : N; i_off : Z; i_dur : N;
                        i_hasoff : bool; i_sync : bool; i_pad : N }.
Definition duration (ss : list smp) : N := fold_right (fun s a => m_dur s + a) 0 ss.
Definition answer (t : track) (n : N) : option info :=
  match nth_error (t_smps t) (N.to_nat (n - 1)) with
  | Some s => Some (mkInfo (m_bytes s) (len (m_bytes s)) (duration (firstn (N.to_nat (n - 1)) (t_smps t)))
                     (m_off s) (m_dur s) (t_offs t) (m_sync s) (if t_pads t then m_pad s else 248))
  | None => None
  end.

(* histories over several tracks that share one media data box *)
Inductive aop :=
| AAdd (i : nat) (ss : list smp) (b : mbat)
| AGet (i : nat) (n : N).
Fixpoint upd {A} (l : list A) (i : nat) (x : A) : list A :=
  match l, i with
  | [], _ => []
  | _ :: r, O => x :: r
  | y :: r, S j => y :: upd r j x
  end.
Definition agrow (ts : list track) (o : aop) : list track :=
  match o with
  | AAdd i ss b => match nth_error ts i with Some t => upd ts i (tadd t ss b) | None => ts end
  | AGet _ _ => ts
  end.
Definition stored (ts : list track) : N := fold_right (fun t a => len (flat_map m_bytes (t_smps t)) + a) 0 ts.
(* [drefs]: number of data references of each track, all to the file itself.
   Offsets are given from the first batch on or not at all at first; once a
   sample is not a sync sample each batch says which are; questions are about
   samples that exist. *)
Definition aop_ok (drefs : N) (ts : list track) (o : aop) : Prop :=
  match o with
  | AAdd i ss b =>
      exists t, nth_error ts i = Some t /\ describes b ss /\
        (b_offs b <> None -> t_offs t = true \/ t_smps t = []) /\
        (b_sync b = None -> Forall (fun s => m_sync s = true) (t_smps t)) /\
        (t_desc t = true \/ b_entry b <> None) /\
        match b_entry b with Some d => 1 <= d <= drefs | None => True end /\
        duration (t_smps t ++ ss) < 4294967296 /\ len (t_smps t ++ ss) < 536870911
  | AGet i n => exists t, nth_error ts i = Some t /\ 1 <= n <= len (t_smps t)
  end.
Fixpoint aops_ok (drefs : N) (ts : list track) (os : list aop) : Prop :=
  match os with
  | [] => True
  | o :: r => aop_ok drefs ts o /\ stored (agrow ts o) < 4294967296 /\ aops_ok drefs (agrow ts o) r
  end.
(* what a history returns: nothing for an addition *)
Fixpoint aspec (ts : list track) (os : list aop) : list (option info) :=
  match os with
  | [] => []
  | AAdd i ss b :: r => None :: aspec (agrow ts (AAdd i ss b)) r
  | AGet i n :: r => match nth_error ts i with Some t => answer t n | None => None end :: aspec ts r
  end.

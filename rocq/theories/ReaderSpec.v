(* ReaderSpec.v -- what reading a track from start to end means. *)
From Verif Require Import Base EditModel MediaSpec MediaModel ReaderModel.

(* the access unit that presents sample n of a track at time [dts] *)
Definition unit_at (i : info) (dts : Z) (dur : N) : au :=
  mkAu (Some (i_bytes i)) (i_sync i) (i_hasoff i) (dts + i_off i) dts dur (i_pad i).
(* without edits: at its own decoding time *)
Definition unit_of (t : track) (n : N) : option au :=
  option_map (fun i => unit_at i (Z.of_N (i_dts i)) (i_dur i)) (answer t n).
(* its times can be expressed as s32 *)
Definition s32_ok (z : Z) : Prop := (-2147483648 <= z < 2147483648)%Z.
Definition unit_ok (a : au) : Prop := s32_ok (a_dts a) /\ s32_ok (a_cts a).

(* ---- packets ---- *)
(* A packet begins with one byte: five bits sequence number, one bit "random
   access point", one bit "decoding time present", one bit "composition time
   present". The times present follow as 32 bit numbers; what is left is the
   payload. *)
Record packet := mkPacket { p_seq : N; p_rap : bool; p_dts : option N; p_cts : option N; p_rest : list N }.
Definition word (l : list N) : option (N * list N) :=
  match l with a :: b :: c :: d :: r => Some (a * 16777216 + b * 65536 + c * 256 + d, r) | _ => None end.
Definition word_if (present : bool) (l : list N) : option (option N * list N) :=
  if present then option_map (fun x => (Some (fst x), snd x)) (word l) else Some (None, l).
Definition open_packet (l : list N) : option packet :=
  match l with
  | [] => None
  | v :: r =>
      match word_if (N.odd (v / 2)) r with
      | None => None
      | Some (dts, r) => match word_if (N.odd v) r with
          | None => None
          | Some (cts, r) => Some (mkPacket (v / 8) (N.odd (v / 4)) dts cts r)
          end
      end
  end.
Definition mod32 (z : Z) : N := Z.to_N (z mod 4294967296).
(* packet number [seq] for an access unit *)
Definition carries (p : list N) (seq : N) (a : au) : Prop :=
  exists bs, a_bytes a = Some bs /\
  open_packet p = Some (mkPacket (seq mod 32) (a_sync a) (if a_hasoff a then Some (mod32 (a_dts a)) else None) (Some (mod32 (a_cts a))) bs).

(* ---- histories ---- *)
(* an open reader: its track, how many samples the track had when it was
   opened, how many it has delivered, how many packets it has made *)
Record cursor := mkCursor { c_track : nat; c_limit : N; c_done : N; c_packets : N }.
Inductive eout := ENew | EUnit (a : au) | EPacket (seq : N) (a : au) | EEnd | EAnswer (a : option info).
Definition next_of (ts : list track) (c : cursor) : option au :=
  if c_done c <? c_limit c then
    match nth_error ts (c_track c) with Some t => unit_of t (c_done c + 1) | None => None end
  else None.
Definition espec1 (ts : list track) (cs : list cursor) (o : rop) : eout * (list track * list cursor) :=
  match o with
  | RNew i => (ENew, (ts, cs ++ [mkCursor i (match nth_error ts i with Some t => len (t_smps t) | None => 0 end) 0 0]))
  | RNext k => match nth_error cs k with
      | None => (EEnd, (ts, cs))
      | Some c => match next_of ts c with
          | Some a => (EUnit a, (ts, upd cs k (mkCursor (c_track c) (c_limit c) (c_done c + 1) (c_packets c))))
          | None => (EEnd, (ts, cs))
          end
      end
  | RPacket k => match nth_error cs k with
      | None => (EEnd, (ts, cs))
      | Some c => match next_of ts c with
          | Some a => (EPacket (c_packets c + 1) a,
                       (ts, upd cs k (mkCursor (c_track c) (c_limit c) (c_done c + 1) (c_packets c + 1))))
          | None => (EEnd, (ts, cs))
          end
      end
  | ROther o => (EAnswer (match o with
                          | AAdd _ _ _ => None
                          | AGet i n => match nth_error ts i with Some t => answer t n | None => None end end),
                 (agrow ts o, cs))
  end.
Fixpoint espec (ts : list track) (cs : list cursor) (os : list rop) : list eout :=
  match os with
  | [] => []
  | o :: r => let '(x, (ts', cs')) := espec1 ts cs o in x :: espec ts' cs' r
  end.
Definition rop_ok (drefs : N) (ts : list track) (cs : list cursor) (o : rop) : Prop :=
  match o with
  | RNew i => exists t, nth_error ts i = Some t
  | RNext k => exists c, nth_error cs k = Some c /\
      match next_of ts c with Some a => unit_ok a | None => True end
  | RPacket k => exists c, nth_error cs k = Some c /\
      match next_of ts c with
      | Some a => unit_ok a /\ (forall bs, a_bytes a = Some bs -> len bs + 9 < 4294967296)
      | None => True end
  | ROther o => aop_ok drefs ts o /\ stored (agrow ts o) < 4294967296
  end.
Fixpoint rops_ok (drefs : N) (ts : list track) (cs : list cursor) (os : list rop) : Prop :=
  match os with
  | [] => True
  | o :: r => rop_ok drefs ts cs o /\ let '(_, (ts', cs')) := espec1 ts cs o in rops_ok drefs ts' cs' r
  end.
Definition agrees (x : rout) (e : eout) : Prop :=
  match x, e with
  | ONew, ENew => True
  | OUnit a, EUnit b => a = b
  | OPacket p, EPacket n a => carries p n a
  | OEnd, EEnd => True
  | OAnswer a, EAnswer b => a = b
  | _, _ => False
  end.

(* ---- edits ---- *)
(* The part of the media from time [mt] on is presented from [b] to [e] (in
   media time units): the samples that are decoded in that part, in order, each
   moved accordingly; the last is cut at the end. *)
Definition window1 (mt b e : N) (i : info) : list au :=
  if (i_dts i <? mt + (e - b)) && (mt <? i_dts i + i_dur i)
  then let dts := (Z.of_N (i_dts i) - Z.of_N mt + Z.of_N b)%Z in
       [unit_at i dts (Z.to_N (Z.min (Z.of_N (i_dur i)) (Z.of_N e - dts)))]
  else [].
Definition window (t : track) (mt b e : N) : list au :=
  flat_map (fun n => match answer t (N.of_nat n) with Some i => window1 mt b e i | None => [] end)
    (seq 1 (length (t_smps t))).
(* all the edits, from movie time [T] on *)
Fixpoint plan (t : track) (mts dts T : N) (es : list edit) : list au :=
  match es with
  | [] => []
  | e :: r => (if e_empty e then [] else window t (Z.to_N (e_time e)) (dts * T / mts) (dts * (T + e_dur e) / mts))
              ++ plan t mts dts (T + e_dur e) r
  end.
(* an edit that presents media lasts at least one media time unit and lies
   within the media *)
Fixpoint edits_ok (t : track) (mts dts T : N) (es : list edit) : Prop :=
  match es with
  | [] => dts * T < 18446744073709551616 /\ T < 18446744073709551616 /\ dts * T / mts < 2147483648
  | e :: r => (e_empty e = false ->
                 (0 <= e_time e)%Z /\ dts * T / mts < dts * (T + e_dur e) / mts /\
                 Z.to_N (e_time e) + (dts * (T + e_dur e) / mts - dts * T / mts) <= duration (t_smps t)) /\
              edits_ok t mts dts (T + e_dur e) r
  end.
(* the list does not end with an empty edit *)
Definition ends_with_media (es : list edit) : Prop :=
  match rev es with e :: _ => e_empty e = false | [] => False end.

(* ---- boxed metadata ---- *)
(* a sample is a sequence of items, each with a four byte length (which counts
   the eight bytes before the payload), a key, and a payload *)
Definition item (kv : N * list N) : list N := be32 (8 + len (snd kv)) ++ be32 (fst kv) ++ snd kv.
Definition item_ok (kv : N * list N) : Prop := fst kv < 4294967296 /\ 8 + len (snd kv) < 4294967296.
(* the last item with the key *)
Fixpoint chosen (key : N) (l : list (N * list N)) : option (list N) :=
  match l with
  | [] => None
  | (k, v) :: r => match chosen key r with Some x => Some x | None => if k =? key then Some v else None end
  end.

(* GroupSpec.v -- what C24 to C27 say, without the library's algorithms. *)
From Verif Require Import Base AtomSpec BoxSpec GroupModel.

(* ------------------------------------------------------------------ *)
(* descriptions                                                         *)

(* the length all descriptions share, 0 if they differ *)
Definition common_length (l : list (list N)) : N :=
  match l with [] => 0 | g :: r => if forallb (fun x => len x =? len g) r then len g else 0 end.
(* ISO/IEC 14496-12 8.9.3, version 1 *)
Definition sgpd_layout : layout sgpd := mkLayout (fun _ => code "sgpd")
  (fun s => full (sd_ver s) (sd_flags s) ++ be32 (sd_type s) ++ be32 (common_length (sd_groups s)) ++
     be32 (len (sd_groups s)) ++
     flat_map (fun g => (if common_length (sd_groups s) =? 0 then be32 (len g) else []) ++ g) (sd_groups s))
  (fun s => s)
  (fun s => full_ok (sd_ver s) (sd_flags s) /\ sd_ver s = 1 /\ sd_type s < 4294967296 /\ sd_defidx s = 0 /\
     sd_groups s <> []).

(* descriptions added one after the other *)
Fixpoint sgpd_adds (s : sgpd) (ds : list (list N)) : list (res N) * sgpd :=
  match ds with
  | [] => ([], s)
  | d :: r => match sgpd_add s d with
              | Ok (i, s') => let '(a, s2) := sgpd_adds s' r in (Ok i :: a, s2)
              | Err e => let '(a, s2) := sgpd_adds s r in (Err e :: a, s2)
              | UB => let '(a, s2) := sgpd_adds s r in (UB :: a, s2)
              end
  end.

(* ------------------------------------------------------------------ *)
(* the map                                                              *)

Inductive gop := GAdd (n : N) | GMap (g : N) (i : Z) (n : N).
(* one call: a rejected one leaves the box as it was *)
Definition gstep (s : sbgp) (o : gop) : res sbgp :=
  match o with
  | GAdd n => sbgp_addSamples s n
  | GMap g i n => match sbgp_map s g i n with Err _ => Ok s | r => r end
  end.
Fixpoint gsteps (s : sbgp) (os : list gop) : res sbgp :=
  match os with [] => Ok s | o :: r => do s' <- gstep s o; gsteps s' r end.

(* the first sample (from 0) a request means: negative indices count from the end *)
Definition first_of (cnt : N) (i : Z) : Z := (if i <? 0 then Z.of_N cnt + i else i)%Z.
(* a request within the table as it is *)
Definition in_table (cnt : N) (i : Z) (n : N) : Prop :=
  (0 <= first_of cnt i /\ first_of cnt i + Z.of_N n <= Z.of_N cnt)%Z.
(* the last index mapped to sample k (from 0): a history gives for each sample
   its index; samples added later start with 0 *)
Record hist := mkHist { hs_count : N; hs_group : N -> N }.
Definition hstep (h : hist) (o : gop) : hist :=
  match o with
  | GAdd n => mkHist (hs_count h + n) (fun k => if k <? hs_count h then hs_group h k else 0)
  | GMap g i n =>
      let a := first_of (hs_count h) i in
      mkHist (hs_count h)
        (fun k => if ((a <=? Z.of_N k) && (Z.of_N k <? a + Z.of_N n))%Z%bool then g else hs_group h k)
  end.
Definition hist0 : hist := mkHist 0 (fun _ => 0).
(* requests that stay inside the table, and tables below 2^30 samples *)
Fixpoint legal (h : hist) (os : list gop) : Prop :=
  match os with
  | [] => True
  | o :: r =>
      match o with
      | GAdd n => hs_count h + n < 1073741824
      | GMap g i n => g < 4294967296 /\ (-2147483648 < i < 2147483648)%Z /\ in_table (hs_count h) i n
      end /\ legal (hstep h o) r
  end.

(* run-length form *)
Fixpoint rle (l : list N) : list (N * N) :=
  match l with
  | [] => []
  | x :: r => match rle r with
              | (c, v) :: t => if x =? v then (c + 1, v) :: t else (1, x) :: (c, v) :: t
              | [] => [(1, x)]
              end
  end.
Definition unrle (rs : list (N * N)) : list N := flat_map (fun r => repeat (snd r) (N.to_nat (fst r))) rs.
(* ISO/IEC 14496-12 8.9.2 *)
Definition sbgp_layout : layout sbgp := mkLayout (fun _ => code "sbgp")
  (fun s => full (sg_ver s) 0 ++ be32 (sg_type s) ++ (if sg_ver s =? 1 then be32 (sg_param s) else []) ++
     be32 (len (rle (sg_idx s))) ++ flat_map (fun r => be32 (fst r) ++ be32 (snd r)) (rle (sg_idx s)))
  (fun s => mkSbgp Normal (sg_ver s) (sg_type s) (if sg_ver s =? 1 then sg_param s else 0) (sg_idx s) false false 4 false None)
  (fun s => sbgp_kind s = Normal /\ (sg_kind s = Auto -> sg_ver s <> 1) /\ sg_ver s < 256 /\ sg_type s < 4294967296 /\ sg_param s < 4294967296 /\
     sg_idx s <> [] /\ len (sg_idx s) < 1073741824 /\ Forall (fun g => g < 4294967296) (sg_idx s)).

(* compact form: each pattern of p indices repeated over c samples *)
Definition repeated (p : list N) (c : nat) : list N :=
  map (fun j => nth (Nat.modulo j (length p)) p 0) (seq 0 c).
Fixpoint spread (pats : list (N * N)) (d : list N) : list N :=
  match pats with
  | [] => []
  | (p, c) :: r => repeated (firstn (N.to_nat p) d) (N.to_nat c) ++ spread r (skipn (N.to_nat p) d)
  end.
(* the chosen field widths hold every index; in a fragment, indices from 65536
   on are local ones *)
Definition widths_ok (s : sbgp) : Prop :=
  In (sg_isz s) [4; 8; 16; 32] /\
  ((sg_local s = false /\ Forall (fun g => g < 2 ^ sg_isz s) (sg_idx s) /\
    (sg_frag s = true -> Forall (fun g => g < 65536) (sg_idx s))) \/
   (sg_local s = true /\ sg_frag s = true /\ sg_isz s = 32 /\
    Forall (fun g => g < 65536 + 2147483648) (sg_idx s))).

(* ISO/IEC 14496-12 8.9.5: fields of [w] bits, most significant first, the
   last byte filled up with zero bits *)
Fixpoint field (w : nat) (v : N) : list bool :=
  match w with O => [] | S k => N.testbit v (N.of_nat k) :: field k v end.
Definition bit (b : bool) (v : N) : N := if b then v else 0.
Fixpoint bytes_of (l : list bool) : list N :=
  match l with
  | [] => []
  | a :: b :: c :: d :: e :: f :: g :: h :: r =>
      bit a 128 + bit b 64 + bit c 32 + bit d 16 + bit e 8 + bit f 4 + bit g 2 + bit h 1 :: bytes_of r
  | _ => match l ++ repeat false 7 with
         | a :: b :: c :: d :: e :: f :: g :: h :: r =>
             [bit a 128 + bit b 64 + bit c 32 + bit d 16 + bit e 8 + bit f 4 + bit g 2 + bit h 1]
         | _ => []
         end
  end.
(* the code of a width: 4, 8, 16, 32 are written as 0, 1, 2, 3 *)
Definition width_code (w : N) : N := N.log2 w - 2.
Definition csgp_body (ver ty : N) (param : option N) (local : bool) (isz psz csz : N)
    (pats : list (N * N)) (desc : list N) : list N :=
  full ver (bit local 128 + bit (match param with Some _ => true | None => false end) 64 +
            16 * width_code psz + 4 * width_code csz + width_code isz) ++
  be32 ty ++ match param with Some p => be32 p | None => [] end ++ be32 (len pats) ++
  bytes_of (flat_map (fun p => field (N.to_nat psz) (fst p) ++ field (N.to_nat csz) (snd p)) pats ++
            flat_map (fun d => field (N.to_nat isz) d) desc).
(* an index as stored: local ones have the top bit set *)
Definition coded (local : bool) (isz g : N) : N :=
  if local && (65536 <=? g) then g - 65536 + 2 ^ (isz - 1) else g.
Definition csgp_layout : layout sbgp := mkLayout (fun _ => code "csgp")
  (fun s => let c := compact s in
     csgp_body (sg_ver s) (sg_type s) (if sg_pp s then Some (sg_param s) else None) (sg_local s)
       (sg_isz s) (ci_psz c) (ci_csz c) (ci_pats c) (ci_desc c))
  (fun s => mkSbgp Compact (sg_ver s) (sg_type s) (if sg_pp s then sg_param s else 0) (sg_idx s) false (sg_local s) 4 (sg_pp s) None)
  (fun s => sbgp_kind s = Compact /\ sg_done s = None /\ sg_ver s < 256 /\ sg_type s < 4294967296 /\ sg_param s < 4294967296 /\
     (sg_kind s = Auto -> sg_pp s = false) /\
     sg_idx s <> [] /\ len (sg_idx s) <= 33554432 /\ widths_ok s /\ len (ci_pats (compact s)) <= 34).

(* ------------------------------------------------------------------ *)
(* the groups of a track                                                *)

Inductive top := TAdd (n : N) | TDesc (ty : N) (d : list N) | TMap (ty g : N) (i : Z) (n : N) (k : kind).
(* one call, errors do not stop the caller *)
Definition tstep (t : gtab) (o : top) : res gtab :=
  match o with
  | TAdd n => gt_addSamples t n
  | TDesc ty d => match gt_addDesc t ty d with (UB, _) => UB | (_, t') => Ok t' end
  | TMap ty g i n k => match gt_map t ty g i n k with (UB, _) => UB | (_, t') => Ok t' end
  end.
Fixpoint tsteps (t : gtab) (os : list top) : res gtab :=
  match os with [] => Ok t | o :: r => do t' <- tstep t o; tsteps t' r end.
(* what should be there: the number of samples, the descriptions of each type
   in order, whether a range was mapped for a type, the index of each sample *)
Record groups := mkGroups { a_count : N; a_descs : N -> list (list N); a_used : N -> bool; a_map : N -> N -> N }.
Definition groups0 : groups := mkGroups 0 (fun _ => []) (fun _ => false) (fun _ _ => 0).
Definition in_tableb (cnt : N) (i : Z) (n : N) : bool :=
  ((0 <=? first_of cnt i) && (first_of cnt i + Z.of_N n <=? Z.of_N cnt))%Z.
Definition known (d : list N) (l : list (list N)) : bool := existsb (fun x => if list_eq_dec N.eq_dec x d then true else false) l.
Definition astep (a : groups) (o : top) : groups :=
  match o with
  | TAdd n => mkGroups (a_count a + n) (a_descs a) (a_used a) (fun ty k => if k <? a_count a then a_map a ty k else 0)
  | TDesc ty d =>
      if match d with [] => true | _ => known d (a_descs a ty) end then a
      else mkGroups (a_count a) (fun x => if x =? ty then a_descs a x ++ [d] else a_descs a x) (a_used a) (a_map a)
  | TMap ty g i n _ =>
      if match a_descs a ty with [] => true | l => len l <? g end || negb (in_tableb (a_count a) i n) then a
      else let b := first_of (a_count a) i in
           mkGroups (a_count a) (a_descs a) (fun x => (x =? ty) || a_used a x)
             (fun x k => if (x =? ty) && ((b <=? Z.of_N k) && (Z.of_N k <? b + Z.of_N n))%Z then g else a_map a x k)
  end.
(* calls whose arithmetic stays in range, tables below 2^30 samples; ranges
   may lie outside the track *)
Definition sane (a : groups) (o : top) : Prop :=
  match o with
  | TAdd n => a_count a + n < 1073741824
  | TDesc _ _ => True
  | TMap ty g i n _ => (-2147483648 < i < 2147483648)%Z /\
      if (i <? 0)%Z then (- i <= Z.of_N (a_count a) \/ - i < Z.of_N n)%Z else (i + Z.of_N n < 4294967296)%Z
  end.
Fixpoint all_sane (a : groups) (os : list top) : Prop :=
  match os with [] => True | o :: r => sane a o /\ all_sane (astep a o) r end.

(* samples of group [g] in a table, numbered from [i] *)
Fixpoint members (g i : N) (l : list N) : list N :=
  match l with [] => [] | x :: r => (if x =? g then [i] else []) ++ members g (i + 1) r end.
(* those of them that end a run of equal indices *)
Fixpoint run_ends (g i : N) (l : list N) : list N :=
  match l with
  | [] => []
  | x :: r => (if (x =? g) && match r with y :: _ => negb (y =? x) | [] => true end then [i] else []) ++ run_ends g (i + 1) r
  end.

(* IndexSpec.v -- segment index, subsegment index and sub-sample information boxes. *)
From Verif Require Import Base AtomModel BoxModel BoxSpec HeaderSpec IndexModel.

(* ISO/IEC 14496-12, 8.16.3: type 1 bit and size 31 bits, duration, starts
   with SAP 1 bit, SAP type 3 bits, SAP delta time 28 bits *)
Definition sref_bytes (r : sref) : list N :=
  be32 (sr_type r * 2147483648 + sr_size r) ++ be32 (sr_dur r) ++ be32 (sr_sap r * 2147483648 + sr_saptype r * 268435456 + sr_delta r).
Definition sref_ok (r : sref) : Prop :=
  sr_type r < 2 /\ sr_size r < 2147483648 /\ sr_dur r < 4294967296 /\ sr_sap r < 2 /\ sr_saptype r < 8 /\ sr_delta r < 268435456.
(* the size is read with 15 bits *)
Definition short_ref (r : sref) : sref := mkSref (sr_type r) (sr_size r mod 32768) (sr_dur r) (sr_sap r) (sr_saptype r) (sr_delta r).
Definition sidx_head (t : sidx) : list N :=
  full (sx_ver t) (sx_flags t) ++ be32 (sx_id t) ++ be32 (sx_scale t) ++ be32 (sx_time t) ++ be32 (sx_first t) ++ be16 (sx_res t) ++ be16 (len (sx_list t)).
Definition sidx_fields_ok (t : sidx) : Prop :=
  full_ok (sx_ver t) (sx_flags t) /\ sx_id t < 4294967296 /\ sx_scale t < 4294967296 /\ sx_time t < 4294967296 /\ sx_first t < 4294967296 /\
  sx_res t < 65536 /\ sx_count t = len (sx_list t) /\ sx_count t < 65536 /\ Forall sref_ok (sx_list t).
(* what the code gets right: an index without references *)
Definition sidx_layout : layout sidx := mkLayout (fun _ => code "sidx")
  (fun t => sidx_head t ++ flat_map sref_bytes (sx_list t)) (fun t => t) (fun t => sidx_fields_ok t /\ sx_list t = []).

(* 8.16.4: level 8 bits, range size 24 bits *)
Definition srange_bytes (r : srange) : list N := be32 (rg_level r * 16777216 + rg_size r).
Definition ssix_body (t : ssix) : list N :=
  full (sq_ver t) (sq_flags t) ++ be32 (len (sq_list t)) ++ flat_map (fun s => be32 (len s) ++ flat_map srange_bytes s) (sq_list t).
Definition ssix_fields_ok (t : ssix) : Prop :=
  full_ok (sq_ver t) (sq_flags t) /\ len (sq_list t) < 4294967296 /\
  Forall (fun s => len s < 4294967296 /\ Forall (fun r => rg_level r < 256 /\ rg_size r < 16777216) s) (sq_list t).
(* what is written right: level 0, and in the subsegment with number i (from
   0) all ranges equal, and none or more than i of them *)
Definition ssix_plain (t : ssix) : Prop :=
  forall i s, nth_error (sq_list t) i = Some s -> s = [] \/ (i < length s)%nat /\ exists n, n < 16777216 /\ Forall (fun r => r = mkSrange 0 n) s.
Definition ssix_layout : layout ssix := mkLayout (fun _ => code "ssix") ssix_body (fun t => t) (fun t => ssix_fields_ok t /\ ssix_plain t).

(* 8.7.7 *)
Definition subsmp_bytes (ver : N) (x : subsmp) : list N :=
  (if ver =? 1 then be32 (ss_size x) else be16 (ss_size x)) ++ be8 (ss_prio x) ++ be8 (ss_disc x) ++ be32 (ss_param x).
Definition sentry_bytes (ver : N) (e : sentry) : list N := be32 (se_delta e) ++ be16 (len (se_list e)) ++ flat_map (subsmp_bytes ver) (se_list e).
Definition subs_body (t : subs) : list N :=
  full (su_ver t) (su_flags t) ++ be32 (len (su_list t)) ++ flat_map (sentry_bytes (su_ver t)) (su_list t).
Definition subsmp_ok (ver : N) (x : subsmp) : Prop :=
  ss_size x < (if ver =? 1 then 4294967296 else 65536) /\ ss_prio x < 256 /\ ss_disc x < 256 /\ ss_param x < 4294967296.
(* an entry has at least one sub-sample *)
Definition sentry_ok (ver : N) (e : sentry) : Prop :=
  se_delta e < 4294967296 /\ 0 < len (se_list e) < 65536 /\ Forall (subsmp_ok ver) (se_list e).
Definition subs_ok (t : subs) : Prop :=
  full_ok (su_ver t) (su_flags t) /\ len (su_list t) < 4294967296 /\ Forall (sentry_ok (su_ver t)) (su_list t).
Definition subs_layout : layout subs := mkLayout (fun _ => code "subs") subs_body (fun t => t) subs_ok.

(* a call with arrays as long as announced *)
Definition subarg_ok (a : subarg) : Prop :=
  sa_count a <= len (sa_sizes a) /\ sa_count a <= len (sa_prios a) /\ sa_count a <= len (sa_discs a) /\
  match sa_params a with Some c => sa_count a <= len c | None => True end.
Definition subop_ok (o : subop) : Prop := match o with SAdd a => subarg_ok a | SFlags _ => True end.
Definition first_n (n : N) (l : list N) : list N := firstn (N.to_nat n) l.
(* what the calls handed over, in order *)
Definition given (os : list subop) : list (N * N * (list N * list N * list N)) :=
  flat_map (fun o => match o with
    | SAdd a => [(sa_delta a, sa_count a, (first_n (sa_count a) (sa_sizes a), first_n (sa_count a) (sa_prios a), first_n (sa_count a) (sa_discs a)))]
    | SFlags _ => [] end) os.
Definition given_params (os : list subop) : list (list N) :=
  flat_map (fun o => match o with
    | SAdd a => [match sa_params a with Some c => first_n (sa_count a) c | None => repeat 0 (N.to_nat (sa_count a)) end]
    | SFlags _ => [] end) os.
Definition last_flags (os : list subop) : N :=
  fold_left (fun f o => match o with SFlags g => g | SAdd _ => f end) os 0.

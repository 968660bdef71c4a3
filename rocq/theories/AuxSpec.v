(* AuxSpec.v -- what sample auxiliary information should do. *)
From Verif Require Import Base Codec AtomModel BoxModel BoxSpec MdatModel AuxModel.

(* ISO/IEC 14496-12 8.7.8 and 8.7.9 *)
Definition named (f ty par : N) : list N := if N.testbit f 0 then be32 ty ++ be32 par else [].
Definition named_ok (f ty par : N) : Prop :=
  ty < 4294967296 /\ par < 4294967296 /\ (N.testbit f 0 = false -> ty = 0 /\ par = 0).
(* [room]: arrays have three spare bytes, see AuxModel.v. Without them a box
   with individual sizes cannot be read *)
Definition saiz_layout_in (room : bool) : layout saiz := mkLayout (fun _ => code "saiz")
  (fun s => full (z_ver s) (z_flags s) ++ named (z_flags s) (z_type s) (z_param s) ++
     be8 (z_def s) ++ be32 (z_count s) ++ (if z_def s =? 0 then flat_map be8 (z_sizes s) else []))
  (fun s => s)
  (fun s => full_ok (z_ver s) (z_flags s) /\ named_ok (z_flags s) (z_type s) (z_param s) /\ z_def s < 256 /\
     z_count s < 4294967296 /\
     (if z_def s =? 0 then z_count s = len (z_sizes s) /\ Forall (fun x => x < 256) (z_sizes s) else z_sizes s = []) /\
     (room = false -> z_def s = 0 -> z_count s = 0)).
Definition saiz_layout : layout saiz := saiz_layout_in false.
Definition saio_layout : layout saio := mkLayout (fun _ => code "saio")
  (fun s => full (o_ver s) (o_flags s) ++ named (o_flags s) (o_type s) (o_param s) ++
     be32 (len (o_offs s)) ++ flat_map (fun o => if o_ver s =? 0 then be32 o else be64 o) (o_offs s))
  (fun s => mkSaio (o_ver s) (o_flags s) (o_type s) (o_param s) (o_offs s) 0 0)
  (fun s => full_ok (o_ver s) (o_flags s) /\ named_ok (o_flags s) (o_type s) (o_param s) /\ len (o_offs s) < 4294967296 /\
     (o_ver s = 0 -> o_extra s = 0) /\
     Forall (fun o => o < (if o_ver s =? 0 then 4294967296 else 18446744073709551616)) (o_offs s)).

(* the size of each sample's information *)
Definition sizes_of (s : saiz) : list N := if z_def s =? 0 then z_sizes s else repeat (z_def s) (N.to_nat (z_count s)).

(* histories *)
Inductive xop :=
| XSetup (k : key) (d : N)                              (* d: common size, 0 if none *)
| XAdd (k : key) (infos : list (list N)) (sizes : list N)
| XData (bytes : list N).                               (* samples put into the media data *)
Definition xstep (t : auxs) (o : xop) : res auxs :=
  match o with
  | XSetup k d => aux_setup t k d
  | XAdd k infos sizes => match aux_add t k (concat infos) (len infos) sizes with
                          | (Ok _, t') => Ok t' | (Err e, _) => Err e | (UB, _) => UB end
  | XData b => do m <- mdat_add (x_mdat t) b; Ok (mkAuxs (x_saiz t) (x_saio t) m)
  end.
Fixpoint xsteps (t : auxs) (os : list xop) : res auxs :=
  match os with [] => Ok t | o :: r => do t' <- xstep t o; xsteps t' r end.
Definition aux0 : auxs := mkAuxs [] [] mdat_new.
(* what should be there: the common size and the information of each sample *)
Definition infos := key -> option (N * list (list N)).
Definition keyb (a b : key) : bool :=
  (fst (fst a) =? fst (fst b)) && (snd (fst a) =? snd (fst b)) && (snd a =? snd b).
Record xhist := mkXhist { xh_infos : infos; xh_data : N; xh_count : N }.
Definition xhist0 : xhist := mkXhist (fun _ => None) 0 0.
Definition set_key (f : infos) (k : key) (v : N * list (list N)) : infos := fun q => if keyb q k then Some v else f q.
Definition xgrow (h : xhist) (o : xop) : xhist :=
  match o with
  | XSetup k d => mkXhist (set_key (xh_infos h) k (d, [])) (xh_data h) (xh_count h)
  | XAdd k l _ => match xh_infos h k with
                  | Some (d, l0) => mkXhist (set_key (xh_infos h) k (d, l0 ++ l)) (xh_data h + len (concat l)) (xh_count h + len l)
                  | None => h
                  end
  | XData b => mkXhist (xh_infos h) (xh_data h + len b) (xh_count h)
  end.
(* kinds are set up once, with a type only if the flag says so; the sizes
   given are those of the data, below 256 and equal to the common size if
   there is one *)
Definition xlegal (h : xhist) (o : xop) : Prop :=
  match o with
  | XSetup k d => xh_infos h k = None /\ d < 256 /\
      (fst (fst k) = 1 \/ (fst (fst k) = 0 /\ snd (fst k) = 0 /\ snd k = 0))
  | XAdd k l sizes => exists d l0, xh_infos h k = Some (d, l0) /\ l <> [] /\
      (sizes = map (@len N) l \/ exists x, sizes = [x] /\ Forall (fun b => len b = x) l) /\
      Forall (fun b => len b < 256 /\ (d <> 0 -> len b = d)) l /\ xh_count h + len l < 536870912
  | XData b => True
  end /\ xh_data (xgrow h o) < 4294967296.
Fixpoint xall (h : xhist) (os : list xop) : Prop :=
  match os with [] => True | o :: r => xlegal h o /\ xall (xgrow h o) r end.

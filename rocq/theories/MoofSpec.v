(* MoofSpec.v -- the boxes of a movie fragment, and what a movie written in fragments holds. *)
From Verif Require Import Base AtomModel BoxModel HeaderModel HeaderSpec AuxModel AuxSpec GroupModel GroupSpec BoxSpec
  FragModel FragSpec MediaSpec MoofModel.

(* ISO/IEC 14496-12, 8.8.6: boxes in this order *)
Definition boxes_of {A} (ty : N) (y : layout A) (l : list A) : list N := flat_map (fun x => box ty (l_body y x)) l.
Definition traf_layout : layout traf := mkLayout (fun _ => code "traf")
  (fun t => boxes_of (code "tfhd") tfhd_layout (olist (f_hdr t)) ++ boxes_of (code "tfdt") tfdt_layout (olist (f_time t)) ++
     boxes_of (code "saiz") saiz_layout (f_saiz t) ++ boxes_of (code "saio") saio_layout (f_saio t) ++
     boxes_of (code "trun") trun_layout (f_runs t) ++ boxes_of (code "sgpd") sgpd_layout (f_sgpd t) ++
     boxes_of (code "sbgp") sbgp_layout (f_sbgp t))
  (fun t => mkTraf (option_map (l_view tfhd_layout) (f_hdr t)) (option_map (l_view tfdt_layout) (f_time t))
     (map (l_view saiz_layout) (f_saiz t)) (map (l_view saio_layout) (f_saio t)) (map (l_view trun_layout) (f_runs t))
     (map (l_view sgpd_layout) (f_sgpd t)) (map (l_view sbgp_layout) (f_sbgp t)))
  (fun t => Forall (l_ok tfhd_layout) (olist (f_hdr t)) /\ Forall (l_ok tfdt_layout) (olist (f_time t)) /\
     Forall (l_ok saiz_layout) (f_saiz t) /\ Forall (l_ok saio_layout) (f_saio t) /\
     Forall (l_ok trun_layout) (f_runs t) /\ Forall (l_ok sgpd_layout) (f_sgpd t) /\ Forall (l_ok sbgp_layout) (f_sbgp t)).

(* 8.8.4: the header, then the track fragments; those without runs are left out *)
Definition trafs_of (m : moof) : list traf :=
  flat_map (fun a => match a with ALeaf _ (inr t) => match f_runs t with [] => [] | _ => [t] end | _ => [] end) (mo_list m).
Definition moof_layout : layout moof := mkLayout (fun _ => code "moof")
  (fun m => boxes_of (code "mfhd") mfhd_layout (olist (mo_hdr m)) ++ boxes_of (code "traf") traf_layout (trafs_of m))
  (fun m => mkMoof (option_map (l_view mfhd_layout) (mo_hdr m))
     (map (fun t => ALeaf _ (inr (l_view traf_layout t))) (trafs_of m)))
  (fun m => Forall (l_ok mfhd_layout) (olist (mo_hdr m)) /\
     Forall (fun a => exists t, a = ALeaf _ (inr t) /\ l_ok traf_layout t) (mo_list m)).

(* ------------------------------------------------------------------ *)
(* A movie written in fragments. Each fragment is a list of additions: to which track, the samples, and
   the arguments of the call that adds them. *)
Definition fop := (nat * list smp * mbat)%type.
Definition calls (os : list fop) : list (nat * mbat) := map (fun o => (fst (fst o), snd o)) os.
Definition tgrow (t : track) (ss : list smp) : track :=
  mkTrack (t_smps t ++ ss) (t_offs t || existsb (fun s => negb (m_off s =? 0)%Z) ss) (t_pads t) (t_desc t).
Definition fgrow (ts : list track) (o : fop) : list track :=
  match nth_error ts (fst (fst o)) with Some t => upd ts (fst (fst o)) (tgrow t (snd (fst o))) | None => ts end.
(* An addition the reader gives back unchanged. A run of sync samples only, after other samples, is not
   one (C23_sync_after_other_refuted), nor is a first composition offset after samples without
   (C23_late_offset_refuted). Padding cannot be given (C23_padding_refuted), nor one composition offset
   for all (C23_one_offset_refuted), nor a sample description. *)
Definition fits (t : track) (ss : list smp) : Prop :=
  (Forall (fun s => m_sync s = true) ss -> Forall (fun s => m_sync s = true) (t_smps t)) /\
  (Exists (fun s => m_off s <> 0%Z) ss -> t_offs t = true \/ t_smps t = []).
Definition fop_ok (ts : list track) (o : fop) : Prop :=
  let '(i, ss, b) := o in
  exists t, nth_error ts i = Some t /\ describes b ss /\ b_entry b = None /\ b_pads b = None /\
    (forall l, b_offs b = Some l -> len l = len ss) /\ fits t ss /\ bytes (flat_map m_bytes ss) /\ len ss < 268435455 /\
    duration (t_smps t ++ ss) < 4294967296 /\ len (t_smps t ++ ss) < 536870911 /\
    len (flat_map m_bytes (t_smps t ++ ss)) < 4294967296.
Fixpoint fops_ok (ts : list track) (os : list fop) : Prop :=
  match os with [] => True | o :: r => fop_ok ts o /\ fops_ok (fgrow ts o) r end.
Definition fdata (os : list fop) : list N := flat_map (fun o => flat_map m_bytes (snd (fst o))) os.
(* not all samples of a fragment are empty *)
Fixpoint frags_ok (ts : list track) (fs : list (list fop)) : Prop :=
  match fs with
  | [] => True
  | os :: r => fops_ok ts os /\ (os <> [] -> fdata os <> []) /\ frags_ok (fold_left fgrow os ts) r
  end.
Definition frags_end (ts : list track) (fs : list (list fop)) : list track := fold_left (fun t os => fold_left fgrow os t) fs ts.
(* an upper bound of the bytes a fragment takes in the file *)
Definition frag_cost (tracks : N) (os : list fop) : N :=
  32 + 64 * tracks + fold_right (fun o a => 24 + 16 * len (snd (fst o)) + a) 0 os + len (fdata os).
Definition frags_cost (tracks : N) (fs : list (list fop)) : N := fold_right (fun os a => frag_cost tracks os + a) 0 fs.
(* a track of a fragmented movie: id, defaults, and the data references its sample descriptions name *)
Definition ftrack := (N * tdef * list N)%type.
Definition ftrack_ok (drefs : N) (a : ftrack) : Prop :=
  let '(id, d, descs) := a in
  id < 4294967296 /\ 1 <= df_desc d <= len descs /\ df_desc d < 4294967296 /\ Forall (fun x => 1 <= x <= drefs) descs.

(* EntrySpec.v -- sample entries as the standard lays them out. *)
From Verif Require Import Base Codec AtomModel AtomSpec BoxModel BoxSpec Reads KidsModel KidsProofs TextModel TextSpec EntryModel.

(* which entries have a layout of their own *)
Definition is_mpeg (ty : N) : bool := existsb (N.eqb ty) [code "mp4s"].
Definition is_visual (ty : N) : bool := existsb (N.eqb ty) [code "mp4v"; code "s263"; code "avc1"; code "hvc1"; code "vvi1"; code "vvc1"; code "vvs1"].
Definition is_audio (ty : N) : bool := existsb (N.eqb ty) [code "mp4a"; code "samr"; code "sawb"; code "sawp"].

Definition vfix_bytes (f : vfix) : list N :=
  v_res f ++ be16 (v_dri f) ++ v_res2 f ++ be16 (v_w f) ++ be16 (v_h f) ++ be32 (v_r4 f) ++ be32 (v_r5 f) ++ be32 (v_r6 f) ++
  be16 (v_r7 f) ++ be8 (v_nlen f) ++ v_name f ++ be16 (v_r8 f) ++ be16 (v_r9 f).
Definition vfix_ok (f : vfix) : Prop :=
  len (v_res f) = 6 /\ v_dri f < 65536 /\ len (v_res2 f) = 16 /\ v_w f < 65536 /\ v_h f < 65536 /\
  v_r4 f < 4294967296 /\ v_r5 f < 4294967296 /\ v_r6 f < 4294967296 /\ v_r7 f < 65536 /\ v_nlen f < 256 /\
  len (v_name f) = 31 /\ v_r8 f < 65536 /\ v_r9 f < 65536.
Definition afix_bytes (f : afix) : list N :=
  a_res f ++ be16 (a_dri f) ++ a_res2 f ++ be16 (a_r3 f) ++ be16 (a_r4 f) ++ be32 (a_r5 f) ++ be16 (a_ts f) ++ be16 (a_r6 f).
Definition afix_ok (f : afix) : Prop :=
  len (a_res f) = 6 /\ a_dri f < 65536 /\ len (a_res2 f) = 8 /\ a_r3 f < 65536 /\ a_r4 f < 65536 /\
  a_r5 f < 4294967296 /\ a_ts f < 65536 /\ a_r6 f < 65536.

Section Spec.
Context {T O : Type} (c : codec T) (y : layout T) (o : codec O) (yo : layout O).
Notation ent := (ent T O).

(* every other type is read as reserved bytes, the data reference index and
   bytes that are kept as they are *)
Definition is_generic (ty : N) : Prop :=
  is_mpeg ty = false /\ is_visual ty = false /\ is_audio ty = false /\ c_known o ty = false.
Definition kids_bytes (l : list (atom T)) : list N := flat_map (kid_enc c y) l.
Definition entry_body (e : ent) : list N :=
  match e with
  | EGen _ r d b l => r ++ be16 d ++ b ++ kids_bytes l
  | EMpeg _ r d l => r ++ be16 d ++ kids_bytes l
  | EVis _ f l => vfix_bytes f ++ kids_bytes l
  | EAud _ f l => afix_bytes f ++ kids_bytes l
  | EOther x => l_body yo x
  end.
Definition entry_type (e : ent) : N :=
  match e with EGen ty _ _ _ _ => ty | EMpeg ty _ _ _ => ty | EVis ty _ _ => ty | EAud ty _ _ => ty | EOther x => l_ty yo x end.
Definition entry_bytes (e : ent) : list N := box (entry_type e) (entry_body e).
Definition entry_ok (e : ent) : Prop :=
  entry_type e < 4294967296 /\ entry_type e <> code "uuid" /\
  match e with
  | EGen ty r d b l => is_generic ty /\ len r = 6 /\ d < 65536 /\ Forall (kid_ok c y) l
  | EMpeg ty r d l => (is_mpeg ty = true \/ is_generic ty) /\ len r = 6 /\ d < 65536 /\ Forall (kid_ok c y) l
  | EVis ty f l => (is_visual ty = true \/ is_generic ty) /\ vfix_ok f /\ Forall (kid_ok c y) l
  | EAud ty f l => (is_audio ty = true \/ is_generic ty) /\ afix_ok f /\ Forall (kid_ok c y) l
  | EOther x => l_ok yo x /\ is_mpeg (l_ty yo x) = false /\ is_visual (l_ty yo x) = false /\ is_audio (l_ty yo x) = false
  end.
(* what a reader gets: the same entry without free space boxes, or -- for a
   type without layout of its own -- its bytes *)
Definition raw (ty : N) (body : list N) (dri : N) : ent := EGen ty (firstn 6 body) dri (skipn 8 body) [].
Definition entry_view (e : ent) : ent :=
  match e with
  | EGen ty r d b l => raw ty (entry_body e) d
  | EMpeg ty r d l => if is_mpeg ty then EMpeg ty r d (kid_view y l) else raw ty (entry_body e) d
  | EVis ty f l => if is_visual ty then EVis ty f (kid_view y l) else raw ty (entry_body e) (v_dri f)
  | EAud ty f l => if is_audio ty then EAud ty f (kid_view y l) else raw ty (entry_body e) (a_dri f)
  | EOther x => EOther (l_view yo x)
  end.
(* an entry which, read, is written as the same bytes again *)
Definition lasting (e : ent) : Prop :=
  entry_ok e /\ entry_ok (entry_view e) /\ entry_bytes (entry_view e) = entry_bytes e.

Definition stsd_layout : layout (stsd (T:=T) (O:=O)) := mkLayout (fun _ => code "stsd")
  (fun a => full (sd_ver a) (sd_flags a) ++ be32 (len (sd_ents a)) ++ flat_map entry_bytes (sd_ents a))
  (fun a => mkStsd (sd_ver a) (sd_flags a) (map entry_view (sd_ents a)))
  (fun a => full_ok (sd_ver a) (sd_flags a) /\ Forall entry_ok (sd_ents a)).

Definition dref_layout : layout (dref T) := mkLayout (fun _ => code "dref")
  (fun a => full (dr_ver a) (dr_flags a) ++ be32 (len (dr_kids a)) ++ kids_bytes (dr_kids a))
  (fun a => mkDref (dr_ver a) (dr_flags a) (map (strip T (l_view y)) (dr_kids a)))
  (fun a => full_ok (dr_ver a) (dr_flags a) /\ Forall (kid_ok c y) (dr_kids a)).
End Spec.

(* boxes that are read as they were written *)
Definition settled {T} (c : codec T) (y : layout T) (k : atom T) : Prop :=
  kid_ok c y k /\ free_box T k = false /\ strip T (l_view y) k = k.

(* descriptions attached to a track, one after the other *)
Definition attach {T O} (c : codec T) (dflt : T) (o : codec O) (hs : list (list N)) : res (stsd (T:=T) (O:=O)) :=
  fold_left (fun r h => do a <- r; describe c dflt o a h) hs (Ok (mkStsd 0 0 [])).
(* the data reference index of a description: its bytes 14 and 15 *)
Definition dri_at (h : list N) : N := nth 14 h 0 * 256 + nth 15 h 0.
Definition type_at (h : list N) : N := nth 4 h 0 * 16777216 + nth 5 h 0 * 65536 + nth 6 h 0 * 256 + nth 7 h 0.
(* the k-th of them, counted from one *)
Definition kth (hs : list (list N)) (k : N) : res (list N * N) :=
  if k =? 0 then Err MP4BadParamErr
  else match nthN hs (k - 1) with Some h => Ok (h, dri_at h) | None => Err MP4BadParamErr end.

(* no further kinds of entries *)
Definition nowhere {A} (x : Empty_set) : A := match x with end.
Definition no_codec : codec Empty_set := mkCodec (fun _ => false) nowhere nowhere nowhere (fun _ => rerr MP4BadDataErr).
Definition no_layout : layout Empty_set := mkLayout nowhere nowhere nowhere (fun _ => True).

(* references, one after the other; what the k-th is *)
Definition refer (ds : list dspec) : dref (durl + durn) := fold_left (fun a d => fst (dref_add a d)) ds (mkDref 0 0 []).
Definition location (d : dspec) : N * N * option (list N) :=
  match d with Here => (code "url ", 1, Some []) | Url u => (code "url ", 0, Some u) | Urn u n => (code "urn ", 0, Some u) end.
Definition kth_ref (ds : list dspec) (k : N) : res (N * N * option (list N)) :=
  if k =? 0 then Err MP4BadParamErr
  else match nthN ds (k - 1) with Some d => Ok (location d) | None => Err MP4BadParamErr end.
Definition plain_ref (d : dspec) : Prop := match d with Here => True | Url u => exists s, text s /\ u = cstr s | Urn _ _ => False end.

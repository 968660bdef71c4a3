(* EsdSpec.v -- MPEG-4 sample descriptions: what they are. *)
From Verif Require Import Base Codec AtomModel AtomSpec BoxModel BoxSpec Reads KidsModel KidsProofs TextModel TextSpec HeaderModel HeaderSpec DescModel DescSpec OdSpec EntryModel EntrySpec EsdModel.

Definition mlayout {X} (y : layout X) : layout (mext (X := X)) := lsum esds_layout (lsum btrt_layout y).
(* other boxes are other boxes *)
Definition others {X} (x : codec X) (y : layout X) : Prop := forall t, l_ok y t -> ~ In (c_ty x t) [code "esds"; code "btrt"; code "bitr"].

(* an entry with boxes of its own: MPEG, visual or audio *)
Definition boxes_in {T O} (e : ent T O) : list (atom T) :=
  match e with EGen _ _ _ _ l => l | EMpeg _ _ _ l => l | EVis _ _ l => l | EAud _ _ l => l | EOther _ => [] end.
Definition own {T O} (e : ent T O) : Prop :=
  match e with EMpeg ty _ _ _ => is_mpeg ty = true | EVis ty _ _ => is_visual ty = true | EAud ty _ _ => is_audio ty = true | _ => False end.
Definition reboxed {T O} (e : ent T O) (l : list (atom T)) : ent T O :=
  match e with
  | EGen ty r d b _ => EGen ty r d b l
  | EMpeg ty r d _ => EMpeg ty r d l
  | EVis ty f _ => EVis ty f l
  | EAud ty f _ => EAud ty f l
  | EOther z => EOther z
  end.
Definition esds_box {X} (v f : N) (d : desc) : atom (mext (X := X)) := ALeaf _ (inl (mkDbox v f (Some d))).
Definition no_esds {X} (x : codec X) (l : list (atom (mext (X := X)))) : Prop :=
  Forall (fun a => atype _ (c_ty (mcodec x)) a <> code "esds") l.

(* what a description is made from *)
Record dparams := mkDp { dp_kind : track_kind; dp_dri : N; dp_oti : N; dp_st : N; dp_buf : N; dp_max : N; dp_avg : N; dp_info : option (list N) }.
Definition dp_ok (p : dparams) : Prop :=
  dp_dri p < 65536 /\ dp_oti p < 256 /\ dp_st p < 64 /\ dp_buf p < 16777216 /\ dp_max p < 4294967296 /\ dp_avg p < 4294967296 /\
  match dp_info p with Some i => len i < 200000000 | None => True end.
(* the specific info is given as a descriptor, and given back as its contents *)
Definition info_desc (i : list N) : desc := Desc (HOther 5 i) [].
Definition dp_config (p : dparams) : desc :=
  Desc (HDec (dp_oti p) (dp_st p) 0 (dp_buf p) (dp_max p) (dp_avg p)) (match dp_info p with Some i => [(0, info_desc i)] | None => [] end).
Definition dp_type (p : dparams) : N :=
  match dp_kind p with VisualTrack => code "mp4v" | AudioTrack _ => code "mp4a" | OtherTrack => code "mp4s" end.
Definition dp_answer (p : dparams) : list N * option (list N) :=
  ([dp_oti p; dp_st p; dp_buf p; 0; dp_max p; dp_avg p], dp_info p).
(* the k-th, counted from 1 *)
Definition kth_of {A} (l : list A) (k : N) : res A :=
  if k =? 0 then Err MP4BadParamErr else match nthN l (k - 1) with Some a => Ok a | None => Err MP4BadParamErr end.
(* the elementary stream descriptor of a new description *)
Definition dp_esd (p : dparams) : desc :=
  Desc (HES 0 0 0 0 []) [(0, dp_config p); (1, Desc (HSL (mkSlc 2 0 0 0 0 0 1 0 0 0 0 0 0 0 0 0 0 0 0 0 0)) [])].
Definition dp_entry {X O} (p : dparams) : ent (mext (X := X)) O :=
  new_entry (dp_kind p) (dp_dri p) (dp_type p) [esds_box 0 0 (dp_esd p)].

(* an entry whose first esds box has this elementary stream descriptor, and
   whose boxes are as a reader leaves them *)
Definition holds {X O} (x : codec X) (y : layout X) (o : codec O) (yo : layout O) (e : ent (mext (X := X)) O) (pre : list (atom (mext (X := X)))) (v f : N) (d : desc) (post : list (atom (mext (X := X)))) : Prop :=
  own e /\ entry_ok (mcodec x) (mlayout y) o yo e /\ boxes_in e = pre ++ esds_box v f d :: post /\ no_esds x pre /\
  still d /\ Forall (settled (mcodec x) (mlayout y)) (pre ++ post).
(* the same entry with another descriptor in its esds box *)
Definition with_esd {X O} (e : ent (mext (X := X)) O) (pre : list (atom (mext (X := X)))) (v f : N) (d : desc) (post : list (atom (mext (X := X)))) : ent (mext (X := X)) O :=
  reboxed e (pre ++ esds_box v f d :: post).
(* the same entry with another type *)
Definition retyped {T O} (e : ent T O) (ty : N) : ent T O :=
  match e with
  | EGen _ r d b l => EGen ty r d b l
  | EMpeg _ r d l => EMpeg ty r d l
  | EVis _ f l => EVis ty f l
  | EAud _ f l => EAud ty f l
  | EOther z => EOther z
  end.
(* the types mp4v, mp4a, mp4s and every other beginning with mp4 *)
Definition is_mp4 (ty : N) : Prop := exists z, z < 256 /\ ty = 1836069888 + z.
(* a second descriptor of these kinds is refused: decoder configuration,
   synchronization configuration, identification pointer, quality of service *)
Definition only_one : list N := [4; 6; 9; 12].

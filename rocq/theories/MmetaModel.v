(* MmetaModel.v -- the meta boxes of files, movies and tracks: making and
   finding them, and relations between them. *)
From Verif Require Import Base AtomModel BoxModel HeaderModel KidsModel TextModel SmallModel MboxModel.

(* a meta box; of the boxes the code gives their own structure a new one has
   only a handler *)
Definition mmeta := mbox (X:=hdlr).
Definition hdlr0 : hdlr := mkHdlr 0 0 0 0 0 0 0 false [].
Definition mmeta_codec : codec mmeta := mbox_codec hdlr_codec hdlr0.
(* what a meco has; meco_codec: SmallModel.v *)
Definition ckid := (mmeta + mere)%type.
Definition ckid_codec : codec ckid := csum mmeta_codec mere_codec.
Definition ckid_dflt : ckid := inr (mkMere 0 0 0 0 0).
Definition cmeco_codec : codec (meco ckid) := meco_codec ckid_codec ckid_dflt.
(* a file, a movie or a track: its meta and meco. Only file level code keeps
   the meco in the meta box that is put into it (relatedMeco): [ow_linked]
   tells whether the box in the meco has it. *)
Inductive level := AtFile | AtMovie | AtTrack.
Record owner := mkOwner { ow_level : level; ow_meta : option mmeta; ow_meco : option (meco ckid); ow_linked : bool }.

(* MP4TypeToString, MP4Atoms.c:696-708, isprint in the C locale *)
Definition printable (b : N) : N := if (32 <=? b) && (b <=? 126) then b else 46.
Definition type_name (ty : N) : list N := map printable [ty / 16777216 mod 256; ty / 65536 mod 256; ty / 256 mod 256; ty mod 256].
(* newMeta, ISOMeta.c:32-60 *)
Definition new_meta (ty : N) : mmeta :=
  mkMbox 0 0 [ALeaf _ (KOther (hdlr_set_name (mkHdlr 0 0 0 ty 0 0 0 false []) (type_name ty ++ [0]) false))].

(* a meta box of an owner: the one it has, or one in its meco *)
Inductive which := Primary | Extra (i : nat).
(* ISONewFileMeta 63-99, ISONewMovieMeta 102-144, ISONewTrackMeta 147-192: the
   type of the box itself is compared, and the container is kept by addMeta,
   AdditionalMetaDataContainerAtom.c:128-153. In the last two the container is
   not set in the box (123, 171: a null pointer). The container of a refused
   box stays. *)
Definition new_at (o : owner) (ty : N) : owner * res which :=
  match ow_meta o with
  | None => (mkOwner (ow_level o) (Some (new_meta ty)) (ow_meco o) (ow_linked o), Ok Primary)
  | Some _ =>
      if T_meta =? ty then (o, Err MP4BadParamErr)
      else
        let c := match ow_meco o with Some c => c | None => mkMeco [] [] end in
        match meco_add ckid_codec c (ALeaf ckid (inl (new_meta ty))) with
        | Ok c' => (mkOwner (ow_level o) (ow_meta o) (Some c') (match ow_level o with AtFile => true | _ => false end),
                    Ok (Extra (length (mc_metas c))))
        | Err e => (mkOwner (ow_level o) (ow_meta o) (Some c) (ow_linked o), Err e)
        | UB => (o, UB)
        end
  end.
Fixpoint new_all (o : owner) (tys : list N) : owner * list (res which) :=
  match tys with
  | [] => (o, [])
  | ty :: r => let (o1, x) := new_at o ty in let (o2, l) := new_all o1 r in (o2, x :: l)
  end.

(* the handler of a meta box *)
Definition as_hdlr (k : atom (kid (X:=hdlr))) : option hdlr := match k with ALeaf _ (KOther h) => Some h | _ => None end.
Definition handler (m : mmeta) : option hdlr := member as_hdlr (mb_kids m).
(* getMeta, AdditionalMetaDataContainerAtom.c:155-182: without handler, or
   when there is none of the type, a null pointer is followed, here or by the
   callers *)
Fixpoint meco_get (l : list (atom ckid)) (i : nat) (ty : N) : res (which * N) :=
  match l with
  | ALeaf _ (inl m) :: r =>
      match handler m with
      | None => UB
      | Some h => if hd_type h =? ty then Ok (Extra i, hd_type h) else meco_get r (S i) ty
      end
  | _ => UB
  end.
(* ISOGetFileMeta 1278-1318, ISOGetMovieMeta 1320-1359, ISOGetTrackMeta
   1361-1404: the box and its type *)
Definition get_at (o : owner) (ty : N) : res (which * N) :=
  match ow_meta o with
  | None => Err MP4BadParamErr
  | Some m =>
      match handler m with
      | None => Err MP4BadDataErr
      | Some h =>
          if negb (ty =? 0) && negb (hd_type h =? ty) then
            match ow_meco o with None => Err MP4BadParamErr | Some c => meco_get (mc_metas c) 0 ty end
          else Ok (Primary, hd_type h)
      end
  end.

(* the box of a handle; a handle of the owner *)
Definition meta_at (o : owner) (w : which) : res mmeta :=
  match w with
  | Primary => match ow_meta o with Some m => Ok m | None => UB end
  | Extra i => match ow_meco o with
               | Some c => match nth_error (mc_metas c) i with Some (ALeaf _ (inl m)) => Ok m | _ => UB end
               | None => UB end
  end.
Definition linked (o : owner) (w : which) : bool := match w with Primary => false | Extra _ => ow_linked o end.
(* ISOAddMetaBoxRelation, ISOMeta.c:196-232, for two boxes of one owner;
   [rel] is a u8 *)
Definition add_relation (o : owner) (a b : which) (rel : N) : res owner :=
  do ma <- meta_at o a; do mb <- meta_at o b;
  if linked o a || linked o b then
    match handler ma, handler mb, ow_meco o with
    | Some ha, Some hb, Some c =>
        Ok (mkOwner (ow_level o) (ow_meta o)
             (Some (mkMeco (mc_metas c) (mc_rels c ++ [ALeaf ckid (inr (mkMere 0 0 (hd_type ha) (hd_type hb) rel))]))) (ow_linked o))
    | _, _, _ => UB
    end
  else Err MP4BadParamErr.
Fixpoint add_relations (o : owner) (l : list (which * which * N)) : res owner :=
  match l with [] => Ok o | (a, b, rel) :: r => do o' <- add_relation o a b rel; add_relations o' r end.
(* ISOGetMetaBoxRelation, ISOMeta.c:236-272: the handler types are compared
   with the types of the boxes; the last that matches *)
Definition get_relation (o : owner) (a b : which) : res N :=
  do _ <- meta_at o a; do _ <- meta_at o b;
  if linked o a || linked o b then
    match ow_meco o with
    | None => UB
    | Some c =>
        Ok (fold_left (fun r k => match k with
                                  | ALeaf _ (inr x) => if (me_first x =? T_meta) && (me_second x =? T_meta) then me_relation x else r
                                  | _ => r end) (mc_rels c) 0)
    end
  else Err MP4BadParamErr.
(* what an owner is when its boxes were read, MP4Movies.c:184-196,
   MovieAtom.c:344-353, TrackAtom.c:413-422: no box has its container,
   MetaAtom.c:388 *)
Definition owner_read (l : level) (m : option mmeta) (c : option (meco ckid)) : owner := mkOwner l m c false.

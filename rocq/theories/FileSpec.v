(* FileSpec.v -- what a movie file consists of. *)
From Verif Require Import Base Codec AtomModel AtomSpec BoxModel BoxSpec KidsProofs SttsModel SttsProps CttsModel CttsProps SyncModel SyncProps
  SizeModel SizeProps MarkModel MarkProps ChunkSpec ChunkModel ChunkProps MdatModel SaveSpec SaveProps TextModel TextSpec EntryModel EntrySpec EntryProps
  FileModel.

Section Spec.
Context {T E X : Type} (ct : codec T) (yt : layout T) (dt : T) (ce : codec E) (ye : layout E) (edri : E -> N)
  (cx : codec X) (yx : layout X).
Notation fleaf := (fleaf (T:=T) (E:=E) (X:=X)).
Notation tree := (atom fleaf).

(* the layout of each kind of box *)
Definition flayout : layout fleaf :=
  lsum mdat_layout (lsum stts_layout (lsum ctts_layout (lsum stss_layout (lsum stsz_layout (lsum stsc_layout (lsum stco_layout
    (lsum padb_layout (lsum (stsd_layout ct yt ce ye) (lsum (dref_layout entry_codec (lsum url_layout no_urn)) yx))))))))).
Definition tree_ok : tree -> Prop := kid_ok (fcodec ct dt ce cx) flayout.
Definition tree_bytes : tree -> list N := kid_enc (fcodec ct dt ce cx) flayout.
Definition tree_view : tree -> tree := strip fleaf (l_view flayout).
Definition tree_type : tree -> N := atype fleaf (c_ty (fcodec ct dt ce cx)).

(* the boxes of a track that say where its samples are *)
Definition trak_has (l : list tree) (sc : stsc) (cs : stco) (sd : stsd (T:=T) (O:=E)) (dr : dref (durl + durn)) : Prop :=
  exists mdia minf dinf stbl,
    In (ABoxes _ (code "mdia") mdia) l /\ In (ABoxes _ (code "minf") minf) mdia /\
    In (ABoxes _ (code "dinf") dinf) minf /\ In (ABoxes _ (code "stbl") stbl) minf /\
    In (ALeaf _ (L_dref dr)) dinf /\ In (ALeaf _ (L_stsc sc)) stbl /\ In (ALeaf _ (L_stco cs)) stbl /\ In (ALeaf _ (L_stsd sd)) stbl.
(* whether samples with description [d] are in this file: the entry of that
   number, counted from one, names a data reference, counted from one, which
   has a flag for it. None: there is no such entry or reference. *)
Definition here (sd : stsd (T:=T) (O:=E)) (dr : dref (durl + durn)) (d : N) : option bool :=
  if d =? 0 then None else
  match nthN (sd_ents sd) (d - 1) with
  | None => None
  | Some e =>
      if ent_dri edri e =? 0 then None else
      match nthN (dr_kids dr) (ent_dri edri e - 1) with
      | Some (ALeaf _ (inl u)) => Some (N.odd (ul_flags u))
      | Some (ALeaf _ (inr u)) => Some (N.odd (un_flags u))
      | _ => None
      end
  end.
(* a track whose chunks are described, and whose chunks in this file start
   within the media data of [data] bytes *)
Definition trak_ok (data : N) (l : list tree) : Prop :=
  exists sc cs sd dr, trak_has l sc cs sd dr /\
    table_ok (sc_entries sc) (len (co_list cs) + 1) /\
    (forall f s d, In (f, s, d) (sc_entries sc) -> here sd dr d <> None) /\
    Forall (fun p => here sd dr (snd (fst p)) = Some true -> snd p < data)
      (combine (chunks_of (sc_entries sc) (len (co_list cs) + 1)) (co_list cs)).
Definition no_metadata (l : list tree) : Prop := Forall (fun a => tree_type a <> code "meta" /\ tree_type a <> code "meco") l.

Definition head_ok (ty : N) (o : option tree) : Prop :=
  match o with Some a => tree_ok a /\ tree_type a = ty | None => True end.
Record movie_ok (f : file) (ks : list tree) (d : mdat) : Prop := {
  m_sgnt : head_ok (code "jP  ") (f_sgnt f);
  m_ftyp : head_ok (code "ftyp") (f_ftyp f);
  m_jp2h : head_ok (code "jp2h") (f_jp2h f);
  m_meta : f_meta f = None /\ f_meco f = None;
  m_moov : f_moov f = Some ks;
  m_mdat : f_mdat f = Some d;
  m_tree : tree_ok (ABoxes _ (code "moov") ks);
  m_trak : forall l, In (ABoxes _ (code "trak") l) ks -> trak_ok (len (md_data d)) l /\ no_metadata l;
  m_none : no_metadata ks;
  m_data : bytes (md_data d) /\ len (md_data d) < 2147483648 }.
(* the boxes in front of the movie box *)
Definition heads (f : file (T:=T) (E:=E) (X:=X)) : list tree := opt (f_sgnt f) ++ opt (f_ftyp f) ++ opt (f_jp2h f).
(* what a reader gets back: every box as its reader gives it back, without
   free space boxes; media data that is empty is not there *)
Definition movie_view (f : file (T:=T) (E:=E) (X:=X)) (ks : list tree) (d : mdat) : file :=
  mkFile (option_map tree_view (f_sgnt f)) (option_map tree_view (f_ftyp f)) (option_map tree_view (f_jp2h f)) None None
    (Some (kid_view flayout ks))
    (if len (md_data d) =? 0 then None else Some (mkMdat (md_data d) (len (md_data d)))).

(* The movie box as it is written: the chunks of the movie's own media data
   are found where that data is in the file, the others where they were. *)
Definition chunk_found (out data : list N) (h : option bool) (o o' : N) : Prop :=
  match h with Some true => forall n, o + n <= len data -> slice out o' n = slice data o n | _ => o' = o end.
Definition trak_found (out data : list N) (l l' : list tree) : Prop :=
  exists sc cs cs' sd dr, trak_has l sc cs sd dr /\ trak_has l' sc cs' sd dr /\ co_ver cs' = co_ver cs /\ co_flags cs' = co_flags cs /\
    Forall2 (fun p o' => chunk_found out data (here sd dr (snd (fst p))) (snd p) o')
      (combine (chunks_of (sc_entries sc) (len (co_list cs) + 1)) (co_list cs)) (co_list cs').
Definition box_found (out data : list N) (a a' : tree) : Prop :=
  (exists l l', a = ABoxes _ (code "trak") l /\ a' = ABoxes _ (code "trak") l' /\ trak_found out data l l') \/
  ((forall l, a <> ABoxes _ (code "trak") l) /\ a' = a).
End Spec.

(* the boxes of a movie that are looked at: the other boxes are of other types *)
Definition placed_types : list N :=
  [code "mdat"; code "stts"; code "ctts"; code "stss"; code "stsz"; code "stz2"; code "stsc"; code "stco"; code "co64"; code "padb"; code "stsd"; code "dref"].
Definition apart {X} (cx : codec X) (yx : layout X) : Prop :=
  forall x, l_ok yx x -> existsb (N.eqb (c_ty cx x)) placed_types = false.

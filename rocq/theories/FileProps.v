(* FileProps.v *)
From Verif Require Import Base Codec AtomModel AtomSpec AtomProofs AtomProps BoxModel BoxSpec BoxProofs Reads KidsProofs SttsModel SttsProps CttsModel CttsProps
  SyncModel SyncProps SizeModel SizeProps MarkModel MarkProps ChunkSpec ChunkModel ChunkProofs ChunkProps MdatModel SaveSpec SaveModel SaveProofs SaveProps
  TextModel TextSpec EntryModel EntrySpec EntryProofs EntryProps MediaSpec MediaModel MediaProofs FileModel FileSpec FileProofs HeaderModel HeaderSpec HeaderProofs ShapeProofs.

(* C58: a movie written to a file or a handle is left as it was, the chunks of
   its media data are found in the file by the offsets in the file, and
   opening the file gives the movie back. *)
Theorem C58_save_and_open :
  forall T E X (ct : codec T) (yt : layout T) (dt : T) (ce : codec E) (ye : layout E) (edri : E -> N) (cx : codec X) (yx : layout X),
  faithful ct yt -> faithful ce ye -> faithful cx yx -> apart cx yx -> (forall x, l_ok ye x -> edri (l_view ye x) = edri x) ->
  forall f ks d, movie_ok ct yt dt ce ye edri cx yx f ks d ->
  let bytes_of := flat_map (tree_bytes ct yt dt ce ye cx yx) in
  len (bytes_of (heads f ++ [ABoxes _ (code "moov") ks])) + len (md_data d) + 16 < 2147483648 ->
  exists ks' out,
    to_file ct dt ce edri cx f = Ok (out, f) /\ to_handle ct dt ce edri cx f = Ok (out, f) /\
    out = bytes_of (heads f ++ [ABoxes _ (code "moov") ks']) ++ (if len (md_data d) =? 0 then [] else box (code "mdat") (md_data d)) /\
    Forall2 (box_found edri out (md_data d)) ks ks' /\
    open_movie ct dt ce edri cx out = Ok (movie_view ct yt ce ye yx f ks d).
Proof. intros T E X ct yt dt ce ye edri cx yx FT FE FX AX VE f ks d. apply saved_opened; assumption. Qed.
Print Assumptions C58_save_and_open.

(* A movie without media data can be saved; opened again it has no media data
   box, and writing it to a file uses that box without looking (a NULL
   pointer). *)
Theorem C58_no_media_refuted :
  forall T E X (ct : codec T) (yt : layout T) (dt : T) (ce : codec E) (ye : layout E) (edri : E -> N) (cx : codec X) (yx : layout X),
  faithful ct yt -> faithful ce ye -> faithful cx yx -> apart cx yx -> (forall x, l_ok ye x -> edri (l_view ye x) = edri x) ->
  forall f ks d, movie_ok ct yt dt ce ye edri cx yx f ks d -> md_data d = [] ->
  len (flat_map (tree_bytes ct yt dt ce ye cx yx) (heads f ++ [ABoxes _ (code "moov") ks])) + 16 < 2147483648 ->
  exists out f', to_file ct dt ce edri cx f = Ok (out, f) /\ open_movie ct dt ce edri cx out = Ok f' /\ forall x, to_file ct dt ce edri cx f' <> Ok x.
Proof.
  intros T E X ct yt dt ce ye edri cx yx FT FE FX AX VE f ks d H Hd Hl.
  destruct (saved_opened ct yt dt ce ye edri cx yx FT FE FX AX VE f ks d H) as (ks' & out & A & _ & _ & _ & B); [rewrite Hd, len_nil, N.add_0_r; exact Hl|].
  exists out, (movie_view ct yt ce ye yx f ks d). split; [exact A|]. split; [exact B|]. intros x. unfold to_file.
  destruct (put_movie _ _ _ _ _ _ _) as [y| |]; cbn [bind]; try discriminate. unfold movie_view. rewrite Hd, len_nil. discriminate.
Qed.
Print Assumptions C58_no_media_refuted.

(* A movie with a file type box and two tracks. The first track has three
   chunks, the second of them in another file; the second has one chunk. *)
Definition ex_leaf := fleaf (T:=btrt) (E:=Empty_set) (X:=Empty_set).
Definition ex_stbl (ds : list (ent btrt Empty_set)) (runs : list run) (offs sizes : list N) : atom ex_leaf :=
  ABoxes _ (code "stbl") [ALeaf _ (L_stsd (mkStsd 0 0 ds)); ALeaf _ (L_stts (mkStts 0 0 [(len sizes, 10)] false 0 0 0));
    AFree _ (code "free") [1; 2]; ALeaf _ (L_stsz (mkStsz 0 0 32 0 (len sizes) (Some sizes) 0)); ALeaf _ (L_stsc (mkStsc 0 0 runs 0 0)); ALeaf _ (L_stco (mkStco 0 0 offs))].
Definition ex_trak (refs : list durl) (stbl : atom ex_leaf) : atom ex_leaf :=
  ABoxes _ (code "trak") [AOpaque _ (code "tkhd") [] [1; 2; 3];
    ABoxes _ (code "mdia") [AOpaque _ (code "mdhd") [] [4];
      ABoxes _ (code "minf") [ABoxes _ (code "dinf") [ALeaf _ (L_dref (mkDref 0 0 (map (fun u => ALeaf _ (inl u)) refs)))]; stbl]]].
Definition ex_kids : list (atom ex_leaf) :=
  [AOpaque _ (code "mvhd") [] [9; 9];
   ex_trak [mkUrl (code "url ") 0 1 None; mkUrl (code "url ") 0 0 (Some [120; 0])]
     (ex_stbl [EGen (code "tx3g") [0;0;0;0;0;0] 1 [5] []; EGen (code "tx3g") [0;0;0;0;0;0] 2 [6] []] [(1, 2, 1); (2, 1, 2); (3, 2, 1)] [2; 77; 5] [1; 2; 9; 1; 1]);
   ex_trak [mkUrl (code "url ") 0 1 None] (ex_stbl [EGen (code "text") [0;0;0;0;0;0] 1 [] []] [(1, 1, 1)] [0] [2])].
Definition ex_file : file :=
  mkFile None (Some (AOpaque _ (code "ftyp") [] [105; 115; 111; 109; 0; 0; 0; 0])) None None None (Some ex_kids) (Some (mkMdat [10; 11; 12; 13; 14; 15; 16] 7)).
Example C58_case :
  movie_ok btrt_codec btrt_layout (mkBtrt false 0 0 0) no_codec no_layout nowhere no_codec no_layout ex_file ex_kids (mkMdat [10; 11; 12; 13; 14; 15; 16] 7) /\
  exists out, to_file btrt_codec (mkBtrt false 0 0 0) no_codec nowhere no_codec ex_file = Ok (out, ex_file) /\ len out = 581.
Proof.
  split; [|eexists; split; vm_compute; reflexivity].
  assert (W : tree_ok btrt_codec btrt_layout (mkBtrt false 0 0 0) no_codec no_layout no_codec no_layout (ABoxes _ (code "moov") ex_kids)).
  { apply shape_ok; [vm_compute; reflexivity|]. cbn [leaves ex_kids ex_trak ex_stbl flat_map app map].
    repeat apply Forall_cons; try apply Forall_nil; try (repeat split; cbn; repeat constructor; cbn; try lia; discriminate).
    repeat split; repeat constructor; try (cbn; lia). exists [120]. split; [repeat constructor; cbn; lia|reflexivity]. }
  split; try (split; reflexivity); try reflexivity; try exact W.
  - split; [|reflexivity]. apply shape_ok; [vm_compute; reflexivity|constructor].
  - intros l Hl. cbn [ex_kids In] in Hl.
    assert (Q : forall refs ds runs offs sizes, ABoxes _ (code "trak") l = ex_trak refs (ex_stbl ds runs offs sizes) ->
      no_metadata btrt_codec (mkBtrt false 0 0 0) no_codec no_codec l /\
      trak_has l (mkStsc 0 0 runs 0 0) (mkStco 0 0 offs) (mkStsd 0 0 ds) (mkDref 0 0 (map (fun u => ALeaf _ (inl u)) refs))).
    { intros refs ds runs offs sizes Z. injection Z as ->. split; [repeat constructor; discriminate|].
      exists [AOpaque _ (code "mdhd") [] [4]; ABoxes _ (code "minf") [ABoxes _ (code "dinf") [ALeaf _ (L_dref (mkDref 0 0 (map (fun u => ALeaf _ (inl u)) refs)))]; ex_stbl ds runs offs sizes]].
      do 3 eexists. split; [right; left; reflexivity|]. split; [right; left; reflexivity|]. split; [left; reflexivity|]. split; [right; left; reflexivity|].
      split; [left; reflexivity|]. split; [|split]; cbn [In]; auto 8. }
    destruct Hl as [Hl|[Hl|[Hl|[]]]]; [discriminate|..]; symmetry in Hl; apply Q in Hl; destruct Hl as [H1 H2]; (split; [|exact H1]);
      do 4 eexists; (split; [exact H2|]); cbn [sc_entries co_list]; (split; [cbn; repeat split; lia|]); split.
    + intros f s d I. repeat destruct I as [I|I]; try (injection I as <- <- <-); try contradiction; discriminate.
    + repeat constructor; cbn; intros; try lia; discriminate.
    + intros f s d I. repeat destruct I as [I|I]; try (injection I as <- <- <-); try contradiction; discriminate.
    + repeat constructor; cbn; intros; try lia; discriminate.
  - repeat constructor; discriminate.
  - split; [apply bytes_b_ok; reflexivity|vm_compute; reflexivity].
Qed.

From Verif Require Import Base Codec AtomModel AtomSpec AtomProofs AtomProps BoxModel BoxSpec BoxProofs Reads EntryModel EntryProofs
  HeaderModel HeaderSpec HeaderProofs TextModel TextSpec TextProofs TrackModel KidsModel KidsProofs IndexProofs MboxModel MboxSpec MboxProofs MboxHist.

(* All three histories are about one meta box: any calls on primary item, item
   information, protections and groups, and savings, in any order, starting
   from a box [base] of other boxes. [mrun_spec] says what each call answers
   and what is kept. *)

(* C64: the primary item and item information. *)
Theorem C64_history :
  forall X (x : codec X) (dx : X) (y : layout X), faithful x y -> apart x ->
  forall v f base room os, start x y v f base -> 12 + len (flat_map (kid_enc (kid_codec x) (kid_layout x y)) base) + room < 4294967296 ->
  mops_ok x room mstate0 os ->
  exists m, mrun x dx (mkMbox v f base) os = Ok (fst (mrun_spec mstate0 os), m) /\
  let s := snd (mrun_spec mstate0 os) in
  get_primary m = match s_primary s with Some id => Ok id | None => Err MP4NotFoundErr end /\
  (forall id, get_info m id true false false =
     match info_of s id with Some i => Ok (mkOut (f_prot i) (Some (f_name i)) None None) | None => Err MP4NotFoundErr end) /\
  (forall id, (forall i, info_of s id = Some i -> f_content i = Some (None, None)) -> get_info m id true true true =
     match info_of s id with Some i => Ok (mkOut (f_prot i) (Some (f_name i)) (Some []) (Some [])) | None => Err MP4NotFoundErr end) /\
  (forall id, get_ext_info m id = match info_of s id with
     | Some i => match f_form i with Extended ty d => Ok (ty, d) | _ => Err MP4InvalidMediaErr end | None => Err MP4BadParamErr end) /\
  (forall id, get_type m id = match info_of s id with
     | Some i => match f_form i with Typed ty u => Ok (ty, u) | _ => Err MP4InvalidMediaErr end | None => Err MP4BadParamErr end) /\
  (forall id, is_hidden m id = match info_of s id with Some i => Ok (f_hidden i) | None => Err MP4InvalidMediaErr end).
Proof.
  intros X x dx y F A v f base room os B Hr Ho. destruct (run_ok x dx y F A v f base room B Hr os _ _ (start_inv x y v f base B) Ho) as (m & R & I).
  exists m. split; [exact R|]. cbv zeta. split; [exact (q_primary v f base m _ I)|]. split; [|split; [|split; [|split]]].
  - intros id. apply (q_info v f base m _ id false false I). intros i _ [Q|Q]; discriminate.
  - intros id H. apply (q_info v f base m _ id true true I). intros i E _. apply H, E.
  - intros id. exact (q_ext v f base m _ id I).
  - intros id. exact (q_type v f base m _ id I).
  - intros id. exact (q_hidden v f base m _ id I).
Qed.
Print Assumptions C64_history.

(* C65: protections. A box of scheme information is found by its type. *)
Theorem C65_history :
  forall X (x : codec X) (dx : X) (y : layout X), faithful x y -> apart x ->
  forall v f base room os, start x y v f base -> 12 + len (flat_map (kid_enc (kid_codec x) (kid_layout x y)) base) + room < 4294967296 ->
  mops_ok x room mstate0 os ->
  exists m, mrun x dx (mkMbox v f base) os = Ok (fst (mrun_spec mstate0 os), m) /\
  let s := snd (mrun_spec mstate0 os) in
  (forall k, get_prot m k = match prot_of s k with Some p => Ok (p_type p, p_version p, p_url p) | None => Err MP4BadParamErr end) /\
  (forall k ty, get_prot_info x m k ty = match prot_of s k with
     | Some p => match find (fun b => fst b =? ty) (p_boxes p) with Some b => Ok (AOpaque _ ty [] (snd b)) | None => Err MP4NotFoundErr end
     | None => Err MP4BadParamErr end).
Proof.
  intros X x dx y F A v f base room os B Hr Ho. destruct (run_ok x dx y F A v f base room B Hr os _ _ (start_inv x y v f base B) Ho) as (m & R & I).
  exists m. split; [exact R|]. cbv zeta. split; [intros k; exact (q_prot v f base m _ k I)|]. intros k ty. exact (q_prot_info x v f base m _ k ty I).
Qed.
Print Assumptions C65_history.

(* C66: entity groups. *)
Theorem C66_history :
  forall X (x : codec X) (dx : X) (y : layout X), faithful x y -> apart x ->
  forall v f base room os, start x y v f base -> 12 + len (flat_map (kid_enc (kid_codec x) (kid_layout x y)) base) + room < 4294967296 ->
  mops_ok x room mstate0 os ->
  exists m, mrun x dx (mkMbox v f base) os = Ok (fst (mrun_spec mstate0 os), m) /\
  let s := snd (mrun_spec mstate0 os) in
  (forall id, entity_count m id = match group_of s id with Some g => Ok (len (g_members g)) | None => Err MP4NotFoundErr end) /\
  all_groups m = match s_groups s with [] => Err MP4NotFoundErr | l => Ok (map (fun g => (g_type g, g_id g, g_members g)) l) end.
Proof.
  intros X x dx y F A v f base room os B Hr Ho. destruct (run_ok x dx y F A v f base room B Hr os _ _ (start_inv x y v f base B) Ho) as (m & R & I).
  exists m. split; [exact R|]. cbv zeta. split; [intros id; exact (q_count v f base m _ id I)|exact (q_groups v f base m _ I)].
Qed.
Print Assumptions C66_history.

(* ------------------------------------------------------------------ *)
(* The boxes                                                           *)

(* any meta box can be saved and read back *)
Theorem C64_round_trip :
  forall X (x : codec X) (dx : X) (y : layout X), faithful x y -> apart x ->
  forall m, l_ok (mbox_layout x y) m -> 8 + len (l_body (mbox_layout x y) m) < 4294967296 -> round_trip (mbox_codec x dx) (mbox_layout x y) m.
Proof. intros X x dx y F A m H L. apply faithful_round_trip; [exact (mbox_faithful x dx y F A)|exact H|exact L]. Qed.
Print Assumptions C64_round_trip.
Theorem C65_round_trip :
  forall X (x : codec X) (dx : X) (y : layout X), faithful x y -> apart x ->
  (forall a, l_ok (ipro_layout x y) a -> 8 + len (l_body (ipro_layout x y) a) < 4294967296 -> round_trip (ipro_codec x) (ipro_layout x y) a) /\
  (forall a, l_ok (sinf_layout x y) a -> 8 + len (l_body (sinf_layout x y) a) < 4294967296 -> round_trip (sinf_codec x) (sinf_layout x y) a).
Proof.
  intros X x dx y F A. split; intros a H L; apply faithful_round_trip; try assumption; [exact (ipro_faithful x y F A)|exact (sinf_faithful x y F A)].
Qed.
Print Assumptions C65_round_trip.
Theorem C66_round_trip : forall l, l_ok grpl_layout l -> 8 + len (l_body grpl_layout l) < 4294967296 -> round_trip grpl_codec grpl_layout l.
Proof. intros l H L. apply faithful_round_trip; [exact grpl_faithful|exact H|exact L]. Qed.
Print Assumptions C66_round_trip.

Lemma none_left ty b c rest : skip_tail (8 + (len b + len c) - (len (box ty (b ++ c) ++ rest) - len rest)) rest = rest.
Proof. rewrite len_app, len_box, len_app. replace (_ - _) with 0 by lia. unfold skip_tail. rewrite N.min_0_l. reflexivity. Qed.
Lemma kid_box {X} (x : codec X) y k : exists b, kid_enc (kid_codec x) (kid_layout x y) k = box (atype kid (c_ty (kid_codec x)) k) b.
Proof. destruct k as [t u d|t d|l|t ks]; unfold kid_enc; cbn [enc atype]; eexists; reflexivity. Qed.
(* a box announcing more than there is *)
Lemma too_long {X} (x : codec X) (dx : X) ty r : ty < 4294967296 -> len r + 4 < ty -> parse_kid x dx (be32 ty ++ r) = Err MP4BadDataErr.
Proof.
  intros Ht Hl. unfold parse_kid, parse_top. rewrite Nat.add_comm. change (3 + ?n)%nat with (S (2 + n)). rewrite parse_atom_S.
  unfold cret at 1, cbind at 1. cbn [fst snd]. unfold parse_hdr. unfold rbind at 1. rewrite (proj1 (parses_get32 0 ty Ht)). cbn [bind inp].
  destruct (N.eqb_spec ty 0); [lia|]. destruct (N.eqb_spec ty 1); [lia|]. cbn [negb andb]. rewrite sub32_le by lia. destruct (N.ltb_spec (len r) (ty - 4)); [|lia]. reflexivity.
Qed.
(* The form without version and flags is read too, when the type of the first
   box, taken for a size, is more than what is left of the file. *)
Theorem C64_quicktime :
  forall X (x : codec X) (dx : X) (y : layout X), faithful x y -> apart x ->
  forall k ks rest dflt, Forall (kid_ok (kid_codec x) (kid_layout x y)) (k :: ks) -> Forall (fun ty => len (of_type x ty (k :: ks)) <= 1) once_codes ->
  let body := flat_map (kid_enc (kid_codec x) (kid_layout x y)) (k :: ks) in
  8 + len body < 4294967296 -> len body + len rest < atype kid (c_ty (kid_codec x)) k ->
  read_box (mbox_codec x dx) dflt (box (code "meta") body ++ rest) =
    Ok ((ALeaf _ (mkMbox 0 0 (kid_view (kid_layout x y) (k :: ks))), 8 + len body), rest).
Proof.
  intros X x dx y F A k ks rest dflt Hk Ho body Hl Hr. subst body.
  rewrite (read_box_is (mbox_codec x dx) dflt (code "meta")); [|plain|reflexivity|exact Hl].
  cbn [mbox_codec c_rd]. unfold mbox_read. cbn [inp]. inversion_clear Hk as [|? ? Wk Wks].
  destruct (kid_box x y k) as [b E]. set (ke := kid_enc (kid_codec x) (kid_layout x y)) in *. set (kty := atype kid (c_ty (kid_codec x)) k) in *.
  assert (Hb : len (ke k) = 8 + len b) by (rewrite E, len_box; reflexivity).
  assert (Hkt : kty < 4294967296) by (pose proof (faithful_codec _ _ (kid_faithful x y F A)) as [K1 K2 K3 K4];
    exact (proj1 (atype_facts kid (c_ty (kid_codec x)) (fun _ => KOther dx) (l_view (kid_layout x y)) (c_known (kid_codec x)) (l_ok (kid_layout x y)) K2 k Wk))).
  cbn [flat_map] in *. rewrite len_app in *.
  assert (G : get_full (mkR ((ke k ++ flat_map ke ks) ++ rest) 8) = Ok ((N.shiftr (8 + len b) 24, N.land (8 + len b) 16777215), mkR (be32 kty ++ b ++ flat_map ke ks ++ rest) 12)).
  { rewrite E. unfold box. rewrite <- !app_assoc. unfold get_full. unfold rbind. rewrite (proj1 (parses_get32 8 (8 + len b) ltac:(lia))). cbn [bind rret]. rewrite len_be32. reflexivity. }
  rewrite G. cbn [bind rdn inp h_size].
  match goal with |- context[mbox_loop x dx ?f ?sz _ _ _ _ _] => assert (Hf : (length ks + 1 < f)%nat) end.
  { rewrite !app_length. assert (8 <= length (ke k))%nat by (unfold len in Hb; lia). assert (length ks <= length (flat_map ke ks))%nat; [|lia].
    clear -ke. induction ks as [|a r IH]; [apply le_n|]. cbn [flat_map length]. rewrite app_length. pose proof (kid_pos (kid_codec x) (kid_layout x y) a) as P. fold ke in P. unfold len in P. lia. }
  match goal with |- context[mbox_loop x dx ?f ?sz _ _ _ _ _] => destruct f as [|fu]; [lia|]; cbn [mbox_loop] end.
  destruct (N.ltb_spec 12 (8 + (len (ke k) + len (flat_map ke ks)))); [|lia].
  rewrite (too_long x dx kty) by (try assumption; lens; lia). change ((MP4BadDataErr =? MP4BadDataErr)%Z && (12 =? 12)) with true. cbv beta iota.
  assert (Sk : skipn (length ((ke k ++ flat_map ke ks) ++ rest) - length (be32 kty ++ b ++ flat_map ke ks ++ rest) - 4) ((ke k ++ flat_map ke ks) ++ rest) = ke k ++ flat_map ke ks ++ rest).
  { rewrite <- app_assoc. replace (_ - _ - 4)%nat with 0%nat; [reflexivity|]. unfold len in Hb. rewrite !app_length. change (length (be32 kty)) with 4%nat. lia. }
  rewrite Sk, (parse_kid_ok x dx y F A k _ Wk) by (fold ke; lia). fold ke. cbn [bind fst snd]. cbv beta iota zeta.
  rewrite w32_small by lia. destruct (kid_atype x dx y F A k Wk) as [E1 E2]. rewrite E1, E2. fold kty.
  assert (L : mbox_loop x dx fu (8 + (len (ke k) + len (flat_map ke ks))) ((ke k ++ flat_map ke ks) ++ rest) (0, 0) (8 + len (ke k)) (kid_view (kid_layout x y) [k]) (flat_map ke ks ++ rest) =
      Ok ((0, 0), kid_view (kid_layout x y) ([k] ++ ks), rest)).
  { apply (loop_ok x dx y F A); [constructor; [exact Wk|constructor]|exact Wks|exact Ho|lia|lia|unfold ke; lia]. }
  unfold kid_view in L at 1. cbn [map filter] in L. rewrite free_strip in L.
  destruct (free_box kid k); cbn [negb] in L.
  - rewrite L. cbn [bind fst snd inp app]. f_equal. f_equal. apply none_left.
  - unfold mbox_add, taken. cbn [existsb]. rewrite andb_false_r. cbn [bind app]. rewrite L. cbn [bind fst snd inp app]. f_equal. f_equal. apply none_left.
Qed.
Print Assumptions C64_quicktime.

(* ------------------------------------------------------------------ *)
(* Hostile boxes                                                       *)

(* Groups are read safely from any bytes. *)
Theorem C66_hostile : robust grpl_codec.
Proof. exact grpl_robust. Qed.
Print Assumptions C66_hostile.

(* ------------------------------------------------------------------ *)
(* What the code gets wrong                                            *)

Definition hx := hdlr_codec.
Definition hd0 : hdlr := mkHdlr 0 0 0 (code "mdir") 0 0 0 false [].
Definition one_info (ct : option (list N)) : mbox (X:=hdlr) := set_info (mkMbox 0 0 []) 1 0 (Some [97]) ct None.
Definition save (m : mbox (X:=hdlr)) : res (mbox (X:=hdlr)) :=
  do b <- write_box (mbox_codec hx hd0) m; do r <- read_box (mbox_codec hx hd0) m b;
  match fst (fst r) with ALeaf _ m' => Ok m' | _ => UB end.
Definition or_else {A} (d : A) (r : res A) : A := match r with Ok a => a | _ => d end.

(* A content type is stored without its terminator: it cannot be read back or
   saved. *)
Lemma text_unterminated s : text s -> terminated s = false.
Proof. unfold terminated. induction 1 as [|c r Hc _ IH]; [reflexivity|]. cbn [existsb]. destruct (N.eqb_spec 0 c); [lia|exact IH]. Qed.
Theorem C64_content_type_refuted :
  (forall id prot name ct, text ct ->
     get_info (set_info (mkMbox 0 0 []) id prot name (Some ct) None : mbox (X:=hdlr)) id false true false = UB) /\
  save (one_info (Some [116; 101; 120; 116])) = UB.
Proof.
  split; [|vm_compute; reflexivity]. intros id prot name ct H. unfold get_info, set_info, put_iinf, place. cbn [mb_kids mb_ver mb_flags member as_iinf app ii_kids ii_ver ii_flags find_info in_id].
  rewrite N.eqb_refl. cbn [bind wanted in_name in_ce in_ct]. unfold copy_out. rewrite (text_unterminated _ H). reflexivity.
Qed.
Print Assumptions C64_content_type_refuted.

(* The type of an extension comes back with its bytes reversed. *)
Definition extended := Eval vm_compute in or_else (mkMbox 0 0 []) (set_ext (one_info None) 1 [7; 7] (code "abcd")).
Definition extended1 := Eval vm_compute in or_else (mkMbox 0 0 []) (save extended).
Theorem C64_extension_type_refuted :
  set_ext (one_info None) 1 [7; 7] (code "abcd") = Ok extended /\ get_ext_info extended 1 = Ok (code "abcd", [7; 7]) /\
  save extended = Ok extended1 /\ get_ext_info extended1 1 = Ok (code "dcba", [7; 7]).
Proof. vm_compute. repeat split. Qed.
Print Assumptions C64_extension_type_refuted.

(* A typed item without content type has no name when all strings are asked
   for; asking for the content type alone writes through NULL. *)
Definition typed := Eval vm_compute in or_else (mkMbox 0 0 []) (set_type (one_info None) 1 (code "Exif") None).
Definition typed1 := Eval vm_compute in or_else (mkMbox 0 0 []) (save typed).
Theorem C64_name_lost_refuted :
  set_type (one_info None) 1 (code "Exif") None = Ok typed /\ get_info typed 1 true true true = Ok (mkOut 0 (Some [97]) (Some []) (Some [])) /\
  save typed = Ok typed1 /\ get_info typed1 1 true false false = Ok (mkOut 0 (Some [97]) None None) /\
  get_info typed1 1 true true true = Ok (mkOut 0 (Some []) None (Some [])) /\ get_info typed1 1 false true false = UB.
Proof. vm_compute. repeat split. Qed.
Print Assumptions C64_name_lost_refuted.

(* Setting information twice: the type goes to the second entry, the name
   comes from the first. *)
Theorem C64_twice_refuted :
  forall id n1 n2 ty, text n1 -> text n2 ->
  let m := set_info (set_info (mkMbox 0 0 []) id 0 (Some n1) None None) id 0 (Some n2) None None : mbox (X:=hdlr) in
  get_info m id true false false = Ok (mkOut 0 (Some n1) None None) /\
  exists m', set_type m id ty None = Ok m' /\ get_type m' id = Ok (ty, Some []) /\ get_info m' id true false false = Ok (mkOut 0 (Some n1) None None).
Proof.
  intros id n1 n2 ty H1 H2 m. unfold m, set_info, put_iinf, place. cbn [mb_kids mb_ver mb_flags member as_iinf app ii_kids ii_ver ii_flags set_member].
  split.
  - unfold get_info. cbn [mb_kids member as_iinf ii_kids find_info in_id]. rewrite N.eqb_refl. cbn [bind wanted in_name in_ce in_ct in_prot]. unfold copy_out. fold (cstr n1). rewrite terminated_str, chars_cstr by exact H1. reflexivity.
  - unfold set_type, change_entry, with_entry, put_iinf, place. cbn [mb_kids member as_iinf ii_kids ii_ver ii_flags get_entry set_member mb_ver mb_flags in_id in_flags in_prot in_name in_ct in_ce in_exttype in_ext put_entry existsb is_entry orb].
    rewrite !N.eqb_refl. cbn [orb]. eexists. split; [reflexivity|].
    unfold get_type, with_entry, get_info. cbn [mb_kids member as_iinf ii_kids get_entry find_info in_id]. rewrite !N.eqb_refl. cbn [in_ver in_type in_uri]. split; [reflexivity|].
    cbn [bind wanted in_name in_ce in_ct in_prot]. unfold copy_out. fold (cstr n1). rewrite terminated_str, chars_cstr by exact H1. reflexivity.
Qed.
Print Assumptions C64_twice_refuted.

(* Hiding an item when there is no primary item reads through NULL. *)
Theorem C64_hide_refuted : forall id prot name ct ce hid, hide (set_info (mkMbox 0 0 []) id prot name ct ce : mbox (X:=hdlr)) hid = UB.
Proof. reflexivity. Qed.
Print Assumptions C64_hide_refuted.

(* With 65536 entries or more the box is written but cannot be read. *)
Theorem C64_count_refuted :
  forall X (x : codec X) (y : layout X), faithful x y -> apart x ->
  forall f kids rest dflt, f < 16777216 -> Forall (kid_ok (iinf_kid x) (iinf_kid_layout y)) kids -> no_free kids -> 65536 <= len kids ->
  14 + len (flat_map (kid_enc (iinf_kid x) (iinf_kid_layout y)) kids) < 4294967296 ->
  exists bs, write_box (iinf_codec x) (mkIinf 0 f kids) = Ok bs /\ read_box (iinf_codec x) dflt (bs ++ rest) = Err MP4BadDataErr.
Proof.
  intros X x y F A f kids rest dflt Hf Hk Hfr Hn Hl. set (body := flat_map (kid_enc (iinf_kid x) (iinf_kid_layout y)) kids) in *.
  pose proof (iinf_kid_faithful x y F A) as KF. exists (box (code "iinf") (full 0 f ++ be16 (len kids) ++ body)).
  assert (Sz : iinf_size x (mkIinf 0 f kids) = 14 + len body).
  { unfold iinf_size. cbn [ii_ver ii_kids]. change (0 =? 0) with true. cbn match. rewrite (boxes_size_ok _ _ (inl infe_none) KF) by (try assumption; change (12 + 2) with 14; exact Hl). reflexivity. }
  split.
  - unfold write_box. cbn [awrite iinf_codec c_size c_w c_ty]. rewrite Sz. apply writes_run; [|unfold box; lens; lia|exact Hl].
    unfold write_base, box. lens. replace (8 + (4 + (2 + len body))) with (14 + len body) by lia.
    destruct (N.eqb_spec (14 + len body) 1); [lia|]. change (be32 ?a ++ be32 ?b ++ ?c) with (be32 a ++ (be32 b ++ c)).
    rewrite app_assoc. apply writes_seq; [apply writes_seq; [wstep|]|].
    + rewrite <- (app_nil_r (be32 (code "iinf"))). apply writes_seq; [wstep|apply writes_ret].
    + unfold iinf_write. cbn [ii_ver ii_flags ii_kids]. apply writes_full_seq. change (0 =? 0) with true. cbn match. apply writes_seq; [apply writes_put16|]. apply (boxes_writes _ _ (inl infe_none) KF); [exact Hk|fold body; lia].
  - rewrite (read_box_is (iinf_codec x) dflt (code "iinf")); [|plain|reflexivity|lens; lia]. cbn [iinf_codec c_rd]. unfold iinf_read. rewrite <- !app_assoc.
    rewrite (parses_then _ _ _ _ _ _ (parses_full 8 0 f (conj eq_refl Hf))). cbn [fst snd]. change (0 =? 0) with true. cbn match.
    assert (E16 : be16 (len kids) = be16 (len kids mod 65536)) by (unfold be16; replace (len kids mod 65536 / 256 mod 256) with (len kids / 256 mod 256) by lia; replace (len kids mod 65536 mod 256) with (len kids mod 256) by lia; reflexivity).
    rewrite E16.
    rewrite (parses_then _ _ _ _ _ _ (parses_get16 _ (len kids mod 65536) ltac:(lia))). cbn [len_full]. rewrite len_full, len_be16. change (w32 (w32 (8 + 4) + 2)) with 14. unfold rbind at 1.
    match goal with |- context[mkH ?sz 0 _ [] 8] => pose proof (boxes_reads _ _ (inl infe_none) KF (code "iinf") 14 sz [] 8 kids (fun _ => eq_refl) Hk) as Q end.
    fold body in Q. specialize (Q ltac:(lens; lia) ltac:(lens; lia) rest). rewrite Q. cbn [bind].
    rewrite kid_view_len by exact Hfr. destruct (N.eqb_spec (len kids) (len kids mod 65536)); [lia|]. reflexivity.
Qed.
Print Assumptions C64_count_refuted.

(* An entry of more than 4096 bytes after its numbers overruns a buffer of the
   reader; strings that do not end are read beyond their end; so is an
   extension of two or three bytes. *)
Theorem C64_hostile_refuted :
  (forall s rest dflt, bytes s -> 4096 < len s -> 20 + len s < 4294967296 ->
     read_box infe_codec dflt (box (code "infe") (full 0 0 ++ be16 1 ++ be16 0 ++ s) ++ rest) = UB) /\
  (forall s rest dflt, text s -> s <> [] -> len s <= 4096 -> read_box infe_codec dflt (box (code "infe") (full 0 0 ++ be16 1 ++ be16 0 ++ s) ++ rest) = UB) /\
  (forall b c rest dflt, read_box infe_codec dflt (box (code "infe") (full 1 0 ++ be16 1 ++ be16 0 ++ [0; 0; 0; b; c]) ++ rest) = UB).
Proof.
  assert (G : forall v s rest dflt, v < 2 -> 20 + len s < 4294967296 -> read_box infe_codec dflt (box (code "infe") (full v 0 ++ be16 1 ++ be16 0 ++ s) ++ rest) =
    match (if 4096 <? len s then rub else
      (let* (name, b1) := rlift (next_str s) in let* (ct, b2) := rlift (next_str b1) in let* (ce, b3) := rlift (next_str b2) in
       let* (et, ex) := rlift (ext_part v b3) in rret (mkInfe v 0 1 0 0 name ct ce None et ex))) (mkR rest (16 + len s)) with
    | Ok (t, s') => Ok ((ALeaf _ t, 16 + len s), skip_tail (16 + len s - (16 + len s + len rest - len (inp s'))) (inp s'))
    | Err e => Err e | UB => UB end).
  { intros v s rest dflt Hv Hl. rewrite (read_box_is infe_codec dflt (code "infe")); [|plain|reflexivity|lens; lia]. cbn [infe_codec c_rd]. unfold infe_read. rewrite <- !app_assoc.
    rewrite (parses_then _ _ _ _ _ _ (parses_full 8 v 0 ltac:(split; lia))). cbn [fst snd]. destruct (N.eqb_spec v 3); [lia|].
    rewrite (parses_then _ _ _ _ _ _ (parses_get16 _ 1 eq_refl)). rewrite (parses_then _ _ _ _ _ _ (parses_get16 _ 0 eq_refl)).
    destruct (N.leb_spec 2 v); [lia|]. unfold rbind at 1, rret at 1. cbn [bind]. unfold rbind at 1, getrdn at 1. cbn [bind rdn h_size]. rewrite len_full, !len_be16. change (w32 (w32 (w32 (8 + 4) + 2) + 2)) with 16.
    assert (Ln : sub32 (8 + len (full v 0 ++ be16 1 ++ be16 0 ++ s)) 16 = len s) by (rewrite sub32_le by (lens; lia); lens; lia). rewrite Ln.
    rewrite (parses_then _ _ _ _ _ _ (parses_take_eq 16 (N.to_nat (len s)) s ltac:(unfold len; lia))). rewrite w32_small by lia. destruct (N.ltb_spec v 2); [|lia]. cbn [orb].
    rewrite (len_app (box _ _)), len_box. lens. destruct (4096 <? len s); [reflexivity|].
    replace (8 + (4 + (2 + (2 + len s)))) with (16 + len s) by lia. reflexivity. }
  split; [|split].
  - intros s rest dflt _ H1 H2. rewrite G by lia. destruct (N.ltb_spec 4096 (len s)); [|lia]. reflexivity.
  - intros s rest dflt H1 H2 H3. rewrite G by lia. destruct (N.ltb_spec 4096 (len s)); [lia|]. unfold rbind at 1, rlift at 1, next_str. destruct s as [|c r]; [congruence|].
    assert (Z : after_zero (c :: r) = None). { clear -H1. induction H1 as [|a l Ha _ IH]; [reflexivity|]. cbn [after_zero]. destruct (N.eqb_spec a 0); [lia|exact IH]. } rewrite Z. reflexivity.
  - intros b c rest dflt. rewrite G by (lens; lia). reflexivity.
Qed.
Print Assumptions C64_hostile_refuted.

(* A protection without a scheme type box breaks the question about it. *)
Theorem C65_no_scheme_refuted :
  forall r, get_prot (mkMbox 0 0 [ALeaf _ (KIpro (mkIpro 0 0 [ALeaf _ (inl (mkSinf None None (Some []))) ; r]))] : mbox (X:=hdlr)) 1 = UB.
Proof. reflexivity. Qed.
Print Assumptions C65_no_scheme_refuted.
(* A scheme address without end breaks the reader. *)
Theorem C65_address_refuted :
  read_box (ipro_codec hx) (mkIpro 0 0 [])
    (box (code "ipro") (full 0 0 ++ be16 1 ++ box (code "sinf") (box (code "schm") (full 0 1 ++ be32 1 ++ be32 1 ++ [65])))) = UB.
Proof. vm_compute. reflexivity. Qed.
Print Assumptions C65_address_refuted.

(* What follows the members in the box of a group is not counted in its size:
   such a box is read but cannot be written. *)
Lemma then_w a bs b s : writes a bs -> len (wout s) + len bs <= wsz s -> wsz s < 4294967296 -> (a ;; b) s = b (mkW (wout s ++ bs) (wsz s)).
Proof. intros H H1 H2. unfold wseq. rewrite (H s H1 H2). reflexivity. Qed.
Theorem C66_rest_refuted :
  (forall g, eg_rest g <> [] -> 20 + 4 * len (eg_ids g) + len (eg_rest g) < 4294967296 -> write_box egrp_codec g = Err MP4IOErr) /\
  (forall dflt, read_box egrp_codec dflt (box (code "altr") (full 0 0 ++ be32 1 ++ be32 1 ++ be32 7 ++ [9])) =
     Ok ((ALeaf _ (mkEgrp (code "altr") 0 0 1 [7] [9]), 25), [])).
Proof.
  split; [|intros dflt; vm_compute; reflexivity].
  intros g Hr Hl. destruct g as [ty v f id ids r]. cbn [eg_rest eg_ids] in *. unfold write_box. cbn [awrite egrp_codec c_size c_w c_ty eg_type]. unfold egrp_size. cbn [eg_ids]. rewrite w32_small by lia.
  assert (Hn : 0 < len r) by (destruct r; [congruence|rewrite len_cons; lia]).
  unfold wrun, write_base. destruct (N.eqb_spec (12 + 8 + 4 * len ids) 1); [lia|].
  rewrite (then_w _ (be32 (12 + 8 + 4 * len ids) ++ be32 ty)); [|apply writes_seq; [wstep|rewrite <- (app_nil_r (be32 ty)); apply writes_seq; [wstep|apply writes_ret]]|cbn [wout wsz]; lens; lia|cbn [wsz]; lia].
  cbn [wout wsz app]. unfold egrp_write. cbn [eg_ver eg_flags eg_id eg_ids eg_rest].
  rewrite (then_w _ (be8 v)); [|wstep|cbn [wout wsz]; lens; lia|cbn [wsz]; lia]. cbn [wout wsz].
  rewrite (then_w _ (be24 f)); [|wstep|cbn [wout wsz]; lens; lia|cbn [wsz]; lia]. cbn [wout wsz].
  rewrite (then_w _ (be32 id)); [|wstep|cbn [wout wsz]; lens; lia|cbn [wsz]; lia]. cbn [wout wsz].
  rewrite (then_w _ (be32 (len ids))); [|wstep|cbn [wout wsz]; lens; lia|cbn [wsz]; lia]. cbn [wout wsz].
  rewrite (then_w _ (flat_map be32 ids)); [|apply writes_map; intros; wstep|cbn [wout wsz]; lens; rewrite len_flat_be32; lia|cbn [wsz]; lia]. cbn [wout wsz].
  unfold putl. cbn [wout wsz]. rewrite !len_app, !len_be32, len_be8, len_be24, len_flat_be32, w32_small by lia.
  match goal with |- context[?a <? ?b] => destruct (N.ltb_spec a b) end; [reflexivity|lia].
Qed.
Print Assumptions C66_rest_refuted.
(* A group of type 'free' or 'skip' is gone after saving. *)
Definition freed := Eval vm_compute in or_else (mkMbox 0 0 []) (new_group (mkMbox 0 0 [] : mbox (X:=hdlr)) (code "free") 5).
Definition freed1 := Eval vm_compute in or_else (mkMbox 0 0 []) (save freed).
Theorem C66_free_type_refuted :
  new_group (mkMbox 0 0 [] : mbox (X:=hdlr)) (code "free") 5 = Ok freed /\ all_groups freed = Ok [(code "free", 5, [])] /\
  save freed = Ok freed1 /\ all_groups freed1 = Ok [].
Proof. vm_compute. repeat split. Qed.
Print Assumptions C66_free_type_refuted.

(* ------------------------------------------------------------------ *)
(* Concrete cases                                                      *)

(* a handler box; names, a type with URI, a type without, an extension, hidden
   items, two protections, two groups, refusals, two savings *)
Definition ex_base : list (atom (kid (X:=hdlr))) := [ALeaf _ (KOther hd0)].
Definition ex_mops : list mop :=
  [MHide 1; MPrimary 2; MInfo 1 0 (Some [97; 98]) None None; MInfo 2 1 None None None; MInfo 3 2 (Some [99]) None None; MInfo 4 0 (Some [100]) (Some [1]) None;
   MType 1 (code "uri ") (Some [104; 116]); MExtend 3 (code "abba") [1; 2; 3]; MType 4 (code "Exif") (Some [5]); MHide 1; MHide 2; MExtend 9 7 []; MSave;
   MProtect (code "cenc") 65536 (Some [65]); MProtect (code "odkm") 1 None; MProtectInfo 2 (code "tenc") [0; 0; 1]; MProtectInfo 3 1 [];
   MGroup (code "altr") 7; MGroup (code "altr") 7; MGroup (code "ster") 8; MEntity 7 1; MEntity 7 3; MEntity 9 1; MSave; MPrimary 1].
Definition ex_mrun := Eval vm_compute in mrun hx hd0 (mkMbox 0 0 ex_base) ex_mops.
Definition ex_mbox := Eval vm_compute in or_else ([], mkMbox 0 0 []) ex_mrun.
Lemma hx_faithful : faithful hx hdlr_layout.
Proof. apply exact_faithful, hdlr_exact. Qed.
Lemma hx_apart : apart hx.
Proof. repeat constructor. Qed.
Lemma ex_start : start hx hdlr_layout 0 0 ex_base.
Proof.
  split; [split; reflexivity|]. split.
  - constructor; [|constructor]. cbn. unfold full_ok. repeat split; try reflexivity; [constructor|discriminate].
  - split; [reflexivity|]. split; [constructor; [|constructor]; vm_compute; intuition discriminate|]. repeat (constructor; [vm_compute; discriminate|]). constructor.
Qed.
Ltac word := vm_compute; try reflexivity; try discriminate.
Ltac items := match goal with |- Forall ?P ?l => let l' := eval vm_compute in l in change (Forall P l') end; repeat (constructor; [cbv beta|]); try constructor.
Ltac op_step := lazymatch goal with
  | |- mop_ok _ _ _ MSave => split; [split; [|split; [|split; [|split]]]|word]
  | |- mop_ok _ _ _ (MHide _) => first [left; discriminate | right; reflexivity]
  | |- mop_ok _ _ _ ?o => cbn [mop_ok otext]; repeat split; word; repeat constructor
  end.
Ltac info_case := unfold info_ok; cbn [f_id f_prot f_form f_content content_form];
  split; [word|]; split; [word|]; split; [first [intros _; right; reflexivity|intros _; left; reflexivity|vm_compute; discriminate]|]; split; [repeat split; word; repeat constructor|word].
Ltac prot_case := unfold prot_ok; cbn [p_type p_version p_boxes]; split; [word|]; split; [word|]; repeat apply Forall_cons; try apply Forall_nil; cbn [fst snd]; repeat split; try (vm_compute; (reflexivity || discriminate)); repeat constructor.
Ltac group_case := unfold group_ok; cbn [g_type g_id g_members]; split; [plain|split; [word|repeat constructor]].
Ltac ops := repeat match goal with |- mops_ok ?x ?r ?s (?o :: ?os) => change (mop_ok x r s o /\ mops_ok x r (snd (mstep_spec s o)) os); split; [op_step|let s' := eval vm_compute in (snd (mstep_spec s o)) in change (mops_ok x r s' os)] end.
Example C64_case :
  start hx hdlr_layout 0 0 ex_base /\ 12 + len (flat_map (kid_enc (kid_codec hx) (kid_layout hx hdlr_layout)) ex_base) + 1000 < 4294967296 /\
  mops_ok hx 1000 mstate0 ex_mops /\
  mrun hx hd0 (mkMbox 0 0 ex_base) ex_mops = Ok ex_mbox /\
  fst ex_mbox = [MRefused; MDone; MDone; MDone; MDone; MDone; MDone; MDone; MDone; MDone; MRefused; MRefused; MDone;
    MIndex 1; MIndex 2; MDone; MRefused; MDone; MRefused; MDone; MDone; MDone; MRefused; MDone; MDone] /\
  let m := snd ex_mbox in
  get_primary m = Ok 1 /\ get_info m 1 true false false = Ok (mkOut 0 (Some [97; 98]) None None) /\
  get_info m 2 true true true = Ok (mkOut 1 (Some []) (Some []) (Some [])) /\ is_hidden m 1 = Ok true /\ is_hidden m 2 = Ok false /\
  get_type m 1 = Ok (code "uri ", Some [104; 116]) /\ get_type m 4 = Ok (code "Exif", None) /\ get_ext_info m 3 = Ok (code "abba", [1; 2; 3]) /\
  get_ext_info m 1 = Err MP4InvalidMediaErr /\ get_type m 9 = Err MP4BadParamErr.
Proof.
  split; [exact ex_start|]. split; [reflexivity|]. split; [|vm_compute; repeat split; reflexivity].
  unfold ex_mops. ops; try exact I; try lazymatch goal with |- _ < _ => word end; cbn [s_infos s_prots s_groups]; repeat apply Forall_cons; try apply Forall_nil;
    first [info_case|prot_case|group_case].
Qed.
Example C65_case :
  let m := snd ex_mbox in
  get_prot m 1 = Ok (code "cenc", 65536, Some [65]) /\ get_prot m 2 = Ok (code "odkm", 1, None) /\ get_prot m 3 = Err MP4BadParamErr /\
  get_prot_info hx m 2 (code "tenc") = Ok (AOpaque _ (code "tenc") [] [0; 0; 1]) /\ get_prot_info hx m 1 (code "tenc") = Err MP4NotFoundErr.
Proof. vm_compute. repeat split. Qed.
Example C66_case :
  let m := snd ex_mbox in
  entity_count m 7 = Ok 2 /\ entity_count m 9 = Err MP4NotFoundErr /\ all_groups m = Ok [(code "altr", 7, [1; 3]); (code "ster", 8, [])].
Proof. vm_compute. repeat split. Qed.
(* the form without version and flags, with a handler box first *)
Example C64_quicktime_case :
  Forall (kid_ok (kid_codec hx) (kid_layout hx hdlr_layout)) ex_base /\ Forall (fun ty => len (of_type hx ty ex_base) <= 1) once_codes /\
  let body := flat_map (kid_enc (kid_codec hx) (kid_layout hx hdlr_layout)) ex_base in
  8 + len body < 4294967296 /\ len body + 100000 < code "hdlr" /\
  read_box (mbox_codec hx hd0) (mkMbox 0 0 []) (box (code "meta") body) = Ok ((ALeaf _ (mkMbox 0 0 ex_base), 8 + len body), []).
Proof. destruct ex_start as (_ & S1 & _ & _ & S2). split; [exact S1|]. split; [exact S2|]. vm_compute. repeat split. Qed.
Example C66_group_case : l_ok grpl_layout [mkEgrp (code "altr") 0 0 7 [1; 3] []].
Proof. constructor; [|constructor]. cbn. unfold full_ok. repeat split; try reflexivity; try discriminate. repeat constructor. Qed.
(* an entry of version 1 without an extension, as in a file *)
Example C64_no_extension_case : l_ok infe_layout (mkInfe 1 0 5 0 0 (Some [97; 0]) None None None 0 None) /\
  l_view infe_layout (mkInfe 1 0 5 0 0 (Some [97; 0]) None None None 0 None) = mkInfe 1 0 5 0 0 (Some [97; 0]) (Some [0]) (Some [0]) None 0 None.
Proof.
  split; [|reflexivity]. cbn. repeat split; try reflexivity; try discriminate. exists [97]. split; [|reflexivity]. repeat constructor.
Qed.

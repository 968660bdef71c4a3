(* IpmpProps.v -- C80: IPMP tools, descriptor pointers, tool descriptors,
   initialization data and update commands made in handles. *)
From Verif Require Import Base Codec AtomModel AtomSpec AtomProofs BoxModel BoxSpec BoxProofs DescModel DescSpec DescProofs OdModel OdSpec OdProofs IpmpModel IpmpSpec.
Local Ltac Zify.zify_post_hook ::= Z.div_mod_to_equations.

(* ------------------------------------------------------------------ *)
Lemma len_piece t d : len (piece t d) = 6 + len d.
Proof. unfold piece. rewrite len_tagged, len_cons. lia. Qed.
Lemma parses_piece t lb d n : piece_ok t lb d -> n < 4294967296 ->
  xdata_rd (mkR (piece_in t lb d) n) = Ok (mkXd t d, mkR [] (w32 (n + len (piece_in t lb d)))) /\
  forall r, xdata_rd (mkR (piece_in t lb d ++ r) n) = Ok (mkXd t d, mkR r (w32 (n + len (piece_in t lb d)))).
Proof.
  intros (Ht & Hf & Hs & Hv & Hl) Hn.
  assert (E : forall r, xdata_rd (mkR (piece_in t lb d ++ r) n) = Ok (mkXd t d, mkR r (w32 (n + len (piece_in t lb d))))).
  { intros r. unfold xdata_rd. cbn [inp rdn].
    match goal with |- context [match ?f (mkR (piece_in t lb d ++ r) 0) with _ => _ end] => set (F := f) end.
    assert (P : parses 0 F (piece_in t lb d) (mkXd t d, len (piece_in t lb d))).
    { subst F. unfold piece_in.
      assert (L : len (be8 t ++ lb ++ 1 :: d) = 2 + len lb + len d) by (rewrite !len_app, len_cons, len_be8; lia).
      eapply pb; [rewrite len_be8; lia|apply parses_get8; exact Ht|]. rewrite len_be8.
      eapply pb; [lia|apply parses_len; [lia|exact Hf]|].
      apply parses_getrdn. rewrite Hv, (w32_small (1 + len d)), (w32_small (1 + len d + (0 + 1 + len lb))) by lia.
      eapply parses_eq with (bs := be8 1 ++ d); [|reflexivity|reflexivity|reflexivity].
      eapply pb; [rewrite len_be8; lia|apply parses_get8; lia|]. rewrite len_be8. cbn [N.eqb Pos.eqb].
      apply parses_getrdn.
      eapply parses_bind_last; [apply parses_take_eq|intros; apply parses_ret_eq].
      all: try (rewrite L); try (unfold sub32, w32; lia).
      { unfold sub32, w32, len in *. lia. }
      f_equal; lia. }
    destruct P as [P _]. rewrite P. reflexivity. }
  split; [|exact E]. specialize (E []). rewrite app_nil_r in E. exact E.
Qed.
Lemma piece_canon t d : t < 256 -> 1 + len d < 268435456 -> piece t d = piece_in t (len4 (1 + len d)) d /\ piece_ok t (len4 (1 + len d)) d.
Proof.
  intros Ht Hd. unfold piece, tagged, piece_in, piece_ok. rewrite len_cons.
  split; [reflexivity|]. rewrite len4_value by exact Hd.
  split; [exact Ht|]. split; [apply len4_form; exact Hd|]. split; [change (len (len4 (1 + len d))) with 4; lia|]. split; [reflexivity|exact Hd].
Qed.
Lemma xdata_write_ok t d : 1 + len d < 268435456 -> xdata_write (mkXd t d) = Ok (piece t d) /\ xdata_size (mkXd t d) = len (piece t d).
Proof.
  intros Hd. unfold xdata_write, xdata_size. cbn [xd_tag xd_data]. rewrite w32_small, len_piece by lia. split; [|reflexivity].
  apply writes_run; [|rewrite len_piece; lia|lia].
  eapply writes_eq; [apply writes_seq; [replace (6 + len d) with (5 + (1 + len d)) by lia; apply DescProofs.writes_base; exact Hd|]; apply writes_seq; [apply writes_put8|apply writes_putl]|].
  unfold piece, tagged. rewrite len_cons, <- app_assoc. reflexivity.
Qed.
Definition xs (l : list (N * list N)) : list xdata := map (fun p => mkXd (fst p) (snd p)) l.
Lemma xsize_ok l : Forall fits l -> forall a, a + len (flat_map (fun p => piece (fst p) (snd p)) l) < 4294967296 ->
  fold_left (fun a x => w32 (a + xdata_size x)) (xs l) a = a + len (flat_map (fun p => piece (fst p) (snd p)) l).
Proof.
  induction 1 as [|p l [Hp Hq] _ IH]; intros a; cbn [xs map fold_left flat_map]; [rewrite len_nil; lia|]. rewrite len_app. intros Ha.
  destruct (xdata_write_ok (fst p) (snd p) Hq) as [_ E]. rewrite E, w32_small by lia. fold (xs l). rewrite IH; lia.
Qed.
Lemma writes_append b : writes (append (Ok b)) b.
Proof. intros s H _. unfold append. destruct (N.ltb_spec (wsz s) (len (wout s) + len b)); [lia|reflexivity]. Qed.
Lemma writes_xs l : Forall fits l -> writes (wmap (fun x => append (xdata_write x)) (xs l)) (flat_map (fun p => piece (fst p) (snd p)) l).
Proof.
  induction 1 as [|p l [Hp Hq] _ IH]; cbn [xs map wmap flat_map]; [apply writes_ret|].
  apply writes_seq; [|exact IH]. destruct (xdata_write_ok (fst p) (snd p) Hq) as [E _]. rewrite E. apply writes_append.
Qed.
Lemma len_xs l : len (xs l) = len l. Proof. apply len_map. Qed.
Lemma xinit_write_ok cp sq l : Forall fits l -> len (inits cp sq l) < 4294967296 ->
  xinit_write (mkXi cp sq (xs l)) = Ok (inits cp sq l).
Proof.
  intros Hl Hs. unfold xinit_write, xinit_size. cbn [xi_cp xi_seq xi_data].
  assert (E : len (inits cp sq l) = 3 + len (flat_map (fun p => piece (fst p) (snd p)) l)) by (unfold inits; rewrite !len_app, !len_be8; lia).
  rewrite xsize_ok by (try assumption; lia). rewrite len_xs.
  apply writes_run; [|lia|lia]. unfold inits.
  repeat (apply writes_seq; [apply writes_put8|]). apply writes_xs; exact Hl.
Qed.
Lemma rrep_xs l : Forall fits l -> forall r n, n < 4294967296 ->
  exists m, rrep (length l) xdata_rd (mkR (flat_map (fun p => piece (fst p) (snd p)) l ++ r) n) = Ok (xs l, mkR r m).
Proof.
  induction 1 as [|p l [Hp Hq] _ IH]; intros r n Hn; cbn [length rrep flat_map xs map]; [exists n; reflexivity|].
  destruct (piece_canon (fst p) (snd p) Hp Hq) as [E K]. rewrite E, <- app_assoc. unfold rbind at 1.
  destruct (parses_piece _ _ _ n K Hn) as [_ P]. rewrite P. unfold rbind.
  destruct (IH r (w32 (n + len (piece_in (fst p) (len4 (1 + len (snd p))) (snd p)))) (w32_lt _)) as [m M]. rewrite M. exists m. reflexivity.
Qed.
Lemma xinit_rd_ok cp sq l r : cp < 256 -> sq < 256 -> len l < 256 -> Forall fits l ->
  exists m, xinit_rd (mkR (inits cp sq l ++ r) 0) = Ok (mkXi cp sq (xs l), mkR r m).
Proof.
  intros Hc Hs Hn Hl. unfold inits, xinit_rd. cbn [be8 app]. rewrite !N.mod_small by assumption.
  unfold rbind at 1. cbn [get8 inp rdn]. unfold rbind at 1. cbn [get8 inp rdn]. unfold rbind at 1. cbn [get8 inp rdn].
  unfold len at 1. rewrite Nnat.Nat2N.id. unfold rbind.
  destruct (rrep_xs l Hl r (w32 (w32 (w32 (0 + 1) + 1) + 1)) (w32_lt _)) as [m M]. rewrite M. exists m. reflexivity.
Qed.

(* ------------------------------------------------------------------ *)
(* Initialization data                                                 *)

(* a handle is made unless the control point is 255 *)
Theorem C80_new_init : forall cp sq,
  (cp = 255 -> new_init cp sq = Err MP4BadParamErr) /\ (cp <> 255 -> new_init cp sq = Ok (inits cp sq [])).
Proof.
  intros cp sq. unfold new_init. split; intros H.
  - subst. reflexivity.
  - destruct (N.eqb_spec cp 255); [congruence|]. apply (xinit_write_ok cp sq []); [constructor|]. unfold inits. rewrite !len_app, !len_be8. reflexivity.
Qed.

Lemma flat_app_len (l : list (N * list N)) t d cp sq : len (inits cp sq (l ++ [(t, d)])) = len (inits cp sq l) + len (piece t d).
Proof. unfold inits. rewrite !len_app, flat_map_app, !len_app. cbn [flat_map fst snd]. rewrite app_nil_r, !len_be8. lia. Qed.
(* adding one piece: in whatever form its length was, it becomes the last one;
   bytes after the piece do not count *)
Theorem C80_add_data : forall cp sq l t lb d r, cp < 256 -> sq < 256 -> Forall fits l -> piece_ok t lb d ->
  len l < 256 -> len (inits cp sq (l ++ [(t, d)])) < 4294967296 ->
  add_init (inits cp sq l) (piece_in t lb d ++ r) = Ok (inits cp sq (l ++ [(t, d)])).
Proof.
  intros cp sq l t lb d r Hc Hs Hl Hp Hn Hb. unfold add_init.
  destruct (xinit_rd_ok cp sq l [] Hc Hs Hn Hl) as [m M]. rewrite app_nil_r in M. rewrite M. cbn [bind fst xi_cp xi_seq xi_data].
  destruct (parses_piece t lb d 0 Hp ltac:(lia)) as [_ P]. rewrite P. cbn [bind fst].
  replace (xs l ++ [mkXd t d]) with (xs (l ++ [(t, d)])) by (unfold xs; rewrite map_app; reflexivity).
  apply xinit_write_ok; [|exact Hb]. apply Forall_app. split; [exact Hl|]. constructor; [|constructor].
  destruct Hp as (H1 & _ & _ & _ & H2). split; assumption.
Qed.

(* any number of pieces up to 255: they are all there, in order, and reading
   the handle gives them back *)
Theorem C80_init_history : forall cp sq l, cp < 255 -> sq < 256 -> Forall (fun x => piece_ok (fst (fst x)) (snd (fst x)) (snd x)) l ->
  len l < 256 -> len (inits cp sq (map (fun x => (fst (fst x), snd x)) l)) < 4294967296 ->
  (do h <- new_init cp sq; add_all h (map (fun x => piece_in (fst (fst x)) (snd (fst x)) (snd x)) l)) =
    Ok (inits cp sq (map (fun x => (fst (fst x), snd x)) l)) /\
  exists m, xinit_rd (mkR (inits cp sq (map (fun x => (fst (fst x), snd x)) l)) 0) =
    Ok (mkXi cp sq (map (fun x => mkXd (fst (fst x)) (snd x)) l), mkR [] m).
Proof.
  intros cp sq l Hc Hs Hl Hn Hb.
  assert (F : Forall fits (map (fun x : N * list N * list N => (fst (fst x), snd x)) l)).
  { apply Forall_map. eapply Forall_impl; [|exact Hl]. intros x (H1 & _ & _ & _ & H2). split; assumption. }
  split.
  - destruct (C80_new_init cp sq) as [_ E]. rewrite E by lia. cbn [bind].
    assert (G : forall b a, a ++ b = l -> add_all (inits cp sq (map (fun x => (fst (fst x), snd x)) a)) (map (fun x => piece_in (fst (fst x)) (snd (fst x)) (snd x)) b)
              = Ok (inits cp sq (map (fun x => (fst (fst x), snd x)) l))).
    { induction b as [|x b IH]; intros a Ea; cbn [map add_all].
      - rewrite app_nil_r in Ea. subst. reflexivity.
      - rewrite <- (app_nil_r (piece_in _ _ _)).
        assert (Ea' : (a ++ [x]) ++ b = l) by (rewrite <- app_assoc; exact Ea).
        assert (A : map (fun x => (fst (fst x), snd x)) (a ++ [x]) = map (fun x => (fst (fst x), snd x)) a ++ [(fst (fst x), snd x)]) by (rewrite map_app; reflexivity).
        rewrite <- Ea', map_app in F. apply Forall_app in F. destruct F as [F _]. rewrite A in F. apply Forall_app in F. destruct F as [F _].
        rewrite C80_add_data; try assumption; try lia.
        + cbn [bind]. rewrite <- A. apply IH. exact Ea'.
        + rewrite <- Ea in Hl. apply Forall_app in Hl. destruct Hl as [_ Hl]. inversion Hl; assumption.
        + rewrite len_map. rewrite <- Ea, len_app, len_cons in Hn. lia.
        + rewrite <- A. rewrite <- Ea', map_app in Hb. unfold inits in *. rewrite !len_app, flat_map_app, !len_app, !len_be8 in *. lia. }
    apply (G l []). reflexivity.
  - destruct (xinit_rd_ok cp sq (map (fun x => (fst (fst x), snd x)) l) [] ltac:(lia) Hs ltac:(rewrite len_map; exact Hn) F) as [m M].
    rewrite app_nil_r in M. exists m. rewrite M. unfold xs. rewrite map_map. reflexivity.
Qed.

(* data of another version is refused *)
Theorem C80_version_refused : forall cp sq l t lb v d, cp < 256 -> sq < 256 -> Forall fits l -> len l < 256 ->
  t < 256 -> len_form lb -> len lb < 1000 -> v < 256 -> v <> 1 ->
  add_init (inits cp sq l) (be8 t ++ lb ++ be8 v ++ d) = Err MP4BadDataErr.
Proof.
  intros cp sq l t lb v d Hc Hs Hl Hn Ht Hf Hb Hv Hne. unfold add_init.
  destruct (xinit_rd_ok cp sq l [] Hc Hs Hn Hl) as [m M]. rewrite app_nil_r in M. rewrite M. cbn [bind fst].
  unfold xdata_rd. cbn [inp rdn].
  unfold rbind at 1. destruct (parses_get8 0 t Ht) as [P _]. rewrite P.
  unfold rbind at 1. destruct (parses_len lb (w32 (0 + len (be8 t))) ltac:(apply w32_lt) Hf) as [Q _]. rewrite Q.
  unfold rbind at 1. cbn [getrdn rdn].
  unfold rbind at 1. match goal with |- context [get8 (mkR (be8 v ++ d) ?n)] => destruct (parses_get8 n v Hv) as [R _]; rewrite R end.
  destruct (N.eqb_spec v 1); [congruence|]. reflexivity.
Qed.

(* the 256th piece: the count becomes 0, and the next call loses all *)
Theorem C80_many_pieces_refuted : exists l t d, len l = 255 /\ Forall fits l /\
  add_init (inits 1 2 l) (piece t d) = Ok (inits 1 2 (l ++ [(t, d)])) /\
  (exists m, xinit_rd (mkR (inits 1 2 (l ++ [(t, d)])) 0) = Ok (mkXi 1 2 [], m)) /\
  add_init (inits 1 2 (l ++ [(t, d)])) (piece t d) = Ok (inits 1 2 [(t, d)]).
Proof.
  exists (repeat (7, [9]) 255), 7, [9].
  assert (F : Forall fits (repeat (7, [9]) 255)) by (apply Forall_forall; intros x H; apply repeat_spec in H; subst; split; reflexivity).
  assert (L : len (repeat (7, [9]) 255) = 255) by reflexivity.
  assert (K : forall n, len (flat_map (fun p => piece (fst p) (snd p)) (repeat (7, [9]) n)) = 7 * N.of_nat n).
  { induction n as [|n IH]; [reflexivity|]. cbn [repeat flat_map]. rewrite len_app, IH. cbn [fst snd]. rewrite len_piece. change (len [9]) with 1. lia. }
  assert (P : piece_ok 7 (len4 2) [9]) by (apply (piece_canon 7 [9]); reflexivity).
  assert (X : inits 1 2 (repeat (7, [9]) 255 ++ [(7, [9])]) = 1 :: 2 :: 0 :: flat_map (fun p => piece (fst p) (snd p)) (repeat (7, [9]) 255 ++ [(7, [9])])).
  { unfold inits. rewrite len_app, L. reflexivity. }
  split; [exact L|]. split; [exact F|]. split; [|split].
  - change (piece 7 [9]) with (piece_in 7 (len4 2) [9]). rewrite <- (app_nil_r (piece_in _ _ _)).
    apply C80_add_data; [lia|lia|exact F|exact P|lia|]. rewrite flat_app_len. unfold inits. rewrite !len_app, !len_be8, K, len_piece. reflexivity.
  - eexists. rewrite X. reflexivity.
  - unfold add_init. rewrite X.
    match goal with |- context [xinit_rd (mkR (1 :: 2 :: 0 :: ?f) 0)] => assert (Y : xinit_rd (mkR (1 :: 2 :: 0 :: f) 0) = Ok (mkXi 1 2 [], mkR f 3)) by reflexivity; rewrite Y end.
    vm_compute. reflexivity.
Qed.

Example C80_init_sample :
  (do h <- new_init 3 4; add_all h [piece_in 5 [3] [10; 11]; piece_in 6 [128; 128; 1] []]) =
  Ok [3; 4; 2; 5; 128; 128; 128; 3; 1; 10; 11; 6; 128; 128; 128; 1; 1] /\
  piece_ok 5 [3] [10; 11] /\ piece_ok 6 [128; 128; 1] [] /\ add_init [3; 4; 0] [5; 2; 2; 10] = Err MP4BadDataErr.
Proof. split; [vm_compute; reflexivity|]. unfold piece_ok. cbn. repeat split; lia. Qed.

(* ------------------------------------------------------------------ *)
(* Tools                                                               *)

Lemma len_be64' v : len (be64 v) = 8. Proof. reflexivity. Qed.
Lemma le_four v x : v < 4294967296 -> v mod 256 + 256 * (v / 256 mod 256 + 256 * (v / 65536 mod 256 + 256 * (v / 16777216 mod 256 + 256 * x))) = v + 4294967296 * x.
Proof. intros H. lia. Qed.
Lemma le_u64_ok v : v < 18446744073709551616 -> le_u64 (le64 v) = v.
Proof.
  intros H. unfold le64, be64, be32. cbn [app rev le_u64 fold_right].
  assert (A : v / 4294967296 < 4294967296) by (apply N.div_lt_upper_bound; [discriminate|exact H]).
  assert (B : v mod 4294967296 < 4294967296) by (apply N.mod_lt; discriminate).
  rewrite (le_four (v / 4294967296) 0 A), (le_four (v mod 4294967296) _ B), N.mul_0_r, N.add_0_r, N.add_comm.
  symmetry. apply N.div_mod'.
Qed.
Lemma len_le64 v : length (le64 v) = 8%nat. Proof. reflexivity. Qed.
Lemma alt_ids_ok ids : Forall id_ok ids -> alt_ids (length ids) (flat_map id_memory ids) = ids.
Proof.
  induction 1 as [|[lo up] ids [H1 H2] _ IH]; cbn [length alt_ids flat_map]; [reflexivity|].
  cbn [fst snd] in *.
  assert (E : id_memory (lo, up) ++ flat_map id_memory ids = le64 lo ++ le64 up ++ flat_map id_memory ids) by (unfold id_memory; cbn [fst snd]; rewrite <- app_assoc; reflexivity).
  rewrite E.
  assert (A : forall v r, firstn 8 (le64 v ++ r) = le64 v) by reflexivity.
  assert (B : forall v r, skipn 8 (le64 v ++ r) = r) by reflexivity.
  assert (C : forall v w r, skipn 16 (le64 v ++ le64 w ++ r) = r) by reflexivity.
  rewrite A, B, A, C, IH, !le_u64_ok by assumption. reflexivity.
Qed.
Lemma len_ids (f : N * N -> list N) ids : (forall a, len (f a) = 16) -> len (flat_map f ids) = 16 * len ids.
Proof. intros H. induction ids as [|a ids IH]; cbn [flat_map]; [reflexivity|]. rewrite len_app, len_cons, H, IH. lia. Qed.
Lemma len_id_file a : len (id_file a) = 16. Proof. reflexivity. Qed.
Lemma len_id_memory a : len (id_memory a) = 16. Proof. reflexivity. Qed.
Lemma tool_write_ok lo up ids par : len (tool_bytes lo up ids par) < 268435461 ->
  tool_write (mkTool lo up ids par) = Ok (tool_bytes lo up ids par).
Proof.
  unfold tool_bytes. set (body := id_file (lo, up) ++ _). rewrite len_tagged. intros H.
  assert (S : tool_size (mkTool lo up ids par) = 5 + len body).
  { unfold tool_size. cbn [t_alts t_par].
    assert (L : len body = 17 + (if 0 <? len ids then 1 + 16 * len ids else 0) + match par with Some p => 4 + len p | None => 0 end + 1).
    { subst body. rewrite !len_app, len_id_file, !len_be8. replace (len match par with None => [] | Some p => be32 (len p) ++ p end) with match par with Some p => 4 + len p | None => 0 end by (destruct par; [rewrite len_app, len_be32|]; reflexivity).
      destruct ids as [|a ids]; [change (0 <? len (@nil (N * N))) with false; rewrite len_nil; lia|].
      destruct (N.ltb_spec 0 (len (a :: ids))) as [_|Z]; [|rewrite len_cons in Z; lia].
      rewrite len_app, len_be8, (len_ids _ _ len_id_file). lia. }
    rewrite w32_small; lia. }
  unfold tool_write. rewrite S. apply fills_run; [|rewrite len_tagged; reflexivity|lia].
  unfold tagged. rewrite app_assoc.
  apply fills_seq; [apply DescProofs.writes_base; lia|]. cbn [t_lo t_up t_alts t_par]. subst body. unfold id_file. cbn [fst snd]. rewrite <- app_assoc.
  apply fills_seq; [apply writes_put64|]. apply fills_seq; [apply writes_put64|].
  apply fills_seq.
  { eapply writes_eq; [apply writes_put8|]. f_equal. destruct ids as [|a ids]; [destruct par; reflexivity|]. rewrite len_cons.
    destruct (N.ltb_spec 0 (1 + len ids)); [|lia]. destruct par; reflexivity. }
  apply fills_seq.
  { destruct ids as [|a ids]; [apply writes_ret|]. rewrite len_cons. destruct (N.ltb_spec 0 (1 + len ids)); [|lia].
    apply writes_seq; [apply writes_put8|]. apply writes_map. intros x _. apply writes_seq; apply writes_put64. }
  apply fills_seq.
  { destruct par as [p|]; [|apply writes_ret]. apply writes_seq; [apply writes_put32|apply writes_putl]. }
  apply fills_filled. apply writes_put8.
Qed.

(* the handle of a tool: the identifier, the alternatives in the order of
   their handle, the description, and no URL *)
Lemma new_tool_any : forall lo up ids par, Forall id_ok ids -> len (tool_bytes lo up ids par) < 268435461 ->
  new_tool lo up (ids_handle ids) par = Ok (tool_bytes lo up ids par).
Proof.
  intros lo up ids par Hi Hb. unfold new_tool, ids_handle. destruct ids as [|a ids]; [apply tool_write_ok; exact Hb|].
  rewrite (len_ids _ _ len_id_memory). replace (16 * len (a :: ids) mod 16) with 0 by lia.
  destruct (N.eqb_spec (16 * len (a :: ids)) 0) as [E|_]; [rewrite len_cons in E; lia|]. cbn [N.eqb negb orb].
  replace (16 * len (a :: ids) / 16) with (len (a :: ids)) by lia.
  unfold len at 1. rewrite Nnat.Nat2N.id, alt_ids_ok by exact Hi. apply tool_write_ok; exact Hb.
Qed.
Theorem C80_new_tool : forall lo up ids par, Forall id_ok ids -> len ids < 256 -> len (tool_bytes lo up ids par) < 268435461 ->
  new_tool lo up (ids_handle ids) par = Ok (tool_bytes lo up ids par).
Proof. intros. apply new_tool_any; assumption. Qed.
(* a handle of alternatives that is empty or not a multiple of 16 bytes *)
Theorem C80_alternatives_refused : forall lo up b par, b = [] \/ len b mod 16 <> 0 -> new_tool lo up (Some b) par = Err MP4BadParamErr.
Proof.
  intros lo up b par [->|H]; unfold new_tool; [reflexivity|]. destruct (N.eqb_spec (len b mod 16) 0); [congruence|]. reflexivity.
Qed.
Example C80_tool_sample :
  new_tool 258 3 (Some (le64 5 ++ le64 6)) (Some [7; 8]) =
  Ok ([99; 128; 128; 128; 41] ++ be64 3 ++ be64 258 ++ [192; 1] ++ be64 6 ++ be64 5 ++ be32 2 ++ [7; 8; 0]) /\
  Forall id_ok [(5, 6)] /\ new_tool 1 2 (Some [0; 0]) None = Err MP4BadParamErr.
Proof. split; [vm_compute; reflexivity|]. split; [constructor; [split; reflexivity|constructor]|reflexivity]. Qed.

(* with 256 alternatives the handle says there are none, and has them *)
Theorem C80_many_alternatives_refuted : exists ids bs, len ids = 256 /\ Forall id_ok ids /\
  new_tool 1 2 (ids_handle ids) None = Ok bs /\ nth_error bs 21 = Some 128 /\ nth_error bs 22 = Some 0.
Proof.
  exists (repeat (3, 4) 256), (tool_bytes 1 2 (repeat (3, 4) 256) None).
  assert (F : Forall id_ok (repeat (3, 4) 256)) by (apply Forall_forall; intros x H; apply repeat_spec in H; subst; split; reflexivity).
  assert (L : len (repeat (3, 4) 256) = 256) by reflexivity.
  assert (X : tool_bytes 1 2 (repeat (3, 4) 256) None = tagged 99 (id_file (1, 2) ++ be8 128 ++ (be8 256 ++ flat_map id_file (repeat (3, 4) 256)) ++ [] ++ be8 0)).
  { unfold tool_bytes. rewrite L. reflexivity. }
  split; [exact L|]. split; [exact F|]. split; [|split].
  - apply new_tool_any; [exact F|]. rewrite X, len_tagged, !len_app, len_id_file, !len_be8, (len_ids _ _ len_id_file), L. reflexivity.
  - rewrite X. unfold tagged. reflexivity.
  - rewrite X. unfold tagged. reflexivity.
Qed.

Lemma tool_read_ub lo up ids par r : len (tool_bytes lo up ids par) < 268435461 -> desc_read (mkR (tool_bytes lo up ids par ++ r) 0) = UB.
Proof.
  unfold desc_read. unfold tool_bytes. rewrite len_tagged. intros H. unfold tagged. rewrite <- !app_assoc. change (be8 99) with [99]. cbn [app]. rewrite desc_rd_eq. cbn [inp].
  unfold rest_rd. unfold rbind at 1. match goal with |- context [get_len (mkR (len4 ?l ++ _) 1)] => destruct (parses_len4 l 1 ltac:(lia) ltac:(lia)) as [P _] end.
  rewrite P. unfold rbind at 1. cbn [getrdn rdn]. unfold head_rd. cbn [N.eqb Pos.eqb orb].
  unfold id_file. cbn [fst snd]. rewrite <- app_assoc. unfold be64, be32, be8. reflexivity.
Qed.

(* a tool that was made can be used in none of the calls that take one *)
Theorem C80_tool_unreadable_refuted : forall lo up ids par, Forall id_ok ids -> len ids < 256 -> len (tool_bytes lo up ids par) < 268435461 ->
  exists t l, new_tool lo up (ids_handle ids) par = Ok t /\ new_tools = Ok l /\
  (forall url, add_url t url = UB) /\ add_tool l t = UB.
Proof.
  intros lo up ids par Hi Hn Hb. exists (tool_bytes lo up ids par), (tagged 96 []).
  split; [apply C80_new_tool; assumption|]. split; [vm_compute; reflexivity|].
  pose proof (tool_read_ub lo up ids par [] Hb) as E. rewrite app_nil_r in E. unfold add_url, add_tool. rewrite E. cbn [bind].
  split; [reflexivity|]. change (desc_read (mkR (tagged 96 []) 0)) with (@Ok (desc * rst) (Desc HTools [], mkR [] 5)). reflexivity.
Qed.

(* ------------------------------------------------------------------ *)
(* Pointers                                                            *)

(* an identifier below 255 alone, or 255 with a tool descriptor's *)
Theorem C80_pointer : forall id tool, id < 256 -> tool < 65536 ->
  ((id = 255 <-> tool <> 0) ->
     new_ptr id tool = Ok (tagged 10 (if id =? 255 then be8 255 ++ be16 tool ++ be16 0 else be8 id)) /\
     (forall r, exists m, desc_read (mkR (tagged 10 (if id =? 255 then be8 255 ++ be16 tool ++ be16 0 else be8 id) ++ r) 0) =
        Ok (Desc (HPtr 10 id tool 0) [], mkR r m))) /\
  (~ (id = 255 <-> tool <> 0) -> new_ptr id tool = Err MP4BadParamErr).
Proof.
  intros id tool Hi Ht. split.
  - intros C.
    assert (W : wf (Desc (HPtr 10 id tool 0) [])).
    { constructor; [cbn; repeat split; try lia; auto|reflexivity|constructor|]. unfold body, sorted. cbn [fields order flat_map app].
      destruct (id =? 255); reflexivity. }
    assert (E : enc (Desc (HPtr 10 id tool 0) []) = tagged 10 (if id =? 255 then be8 255 ++ be16 tool ++ be16 0 else be8 id)).
    { cbn [enc htag fields sorted order flat_map map app]. rewrite app_nil_r. f_equal. destruct (N.eqb_spec id 255); [subst; reflexivity|apply app_nil_r]. }
    split.
    + rewrite <- E, <- (dwrite_ok _ W). unfold new_ptr. destruct (N.eqb_spec id 255), (N.eqb_spec tool 0); cbn [negb]; try reflexivity; exfalso; intuition congruence.
    + assert (V : view (Desc (HPtr 10 id tool 0) []) = Desc (HPtr 10 id tool 0) []).
      { cbn [view head_view sorted order flat_map map]. destruct (N.eqb_spec id 255); [reflexivity|]. destruct (N.eq_dec tool 0); [subst; reflexivity|exfalso; intuition congruence]. }
      intros r. destruct (desc_read_ok _ 0 W) as [P _]. rewrite <- E. eexists. rewrite P, V. reflexivity.
  - intros C. unfold new_ptr. destruct (N.eqb_spec id 255), (N.eqb_spec tool 0); cbn [negb]; try reflexivity; exfalso; apply C; intuition congruence.
Qed.
Example C80_pointer_sample : new_ptr 7 0 = Ok [10; 128; 128; 128; 1; 7] /\ new_ptr 255 258 = Ok [10; 128; 128; 128; 5; 255; 1; 2; 0; 0] /\
  new_ptr 7 1 = Err MP4BadParamErr /\ new_ptr 255 0 = Err MP4BadParamErr.
Proof. repeat split. Qed.

(* ------------------------------------------------------------------ *)
(* Tool descriptors                                                    *)

(* the descriptor of a tool with an identifier and without initialization *)
Theorem C80_new_tool_descriptor : forall id lo up init,
  (id = 0 -> new_toold id lo up init = Err MP4BadParamErr) /\
  (id <> 0 -> (lo <> 0 \/ up <> 0) -> new_toold id lo up None = Ok (tagged 98 (be16 id ++ id_file (lo, up) ++ be8 0 ++ be8 0))).
Proof.
  intros id lo up init. unfold new_toold. split; intros H; [subst; reflexivity|]. intros Hz. destruct (N.eqb_spec id 0); [congruence|].
  replace ((lo =? 0) && (up =? 0))%bool with false.
  2:{ destruct (N.eqb_spec lo 0), (N.eqb_spec up 0); try reflexivity. exfalso. lia. }
  apply fills_run; [|reflexivity|lia]. unfold tagged. rewrite app_assoc.
  apply fills_seq; [apply (DescProofs.writes_base 98 20); lia|].
  unfold id_file. cbn [fst snd]. rewrite <- app_assoc.
  apply fills_seq; [apply writes_put16|]. apply fills_seq; [apply writes_put64|]. apply fills_seq; [apply writes_put64|].
  apply fills_seq; [apply writes_put8|]. apply fills_filled. apply writes_put8.
Qed.
Example C80_tool_descriptor_sample : new_toold 258 3 0 None = Ok ([98; 128; 128; 128; 20; 1; 2] ++ be64 0 ++ be64 3 ++ [0; 0]).
Proof. vm_compute. reflexivity. Qed.

(* with initialization data, or without an identifier, the call itself is
   undefined; and what it does make cannot be used *)
Lemma toold_read_ub id lo up : (lo <> 0 \/ up <> 0) -> lo < 18446744073709551616 -> up < 18446744073709551616 ->
  desc_read (mkR (tagged 98 (be16 id ++ id_file (lo, up) ++ be8 0 ++ be8 0)) 0) = UB.
Proof.
  intros Hz Hl Hu. unfold tagged. change (len4 (len _)) with (len4 20). change (be8 98) with [98]. cbn [app]. unfold desc_read. rewrite desc_rd_eq. cbn [inp].
  unfold rest_rd. unfold rbind at 1. destruct (parses_len4 20 1 ltac:(lia) ltac:(lia)) as [P _]. rewrite P.
  unfold rbind at 1. cbn [getrdn rdn].
  assert (H98 : forall size s, head_rd 98 size s = (let* id := get16 in let* a := get64 in let* b := get64 in
    if (a =? 0) && (b =? 0) then let* n := get32 in let* url := take (N.to_nat n) in let* e := at_end size in rret (HToolD id url)
    else let* f := get8 in rub) s) by reflexivity.
  unfold rbind at 1. rewrite H98. unfold rbind at 1. cbn [be16 app get16 inp rdn].
  unfold id_file. cbn [fst snd]. rewrite <- app_assoc.
  unfold rbind at 1. match goal with |- context [get64 (mkR _ ?n)] => destruct (parses_get64 n up Hu) as [Q _] end. rewrite Q.
  unfold rbind at 1. match goal with |- context [get64 (mkR (be64 lo ++ _) ?n)] => destruct (parses_get64 n lo Hl) as [R _] end. rewrite R.
  replace ((up =? 0) && (lo =? 0))%bool with false.
  2:{ destruct (N.eqb_spec lo 0), (N.eqb_spec up 0); try reflexivity. exfalso. lia. }
  reflexivity.
Qed.
Theorem C80_tool_descriptor_refuted : forall id lo up, id <> 0 ->
  (forall cp sq l, cp < 256 -> sq < 256 -> len l < 256 -> Forall fits l -> new_toold id lo up (Some (inits cp sq l)) = UB) /\
  new_toold id 0 0 None = UB /\
  ((lo <> 0 \/ up <> 0) -> lo < 18446744073709551616 -> up < 18446744073709551616 ->
   exists t u, new_toold id lo up None = Ok t /\ new_update = Ok u /\
   (forall data, add_toold t data = UB) /\ add_update u t = UB).
Proof.
  intros id lo up Hid. split; [|split].
  - intros cp sq l Hc Hs Hn Hl. unfold new_toold. destruct (N.eqb_spec id 0); [congruence|].
    destruct (xinit_rd_ok cp sq l [] Hc Hs Hn Hl) as [m M]. rewrite app_nil_r in M. rewrite M. reflexivity.
  - unfold new_toold. destruct (N.eqb_spec id 0); [congruence|]. reflexivity.
  - intros Hz Hl Hu. destruct (C80_new_tool_descriptor id lo up None) as [_ E]. rewrite (E Hid Hz).
    eexists _, (tagged 9 []). split; [reflexivity|]. split; [vm_compute; reflexivity|].
    unfold add_toold, add_update. rewrite (toold_read_ub id lo up Hz Hl Hu). cbn [bind]. split; [reflexivity|].
    change (cread (mkR (tagged 9 []) 0)) with (@Ok (cmd * rst) (mkCmd KTools [], mkR [] 5)). reflexivity.
Qed.

(* ------------------------------------------------------------------ *)
(* Descriptors of tools found at a URL                                 *)

Lemma url_tool_wf id url : id < 65536 -> len url < 268435434 -> wf (Desc (HToolD id url) []) /\ enc (Desc (HToolD id url) []) = url_tool id url /\
  view (Desc (HToolD id url) []) = Desc (HToolD id url) [].
Proof.
  intros Hi Hu. split; [|split].
  - constructor; [exact Hi|reflexivity|constructor|]. unfold body, sorted. cbn [fields order flat_map]. rewrite app_nil_r, !len_app. change (len (be16 id)) with 2. change (len (be64 0)) with 8. rewrite len_be32. lia.
  - cbn [enc htag fields sorted order flat_map map]. rewrite app_nil_r. reflexivity.
  - reflexivity.
Qed.
Lemma url_read id url r n : id < 65536 -> len url < 268435434 -> exists m, desc_read (mkR (url_tool id url ++ r) n) = Ok (Desc (HToolD id url) [], mkR r m).
Proof.
  intros Hi Hu. destruct (url_tool_wf id url Hi Hu) as (W & E & V). destruct (desc_read_ok _ n W) as [P _]. rewrite E, V in P. eexists. apply P.
Qed.
(* such descriptors can be collected in an update command, and are all in it
   in order *)
Lemma kids_all0 {A} (f : A -> desc) (l : list A) : csorted (map (fun t => (0, f t)) l) = map (fun t => (0, f t)) l.
Proof.
  unfold csorted. assert (K : forall m, filter (fun k : N * desc => fst k =? m) (map (fun t => (0, f t)) l) = if m =? 0 then map (fun t => (0, f t)) l else []).
  { intros m. destruct (N.eqb_spec m 0) as [->|H].
    - induction l as [|a l IH]; cbn [map filter fst]; [reflexivity|]. change (0 =? 0) with true. cbv iota. rewrite IH. reflexivity.
    - induction l as [|a l IH]; cbn [map filter fst]; [reflexivity|]. destruct (N.eqb_spec 0 m); [congruence|]. exact IH. }
  rewrite !K. change (0 =? 0) with true. change (1 =? 0) with false. change (2 =? 0) with false. cbv iota. rewrite !app_nil_r. reflexivity.
Qed.
Lemma as_kids_ok l : Forall url_ok l -> len (url_tools l) < 268435461 ->
  cwf (mkCmd KTools (as_kids l)) /\ cenc (mkCmd KTools (as_kids l)) = url_tools l /\ cview (mkCmd KTools (as_kids l)) = mkCmd KTools (as_kids l).
Proof.
  intros Hl Hb.
  assert (B : cbody (mkCmd KTools (as_kids l)) = flat_map (fun t => url_tool (fst t) (snd t)) l).
  { unfold cbody. cbn [c_kind c_ds cfields app]. unfold as_kids. rewrite kids_all0, flat_map_map'. apply flat_map_ext. intros [i u]. cbn [snd fst enc htag fields sorted order flat_map map]. rewrite app_nil_r. reflexivity. }
  split; [|split].
  - split; [|split].
    + cbn [kind_ok c_kind c_ds]. apply Forall_map. apply Forall_forall. intros t _. split; reflexivity.
    + apply Forall_map. eapply Forall_impl; [|exact Hl]. intros [i u] [H1 H2]. apply url_tool_wf; assumption.
    + rewrite B. unfold url_tools in Hb. rewrite len_tagged in Hb. lia.
  - unfold cenc. rewrite B. reflexivity.
  - unfold cview. cbn [c_kind c_ds]. unfold as_kids at 1. rewrite kids_all0, map_map. reflexivity.
Qed.
Theorem C80_update_history : forall l, Forall url_ok l -> len (url_tools l) < 268435461 ->
  (do u <- new_update; add_updates u (map (fun t => url_tool (fst t) (snd t)) l)) = Ok (url_tools l) /\
  (forall r, exists m, cread (mkR (url_tools l ++ r) 0) = Ok (mkCmd KTools (as_kids l), mkR r m)).
Proof.
  intros l Hl Hb. split.
  - unfold new_update. change (cwrite (mkCmd KTools [])) with (Ok (url_tools [])). cbn [bind].
    assert (G : forall b a, a ++ b = l -> add_updates (url_tools a) (map (fun t => url_tool (fst t) (snd t)) b) = Ok (url_tools l)).
    { induction b as [|[i u] b IH]; intros a Ea; cbn [map add_updates].
      - rewrite app_nil_r in Ea. subst. reflexivity.
      - assert (Ea' : (a ++ [(i, u)]) ++ b = l) by (rewrite <- app_assoc; exact Ea).
        assert (Fa : Forall url_ok (a ++ [(i, u)]) /\ len (url_tools (a ++ [(i, u)])) < 268435461).
        { split; [rewrite <- Ea' in Hl; apply Forall_app in Hl; apply Hl|]. rewrite <- Ea' in Hb. unfold url_tools in *. rewrite !len_tagged, !flat_map_app, !len_app in *. lia. }
        destruct Fa as [F1 F2]. pose proof F1 as F0. apply Forall_app in F0. destruct F0 as [F0 Fi]. inversion Fi as [|? ? [Fi1 Fi2] _]; subst. cbn [fst snd] in *.
        assert (F3 : len (url_tools a) < 268435461) by (unfold url_tools in *; rewrite !len_tagged, !flat_map_app, !len_app in *; lia).
        destruct (as_kids_ok a F0 F3) as (W & E & V). destruct (as_kids_ok _ F1 F2) as (W' & E' & _).
        assert (S : add_update (url_tools a) (url_tool i u) = Ok (url_tools (a ++ [(i, u)]))).
        { unfold add_update. pose proof (cread_ok _ [] 0 W) as R. rewrite E, V, app_nil_r in R. rewrite R. cbn [bind fst c_kind].
          destruct (url_read i u [] 0 Fi1 Fi2) as [m M]. rewrite app_nil_r in M. rewrite M. cbn [bind fst cplace dtag htag N.eqb Pos.eqb c_ds].
          rewrite <- E', <- (cwrite_ok _ W'). f_equal. unfold as_kids. rewrite map_app. reflexivity. }
        cbn [fst snd]. rewrite S. cbn [bind]. apply IH. exact Ea'. }
    apply (G l []). reflexivity.
  - intros r. destruct (as_kids_ok l Hl Hb) as (W & E & V). pose proof (cread_ok _ r 0 W) as R. rewrite E, V in R. eexists. exact R.
Qed.
(* anything but a tool descriptor is refused *)
Theorem C80_update_refused : forall l d, Forall url_ok l -> len (url_tools l) < 268435461 -> wf d -> dtag d <> 98 ->
  add_update (url_tools l) (enc d) = Err MP4BadDataErr.
Proof.
  intros l d Hl Hb Wd Ht. destruct (as_kids_ok l Hl Hb) as (W & E & V). unfold add_update.
  pose proof (cread_ok _ [] 0 W) as R. rewrite E, V, app_nil_r in R. rewrite R. cbn [bind fst c_kind].
  destruct (desc_read_ok _ 0 Wd) as [P _]. specialize (P []). rewrite app_nil_r in P. rewrite P. cbn [bind fst cplace].
  rewrite (dtag_view d Wd). destruct (N.eqb_spec (dtag d) 17); [reflexivity|]. destruct (N.eqb_spec (dtag d) 98); [congruence|reflexivity].
Qed.
Example C80_update_sample : (do u <- new_update; add_updates u [url_tool 1 [104]; url_tool 2 []]) = Ok (url_tools [(1, [104]); (2, [])]) /\
  Forall url_ok [(1, [104]); (2, [])] /\ url_tools [(1, [104])] = [9; 128; 128; 128; 28; 98; 128; 128; 128; 23; 0; 1] ++ be64 0 ++ be64 0 ++ [0; 0; 0; 1; 104].
Proof. split; [vm_compute; reflexivity|]. split; [repeat constructor|reflexivity]. Qed.

(* data added to such a descriptor is lost without an error *)
Theorem C80_data_lost_refuted : forall id url t lb d, id < 65536 -> len url < 268435434 -> piece_ok t lb d ->
  add_toold (url_tool id url) (piece_in t lb d) = Ok (url_tool id url).
Proof.
  intros id url t lb d Hi Hu Hp. unfold add_toold.
  destruct (url_read id url [] 0 Hi Hu) as [m M]. rewrite app_nil_r in M. rewrite M. cbn [bind fst].
  destruct (parses_piece t lb d 0 Hp ltac:(lia)) as [P _]. rewrite P. cbn [bind fst].
  destruct (url_tool_wf id url Hi Hu) as (W & E & _). rewrite <- E. apply dwrite_ok. exact W.
Qed.

Print Assumptions C80_new_init.
Print Assumptions C80_add_data.
Print Assumptions C80_init_history.
Print Assumptions C80_version_refused.
Print Assumptions C80_many_pieces_refuted.
Print Assumptions C80_new_tool.
Print Assumptions C80_alternatives_refused.
Print Assumptions C80_many_alternatives_refuted.
Print Assumptions C80_tool_unreadable_refuted.
Print Assumptions C80_pointer.
Print Assumptions C80_new_tool_descriptor.
Print Assumptions C80_tool_descriptor_refuted.
Print Assumptions C80_update_history.
Print Assumptions C80_update_refused.
Print Assumptions C80_data_lost_refuted.

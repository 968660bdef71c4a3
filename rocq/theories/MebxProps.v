(* MebxProps.v -- boxed metadata and its key table (C69); XML, text and 3GPP
   descriptions (C70). *)
From Verif Require Import Base Codec BitLemmas AtomModel AtomSpec AtomProofs BoxModel BoxSpec BoxProofs Reads IndexProofs KidsModel KidsProofs TextModel TextSpec TextProofs TextProps
  EntryModel EntrySpec EntryProofs EntryProps HeaderModel HeaderSpec HeaderProofs SmallModel SmallSpec SmallProofs SmallProps MebxModel MebxSpec MebxProofs.

(* ------------------------------------------------------------------ *)
(* C69                                                                 *)

(* a description with any keys, which may hold further boxes, survives *)
Theorem C69_keys_survive : forall X (x : codec X) y dx, faithful x y -> apart y ->
  survives (keys_codec x dx) (keys_layout x y) /\ survives (mebx_codec x dx) (mebx_layout x y dx).
Proof. intros X x y dx F A. split; apply of_faithful; [apply keys_faithful|apply mebx_faithful]; assumption. Qed.
Print Assumptions C69_keys_survive.

(* the id granted is the first unused one from the one asked for *)
Theorem C69_ids : forall its q i, answer its q = Ok i -> first_free (map it_id its) (q_id q) (it_id i).
Proof.
  intros its q i. unfold answer. destruct (q_id q =? last_id); [discriminate|]. destruct (value q); [|discriminate]. destruct (grant _ _ _) as [n|] eqn:G; [|discriminate].
  destruct (setup_ok q); [|discriminate]. intros E. injection E as <-. apply (grant_some _ _ _ _ G).
Qed.
Print Assumptions C69_ids.
(* and there is none only when all are in use *)
Theorem C69_ids_complete : forall its q n, first_free (map it_id its) (q_id q) n ->
  grant (length its) (map it_id its) (q_id q) = Some n.
Proof. intros its q n H. rewrite <- (map_length it_id its). apply grant_is. exact H. Qed.
Print Assumptions C69_ids_complete.

(* any history of calls gives the answers of the specification; the handle
   made afterwards is the bytes of the metadata accepted; count and
   configuration asked of it are the accepted metadata, in order, and other
   numbers are refused; attached to a track it comes back, also after the
   file is saved and read *)
Theorem C69_history : forall X (x : codec X) y dx, faithful x y -> apart y ->
  forall dri qs, dri < 65536 -> Forall clean qs ->
  let its := snd (history [] qs) in
  let run := calls x (mebx_new dri) qs in
  let h := mebx_bytes dri its in
  fst run = fst (history [] qs) /\ NoDup (map it_id its) /\
  (~ In (code "uuid") (map it_id its) -> len h < 4294967296 ->
   mebx_handle x dx (snd run) = Ok h /\ mebx_count x dx h = Ok (len its) /\ (forall k, mebx_config x dx h k = config its k) /\
   exists a, attach x dx (mentry_codec x dx) [h] = Ok a /\ (forall k, description x (mentry_codec x dx) mentry_dri a k = kth [h] k) /\
     kth [h] 1 = Ok (h, dri) /\
     (16 + len h < 4294967296 -> exists bs, write_box (stsd_codec x dx (mentry_codec x dx)) a = Ok bs /\
       forall d rest, read_box (stsd_codec x dx (mentry_codec x dx)) d (bs ++ rest) = Ok ((ALeaf _ a, len bs), rest))).
Proof.
  intros X x y dx F A dri qs Hd Hq its run h.
  destruct (calls_is x dri qs [] Hq (Forall_nil _) (NoDup_nil _)) as (E & Hi & Hn).
  assert (Er : run = (fst (history [] qs), state dri its)) by exact E. rewrite Er. cbn [fst snd]. split; [reflexivity|]. split; [exact Hn|]. intros Hu Hl.
  destruct (entry_state x y dx dri its Hd Hi Hn Hu) as (L & B & V). set (e := EOther (inr (inr (state dri its)))) in *.
  pose proof (mentry_faithful x y dx F A) as FM. pose proof L as (OK & _).
  assert (Hs : 8 + len (entry_body x y (mentry_layout x y dx) e) < 4294967296) by (rewrite <- len_entry, B; exact Hl).
  assert (T : table_of x dx h = Ok (map key_of its)).
  { unfold table_of, h. rewrite <- B. rewrite (of_handle_is x y dx _ _ F FM e OK Hs), V. reflexivity. }
  split; [|split; [|split]].
  - transitivity (entry_w x (mentry_codec x dx) e); [reflexivity|]. rewrite (entry_w_is x y dx _ _ F FM e OK Hs), B. reflexivity.
  - unfold mebx_count. rewrite T. cbn [bind]. unfold len. rewrite map_length. reflexivity.
  - intros k. unfold mebx_config, config. rewrite T. cbn [bind]. unfold nthN. rewrite nth_error_map. destruct (nth_error its (N.to_nat k)) as [i|]; [|reflexivity].
    cbn [option_map]. destruct (@config_of X i) as (-> & -> & ->). reflexivity.
  - destruct (C55_descriptions X mentry x y dx (mentry_codec x dx) (mentry_layout x y dx) mentry_dri F FM (mentry_dri_is x y dx) [e] [h]) as (a & A1 & A2 & A3).
    + constructor; [exact L|constructor].
    + cbn [map]. rewrite B. reflexivity.
    + constructor; [exact Hl|constructor].
    + exists a. split; [exact A1|]. split; [exact A2|]. split.
      * assert (Ed : dri_at h = dri); [|unfold kth; change (1 =? 0) with false; change (nthN [h] (1 - 1)) with (Some h); cbn match; rewrite Ed; reflexivity].
        unfold h. rewrite <- B. unfold entry_bytes.
        transitivity (mentry_dri (inr (inr (state dri its)) : mentry (T:=X))); [symmetry; apply (mentry_dri_is x y dx (inr (inr (state dri its)))); apply OK|reflexivity].
      * intros H. apply A3. cbn [map fold_right]. lia.
Qed.
Print Assumptions C69_history.

(* adding to any description: whatever boxes it holds before and after its
   table, only the table changes *)
Theorem C69_other_boxes_kept : forall X (x : codec X) m want ns v loc setup n m', mebx_add x m want ns v loc setup = Ok (n, m') ->
  mx_res m' = mx_res m /\ mx_dri m' = mx_dri m /\
  exists before after t t', mx_kids m = before ++ ALeaf _ (inl t) :: after /\ mx_kids m' = before ++ ALeaf _ (inl t') :: after /\
    (existsb (fun k => ky_id k =? want) t = false -> n = want /\ exists k, t' = t ++ [k] /\ ky_id k = want).
Proof.
  intros X x m want ns v loc setup n m' E.
  assert (PT : forall l (t0 : list (mkey (X:=X))), table_in l = Some t0 -> exists before after, l = before ++ ALeaf _ (inl t0) :: after /\ forall t', put_table l t' = before ++ ALeaf _ (inl t') :: after).
  { induction l as [|a l IH]; intros t0 T; [discriminate|]. cbn [table_in put_table] in *. destruct a as [? ? ?|? ?|[t1|y]|? ?];
    try (injection T as <-; exists [], l; split; reflexivity);
    destruct (IH t0 T) as (bf & af & A & B); eexists (_ :: bf), af; (split; [rewrite A at 1; reflexivity|intros t'; cbn [app]; rewrite B; reflexivity]). }
  unfold mebx_add in E. destruct (table_in (mx_kids m)) as [t|] eqn:T; [|discriminate].
  destruct (PT _ _ T) as (bf & af & A & B). cbv zeta in E.
  destruct (search (length t) t want Nothing) as [f|f|] eqn:F; [| |discriminate];
  (destruct (key_value want ns v) as [val| |]; [|discriminate|discriminate]; cbn [bind] in E; destruct (new_keyd ns val) as [d| |]; [|discriminate|discriminate]; cbn [bind] in E;
   match type of E with context [key_add x ?a ?b] => destruct (key_add x a b) as [k1| |]; [|discriminate|discriminate] end; cbn [bind] in E;
   match type of E with (do k2 <- ?e; _) = _ => destruct e as [k2| |]; [|discriminate|discriminate] end; cbn [bind] in E;
   match type of E with (do k3 <- ?e; _) = _ => destruct e as [k3| |]; [|discriminate|discriminate] end; cbn [bind] in E;
   injection E as <- <-; cbn [mx_res mx_dri mx_kids]; split; [reflexivity|]; split; [reflexivity|]; exists bf, af, t; eexists; split; [exact A|]; split; [apply B|]; intros N;
   destruct t as [|t1 t2]; cbn [length search] in F; destruct (want <? 4294967295); try discriminate; rewrite N in F; try discriminate; injection F as <-; (split; [reflexivity|eexists; split; reflexivity])).
Qed.
Print Assumptions C69_other_boxes_kept.
Example C69_other_boxes_ex : exists n m', mebx_add btrt_codec (mkMebx (repeat 0 6) 1 [ALeaf _ (inr (mkBtrt false 1 2 3)); ALeaf _ (inl [])]) 5 (code "me4c") None None None = Ok (n, m') /\ n = 5 /\ length (mx_kids m') = 2%nat.
Proof. eexists. eexists. split; [vm_compute; reflexivity|]. split; reflexivity. Qed.

(* reading a description from any bytes: no undefined behaviour *)
Theorem C69_reading_safe : forall X (x : codec X) dx, robust x -> robust (keys_codec x dx) /\ robust (mebx_codec x dx).
Proof. intros X x dx R. split; [apply keys_robust, R|apply mebx_robust, R]. Qed.
Print Assumptions C69_reading_safe.

(* beside C69: a history; an id in use, one reserved, a value that is not the
   id, a namespace without value, setup data where none may be *)
Lemma btrt_apart : apart btrt_layout.
Proof. intros [b s m a] _ I. destruct b; cbn in I; intuition discriminate. Qed.
Definition a_history : list ask :=
  [mkAsk 1 (code "me4c") None (Some [101; 110]) None; mkAsk 1 (code "mdta") (Some [99; 111; 109]) None (Some [7; 8]);
   mkAsk 4294967295 (code "me4c") None None None; mkAsk 9 (code "me4c") (Some [0; 0; 0; 8]) None None; mkAsk 9 (code "mdta") None None None;
   mkAsk 9 (code "uiso") None None (Some [1]); mkAsk 1634890361 (code "uiso") (Some [97; 114; 114; 121]) None None].
Example C69_ex : Forall clean a_history /\
  history [] a_history = ([Ok 1; Ok 2; Err MP4BadDataErr; Err MP4BadParamErr; Err MP4BadParamErr; Err MP4BadParamErr; Ok 1634890361],
    [mkItem 1 (code "me4c") [0; 0; 0; 1] (Some [101; 110]) None; mkItem 2 (code "mdta") [99; 111; 109] None (Some [7; 8]);
     mkItem 1634890361 (code "uiso") [97; 114; 114; 121] None None]) /\
  len (mebx_bytes 3 (snd (history [] a_history))) = 116.
Proof.
  split; [|split; reflexivity]. unfold a_history. repeat constructor; cbn [q_id q_ns q_loc q_val]; try reflexivity; try discriminate; try lia; repeat constructor.
Qed.

(* ------------------------------------------------------------------ *)
(* C69 in the code                                                     *)

(* the bytes of a value are signed: of a value whose last byte is 128 or more
   the other bytes are lost in the comparison with the id, and the value
   that would be taken if none were given is refused *)
Theorem C69_key_ids_refuted : forall X (x : codec X) dri id loc setup, id < 4294967295 -> 128 <= id mod 256 -> id / 256 <> 16777215 ->
  mebx_add x (mebx_new dri) id (code "me4c") (Some (be32 id)) loc setup = Err MP4BadParamErr /\
  exists m, mebx_add x (mebx_new dri) id (code "me4c") None None None = Ok (id, m).
Proof.
  intros X x dri id loc setup H1 H2 H3. unfold mebx_add. cbn [mebx_new mx_kids table_in]. cbn [search length existsb].
  destruct (N.ltb_spec id 4294967295); [|lia]. split.
  - unfold key_value, be32. change (four_only (code "me4c")) with true. cbn match.
    assert (D : id <> char_code (id / 16777216 mod 256) (id / 65536 mod 256) (id / 256 mod 256) (id mod 256)).
    { intros E. pose proof (code_high (id / 16777216 mod 256) (id / 65536 mod 256) (id / 256 mod 256) (id mod 256) ltac:(lia) ltac:(lia) ltac:(lia) ltac:(lia)) as C.
      rewrite <- E in C. apply H3. rewrite N.mod_small in C by lia. exact C. }
    destruct (N.eqb_spec id (char_code (id / 16777216 mod 256) (id / 65536 mod 256) (id / 256 mod 256) (id mod 256))) as [E|_]; [contradiction|]. reflexivity.
  - eexists. reflexivity.
Qed.
Print Assumptions C69_key_ids_refuted.
Example C69_key_ids_ex : 233 < 4294967295 /\ 128 <= 233 mod 256 /\ 233 / 256 <> 16777215. Proof. repeat split; discriminate. Qed.
(* a value of less than four bytes is read past its end *)
Theorem C69_short_value_refuted : forall X (x : codec X) dri id ns v loc setup, id < 4294967295 -> four_bytes ns = true -> len v < 4 ->
  mebx_add x (mebx_new dri) id ns (Some v) loc setup = UB.
Proof.
  intros X x dri id ns v loc setup H1 H2 H3. unfold mebx_add. cbn [mebx_new mx_kids table_in]. cbn [search length existsb].
  destruct (N.ltb_spec id 4294967295); [|lia]. unfold key_value. rewrite four_same, H2.
  destruct v as [|a [|b [|c [|d v]]]]; try reflexivity. revert H3. lens. lia.
Qed.
Print Assumptions C69_short_value_refuted.

Definition bdx : btrt := mkBtrt false 0 0 0.
Definition got {A} (d : A) (r : res (N * A)) : A := match r with Ok p => snd p | _ => d end.
(* an empty locale is accepted and then the description cannot be made *)
Definition no_locale := Eval vm_compute in got (mebx_new 1) (mebx_add btrt_codec (mebx_new 1) 1 (code "me4c") None (Some []) None).
Theorem C69_empty_locale_refuted : exists m, mebx_add btrt_codec (mebx_new 1) 1 (code "me4c") None (Some []) None = Ok (1, m) /\
  mebx_handle btrt_codec bdx m = Err MP4IOErr.
Proof. exists no_locale. split; vm_compute; reflexivity. Qed.
Print Assumptions C69_empty_locale_refuted.
(* a key with the id of the extended type: its boxes are taken for that type,
   and asking for it is undefined *)
Definition uuid_key := Eval vm_compute in got (mebx_new 1) (mebx_add btrt_codec (mebx_new 1) (code "uuid") (code "me4c") None None None).
Definition uuid_h := Eval vm_compute in match mebx_handle btrt_codec bdx uuid_key with Ok h => h | _ => [] end.
Theorem C69_uuid_refuted : exists m h, mebx_add btrt_codec (mebx_new 1) (code "uuid") (code "me4c") None None None = Ok (code "uuid", m) /\
  mebx_handle btrt_codec bdx m = Ok h /\ mebx_count btrt_codec bdx h = Ok 1 /\ mebx_config btrt_codec bdx h 0 = UB.
Proof. exists uuid_key, uuid_h. repeat split; vm_compute; reflexivity. Qed.
Print Assumptions C69_uuid_refuted.
(* the keys of a QuickTime file are read and forgotten -- or, at the end of
   the file, taken for one key *)
Definition qt_table : list N := box (code "keys") (be32 0 ++ be32 1 ++ box (code "mdta") [99; 111; 109]).
Theorem C69_quicktime_refuted :
  read_box (keys_codec btrt_codec bdx) [] (qt_table ++ box (code "free") []) = Ok ((ALeaf _ [], len qt_table), box (code "free") []) /\
  write_box (keys_codec btrt_codec bdx) [] = Ok (box (code "keys") []) /\
  exists k, read_box (keys_codec btrt_codec bdx) [] qt_table = Ok ((ALeaf _ [k], len qt_table), []) /\ keyd_of k = None.
Proof.
  split; [vm_compute; reflexivity|]. split; [vm_compute; reflexivity|].
  exists (mkKey 1 [AOpaque kkid (code "mdta") [] [99; 111; 109]]). split; vm_compute; reflexivity.
Qed.
Print Assumptions C69_quicktime_refuted.
(* a locale box without contents is read, and saving it is undefined *)
Theorem C69_no_locale_refuted : exists k,
  read_box (keys_codec btrt_codec bdx) [] (box (code "keys") (box 5 (box (code "keyd") (be32 7 ++ [1]) ++ box (code "loca") []))) = Ok ((ALeaf _ [k], 37), []) /\
  write_box (keys_codec btrt_codec bdx) [k] = UB.
Proof. exists (mkKey 5 [ALeaf kkid (inl (mkKeyd 7 [1])); ALeaf kkid (inr (inl None))]). split; vm_compute; reflexivity. Qed.
Print Assumptions C69_no_locale_refuted.
(* descriptions of other kinds are taken for this one *)
Theorem C69_other_kinds_refuted : exists h, entry_w btrt_codec (mentry_codec btrt_codec bdx) (EOther (inr (inl (mett_new 1 None None)))) = Ok h /\
  mebx_count btrt_codec bdx h = UB.
Proof. exists (box (code "mett") [0; 0; 0; 0; 0; 0; 0; 1; 0; 0]). split; vm_compute; reflexivity. Qed.
Print Assumptions C69_other_kinds_refuted.

(* ------------------------------------------------------------------ *)
(* C70                                                                 *)

(* a description is made, attached, handed out again, saved and read *)
Definition kept_with {T O} (c : codec T) (dflt : T) (o : codec O) (odri : O -> N) (h : list N) (dri : N) : Prop :=
  exists a, attach c dflt o [h] = Ok a /\ description c o odri a 1 = Ok (h, dri) /\ (forall k, k <> 1 -> description c o odri a k = Err MP4BadParamErr) /\
   (16 + len h < 4294967296 -> exists bs, write_box (stsd_codec c dflt o) a = Ok bs /\
      forall d rest, read_box (stsd_codec c dflt o) d (bs ++ rest) = Ok ((ALeaf _ a, len bs), rest)).
Lemma kept_is {T O} (c : codec T) y dflt (o : codec O) yo odri : faithful c y -> faithful o yo ->
  (forall x, l_ok yo x -> odri x = dri_at (box (l_ty yo x) (l_body yo x))) -> forall e h dri,
  lasting c y o yo e -> entry_bytes c y yo e = h -> ent_dri odri e = dri -> len h < 4294967296 ->
  entry_w c o e = Ok h /\ of_handle c dflt o false h = Ok (entry_view c y yo e) /\ kept_with c dflt o odri h dri.
Proof.
  intros F FO OD e h dri L <- <- Hl. pose proof L as (OK & _).
  assert (Hs : 8 + len (entry_body c y yo e) < 4294967296) by (rewrite <- len_entry; exact Hl).
  split; [apply (entry_w_is c y dflt o yo F FO e OK Hs)|]. split; [apply (of_handle_is c y dflt o yo F FO e OK Hs)|].
  destruct (C55_descriptions T O c y dflt o yo odri F FO OD [e] [entry_bytes c y yo e]) as (a & A1 & A2 & A3).
  - constructor; [exact L|constructor].
  - reflexivity.
  - constructor; [exact Hl|constructor].
  - exists a. split; [exact A1|]. split; [|split].
    + rewrite A2, (dri_is c y o yo odri OD e OK). reflexivity.
    + intros k Hk. rewrite A2. unfold kth. destruct (N.eqb_spec k 0); [reflexivity|]. unfold nthN.
      destruct (nth_error [entry_bytes c y yo e] (N.to_nat (k - 1))) eqn:E; [|reflexivity]. exfalso.
      assert (S : (N.to_nat (k - 1) < 1)%nat) by (apply nth_error_Some with (l := [entry_bytes c y yo e]); congruence). lia.
    + intros H. apply A3. cbn [map fold_right]. lia.
Qed.
Lemma brief_short s : brief s -> short (terminate s) /\ ostr (terminate s) = zstr s.
Proof. destruct s as [s|]; [|intros; split; [exact I|reflexivity]]. intros [H1 H2]. split; [exists s; auto|reflexivity]. Qed.

Theorem C70_metadata : forall X (x : codec X) y dx, faithful x y -> apart y -> forall dri enc a b, dri < 65536 -> brief enc -> brief a -> brief b ->
  (let h := metx_bytes dri enc a b in len h < 4294967296 ->
   entry_w x (mentry_codec x dx) (EOther (inl (metx_new dri enc a b))) = Ok h /\
   of_handle x dx (mentry_codec x dx) false h = Ok (EOther (inl (mkMetx (repeat 0 6) dri (Some (zstr enc)) (Some (zstr a)) (Some (zstr b)) []))) /\
   kept_with x dx (mentry_codec x dx) mentry_dri h dri) /\
  (let h := mett_bytes dri enc a in len h < 4294967296 ->
   entry_w x (mentry_codec x dx) (EOther (inr (inl (mett_new dri enc a)))) = Ok h /\
   of_handle x dx (mentry_codec x dx) false h = Ok (EOther (inr (inl (mkMett (repeat 0 6) dri (Some (zstr enc)) (Some (zstr a)) [])))) /\
   kept_with x dx (mentry_codec x dx) mentry_dri h dri).
Proof.
  intros X x y dx F A dri enc a b Hd He Ha Hb. pose proof (mentry_faithful x y dx F A) as FM.
  destruct (brief_short _ He) as [E1 E2]. destruct (brief_short _ Ha) as [A1 A2]. destruct (brief_short _ Hb) as [B1 B2].
  assert (Z : forall s, brief s -> short (Some (zstr s)) ).
  { intros [s|] Hs; cbn [zstr short]; [exists s; destruct Hs; auto|exists []; repeat split; constructor]. }
  split; intros h Hl.
  - set (e := EOther (inl (metx_new dri enc a b)) : ent X mentry).
    assert (OK : entry_ok x y (mentry_codec x dx) (mentry_layout x y dx) e).
    { split; [reflexivity|]. split; [discriminate|]. repeat split; try assumption; constructor. }
    assert (V : entry_view x y (mentry_layout x y dx) e = EOther (inl (mkMetx (repeat 0 6) dri (Some (zstr enc)) (Some (zstr a)) (Some (zstr b)) []))).
    { cbn [entry_view mentry_layout lsum l_view metx_layout e metx_new mt_res mt_dri mt_enc mt_ns mt_loc mt_exts]. rewrite E2, A2, B2. reflexivity. }
    assert (B : entry_bytes x y (mentry_layout x y dx) e = h).
    { unfold entry_bytes, h, metx_bytes. cbn [entry_type entry_body mentry_layout lsum l_ty l_body metx_layout e metx_new mt_res mt_dri mt_enc mt_ns mt_loc mt_exts]. rewrite E2, A2, B2. unfold kids_bytes. cbn [flat_map]. rewrite app_nil_r. reflexivity. }
    rewrite <- V. apply (kept_is x y dx _ _ mentry_dri F FM (mentry_dri_is x y dx) e h dri); [|exact B|reflexivity|exact Hl].
    split; [exact OK|]. rewrite V, B. split.
    + split; [reflexivity|]. split; [discriminate|]. repeat split; try apply Z; try assumption; constructor.
    + unfold entry_bytes, h, metx_bytes. cbn [entry_type entry_body mentry_layout lsum l_ty l_body metx_layout mt_res mt_dri mt_enc mt_ns mt_loc mt_exts ostr]. unfold kids_bytes. cbn [flat_map]. rewrite app_nil_r. reflexivity.
  - set (e := EOther (inr (inl (mett_new dri enc a))) : ent X mentry).
    assert (OK : entry_ok x y (mentry_codec x dx) (mentry_layout x y dx) e).
    { split; [reflexivity|]. split; [discriminate|]. repeat split; try assumption; constructor. }
    assert (V : entry_view x y (mentry_layout x y dx) e = EOther (inr (inl (mkMett (repeat 0 6) dri (Some (zstr enc)) (Some (zstr a)) [])))).
    { cbn [entry_view mentry_layout lsum l_view mett_layout e mett_new me_res me_dri me_enc me_mime me_exts]. rewrite E2, A2. reflexivity. }
    assert (B : entry_bytes x y (mentry_layout x y dx) e = h).
    { unfold entry_bytes, h, mett_bytes. cbn [entry_type entry_body mentry_layout lsum l_ty l_body mett_layout e mett_new me_res me_dri me_enc me_mime me_exts]. rewrite E2, A2. unfold kids_bytes. cbn [flat_map]. rewrite app_nil_r. reflexivity. }
    rewrite <- V. apply (kept_is x y dx _ _ mentry_dri F FM (mentry_dri_is x y dx) e h dri); [|exact B|reflexivity|exact Hl].
    split; [exact OK|]. rewrite V, B. split.
    + split; [reflexivity|]. split; [discriminate|]. repeat split; try apply Z; try assumption; constructor.
    + unfold entry_bytes, h, mett_bytes. cbn [entry_type entry_body mentry_layout lsum l_ty l_body mett_layout me_res me_dri me_enc me_mime me_exts ostr]. unfold kids_bytes. cbn [flat_map]. rewrite app_nil_r. reflexivity.
Qed.
Print Assumptions C70_metadata.
Example C70_metadata_ex : brief (Some [117; 116; 102]) /\ brief None /\ len (metx_bytes 1 None (Some [117; 116; 102]) None) = 22.
Proof. repeat split; repeat constructor. Qed.

(* any strings and boxes *)
Theorem C70_entries_survive : forall X (x : codec X) y dx, faithful x y ->
  survives (metx_codec x dx) (metx_layout x y) /\ survives (mett_codec x dx) (mett_layout x y).
Proof. intros X x y dx F. split; apply of_faithful; [apply metx_faithful|apply mett_faithful]; exact F. Qed.
Print Assumptions C70_entries_survive.

(* 3GPP *)
Definition apart3 {X} (y : layout X) : Prop := forall t, l_ok y t -> ~ In (l_ty y t) [code "damr"; code "dawp"; code "d263"].
Lemma tkid_faithful {X} (x : codec X) y dx : faithful x y -> apart3 y -> faithful (tkid_codec x dx) (tkid_layout x y).
Proof.
  intros F A. assert (K : forall u t, l_ok y t -> In u [code "damr"; code "dawp"; code "d263"] -> (u =? c_ty x t) = false).
  { intros u t Ht Hu. destruct (N.eqb_spec u (c_ty x t)) as [E|]; [exfalso|reflexivity]. apply (A t Ht). rewrite <- (proj2 (proj2 (proj2 (proj1 F t Ht)))), <- E. exact Hu. }
  apply faithful_sum; [apply exact_faithful, damr_exact|apply faithful_sum; [apply exact_faithful, dawp_exact|apply faithful_sum; [apply d263_faithful, F|exact F|]|]|].
  - intros t Ht. apply K; [exact Ht|cbn; auto].
  - intros [b|t] Ht; [reflexivity|]. apply K; [exact Ht|cbn; auto].
  - intros [b|[b|t]] Ht; [reflexivity..|]. apply K; [exact Ht|cbn; auto].
Qed.
Section Tgpp.
Context {X O : Type} (x : codec X) (y : layout X) (dx : X) (o : codec O) (yo : layout O) (odri : O -> N).
Hypothesis F : faithful x y.
Hypothesis A : apart3 y.
Hypothesis FO : faithful o yo.
Hypothesis OD : forall t, l_ok yo t -> odri t = dri_at (box (l_ty yo t) (l_body yo t)).
Notation tc := (tkid_codec x dx). Notation td := (inr (inr (inr dx)) : tkid (X:=X)).
(* what is promised of a new description [r] with one box [p] *)
Definition made (r : res (list N)) (h : list N) (dri ty : N) (p : tkid) : Prop :=
  len h < 4294967296 -> r = Ok h /\ get_ext tc td o (fun _ => []) h ty = Ok (ALeaf _ p) /\ kept_with tc td o odri h dri.
Lemma made_is e h dri p : lasting tc (tkid_layout x y) o yo e -> entry_bytes tc (tkid_layout x y) yo e = h -> ent_dri odri e = dri ->
  entry_view tc (tkid_layout x y) yo e = e -> exts_of e = [ALeaf _ p] -> (forall z, e <> EOther z) -> made (entry_w tc o e) h dri (c_ty tc p) p.
Proof.
  intros L B D V Ex NO Hl. destruct (kept_is tc (tkid_layout x y) td o yo odri (tkid_faithful x y dx F A) FO OD e h dri L B D Hl) as (K1 & K2 & K3).
  split; [exact K1|]. split; [|exact K3]. unfold get_ext. rewrite K2, V. cbn [bind].
  destruct e as [ty r d b l|ty r d l|ty f l|ty f l|z]; cbn [exts_of] in Ex; subst; try (cbn [find atype]; rewrite N.eqb_refl; reflexivity). destruct (NO z eq_refl).
Qed.
Theorem C70_h263 : forall dri vendor ver level profile, dri < 65536 -> vendor < 4294967296 -> ver < 256 -> level < 256 -> profile < 256 ->
  made (new_h263 x dx o VisualTrack dri vendor ver level profile) (h263_bytes dri vendor ver level profile) dri (code "d263")
    (inr (inr (inl (mkD263 vendor ver level profile [])))) /\
  forall k, k <> VisualTrack -> new_h263 x dx o k dri vendor ver level profile = Err MP4BadParamErr.
Proof.
  intros dri vendor ver level profile H1 H2 H3 H4 H5. split; [|intros [|ts|] D; [congruence|reflexivity..]].
  assert (S : Forall (settled tc (tkid_layout x y)) [ALeaf tkid (inr (inr (inl (mkD263 vendor ver level profile []))))]).
  { constructor; [|constructor]. split; [|split; reflexivity]. repeat split; try assumption. constructor. }
  cbn [new_h263]. change (code "d263") with (c_ty tc (inr (inr (inl (mkD263 vendor ver level profile []))))). apply made_is; try reflexivity; try discriminate.
  - apply lasting_settled; [exact FO| |exact S]. split; [reflexivity|]. split; [discriminate|]. split; [left; reflexivity|]. split; [repeat split; first [assumption|reflexivity|cbn; lia]|].
    eapply Forall_impl; [|exact S]. intros k Hk. apply Hk.
  - unfold entry_bytes, h263_bytes. cbn [entry_type entry_body]. unfold kids_bytes, vfix_bytes. cbn [flat_map]. rewrite app_nil_r.
    cbn [vfix_new v_res v_dri v_res2 v_w v_h v_r4 v_r5 v_r6 v_r7 v_nlen v_name v_r8 v_r9]. f_equal. rewrite <- !app_assoc. do 9 f_equal.
    change (kid_enc tc (tkid_layout x y) (ALeaf tkid (inr (inr (inl (mkD263 vendor ver level profile [])))))) with
      (box (code "d263") (be32 vendor ++ be8 ver ++ be8 level ++ be8 profile ++ [])).
    unfold be8, w8. rewrite (N.mod_small ver), (N.mod_small level), (N.mod_small profile) by assumption. reflexivity.
Qed.
Theorem C70_amr : forall dri wb ts vendor ver modes period frames, dri < 65536 -> ts < 65536 -> vendor < 4294967296 -> ver < 256 -> modes < 65536 -> period < 256 -> frames < 256 ->
  made (new_amr x dx o (AudioTrack ts) dri wb vendor ver modes period frames)
    (amr_bytes (if wb then code "sawb" else code "samr") dri ts (damr_bytes vendor ver modes period frames)) dri (code "damr") (inl (mkDamr vendor ver modes period frames)) /\
  forall k, (forall t, k <> AudioTrack t) -> new_amr x dx o k dri wb vendor ver modes period frames = Err MP4BadParamErr.
Proof.
  intros dri wb ts vendor ver modes period frames H1 Ht H2 H3 H4 H5 H6. split; [|intros [|t|] D; [reflexivity|destruct (D t eq_refl)|reflexivity]].
  assert (S : Forall (settled tc (tkid_layout x y)) [ALeaf tkid (inl (mkDamr vendor ver modes period frames))]).
  { constructor; [|constructor]. split; [|split; reflexivity]. repeat split; try assumption. }
  cbn [new_amr]. change (code "damr") with (c_ty tc (inl (mkDamr vendor ver modes period frames))). apply made_is; try reflexivity; try discriminate.
  - apply lasting_settled; [exact FO| |exact S]. split; [destruct wb; reflexivity|]. split; [destruct wb; discriminate|]. split; [left; destruct wb; reflexivity|]. split; [repeat split; first [assumption|reflexivity|cbn; lia]|].
    eapply Forall_impl; [|exact S]. intros k Hk. apply Hk.
  - unfold entry_bytes, amr_bytes. cbn [entry_type entry_body]. unfold kids_bytes, afix_bytes. cbn [flat_map]. rewrite app_nil_r.
    cbn [amr_fix a_res a_dri a_res2 a_r3 a_r4 a_r5 a_ts a_r6]. f_equal. rewrite <- !app_assoc. do 8 f_equal.
    change (kid_enc tc (tkid_layout x y) (ALeaf tkid (inl (mkDamr vendor ver modes period frames)))) with
      (box (code "damr") (be32 vendor ++ be8 ver ++ be16 modes ++ be8 period ++ be8 frames)).
    unfold be8, w8. rewrite !N.mod_small by assumption. reflexivity.
  - destruct wb; reflexivity.
Qed.
Theorem C70_amrwp : forall dri ts vendor ver, dri < 65536 -> ts < 65536 -> vendor < 4294967296 -> ver < 256 ->
  made (new_amrwp x dx o (AudioTrack ts) dri vendor ver) (amr_bytes (code "sawp") dri ts (dawp_bytes vendor ver)) dri (code "dawp") (inr (inl (mkDawp vendor ver))) /\
  forall k, (forall t, k <> AudioTrack t) -> new_amrwp x dx o k dri vendor ver = Err MP4BadParamErr.
Proof.
  intros dri ts vendor ver H1 Ht H2 H3. split; [|intros [|t|] D; [reflexivity|destruct (D t eq_refl)|reflexivity]].
  assert (S : Forall (settled tc (tkid_layout x y)) [ALeaf tkid (inr (inl (mkDawp vendor ver)))]).
  { constructor; [|constructor]. split; [|split; reflexivity]. repeat split; try assumption. }
  cbn [new_amrwp]. change (code "dawp") with (c_ty tc (inr (inl (mkDawp vendor ver)))). apply made_is; try reflexivity; try discriminate.
  - apply lasting_settled; [exact FO| |exact S]. split; [reflexivity|]. split; [discriminate|]. split; [left; reflexivity|]. split; [repeat split; first [assumption|reflexivity|cbn; lia]|].
    eapply Forall_impl; [|exact S]. intros k Hk. apply Hk.
  - unfold entry_bytes, amr_bytes. cbn [entry_type entry_body]. unfold kids_bytes, afix_bytes. cbn [flat_map]. rewrite app_nil_r.
    cbn [amr_fix a_res a_dri a_res2 a_r3 a_r4 a_r5 a_ts a_r6]. f_equal. rewrite <- !app_assoc. do 8 f_equal.
    change (kid_enc tc (tkid_layout x y) (ALeaf tkid (inr (inl (mkDawp vendor ver))))) with
      (box (code "dawp") (be32 vendor ++ be8 ver)).
    unfold be8, w8. rewrite !N.mod_small by assumption. reflexivity.
Qed.
End Tgpp.
Print Assumptions C70_h263.
Print Assumptions C70_amr.
Print Assumptions C70_amrwp.
Definition h263_desc := Eval vm_compute in match new_h263 btrt_codec bdx no_codec VisualTrack 1 (code "abcd") 1 10 0 with Ok h => h | _ => [] end.
Definition amr_desc := Eval vm_compute in match new_amr btrt_codec bdx no_codec (AudioTrack 8000) 1 false (code "abcd") 0 33279 0 1 with Ok h => h | _ => [] end.
Example C70_tgpp_ex : new_h263 btrt_codec bdx no_codec VisualTrack 1 (code "abcd") 1 10 0 = Ok h263_desc /\ len h263_desc = 101 /\
  new_amr btrt_codec bdx no_codec (AudioTrack 8000) 1 false (code "abcd") 0 33279 0 1 = Ok amr_desc /\ len amr_desc = 53 /\
  faithful btrt_codec btrt_layout /\ apart3 btrt_layout.
Proof.
  split; [vm_compute; reflexivity|]. split; [vm_compute; reflexivity|]. split; [vm_compute; reflexivity|]. split; [vm_compute; reflexivity|].
  split; [exact (exact_faithful _ _ btrt_exact)|].
  intros [b s m a] _ I. destruct b; cbn in I; intuition discriminate.
Qed.

(* a time scale of 65536 or more is stored as its low 16 bits *)
Theorem C70_timescale_refuted : forall X O (x : codec X) dx (o : codec O) ts dri wb vendor ver modes period frames, 65536 <= ts ->
  new_amr x dx o (AudioTrack ts) dri wb vendor ver modes period frames =
  new_amr x dx o (AudioTrack (ts mod 65536)) dri wb vendor ver modes period frames /\ ts mod 65536 <> ts.
Proof.
  intros X O x dx o ts dri wb vendor ver modes period frames H. split; [|lia].
  assert (E : be16 (ts mod 65536) = be16 ts) by (unfold be16; f_equal; [|f_equal]; lia).
  unfold new_amr, entry_w. cbn [ent_w ent_size]. unfold afix_w. cbn [amr_fix a_res a_dri a_res2 a_r3 a_r4 a_r5 a_ts a_r6]. unfold put16. rewrite E. reflexivity.
Qed.
Print Assumptions C70_timescale_refuted.
(* a string of 1024 bytes or more is written, and reading it back -- which
   attaching the description does -- is undefined *)
Theorem C70_long_string_refuted : forall X (x : codec X) dx s dri, text s -> 1024 <= len s -> 18 + len s < 4294967296 -> dri < 65536 ->
  entry_w x (mentry_codec x dx) (EOther (inr (inl (mett_new dri (Some s) None)))) = Ok (mett_bytes dri (Some s) None) /\
  of_handle x dx (mentry_codec x dx) false (mett_bytes dri (Some s) None) = UB /\
  attach x dx (mentry_codec x dx) [mett_bytes dri (Some s) None] = UB.
Proof.
  intros X x dx s dri Hs Hn Hl Hd.
  set (body := repeat 0 6 ++ be16 dri ++ cstr s ++ [0]). assert (Lb : len body = 10 + len s) by (unfold body; lens; rewrite ?len_cstr; lia).
  change (mett_bytes dri (Some s) None) with (box (code "mett") body).
  assert (U : of_handle x dx (mentry_codec x dx) false (box (code "mett") body) = UB).
  { unfold of_handle, entry_at. cbn [inp rdn]. rewrite <- (app_nil_r (box _ _)) at 1.
    rewrite parse_hdr_box by (try reflexivity; try discriminate; lia). cbn [bind fst snd inp h_read].
    change (ent_rd x dx (mentry_codec x dx) false (mkH (8 + len body) 0 (code "mett") [] 8)) with
      (rmap (EOther (T:=X)) (rmap (inr (A:=metx X)) (rmap (inl (B:=mebx (X:=X))) (mett_rd x dx (mkH (8 + len body) 0 (code "mett") [] 8))))).
    unfold rmap at 1 2 3, rbind at 1 2 3, mett_rd. change (body ++ []) with ((repeat 0 6 ++ be16 dri ++ cstr s ++ [0]) ++ []). rewrite <- !app_assoc.
    unfold rbind at 1. rewrite (reads_take 8 6 (repeat 0 6)) by reflexivity.
    change (w32 (8 + len (repeat 0 6))) with 14. unfold rbind at 1. rewrite (proj1 (parses_get16 14 dri Hd)). change (w32 (14 + len (be16 dri))) with 16.
    unfold rbind at 1. unfold str_if at 1. unfold rbind at 1. unfold getrdn at 1. cbn [rdn h_size]. destruct (N.ltb_spec 16 (8 + len body)); [|lia].
    unfold rmap at 1, rbind at 1. unfold readstring. rewrite gets_long; [reflexivity|exact Hs|unfold len in Hn; lia]. }
  split; [|split; [exact U|]].
  - unfold entry_w. cbn [ent_size ent_ty ent_w mentry_codec csum c_size c_ty c_w mett_codec mett_new].
    unfold mett_size, mett_w. cbn [mett_new me_res me_dri me_enc me_mime me_exts terminate option_map ostr_len].
    change (s ++ [0]) with (cstr s). rewrite (slen_cstr s Hs). cbn [boxes_size fold_left]. rewrite w32_small by lia.
    replace (8 + (8 + 2) + len s + 0) with (8 + len body) by lia.
    apply writes_run; [|unfold box; lens; lia|lia]. unfold box. rewrite app_assoc. apply writes_seq; [apply writes_base; lia|]. unfold body.
    apply writes_seq; [wstep|]. apply writes_seq; [wstep|]. apply writes_seq; [apply writes_str, Hs|]. eapply writes_eq; [apply writes_seq; [apply (writes_put8 0)|]|].
    + cbn [boxes_w fold_right]. apply writes_ret.
    + reflexivity.
  - unfold attach, describe. cbn [fold_left bind]. rewrite U. reflexivity.
Qed.
Print Assumptions C70_long_string_refuted.
(* of three strings the first two may be missing: two strings are read as the
   encoding alone *)
Definition two_strings : list N := box (code "metx") (repeat 0 6 ++ be16 1 ++ [97; 0; 98; 0]).
Theorem C70_two_strings_refuted : exists m, of_handle btrt_codec bdx (mentry_codec btrt_codec bdx) false two_strings = Ok (EOther (inl m)) /\
  mt_enc m = Some [97; 0] /\ mt_ns m = None /\ mt_loc m = None.
Proof. exists (mkMetx (repeat 0 6) 1 (Some [97; 0]) None None []). repeat split; vm_compute; reflexivity. Qed.
Print Assumptions C70_two_strings_refuted.

(* MebxSpec.v -- metadata sample descriptions as the standard lays them out,
   and what the calls that make them promise. *)
From Verif Require Import Base BoxSpec BoxModel AtomModel AtomSpec KidsModel KidsProofs TextModel TextSpec EntryModel EntrySpec SmallModel SmallSpec MebxModel.

(* the two namespaces whose values are four bytes *)
Definition four_bytes (ns : N) : bool := (ns =? code "me4c") || (ns =? code "uiso").

Definition keyd_layout : layout keyd := mkLayout (fun _ => code "keyd")
  (fun a => be32 (kd_ns a) ++ kd_val a) same
  (fun a => kd_ns a < 4294967296 /\ (four_bytes (kd_ns a) = true -> len (kd_val a) = 4)).
Definition loca_layout : layout (option (list N)) := mkLayout (fun _ => code "loca")
  (fun a => match a with Some b => b | None => [] end) same
  (fun a => exists s, text s /\ s <> [] /\ a = Some (cstr s)).
Definition setu_layout : layout (list N) := mkLayout (fun _ => code "setu") same same (fun _ => True).

(* among the boxes no two have the same of the types [once] *)
Definition lone {T} (c : codec T) (once : list N) (l : list (atom T)) : Prop :=
  NoDup (filter (fun t => existsb (N.eqb t) once) (map (atype T (c_ty c)) l)).

Section Spec.
Context {X : Type} (x : codec X) (y : layout X) (dx : X).

(* no other box has one of the types described here *)
Definition apart : Prop := forall t, l_ok y t -> ~ In (l_ty y t) [code "keyd"; code "loca"; code "setu"; code "keys"].

Definition kkid_layout : layout (kkid (X:=X)) := lsum keyd_layout (lsum loca_layout (lsum setu_layout y)).
Definition key_bytes (k : mkey (X:=X)) : list N := box (ky_id k) (kids_bytes (kkid_codec x) kkid_layout (ky_kids k)).
Definition key_ok (k : mkey (X:=X)) : Prop :=
  ky_id k < 4294967296 /\ ky_id k <> code "uuid" /\ Forall (kid_ok (kkid_codec x) kkid_layout) (ky_kids k) /\
  lone (kkid_codec x) [code "keyd"; code "loca"; code "setu"] (ky_kids k).
Definition key_view (k : mkey (X:=X)) : mkey (X:=X) := mkKey (ky_id k) (kid_view kkid_layout (ky_kids k)).
(* the key table: a box for every key, whose type is the key's id *)
Definition keys_layout : layout (list (mkey (X:=X))) := mkLayout (fun _ => code "keys")
  (flat_map key_bytes) (map key_view) (fun l => Forall key_ok l /\ NoDup (map ky_id l)).

Definition mkid_layout : layout (list (mkey (X:=X)) + X) := lsum keys_layout y.
Definition mebx_layout : layout (mebx (X:=X)) := mkLayout (fun _ => code "mebx")
  (fun m => mx_res m ++ be16 (mx_dri m) ++ kids_bytes (mkid_codec x dx) mkid_layout (mx_kids m))
  (fun m => mkMebx (mx_res m) (mx_dri m) (kid_view mkid_layout (mx_kids m)))
  (fun m => len (mx_res m) = 6 /\ mx_dri m < 65536 /\ Forall (kid_ok (mkid_codec x dx) mkid_layout) (mx_kids m) /\
     lone (mkid_codec x dx) [code "keys"] (mx_kids m)).

(* strings which may be left out: a zero then *)
Definition short (b : option (list N)) : Prop := match b with Some b => exists s, text s /\ len s < 1024 /\ b = cstr s | None => True end.
Definition ostr (b : option (list N)) : list N := match b with Some b => b | None => [0] end.
Definition metx_layout : layout (metx X) := mkLayout (fun _ => code "metx")
  (fun a => mt_res a ++ be16 (mt_dri a) ++ ostr (mt_enc a) ++ ostr (mt_ns a) ++ ostr (mt_loc a) ++ kids_bytes x y (mt_exts a))
  (fun a => mkMetx (mt_res a) (mt_dri a) (Some (ostr (mt_enc a))) (Some (ostr (mt_ns a))) (Some (ostr (mt_loc a))) (kid_view y (mt_exts a)))
  (fun a => len (mt_res a) = 6 /\ mt_dri a < 65536 /\ short (mt_enc a) /\ short (mt_ns a) /\ short (mt_loc a) /\ Forall (kid_ok x y) (mt_exts a)).
Definition mett_layout : layout (mett X) := mkLayout (fun _ => code "mett")
  (fun a => me_res a ++ be16 (me_dri a) ++ ostr (me_enc a) ++ ostr (me_mime a) ++ kids_bytes x y (me_exts a))
  (fun a => mkMett (me_res a) (me_dri a) (Some (ostr (me_enc a))) (Some (ostr (me_mime a))) (kid_view y (me_exts a)))
  (fun a => len (me_res a) = 6 /\ me_dri a < 65536 /\ short (me_enc a) /\ short (me_mime a) /\ Forall (kid_ok x y) (me_exts a)).
Definition mentry_layout : layout (mentry (T:=X)) := lsum metx_layout (lsum mett_layout mebx_layout).
End Spec.

(* ------------------------------------------------------------------ *)
(* Adding metadata                                                     *)

(* what a call asks for: an id, the namespace, and perhaps a value, a locale
   and setup data *)
Record ask := mkAsk { q_id : N; q_ns : N; q_val : option (list N); q_loc : option (list N); q_setup : option (list N) }.
(* what the table then holds *)
Record item := mkItem { it_id : N; it_ns : N; it_val : list N; it_loc : option (list N); it_setup : option (list N) }.

(* the first id from [want] on that is not in use; the last number is none *)
Definition last_id : N := 4294967295.
Definition first_free (ids : list N) (want n : N) : Prop :=
  want <= n < last_id /\ ~ In n ids /\ forall m, want <= m < n -> In m ids.
Fixpoint grant (k : nat) (ids : list N) (n : N) : option N :=
  if n <? last_id then if existsb (N.eqb n) ids then match k with O => None | S k => grant k ids (n + 1) end else Some n
  else None.
(* the value: in the two namespaces, the id asked for *)
Definition value (q : ask) : option (list N) :=
  if four_bytes (q_ns q) then
    match q_val q with
    | None => Some (be32 (q_id q))
    | Some b => if list_eq_dec N.eq_dec b (be32 (q_id q)) then Some b else None
    end
  else match q_val q with None => None | Some [] => None | Some b => Some b end.
Definition setup_ok (q : ask) : bool :=
  match q_setup q with None => true | Some [] => false | Some _ => negb (q_ns q =? code "uiso") end.
Definition answer (its : list item) (q : ask) : res item :=
  if q_id q =? last_id then Err MP4BadDataErr
  else match value q with
  | None => Err MP4BadParamErr
  | Some v =>
      match grant (length its) (map it_id its) (q_id q) with
      | None => Err MP4BadDataErr
      | Some n => if setup_ok q then Ok (mkItem n (q_ns q) v (q_loc q) (q_setup q)) else Err MP4BadParamErr
      end
  end.
(* a history of calls: the answers, and what is in the table after it *)
Fixpoint history (its : list item) (qs : list ask) : list (res N) * list item :=
  match qs with
  | [] => ([], its)
  | q :: r =>
      match answer its q with
      | Ok i => let h := history (its ++ [i]) r in (Ok (it_id i) :: fst h, snd h)
      | Err e => let h := history its r in (Err e :: fst h, snd h)
      | UB => ([UB], its)
      end
  end.
(* the same calls on the model *)
Fixpoint calls {X} (x : codec X) (m : mebx (X:=X)) (qs : list ask) : list (res N) * mebx (X:=X) :=
  match qs with
  | [] => ([], m)
  | q :: r =>
      match mebx_add x m (q_id q) (q_ns q) (q_val q) (q_loc q) (q_setup q) with
      | Ok p => let h := calls x (snd p) r in (Ok (fst p) :: fst h, snd h)
      | Err e => let h := calls x m r in (Err e :: fst h, snd h)
      | UB => ([UB], m)
      end
  end.
(* the arguments of such a call: locales are C strings that are not empty, and
   a value given in one of the two namespaces has at least four bytes, the
   first four being below 128 (see the refutations) *)
Definition clean (q : ask) : Prop :=
  q_id q < 4294967296 /\ q_ns q < 4294967296 /\
  match q_loc q with Some s => text s /\ s <> [] | None => True end /\
  match q_val q with
  | Some b => four_bytes (q_ns q) = true -> 4 <= len b /\ Forall (fun c => c < 128) (firstn 4 b)
  | None => True
  end.

(* the bytes of the description *)
Definition item_bytes (i : item) : list N :=
  box (it_id i) (box (code "keyd") (be32 (it_ns i) ++ it_val i) ++
    match it_loc i with Some s => box (code "loca") (cstr s) | None => [] end ++
    match it_setup i with Some b => box (code "setu") b | None => [] end).
Definition mebx_bytes (dri : N) (its : list item) : list N :=
  box (code "mebx") (repeat 0 6 ++ be16 dri ++ box (code "keys") (flat_map item_bytes its)).
(* what is asked of the description and comes back: the locale as a C string *)
Definition config (its : list item) (k : N) : res (N * N * list N * option (option (list N)) * option (list N)) :=
  match nthN its k with
  | Some i => Ok (it_id i, it_ns i, it_val i, option_map (fun s => Some (cstr s)) (it_loc i), it_setup i)
  | None => Err MP4BadParamErr
  end.

(* strings of the other two metadata descriptions *)
Definition zstr (s : option (list N)) : list N := match s with Some s => cstr s | None => [0] end.
Definition brief (s : option (list N)) : Prop := match s with Some s => text s /\ len s < 1024 | None => True end.
Definition metx_bytes (dri : N) (enc ns loc : option (list N)) : list N :=
  box (code "metx") (repeat 0 6 ++ be16 dri ++ zstr enc ++ zstr ns ++ zstr loc).
Definition mett_bytes (dri : N) (enc mime : option (list N)) : list N :=
  box (code "mett") (repeat 0 6 ++ be16 dri ++ zstr enc ++ zstr mime).

(* 3GPP: the audio entry, 16 bits, two channels, with one box *)
Definition amr_bytes (ty dri ts : N) (b : list N) : list N :=
  box ty (repeat 0 6 ++ be16 dri ++ repeat 0 8 ++ be16 2 ++ be16 16 ++ be32 0 ++ be16 ts ++ be16 0 ++ b).
Definition damr_bytes (vendor ver modes period frames : N) : list N :=
  box (code "damr") (be32 vendor ++ [ver] ++ be16 modes ++ [period; frames]).
Definition dawp_bytes (vendor ver : N) : list N := box (code "dawp") (be32 vendor ++ [ver]).
(* the video entry: 320 by 240, 72 dots per inch, 24 bits *)
Definition h263_bytes (dri vendor ver level profile : N) : list N :=
  box (code "s263") (repeat 0 6 ++ be16 dri ++ repeat 0 16 ++ be16 320 ++ be16 240 ++ be32 4718592 ++ be32 4718592 ++ be32 0 ++
    be16 1 ++ repeat 0 32 ++ be16 24 ++ be16 65535 ++ box (code "d263") (be32 vendor ++ [ver; level; profile])).
Definition tkid_layout {X} (x : codec X) (y : layout X) : layout (tkid (X:=X)) :=
  lsum damr_layout (lsum dawp_layout (lsum (d263_layout x y) y)).

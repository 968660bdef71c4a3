(* DescSpec.v -- MPEG-4 descriptors as ISO/IEC 14496-1 lays them out. *)
From Verif Require Import Base Codec AtomModel BoxModel BoxSpec DescModel.

(* a length on four bytes of seven bits, the first three marked *)
Definition len4 (n : N) : list N :=
  [128 + n / 2097152; 128 + n / 16384 mod 128; 128 + n / 128 mod 128; n mod 128].
(* tag, length of the contents, contents *)
Definition tagged (tag : N) (body : list N) : list N := be8 tag ++ len4 (len body) ++ body.
(* the value of any number of length bytes *)
Definition len_value (bs : list N) : N := fold_left (fun a b => a * 128 + b mod 128) bs 0.
(* every byte but the last is marked *)
Fixpoint len_form (bs : list N) : Prop :=
  match bs with
  | [] => False
  | [b] => b < 128
  | b :: t => 128 <= b < 256 /\ len_form t
  end.

Definition yes (x v : N) : N := if x =? 0 then 0 else v.
Definition some (url : list N) (v : N) : N := match url with [] => 0 | _ => v end.
(* a string with its length, if it is there *)
Definition pstr (url : list N) : list N := match url with [] => [] | _ => be8 (len url) ++ url end.

(* the fields of each kind of descriptor *)
Definition fields (h : head) : list N :=
  match h with
  | HOther _ data => data
  | HInc t => be32 t
  | HRef r => be16 r
  | HDec oti st up buf mx av => be8 oti ++ be8 (st * 4 + yes up 2 + 1) ++ be24 buf ++ be32 mx ++ be32 av
  | HSL s =>
      be8 (sl_pre s) ++
      (if sl_pre s =? 0 then
         be8 (yes (sl_austart s) 128 + yes (sl_auend s) 64 + yes (sl_rap s) 32 + yes (sl_rau s) 16 +
              yes (sl_pad s) 8 + yes (sl_ts s) 4 + yes (sl_idle s) 2 + yes (sl_dur s) 1) ++
         be32 (sl_tsres s) ++ be32 (sl_ocrres s) ++ be8 (sl_tslen s) ++ be8 (sl_ocrlen s) ++ be8 (sl_aulen s) ++ be8 (sl_brlen s) ++
         be16 (sl_deg s * 4096 + sl_auseq s * 128 + sl_pkseq s * 4 + 3)
       else []) ++
      (if sl_dur s =? 0 then [] else be32 (sl_scale s) ++ be16 (sl_audur s) ++ be16 (sl_cudur s))
  | HES esid dep prio ocr url =>
      be16 esid ++ be8 (yes dep 128 + some url 64 + yes ocr 32 + prio) ++
      (if dep =? 0 then [] else be16 dep) ++ pstr url ++ (if ocr =? 0 then [] else be16 ocr)
  | HOD _ id url => be16 (id * 64 + some url 32 + 31) ++ pstr url
  | HIOD id inlp url p1 p2 p3 p4 p5 =>
      be16 (id * 64 + some url 32 + yes inlp 16 + 15) ++
      match url with [] => be8 p1 ++ be8 p2 ++ be8 p3 ++ be8 p4 ++ be8 p5 | _ => pstr url end
  | HPtr _ id tool es => be8 id ++ (if id =? 255 then be16 tool ++ be16 es else [])
  | HToolD id url => be16 id ++ be64 0 ++ be64 0 ++ be32 (len url) ++ url
  | HTools => []
  end.

(* values the fields can carry *)
Definition special (tag : N) : bool := existsb (N.eqb tag) [1; 2; 3; 4; 6; 10; 14; 15; 16; 17; 21; 96; 98; 99].
Definition sl_ok (s : slc) : Prop :=
  sl_ts s <> 0 /\
  ((sl_pre s = 2 /\ sl_dur s = 0) \/
   (sl_pre s = 0 /\ sl_tsres s < 4294967296 /\ sl_ocrres s < 4294967296 /\ sl_tslen s < 256 /\ sl_ocrlen s < 256 /\
    sl_aulen s < 256 /\ sl_brlen s < 256 /\ sl_deg s < 16 /\ sl_auseq s < 32 /\ sl_pkseq s < 32 /\
    (sl_dur s <> 0 -> sl_scale s < 4294967296 /\ sl_audur s < 65536 /\ sl_cudur s < 65536))).
Definition head_ok (h : head) : Prop :=
  match h with
  | HOther t _ => t < 256 /\ special t = false
  | HInc t => t < 4294967296
  | HRef r => r < 65536
  | HDec oti st up buf mx av => oti < 256 /\ st < 64 /\ buf < 16777216 /\ mx < 4294967296 /\ av < 4294967296
  | HSL s => sl_ok s
  | HES esid dep prio ocr url => esid < 65536 /\ dep < 65536 /\ prio < 32 /\ ocr < 65536 /\ len url < 256
  | HOD t id url => (t = 1 \/ t = 17) /\ id < 1024 /\ len url < 256
  | HIOD id inlp url p1 p2 p3 p4 p5 => id < 1024 /\ len url < 256 /\ p1 < 256 /\ p2 < 256 /\ p3 < 256 /\ p4 < 256 /\ p5 < 256
  | HPtr t id tool es => (t = 10 \/ t = 21) /\ id < 256 /\ tool < 65536 /\ es < 65536
  | HToolD id url => id < 65536
  | HTools => True
  end.
(* what a reader sees of them: flags as 0 or 1 (the upstream flag as 0 or 2),
   the tag 17 as 1, and 0 for fields that are not there *)
Definition one (x : N) : N := yes x 1.
Definition head_view (h : head) : head :=
  match h with
  | HDec oti st up buf mx av => HDec oti st (yes up 2) buf mx av
  | HSL s => HSL (if sl_pre s =? 0 then
      mkSlc 0 (one (sl_austart s)) (one (sl_auend s)) (one (sl_rap s)) (one (sl_rau s)) (one (sl_pad s)) (one (sl_ts s)) (one (sl_idle s)) (one (sl_dur s))
        (sl_tsres s) (sl_ocrres s) (sl_tslen s) (sl_ocrlen s) (sl_aulen s) (sl_brlen s) (sl_deg s) (sl_auseq s) (sl_pkseq s)
        (yes (sl_dur s) (sl_scale s)) (yes (sl_dur s) (sl_audur s)) (yes (sl_dur s) (sl_cudur s))
      else mkSlc 2 0 0 0 0 0 1 0 0 0 0 0 0 0 0 0 0 0 0 0 0)
  | HOD _ id url => HOD 1 id url
  | HIOD id inlp url p1 p2 p3 p4 p5 =>
      match url with [] => HIOD id (one inlp) [] p1 p2 p3 p4 p5 | _ => HIOD id (one inlp) url 0 0 0 0 0 end
  | HPtr t id tool es => HPtr t id (if id =? 255 then tool else 0) (if id =? 255 then es else 0)
  | _ => h
  end.

(* the order of the members in the file, and the member a reader keeps a
   descriptor in *)
Definition order (h : head) : list N :=
  match h with
  | HDec _ _ _ _ _ _ | HTools => [0]
  | HES _ _ _ _ _ => [0; 1; 2; 3; 4; 5; 6; 7]
  | HOD _ _ _ => [0; 1; 2; 3; 4; 5]
  | HIOD _ _ [] _ _ _ _ _ => [0; 1; 3; 4; 5]
  | HIOD _ _ _ _ _ _ _ _ => [5]
  | _ => []
  end.
Definition es_home (tag : N) : N :=
  match tag with 4 => 0 | 6 => 1 | 9 => 2 | 7 | 8 => 3 | 10 => 4 | 67 => 5 | 12 => 6 | _ => 7 end.
Definition od_home (tag : N) : N :=
  if (64 <=? tag) && (tag <=? 95) then 3 else match tag with 3 => 0 | 14 => 1 | 15 => 2 | 10 => 4 | _ => 5 end.
Definition home (h : head) (tag : N) : N :=
  match h with
  | HES _ _ _ _ _ => es_home tag
  | HOD _ _ _ => od_home tag
  | HIOD _ _ _ _ _ _ _ _ => if tag =? 15 then 5 else od_home tag
  | _ => 0
  end.
(* member after member, each in its own order *)
Definition sorted {A} (h : head) (ks : list (N * A)) : list (N * A) :=
  flat_map (fun m => filter (fun k => fst k =? m) ks) (order h).

Fixpoint enc (d : desc) : list N :=
  match d with
  | Desc h ks => tagged (htag h) (fields h ++ flat_map snd (sorted h (map (fun k => (fst k, enc (snd k))) ks)))
  end.
Definition body (d : desc) : list N :=
  match d with Desc h ks => fields h ++ flat_map (fun k => enc (snd k)) (sorted h ks) end.
Fixpoint view (d : desc) : desc :=
  match d with
  | Desc h ks => Desc (head_view h) (map (fun k => (home h (dtag (snd k)), snd k)) (sorted h (map (fun k => (fst k, view (snd k))) ks)))
  end.

(* descriptors that can be inside another *)
Definition count (tag : N) (ks : list (N * desc)) : nat := length (filter (fun k => dtag (snd k) =? tag) ks).
Definition kids_ok (h : head) (ks : list (N * desc)) : Prop :=
  match h with
  | HDec _ _ _ _ _ _ => ks = [] \/ exists d, ks = [(0, d)] /\ dtag d = 5
  | HES _ _ _ _ _ => Forall (fun k => fst k < 8) ks /\ Forall (fun t => (count t ks <= 1)%nat) [4; 6; 9; 12]
  | HOD _ _ _ | HIOD _ _ _ _ _ _ _ _ => Forall (fun k => In (fst k) (order h)) ks
  | _ => ks = []
  end.
Inductive wf : desc -> Prop :=
| Wf h ks : head_ok h -> kids_ok h ks -> Forall (fun k => wf (snd k)) ks ->
    len (body (Desc h ks)) < 268435456 -> wf (Desc h ks).

(* no byte is the tag of an IPMP tool *)
Definition clean (i : list N) : Prop := Forall (fun x => x <> 98 /\ x <> 99) i.

(* every descriptor is kept where a reader keeps it, and none has the tag 17 *)
Inductive settled : desc -> Prop :=
| Settled h ks : htag h <> 17 -> Forall (fun k => settled (snd k) /\ fst k = home h (dtag (snd k))) ks -> settled (Desc h ks).

(* descriptors added one after the other *)
Fixpoint adds (h : head) (ks : list (N * desc)) (ds : list desc) : res (list (N * desc)) :=
  match ds with
  | [] => Ok ks
  | d :: t => do ks' <- desc_add h ks d; adds h ks' t
  end.

(* the boxes *)
Definition dbox_layout (ty : N) (ok : option desc -> Prop) : layout dbox := mkLayout (fun _ => ty)
  (fun b => full (db_ver b) (db_flags b) ++ match db_desc b with Some d => enc d | None => [] end)
  (fun b => mkDbox (db_ver b) (db_flags b) (match db_desc b with Some d => Some (view d) | None => None end))
  (fun b => full_ok (db_ver b) (db_flags b) /\ ok (db_desc b) /\ match db_desc b with Some d => wf d | None => True end).
Definition esds_layout : layout dbox := dbox_layout (code "esds") (fun _ => True).
Definition iods_layout : layout dbox := dbox_layout (code "iods") (fun o => o <> None).

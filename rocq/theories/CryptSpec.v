(* CryptSpec.v -- protected and restricted sample entries as bytes. *)
From Verif Require Import Base Codec AtomModel AtomSpec AtomProofs BoxModel BoxSpec HeaderModel HeaderSpec TextModel TextSpec KidsModel KidsProofs EntryModel EntrySpec
  SmallModel SmallSpec MebxModel MboxModel MboxSpec CryptModel.

(* the fields of a visual or an audio entry *)
Definition fix_bytes (f : vfix + afix) : list N := match f with inl f => vfix_bytes f | inr f => afix_bytes f end.
Definition fix_ok (f : vfix + afix) : Prop := match f with inl f => vfix_ok f | inr f => afix_ok f end.
Definition fix_dri (f : vfix + afix) : N := match f with inl f => v_dri f | inr f => a_dri f end.
Definition secret_type (f : vfix + afix) : N := match f with inl _ => code "encv" | inr _ => code "enca" end.

Section Enc.
Context {Z : Type} (z : codec Z) (y : layout Z).
(* the other boxes do not include those of this file *)
Definition secret_apart : Prop := Forall (fun ty => c_known z ty = false)
  [code "pitm"; code "iinf"; code "infe"; code "ipro"; code "sinf"; code "frma"; code "schm"; code "grpl";
   code "iKMS"; code "iSFM"; code "iSLT"; code "encv"; code "enca"].
Definition info_layout : layout (info (Z:=Z)) := lsum ikms_layout (lsum isfm_layout (lsum islt_layout y)).
Definition ekid_layout : layout (ekid (Z:=Z)) := ipro_kid_layout (info_codec z) info_layout.
Notation ekid := (ekid (Z:=Z)). Notation enc := (enc (Z:=Z)).
Definition is_sinf (k : atom ekid) : Prop := atype ekid (c_ty (ekid_codec z)) k = code "sinf".
Definition sinf_list (s : option (sec (Z:=Z))) : list (atom ekid) := match s with Some s => [ALeaf ekid (inl s)] | None => [] end.
(* the fields, the boxes, and the protection last *)
Definition enc_layout : layout enc := mkLayout en_ty
  (fun e => fix_bytes (en_fix e) ++ kids_bytes (ekid_codec z) ekid_layout (en_exts e) ++ kids_bytes (ekid_codec z) ekid_layout (sinf_list (en_sinf e)))
  (fun e => mkEnc (en_ty e) (en_fix e) (kid_view ekid_layout (en_exts e)) (option_map (l_view (sinf_layout (info_codec z) info_layout)) (en_sinf e)))
  (fun e => en_ty e = secret_type (en_fix e) /\ fix_ok (en_fix e) /\
     Forall (fun k => kid_ok (ekid_codec z) ekid_layout k /\ ~ is_sinf k) (en_exts e) /\
     Forall (kid_ok (ekid_codec z) ekid_layout) (sinf_list (en_sinf e))).

(* a description [ty] with its boxes; and the same protected for ISMA: the
   fields, the boxes, and a sinf with the original type, the scheme, and the
   address of the key server, the format of the samples and the salt if there
   is one *)
Definition clear (ty : N) (f : vfix + afix) (kids : list (atom ekid)) : list N := box ty (fix_bytes f ++ kids_bytes (ekid_codec z) ekid_layout kids).
Definition isma_site : list N := [104; 116; 116; 112; 58; 47; 47; 119; 119; 119; 46; 105; 115; 109; 97; 46; 116; 118].
Definition isma_sinf (ty selective klen ivlen : N) (kms : option (list N)) (salt : N) : list N :=
  box (code "sinf") (box (code "frma") (be32 ty) ++ box (code "schm") (full 0 1 ++ be32 (code "iAEC") ++ be32 1 ++ cstr isma_site) ++
    box (code "schi") (box (code "iKMS") (full 0 0 ++ cstr (match kms with Some s => s | None => [] end)) ++
      box (code "iSFM") (full 0 0 ++ [selective; klen; ivlen]) ++
      (if salt =? 0 then [] else box (code "iSLT") (be64 salt)))).
Definition isma (ty : N) (f : vfix + afix) (kids : list (atom ekid)) (selective klen ivlen : N) (kms : option (list N)) (salt : N) : list N :=
  box (secret_type f) (fix_bytes f ++ kids_bytes (ekid_codec z) ekid_layout kids ++ isma_sinf ty selective klen ivlen kms salt).
End Enc.

Section Resv.
Context {X : Type} (x : codec X) (y : layout X).
Notation sub := (sub (X:=X)). Notation resv := (resv (X:=X)).
Definition resv_layout : layout resv := mkLayout (fun _ => code "resv")
  (fun r => vfix_bytes (rv_fix r) ++ kids_bytes (sub_codec x) (sub_layout y) (rv_exts r))
  (fun r => mkResv (rv_fix r) (kid_view (sub_layout y) (rv_exts r)))
  (fun r => vfix_ok (rv_fix r) /\ Forall (kid_ok (sub_codec x) (sub_layout y)) (rv_exts r)).
(* a restricted description *)
Definition resv_bytes (f : vfix) (kids : list (atom sub)) : list N := box (code "resv") (vfix_bytes f ++ kids_bytes (sub_codec x) (sub_layout y) kids).
Definition kid_type (k : atom sub) : N := atype sub (c_ty (sub_codec x)) k.
(* [k] is the first box of its type in [l] *)
Definition first_of (l : list (atom sub)) (k : atom sub) : Prop :=
  exists a b, l = a ++ k :: b /\ Forall (fun q => kid_type q <> kid_type k) a.
Definition none_of (l : list (atom sub)) (ty : N) : Prop := Forall (fun q => kid_type q <> ty) l.
End Resv.

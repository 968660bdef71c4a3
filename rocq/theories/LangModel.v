(* LangModel.v -- three letter language codes of a media. *)
From Verif Require Import Base HeaderModel.

(* MP4SetMediaLanguage, MP4Media.c:389-414. Characters are C chars as
   integers. Shifting a negative int left is undefined; the last character is
   not shifted, only converted to u32. mediaHeader->packedLanguage is a u32
   (MP4Atoms.h:504) that serialize writes with PUT16. *)
Definition pack_language (a b c : Z) : res N :=
  if (a <? 96)%Z || (b <? 96)%Z then UB
  else Ok (N.lor (N.lor (u32_of ((a - 96) * 1024)) (u32_of ((b - 96) * 32))) (u32_of (c - 96))).
Definition set_lang (h : mdhd) (l : N) : mdhd :=
  mkMdhd (md_ver h) (md_flags h) (md_created h) (md_modified h) (md_timeScale h) (md_duration h) l (md_quality h).
Definition set_language (h : mdhd) (a b c : Z) : res mdhd := do l <- pack_language a b c; Ok (set_lang h l).

(* MP4GetMediaLanguage, MP4Media.c:441-465 *)
Definition get_language (h : mdhd) : Z * Z * Z :=
  let p := md_lang h in
  (Z.of_N (N.land (N.shiftr p 10) 31 + 96), Z.of_N (N.land (N.shiftr p 5) 31 + 96), Z.of_N (N.land p 31 + 96))%Z.

(* LangSpec.v -- language codes that fit three five bit fields. *)
From Verif Require Import Base.

(* ` a b c ... z { | } ~ DEL; ISO-639-2 codes use the letters *)
Definition packable (c : Z) : Prop := (96 <= c <= 127)%Z.

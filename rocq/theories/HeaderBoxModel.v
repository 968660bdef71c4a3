(* HeaderBoxModel.v -- the fixed-layout header boxes. *)
From Verif Require Import Base AtomModel.

(* VideoMediaHeaderAtom.c; MP4VideoMediaHeaderAtom in MP4Atoms.h *)
Record vmhd := mkVmhd { vm_ver : N; vm_flags : N; vm_mode : N; vm_r : N; vm_g : N; vm_b : N }.
(* serialize, VideoMediaHeaderAtom.c:36-55, after the common header *)
Definition vmhd_write (a : vmhd) : wr :=
  put8 (vm_ver a) ;; put24 (vm_flags a) ;;
  put16 (vm_mode a) ;; put16 (vm_r a) ;; put16 (vm_g a) ;; put16 (vm_b a).
(* calculateSize, VideoMediaHeaderAtom.c:57-71 *)
Definition vmhd_size (a : vmhd) : N := 20.
(* createFromInputStream, VideoMediaHeaderAtom.c:73-93 *)
Definition vmhd_read (h : hdr) : rd vmhd :=
  let* vf := get_full in
  let* br := getrdn in
  if sub32 (h_size h) br =? 8 then
    let* m := get16 in let* r := get16 in let* g := get16 in let* b := get16 in
    rret (mkVmhd (fst vf) (snd vf) m r g b)
  else rret (mkVmhd (fst vf) (snd vf) 0 0 0 0).

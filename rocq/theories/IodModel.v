(* IodModel.v -- the initial object descriptor of a movie: the calls of
   MP4Movies.c on the descriptor in the 'iods' box. *)
From Verif Require Import Base AtomModel BoxModel DescModel OdModel.

(* MP4NewMovieExt, MP4Movies.c:1351-1399: the descriptor, if there is an
   'iods' box. [url] is the C string without its zero: a buffer of its length
   is made and strcpy writes one byte more. *)
Definition iod_new_ext (odid p1 p2 p3 p4 p5 : N) (url : list N) (exchange : N) : res (option desc) :=
  if odid =? 0 then Ok None
  else match url with
       | [] => Ok (Some (Desc (if exchange =? 0 then HIOD odid 0 [] p1 p2 p3 p4 p5 else HOD 17 odid []) []))
       | _ => UB
       end.
(* MP4NewMovie, MP4Movies.c:1081-1091 *)
Definition iod_new (odid p1 p2 p3 p4 p5 : N) : res (option desc) :=
  iod_new_ext odid p1 p2 p3 p4 p5 []
    (if (p1 =? 0) && (p2 =? 0) && (p3 =? 0) && (p4 =? 0) && (p5 =? 0) then 1 else 0).

(* Below [None] is a movie without the box. ODSize is the size of the
   descriptor when it was set or read: it is not 0 for any descriptor but one
   whose announced length wraps around, which is left out. The outcome
   [Ok None] is the status MP4HasRootOD. A descriptor that is not an object
   descriptor is used as if it were one: undefined. *)

(* MP4GetMovieIODInlineProfileFlag, MP4Movies.c:604-630. An object descriptor
   with a tag other than 17 has no such field. *)
Definition iod_inline (d : option desc) : res (option N) :=
  match d with
  | Some (Desc (HIOD _ i _ _ _ _ _ _) _) => Ok (Some (if i =? 0 then 0 else 1))
  | Some (Desc (HOD t _ _) _) => if t =? 17 then Ok None else UB
  | _ => UB
  end.
(* MP4SetMovieIODInlineProfileFlag, MP4Movies.c:632-654 *)
Definition iod_set_inline (d : option desc) (f : N) : res (option desc) :=
  match d with
  | Some (Desc (HIOD id _ u a b c e g) ks) => Ok (Some (Desc (HIOD id (if f =? 0 then 0 else 1) u a b c e g) ks))
  | Some (Desc (HOD t _ _) _) => if (t =? 17) || (t =? 1) then Ok None else UB
  | _ => UB
  end.
(* MP4GetMovieProfilesAndLevels, MP4Movies.c:656-698 *)
Definition iod_profiles (d : option desc) : res (option (list N)) :=
  match d with
  | Some (Desc (HIOD _ _ _ a b c e g) _) => Ok (Some [w8 a; w8 b; w8 c; w8 e; w8 g])
  | Some (Desc (HOD t _ _) _) => if (t =? 17) || (t =? 1) then Ok None else UB
  | _ => UB
  end.
(* MP4AddTrackToMovieIOD, MovieTracks.c:387-399 and MP4Movies.c:1204-1227 *)
Definition iod_add_track (d : option desc) (id : N) : res desc :=
  match d with
  | None => Err MP4InvalidMediaErr
  | Some (Desc h ks) =>
      match h with
      | HIOD _ _ _ _ _ _ _ _ | HOD _ _ _ => do ks' <- desc_add h ks (Desc (HInc id) []); Ok (Desc h ks')
      | _ => UB
      end
  end.
(* MP4AddDescToMovieIOD, MP4Movies.c:1492-1548 *)
Definition iod_refused (tag : N) : bool := existsb (N.eqb tag) [0; 1; 2; 3; 4; 5; 6; 11; 12; 14; 15; 16; 17].
Definition iod_add_desc (d : option desc) (bytes : list N) : res desc :=
  do x <- desc_read (mkR bytes 0);
  if iod_refused (dtag (fst x)) then Err MP4BadParamErr
  else match d with
       | None => UB
       | Some (Desc h ks) =>
           match h with
           | HIOD _ _ _ _ _ _ _ _ => do ks' <- desc_add h ks (fst x); Ok (Desc h ks')
           | HOD t _ _ =>
               if t =? 17 then do ks' <- desc_add h ks (fst x); Ok (Desc h ks')
               else if t =? 16 then UB
               else Err MP4InvalidMediaErr
           | _ => Err MP4InvalidMediaErr
           end
       end.

Section Get.
(* makeESD for a track *)
Variable esd : N -> res desc.
(* the loops MP4Movies.c:739-752 and 1454-1467: the members afterwards, also
   when there is an error *)
Fixpoint iod_fill (h : head) (incs : list (N * desc)) (ks : list (N * desc)) : list (N * desc) * res unit :=
  match incs with
  | [] => (ks, Ok tt)
  | (_, Desc (HInc t) _) :: r =>
      match esd t with
      | Ok e => match desc_add h ks e with Ok ks' => iod_fill h r ks' | Err x => (ks, Err x) | UB => (ks, UB) end
      | Err x => (ks, Err x)
      | UB => (ks, UB)
      end
  | _ => (ks, UB)
  end.
(* self->tag is the first byte, MP4EncodeBaseDescriptor, BaseDescriptor.c:40 *)
Definition retag (t : N) (bs : list N) : list N := match bs with [] => [] | _ :: r => t :: r end.
(* MP4GetMovieInitialObjectDescriptorUsingSLConfig and MP4GetMovieObject-
   DescriptorUsingSLConfig, MP4Movies.c:706-776 and 1433-1490: the descriptor
   afterwards and the bytes in the handle. An object descriptor whose tag is
   not 17 is handled as an initial one: the members used are those both
   structures have. If it cannot be written it stays without its list of
   tracks, which is not modelled further (None). *)
Definition iod_get (d : option desc) : option desc * res (list N) :=
  match d with
  | None => (None, Err MP4BadDataErr)
  | Some (Desc h ks) =>
      let go (h' : head) (out back : N) :=
        match iod_fill h (in_member 1 ks) ks with
        | (ks', Ok _) =>
            match dwrite (Desc h' (filter (fun k => negb (fst k =? 1)) ks')) with
            | Ok bs => (Some (Desc (match h with HOD _ id u => HOD back id u | _ => h end) (filter (fun k => negb (fst k =? 0)) ks')), Ok (retag out bs))
            | Err e => (None, Err e)
            | UB => (None, UB)
            end
        | (ks', Err e) => (Some (Desc h ks'), Err e)
        | (ks', UB) => (None, UB)
        end in
      match h with
      | HIOD _ _ _ _ _ _ _ _ => go h 2 16
      | HOD t _ _ =>
          if t =? 17 then
            match in_member 2 ks with [] => go h 1 17 | _ => (d, Err MP4BadDataErr) end
          else go h 2 16
      | _ => (None, UB)
      end
  end.
End Get.

(* DescAtModel.v -- the sample description in force at a time. *)
From Verif Require Import Base SttsSpec SttsModel ChunkSpec ChunkModel DescAtSpec.

(* MP4GetMediaSampleDescIndex, MP4Media.c:1466-1528: findSamples, then
   lookupSample with the number it wrote. The tests for missing boxes are left
   out; the second component is the table after the call, whose remembered
   position may have moved. *)
Definition desc_at (ts : stts) (sc : stsc) (t : N) : res (N * stsc) :=
  let r := stts_find ts t in
  do x <- stsc_lookup sc (f_num r);
  let '((_, d, _), sc') := x in
  Ok (d, sc').

(* questions one after the other: the answer to a question about a time, or
   nothing; lookupSample itself, SampleToChunkAtom.c:185-262, is called for
   every sample read *)
Fixpoint desc_run (ts : stts) (sc : stsc) (os : list dop) : list (res (option N)) :=
  match os with
  | [] => []
  | DTime t :: r =>
      match desc_at ts sc t with
      | Ok (d, sc') => Ok (Some d) :: desc_run ts sc' r
      | Err e => Err e :: desc_run ts sc r
      | UB => [UB]
      end
  | DSample n :: r =>
      match stsc_lookup sc n with
      | Ok (_, sc') => Ok None :: desc_run ts sc' r
      | Err e => Err e :: desc_run ts sc r
      | UB => [UB]
      end
  end.

(** Assets as a whole: a file, with the files beside it, and the contents that
    glTF 2.0 gives it. *)
From Verif Require Import Base Types Doc F64 SpecText JsonText Codec SpecJson SpecJsonDoc SpecFile SpecSchema SpecMeaning SpecAsset.

(** [asset]: the bytes [out], with the files [rf], are an asset, and the files
    in use are [names]; [d] is what the JSON says, with the data of every
    buffer in it.  [num] and [other]: the numbers and
    the undefined members that may be there. *)
Definition asset (F : float_lib) (X : ext_lib) (num : string -> Prop) (other : list string -> string -> Prop) (rf : bytes -> bytes * option error) (out : bytes) (names : list bytes) (d : Document) : Prop :=
  exists text v bin d0 bufs,
    text_of v text /\ container_of text bin out /\ (exists n, wf_json n v /\ Z.of_nat n <= 10000) /\
    conforms num other s_gltf v /\ m_gltf F X d0 v /\
    resources rf bin 0 (doc_Buffers d0) names bufs /\ d = with_contents d0 bufs (doc_Images d0).

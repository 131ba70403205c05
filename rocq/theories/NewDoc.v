(** NewDocument. *)
From Verif Require Import Base Types Doc.

(** gltf.go:54-63; Index(0) is a pointer to 0. *)
Definition NewDocument : Document :=
  set_doc_Scene (Some 0)
    (set_doc_Scenes [Some (set_scn_Name "Root Scene" zero_Scene)]
      (set_doc_Asset (set_ast_Generator "qmuntal/gltf" (set_ast_Version "2.0" zero_Asset)) zero_Document)).

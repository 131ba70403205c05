(** A document whose binary data was written with package modeler and whose
    other parts were filled in by hand: scenes, nodes, meshes, materials, further
    accessors, views and images, ... *)
From Verif Require Import Base Types Doc.

Definition completed (d rest : Document) : Document :=
  mkDocument (doc_Extensions rest) (doc_Extras rest) (doc_ExtensionsUsed rest) (doc_ExtensionsRequired rest)
    (doc_Accessors d ++ doc_Accessors rest) (doc_Animations rest) (doc_Asset rest) (doc_Buffers d)
    (doc_BufferViews d ++ doc_BufferViews rest) (doc_Cameras rest) (doc_Images d ++ doc_Images rest)
    (doc_Materials rest) (doc_Meshes rest) (doc_Nodes rest) (doc_Samplers rest) (doc_Scene rest) (doc_Scenes rest)
    (doc_Skins rest) (doc_Textures rest).

(** [d'] has the scenes, nodes, meshes, ... of [d]: all but the accessors,
    buffers, views and images. *)
Definition same_rest (d d' : Document) : Prop :=
  doc_Extensions d' = doc_Extensions d /\ doc_Extras d' = doc_Extras d /\ doc_ExtensionsUsed d' = doc_ExtensionsUsed d /\
  doc_ExtensionsRequired d' = doc_ExtensionsRequired d /\ doc_Animations d' = doc_Animations d /\ doc_Asset d' = doc_Asset d /\
  doc_Cameras d' = doc_Cameras d /\ doc_Materials d' = doc_Materials d /\ doc_Meshes d' = doc_Meshes d /\ doc_Nodes d' = doc_Nodes d /\
  doc_Samplers d' = doc_Samplers d /\ doc_Scene d' = doc_Scene d /\ doc_Scenes d' = doc_Scenes d /\ doc_Skins d' = doc_Skins d /\
  doc_Textures d' = doc_Textures d.

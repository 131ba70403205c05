(** Specification vocabulary for the targets of buffer views. *)
From Verif Require Import Base Types Binary Doc.

(** The target that glTF 2.0 (3.6.2.1, bufferView.target) assigns to what a
    document part is used for: 34963 for vertex indices, 34962 for vertex
    attributes, none for anything else. *)
Inductive view_role : Type := RoleIndices | RoleVertices | RoleOther.
Definition role_target (r : view_role) : Z :=
  match r with RoleIndices => 34963 | RoleVertices => 34962 | RoleOther => 0 end.

(** The views and accessors of [d'] past those of [d]: at most one view, with
    the given target, a stride only for vertices, and accessors that all use
    that view. *)
Definition adds_view (target : Z) (d d' : Document) : Prop :=
  exists vs accs,
  doc_BufferViews d' = doc_BufferViews d ++ map Some vs /\
  doc_Accessors d' = doc_Accessors d ++ map Some accs /\
  (List.length vs <= 1)%nat /\
  Forall (fun v => bvw_Target v = target /\ (target <> 34962 -> bvw_ByteStride v = 0)) vs /\
  Forall (fun a => acr_BufferView a = Some (zlen (doc_BufferViews d)) /\ List.length vs = 1%nat) accs.

(** Document types.  GENERATED by tools/gen_doc.py from the struct
    declarations of gltf.go; do not edit.

    - float64 values are their 64-bit patterns, as Z;
    - enumerations other than ComponentType and AccessorType are their
      underlying integer;
    - pointers are options; [[]*T] is [list (option T)];
    - nil and empty slices/maps are identified when the JSON tag has
      omitempty, and told apart (option) when it has not;
    - maps are association lists sorted by key without duplicates;
    - fixed arrays are lists (of the right length in well-formed values). *)
From Verif Require Import Base Types.

(** Values of type any produced by encoding/json: nil, bool, float64 (bit
    pattern), string, []any, map[string]any. *)
Inductive any : Type :=
| VNull
| VBool (b : bool)
| VNum (f : Z)
| VStr (s : string)
| VArr (l : list any)
| VObj (m : list (string * any)).

(** JSON syntax trees: numbers keep their literal, strings and keys keep the
    raw text between the quotes. *)
Inductive json : Type :=
| JNull
| JBool (b : bool)
| JNum (lit : string)
| JStr (lit : string)
| JArr (l : list json)
| JObj (m : list (string * json)).

(** Payload of an extension: a json.RawMessage, or the Go value built by a
    registered factory (represented by a tree). *)
Inductive extv : Type :=
| ERaw (j : json)
| EVal (v : any).

(** gltf.go:462-465 *)
Notation Extensions := (list (string * extv)) (only parsing).

(** gltf.go:22-29 *)
Record Asset : Type := mkAsset {
  ast_Extensions : Extensions;
  ast_Extras : any;
  ast_Copyright : string;
  ast_Generator : string;
  ast_Version : string;
  ast_MinVersion : string
}.
Definition zero_Asset : Asset :=
  mkAsset [] VNull "" "" "" "".
Definition set_ast_Extensions (v : Extensions) (x : Asset) : Asset :=
  mkAsset v (ast_Extras x) (ast_Copyright x) (ast_Generator x) (ast_Version x) (ast_MinVersion x).
Definition set_ast_Extras (v : any) (x : Asset) : Asset :=
  mkAsset (ast_Extensions x) v (ast_Copyright x) (ast_Generator x) (ast_Version x) (ast_MinVersion x).
Definition set_ast_Copyright (v : string) (x : Asset) : Asset :=
  mkAsset (ast_Extensions x) (ast_Extras x) v (ast_Generator x) (ast_Version x) (ast_MinVersion x).
Definition set_ast_Generator (v : string) (x : Asset) : Asset :=
  mkAsset (ast_Extensions x) (ast_Extras x) (ast_Copyright x) v (ast_Version x) (ast_MinVersion x).
Definition set_ast_Version (v : string) (x : Asset) : Asset :=
  mkAsset (ast_Extensions x) (ast_Extras x) (ast_Copyright x) (ast_Generator x) v (ast_MinVersion x).
Definition set_ast_MinVersion (v : string) (x : Asset) : Asset :=
  mkAsset (ast_Extensions x) (ast_Extras x) (ast_Copyright x) (ast_Generator x) (ast_Version x) v.

(** gltf.go:93-99 *)
Record SparseValues : Type := mkSparseValues {
  spv_Extensions : Extensions;
  spv_Extras : any;
  spv_BufferView : Z;
  spv_ByteOffset : Z
}.
Definition zero_SparseValues : SparseValues :=
  mkSparseValues [] VNull 0 0.
Definition set_spv_Extensions (v : Extensions) (x : SparseValues) : SparseValues :=
  mkSparseValues v (spv_Extras x) (spv_BufferView x) (spv_ByteOffset x).
Definition set_spv_Extras (v : any) (x : SparseValues) : SparseValues :=
  mkSparseValues (spv_Extensions x) v (spv_BufferView x) (spv_ByteOffset x).
Definition set_spv_BufferView (v : Z) (x : SparseValues) : SparseValues :=
  mkSparseValues (spv_Extensions x) (spv_Extras x) v (spv_ByteOffset x).
Definition set_spv_ByteOffset (v : Z) (x : SparseValues) : SparseValues :=
  mkSparseValues (spv_Extensions x) (spv_Extras x) (spv_BufferView x) v.

(** gltf.go:101-108 *)
Record SparseIndices : Type := mkSparseIndices {
  spi_Extensions : Extensions;
  spi_Extras : any;
  spi_BufferView : Z;
  spi_ByteOffset : Z;
  spi_ComponentType : ComponentType
}.
Definition zero_SparseIndices : SparseIndices :=
  mkSparseIndices [] VNull 0 0 CFloat.
Definition set_spi_Extensions (v : Extensions) (x : SparseIndices) : SparseIndices :=
  mkSparseIndices v (spi_Extras x) (spi_BufferView x) (spi_ByteOffset x) (spi_ComponentType x).
Definition set_spi_Extras (v : any) (x : SparseIndices) : SparseIndices :=
  mkSparseIndices (spi_Extensions x) v (spi_BufferView x) (spi_ByteOffset x) (spi_ComponentType x).
Definition set_spi_BufferView (v : Z) (x : SparseIndices) : SparseIndices :=
  mkSparseIndices (spi_Extensions x) (spi_Extras x) v (spi_ByteOffset x) (spi_ComponentType x).
Definition set_spi_ByteOffset (v : Z) (x : SparseIndices) : SparseIndices :=
  mkSparseIndices (spi_Extensions x) (spi_Extras x) (spi_BufferView x) v (spi_ComponentType x).
Definition set_spi_ComponentType (v : ComponentType) (x : SparseIndices) : SparseIndices :=
  mkSparseIndices (spi_Extensions x) (spi_Extras x) (spi_BufferView x) (spi_ByteOffset x) v.

(** gltf.go:84-91 *)
Record Sparse : Type := mkSparse {
  spa_Extensions : Extensions;
  spa_Extras : any;
  spa_Count : Z;
  spa_Indices : SparseIndices;
  spa_Values : SparseValues
}.
Definition zero_Sparse : Sparse :=
  mkSparse [] VNull 0 zero_SparseIndices zero_SparseValues.
Definition set_spa_Extensions (v : Extensions) (x : Sparse) : Sparse :=
  mkSparse v (spa_Extras x) (spa_Count x) (spa_Indices x) (spa_Values x).
Definition set_spa_Extras (v : any) (x : Sparse) : Sparse :=
  mkSparse (spa_Extensions x) v (spa_Count x) (spa_Indices x) (spa_Values x).
Definition set_spa_Count (v : Z) (x : Sparse) : Sparse :=
  mkSparse (spa_Extensions x) (spa_Extras x) v (spa_Indices x) (spa_Values x).
Definition set_spa_Indices (v : SparseIndices) (x : Sparse) : Sparse :=
  mkSparse (spa_Extensions x) (spa_Extras x) (spa_Count x) v (spa_Values x).
Definition set_spa_Values (v : SparseValues) (x : Sparse) : Sparse :=
  mkSparse (spa_Extensions x) (spa_Extras x) (spa_Count x) (spa_Indices x) v.

(** gltf.go:65-82 *)
Record Accessor : Type := mkAccessor {
  acr_Extensions : Extensions;
  acr_Extras : any;
  acr_Name : string;
  acr_BufferView : option Z;
  acr_ByteOffset : Z;
  acr_ComponentType : ComponentType;
  acr_Normalized : bool;
  acr_Count : Z;
  acr_Type : AccessorType;
  acr_Max : list Z;
  acr_Min : list Z;
  acr_Sparse : option Sparse
}.
Definition zero_Accessor : Accessor :=
  mkAccessor [] VNull "" None 0 CFloat false 0 AScalar [] [] None.
Definition set_acr_Extensions (v : Extensions) (x : Accessor) : Accessor :=
  mkAccessor v (acr_Extras x) (acr_Name x) (acr_BufferView x) (acr_ByteOffset x) (acr_ComponentType x) (acr_Normalized x) (acr_Count x) (acr_Type x) (acr_Max x) (acr_Min x) (acr_Sparse x).
Definition set_acr_Extras (v : any) (x : Accessor) : Accessor :=
  mkAccessor (acr_Extensions x) v (acr_Name x) (acr_BufferView x) (acr_ByteOffset x) (acr_ComponentType x) (acr_Normalized x) (acr_Count x) (acr_Type x) (acr_Max x) (acr_Min x) (acr_Sparse x).
Definition set_acr_Name (v : string) (x : Accessor) : Accessor :=
  mkAccessor (acr_Extensions x) (acr_Extras x) v (acr_BufferView x) (acr_ByteOffset x) (acr_ComponentType x) (acr_Normalized x) (acr_Count x) (acr_Type x) (acr_Max x) (acr_Min x) (acr_Sparse x).
Definition set_acr_BufferView (v : option Z) (x : Accessor) : Accessor :=
  mkAccessor (acr_Extensions x) (acr_Extras x) (acr_Name x) v (acr_ByteOffset x) (acr_ComponentType x) (acr_Normalized x) (acr_Count x) (acr_Type x) (acr_Max x) (acr_Min x) (acr_Sparse x).
Definition set_acr_ByteOffset (v : Z) (x : Accessor) : Accessor :=
  mkAccessor (acr_Extensions x) (acr_Extras x) (acr_Name x) (acr_BufferView x) v (acr_ComponentType x) (acr_Normalized x) (acr_Count x) (acr_Type x) (acr_Max x) (acr_Min x) (acr_Sparse x).
Definition set_acr_ComponentType (v : ComponentType) (x : Accessor) : Accessor :=
  mkAccessor (acr_Extensions x) (acr_Extras x) (acr_Name x) (acr_BufferView x) (acr_ByteOffset x) v (acr_Normalized x) (acr_Count x) (acr_Type x) (acr_Max x) (acr_Min x) (acr_Sparse x).
Definition set_acr_Normalized (v : bool) (x : Accessor) : Accessor :=
  mkAccessor (acr_Extensions x) (acr_Extras x) (acr_Name x) (acr_BufferView x) (acr_ByteOffset x) (acr_ComponentType x) v (acr_Count x) (acr_Type x) (acr_Max x) (acr_Min x) (acr_Sparse x).
Definition set_acr_Count (v : Z) (x : Accessor) : Accessor :=
  mkAccessor (acr_Extensions x) (acr_Extras x) (acr_Name x) (acr_BufferView x) (acr_ByteOffset x) (acr_ComponentType x) (acr_Normalized x) v (acr_Type x) (acr_Max x) (acr_Min x) (acr_Sparse x).
Definition set_acr_Type (v : AccessorType) (x : Accessor) : Accessor :=
  mkAccessor (acr_Extensions x) (acr_Extras x) (acr_Name x) (acr_BufferView x) (acr_ByteOffset x) (acr_ComponentType x) (acr_Normalized x) (acr_Count x) v (acr_Max x) (acr_Min x) (acr_Sparse x).
Definition set_acr_Max (v : list Z) (x : Accessor) : Accessor :=
  mkAccessor (acr_Extensions x) (acr_Extras x) (acr_Name x) (acr_BufferView x) (acr_ByteOffset x) (acr_ComponentType x) (acr_Normalized x) (acr_Count x) (acr_Type x) v (acr_Min x) (acr_Sparse x).
Definition set_acr_Min (v : list Z) (x : Accessor) : Accessor :=
  mkAccessor (acr_Extensions x) (acr_Extras x) (acr_Name x) (acr_BufferView x) (acr_ByteOffset x) (acr_ComponentType x) (acr_Normalized x) (acr_Count x) (acr_Type x) (acr_Max x) v (acr_Sparse x).
Definition set_acr_Sparse (v : option Sparse) (x : Accessor) : Accessor :=
  mkAccessor (acr_Extensions x) (acr_Extras x) (acr_Name x) (acr_BufferView x) (acr_ByteOffset x) (acr_ComponentType x) (acr_Normalized x) (acr_Count x) (acr_Type x) (acr_Max x) (acr_Min x) v.

(** gltf.go:110-120; Data is not part of the JSON *)
Record Buffer : Type := mkBuffer {
  buf_Extensions : Extensions;
  buf_Extras : any;
  buf_Name : string;
  buf_URI : string;
  buf_ByteLength : Z;
  buf_Data : bytes
}.
Definition zero_Buffer : Buffer :=
  mkBuffer [] VNull "" "" 0 [].
Definition set_buf_Extensions (v : Extensions) (x : Buffer) : Buffer :=
  mkBuffer v (buf_Extras x) (buf_Name x) (buf_URI x) (buf_ByteLength x) (buf_Data x).
Definition set_buf_Extras (v : any) (x : Buffer) : Buffer :=
  mkBuffer (buf_Extensions x) v (buf_Name x) (buf_URI x) (buf_ByteLength x) (buf_Data x).
Definition set_buf_Name (v : string) (x : Buffer) : Buffer :=
  mkBuffer (buf_Extensions x) (buf_Extras x) v (buf_URI x) (buf_ByteLength x) (buf_Data x).
Definition set_buf_URI (v : string) (x : Buffer) : Buffer :=
  mkBuffer (buf_Extensions x) (buf_Extras x) (buf_Name x) v (buf_ByteLength x) (buf_Data x).
Definition set_buf_ByteLength (v : Z) (x : Buffer) : Buffer :=
  mkBuffer (buf_Extensions x) (buf_Extras x) (buf_Name x) (buf_URI x) v (buf_Data x).
Definition set_buf_Data (v : bytes) (x : Buffer) : Buffer :=
  mkBuffer (buf_Extensions x) (buf_Extras x) (buf_Name x) (buf_URI x) (buf_ByteLength x) v.

(** gltf.go:147-157 *)
Record BufferView : Type := mkBufferView {
  bvw_Extensions : Extensions;
  bvw_Extras : any;
  bvw_Buffer : Z;
  bvw_ByteOffset : Z;
  bvw_ByteLength : Z;
  bvw_ByteStride : Z;
  bvw_Target : Z;
  bvw_Name : string
}.
Definition zero_BufferView : BufferView :=
  mkBufferView [] VNull 0 0 0 0 0 "".
Definition set_bvw_Extensions (v : Extensions) (x : BufferView) : BufferView :=
  mkBufferView v (bvw_Extras x) (bvw_Buffer x) (bvw_ByteOffset x) (bvw_ByteLength x) (bvw_ByteStride x) (bvw_Target x) (bvw_Name x).
Definition set_bvw_Extras (v : any) (x : BufferView) : BufferView :=
  mkBufferView (bvw_Extensions x) v (bvw_Buffer x) (bvw_ByteOffset x) (bvw_ByteLength x) (bvw_ByteStride x) (bvw_Target x) (bvw_Name x).
Definition set_bvw_Buffer (v : Z) (x : BufferView) : BufferView :=
  mkBufferView (bvw_Extensions x) (bvw_Extras x) v (bvw_ByteOffset x) (bvw_ByteLength x) (bvw_ByteStride x) (bvw_Target x) (bvw_Name x).
Definition set_bvw_ByteOffset (v : Z) (x : BufferView) : BufferView :=
  mkBufferView (bvw_Extensions x) (bvw_Extras x) (bvw_Buffer x) v (bvw_ByteLength x) (bvw_ByteStride x) (bvw_Target x) (bvw_Name x).
Definition set_bvw_ByteLength (v : Z) (x : BufferView) : BufferView :=
  mkBufferView (bvw_Extensions x) (bvw_Extras x) (bvw_Buffer x) (bvw_ByteOffset x) v (bvw_ByteStride x) (bvw_Target x) (bvw_Name x).
Definition set_bvw_ByteStride (v : Z) (x : BufferView) : BufferView :=
  mkBufferView (bvw_Extensions x) (bvw_Extras x) (bvw_Buffer x) (bvw_ByteOffset x) (bvw_ByteLength x) v (bvw_Target x) (bvw_Name x).
Definition set_bvw_Target (v : Z) (x : BufferView) : BufferView :=
  mkBufferView (bvw_Extensions x) (bvw_Extras x) (bvw_Buffer x) (bvw_ByteOffset x) (bvw_ByteLength x) (bvw_ByteStride x) v (bvw_Name x).
Definition set_bvw_Name (v : string) (x : BufferView) : BufferView :=
  mkBufferView (bvw_Extensions x) (bvw_Extras x) (bvw_Buffer x) (bvw_ByteOffset x) (bvw_ByteLength x) (bvw_ByteStride x) (bvw_Target x) v.

(** gltf.go:159-165 *)
Record Scene : Type := mkScene {
  scn_Extensions : Extensions;
  scn_Extras : any;
  scn_Name : string;
  scn_Nodes : list Z
}.
Definition zero_Scene : Scene :=
  mkScene [] VNull "" [].
Definition set_scn_Extensions (v : Extensions) (x : Scene) : Scene :=
  mkScene v (scn_Extras x) (scn_Name x) (scn_Nodes x).
Definition set_scn_Extras (v : any) (x : Scene) : Scene :=
  mkScene (scn_Extensions x) v (scn_Name x) (scn_Nodes x).
Definition set_scn_Name (v : string) (x : Scene) : Scene :=
  mkScene (scn_Extensions x) (scn_Extras x) v (scn_Nodes x).
Definition set_scn_Nodes (v : list Z) (x : Scene) : Scene :=
  mkScene (scn_Extensions x) (scn_Extras x) (scn_Name x) v.

(** gltf.go:167-182 *)
Record Node : Type := mkNode {
  nod_Extensions : Extensions;
  nod_Extras : any;
  nod_Name : string;
  nod_Camera : option Z;
  nod_Children : list Z;
  nod_Skin : option Z;
  nod_Matrix : list Z;
  nod_Mesh : option Z;
  nod_Rotation : list Z;
  nod_Scale : list Z;
  nod_Translation : list Z;
  nod_Weights : list Z
}.
Definition zero_Node : Node :=
  mkNode [] VNull "" None [] None (repeat 0 16) None (repeat 0 4) (repeat 0 3) (repeat 0 3) [].
Definition set_nod_Extensions (v : Extensions) (x : Node) : Node :=
  mkNode v (nod_Extras x) (nod_Name x) (nod_Camera x) (nod_Children x) (nod_Skin x) (nod_Matrix x) (nod_Mesh x) (nod_Rotation x) (nod_Scale x) (nod_Translation x) (nod_Weights x).
Definition set_nod_Extras (v : any) (x : Node) : Node :=
  mkNode (nod_Extensions x) v (nod_Name x) (nod_Camera x) (nod_Children x) (nod_Skin x) (nod_Matrix x) (nod_Mesh x) (nod_Rotation x) (nod_Scale x) (nod_Translation x) (nod_Weights x).
Definition set_nod_Name (v : string) (x : Node) : Node :=
  mkNode (nod_Extensions x) (nod_Extras x) v (nod_Camera x) (nod_Children x) (nod_Skin x) (nod_Matrix x) (nod_Mesh x) (nod_Rotation x) (nod_Scale x) (nod_Translation x) (nod_Weights x).
Definition set_nod_Camera (v : option Z) (x : Node) : Node :=
  mkNode (nod_Extensions x) (nod_Extras x) (nod_Name x) v (nod_Children x) (nod_Skin x) (nod_Matrix x) (nod_Mesh x) (nod_Rotation x) (nod_Scale x) (nod_Translation x) (nod_Weights x).
Definition set_nod_Children (v : list Z) (x : Node) : Node :=
  mkNode (nod_Extensions x) (nod_Extras x) (nod_Name x) (nod_Camera x) v (nod_Skin x) (nod_Matrix x) (nod_Mesh x) (nod_Rotation x) (nod_Scale x) (nod_Translation x) (nod_Weights x).
Definition set_nod_Skin (v : option Z) (x : Node) : Node :=
  mkNode (nod_Extensions x) (nod_Extras x) (nod_Name x) (nod_Camera x) (nod_Children x) v (nod_Matrix x) (nod_Mesh x) (nod_Rotation x) (nod_Scale x) (nod_Translation x) (nod_Weights x).
Definition set_nod_Matrix (v : list Z) (x : Node) : Node :=
  mkNode (nod_Extensions x) (nod_Extras x) (nod_Name x) (nod_Camera x) (nod_Children x) (nod_Skin x) v (nod_Mesh x) (nod_Rotation x) (nod_Scale x) (nod_Translation x) (nod_Weights x).
Definition set_nod_Mesh (v : option Z) (x : Node) : Node :=
  mkNode (nod_Extensions x) (nod_Extras x) (nod_Name x) (nod_Camera x) (nod_Children x) (nod_Skin x) (nod_Matrix x) v (nod_Rotation x) (nod_Scale x) (nod_Translation x) (nod_Weights x).
Definition set_nod_Rotation (v : list Z) (x : Node) : Node :=
  mkNode (nod_Extensions x) (nod_Extras x) (nod_Name x) (nod_Camera x) (nod_Children x) (nod_Skin x) (nod_Matrix x) (nod_Mesh x) v (nod_Scale x) (nod_Translation x) (nod_Weights x).
Definition set_nod_Scale (v : list Z) (x : Node) : Node :=
  mkNode (nod_Extensions x) (nod_Extras x) (nod_Name x) (nod_Camera x) (nod_Children x) (nod_Skin x) (nod_Matrix x) (nod_Mesh x) (nod_Rotation x) v (nod_Translation x) (nod_Weights x).
Definition set_nod_Translation (v : list Z) (x : Node) : Node :=
  mkNode (nod_Extensions x) (nod_Extras x) (nod_Name x) (nod_Camera x) (nod_Children x) (nod_Skin x) (nod_Matrix x) (nod_Mesh x) (nod_Rotation x) (nod_Scale x) v (nod_Weights x).
Definition set_nod_Weights (v : list Z) (x : Node) : Node :=
  mkNode (nod_Extensions x) (nod_Extras x) (nod_Name x) (nod_Camera x) (nod_Children x) (nod_Skin x) (nod_Matrix x) (nod_Mesh x) (nod_Rotation x) (nod_Scale x) (nod_Translation x) v.

(** gltf.go:213-221 *)
Record Skin : Type := mkSkin {
  skn_Extensions : Extensions;
  skn_Extras : any;
  skn_Name : string;
  skn_InverseBindMatrices : option Z;
  skn_Skeleton : option Z;
  skn_Joints : option (list Z)
}.
Definition zero_Skin : Skin :=
  mkSkin [] VNull "" None None None.
Definition set_skn_Extensions (v : Extensions) (x : Skin) : Skin :=
  mkSkin v (skn_Extras x) (skn_Name x) (skn_InverseBindMatrices x) (skn_Skeleton x) (skn_Joints x).
Definition set_skn_Extras (v : any) (x : Skin) : Skin :=
  mkSkin (skn_Extensions x) v (skn_Name x) (skn_InverseBindMatrices x) (skn_Skeleton x) (skn_Joints x).
Definition set_skn_Name (v : string) (x : Skin) : Skin :=
  mkSkin (skn_Extensions x) (skn_Extras x) v (skn_InverseBindMatrices x) (skn_Skeleton x) (skn_Joints x).
Definition set_skn_InverseBindMatrices (v : option Z) (x : Skin) : Skin :=
  mkSkin (skn_Extensions x) (skn_Extras x) (skn_Name x) v (skn_Skeleton x) (skn_Joints x).
Definition set_skn_Skeleton (v : option Z) (x : Skin) : Skin :=
  mkSkin (skn_Extensions x) (skn_Extras x) (skn_Name x) (skn_InverseBindMatrices x) v (skn_Joints x).
Definition set_skn_Joints (v : option (list Z)) (x : Skin) : Skin :=
  mkSkin (skn_Extensions x) (skn_Extras x) (skn_Name x) (skn_InverseBindMatrices x) (skn_Skeleton x) v.

(** gltf.go:232-240 *)
Record Orthographic : Type := mkOrthographic {
  ort_Extensions : Extensions;
  ort_Extras : any;
  ort_Xmag : Z;
  ort_Ymag : Z;
  ort_Zfar : Z;
  ort_Znear : Z
}.
Definition zero_Orthographic : Orthographic :=
  mkOrthographic [] VNull 0 0 0 0.
Definition set_ort_Extensions (v : Extensions) (x : Orthographic) : Orthographic :=
  mkOrthographic v (ort_Extras x) (ort_Xmag x) (ort_Ymag x) (ort_Zfar x) (ort_Znear x).
Definition set_ort_Extras (v : any) (x : Orthographic) : Orthographic :=
  mkOrthographic (ort_Extensions x) v (ort_Xmag x) (ort_Ymag x) (ort_Zfar x) (ort_Znear x).
Definition set_ort_Xmag (v : Z) (x : Orthographic) : Orthographic :=
  mkOrthographic (ort_Extensions x) (ort_Extras x) v (ort_Ymag x) (ort_Zfar x) (ort_Znear x).
Definition set_ort_Ymag (v : Z) (x : Orthographic) : Orthographic :=
  mkOrthographic (ort_Extensions x) (ort_Extras x) (ort_Xmag x) v (ort_Zfar x) (ort_Znear x).
Definition set_ort_Zfar (v : Z) (x : Orthographic) : Orthographic :=
  mkOrthographic (ort_Extensions x) (ort_Extras x) (ort_Xmag x) (ort_Ymag x) v (ort_Znear x).
Definition set_ort_Znear (v : Z) (x : Orthographic) : Orthographic :=
  mkOrthographic (ort_Extensions x) (ort_Extras x) (ort_Xmag x) (ort_Ymag x) (ort_Zfar x) v.

(** gltf.go:242-250 *)
Record Perspective : Type := mkPerspective {
  per_Extensions : Extensions;
  per_Extras : any;
  per_AspectRatio : option Z;
  per_Yfov : Z;
  per_Zfar : option Z;
  per_Znear : Z
}.
Definition zero_Perspective : Perspective :=
  mkPerspective [] VNull None 0 None 0.
Definition set_per_Extensions (v : Extensions) (x : Perspective) : Perspective :=
  mkPerspective v (per_Extras x) (per_AspectRatio x) (per_Yfov x) (per_Zfar x) (per_Znear x).
Definition set_per_Extras (v : any) (x : Perspective) : Perspective :=
  mkPerspective (per_Extensions x) v (per_AspectRatio x) (per_Yfov x) (per_Zfar x) (per_Znear x).
Definition set_per_AspectRatio (v : option Z) (x : Perspective) : Perspective :=
  mkPerspective (per_Extensions x) (per_Extras x) v (per_Yfov x) (per_Zfar x) (per_Znear x).
Definition set_per_Yfov (v : Z) (x : Perspective) : Perspective :=
  mkPerspective (per_Extensions x) (per_Extras x) (per_AspectRatio x) v (per_Zfar x) (per_Znear x).
Definition set_per_Zfar (v : option Z) (x : Perspective) : Perspective :=
  mkPerspective (per_Extensions x) (per_Extras x) (per_AspectRatio x) (per_Yfov x) v (per_Znear x).
Definition set_per_Znear (v : Z) (x : Perspective) : Perspective :=
  mkPerspective (per_Extensions x) (per_Extras x) (per_AspectRatio x) (per_Yfov x) (per_Zfar x) v.

(** gltf.go:223-230 *)
Record Camera : Type := mkCamera {
  cam_Extensions : Extensions;
  cam_Extras : any;
  cam_Name : string;
  cam_Orthographic : option Orthographic;
  cam_Perspective : option Perspective
}.
Definition zero_Camera : Camera :=
  mkCamera [] VNull "" None None.
Definition set_cam_Extensions (v : Extensions) (x : Camera) : Camera :=
  mkCamera v (cam_Extras x) (cam_Name x) (cam_Orthographic x) (cam_Perspective x).
Definition set_cam_Extras (v : any) (x : Camera) : Camera :=
  mkCamera (cam_Extensions x) v (cam_Name x) (cam_Orthographic x) (cam_Perspective x).
Definition set_cam_Name (v : string) (x : Camera) : Camera :=
  mkCamera (cam_Extensions x) (cam_Extras x) v (cam_Orthographic x) (cam_Perspective x).
Definition set_cam_Orthographic (v : option Orthographic) (x : Camera) : Camera :=
  mkCamera (cam_Extensions x) (cam_Extras x) (cam_Name x) v (cam_Perspective x).
Definition set_cam_Perspective (v : option Perspective) (x : Camera) : Camera :=
  mkCamera (cam_Extensions x) (cam_Extras x) (cam_Name x) (cam_Orthographic x) v.

(** gltf.go:261-270 *)
Record Primitive : Type := mkPrimitive {
  pri_Extensions : Extensions;
  pri_Extras : any;
  pri_Attributes : option (list (string * Z));
  pri_Indices : option Z;
  pri_Material : option Z;
  pri_Mode : Z;
  pri_Targets : list (option (list (string * Z)))
}.
Definition zero_Primitive : Primitive :=
  mkPrimitive [] VNull None None None 0 [].
Definition set_pri_Extensions (v : Extensions) (x : Primitive) : Primitive :=
  mkPrimitive v (pri_Extras x) (pri_Attributes x) (pri_Indices x) (pri_Material x) (pri_Mode x) (pri_Targets x).
Definition set_pri_Extras (v : any) (x : Primitive) : Primitive :=
  mkPrimitive (pri_Extensions x) v (pri_Attributes x) (pri_Indices x) (pri_Material x) (pri_Mode x) (pri_Targets x).
Definition set_pri_Attributes (v : option (list (string * Z))) (x : Primitive) : Primitive :=
  mkPrimitive (pri_Extensions x) (pri_Extras x) v (pri_Indices x) (pri_Material x) (pri_Mode x) (pri_Targets x).
Definition set_pri_Indices (v : option Z) (x : Primitive) : Primitive :=
  mkPrimitive (pri_Extensions x) (pri_Extras x) (pri_Attributes x) v (pri_Material x) (pri_Mode x) (pri_Targets x).
Definition set_pri_Material (v : option Z) (x : Primitive) : Primitive :=
  mkPrimitive (pri_Extensions x) (pri_Extras x) (pri_Attributes x) (pri_Indices x) v (pri_Mode x) (pri_Targets x).
Definition set_pri_Mode (v : Z) (x : Primitive) : Primitive :=
  mkPrimitive (pri_Extensions x) (pri_Extras x) (pri_Attributes x) (pri_Indices x) (pri_Material x) v (pri_Targets x).
Definition set_pri_Targets (v : list (option (list (string * Z)))) (x : Primitive) : Primitive :=
  mkPrimitive (pri_Extensions x) (pri_Extras x) (pri_Attributes x) (pri_Indices x) (pri_Material x) (pri_Mode x) v.

(** gltf.go:252-259 *)
Record Mesh : Type := mkMesh {
  msh_Extensions : Extensions;
  msh_Extras : any;
  msh_Name : string;
  msh_Primitives : option (list (option Primitive));
  msh_Weights : list Z
}.
Definition zero_Mesh : Mesh :=
  mkMesh [] VNull "" None [].
Definition set_msh_Extensions (v : Extensions) (x : Mesh) : Mesh :=
  mkMesh v (msh_Extras x) (msh_Name x) (msh_Primitives x) (msh_Weights x).
Definition set_msh_Extras (v : any) (x : Mesh) : Mesh :=
  mkMesh (msh_Extensions x) v (msh_Name x) (msh_Primitives x) (msh_Weights x).
Definition set_msh_Name (v : string) (x : Mesh) : Mesh :=
  mkMesh (msh_Extensions x) (msh_Extras x) v (msh_Primitives x) (msh_Weights x).
Definition set_msh_Primitives (v : option (list (option Primitive))) (x : Mesh) : Mesh :=
  mkMesh (msh_Extensions x) (msh_Extras x) (msh_Name x) v (msh_Weights x).
Definition set_msh_Weights (v : list Z) (x : Mesh) : Mesh :=
  mkMesh (msh_Extensions x) (msh_Extras x) (msh_Name x) (msh_Primitives x) v.

(** gltf.go:363-369 *)
Record TextureInfo : Type := mkTextureInfo {
  txi_Extensions : Extensions;
  txi_Extras : any;
  txi_Index : Z;
  txi_TexCoord : Z
}.
Definition zero_TextureInfo : TextureInfo :=
  mkTextureInfo [] VNull 0 0.
Definition set_txi_Extensions (v : Extensions) (x : TextureInfo) : TextureInfo :=
  mkTextureInfo v (txi_Extras x) (txi_Index x) (txi_TexCoord x).
Definition set_txi_Extras (v : any) (x : TextureInfo) : TextureInfo :=
  mkTextureInfo (txi_Extensions x) v (txi_Index x) (txi_TexCoord x).
Definition set_txi_Index (v : Z) (x : TextureInfo) : TextureInfo :=
  mkTextureInfo (txi_Extensions x) (txi_Extras x) v (txi_TexCoord x).
Definition set_txi_TexCoord (v : Z) (x : TextureInfo) : TextureInfo :=
  mkTextureInfo (txi_Extensions x) (txi_Extras x) (txi_Index x) v.

(** gltf.go:295-302 *)
Record NormalTexture : Type := mkNormalTexture {
  ntx_Extensions : Extensions;
  ntx_Extras : any;
  ntx_Index : option Z;
  ntx_TexCoord : Z;
  ntx_Scale : option Z
}.
Definition zero_NormalTexture : NormalTexture :=
  mkNormalTexture [] VNull None 0 None.
Definition set_ntx_Extensions (v : Extensions) (x : NormalTexture) : NormalTexture :=
  mkNormalTexture v (ntx_Extras x) (ntx_Index x) (ntx_TexCoord x) (ntx_Scale x).
Definition set_ntx_Extras (v : any) (x : NormalTexture) : NormalTexture :=
  mkNormalTexture (ntx_Extensions x) v (ntx_Index x) (ntx_TexCoord x) (ntx_Scale x).
Definition set_ntx_Index (v : option Z) (x : NormalTexture) : NormalTexture :=
  mkNormalTexture (ntx_Extensions x) (ntx_Extras x) v (ntx_TexCoord x) (ntx_Scale x).
Definition set_ntx_TexCoord (v : Z) (x : NormalTexture) : NormalTexture :=
  mkNormalTexture (ntx_Extensions x) (ntx_Extras x) (ntx_Index x) v (ntx_Scale x).
Definition set_ntx_Scale (v : option Z) (x : NormalTexture) : NormalTexture :=
  mkNormalTexture (ntx_Extensions x) (ntx_Extras x) (ntx_Index x) (ntx_TexCoord x) v.

(** gltf.go:312-319 *)
Record OcclusionTexture : Type := mkOcclusionTexture {
  otx_Extensions : Extensions;
  otx_Extras : any;
  otx_Index : option Z;
  otx_TexCoord : Z;
  otx_Strength : option Z
}.
Definition zero_OcclusionTexture : OcclusionTexture :=
  mkOcclusionTexture [] VNull None 0 None.
Definition set_otx_Extensions (v : Extensions) (x : OcclusionTexture) : OcclusionTexture :=
  mkOcclusionTexture v (otx_Extras x) (otx_Index x) (otx_TexCoord x) (otx_Strength x).
Definition set_otx_Extras (v : any) (x : OcclusionTexture) : OcclusionTexture :=
  mkOcclusionTexture (otx_Extensions x) v (otx_Index x) (otx_TexCoord x) (otx_Strength x).
Definition set_otx_Index (v : option Z) (x : OcclusionTexture) : OcclusionTexture :=
  mkOcclusionTexture (otx_Extensions x) (otx_Extras x) v (otx_TexCoord x) (otx_Strength x).
Definition set_otx_TexCoord (v : Z) (x : OcclusionTexture) : OcclusionTexture :=
  mkOcclusionTexture (otx_Extensions x) (otx_Extras x) (otx_Index x) v (otx_Strength x).
Definition set_otx_Strength (v : option Z) (x : OcclusionTexture) : OcclusionTexture :=
  mkOcclusionTexture (otx_Extensions x) (otx_Extras x) (otx_Index x) (otx_TexCoord x) v.

(** gltf.go:329-338 *)
Record PBRMetallicRoughness : Type := mkPBRMetallicRoughness {
  pbr_Extensions : Extensions;
  pbr_Extras : any;
  pbr_BaseColorFactor : option (list Z);
  pbr_BaseColorTexture : option TextureInfo;
  pbr_MetallicFactor : option Z;
  pbr_RoughnessFactor : option Z;
  pbr_MetallicRoughnessTexture : option TextureInfo
}.
Definition zero_PBRMetallicRoughness : PBRMetallicRoughness :=
  mkPBRMetallicRoughness [] VNull None None None None None.
Definition set_pbr_Extensions (v : Extensions) (x : PBRMetallicRoughness) : PBRMetallicRoughness :=
  mkPBRMetallicRoughness v (pbr_Extras x) (pbr_BaseColorFactor x) (pbr_BaseColorTexture x) (pbr_MetallicFactor x) (pbr_RoughnessFactor x) (pbr_MetallicRoughnessTexture x).
Definition set_pbr_Extras (v : any) (x : PBRMetallicRoughness) : PBRMetallicRoughness :=
  mkPBRMetallicRoughness (pbr_Extensions x) v (pbr_BaseColorFactor x) (pbr_BaseColorTexture x) (pbr_MetallicFactor x) (pbr_RoughnessFactor x) (pbr_MetallicRoughnessTexture x).
Definition set_pbr_BaseColorFactor (v : option (list Z)) (x : PBRMetallicRoughness) : PBRMetallicRoughness :=
  mkPBRMetallicRoughness (pbr_Extensions x) (pbr_Extras x) v (pbr_BaseColorTexture x) (pbr_MetallicFactor x) (pbr_RoughnessFactor x) (pbr_MetallicRoughnessTexture x).
Definition set_pbr_BaseColorTexture (v : option TextureInfo) (x : PBRMetallicRoughness) : PBRMetallicRoughness :=
  mkPBRMetallicRoughness (pbr_Extensions x) (pbr_Extras x) (pbr_BaseColorFactor x) v (pbr_MetallicFactor x) (pbr_RoughnessFactor x) (pbr_MetallicRoughnessTexture x).
Definition set_pbr_MetallicFactor (v : option Z) (x : PBRMetallicRoughness) : PBRMetallicRoughness :=
  mkPBRMetallicRoughness (pbr_Extensions x) (pbr_Extras x) (pbr_BaseColorFactor x) (pbr_BaseColorTexture x) v (pbr_RoughnessFactor x) (pbr_MetallicRoughnessTexture x).
Definition set_pbr_RoughnessFactor (v : option Z) (x : PBRMetallicRoughness) : PBRMetallicRoughness :=
  mkPBRMetallicRoughness (pbr_Extensions x) (pbr_Extras x) (pbr_BaseColorFactor x) (pbr_BaseColorTexture x) (pbr_MetallicFactor x) v (pbr_MetallicRoughnessTexture x).
Definition set_pbr_MetallicRoughnessTexture (v : option TextureInfo) (x : PBRMetallicRoughness) : PBRMetallicRoughness :=
  mkPBRMetallicRoughness (pbr_Extensions x) (pbr_Extras x) (pbr_BaseColorFactor x) (pbr_BaseColorTexture x) (pbr_MetallicFactor x) (pbr_RoughnessFactor x) v.

(** gltf.go:272-285 *)
Record Material : Type := mkMaterial {
  mat_Extensions : Extensions;
  mat_Extras : any;
  mat_Name : string;
  mat_PBRMetallicRoughness : option PBRMetallicRoughness;
  mat_NormalTexture : option NormalTexture;
  mat_OcclusionTexture : option OcclusionTexture;
  mat_EmissiveTexture : option TextureInfo;
  mat_EmissiveFactor : list Z;
  mat_AlphaMode : Z;
  mat_AlphaCutoff : option Z;
  mat_DoubleSided : bool
}.
Definition zero_Material : Material :=
  mkMaterial [] VNull "" None None None None (repeat 0 3) 0 None false.
Definition set_mat_Extensions (v : Extensions) (x : Material) : Material :=
  mkMaterial v (mat_Extras x) (mat_Name x) (mat_PBRMetallicRoughness x) (mat_NormalTexture x) (mat_OcclusionTexture x) (mat_EmissiveTexture x) (mat_EmissiveFactor x) (mat_AlphaMode x) (mat_AlphaCutoff x) (mat_DoubleSided x).
Definition set_mat_Extras (v : any) (x : Material) : Material :=
  mkMaterial (mat_Extensions x) v (mat_Name x) (mat_PBRMetallicRoughness x) (mat_NormalTexture x) (mat_OcclusionTexture x) (mat_EmissiveTexture x) (mat_EmissiveFactor x) (mat_AlphaMode x) (mat_AlphaCutoff x) (mat_DoubleSided x).
Definition set_mat_Name (v : string) (x : Material) : Material :=
  mkMaterial (mat_Extensions x) (mat_Extras x) v (mat_PBRMetallicRoughness x) (mat_NormalTexture x) (mat_OcclusionTexture x) (mat_EmissiveTexture x) (mat_EmissiveFactor x) (mat_AlphaMode x) (mat_AlphaCutoff x) (mat_DoubleSided x).
Definition set_mat_PBRMetallicRoughness (v : option PBRMetallicRoughness) (x : Material) : Material :=
  mkMaterial (mat_Extensions x) (mat_Extras x) (mat_Name x) v (mat_NormalTexture x) (mat_OcclusionTexture x) (mat_EmissiveTexture x) (mat_EmissiveFactor x) (mat_AlphaMode x) (mat_AlphaCutoff x) (mat_DoubleSided x).
Definition set_mat_NormalTexture (v : option NormalTexture) (x : Material) : Material :=
  mkMaterial (mat_Extensions x) (mat_Extras x) (mat_Name x) (mat_PBRMetallicRoughness x) v (mat_OcclusionTexture x) (mat_EmissiveTexture x) (mat_EmissiveFactor x) (mat_AlphaMode x) (mat_AlphaCutoff x) (mat_DoubleSided x).
Definition set_mat_OcclusionTexture (v : option OcclusionTexture) (x : Material) : Material :=
  mkMaterial (mat_Extensions x) (mat_Extras x) (mat_Name x) (mat_PBRMetallicRoughness x) (mat_NormalTexture x) v (mat_EmissiveTexture x) (mat_EmissiveFactor x) (mat_AlphaMode x) (mat_AlphaCutoff x) (mat_DoubleSided x).
Definition set_mat_EmissiveTexture (v : option TextureInfo) (x : Material) : Material :=
  mkMaterial (mat_Extensions x) (mat_Extras x) (mat_Name x) (mat_PBRMetallicRoughness x) (mat_NormalTexture x) (mat_OcclusionTexture x) v (mat_EmissiveFactor x) (mat_AlphaMode x) (mat_AlphaCutoff x) (mat_DoubleSided x).
Definition set_mat_EmissiveFactor (v : list Z) (x : Material) : Material :=
  mkMaterial (mat_Extensions x) (mat_Extras x) (mat_Name x) (mat_PBRMetallicRoughness x) (mat_NormalTexture x) (mat_OcclusionTexture x) (mat_EmissiveTexture x) v (mat_AlphaMode x) (mat_AlphaCutoff x) (mat_DoubleSided x).
Definition set_mat_AlphaMode (v : Z) (x : Material) : Material :=
  mkMaterial (mat_Extensions x) (mat_Extras x) (mat_Name x) (mat_PBRMetallicRoughness x) (mat_NormalTexture x) (mat_OcclusionTexture x) (mat_EmissiveTexture x) (mat_EmissiveFactor x) v (mat_AlphaCutoff x) (mat_DoubleSided x).
Definition set_mat_AlphaCutoff (v : option Z) (x : Material) : Material :=
  mkMaterial (mat_Extensions x) (mat_Extras x) (mat_Name x) (mat_PBRMetallicRoughness x) (mat_NormalTexture x) (mat_OcclusionTexture x) (mat_EmissiveTexture x) (mat_EmissiveFactor x) (mat_AlphaMode x) v (mat_DoubleSided x).
Definition set_mat_DoubleSided (v : bool) (x : Material) : Material :=
  mkMaterial (mat_Extensions x) (mat_Extras x) (mat_Name x) (mat_PBRMetallicRoughness x) (mat_NormalTexture x) (mat_OcclusionTexture x) (mat_EmissiveTexture x) (mat_EmissiveFactor x) (mat_AlphaMode x) (mat_AlphaCutoff x) v.

(** gltf.go:371-378 *)
Record Texture : Type := mkTexture {
  txt_Extensions : Extensions;
  txt_Extras : any;
  txt_Name : string;
  txt_Sampler : option Z;
  txt_Source : option Z
}.
Definition zero_Texture : Texture :=
  mkTexture [] VNull "" None None.
Definition set_txt_Extensions (v : Extensions) (x : Texture) : Texture :=
  mkTexture v (txt_Extras x) (txt_Name x) (txt_Sampler x) (txt_Source x).
Definition set_txt_Extras (v : any) (x : Texture) : Texture :=
  mkTexture (txt_Extensions x) v (txt_Name x) (txt_Sampler x) (txt_Source x).
Definition set_txt_Name (v : string) (x : Texture) : Texture :=
  mkTexture (txt_Extensions x) (txt_Extras x) v (txt_Sampler x) (txt_Source x).
Definition set_txt_Sampler (v : option Z) (x : Texture) : Texture :=
  mkTexture (txt_Extensions x) (txt_Extras x) (txt_Name x) v (txt_Source x).
Definition set_txt_Source (v : option Z) (x : Texture) : Texture :=
  mkTexture (txt_Extensions x) (txt_Extras x) (txt_Name x) (txt_Sampler x) v.

(** gltf.go:380-389 *)
Record Sampler : Type := mkSampler {
  smp_Extensions : Extensions;
  smp_Extras : any;
  smp_Name : string;
  smp_MagFilter : Z;
  smp_MinFilter : Z;
  smp_WrapS : Z;
  smp_WrapT : Z
}.
Definition zero_Sampler : Sampler :=
  mkSampler [] VNull "" 0 0 0 0.
Definition set_smp_Extensions (v : Extensions) (x : Sampler) : Sampler :=
  mkSampler v (smp_Extras x) (smp_Name x) (smp_MagFilter x) (smp_MinFilter x) (smp_WrapS x) (smp_WrapT x).
Definition set_smp_Extras (v : any) (x : Sampler) : Sampler :=
  mkSampler (smp_Extensions x) v (smp_Name x) (smp_MagFilter x) (smp_MinFilter x) (smp_WrapS x) (smp_WrapT x).
Definition set_smp_Name (v : string) (x : Sampler) : Sampler :=
  mkSampler (smp_Extensions x) (smp_Extras x) v (smp_MagFilter x) (smp_MinFilter x) (smp_WrapS x) (smp_WrapT x).
Definition set_smp_MagFilter (v : Z) (x : Sampler) : Sampler :=
  mkSampler (smp_Extensions x) (smp_Extras x) (smp_Name x) v (smp_MinFilter x) (smp_WrapS x) (smp_WrapT x).
Definition set_smp_MinFilter (v : Z) (x : Sampler) : Sampler :=
  mkSampler (smp_Extensions x) (smp_Extras x) (smp_Name x) (smp_MagFilter x) v (smp_WrapS x) (smp_WrapT x).
Definition set_smp_WrapS (v : Z) (x : Sampler) : Sampler :=
  mkSampler (smp_Extensions x) (smp_Extras x) (smp_Name x) (smp_MagFilter x) (smp_MinFilter x) v (smp_WrapT x).
Definition set_smp_WrapT (v : Z) (x : Sampler) : Sampler :=
  mkSampler (smp_Extensions x) (smp_Extras x) (smp_Name x) (smp_MagFilter x) (smp_MinFilter x) (smp_WrapS x) v.

(** gltf.go:391-400 *)
Record Image : Type := mkImage {
  img_Extensions : Extensions;
  img_Extras : any;
  img_Name : string;
  img_URI : string;
  img_MimeType : string;
  img_BufferView : option Z
}.
Definition zero_Image : Image :=
  mkImage [] VNull "" "" "" None.
Definition set_img_Extensions (v : Extensions) (x : Image) : Image :=
  mkImage v (img_Extras x) (img_Name x) (img_URI x) (img_MimeType x) (img_BufferView x).
Definition set_img_Extras (v : any) (x : Image) : Image :=
  mkImage (img_Extensions x) v (img_Name x) (img_URI x) (img_MimeType x) (img_BufferView x).
Definition set_img_Name (v : string) (x : Image) : Image :=
  mkImage (img_Extensions x) (img_Extras x) v (img_URI x) (img_MimeType x) (img_BufferView x).
Definition set_img_URI (v : string) (x : Image) : Image :=
  mkImage (img_Extensions x) (img_Extras x) (img_Name x) v (img_MimeType x) (img_BufferView x).
Definition set_img_MimeType (v : string) (x : Image) : Image :=
  mkImage (img_Extensions x) (img_Extras x) (img_Name x) (img_URI x) v (img_BufferView x).
Definition set_img_BufferView (v : option Z) (x : Image) : Image :=
  mkImage (img_Extensions x) (img_Extras x) (img_Name x) (img_URI x) (img_MimeType x) v.

(** gltf.go:433-440 *)
Record AnimationSampler : Type := mkAnimationSampler {
  ans_Extensions : Extensions;
  ans_Extras : any;
  ans_Input : Z;
  ans_Interpolation : Z;
  ans_Output : Z
}.
Definition zero_AnimationSampler : AnimationSampler :=
  mkAnimationSampler [] VNull 0 0 0.
Definition set_ans_Extensions (v : Extensions) (x : AnimationSampler) : AnimationSampler :=
  mkAnimationSampler v (ans_Extras x) (ans_Input x) (ans_Interpolation x) (ans_Output x).
Definition set_ans_Extras (v : any) (x : AnimationSampler) : AnimationSampler :=
  mkAnimationSampler (ans_Extensions x) v (ans_Input x) (ans_Interpolation x) (ans_Output x).
Definition set_ans_Input (v : Z) (x : AnimationSampler) : AnimationSampler :=
  mkAnimationSampler (ans_Extensions x) (ans_Extras x) v (ans_Interpolation x) (ans_Output x).
Definition set_ans_Interpolation (v : Z) (x : AnimationSampler) : AnimationSampler :=
  mkAnimationSampler (ans_Extensions x) (ans_Extras x) (ans_Input x) v (ans_Output x).
Definition set_ans_Output (v : Z) (x : AnimationSampler) : AnimationSampler :=
  mkAnimationSampler (ans_Extensions x) (ans_Extras x) (ans_Input x) (ans_Interpolation x) v.

(** gltf.go:450-460 *)
Record AnimationChannelTarget : Type := mkAnimationChannelTarget {
  act_Extensions : Extensions;
  act_Extras : any;
  act_Node : option Z;
  act_Path : Z
}.
Definition zero_AnimationChannelTarget : AnimationChannelTarget :=
  mkAnimationChannelTarget [] VNull None 0.
Definition set_act_Extensions (v : Extensions) (x : AnimationChannelTarget) : AnimationChannelTarget :=
  mkAnimationChannelTarget v (act_Extras x) (act_Node x) (act_Path x).
Definition set_act_Extras (v : any) (x : AnimationChannelTarget) : AnimationChannelTarget :=
  mkAnimationChannelTarget (act_Extensions x) v (act_Node x) (act_Path x).
Definition set_act_Node (v : option Z) (x : AnimationChannelTarget) : AnimationChannelTarget :=
  mkAnimationChannelTarget (act_Extensions x) (act_Extras x) v (act_Path x).
Definition set_act_Path (v : Z) (x : AnimationChannelTarget) : AnimationChannelTarget :=
  mkAnimationChannelTarget (act_Extensions x) (act_Extras x) (act_Node x) v.

(** gltf.go:442-448 *)
Record AnimationChannel : Type := mkAnimationChannel {
  anc_Extensions : Extensions;
  anc_Extras : any;
  anc_Sampler : Z;
  anc_Target : AnimationChannelTarget
}.
Definition zero_AnimationChannel : AnimationChannel :=
  mkAnimationChannel [] VNull 0 zero_AnimationChannelTarget.
Definition set_anc_Extensions (v : Extensions) (x : AnimationChannel) : AnimationChannel :=
  mkAnimationChannel v (anc_Extras x) (anc_Sampler x) (anc_Target x).
Definition set_anc_Extras (v : any) (x : AnimationChannel) : AnimationChannel :=
  mkAnimationChannel (anc_Extensions x) v (anc_Sampler x) (anc_Target x).
Definition set_anc_Sampler (v : Z) (x : AnimationChannel) : AnimationChannel :=
  mkAnimationChannel (anc_Extensions x) (anc_Extras x) v (anc_Target x).
Definition set_anc_Target (v : AnimationChannelTarget) (x : AnimationChannel) : AnimationChannel :=
  mkAnimationChannel (anc_Extensions x) (anc_Extras x) (anc_Sampler x) v.

(** gltf.go:424-431 *)
Record Animation : Type := mkAnimation {
  ani_Extensions : Extensions;
  ani_Extras : any;
  ani_Name : string;
  ani_Channels : option (list (option AnimationChannel));
  ani_Samplers : option (list (option AnimationSampler))
}.
Definition zero_Animation : Animation :=
  mkAnimation [] VNull "" None None.
Definition set_ani_Extensions (v : Extensions) (x : Animation) : Animation :=
  mkAnimation v (ani_Extras x) (ani_Name x) (ani_Channels x) (ani_Samplers x).
Definition set_ani_Extras (v : any) (x : Animation) : Animation :=
  mkAnimation (ani_Extensions x) v (ani_Name x) (ani_Channels x) (ani_Samplers x).
Definition set_ani_Name (v : string) (x : Animation) : Animation :=
  mkAnimation (ani_Extensions x) (ani_Extras x) v (ani_Channels x) (ani_Samplers x).
Definition set_ani_Channels (v : option (list (option AnimationChannel))) (x : Animation) : Animation :=
  mkAnimation (ani_Extensions x) (ani_Extras x) (ani_Name x) v (ani_Samplers x).
Definition set_ani_Samplers (v : option (list (option AnimationSampler))) (x : Animation) : Animation :=
  mkAnimation (ani_Extensions x) (ani_Extras x) (ani_Name x) (ani_Channels x) v.

(** gltf.go:31-52 *)
Record Document : Type := mkDocument {
  doc_Extensions : Extensions;
  doc_Extras : any;
  doc_ExtensionsUsed : list string;
  doc_ExtensionsRequired : list string;
  doc_Accessors : list (option Accessor);
  doc_Animations : list (option Animation);
  doc_Asset : Asset;
  doc_Buffers : list (option Buffer);
  doc_BufferViews : list (option BufferView);
  doc_Cameras : list (option Camera);
  doc_Images : list (option Image);
  doc_Materials : list (option Material);
  doc_Meshes : list (option Mesh);
  doc_Nodes : list (option Node);
  doc_Samplers : list (option Sampler);
  doc_Scene : option Z;
  doc_Scenes : list (option Scene);
  doc_Skins : list (option Skin);
  doc_Textures : list (option Texture)
}.
Definition zero_Document : Document :=
  mkDocument [] VNull [] [] [] [] zero_Asset [] [] [] [] [] [] [] [] None [] [] [].
Definition set_doc_Extensions (v : Extensions) (x : Document) : Document :=
  mkDocument v (doc_Extras x) (doc_ExtensionsUsed x) (doc_ExtensionsRequired x) (doc_Accessors x) (doc_Animations x) (doc_Asset x) (doc_Buffers x) (doc_BufferViews x) (doc_Cameras x) (doc_Images x) (doc_Materials x) (doc_Meshes x) (doc_Nodes x) (doc_Samplers x) (doc_Scene x) (doc_Scenes x) (doc_Skins x) (doc_Textures x).
Definition set_doc_Extras (v : any) (x : Document) : Document :=
  mkDocument (doc_Extensions x) v (doc_ExtensionsUsed x) (doc_ExtensionsRequired x) (doc_Accessors x) (doc_Animations x) (doc_Asset x) (doc_Buffers x) (doc_BufferViews x) (doc_Cameras x) (doc_Images x) (doc_Materials x) (doc_Meshes x) (doc_Nodes x) (doc_Samplers x) (doc_Scene x) (doc_Scenes x) (doc_Skins x) (doc_Textures x).
Definition set_doc_ExtensionsUsed (v : list string) (x : Document) : Document :=
  mkDocument (doc_Extensions x) (doc_Extras x) v (doc_ExtensionsRequired x) (doc_Accessors x) (doc_Animations x) (doc_Asset x) (doc_Buffers x) (doc_BufferViews x) (doc_Cameras x) (doc_Images x) (doc_Materials x) (doc_Meshes x) (doc_Nodes x) (doc_Samplers x) (doc_Scene x) (doc_Scenes x) (doc_Skins x) (doc_Textures x).
Definition set_doc_ExtensionsRequired (v : list string) (x : Document) : Document :=
  mkDocument (doc_Extensions x) (doc_Extras x) (doc_ExtensionsUsed x) v (doc_Accessors x) (doc_Animations x) (doc_Asset x) (doc_Buffers x) (doc_BufferViews x) (doc_Cameras x) (doc_Images x) (doc_Materials x) (doc_Meshes x) (doc_Nodes x) (doc_Samplers x) (doc_Scene x) (doc_Scenes x) (doc_Skins x) (doc_Textures x).
Definition set_doc_Accessors (v : list (option Accessor)) (x : Document) : Document :=
  mkDocument (doc_Extensions x) (doc_Extras x) (doc_ExtensionsUsed x) (doc_ExtensionsRequired x) v (doc_Animations x) (doc_Asset x) (doc_Buffers x) (doc_BufferViews x) (doc_Cameras x) (doc_Images x) (doc_Materials x) (doc_Meshes x) (doc_Nodes x) (doc_Samplers x) (doc_Scene x) (doc_Scenes x) (doc_Skins x) (doc_Textures x).
Definition set_doc_Animations (v : list (option Animation)) (x : Document) : Document :=
  mkDocument (doc_Extensions x) (doc_Extras x) (doc_ExtensionsUsed x) (doc_ExtensionsRequired x) (doc_Accessors x) v (doc_Asset x) (doc_Buffers x) (doc_BufferViews x) (doc_Cameras x) (doc_Images x) (doc_Materials x) (doc_Meshes x) (doc_Nodes x) (doc_Samplers x) (doc_Scene x) (doc_Scenes x) (doc_Skins x) (doc_Textures x).
Definition set_doc_Asset (v : Asset) (x : Document) : Document :=
  mkDocument (doc_Extensions x) (doc_Extras x) (doc_ExtensionsUsed x) (doc_ExtensionsRequired x) (doc_Accessors x) (doc_Animations x) v (doc_Buffers x) (doc_BufferViews x) (doc_Cameras x) (doc_Images x) (doc_Materials x) (doc_Meshes x) (doc_Nodes x) (doc_Samplers x) (doc_Scene x) (doc_Scenes x) (doc_Skins x) (doc_Textures x).
Definition set_doc_Buffers (v : list (option Buffer)) (x : Document) : Document :=
  mkDocument (doc_Extensions x) (doc_Extras x) (doc_ExtensionsUsed x) (doc_ExtensionsRequired x) (doc_Accessors x) (doc_Animations x) (doc_Asset x) v (doc_BufferViews x) (doc_Cameras x) (doc_Images x) (doc_Materials x) (doc_Meshes x) (doc_Nodes x) (doc_Samplers x) (doc_Scene x) (doc_Scenes x) (doc_Skins x) (doc_Textures x).
Definition set_doc_BufferViews (v : list (option BufferView)) (x : Document) : Document :=
  mkDocument (doc_Extensions x) (doc_Extras x) (doc_ExtensionsUsed x) (doc_ExtensionsRequired x) (doc_Accessors x) (doc_Animations x) (doc_Asset x) (doc_Buffers x) v (doc_Cameras x) (doc_Images x) (doc_Materials x) (doc_Meshes x) (doc_Nodes x) (doc_Samplers x) (doc_Scene x) (doc_Scenes x) (doc_Skins x) (doc_Textures x).
Definition set_doc_Cameras (v : list (option Camera)) (x : Document) : Document :=
  mkDocument (doc_Extensions x) (doc_Extras x) (doc_ExtensionsUsed x) (doc_ExtensionsRequired x) (doc_Accessors x) (doc_Animations x) (doc_Asset x) (doc_Buffers x) (doc_BufferViews x) v (doc_Images x) (doc_Materials x) (doc_Meshes x) (doc_Nodes x) (doc_Samplers x) (doc_Scene x) (doc_Scenes x) (doc_Skins x) (doc_Textures x).
Definition set_doc_Images (v : list (option Image)) (x : Document) : Document :=
  mkDocument (doc_Extensions x) (doc_Extras x) (doc_ExtensionsUsed x) (doc_ExtensionsRequired x) (doc_Accessors x) (doc_Animations x) (doc_Asset x) (doc_Buffers x) (doc_BufferViews x) (doc_Cameras x) v (doc_Materials x) (doc_Meshes x) (doc_Nodes x) (doc_Samplers x) (doc_Scene x) (doc_Scenes x) (doc_Skins x) (doc_Textures x).
Definition set_doc_Materials (v : list (option Material)) (x : Document) : Document :=
  mkDocument (doc_Extensions x) (doc_Extras x) (doc_ExtensionsUsed x) (doc_ExtensionsRequired x) (doc_Accessors x) (doc_Animations x) (doc_Asset x) (doc_Buffers x) (doc_BufferViews x) (doc_Cameras x) (doc_Images x) v (doc_Meshes x) (doc_Nodes x) (doc_Samplers x) (doc_Scene x) (doc_Scenes x) (doc_Skins x) (doc_Textures x).
Definition set_doc_Meshes (v : list (option Mesh)) (x : Document) : Document :=
  mkDocument (doc_Extensions x) (doc_Extras x) (doc_ExtensionsUsed x) (doc_ExtensionsRequired x) (doc_Accessors x) (doc_Animations x) (doc_Asset x) (doc_Buffers x) (doc_BufferViews x) (doc_Cameras x) (doc_Images x) (doc_Materials x) v (doc_Nodes x) (doc_Samplers x) (doc_Scene x) (doc_Scenes x) (doc_Skins x) (doc_Textures x).
Definition set_doc_Nodes (v : list (option Node)) (x : Document) : Document :=
  mkDocument (doc_Extensions x) (doc_Extras x) (doc_ExtensionsUsed x) (doc_ExtensionsRequired x) (doc_Accessors x) (doc_Animations x) (doc_Asset x) (doc_Buffers x) (doc_BufferViews x) (doc_Cameras x) (doc_Images x) (doc_Materials x) (doc_Meshes x) v (doc_Samplers x) (doc_Scene x) (doc_Scenes x) (doc_Skins x) (doc_Textures x).
Definition set_doc_Samplers (v : list (option Sampler)) (x : Document) : Document :=
  mkDocument (doc_Extensions x) (doc_Extras x) (doc_ExtensionsUsed x) (doc_ExtensionsRequired x) (doc_Accessors x) (doc_Animations x) (doc_Asset x) (doc_Buffers x) (doc_BufferViews x) (doc_Cameras x) (doc_Images x) (doc_Materials x) (doc_Meshes x) (doc_Nodes x) v (doc_Scene x) (doc_Scenes x) (doc_Skins x) (doc_Textures x).
Definition set_doc_Scene (v : option Z) (x : Document) : Document :=
  mkDocument (doc_Extensions x) (doc_Extras x) (doc_ExtensionsUsed x) (doc_ExtensionsRequired x) (doc_Accessors x) (doc_Animations x) (doc_Asset x) (doc_Buffers x) (doc_BufferViews x) (doc_Cameras x) (doc_Images x) (doc_Materials x) (doc_Meshes x) (doc_Nodes x) (doc_Samplers x) v (doc_Scenes x) (doc_Skins x) (doc_Textures x).
Definition set_doc_Scenes (v : list (option Scene)) (x : Document) : Document :=
  mkDocument (doc_Extensions x) (doc_Extras x) (doc_ExtensionsUsed x) (doc_ExtensionsRequired x) (doc_Accessors x) (doc_Animations x) (doc_Asset x) (doc_Buffers x) (doc_BufferViews x) (doc_Cameras x) (doc_Images x) (doc_Materials x) (doc_Meshes x) (doc_Nodes x) (doc_Samplers x) (doc_Scene x) v (doc_Skins x) (doc_Textures x).
Definition set_doc_Skins (v : list (option Skin)) (x : Document) : Document :=
  mkDocument (doc_Extensions x) (doc_Extras x) (doc_ExtensionsUsed x) (doc_ExtensionsRequired x) (doc_Accessors x) (doc_Animations x) (doc_Asset x) (doc_Buffers x) (doc_BufferViews x) (doc_Cameras x) (doc_Images x) (doc_Materials x) (doc_Meshes x) (doc_Nodes x) (doc_Samplers x) (doc_Scene x) (doc_Scenes x) v (doc_Textures x).
Definition set_doc_Textures (v : list (option Texture)) (x : Document) : Document :=
  mkDocument (doc_Extensions x) (doc_Extras x) (doc_ExtensionsUsed x) (doc_ExtensionsRequired x) (doc_Accessors x) (doc_Animations x) (doc_Asset x) (doc_Buffers x) (doc_BufferViews x) (doc_Cameras x) (doc_Images x) (doc_Materials x) (doc_Meshes x) (doc_Nodes x) (doc_Samplers x) (doc_Scene x) (doc_Scenes x) (doc_Skins x) v.


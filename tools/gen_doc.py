#!/usr/bin/env python3
"""Generates rocq/theories/Doc.v from the struct declarations of gltf.go.

Each field: (Go name, JSON name, type, omitempty).  Types:
  ext      Extensions            any      any (extras)      str   string
  int      int                   oint     *int              ints  []int
  oints    []int without omitempty (nil and empty differ)
  f64      float64               of64     *float64          f64s  []float64
  arrN     [N]float64            oarr4    *[4]float64       bool  bool
  strs     []string              attrs    PrimitiveAttributes
  lattrs   []PrimitiveAttributes
  ct, at, tgt, mode, alpha, mag, minf, wrap, interp, trs    enumerations
  S:T      struct T              P:T      *T
  L:T      []*T                  OL:T     []*T without omitempty
"""
X=[("Extensions","extensions","ext",1),("Extras","extras","any",1)]
STRUCTS=[
("Asset","ast","gltf.go:22-29",X+[("Copyright","copyright","str",1),("Generator","generator","str",1),("Version","version","str",0),("MinVersion","minVersion","str",1)]),
("SparseValues","spv","gltf.go:93-99",X+[("BufferView","bufferView","int",0),("ByteOffset","byteOffset","int",1)]),
("SparseIndices","spi","gltf.go:101-108",X+[("BufferView","bufferView","int",0),("ByteOffset","byteOffset","int",1),("ComponentType","componentType","ct",0)]),
("Sparse","spa","gltf.go:84-91",X+[("Count","count","int",0),("Indices","indices","S:SparseIndices",0),("Values","values","S:SparseValues",0)]),
("Accessor","acr","gltf.go:65-82",X+[("Name","name","str",1),("BufferView","bufferView","oint",1),("ByteOffset","byteOffset","int",1),("ComponentType","componentType","ct",0),("Normalized","normalized","bool",1),("Count","count","int",0),("Type","type","at",0),("Max","max","f64s",1),("Min","min","f64s",1),("Sparse","sparse","P:Sparse",1)]),
("Buffer","buf","gltf.go:110-120; Data is not part of the JSON",X+[("Name","name","str",1),("URI","uri","str",1),("ByteLength","byteLength","int",0),("Data","-","bytes",0)]),
("BufferView","bvw","gltf.go:147-157",X+[("Buffer","buffer","int",0),("ByteOffset","byteOffset","int",1),("ByteLength","byteLength","int",0),("ByteStride","byteStride","int",1),("Target","target","tgt",1),("Name","name","str",1)]),
("Scene","scn","gltf.go:159-165",X+[("Name","name","str",1),("Nodes","nodes","ints",1)]),
("Node","nod","gltf.go:167-182",X+[("Name","name","str",1),("Camera","camera","oint",1),("Children","children","ints",1),("Skin","skin","oint",1),("Matrix","matrix","arr16",0),("Mesh","mesh","oint",1),("Rotation","rotation","arr4",0),("Scale","scale","arr3",0),("Translation","translation","arr3",0),("Weights","weights","f64s",1)]),
("Skin","skn","gltf.go:213-221",X+[("Name","name","str",1),("InverseBindMatrices","inverseBindMatrices","oint",1),("Skeleton","skeleton","oint",1),("Joints","joints","oints",0)]),
("Orthographic","ort","gltf.go:232-240",X+[("Xmag","xmag","f64",0),("Ymag","ymag","f64",0),("Zfar","zfar","f64",0),("Znear","znear","f64",0)]),
("Perspective","per","gltf.go:242-250",X+[("AspectRatio","aspectRatio","of64",1),("Yfov","yfov","f64",0),("Zfar","zfar","of64",1),("Znear","znear","f64",0)]),
("Camera","cam","gltf.go:223-230",X+[("Name","name","str",1),("Orthographic","orthographic","P:Orthographic",1),("Perspective","perspective","P:Perspective",1)]),
("Primitive","pri","gltf.go:261-270",X+[("Attributes","attributes","attrs",0),("Indices","indices","oint",1),("Material","material","oint",1),("Mode","mode","mode",1),("Targets","targets","lattrs",1)]),
("Mesh","msh","gltf.go:252-259",X+[("Name","name","str",1),("Primitives","primitives","OL:Primitive",0),("Weights","weights","f64s",1)]),
("TextureInfo","txi","gltf.go:363-369",X+[("Index","index","int",0),("TexCoord","texCoord","int",1)]),
("NormalTexture","ntx","gltf.go:295-302",X+[("Index","index","oint",1),("TexCoord","texCoord","int",1),("Scale","scale","of64",1)]),
("OcclusionTexture","otx","gltf.go:312-319",X+[("Index","index","oint",1),("TexCoord","texCoord","int",1),("Strength","strength","of64",1)]),
("PBRMetallicRoughness","pbr","gltf.go:329-338",X+[("BaseColorFactor","baseColorFactor","oarr4",1),("BaseColorTexture","baseColorTexture","P:TextureInfo",1),("MetallicFactor","metallicFactor","of64",1),("RoughnessFactor","roughnessFactor","of64",1),("MetallicRoughnessTexture","metallicRoughnessTexture","P:TextureInfo",1)]),
("Material","mat","gltf.go:272-285",X+[("Name","name","str",1),("PBRMetallicRoughness","pbrMetallicRoughness","P:PBRMetallicRoughness",1),("NormalTexture","normalTexture","P:NormalTexture",1),("OcclusionTexture","occlusionTexture","P:OcclusionTexture",1),("EmissiveTexture","emissiveTexture","P:TextureInfo",1),("EmissiveFactor","emissiveFactor","arr3",1),("AlphaMode","alphaMode","alpha",1),("AlphaCutoff","alphaCutoff","of64",1),("DoubleSided","doubleSided","bool",1)]),
("Texture","txt","gltf.go:371-378",X+[("Name","name","str",1),("Sampler","sampler","oint",1),("Source","source","oint",1)]),
("Sampler","smp","gltf.go:380-389",X+[("Name","name","str",1),("MagFilter","magFilter","mag",1),("MinFilter","minFilter","minf",1),("WrapS","wrapS","wrap",1),("WrapT","wrapT","wrap",1)]),
("Image","img","gltf.go:391-400",X+[("Name","name","str",1),("URI","uri","str",1),("MimeType","mimeType","str",1),("BufferView","bufferView","oint",1)]),
("AnimationSampler","ans","gltf.go:433-440",X+[("Input","input","int",0),("Interpolation","interpolation","interp",1),("Output","output","int",0)]),
("AnimationChannelTarget","act","gltf.go:450-460",X+[("Node","node","oint",1),("Path","path","trs",0)]),
("AnimationChannel","anc","gltf.go:442-448",X+[("Sampler","sampler","int",0),("Target","target","S:AnimationChannelTarget",0)]),
("Animation","ani","gltf.go:424-431",X+[("Name","name","str",1),("Channels","channels","OL:AnimationChannel",0),("Samplers","samplers","OL:AnimationSampler",0)]),
("Document","doc","gltf.go:31-52",X+[("ExtensionsUsed","extensionsUsed","strs",1),("ExtensionsRequired","extensionsRequired","strs",1),("Accessors","accessors","L:Accessor",1),("Animations","animations","L:Animation",1),("Asset","asset","S:Asset",0),("Buffers","buffers","L:Buffer",1),("BufferViews","bufferViews","L:BufferView",1),("Cameras","cameras","L:Camera",1),("Images","images","L:Image",1),("Materials","materials","L:Material",1),("Meshes","meshes","L:Mesh",1),("Nodes","nodes","L:Node",1),("Samplers","samplers","L:Sampler",1),("Scene","scene","oint",1),("Scenes","scenes","L:Scene",1),("Skins","skins","L:Skin",1),("Textures","textures","L:Texture",1)]),
]
BASE={"ext":"Extensions","any":"any","str":"string","int":"Z","oint":"option Z","ints":"list Z","oints":"option (list Z)",
"f64":"Z","of64":"option Z","f64s":"list Z","bool":"bool","strs":"list string","attrs":"option (list (string * Z))",
"lattrs":"list (option (list (string * Z)))","ct":"ComponentType","at":"AccessorType","bytes":"bytes",
"arr3":"list Z","arr4":"list Z","arr16":"list Z","oarr4":"option (list Z)"}
ZERO={"ext":"[]","any":"VNull","str":'""',"int":"0","oint":"None","ints":"[]","oints":"None","f64":"0","of64":"None","f64s":"[]","bool":"false",
"strs":"[]","attrs":"None","lattrs":"[]","ct":"CFloat","at":"AScalar","bytes":"[]","arr3":"(repeat 0 3)","arr4":"(repeat 0 4)","arr16":"(repeat 0 16)","oarr4":"None"}
def ty(t):
    if t in BASE: return BASE[t]
    if t.startswith("S:"): return t[2:]
    if t.startswith("P:"): return "option "+t[2:]
    if t.startswith("L:"): return "list (option %s)"%t[2:]
    if t.startswith("OL:"): return "option (list (option %s))"%t[3:]
    return "Z"   # enumerations: the underlying integer
def zero(t):
    if t in ZERO: return ZERO[t]
    if t.startswith("S:"): return "zero_"+t[2:]
    if t.startswith(("P:","OL:")): return "None"
    if t.startswith("L:"): return "[]"
    return "0"
HEAD='''(** Document types.  GENERATED by tools/gen_doc.py from the struct
    declarations of gltf.go; do not edit.

    - float64 values are their 64-bit patterns, as Z;
    - enumerations other than ComponentType and AccessorType are their
      underlying integer;
    - pointers are options; [[]*T] is [list (option T)];
    - nil and empty slices/maps are identified when the JSON tag has
      omitempty, and told apart (option) when it has not;
    - maps are association lists sorted by key without duplicates;
    - fixed arrays are lists (of the right length in well-formed values). *)
From Verif Require Import Base Types.

(** Values of type any produced by encoding/json: nil, bool, float64 (bit
    pattern), string, []any, map[string]any. *)
Inductive any : Type :=
| VNull
| VBool (b : bool)
| VNum (f : Z)
| VStr (s : string)
| VArr (l : list any)
| VObj (m : list (string * any)).

(** JSON syntax trees: numbers keep their literal, strings and keys keep the
    raw text between the quotes. *)
Inductive json : Type :=
| JNull
| JBool (b : bool)
| JNum (lit : string)
| JStr (lit : string)
| JArr (l : list json)
| JObj (m : list (string * json)).

(** Payload of an extension: a json.RawMessage, or the Go value built by a
    registered factory (represented by a tree). *)
Inductive extv : Type :=
| ERaw (j : json)
| EVal (v : any).

(** gltf.go:462-465 *)
Notation Extensions := (list (string * extv)) (only parsing).

'''
def main():
    out=[HEAD]
    for name,pre,cite,fields in STRUCTS:
        out.append("(** %s *)\nRecord %s : Type := mk%s {\n"%(cite,name,name))
        out.append(";\n".join("  %s_%s : %s"%(pre,g,ty(t)) for g,j,t,o in fields))
        out.append("\n}.\n")
        out.append("Definition zero_%s : %s :=\n  mk%s %s.\n"%(name,name,name," ".join(zero(t) for g,j,t,o in fields)))
        for i,(g,j,t,o) in enumerate(fields):
            args=" ".join("v" if k==i else "(%s_%s x)"%(pre,h[0]) for k,h in enumerate(fields))
            out.append("Definition set_%s_%s (v : %s) (x : %s) : %s :=\n  mk%s %s.\n"%(pre,g,ty(t),name,name,name,args))
        out.append("\n")
    import os
    p=os.path.join(os.path.dirname(os.path.abspath(__file__)),"../rocq/theories/Doc.v")
    open(p,"w").write("".join(out))
if __name__=="__main__": main()

{"id": "C01", "title": "Component accessors write and read the glTF column-major little-endian layout", "statement": "For every component type and accessor type, storing an element into a byte slice puts component (row r, column c) little-endian at byte offset c*columnStride + r*componentSize, where the column stride of matrices is the column size rounded up to a multiple of 4 bytes; no byte outside those positions changes, and loading the element back returns exactly the stored bits.", "quantifier": "all component types, all accessor types, all element values, all byte slices long enough to hold the element, and all prior contents of the slice", "why_tests_cant": "The value/slice space is 2^(8n); tests use one literal per type and cannot see wrong offsets masked by equal components or stray writes.", "anchors": ["binary/binary.go: Ubyte, Ushort, Uint", "binary/unsafe.go: Byte, Short, Float", "gltf.go: SizeOfElement"]}
{"id": "C02", "title": "binary.Write places every element at its stride and touches nothing else", "statement": "When binary.Write(b, stride, data) succeeds, the bytes of element i are exactly at stride*i (stride 0 meaning the packed element size), every other byte of b is unchanged, and it fails with io.ErrShortBuffer without touching b exactly when b is shorter than the last element's end.", "quantifier": "all supported element types, all data of any length, all strides not smaller than the element size, all buffers", "why_tests_cant": "Needs every (type, stride, length, buffer) combination including the frame (unchanged bytes).", "anchors": ["binary/encode.go: Write", "gltf.go: SizeOfElement"]}
{"id": "C03", "title": "binary.Read inverts binary.Write", "statement": "Reading with the same stride from a buffer just written with binary.Write returns the same elements, for every supported element type and every stride that leaves room for an element.", "quantifier": "all supported element types, data of every length, all strides >= element size, all initial buffer contents", "why_tests_cant": "Tests check a few literals with stride 0; strides and lengths are unbounded.", "anchors": ["binary/encode.go: Read, Write"]}
{"id": "C04", "title": "binary.Read takes element i from byte stride*i", "statement": "When binary.Read(b, stride, data) succeeds, element i of data equals the element encoded at byte stride*i of b, for every i.", "quantifier": "all element types, all strides, all byte contents", "why_tests_cant": "Universal over buffers and strides; the shipped tests exercise interleaving for few types.", "anchors": ["binary/encode.go: Read"]}
{"id": "C05", "title": "binary.Read and binary.Write never panic on short or long buffers", "statement": "With data of a supported slice type and a non-negative stride, binary.Read and binary.Write return nil or io.ErrShortBuffer; they do not panic, whatever the length of b.", "quantifier": "all byte slices of every length, all strides >= 0, all supported data", "why_tests_cant": "Absence of panics over all lengths is not testable.", "anchors": ["binary/encode.go: Read, Write"]}
{"id": "C06", "title": "MakeSlice and MakeSliceBuffer agree with Type for every accessor type", "statement": "MakeSlice(c, t, n) and MakeSliceBuffer(c, t, n, buf) return a slice whose Type is (c, t, n), for every valid c, t, n >= 0 and every reusable buffer, and return an error (not a panic) for invalid c or t.", "quantifier": "all component/accessor types incl. invalid ones, all counts, all buffers of any length and contents", "why_tests_cant": "Product of enum values with arbitrary counts and buffers.", "anchors": ["binary/slice.go: MakeSlice, MakeSliceBuffer, castSlice, Type, checkAccessorType"]}
{"id": "C07", "title": "MakeSlice returns zeroed memory; MakeSliceBuffer only exposes bytes of the caller's buffer or zeros", "statement": "Every element of MakeSlice is zero. Every element of MakeSliceBuffer is either zero or the reinterpretation of the bytes at that position of the supplied buffer; elements past the buffer are zero.", "quantifier": "all types, counts, buffers", "why_tests_cant": "Memory-content property for arbitrary lengths.", "anchors": ["binary/slice.go: MakeSlice, MakeSliceBuffer, castSlice, reslice"]}
{"id": "C08", "title": "WriteAccessor then ReadAccessor returns the data", "statement": "After idx := WriteAccessor(doc, target, data), ReadAccessor(doc, doc.Accessors[idx], buf) returns data element for element (color.RGBA as [4]uint8, color.RGBA64 as [4]uint16), for every supported slice type, any document and any reuse buffer.", "quantifier": "all documents whose last buffer is usable, all supported data of every length, all reuse buffers", "why_tests_cant": "Round trip over unbounded data and arbitrary prior document contents.", "anchors": ["modeler/write.go: WriteAccessor, writeBufferViews", "modeler/read.go: ReadAccessor", "binary/encode.go: Read, Write"]}
{"id": "C09", "title": "No later write disturbs earlier accessors", "statement": "For any sequence of modeler write calls, every accessor returned earlier still reads back the data it was given; existing accessors, buffer views and buffer bytes are never modified, only appended to.", "quantifier": "all finite sequences of write operations with arbitrary arguments on any initial document", "why_tests_cant": "Histories are unbounded; tests do at most two writes.", "anchors": ["modeler/write.go: WriteAccessor, WriteAccessorsInterleaved, WriteBufferView, WritePrimitiveAttributes, WriteImage"]}
{"id": "C10", "title": "The modeler keeps the document structurally valid", "statement": "Starting from a document whose accessors, buffer views and buffers are consistent (indices in range, views inside buffers, accessor ranges inside views, byteLength = len(Data)), any sequence of write calls keeps it so.", "quantifier": "all finite sequences of successful or failing write operations from any consistent document", "why_tests_cant": "Invariant over unbounded histories.", "anchors": ["modeler/write.go"]}
{"id": "C11", "title": "Data written by the modeler is 4-byte aligned and views never overlap", "statement": "Each buffer view created by the modeler starts at a multiple of 4 in its buffer and is disjoint from all previously created views; each accessor offset inside the view is a multiple of its component size.", "quantifier": "all sequences of write operations", "why_tests_cant": "Alignment must hold for every combination of preceding lengths.", "anchors": ["modeler/write.go: writeBufferViews, ensurePadding, getPadding"]}
{"id": "C12", "title": "Interleaved writes read back", "statement": "After WriteAccessorsInterleaved(doc, data...) succeeds, reading accessor k returns data[k] for every k.", "quantifier": "all lists of equally long slices of supported types, any document", "why_tests_cant": "Any mix of types, any lengths.", "anchors": ["modeler/write.go: WriteAccessorsInterleaved, writeBufferViews", "modeler/read.go: ReadAccessor", "binary/encode.go: Read, Write"]}
{"id": "C13", "title": "Failed interleaved writes report an error and leave the document alone", "statement": "WriteAccessorsInterleaved, WriteBufferViewInterleaved and WritePrimitiveAttributes return an error exactly when the slices have different lengths, and then the document is unchanged.", "quantifier": "all lists of slices, all documents", "why_tests_cant": "Needs every mismatch shape and every document state.", "anchors": ["modeler/write.go: WriteAccessorsInterleaved, WriteBufferViewInterleaved, WritePrimitiveAttributes"]}
{"id": "C14", "title": "WritePrimitiveAttributes maps every non-empty attribute to an accessor holding its data", "statement": "On success the returned map has exactly the names of the attributes with non-empty data, each mapped to a new accessor that reads back that data, and COLOR_*, TEXCOORD_*, WEIGHTS_* integer accessors are flagged normalized.", "quantifier": "all attribute lists with distinct names, all documents", "why_tests_cant": "Unbounded attribute lists and data.", "anchors": ["modeler/write.go: WritePrimitiveAttributes"]}
{"id": "C15", "title": "POSITION accessors carry tight min/max bounds", "statement": "For WritePosition and for POSITION in WritePrimitiveAttributes with non-empty finite data, Min and Max are per-component lower/upper bounds of all vertices and each bound is attained by some vertex.", "quantifier": "all non-empty lists of finite float32 triples", "why_tests_cant": "Bounds over unboundedly many vertices and all float values.", "anchors": ["modeler/write.go: WritePosition, minMaxFloat32, WritePrimitiveAttributes"]}
{"id": "C16", "title": "ReadAccessor is safe on malformed documents", "statement": "ReadAccessor never panics: for any document and accessor it returns a value or an error.", "quantifier": "all documents (indices, offsets, lengths, strides, counts arbitrary integers; nil entries), all accessors, all buffers", "why_tests_cant": "The documentation promises safety on malformed input; the space of malformed documents is infinite.", "anchors": ["modeler/read.go: ReadAccessor", "binary/encode.go: Read"]}
{"id": "C17", "title": "ReadBufferView returns exactly the view's bytes or an error", "statement": "ReadBufferView(doc, bv) returns buffer.Data[off:off+len] when that range exists and an error otherwise; it never panics.", "quantifier": "all documents and buffer views with arbitrary integer fields", "why_tests_cant": "Integer overflow and sign cases are not covered by tests.", "anchors": ["modeler/read.go: ReadBufferView"]}
{"id": "C18", "title": "Sparse accessors overlay substituted values on the base", "statement": "ReadAccessor on a sparse accessor returns the base elements (zeros when there is no buffer view) with element indices[k] replaced by values[k], later entries winning.", "quantifier": "all documents with in-range sparse indices, all component types of indices, all counts", "why_tests_cant": "Universal over index lists and data.", "anchors": ["modeler/read.go: ReadAccessor"]}
{"id": "C19", "title": "ReadAccessor does not depend on the contents of the reuse buffer", "statement": "ReadAccessor(doc, acr, buf) returns the same elements for every buffer passed for reuse, including nil.", "quantifier": "all documents, accessors and buffers of any length and contents", "why_tests_cant": "Dirty-buffer dependence is only visible for specific prior contents.", "anchors": ["modeler/read.go: ReadAccessor", "binary/slice.go: MakeSliceBuffer"]}
{"id": "C20", "title": "Typed read helpers do not depend on earlier reads", "statement": "The result of ReadIndices, ReadPosition, ReadNormal, ReadTangent, ReadTextureCoord, ReadWeights, ReadJoints, ReadColor, ReadColor64 and ReadInverseBindMatrices depends only on the document and accessor, not on which reads were performed before (internal pools).", "quantifier": "all histories of read calls, all pool states", "why_tests_cant": "Depends on hidden global pool state and call history.", "anchors": ["modeler/read.go: bufPool, uint32Pool, ReadIndices, ReadPosition"]}
{"id": "C21", "title": "Reads return exactly Count elements", "statement": "When a typed read helper or ReadAccessor succeeds, the result has acr.Count elements.", "quantifier": "all documents, accessors, reuse buffers", "why_tests_cant": "Universal over counts and buffer capacities.", "anchors": ["modeler/read.go: makeBufferOf, ReadAccessor, ReadIndices"]}
{"id": "C22", "title": "Typed read helpers convert values exactly", "statement": "ReadIndices and ReadJoints return the stored unsigned values; ReadTextureCoord and ReadWeights return stored floats unchanged and normalized integers divided by their maximum; ReadColor64 scales 8-bit channels by 257 and ReadColor scales 16-bit channels to 8 bits.", "quantifier": "all stored values of all permitted component types", "why_tests_cant": "Value-exactness over complete ranges.", "anchors": ["modeler/read.go: ReadIndices, ReadJoints, ReadTextureCoord, ReadWeights, ReadColor, ReadColor64"]}
{"id": "C23", "title": "Typed read helpers accept exactly the glTF-permitted accessor formats", "statement": "Each typed read helper returns an error exactly for accessors whose (component type, type) is not permitted by glTF for that attribute; for permitted formats it never fails because of the format.", "quantifier": "all component types and accessor types including invalid ones", "why_tests_cant": "Needs the complete enum product with arbitrary documents.", "anchors": ["modeler/read.go"]}
{"id": "C24", "title": "Embedding a buffer in the document is lossless", "statement": "Marking a buffer as embedded and encoding it to JSON yields a data URI which decodes to exactly the same bytes.", "quantifier": "all byte strings", "why_tests_cant": "Base64 over all lengths and byte values.", "anchors": ["gltf.go: Buffer.EmbeddedResource, Buffer.marshalData, Buffer.IsEmbeddedResource", "encode.go: marshalJSONDoc, encodeBuffer"]}
{"id": "C25", "title": "Embedded images decode to their bytes", "statement": "Image.MarshalData returns the original bytes for any PNG or JPEG data URI produced by base64, an empty slice and no error for non-embedded URIs, and never panics.", "quantifier": "all byte strings, all URI strings", "why_tests_cant": "Universal over strings.", "anchors": ["gltf.go: Image.IsEmbeddedResource, Image.MarshalData"]}
{"id": "C26", "title": "Decode only opens confined paths", "statement": "Every name Decode passes to the file system is either a local path (relative, never escaping the base directory through ..) or carries a URL scheme.", "quantifier": "all documents, all URIs", "why_tests_cant": "Security property over all URI strings, including escapes and backslashes.", "anchors": ["decoder.go: decodeBuffer, validateBufferURI, sanitizeURI"]}
{"id": "C27", "title": "Encode and Save only create confined paths", "statement": "Every name Encode passes to the file system for creation is a local path or carries a URL scheme, so Save never writes outside the target directory for relative URIs.", "quantifier": "all documents, all URIs", "why_tests_cant": "Security property over all URI strings.", "anchors": ["encode.go: encodeBuffer, dirFS.Create", "decoder.go: validateBufferURI, sanitizeURI"]}
{"id": "C28", "title": "External buffers are written where they will be looked for", "statement": "For every buffer with an external URI, if Encode returns nil then its data has been written under the very name Decode will open for the encoded document.", "quantifier": "all documents and URIs", "why_tests_cant": "Agreement of two independent string pipelines over all URIs.", "anchors": ["encode.go: encodeBuffer", "decoder.go: decodeBuffer, sanitizeURI"]}
{"id": "C29", "title": "GLB output is well formed", "statement": "When buffer 0 has len(Data) = ByteLength and the total size is below 4 GiB, the bytes produced in binary mode are a valid GLB: magic, version 2, total length equal to the number of bytes, JSON chunk 4-byte padded with spaces, BIN chunk 4-byte padded with zeros and holding the data.", "quantifier": "all documents, all buffer lengths", "why_tests_cant": "Arithmetic over every JSON length/data length residue.", "anchors": ["encode.go: encodeBinary", "const.go: glbHeader, chunkHeader"]}
{"id": "C30", "title": "GLB round trip", "statement": "Decoding the bytes written by a binary Encode gives back the document with all buffer contents.", "quantifier": "all encodable documents with buffers, all buffer contents", "why_tests_cant": "Whole-pipeline inverse over unbounded documents.", "anchors": ["encode.go: Encode, encodeBinary", "decoder.go: Decode, decodeDocument, decodeBinaryBuffer"]}
{"id": "C31", "title": "Decoding does not depend on how the reader fragments the stream", "statement": "For the same byte stream Decode gives the same result however the io.Reader splits it into Read results.", "quantifier": "all byte streams, all fragmentations (schedules) of the reader", "why_tests_cant": "Schedules are unbounded; tests always use in-memory readers.", "anchors": ["decoder.go: Decode, decodeDocument, chunkHeader"]}
{"id": "C32", "title": "JSON round trip", "statement": "Decoding the bytes written by a text Encode gives back the document with all buffer contents, under every fragmentation of the reader.", "quantifier": "all encodable documents, all fragmentations", "why_tests_cant": "Whole-pipeline inverse over unbounded documents and schedules.", "anchors": ["encode.go: Encode, marshalJSONDoc", "decoder.go: Decode"]}
{"id": "C33", "title": "Encode reports write failures", "statement": "If Encode returns nil then every byte of the output has been accepted by the writer.", "quantifier": "all documents, all failure points of the underlying writer", "why_tests_cant": "Requires fault injection at every write call and every byte.", "anchors": ["encode.go: encodeBinary, Encode"]}
{"id": "C34", "title": "Decode is safe on untrusted input", "statement": "Decode returns a document or an error for every byte stream; it never panics.", "quantifier": "all byte streams", "why_tests_cant": "Infinite input space (fuzzing only samples).", "anchors": ["decoder.go: Decode, decodeBuffer, decodeBinaryBuffer"]}
{"id": "C35", "title": "Decoded buffers have the declared length", "statement": "If Decode succeeds then each loaded buffer has len(Data) = ByteLength.", "quantifier": "all inputs, all file contents", "why_tests_cant": "Universal over declared and actual lengths.", "anchors": ["decoder.go: decodeBuffer, decodeBinaryBuffer, validateBuffer"]}
{"id": "C36", "title": "GLB header validation rejects JSON chunks larger than the file", "statement": "A GLB whose JSON chunk length exceeds the total length declared in its header is rejected.", "quantifier": "all 32-bit header values", "why_tests_cant": "2^64 header combinations; the overflow case is not tested.", "anchors": ["decoder.go: validateGLBHeader, readGLBHeader"]}
{"id": "C37", "title": "A failed Save does not destroy the existing file", "statement": "If Save or SaveBinary returns an error, a file previously stored under that name still has its old contents.", "quantifier": "all documents that fail to encode, all previous contents, all failure points", "why_tests_cant": "Crash/failure points.", "anchors": ["encode.go: save, Save, SaveBinary"]}
{"id": "C38", "title": "Format auto-detection never confuses text and binary", "statement": "Every output of a text Encode is decoded as JSON and every output of a binary Encode is decoded as GLB.", "quantifier": "all documents", "why_tests_cant": "All outputs.", "anchors": ["decoder.go: Decode, readGLBHeader", "encode.go: Encode"]}
{"id": "C39", "title": "Enumerations survive JSON", "statement": "Every valid ComponentType, AccessorType, Target, AlphaMode, PrimitiveMode, MagFilter, MinFilter, WrappingMode, Interpolation and TRSProperty value decodes from its JSON form to itself, and no two valid values share a JSON form.", "quantifier": "all enum values, and all JSON values for the decoding direction", "why_tests_cant": "The decoding side ranges over all JSON values.", "anchors": ["const.go"]}
{"id": "C40", "title": "Defaults are observationally preserved by JSON", "statement": "For every Node, Material, PBRMetallicRoughness, NormalTexture, OcclusionTexture, Asset: the effective value (…OrDefault) of each property is the same before encoding and after decoding, and re-encoding gives the same JSON.", "quantifier": "all values of those types", "why_tests_cant": "All float values, zero/unset/default combinations.", "anchors": ["gltf.go: MatrixOrDefault, RotationOrDefault, ScaleOrDefault, AlphaCutoffOrDefault, ...", "encode.go: MarshalJSON, UnmarshalJSON methods"]}
{"id": "C41", "title": "The JSON mapping of the whole document is lossless up to defaults", "statement": "Unmarshalling the JSON of a document gives the document in which unset/zero optional values are replaced by glTF defaults, and nothing else changes.", "quantifier": "all documents with finite floats and valid UTF-8 strings", "why_tests_cant": "Thirty structs with unbounded lists and nesting.", "anchors": ["gltf.go", "encode.go", "const.go"]}
{"id": "C42", "title": "Encoding is stable after one round trip", "statement": "For a document obtained by decoding, decode(encode(doc)) = doc.", "quantifier": "all decoded documents", "why_tests_cant": "Fixpoint property over all documents.", "anchors": ["encode.go", "decoder.go"]}
{"id": "C43", "title": "Optional values are set after decoding", "statement": "After decoding any JSON the optional values with a glTF default (alphaCutoff, baseColorFactor, metallicFactor, roughnessFactor, normal scale, occlusion strength) are non-nil, as the README promises.", "quantifier": "all JSON inputs accepted by Decode", "why_tests_cant": "All JSON inputs, including explicit null.", "anchors": ["encode.go: UnmarshalJSON methods", "README.md"]}
{"id": "C44", "title": "Extensions are decoded by their registered factory or kept raw", "statement": "After decoding an extensions object, each key maps to the registered factory's value when one is registered and succeeds, and otherwise to the raw JSON of that key; no key is lost or invented.", "quantifier": "all JSON objects, all registries", "why_tests_cant": "All key sets and registries.", "anchors": ["encode.go: Extensions.UnmarshalJSON", "gltf.go: RegisterExtension, queryExtension"]}
{"id": "C45", "title": "The extension registry is last-write-wins under concurrency", "statement": "In every interleaving of concurrent RegisterExtension calls and lookups, a lookup returns the factory of the latest completed registration of that key (or of a concurrent one).", "quantifier": "all interleavings of any number of goroutines", "why_tests_cant": "Schedules.", "anchors": ["gltf.go: extMu, RegisterExtension, queryExtension"]}
{"id": "C46", "title": "Strings survive JSON text", "statement": "Every name/URI/generator string decodes to itself after being written as JSON text.", "quantifier": "all strings", "why_tests_cant": "All strings incl. control characters, HTML characters, non-ASCII.", "anchors": ["encode.go: marshalJSONDoc", "decoder.go: decodeDocument"]}
{"id": "C47", "title": "KHR_materials_pbrSpecularGlossiness survives JSON", "statement": "Marshalling a PBRSpecularGlossiness yields valid JSON which unmarshals to the same value with defaults filled in.", "quantifier": "all values, including textures with arbitrary extras and extensions", "why_tests_cant": "Text surgery on the JSON bytes; needs all texts.", "anchors": ["ext/specular/specular.go: MarshalJSON, UnmarshalJSON, removeProperty, sanitizeJSON"]}
{"id": "C48", "title": "KHR_texture_transform survives JSON", "statement": "Marshalling a TextureTranform yields valid JSON which unmarshals to the same value with a zero scale replaced by the default.", "quantifier": "all values with finite floats", "why_tests_cant": "Text surgery on the JSON bytes.", "anchors": ["ext/texturetransform/transform.go: MarshalJSON, UnmarshalJSON"]}
{"id": "C49", "title": "KHR_lights_punctual survives JSON", "statement": "A document carrying lights or light references decoded from JSON encodes to JSON which decodes to the same lights and references.", "quantifier": "all lights", "why_tests_cant": "Round trip for all values; the repo only tests decoding.", "anchors": ["ext/lightspunctual/lightspunctual.go:18-115"]}
{"id": "C50", "title": "KHR_materials_unlit survives JSON", "statement": "A decoded unlit extension encodes to JSON which decodes to the same value.", "quantifier": "all JSON objects", "why_tests_cant": "All inputs.", "anchors": ["ext/unlit/unlit.go"]}
{"id": "C51", "title": "Normalized integers round trip through floats", "statement": "Normalize(Denormalize(v)) = v for int8, uint8, int16, uint16 (the signed minimum, which glTF maps to -1, becomes -max).", "quantifier": "all 8 and 16 bit integers, IEEE float32/float64 arithmetic", "why_tests_cant": "Needs all 2^17 values under IEEE rounding; the test checks a handful.", "anchors": ["math.go"]}
{"id": "C52", "title": "Normalizing is accurate for every float in range", "statement": "For every float32 v in [0,1] (or [-1,1] for signed types), Normalize(v) is an integer nearest to v*max.", "quantifier": "all float32 values in range", "why_tests_cant": "2^30 values.", "anchors": ["math.go: NormalizeByte, NormalizeUbyte, NormalizeShort, NormalizeUshort"]}
{"id": "C53", "title": "RGBA alpha channels round trip", "statement": "Alpha normalization (NormalizeRGBA, NormalizeRGBA64) inverts alpha denormalization (DenormalizeRGBA, DenormalizeRGBA64) for every integer alpha.", "quantifier": "all 8 and 16 bit alpha values", "why_tests_cant": "All values under IEEE rounding.", "anchors": ["math.go: NormalizeRGBA, NormalizeRGBA64, DenormalizeRGBA, DenormalizeRGBA64"]}
{"id": "C54", "title": "Element sizes follow the glTF alignment rules", "statement": "SizeOfElement is exactly the extent of the column-aligned layout: it is positive, a multiple of 4 for every vector and matrix type, large enough for all components, and zero for unknown types.", "quantifier": "all component and accessor types including invalid values", "why_tests_cant": "Includes all invalid numeric values.", "anchors": ["gltf.go: SizeOfElement", "const.go: ByteSize, Components"]}
{"id": "C55", "title": "Indentation does not change meaning", "statement": "For any whitespace prefix and indent set with SetJSONIndent, in text or binary mode, decoding gives the same document as without indentation.", "quantifier": "all whitespace prefixes and indents, all documents", "why_tests_cant": "All indent strings.", "anchors": ["encode.go: SetJSONIndent, marshalJSONDoc"]}
{"id": "C56", "title": "Enum String methods identify the value", "statement": "String() of every valid enum value is its name, distinct values have distinct names, and out-of-range values yield the numeric fallback without panicking.", "quantifier": "all 256/65536 values of the underlying integer types", "why_tests_cant": "Complete range including out-of-range values.", "anchors": ["const_strings.go"]}
{"id": "C57", "title": "Typed writers tag their buffer views with the right target", "statement": "Every buffer view a typed vertex or index writer creates or appends to carries the target of its role: element array buffer for indices, array buffer for vertex attributes, and never the other one.", "quantifier": "all documents, all data, all typed writers", "why_tests_cant": "The target is data that nothing in the package reads back; only a graphics API notices. A test needs one case per writer and per document shape.", "anchors": ["modeler/write.go: WriteIndices, WritePosition, WriteNormal, ..., writeAccessor", "modeler/write.go: WriteAccessor, WriteBufferView"]}
{"id": "C58", "title": "Open after Save restores the document", "statement": "After Save or SaveBinary of a document succeeds, Open of the same path gives back the document with all buffer contents.", "quantifier": "all encodable documents, all buffer contents and names, all earlier disk contents", "why_tests_cant": "Involves the document text, the container, the external files and the path rules of two different file system interfaces at once, for unboundedly many documents.", "anchors": ["encode.go: Save, SaveBinary, save, dirFS.Create", "decoder.go: Open, Decode, decodeBuffer"]}
{"id": "C59", "title": "Typed writers and typed readers are inverse", "statement": "The data given to WritePosition, WriteNormal, WriteTangent, WriteInverseBindMatrices, WriteIndices, WriteJoints, WriteTextureCoord, WriteWeights or WriteColor is what the matching reader returns for the new accessor, also after any later writes to the document and whatever buffers are reused.", "quantifier": "all documents, all data of the accepted types, all later writes, all reuse and pooled buffers", "why_tests_cant": "Depends on padding, strides, offsets in the shared buffer, the pools' history and everything written in between.", "anchors": ["modeler/write.go: WritePosition ... WriteColor", "modeler/read.go: ReadPosition ... ReadColor64"]}
{"id": "C60", "title": "sRGB colour channels round trip", "statement": "NormalizeRGB(DenormalizeRGB(c)) = c for every 8-bit colour and NormalizeRGB64(DenormalizeRGB64(c)) = c for every 16-bit colour.", "quantifier": "all 8 and 16 bit channel values, any accurate math.Pow", "why_tests_cant": "All values under IEEE rounding and truncation; the repo's tests check a handful.", "anchors": ["math.go: NormalizeRGB, DenormalizeRGB, NormalizeRGB64, DenormalizeRGB64, linearize, deliniarize"]}
{"id": "C61", "title": "Denormalizing is accurate", "statement": "DenormalizeUbyte and DenormalizeUshort give the float32 nearest to v/max; DenormalizeByte and DenormalizeShort give a float32 within 2^-24 + 2^-53 of max(v/max, -1).", "quantifier": "all 8 and 16 bit values", "why_tests_cant": "All values under IEEE rounding.", "anchors": ["math.go: DenormalizeByte, DenormalizeUbyte, DenormalizeShort, DenormalizeUshort"]}
{"id": "C62", "title": "The JSON written follows the glTF 2.0 schema", "statement": "For every document whose values are ones the schema allows (non-negative indices, positive counts, required arrays and maps not empty, texture indices present), Encode's JSON text parses to a value that conforms to the glTF 2.0 JSON schema: every required member is present, every member written is one the schema defines for that object and has the type, the enumeration values, the minimum and the array length the schema gives, and no member name occurs twice.", "quantifier": "all documents in the decoder's range that meet the stated value constraints, all prefixes and indentations made of white space, both container formats, all extension libraries", "why_tests_cant": "conformance is over every combination of optional fields of some thirty object types; golden files fix a few", "anchors": ["gltf.go", "const.go: MarshalJSON, UnmarshalJSON", "encode.go: marshalJSONDoc", "encode.go: MarshalJSON methods"]}
{"id": "C63", "title": "Every JSON value that conforms to the schema is accepted", "statement": "A JSON text whose value conforms to the glTF 2.0 schema, with integers in the int64 range and numbers in the float64 range, is decoded without error whatever members the schema does not define are added to any object, and whatever sizes of pieces the reader delivers.", "quantifier": "all conforming JSON values up to the nesting limit of encoding/json, all texts of them, all readers, all prior documents, all registered extension decoders that do not panic", "why_tests_cant": "the set of conforming values is infinite and undefined members may carry any name", "anchors": ["gltf.go", "const.go: UnmarshalJSON", "decoder.go: decodeDocument"]}
{"id": "C64", "title": "The binary chunk is checked before it is used", "statement": "If Decode of a GLB succeeds and the first buffer has no URI, then a chunk header of type BIN and of a length not below the buffer's byteLength (as uint32) followed the JSON, and the buffer's data are exactly byteLength bytes read right behind that header.", "quantifier": "all byte streams delivered in all ways, all prior documents", "why_tests_cant": "all streams, including those with a wrong chunk type or a short chunk", "anchors": ["decoder.go: Decode, decodeBinaryBuffer, readGLBHeader"]}
{"id": "C65", "title": "JSON strings carry the text RFC 8259 gives them", "statement": "A string literal is decoded to the UTF-8 encoding of the code points RFC 8259 says it denotes (all escapes, surrogate pairs, lone surrogates as U+FFFD), and every valid UTF-8 string is written as a literal that denotes its code points.", "quantifier": "all string literals and all valid UTF-8 strings", "why_tests_cant": "all strings over all code points and all mixes of escapes", "anchors": ["decoder.go: decodeDocument (encoding/json)", "encode.go: Encode (encoding/json)"]}
{"id": "C66", "title": "Percent-encoded references reach the file they stand for", "statement": "If every buffer's URI is a percent-encoded relative reference for a local path, Decode opens exactly these paths, in order and no other files, and each buffer gets the first byteLength bytes of its file; an image's URI becomes the path it stands for.", "quantifier": "all streams, all percent-encodings of all local paths (upper and lower case digits, escaped and unescaped characters), all file systems on which these files can be read", "why_tests_cant": "every path has very many encodings", "anchors": ["decoder.go: Decode, decodeBuffer, sanitizeURI"]}
{"id": "C67", "title": "The document decoded is the document the JSON describes", "statement": "For schema-conforming JSON (bare or as the JSON chunk of a GLB) a successful Decode into an empty document returns the document the glTF 2.0 specification assigns to it: every member sets the field it is named after, enumerations map to their constants, absent members give the defaults of the specification, and nothing else is changed but buffer data and cleaned URIs. The assignment is unique, and the JSON Encode writes is assigned the document that was encoded (with embedded buffer data as URI and defaults left out); cameras get the type of their projection.", "quantifier": "all conforming JSON trees with unknown members and repeated keys in extras, all readers, file systems, number and extension libraries; all well-formed documents for writing", "why_tests_cant": "a codec pair that is wrong the same way in both directions (two member names or enum codes swapped) passes every round-trip test", "anchors": ["decoder.go: Decode", "encode.go: Encode", "const.go", "gltf.go: struct tags"]}
{"id": "C68", "title": "Data written with the modeler survives saving and loading", "statement": "After any sequence of modeler calls on a new or loaded document the document can be saved (text or GLB) and loaded, and on the loaded document every accessor (with ReadAccessor and all typed readers), every buffer view and every image gives what it gave before saving; in particular the data handed to the writers. This can be repeated any number of times.", "quantifier": "all call sequences, data, documents, libraries, writers, readers and file systems without failures; any number of sessions", "why_tests_cant": "writing, saving and loading are each tested alone; documents that were loaded, appended to and saved again are not, and there the appended data is lost", "anchors": ["modeler/write.go", "modeler/read.go", "encode.go: marshalJSONDoc", "decoder.go: decodeBuffer", "gltf.go: NewDocument"]}
{"id": "C69", "title": "Numbers survive as text and are read correctly rounded", "statement": "Every finite float64 is written as a JSON number that is read back as the same float64, with no more significant digits than any other such text and the closest decimal among those; every number literal is read as the float64 nearest to its exact value (ties to even, sign kept, an error if it is out of range). Hence every assumption of the other properties about number texts holds.", "quantifier": "all 2^64 bit patterns of finite numbers; all JSON number literals", "why_tests_cant": "there are 2^64 floats and unboundedly many literals; ties, subnormals and the boundary of the range are single points", "anchors": ["encode.go: json.Encoder on float64 fields", "decoder.go: json.Decoder on float64 fields", "gltf.go: float64 fields"]}
{"id": "C70", "title": "Documents keep the values of the extension packages", "statement": "With the number texts of strconv and the registry that the packages under ext/ fill when imported, every document that was decoded can be encoded, decodes to the same extension values up to their defaults, and after one round neither the text nor the document changes; nothing is assumed about the registry. Texture transforms and unlit marks of materials come back from Save and Open.", "quantifier": "all documents, all sets of imported packages, all nesting of extensions inside extensions", "why_tests_cant": "the tests of each package encode single values; that the values fit together inside documents, and inside each other, is not tested", "anchors": ["ext/texturetransform/transform.go:29-31", "ext/lightspunctual/lightspunctual.go:18-20", "ext/specular/specular.go:22-24", "ext/unlit/unlit.go:21-23", "gltf.go", "encode.go", "decoder.go"]}
{"id": "C71", "title": "Extension payloads mean what their specifications say", "statement": "Every payload of KHR_texture_transform, KHR_lights_punctual, KHR_materials_pbrSpecularGlossiness and KHR_materials_unlit that conforms to its Khronos schema is decoded, and each property of the decoded value is what the member of that name says, or the default of the specification if there is none; no other value has this meaning. What is written for a value conforms to the schema and means the value, with omitted properties replaced by their defaults.", "quantifier": "all payloads (any member order, spelling of strings and numbers, added members), all values, all number libraries meeting the contracts", "why_tests_cant": "the tests check a few payloads against Go values; a swapped name or a wrong default is found only if both sides of a test know it", "anchors": ["ext/texturetransform/transform.go", "ext/lightspunctual/lightspunctual.go", "ext/specular/specular.go", "ext/unlit/unlit.go"]}
{"id": "C72", "title": "Colour conversions compute the sRGB transfer functions", "statement": "DenormalizeRGB, DenormalizeRGBA and their 16-bit variants return, for every channel value, a float32 within relative error 2^-21 of the linear value that IEC 61966-2-1 defines. NormalizeRGB, NormalizeRGBA and their variants return, for every float32 in [0,1], the encoded value cut off to an integer, with an error of at most 1/64 before cutting, always in range.", "quantifier": "all 256 and 65536 channel values, all float32 values in [0,1], every math.Pow that is accurate to 2^-40", "why_tests_cant": "the tests compare a handful of colours; the bound is about every float, through two branches, a power, and six roundings", "anchors": ["math.go:47-140"]}
{"id": "C73", "title": "Concurrent reads of one document share no memory", "statement": "Any number of goroutines may call ReadAccessor, ReadIndices and the typed readers on one document at the same time, each with a buffer of its own or none. However their memory accesses are interleaved and whatever sync.Pool hands out, no two of them race, no pooled buffer is used after it was put back, no access is outside of an array; the buffers of the document and all memory that is neither a caller's buffer nor pooled keep their bytes; each call ends and returns what the function on values returns. A returned slice is the caller's own: it is in no pool, not in the document, in no other result, and no later step of any goroutine changes it.", "quantifier": "all documents, accessors, callers' buffers, contents of the pools, all numbers of goroutines, all interleavings, all choices of the pools", "why_tests_cant": "the tests read from one goroutine; a result that still refers to a pooled buffer is right until someone else reuses the buffer", "anchors": ["modeler/read.go", "binary/slice.go", "binary/encode.go:17-218"]}
{"id": "C74", "title": "A concurrent read returns what it returns alone", "statement": "The result of a read by one of several goroutines on one document is the result of the same read by a single goroutine in a new process without a reuse buffer.", "quantifier": "all documents, accessors, callers' buffers, all numbers of goroutines, all interleavings, all choices of the pools", "why_tests_cant": "needs a pooled buffer with another goroutine's data at the right moment", "anchors": ["modeler/read.go", "binary/slice.go:143-152"]}
{"id": "C75", "title": "The writers write only where they append", "statement": "Any sequence of calls of the modeler's writing functions changes no byte of memory but in the unused capacity of the document's last buffer and in arrays that it allocates itself, whatever append decides to allocate. So buffer views that were read before, other documents and the data that is written keep their bytes, and the data may itself lie in the document. The document that results is the one that the functions on values compute.", "quantifier": "all documents in memory, all placements of buffers and data in arrays (also overlapping ones) where nothing lies in the capacity of the last buffer, all growth strategies of append, all sequences of calls", "why_tests_cant": "whether append copies depends on capacities and the runtime's growth; a wrong offset that only shows in a neighbouring slice is invisible in the result", "anchors": ["modeler/write.go", "binary/encode.go:225-415"]}
{"id": "C76", "title": "A caller may append to a view without changing the document", "statement": "Appending to the slice that ReadBufferView returns leaves the data of the document as it is.", "quantifier": "all documents in memory, all buffer views, all appended bytes, all growth strategies of append", "why_tests_cant": "the append shows in a different view than the one that is used", "anchors": ["modeler/read.go:91-107"]}
{"id": "C77", "title": "Encoding fails exactly for what JSON cannot carry", "statement": "Encoding a document to JSON panics exactly when an entry of Buffers is nil. It returns an error exactly when some float of the document is NaN or infinite, some camera has neither projection or some extension value cannot be encoded. In every other case it writes exactly one well-formed JSON value, which the decoder's scanner reads as that value unless it nests deeper than 10000 levels.", "quantifier": "all documents (any strings, also invalid UTF-8, any enum values, any integers, any nesting), both formats, all indentations", "why_tests_cant": "there are some hundred omitempty rules and custom marshallers; one that drops an error or writes a stray comma shows only for the field values that reach it", "anchors": ["encode.go: marshalJSONDoc", "encode.go:126-180", "gltf.go"]}
{"id": "C78", "title": "Decode asks for no more memory than the input justifies", "statement": "For the data of the buffers, Decode asks for no more memory than the input has bytes: for an embedded buffer no more than its text, for the binary chunk no more than the file has.", "quantifier": "all inputs, all ways of handing them out in pieces, all results (also errors)", "why_tests_cant": "tests decode files whose sizes are honest; a size that lies is one of 2^64 and the file fails anyway", "anchors": ["decoder.go:146-185", "gltf.go:132-146"]}
{"id": "C79", "title": "Reading accessors asks for memory in proportion", "statement": "All calls of the reading functions together ask for no more memory than the counts of their accessors say, at every moment of every interleaving; and this is no more than a constant and a multiple of the data that the document holds.", "quantifier": "all documents, all accessors, all numbers of concurrent calls and interleavings", "why_tests_cant": "a test sees results, not requests; the worst ratio of request to data is reached only by invalid documents", "anchors": ["modeler/read.go", "binary/slice.go"]}
{"id": "C80", "title": "What JSON keeps of every document", "statement": "Whatever document encodes to JSON, its text is either refused by the decoder, because it is nested more than 10000 deep or because an accessor has an undeclared type, or decodes to the document with exactly these changes: bytes of strings and keys that are not UTF-8 become U+FFFD, of the keys of a map that thereby become equal the last one in the order of the original keys stays, an undeclared component type becomes FLOAT, an undeclared primitive mode POINTS, any other undeclared value of an enumeration the zero value, unset or zero optional properties become the glTF defaults, embeddable buffer data becomes a data URI, buffer data is dropped, and each extension becomes what the decoder registered under its repaired name makes of its payload.", "quantifier": "all documents a Go program can hold, all extension registries whose decoders do not panic, all prefixes and indentations of white space, both modes", "why_tests_cant": "documents are unbounded and the changes of different parts combine; names that are not UTF-8 and undeclared enumeration values are never tried", "anchors": ["encode.go", "const.go", "gltf.go"]}
{"id": "C81", "title": "Files bring back every document", "statement": "Encode followed by Decode, and Save followed by Open, of a document whose floats are finite, whose cameras have a projection, whose extensions can be encoded and whose buffers and images have plain URIs either fail at reading, because the JSON is nested more than 10000 deep or an accessor has an undeclared type, or bring back the document with the contents of all buffers and with exactly the changes that JSON makes (C80); nothing else is lost, also when names are not UTF-8, enumerations have undeclared values or map keys collide.", "quantifier": "all documents a Go program can hold that satisfy the conditions, all extension registries whose decoders do not panic, both formats, all indentations, all readers (of binary files: those that hand out multiples of four bytes)", "why_tests_cant": "documents are unbounded and most of them are not representable in glTF; tests only try documents that are", "anchors": ["encode.go", "decoder.go", "const.go", "gltf.go"]}
{"id": "C82", "title": "Decoding into a document that already holds something", "statement": "Decoding a JSON text into a document succeeds or fails, with the same error, no matter what the document held. Decoding the same text again changes nothing, and of a text that is decoded into the same document again later the first decoding does not matter. The same holds of Decode with the files of the buffers: the same stream decoded into the document it produced opens the same files and changes nothing, and what is loaded does not depend on what the document held.", "quantifier": "all documents decoded into, all texts and sequences of texts, all streams, readers and file systems, all extension registries", "why_tests_cant": "the merge of encoding/json depends on slices, pointers and maps of the old document at every depth; tests decode into new documents", "anchors": ["decoder.go:59-114", "decoder.go:146-185", "gltf.go:31-52"]}
{"id": "C83", "title": "Documents that were opened can be saved again", "statement": "Every document that Decode returns can be encoded again, with any of the extension packages imported, and the text is read back. Its numbers are finite, its strings are UTF-8, its enumerations have declared values, and the encoders of the extension packages never panic and never return anything but a JSON value or an error.", "quantifier": "all input streams, readers, file systems and sets of imported extension packages; all values of the packages' Go types", "why_tests_cant": "which documents decode is decided by JSON of any shape and depth, with defaults of every struct; tests save the few documents they opened", "anchors": ["decoder.go:59-114", "encode.go:164-230", "ext/lightspunctual/lightspunctual.go:18-115", "gltf.go:184-211"]}
{"id": "C84", "title": "Getters with defaults return the specification's defaults", "statement": "Each OrDefault method returns the value that is set, and otherwise the default of the glTF specification or of the extension's specification: identity matrix, unit rotation and scale, alpha cutoff 1/2, factors 1, white colors, the float64 nearest to pi/4 for the cone of a spot. The arrays of a node and the scale of a texture transform count as absent exactly when all their components are zero, of either sign.", "quantifier": "all nodes, materials, textures, transforms, lights and spots with any float64 components, NaN and infinities included", "why_tests_cant": "tests compare a few values; negative zero, NaN and the last bit of pi/4 are not among them", "anchors": ["gltf.go:184-211", "gltf.go:287-361", "ext/lightspunctual/lightspunctual.go:57-105", "ext/texturetransform/transform.go:41-48"]}
{"id": "C85", "title": "Accessors are read as glTF lays them out", "statement": "glTF 2.0 determines the elements of every conforming accessor: tight packing where the view has no stride, columns of matrices at multiples of 4, the stride of the view, zeros without a view, and the sparse substitution. ReadAccessor returns exactly these elements; so do the helpers for positions, normals, tangents, texture coordinates, weights, matrices, joints and indices.", "quantifier": "all documents, conforming accessors of any format, count, stride and offset, sparse or not, all reuse buffers and pool contents", "why_tests_cant": "the tests compute expected values with the library's own element sizes and strides, which differ from the glTF rules for padded formats; no number of such cases shows that a file made by another program is read as it says", "anchors": ["modeler/read.go:31-114", "modeler/read.go:132-348", "modeler/read.go:458-474", "binary/encode.go:17-223", "gltf.go:492-507"]}
{"id": "C86", "title": "What is written means what was given, by the rules of glTF", "statement": "After a successful call of a writer, and after any further writes, each accessor it made conforms to glTF 2.0 and its elements by the rules of glTF (not by the library's reader) are the given data; the elements of vertex attributes start at multiples of 4.", "quantifier": "all documents, data of every supported type, targets, interleaved lists, and sequences of later writes", "why_tests_cant": "tests compare bytes with expected bytes for a few slices, or read back with the same library; conformance of the layout for every combination of formats and of previous content is universal", "anchors": ["modeler/write.go:21-390", "binary/encode.go:225-415", "gltf.go:492-507"]}
{"id": "C87", "title": "Images are stored whole", "statement": "WriteImage stores every byte of its source, however the reader fragments it, in a new buffer view without target and stride, and adds one image with the given name and type that refers to it; later writes leave both in place, and ReadBufferView returns the bytes. If the reader fails its error is returned and the document is unchanged. It panics exactly when there is no source or the last buffer is nil or cannot grow. A bytes.Buffer keeps its unread bytes, any other reader is read to its end.", "quantifier": "all documents, names, types, readers with any fragmentation and final error, capacities chosen by append, and sequences of later writes", "why_tests_cant": "the fragmentation of the stream, an error that comes with the last bytes and the growth of the slice are up to the reader and the runtime; tests use one bytes.Buffer", "anchors": ["modeler/write.go:172-191", "modeler/write.go:317-354"]}
{"id": "C88", "title": "Files carry what accessors and images mean", "statement": "When a document is written with Encode or Save, as JSON or GLB, and the result is read with Decode or Open, every accessor that conforms to glTF has at the same index an accessor with the same elements by the rules of glTF (base and sparse data), the same component type, type, normalization, bounds and vertex alignment, and every image stored in a buffer has an image with the same bytes.", "quantifier": "all documents a Go program can hold whose JSON can be written and whose buffers have plain locations, indentations, readers of any fragmentation (whole words for GLB), disks and accessors", "why_tests_cant": "tests compare a few saved documents as structures; that the layout seen through accessors, strides, sparse substitutions and several buffers survives the file is a statement about every document", "anchors": ["encode.go:32-229", "decoder.go:19-222", "gltf.go:492-507"]}
{"id": "C89", "title": "Absolute URIs survive loading and saving", "statement": "Cleaning leaves an absolute URI that conforms to RFC 3986 (lower-case scheme, host by name or IPv6 literal with optional port or no host, any path, query and fragment with percent escapes) as it is: url.Parse followed by String is the identity on it. Documents whose images are at such addresses come back from Encode and Decode, and from Save and Open, with the same addresses.", "quantifier": "all absolute URIs of that form, all documents a Go program can hold whose JSON can be written, with plain buffers", "why_tests_cant": "tests clean a handful of relative names; the URIs are unbounded texts and the escaping rules of net/url differ for every part of a URI", "anchors": ["decoder.go:64-77", "decoder.go:194-222"]}
{"id": "C90", "title": "Files that conform to the schema do not crash the reader", "statement": "For every file, text or GLB, whose JSON conforms to the glTF 2.0 schema: Decode does not panic; the document it returns has no nil entries, no negative index, offset, length or count and no empty required list; and ReadBufferView and ReadAccessor of its views and accessors do not panic.", "quantifier": "all conforming JSON trees and their texts, all readers and fragmentations, all file systems and registries, all views and accessors of the document", "why_tests_cant": "The conforming files are infinitely many; tests open a few sample files with sizes that fit and never a valid file with unusual offsets or lengths.", "anchors": ["decoder.go", "gltf.go", "modeler/read.go"]}
{"id": "C91", "title": "Assets made by other programs open with exactly their contents", "statement": "For every asset that conforms to glTF 2.0, text or GLB, whatever program wrote it: Decode succeeds; the document says what the JSON says; the Data of every buffer is exactly the byteLength bytes that the format assigns to it, from the front of the BIN chunk, from the base64 text of a data URI, or from the file that the percent-decoded relative URI names; exactly those files are opened, in order; and the URIs of images come out decoded if relative and unchanged otherwise. White space before the JSON text and chunks after the BIN chunk change nothing.", "quantifier": "all conforming JSON trees and all their texts, all containers with any padding and further chunks, all relative references with escapes, all absolute URIs, all file systems and registries, all readers", "why_tests_cant": "Tests open sample files written by a few exporters; the forms that conforming files may take, in white space, escapes, padding and distribution of the data, are infinitely many.", "anchors": ["decoder.go", "gltf.go", "const.go"]}
{"id": "C92", "title": "What Encode writes is a conforming asset with the document's contents", "statement": "For every document that Encode writes without an error, text or binary: the output is a JSON text or a GLB container whose JSON conforms to the glTF 2.0 schema and says what the document says; the BIN chunk, if any, holds the first buffer and is at most three bytes longer; and the bytes of every buffer are where its URI says they are, in the BIN chunk, in the data URI, or in the file that the percent-decoded URI names, so that any reader that follows the specification finds them.", "quantifier": "all well-formed documents, all relative references with escapes, all absolute URIs, both containers, all indentations, all registries and float formatters that meet their contract", "why_tests_cant": "Tests read the files back with the same library; whether another reader finds the data depends on every combination of URI spelling, container and buffer order.", "anchors": ["encode.go", "gltf.go", "decoder.go", "const.go"]}
{"id": "C93", "title": "Vertex data, indices and images survive the exchange with any other program through a file", "statement": "A file and the files beside it are a glTF asset in at most one way: the JSON, the buffers with their bytes and the files in use are determined by the bytes. Decode opens every asset and ReadAccessor and the typed read functions return the elements that glTF 2.0 gives its accessors; and what Encode writes is an asset in which every accessor has the elements, and every image in a buffer the bytes, that it has in the document, so that whatever program reads the file finds exactly the data handed to the write functions of modeler, whatever other calls followed.", "quantifier": "all assets, texts or GLB, with buffers in the BIN chunk, in data URIs, in files or elsewhere; all accessors with strides and sparse substitution; all sequences of calls of the modeler functions; all documents", "why_tests_cant": "Round trips through the same library cannot see an error made on both sides, and the combinations of layouts, containers and buffer locations that other exporters use are unbounded.", "anchors": ["decoder.go", "encode.go", "modeler/read.go", "modeler/write.go", "binary/encode.go", "gltf.go"]}
{"id": "C94", "title": "What Decode does with the buffers is settled by their lengths, URIs and contents", "statement": "Once the JSON is read, Decode returns a document exactly when no buffer or image is null and every buffer loads: from the BIN chunk when it is the first one of a GLB without a URI and the chunk has the bytes, from its data URI, or from a file with an acceptable name that can be read; and the data is what is stored there, cut to the byteLength. It panics exactly when a buffer or image is null, or when, after all buffers before it were loaded, a buffer read from a file has a negative byteLength, or the one in the BIN chunk has a byteLength that is negative or beyond the address space while its lowest 32 bits fit the chunk. In all other cases, and when the JSON is not read, it returns an error.", "quantifier": "all inputs delivered in any pieces, all documents decoded into, all registries, URL parsers and file systems, including ones that return data and an error", "why_tests_cant": "The outcome depends on the order of the buffers, on lengths modulo 2^32 and on errors of the file system; an exact characterisation of the panics excludes all other inputs at once.", "anchors": ["decoder.go", "gltf.go"]}
{"id": "C95", "title": "What reading an accessor gives is settled by the document alone, and so are its crashes", "statement": "ReadAccessor returns the elements stored at the accessor's positions, overlaid with the sparse values, exactly when the format is known, the views and buffers exist and lie inside each other, the extent of the elements fits, no sparse index is beyond the accessor, and []int8 views have no bytes to spare. It panics exactly for: a negative count, unsigned-integer 3x3 matrices with a reuse buffer, negative view or buffer indices, null views or buffers, a negative view offset or length that still ends inside the buffer, an accessor offset that is negative or beyond the view, []int8 with bytes to spare, a negative stride with two or more elements, or a sparse index beyond the accessor (with everything before it read). In all other cases it returns an error. The ten typed readers add only their format check.", "quantifier": "all documents and accessors with counts and strides below 2^31 in size, all reuse buffers and pool contents", "why_tests_cant": "The documentation says malformed documents never make it panic; only an exact characterisation shows which ones do and that no others exist.", "anchors": ["modeler/read.go", "binary/encode.go", "binary/slice.go"]}
{"id": "C96", "title": "Exactly when Encode succeeds, fails and crashes, and which files it makes", "statement": "Encode crashes exactly when a buffer of the document is nil. It succeeds exactly when the document can be expressed in JSON, no buffer is nil, the calls of the writer whose failures are looked at succeed (the only call for the text; for a GLB the call for the header and, when there is a BIN chunk, the one for the last padding) and every buffer that is neither embedded nor empty nor in the BIN chunk has a URI with a scheme or a local path and, if a file system is given and the URI gives a name, can be created, written and closed. The files made are then exactly the ones for these buffers, in order. Otherwise it returns an error; no file is made when the document or the writer is at fault, and else the files made are the ones before the first failure and at most the one that failed.", "quantifier": "all documents of a Go program, GLB or text, prefixes, indents, behaviours of the writer and of the file system", "why_tests_cant": "the cases are combinations of a document, the failing call of the writer and the failing file, and lengths close to the limits of int", "anchors": ["encode.go", "decoder.go"]}
{"id": "C97", "title": "Exactly what binary.Read and binary.Write do for any stride", "statement": "For any supported slice, any stride in the 32-bit range, negative ones and ones below the element size included, and any buffer: Write reports a short buffer exactly when (n-1)*stride+size is above the length of the buffer (and there is an element), panics exactly when there are at least two elements, the stride is negative and the slice is not a []uint8, and else leaves in each byte the component byte of the last element that has one there and every other byte as it was. Read reports a short buffer exactly when (n-1)*stride+size is above the length, panics exactly for a negative stride with two elements or more (neither []uint8 nor []int8) and for a []int8 with fewer elements than bytes, and else gives the elements stored at the multiples of the stride ([]uint8 and []int8: at consecutive bytes, elements beyond the end keeping their value). Slices of other types make both panic.", "quantifier": "all slice types, elements, strides, buffers", "why_tests_cant": "strides, counts and lengths are unbounded and their combinations decide between the three outcomes; overlapping elements are never tested", "anchors": ["binary/encode.go", "binary/slice.go"]}
{"id": "C98", "title": "Exactly when the modeler writers crash, fail and succeed", "statement": "For any document and any data: a writer panics exactly when (1) a typed writer gets a slice of a type it does not accept, or a slice, before any length mismatch, has a type package binary does not support, (2) the last buffer is nil, or that buffer, padded to a multiple of four for the writers of accessors, would exceed the memory limit with the data, or (3) two or more slices without elements are interleaved. WriteAccessorsInterleaved and WritePrimitiveAttributes pad first, so (2) applies even when the lengths differ; WriteBufferViewInterleaved does not. Error results are given exactly for a length that differs from the first and, by WritePrimitiveAttributes, for a first unfit attribute whose type its name does not permit; data that is not a slice panics if it comes first. In all other cases the call succeeds, []uint8 slices and no slices at all included.", "quantifier": "all documents, slices, attributes and write calls", "why_tests_cant": "the position of the first offending slice among any number of them, the state of the document and the sizes decide the outcome together", "anchors": ["modeler/write.go", "binary/encode.go", "binary/slice.go"]}
{"id": "C99", "title": "Exactly what each write call adds to the document", "statement": "A write call that is given data it can write changes four lists of the document and nothing else. The last buffer (a new one when there is none) gets zeros up to a multiple of four, for the writers of accessors, and then the data, its declared length growing by as much; one buffer view is appended, at that place, with the number of bytes of the data, the target of the call, and a stride only when several slices are interleaved or padded vertex attributes are written; one accessor per slice is appended, in order, with the offset of the slice in a row, its component type, type and count, the normalized flag exactly for integer texture coordinates, weights and colours, and bounds exactly for positions; WriteImage appends one image with the name, the media type and the view. The attribute map returned by WritePrimitiveAttributes has, for each name, the accessor of the last attribute of that name. Failing calls leave everything else as it was too. A document made by NewDocument has the version, the generator and one default scene, whatever is written to it.", "quantifier": "all documents, data, write calls and sequences of them", "why_tests_cant": "every member of every record added, for any document it is added to", "anchors": ["modeler/write.go", "gltf.go", "const.go"]}
{"id": "C100", "title": "Exactly when what the writers add obeys the rules of glTF", "statement": "For every write call that succeeds, the buffer view and the accessors it adds follow the rules of glTF (positive lengths and counts, offsets and strides that are multiples of the component size, a stride that is a multiple of four from 4 to 252, elements inside the view, a defined target) exactly when there is data, the target is one of the three defined, a row of several interleaved slices is a multiple of four and at most 252 bytes, and every slice in it starts at a multiple of its component size. A single slice always does. Sequences of such calls keep a document conforming to the schema; calls without data or with another target, or with rows under four bytes, make it one that does not.", "quantifier": "all documents, slices, write calls and sequences of them", "why_tests_cant": "the alignment of any number of interleaved slices of any types, at any place of the buffer", "anchors": ["modeler/write.go", "const.go", "gltf.go"]}
{"id": "C101", "title": "Documents built by the rules save as assets that carry the data", "statement": "A program that starts from NewDocument and makes any sequence of write calls, each with data of the types the call takes, of one length, with finite positions and UTF-8 names, laid out as C100 requires, and with memory for it, gets through all of them without a crash or an error. The document can then be encoded, as text or GLB below 4 GiB, with any indentation and without any further file, into an asset that conforms to glTF, and in every reading of it by the rules of glTF each slice of each call is found at the index its call returned, and so is each image. The exceptions are single slices with padded elements outside vertex views, several slices one of which is a []uint8, and matrices that do not start at a multiple of four. The library itself, decoding the file, reads back each slice and image as it was given, also the padded ones, unless several slices are written together and one of them is a []uint8 or []int8.", "quantifier": "all sequences of write calls from an empty document, all writers, indentations and float and extension implementations", "why_tests_cant": "any number of calls of any kinds, and every reading of the file by another program", "anchors": ["modeler/write.go", "modeler/read.go", "gltf.go", "encode.go", "binary/encode.go", "decoder.go"]}
{"id": "C102", "title": "Completing a built document by hand does not disturb its data", "statement": "A document built as in C101 is completed by hand: it gets scenes, nodes, meshes, materials, animations, extensions and so on, and further accessors, buffer views and images behind those of the calls. Whatever these parts are, as long as their values are ones JSON can hold, with the members glTF requires and without negative indices, the document can be encoded, as text or GLB below 4 GiB, into an asset that conforms to glTF, and in every reading of it by the rules of glTF the data of every call is found at the index its call returned, with the exceptions of C101, and the other parts are found as they were given, in the normal form of C41. The library, decoding the file, reads it back too.", "quantifier": "all sequences of write calls from an empty document, all other parts of the document, all writers, indentations and float and extension implementations", "why_tests_cant": "any other parts of the document beside any calls, and every reading of the file", "anchors": ["modeler/write.go", "modeler/read.go", "gltf.go", "encode.go", "decoder.go"]}
{"id": "C103", "title": "Which single slices WriteAccessor stores as glTF says, exactly", "statement": "For every document, target and non-empty slice that WriteAccessor accepts, the accessor it adds conforms to glTF 2.0, also after all later writes. A reader that follows glTF finds the given elements if the elements need no padding, or the target is ARRAY_BUFFER, or there is one element; in every other case it finds 0 as the first component of the second element, whatever was given. So data whose second element does not start with 0 is in the document exactly under that condition.", "quantifier": "all documents, targets, element types, lengths and values; all sequences of later writes", "why_tests_cant": "The condition is an equivalence over every element type, target, length and value; the library's own reader uses the same padding as its writer, so a round trip test sees nothing wrong.", "anchors": ["modeler/write.go", "binary/encode.go", "const.go"]}
{"id": "C104", "title": "Which interleaved bytes are read back", "statement": "For every successful interleaved write of two slices or more: an accessor of []int8 makes ReadAccessor panic, exactly unless its slice is the last and has one element. A []uint8 of two elements or more shares the byte of its second element with the first byte of an element of the slice that follows it (of the next row behind the last slice); whenever the two are to differ, the library does not read both slices back. Slices of one element each are all read back, []int8 as the last slice only.", "quantifier": "all documents, all successful interleaved writes of two slices or more, all values, reuse buffers and pools; views of sizes that an int holds and fewer than 2^31 elements", "why_tests_cant": "It says of every layout and all values with which data the round trip fails; a test shows one.", "anchors": ["modeler/write.go", "modeler/read.go", "binary/encode.go"]}
{"id": "C105", "title": "What the file has of interleaved unsigned bytes", "statement": "For every successful interleaved write of two slices or more: let one slice be a []uint8, with no other []uint8 behind it. A reader that follows glTF finds, as element j of its accessor, the element of the slice that stands at j times the number of bytes of a row, or 0 when the slice has no such element. So, where the accessor conforms, the elements are found as given exactly if all of them but the first are 0. With rows of an allowed stride the accessor conforms, and each []uint8 in front of that one is found with its own first element, followed by elements of the last []uint8 or 0.", "quantifier": "all documents, all successful interleaved writes of two slices or more, all values and positions of the slice, all readings of the accessor by the rules of glTF", "why_tests_cant": "It names the byte that every such file holds in that place, for all row lengths and values; a test shows one file.", "anchors": ["modeler/write.go", "binary/encode.go"]}
{"id": "C106", "title": "Linear colours keep the order of the channel values", "statement": "For every accurate math.Pow, a channel of an 8-bit or 16-bit colour is less than that of another colour exactly if its float is less after DenormalizeRGB or DenormalizeRGB64; so no two colours have the same floats. NormalizeRGB does not keep them apart: 113 and 114 both come back as 113.", "quantifier": "all pairs of 8-bit and of 16-bit colours, every power function accurate to 2^-40", "why_tests_cant": "All pairs of 2^48 colours and all power functions; a test compares some with one Pow.", "anchors": ["math.go"]}
{"id": "C107", "title": "What stands behind the last unsigned byte of a row is stored as given", "statement": "For every successful interleaved write of two slices or more, with rows of an allowed stride: a slice that is not a []uint8, has no []uint8 behind it and starts at a place that its components allow has an accessor whose elements, to every reader that follows glTF, are exactly those given, whatever stands in front of it. So with a single []uint8, put first, all other slices are found as given, and the []uint8 itself exactly if all its elements but the first are 0. Wherever it stands, a slice that is not a []uint8 keeps its first element, and every element j with (j - 1) times the length of a row not less than the number of elements.", "quantifier": "all documents, all successful interleaved writes of two slices or more with rows of an allowed stride, all types, values and numbers of slices, all readings of the accessors by the rules of glTF", "why_tests_cant": "It holds for every mixture of types and every number of rows, where consecutive bytes of a []uint8 run over the other columns; a test tries one layout.", "anchors": ["modeler/write.go", "binary/encode.go"]}

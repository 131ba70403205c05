# Formal model of qmuntal/gltf in Rocq

## Approach

The Go code in /repo is transcribed function by function into total Gallina
functions.  Results are `Ok v | Err e | Panic`; a Go run-time panic (nil
dereference, slice bound, division by zero, failed type switch) is the value
`Panic`, never an undefined case.  Every definition of the model carries the
file and lines it stands for.

* Model: `Base`, `Types`, `Doc`, `F64`, `Binary`, `ModelerWrite`,
  `ModelerRead`, `Base64`, `Url`, `JsonText`, `Codec`, `DocCodec`, `Marshal`,
  `Stream`, `Image`, `File`, `Strings`, `Norm`, `Ext`, `Registry`.
* Specifications: `Spec*.v`.  They do not use the model's functions, only its
  data types and the byte/integer conversions of `Base`: the layout formulas
  (`SpecLayout`), the RFC 4648 bit groups (`SpecData`), JSON text and UTF-8
  (`SpecText`), string literals and percent-encoding (`SpecString`), confined
  paths (`SpecPath`), GLB containers (`SpecFile`), the glTF 2.0 schema
  (`SpecSchema`), what a glTF JSON says (`SpecMeaning`), linearizability
  (`SpecRegistry`), the documents a Go program can hold and those JSON can
  carry (`SpecGo`, `SpecGoDoc`), what JSON keeps of them (`SpecKeep`,
  `SpecKeepDoc`), what a file brings back of them (`SpecKeepFile`), what is known
  of documents that were read (`SpecLoaded`, `SpecLoadedDoc`, `SpecExtGo` for the
  extension packages), the elements that an accessor has by the rules of glTF
  (`SpecAccessor`, with the glTF packing and not the library's element sizes),
  the bytes of an image in a buffer (`SpecImage`), absolute URIs (`SpecUrl`),
  assets of any origin: containers, relative references, where the bytes of
  buffers are (`SpecAsset`), and assets as a whole with the contents that glTF
  gives them (`SpecExchange`), which buffers load and which make the reader
  crash (`SpecLoad`), what reading an accessor gives and when it crashes
  (`SpecFetch`), the exact conditions for a document to be written and the files made
  (`SpecStore`), reading and writing with any stride (`SpecPut`), when the writers crash and
  fail (`SpecAppend`), what they add to the document (`SpecAdded`)
  and when that follows the rules (`SpecRules`), the calls a program is to make (`SpecBuilt`), a built document completed by hand (`SpecComplete`),
  which single slices are stored as glTF says (`SpecSingle`), which elements follow
  one another in interleaved rows (`SpecRows`),
  and so on.
* Proofs: `*Proofs.v`, `*Inv.v` and the like.
* Properties: `Props*.v`.  Each theorem is followed by `Print Assumptions`, and
  by `Example`s that meet its hypotheses on a non-trivial case.

Where the faithful model violates a property, the property is recorded as
`..._refuted` with a computed witness, together with the strongest guarded
version that was proved (`..._partial`).  `MANIFEST.json` marks these `partial`.

`Doc.v`, `DocCodec.v`, `SpecGoDoc.v` and `SpecKeepDoc.v` are generated by `tools/gen_doc.py`,
`tools/gen_codec.py`, `tools/gen_go.py` and `tools/gen_keep.py` from tables that repeat the struct declarations of gltf.go,
and so are the proofs in `DocCodecProofs.v`, `DocCodecInv.v`, `DocKeepProofs.v`, `DocWithin.v` (`tools/gen_within.py`) and
`DocReload.v` (`tools/gen_reload.py`), and `SpecLoadedDoc.v` with its proofs `DocLoaded.v` (`tools/gen_loaded.py`); the generated files are committed.

## Trusted base

* Coq 8.16.1's kernel, including `vm_compute` (used in witnesses and in
  computations over small tables); `vcheck` also runs `coqchk`.
* The axioms `Print Assumptions` lists, see the end of this file.  They are
  those of Coq's real numbers and of functional extensionality and classical
  logic, used through Flocq for the theorems on floating-point conversions.
  Every other theorem is closed under the global context.  There are no axioms
  of our own.
* The transcription: that the definitions of the model say what the cited Go
  lines do, and that the models of the standard library below say what Go's
  standard library does.
* The specifications in `Spec*.v`, which are meant to be read.

## Representation

| Go | model |
|---|---|
| `byte` | `ascii` (exactly 256 values), `b2z`/`z2b` |
| `[]byte` | `list ascii`; nil and empty slices coincide unless the code tells them apart |
| `string` | Coq `string` (bytes) |
| `int` | `Z`; wrap to 64 bits written explicitly (`i64`) where reachable; `uint32` arithmetic wraps (`u32`) |
| elements of accessors | raw bit patterns in `Z` (the code only moves bits) |
| `float64` in documents | raw 64-bit pattern in `Z`; `==`, ordering and NaN defined on bits |
| float arithmetic (`math.go`) | Flocq `binary32`/`binary64`, round to nearest even |
| typed slices passed as `any` | element kind + list of elements, each a flat list of components |
| `[]*T`, `*T` | `list (option T)`, `option T`; `None` = nil pointer |
| maps in documents | lists sorted by key |
| decoding into a used document (C82) | elements of the old slices up to their length are reused; that Go also reuses those in the spare capacity is not modelled |
| `any` in extras | `any`: null, bool, number, string, array, map |
| extensions | the registered decoder's value, or the raw JSON tree; what a document may hold (`wf_extv`) is a value that its encoder writes as well-formed JSON, and what is kept of it (`norm_extv`) is what the registered decoder makes of that text |
| `sync.Pool` | arbitrary contents, universally quantified; in C73 and C74 a bag of slices |
| `io.Reader` | any finite list of pieces, then any error, possibly together with the last piece |
| `io.Writer` | a script of per-call outcomes (short writes, errors) |
| file systems | functions or finite maps with failing operations |
| memory of the reading functions (C73, C74) | a heap of byte arrays, slices as array, offset, length and capacity; each function is a program of allocations, loads, stores and pool operations (Memory.v), shown to compute what the function on values computes |
| memory of the writing functions (C75, C76) | the same heap; `append` in place or into a new array of any capacity (WriteMemory.v), shown to compute what the functions on values compute |
| memory that is asked for (C78, C79) | for the readers the growth of that heap (lengths; the spare capacity that append adds is not counted); for `Decode` the sizes passed to make for the data of buffers (DecodeAlloc.v, shown to compute `Decode`), not what encoding/json and fs.ReadFile allocate |
| goroutines that read | any interleaving of the steps of such programs; `sync.Pool` hands out any slice it holds, or a new one |
| goroutines on the registry | interleaving of atomic steps; a map write takes two steps, so that a race is visible |

Standard library functions that are modelled in Gallina: `encoding/base64`,
`encoding/json` (scanner, string (un)quoting with HTML escaping, indentation,
struct matching by name with case folding, null handling, duplicate keys, depth
limit, number syntax, arrays of fixed length), `unicode/utf8`, `bufio.Reader`,
`io.LimitedReader`, `io.ReadFull`, `io.ReadAll`, `encoding/binary`, `filepath.IsLocal` (Unix),
`filepath.Clean`, `net/url.PathUnescape`, the scheme part of `net/url.Parse`,
`bytes.Replace`, `bytes.Equal`, `strings.HasPrefix`, `path.Dir`.
`sync.RWMutex` is its specification.

External functions that are parameters, with the theorems quantified over them:

* `strconv` number formatting and parsing (`float_lib`); where a round trip
  needs it, the contract `float_contract` (finite numbers are written as JSON
  numbers that parse back to themselves) is a hypothesis.  `go_floats`
  (Strconv.v) is a model of what strconv and the float64 encoder do (nearest
  float64, shortest digits), and C69 proves that it meets every such
  hypothesis, so all these theorems hold with it; what remains trusted is that
  the fast paths of strconv compute the same;
* `net/url.Parse` beyond the scheme (`url_lib`); `go_url` (GoUrl.v) is `Parse`
  and `URL.String` of Go 1.20 in full, written from that package, and C89 proves
  that with it the model is the source text, so all theorems hold with it;
* the extension registry and the encoders of registered values (`ext_lib`);
  `go_exts` (ExtRegistry.v) is the one that the packages under ext/ fill, and
  C70 proves that it meets the hypotheses, for the packages without findings;
* `math.Pow`; C60 and C72 hold for every `Pow` accurate to 2^-40 on (0,1].

## What is modelled

| file | modelled | not modelled |
|---|---|---|
| gltf.go | all types, `NewDocument`, `EmbeddedResource`, `IsEmbeddedResource`, `marshalData`, `MarshalData`, all `...OrDefault`, `RegisterExtension`, `queryExtension`, `SizeOfElement` | `Index`, `Float` (address-of helpers) |
| const.go | all enumerations with their JSON methods, `ByteSize`, `Components`, constants | |
| const_strings.go | all `String` methods | the compile-time checks `func _()` |
| math.go | everything | the bits of `math.Pow` |
| decoder.go | everything | |
| encode.go | everything | |
| binary/* | `Read`, `Write`, `Type`, `MakeSlice`, `MakeSliceBuffer`, `castSlice`, `reslice`, every component accessor | big-endian hosts; a misaligned reuse buffer |
| modeler/write.go | everything (the `io.Reader` of `WriteImage` in `Image.v`, elsewhere as its total outcome) | readers that never end |
| modeler/read.go | everything | |
| ext/* | decoding, encoding, `...OrDefault`, text surgery, the registry after `init` of the imported packages (`go_exts`) | extension values of a Go type that Unmarshal does not make |

Not modelled at all: allocation failure below the address-space limit (`make`
with an impossible length is a panic), stack exhaustion, Windows paths, and the
time a call takes.  Concurrency is modelled for the
registry (C45) and the readers (C73); both are free of races, so that the steps
can be taken in one order.

The memory model of the readers: a load or store of a component, an element, or
a range that is copied is one step; a slice of any element type is its bytes;
arrays that `append` or `make` allocate have no spare capacity; the callers'
buffers are in different arrays (not only in different parts of arrays).

The memory model of the writers (C75): one goroutine; `append` writes in place
when the capacity is enough and else takes a new array with any extra capacity;
only the data of buffers and the data that is written are in memory, the
document's own structs are values.

Simplifications, each also stated at the definition: JSON is decoded from trees
that the scanner builds (Go decodes from the text, with the same scanner);
error values carry the message but not their Go type; a `[]byte` that is nil and
one that is empty coincide.

## Findings

Each of these is a theorem (`..._refuted`, or named).

Reading and writing of elements
* `[]uint8` with a stride above 1 is copied packed by both `Read` and `Write`
  (C02, C03, C04, C12); reading `[]int8` panics when the view is longer than the
  slice (C03, C05, C16).
* `MakeSliceBuffer` for 3x3 matrices of `uint32` always panics with a non-empty
  buffer: a `return` is missing (C06, C08, C19).
* The library pads every element to a multiple of 4 bytes per column, glTF only
  the columns of matrices.  So tightly packed VEC3 of bytes or shorts, and VEC2
  of bytes, which glTF allows, are read with wrong values or refused, and a
  strided view that ends with the last component is refused (C85).

Modeler
* `WriteImage` and `WriteBufferView` leave the next data misaligned (C11).
* Failed interleaved writes may leave padding or a new buffer; two or more
  slices without elements panic, because the second is stored past the end of
  the buffer (C13, C98); a nil last buffer makes every writer panic (C98).
* `WritePrimitiveAttributes` does not flag integer TEXCOORD_2, COLOR_1, ... as
  normalized (C14).
* Writing no data gives buffer views and accessors of length zero, and
  interleaving single bytes or shorts gives rows that are no multiple of four,
  without an error; glTF permits neither (C100).
* `ReadAccessor` panics on nil entries, negative or overflowing fields and
  sparse indices out of range (C16, C17); without a buffer view it returns the
  contents of the reuse buffer or of the pools instead of zeros (C18-C20), which
  may be what another goroutine has just read (C74); the
  helpers return a caller's whole buffer for `Count` 0 (C21).
* `ReadAccessor` allocates by `count` before it looks at the data, so a document
  without data makes it ask for any amount of memory (C79).
* `ReadColor` truncates 16-bit channels instead of scaling them (C22).
* `WriteAccessor` without target stores `[][3]uint8` padded and without stride,
  which other readers see as other elements, and so for every padded type and two
  elements or more (C103 is the exact condition); interleaved data with elements that
  are not multiples of 4 bytes, or with more than 252 bytes to a vertex, has a
  stride that glTF forbids (C86).
* Several `[]uint8` that are interleaved are each stored in consecutive bytes and
  overwrite one another, though the view and the accessors follow all rules: the
  file has other elements than were given (C101).  This is so whatever they are
  interleaved with, and interleaved `[]int8` cannot be read back (C104).
  In the file each keeps its first element, and the others are elements of the last
  `[]uint8` of the row, j rows further on in the slice, or 0:
  of the last, only a slice with zeros behind its first element is found as given, though the
  accessor conforms (C105).  What stands behind the last `[]uint8` is not harmed (C107).
* `WriteInverseBindMatrices` tags its view ARRAY_BUFFER (C57 states it).
* The writers append to a buffer that was loaded from a data URI but leave the
  URI; `Encode` writes the old URI, and what was appended is silently lost
  (C68).  Positions that are NaN or infinite make the document unencodable, and
  `WritePrimitiveAttributes` without data makes one that cannot be loaded (C68).
* `ReadBufferView` returns a slice with all the capacity behind it, so `append`
  to it overwrites the document's data behind the view (C76).

Files
* A GLB is malformed if `len(Data)` differs from `ByteLength` (C29); sizes are
  computed in `uint32` and wrap (C36).
* The write errors of the JSON text, its padding, the BIN header and the data
  are dropped in binary mode (C33).
* Whether a padded GLB decodes depends on how the reader fragments it (C30,
  C31): the padding after the JSON text may stay unread.  The result is then an
  error and never another document, unless there are four bytes of padding or
  more (C31_wrong_document_refuted).
* null buffers or images and a negative `byteLength` make `Decode` panic (C34);
  the length of embedded and of short external data is not checked (C35).
* `Save` truncates the file before it encodes (C37).
* `Encode` validates the raw URI and creates the cleaned one (`%2e%2e/x` escapes
  the directory, C27); `Decode` cleans first.  A URI that cannot be cleaned, like
  `100%.bin`, is silently not written (C28); `./` becomes empty and is then taken
  for the BIN chunk; `data%3Aapplication/octet-stream;base64,...` becomes embedded
  by unescaping; `a/../b.bin` is written but cannot be opened (C58).
* A buffer of length 0 encodes but is refused by `Decode` (C32).
* The check of `byteLength` against the BIN chunk compares 32 bits, and the
  declared length of the chunk is believed: a GLB of 84 bytes makes `Decode` ask
  for a terabyte before it fails (C78).
* `Decode` merges into the document it is given: a GLB decoded into a document
  that held an external buffer reads that file and ignores the chunk, and a
  second `Decode` unescapes inherited URIs once more (C82).

JSON
* Explicit null leaves optional values nil although the README promises
  defaults (C43); unknown enumeration codes silently become the default, only an
  unknown accessor type is an error (C39).
* Member names match without regard to case, so a conforming file with the
  undefined member `"Scene": "main"` is refused (C63).
* Invalid UTF-8 is replaced (C46); raw extensions with `<`, `>`, `&` change bytes
  once (C50); an `Asset` without version re-encodes with another member order
  (C40); cameras without projection decode but do not encode (C41); a normal or
  occlusion texture without index omits a required member (C62).
* pbrSpecularGlossiness edits its own output as text, which corrupts extras
  (C47); lights and light references do not survive, and a light without range
  gets +Inf, which cannot be encoded (C49).  A member named `light` beside
  `lights` makes the decoder return the index and drop the list (C71).  So valid
  documents with a light without range, or with extras like
  `{"glossinessFactor":10}` in a specular-glossiness texture, are decoded and
  cannot be saved (C70).  Without specular-glossiness, such a light and a camera
  without projection are the only reasons why a document that was opened cannot
  be saved (C83).
* An undeclared primitive mode is written as 0 and read as POINTS, and an
  undeclared accessor type is written as "", which `Decode` refuses.  Attributes,
  extensions or extras whose names become equal by the repair of UTF-8 are
  silently lost (C80).
* A texture transform with scale [0,0] is saved with scale [1,1], and rotation
  -0 as 0 (C48, C70).
* `sanitizeURI` shortens `/./` in the whole text of an absolute URI, also inside
  its query (`http://h/?p=/./x` becomes `http://h/?p=/x`), and cleaning again
  shortens again, so that a document saved and loaded several times points
  elsewhere each time (C89).  A URI with a byte that RFC 3986 does not allow
  also loses the escapes of slashes: `http://h/a%2Fb|c` becomes
  `http://h/a/b%7Cc` (example beside C89).
* Conforming files that crash: a GLB file whose only buffer declares a
  byteLength of 2^48 + 1 conforms to the schema, and Decode panics in `make`,
  because the length is compared with the chunk as a uint32
  (`C90_decode_refuted`); an accessor with a byteOffset behind its view makes
  `ReadAccessor` panic (`C90_read_refuted`).
- Buffers embedded as `data:application/gltf-buffer;base64,...`, one of the two
  media types of glTF 2.0, section 3.6.1.1, are not recognised
  (`Buffer.IsEmbeddedResource`, gltf.go:123, only knows
  `application/octet-stream`): Decode looks for a file of that name, and without
  a file system it returns the buffer without data and without an error.
  Buffers without URI outside a GLB, which the format allows for extensions to
  fill, make Decode fail (`C91_open_refuted`).
- Encode writes a buffer whose data is shorter than its byteLength, and lets two
  buffers overwrite each other when their URIs stand for one file, `a.bin` and
  `./%61.bin`; neither file is a conforming asset with the document's contents
  (`C92_written_refuted`).
- A file with tightly packed three-byte elements is read with other values, and
  WriteAccessor without a target makes such a file from other data
  (`C93_read_refuted`, `C93_written_refuted`).

Outcomes that the exact characterisations single out
* `binary.Write` and `Read` accept a stride below the element size: elements
  overlap, later ones win; with a negative stride and two elements or more they
  panic, except for the byte slices, which ignore the stride (C97).  Reading
  `[]uint8` through a view with a negative stride leaves the elements past the
  end of the view as the reuse buffer had them (C95).

Numbers
* A number literal of more than 100000 bytes can be read as another number,
  because strconv stops reading the exponent at 10000 (C69).
* `NormalizeRGB(DenormalizeRGB(255))` is 254; the 16-bit value 53 becomes 52.
  Of the 256 8-bit values, 37 come back one lower, among them 114 to 127 and the
  odd ones from 241 on; of the 16-bit ones it depends on `math.Pow` (C60).
  The loss is in `NormalizeRGB`, which cuts off; the floats are all different (C106).

## Tests of the theorems against wrong programs

`seeded/*.json` are edits of the model as a realistic bug would make them;
`tools/seed.py` applies each to a copy, rebuilds and reports the theorems that
fail.  `seeded/LOG.jsonl` is the record.  Theorems that missed an edit were
tightened, or a property was added: C62-C67 came from swapped codes, member
names and checks that round trips cannot see.

## Properties

<!-- generated by tools/assumptions.py -->
| property | status | theorems | remarks |
|---|---|---|---|
| C01 Component accessors write and read the glTF column-major little-endian layout | proved | `C01_component_layout` (PropsBinary), `C01_column_alignment` (PropsBinary) | put/get of every element type against the column-major layout formula; frame included |
| C02 binary.Write places every element at its stride and touches nothing else | partial | `C02_write_partial` (PropsBinary), `C02_write_short` (PropsBinary), `C02_write_uint8_refuted` (PropsBinary) | holds for all kinds and strides except []uint8 with stride > 1, which is copied packed (refuted with a witness) |
| C03 binary.Read inverts binary.Write | partial | `C03_read_write_partial` (PropsBinary), `C03_int8_exact_partial` (PropsBinary), `C03_read_write_refuted` (PropsBinary) | round trip for all kinds except []int8 into a longer buffer (Read panics) and []uint8 with stride > 1; both refuted with witnesses |
| C04 binary.Read takes element i from byte stride*i | partial | `C04_read_strided_partial` (PropsBinary), `C04_read_short` (PropsBinary), `C04_read_refuted` (PropsBinary) | strided reads proved; []uint8 with stride > 1 is read packed and []int8 panics (refuted) |
| C05 binary.Read and binary.Write never panic on short or long buffers | partial | `C05_read_no_panic_partial` (PropsBinary), `C05_write_no_panic_partial` (PropsBinary), `C05_read_int8_panics` (PropsBinary), `C05_no_panic_refuted` (PropsBinary) | no panic when the byte extent fits an int and the data is not []int8; int8 panic characterised exactly; overflow witness |
| C06 MakeSlice and MakeSliceBuffer agree with Type for every accessor type | partial | `C06_make_slice_type_partial` (PropsBinary), `C06_invalid_types_error` (PropsBinary), `C06_uint_mat3_refuted` (PropsBinary) | all valid pairs except MakeSliceBuffer for Uint/Mat3, which always panics on a non-empty buffer (refuted) |
| C07 MakeSlice returns zeroed memory; MakeSliceBuffer only exposes bytes of the caller's buffer or zeros | proved | `C07_make_slice_zero` (PropsBinary), `C07_make_slice_buffer` (PropsBinary) | zeroed memory / reinterpretation of the reuse buffer; for the pairs where MakeSliceBuffer returns |
| C08 WriteAccessor then ReadAccessor returns the data | partial | `C08_write_read_partial` (PropsModelerWrite), `C08_write_read_refuted` (PropsModelerWrite) | all supported types and reuse buffers except [3][3]uint32 with a non-empty reuse buffer, where the read panics (refuted); success of the write is part of the theorem |
| C09 No later write disturbs earlier accessors | proved | `C09_append_only` (PropsModelerWrite), `C09_reads_stable` (PropsModelerWrite), `C09_write_later_read` (PropsModelerWrite) | any sequence of the 15 write calls |
| C10 The modeler keeps the document structurally valid | proved | `C10_consistent` (PropsModelerWrite) | any sequence of write calls from a consistent document, including failing calls |
| C11 Data written by the modeler is 4-byte aligned and views never overlap | partial | `C11_views_disjoint` (PropsModelerWrite), `C11_views_aligned_partial` (PropsModelerWrite), `C11_views_aligned_refuted` (PropsModelerWrite), `C11_accessor_offset_single` (PropsModelerWrite), `C11_accessor_offset_partial` (PropsModelerWrite), `C11_accessor_offset_refuted` (PropsModelerWrite) | disjointness for all calls; alignment for calls that pad; WriteImage/WriteBufferView misalign and interleaved small elements give misaligned accessor offsets (refuted) |
| C12 Interleaved writes read back | partial | `C12_interleaved_read_partial` (PropsModelerWrite), `C12_interleaved_succeeds` (PropsModelerWrite), `C12_interleaved_read_refuted` (PropsModelerWrite) | all types except []uint8/[]int8 when two or more slices are interleaved (refuted) |
| C13 Failed interleaved writes report an error and leave the document alone | partial | `C13_view_error` (PropsModelerWrite), `C13_accessors_error_partial` (PropsModelerWrite), `C13_attributes_error_partial` (PropsModelerWrite), `C13_unchanged_refuted` (PropsModelerWrite), `C13_empty_refuted` (PropsModelerWrite) | error exactly for different lengths; WriteBufferViewInterleaved leaves the document alone, the other two may leave padding or a new buffer (refuted); two empty slices panic |
| C14 WritePrimitiveAttributes maps every non-empty attribute to an accessor holding its data | partial | `C14_attributes_partial` (PropsModelerWrite), `C14_attributes_succeeds` (PropsModelerWrite), `C14_normalized_refuted` (PropsModelerWrite) | map, data and flag exact for distinct names; TEXCOORD_2+, COLOR_1+ integer data is not flagged (refuted) |
| C15 POSITION accessors carry tight min/max bounds | proved | `C15_position_bounds` (PropsModelerWrite), `C15_attribute_bounds` (PropsModelerWrite), `C15_exact_order` (PropsModelerWrite) | bounds and attainment per component, widening to float64 preserves order |
| C16 ReadAccessor is safe on malformed documents | partial | `C16_no_panic_partial` (PropsModelerRead), `C16_no_panic_refuted` (PropsModelerRead), `C16_out_of_range_errors` (PropsModelerRead) | no panic when nil entries, negative or overflowing fields, out-of-range sparse indices, []int8 views longer than the accessor and impossible counts are excluded; every excluded case refuted with a witness; out-of-range references and short data proved to give errors |
| C17 ReadBufferView returns exactly the view's bytes or an error | partial | `C17_exact_partial` (PropsModelerRead), `C17_sound` (PropsModelerRead), `C17_exact_refuted` (PropsModelerRead), `C17_panics_iff` (PropsModelerRead) | exact result for non-negative fields; a success is always the exact range; negative, overflowing and nil cases panic (refuted), and C17_panics_iff says for every document that fits in memory exactly which do |
| C18 Sparse accessors overlay substituted values on the base | partial | `C18_sparse_overlay_partial` (PropsModelerRead), `C18_sparse_overlay_refuted` (PropsModelerRead), `C18_overlay_unique` (PropsModelerRead) | overlay proved for all formats, index types and strides the reader honours, with zero base only for an empty reuse buffer (refuted otherwise) |
| C19 ReadAccessor does not depend on the contents of the reuse buffer | partial | `C19_buffer_independent_partial` (PropsModelerRead), `C19_buffer_independent_refuted` (PropsModelerRead) | equal results for any two buffers when there is a buffer view; refuted for accessors without one, for Uint/Mat3 and for negative strides |
| C20 Typed read helpers do not depend on earlier reads | partial | `C20_history_independent_partial` (PropsModelerRead), `C20_history_independent_refuted` (PropsModelerRead) | all helpers independent of all pool contents when the accessor has a buffer view; refuted without one |
| C21 Reads return exactly Count elements | partial | `C21_ReadAccessor_count` (PropsModelerRead), `C21_helpers_count_partial` (PropsModelerRead), `C21_helpers_count_refuted` (PropsModelerRead) | ReadAccessor always returns Count elements; helpers do unless Count is 0 and a non-empty buffer is passed (refuted) |
| C22 Typed read helpers convert values exactly | partial | `C22_values_in_range` (PropsModelerRead), `C22_ReadIndices` (PropsModelerRead), `C22_ReadJoints` (PropsModelerRead), `C22_floats_unchanged` (PropsModelerRead), `C22_ReadColor64_integers` (PropsModelerRead), `C22_ReadColor_integers_partial` (PropsModelerRead), `C22_ReadColor_ushort_refuted` (PropsModelerRead), `C22_normalized` (PropsNorm) | indices, joints, floats, normalized integers, 8-bit and 16-bit colors exact; ReadColor truncates 16-bit channels (refuted) |
| C23 Typed read helpers accept exactly the glTF-permitted accessor formats | proved | `C23_formats` (PropsModelerRead) | exact format table for every helper, all documents |
| C24 Embedding a buffer in the document is lossless | proved | `C24_embed_lossless` (PropsUri), `C24_no_panic` (PropsUri) | base64 of any byte string against the RFC 4648 bit-level specification; marshalData of the embedded URI gives the bytes back; no panic for any URI |
| C25 Embedded images decode to their bytes | proved | `C25_image_lossless` (PropsUri), `C25_not_embedded` (PropsUri), `C25_no_panic` (PropsUri) | PNG and JPEG data URIs decode to their bytes; every other URI gives empty data; no panic for any URI |
| C26 Decode only opens confined paths | proved | `C26_decode_names` (PropsFile) | every name passed to the file system is local or parses with a scheme; all inputs, all url parsers |
| C27 Encode and Save only create confined paths | partial | `C27_encode_names_refuted` (PropsFile), `C27_encode_names_partial` (PropsFile) | an escaped URI such as %2e%2e/x is validated before it is unescaped and created as ../x (refuted); proved for URIs whose cleaned form is itself valid |
| C28 External buffers are written where they will be looked for | partial | `C28_found_refuted` (PropsRoundTrip), `C28_found_partial` (PropsRoundTrip), `C28_escaped_partial` (PropsRoundTrip) | a URI that sanitizeURI refuses, such as 100%.bin, is silently not written (refuted); names and contents agree for plain names, and for escaped ones whose cleaned form passes the same checks |
| C29 GLB output is well formed | proved | `C29_glb_well_formed` (PropsFile), `C29_length_needed` (PropsFile) | exact container layout for all documents; C29_length_needed shows that the hypothesis len(Data) = ByteLength cannot be dropped |
| C30 GLB round trip | partial | `C30_any_pieces_partial` (PropsPieces), `C30_glb_roundtrip_partial` (PropsRoundTrip), `C30_glb_unpadded_partial` (PropsRoundTrip), `C30_glb_roundtrip_refuted` (PropsRoundTrip) | all documents with plain buffer names, delivered in multiples of four bytes, or with JSON that needs no padding; refuted otherwise because the padding is left unread, but then the result is an error and never another document (C30_any_pieces_partial) |
| C31 Decoding does not depend on how the reader fragments the stream | partial | `C31_never_wrong_partial` (PropsPieces), `C31_wrong_document_refuted` (PropsPieces), `C31_text_partial` (PropsRoundTrip), `C31_glb_partial` (PropsRoundTrip), `C31_fragments_refuted` (PropsRoundTrip) | proved for text and for GLB files delivered in multiples of four bytes or without padding; refuted for padded GLB files; with up to three bytes of padding any two readers agree or one gets an error before a file is opened (C31_never_wrong_partial), with four a wrong document is possible (C31_wrong_document_refuted) |
| C32 JSON round trip | partial | `C32_json_roundtrip_partial` (PropsRoundTrip), `C32_contents` (PropsRoundTrip), `C32_json_roundtrip_refuted` (PropsRoundTrip) | all documents with plain buffer names, embedded buffers or none, any fragmentation; refuted for empty buffers, which Decode refuses |
| C33 Encode reports write failures | partial | `C33_binary_partial` (PropsChunk), `C33_errors_refuted` (PropsFile), `C33_errors_partial` (PropsFile) | text mode: success means the whole text and every file was accepted; binary mode: success means the header and, when there is a BIN chunk, its padding write and every other file were accepted (C33_binary_partial), the write errors of the JSON text, padding and chunk are dropped (refuted) |
| C34 Decode is safe on untrusted input | partial | `C34_safe_refuted` (PropsFile), `C34_safe_partial` (PropsFile) | null buffers, null images or a negative byteLength panic (refuted); every panic comes from one of these or a length over 2^48, for every stream, fragmentation and file system |
| C35 Decoded buffers have the declared length | partial | `C35_length_refuted` (PropsFile), `C35_length_partial` (PropsFile) | exact for the binary chunk; external data is cut or short, embedded data is not checked (refuted); each case characterised |
| C36 GLB header validation rejects JSON chunks larger than the file | partial | `C36_header_refuted` (PropsFile), `C36_header_partial` (PropsFile), `C36_decode_partial` (PropsFile) | the sum is computed in uint32 and wraps for the 20 largest lengths (refuted); exact for all others, and Decode refuses those streams |
| C37 A failed Save does not destroy the existing file | partial | `C37_save_refuted` (PropsFile), `C37_save_partial` (PropsFile) | os.Create truncates first, so a failed Save destroys the file (refuted); nothing changes when creation fails, and files outside the directory never change |
| C38 Format auto-detection never confuses text and binary | proved | `C38_text_detected` (PropsFile), `C38_binary_detected` (PropsFile) | text outputs are read as JSON, binary outputs as GLB, for every document that encodes |
| C39 Enumerations survive JSON | proved | `C39_enums` (PropsJson), `C39_target` (PropsJson) | the JSON forms of all valid values and, every JSON value decodes to a valid value or an error; Target is a plain integer |
| C40 Defaults are observationally preserved by JSON | partial | `C40_node` (PropsJson), `C40_material` (PropsJson), `C40_pbr` (PropsJson), `C40_normal_texture` (PropsJson), `C40_occlusion_texture` (PropsJson), `C40_asset_partial` (PropsJson), `C40_asset_refuted` (PropsJson) | all types; re-encoding an Asset with an empty version changes member order (refuted as byte equality, proved as equality of values) |
| C41 The JSON mapping of the whole document is lossless up to defaults | partial | `C41_lossless_partial` (PropsJson), `C41_lossless_refuted` (PropsJson) | whole document, from the tree to the text and back, for well-formed documents whose extras/extensions nest less than the decoder's depth limit; cameras without projection and nil buffers do not encode (refuted) |
| C42 Encoding is stable after one round trip | partial | `C42_stable_partial` (PropsJson), `C42_stable_refuted` (PropsJson) | one round trip gives the normal form, later round trips change nothing; the first one may change the document (refuted: explicit null) |
| C43 Optional values are set after decoding | partial | `C43_filled_partial` (PropsJson), `C43_text_partial` (PropsJson), `C43_filled_refuted` (PropsJson) | for JSON without null; explicit null leaves nil (refuted) |
| C44 Extensions are decoded by their registered factory or kept raw | proved | `C44_extensions` (PropsJson), `C44_document` (PropsJson) | for extension objects at any place and for whole document texts; duplicate keys: the last one wins |
| C45 The extension registry is last-write-wins under concurrency | proved | `C45_last_write_wins` (PropsRegistry), `C45_race_free` (PropsRegistry), `C45_no_deadlock` (PropsRegistry) | Every interleaving of lock, two-phase map write, lookup and unlock steps by any number of goroutines; also race freedom and no deadlock. sync.RWMutex is its specification. |
| C46 Strings survive JSON text | partial | `C46_repaired` (PropsJson), `C46_strings_partial` (PropsJson), `C46_strings_refuted` (PropsJson) | valid UTF-8 strings; invalid bytes are replaced (refuted), and the result is characterised for all strings |
| C47 KHR_materials_pbrSpecularGlossiness survives JSON | partial | `C47_refuted` (PropsExt), `C47_partial` (PropsExt), `C47_bare_textures` (PropsExt) | False as stated: C47_refuted shows an extras string changed silently and an extras member turning the output into invalid JSON. C47_partial proves the round trip when no texture text contains one of the six edited patterns; C47_bare_textures discharges that for textures without extras and extensions. |
| C48 KHR_texture_transform survives JSON | proved | `C48_texture_transform` (PropsExt), `C48_scale_in_use` (PropsExt) | For every number format agreeing with strconv on 0, -0 and 1 and round-tripping finite floats. An all-zero scale comes back as the default, rotation -0 as 0. |
| C49 KHR_lights_punctual survives JSON | partial | `C49_refuted` (PropsExt), `C49_partial` (PropsExt) | False as stated: C49_refuted shows that no light list or reference survives and that a light without range cannot be encoded again. C49_partial: single lights with finite range round trip, and the output put back under its member name restores the lights and the reference. |
| C50 KHR_materials_unlit survives JSON | proved | `C50_unlit` (PropsExt), `C50_null` (PropsExt) | Values compared after decoding (raw bytes may gain HTML escapes once); the text is stable from then on. |
| C51 Normalized integers round trip through floats | proved | `C51_unsigned` (PropsNorm), `C51_signed` (PropsNorm) | all 8 and 16 bit values, IEEE arithmetic (Flocq) |
| C52 Normalizing is accurate for every float in range | proved | `C52_nearest` (PropsNorm), `C52_in_range` (PropsNorm) | every finite float32, in or out of range |
| C53 RGBA alpha channels round trip | proved | `C53_alpha` (PropsNorm) | every alpha value; math.Pow arbitrary |
| C54 Element sizes follow the glTF alignment rules | proved | `C54_size_of_element` (PropsBinary), `C54_components_disjoint` (PropsBinary) | size equals the aligned layout extent; zero for unknown types; components never overlap |
| C55 Indentation does not change meaning | proved | `C55_text` (PropsIndent), `C55_any_files` (PropsIndent), `C55_text_read` (PropsJson), `C55_files` (PropsRoundTrip) | Every document a Go program can hold (go_Document excludes none: names need not be UTF-8, enums may be unknown, floats NaN), JSON text and whole files: the same failure, or outputs that Decode reads as the same document or the same error, whatever the files around it. Binary files: sizes that fit 32 bits, and a reader that hands out multiples of four bytes (otherwise Decode loses chunk alignment, C31). C55_text_read and C55_files: in the C41 domain both succeed. |
| C56 Enum String methods identify the value | proved | `C56_strings` (PropsStrings), `C56_distinct` (PropsStrings), `C56_json` (PropsStrings) | All ten enumerations, every value of the underlying 8 or 16 bit integer. |
| C57 Typed writers tag their buffer views with the right target | proved | `C57_targets` (PropsTarget), `C57_stride` (PropsTarget) | every view any writer appends carries the target of its role, at most one view per call, all new accessors use it; a stride only on vertex data |
| C58 Open after Save restores the document | partial | `C58_save_open_partial` (PropsRoundTrip), `C58_save_open_refuted` (PropsRoundTrip) | documents with plain distinct buffer names different from the file itself; refuted for names such as a/../b.bin, which io/fs refuses |
| C59 Typed writers and typed readers are inverse | proved | `C59_vectors` (PropsTarget), `C59_indices` (PropsTarget), `C59_joints` (PropsTarget), `C59_normalized` (PropsTarget), `C59_colors` (PropsTarget) | each typed writer against its typed reader after any later writes, for all buffers and pools; integer texture coordinates and weights through the denormalization; 16-bit colors through ReadColor64 (ReadColor truncates them, see C22) |
| C60 sRGB colour channels round trip | partial | `C60_eight_bit` (PropsColour), `C60_eight_bit_exact` (PropsColour), `C60_sixteen_bit_refuted` (PropsColour), `C60_dark_partial` (PropsNorm), `C60_rgb64_refuted` (PropsNorm), `C60_white_refuted` (PropsNorm), `C60_within_one_partial` (PropsSrgb) | False as stated: 8-bit white becomes 254 for every math.Pow accurate to 2^-40, and 16-bit 53 becomes 52 (refuted). Every 8-bit and 16-bit channel comes back as itself or as the value below (C60_within_one_partial). For 8-bit channels the result is exact: C60_eight_bit and C60_eight_bit_exact name the 37 values that come back one lower, all others are unchanged; channels up to 10 whatever Pow does. For 16-bit channels no such list exists: 8400 comes back with one accurate Pow and not with another (C60_sixteen_bit_refuted) |
| C61 Denormalizing is accurate | proved | `C61_unsigned` (PropsNorm), `C61_signed` (PropsNorm) | every 8 and 16 bit value |
| C62 The JSON written follows the glTF 2.0 schema | proved | `C62_schema` (PropsSchema) | every wf document meeting the schema's value constraints is written as schema-conforming JSON (schema tables written out in SpecSchema.v) |
| C63 Every JSON value that conforms to the schema is accepted | partial | `C63_accept_refuted` (PropsSchema), `C63_accept_partial` (PropsSchema) | refuted: encoding/json matches member names without regard to letter case, so an undefined member such as Scene: "main" makes a conforming file fail; proved for undefined members whose names do not match a defined one up to case folding. Numbers inside extras must be in float64's range and -0 is not counted as an integer literal |
| C64 The binary chunk is checked before it is used | proved | `C64_binary_chunk` (PropsChunk), `C64_place` (PropsChunk) | for every reader; C64_place gives the exact position under alignment |
| C65 JSON strings carry the text RFC 8259 gives them | proved | `C65_decoded` (PropsString), `C65_encoded` (PropsString) | independent inductive meaning of literals in SpecString.v |
| C66 Percent-encoded references reach the file they stand for | proved | `C66_opened` (PropsEscape), `C66_images` (PropsEscape) | independent inductive meaning of percent-encoding in SpecString.v; references without scheme, query, fragment, leading slash and dot segments |
| C67 The document decoded is the document the JSON describes | proved | `C67_read` (PropsMeaning), `C67_unique` (PropsMeaning), `C67_written` (PropsMeaning), `C67_camera_type` (PropsMeaning) | relation m_gltf in SpecMeaning.v, written from the glTF 2.0 specification, independent of the codecs; C67_read for Decode, C67_unique, C67_written, C67_camera_type |
| C68 Data written with the modeler survives saving and loading | partial | `C68_storable` (PropsSaved), `C68_reads_partial` (PropsSaved), `C68_written_partial` (PropsSaved), `C68_typed` (PropsSaved), `C68_sessions_partial` (PropsSaved), `C68_reads_refuted` (PropsSaved), `C68_not_a_number_refuted` (PropsSaved), `C68_no_data_refuted` (PropsSaved) | C68_reads_partial, C68_written_partial, C68_typed: after any calls on a storable document whose last buffer has no data URI, with finite positions and some data; C68_sessions_partial for any number of GLB sessions. Refuted without these hypotheses: data appended to a loaded embedded buffer is lost (C68_reads_refuted), NaN positions cannot be saved, a document without data cannot be loaded. Missing: GLB readers with pieces not a multiple of four (see C30). |
| C69 Numbers survive as text and are read correctly rounded | partial | `C69_read_partial` (PropsFloat), `C69_read_refuted` (PropsFloat), `C69_write` (PropsFloat), `C69_shortest` (PropsFloat), `C69_contracts` (PropsFloat), `C69_document` (PropsFloat), `C69_number` (PropsFloat) | C69_read_partial: literals shorter than 9000 bytes are read as the nearest float64 (ties to even, error on overflow); C69_write and C69_shortest: every finite float64 is written as a JSON number that reads back, with the fewest digits and the closest of those; C69_contracts: the assumptions of the other properties about numbers hold. Refuted for longer literals (C69_read_refuted: strconv cuts the exponent). Model of strconv's documented results, not of its fast paths. |
| C70 Documents keep the values of the extension packages | partial | `C70_registry` (PropsExtDoc), `C70_transform` (PropsExtDoc), `C70_unlit` (PropsExtDoc), `C70_specular_partial` (PropsExtDoc), `C70_lights_lost` (PropsExtDoc), `C70_depth` (PropsExtDoc), `C70_stable_partial` (PropsExtDoc), `C70_save_open_partial` (PropsExtDoc), `C70_unsavable_refuted` (PropsExtDoc), `C70_endless_light` (PropsExtDoc) | False with lightspunctual or specular imported: C70_unsavable_refuted gives two valid documents that are decoded and cannot be encoded, C70_endless_light shows it for every document with a light without range, C70_lights_lost that lights come back as raw JSON. With texturetransform and unlit: C70_registry discharges the registry hypotheses of the other properties, C70_stable_partial and C70_save_open_partial are about documents, with go_floats and no hypothesis on registry or numbers. Specular-glossiness values only when clean (see C47). C70_depth: the unfolding of nested registries is exact for all JSON. |
| C71 Extension payloads mean what their specifications say | partial | `C71_transform` (PropsExtMeaning), `C71_specular` (PropsExtMeaning), `C71_lights_partial` (PropsExtMeaning), `C71_unlit` (PropsExtMeaning), `C71_unique` (PropsExtMeaning), `C71_transform_written` (PropsExtMeaning), `C71_specular_written_partial` (PropsExtMeaning), `C71_light_written` (PropsExtMeaning), `C71_unlit_written` (PropsExtMeaning), `C71_lights_refuted` (PropsExtMeaning) | relations m_transform, m_light_list, m_light_ref, m_specular, m_unlit in SpecExtMeaning.v, written from the Khronos extension specifications; reading, uniqueness and writing. Refuted: a member named light beside lights makes Unmarshal drop the list (C71_lights_refuted). Writing of specular-glossiness only for textures whose text the encoder does not damage (see C47); lights only one by one, as the list is written without its envelope (see C49). |
| C72 Colour conversions compute the sRGB transfer functions | proved | `C72_linear` (PropsSrgb), `C72_encoded` (PropsSrgb) | srgb_decode and srgb_encode in SpecSrgb.v are the formulas of IEC 61966-2-1 over the reals; the theorems bound the error of the float32/float64 code against them, with the branch thresholds as rounded in the source |
| C73 Concurrent reads of one document share no memory | proved | `C73_no_races` (PropsMemory), `C73_memory_kept` (PropsMemory), `C73_results` (PropsMemory), `C73_results_stay` (PropsMemory), `C73_ends` (PropsMemory), `C73_go_conversions` (PropsMemoryNorm) | Every interleaving of the loads, stores, allocations and pool operations of all reading functions over a heap of arrays (Memory.v); the functions on values of C16-C22 are shown to be what these programs compute. Ownership is by whole arrays: buffers of different callers are in different arrays. A load or store of one element is one step. C73_go_conversions: math.go meets the hypothesis on the conversions, for every math.Pow. |
| C74 A concurrent read returns what it returns alone | partial | `C74_as_if_alone_partial` (PropsMemory), `C74_as_if_alone_refuted` (PropsMemory) | False for accessors without buffer view: C74_as_if_alone_refuted is an execution in which such a read returns the positions that another goroutine left in the pooled buffer. C74_as_if_alone_partial: true for accessors with a buffer view (`reusable`), and a count other than 0 for the typed readers (C21). |
| C75 The writers write only where they append | proved | `C75_writes` (PropsWriteMemory), `C75_views_kept` (PropsWriteMemory), `C75_other_documents` (PropsWriteMemory) | WriteMemory.v transcribes every writer to a heap of arrays, with append in place or into a new array of any extra capacity, and with elements loaded and stored one after the other; C75_writes: its outcome is that of the functions on values (C08-C15, C57) and all bytes outside of the last capacity are kept; C75_views_kept and C75_other_documents are consequences. C75_example_shared: the condition on the capacity is needed. One goroutine. |
| C76 A caller may append to a view without changing the document | partial | `C76_append_overwrites` (PropsWriteMemory), `C76_append_keeps_document_partial` (PropsWriteMemory), `C76_append_keeps_document_refuted` (PropsWriteMemory) | False: C76_append_overwrites, an append to a view that is not at the end of its buffer overwrites the data behind the view, because the view is handed out with all the capacity behind it (buf[low:high] and not buf[low:high:high]); the documentation only says that the slice must not be modified. C76_append_keeps_document_refuted is a document in which it destroys another view. C76_append_keeps_document_partial: true if the append needs a new array, or if no buffer lies in the capacity of the view. |
| C77 Encoding fails exactly for what JSON cannot carry | proved | `C77_encodes_or_fails` (PropsIndent), `C77_succeeds_iff` (PropsIndent), `C77_read_or_refused` (PropsIndent) | Every Go document. Encoding panics exactly when a buffer is nil, fails exactly when a float is not finite, a camera has no projection or the encoder of an extension fails, and otherwise writes one well-formed JSON value. encoding/json reads it unless it nests deeper than 10000. The extension library is a parameter; its encoders must return JSON or an error. |
| C78 Decode asks for no more memory than the input justifies | partial | `C78_requests_partial` (PropsDecodeAlloc), `C78_declared_partial` (PropsDecodeAlloc), `C78_success_partial` (PropsDecodeAlloc), `C78_requests_refuted` (PropsDecodeAlloc) | Refuted: the byteLength is compared with the length of the chunk as a uint32, so a file of 84 bytes makes Decode ask for 2^40 bytes. C78_requests_partial: what is asked for in every run; C78_declared_partial: with byteLength below 2^32, at most what the file declares (the declaration is not checked against the file); C78_success_partial: a Decode that succeeds asked for no more than the input has, plus the texts of embedded buffers. DecodeAlloc.v repeats Decode with the sizes passed to make and is shown to compute Decode. Not counted: encoding/json, fs.ReadFile. |
| C79 Reading accessors asks for memory in proportion | partial | `C79_by_counts` (PropsAlloc), `C79_proportional_partial` (PropsAlloc), `C79_proportional_refuted` (PropsAlloc) | C79_by_counts: every execution of any number of concurrent calls. Refuted: a document without data makes ReadAccessor ask for any amount, by an accessor whose view does not exist or that has none. C79_proportional_partial: calls that succeed, on accessors with buffer views, with strides up to 252 and counts below 2^48. Memory model of C73; spare capacity that append adds is not counted (lengths are). |
| C80 What JSON keeps of every document | proved | `C80_repair` (PropsKeep), `C80_kept` (PropsKeep), `C80_well_formed` (PropsKeepFile) | Generalises C41 from representable documents to all. C80_repair: there is one way to repair strings. registry_total holds of the registries of all packages of the repository (C70). C80_well_formed: representable documents are Go documents that can be saved, and for them it says what C41 says. Examples: a document in which every kind of change happens, and one that is refused. |
| C81 Files bring back every document | proved | `C81_encode_decode_images` (PropsKeepFile), `C81_save_open_images` (PropsKeepFile), `C81_encode_decode` (PropsKeepFile), `C81_save_open` (PropsKeepFile), `C81_contents` (PropsKeepFile), `C81_well_formed` (PropsKeepFile) | Generalises C30, C32 and C58 from representable documents to all whose buffers and images have plain URIs. C81_contents: what back keeps; C81_well_formed: for representable documents it is restored, the specification of C30. Example: a document that is not representable, with three buffers, saved and opened. |
| C82 Decoding into a document that already holds something | partial | `C82_same_failure` (PropsReload), `C82_repeats` (PropsReload), `C82_reload` (PropsReload), `C82_outcome` (PropsReload), `C82_decode_again_partial` (PropsReload), `C82_decode_again_refuted` (PropsReload), `C82_independent_refuted` (PropsReload) | Refuted: what is loaded depends on the old document (C82_independent_refuted: a GLB decoded into a document that held an external buffer takes the data of that file instead of its own chunk), and with escaped URIs in the old document a second Decode opens another file (C82_decode_again_refuted). Proved: C82_same_failure, C82_repeats and C82_reload for the JSON step without conditions; C82_decode_again_partial for documents whose URIs are empty, plain or embedded; C82_outcome: only old buffers and images matter. The law behind it, f(g(f x)) = f(g x) for all that JSON values do, is proved for every document type (Reload.v, DocReload.v). Simplification: Go also reuses slice elements beyond the length, within the capacity; the model only those within the length. |
| C83 Documents that were opened can be saved again | partial | `C83_values` (PropsLoaded), `C83_lights` (PropsLoaded), `C83_loaded` (PropsLoaded), `C83_empty` (PropsLoaded), `C83_decoded` (PropsLoaded), `C83_saves_iff_partial` (PropsLoaded), `C83_obstacles_partial` (PropsLoaded), `C83_no_lights` (PropsLoaded), `C83_again` (PropsLoaded), `C83_saves_again_refuted` (PropsLoaded) | False as stated: C83_saves_again_refuted gives a file with a light without range, which is read with range +Inf, and one with a camera without projection; both are opened and cannot be encoded. C83_saves_iff_partial says exactly when encoding succeeds, for any packages; otherwise it is an error and never a panic. C83_obstacles_partial: without specular-glossiness those two are the only obstacles; C83_no_lights: cameras only. C83_loaded and C83_decoded: what was read satisfies the hypotheses of C77 and C80; C83_values: so do all values of the packages' Go types. C83_again: the text is read back as C80 says. |
| C84 Getters with defaults return the specification's defaults | proved | `C84_node` (PropsDefaults), `C84_material` (PropsDefaults), `C84_extensions` (PropsDefaults), `C84_cone` (PropsDefaults) | every OrDefault method of gltf.go and of the ext packages; the default is stated as a real number, pi/4 through Machin's formula of Coq's standard library |
| C85 Accessors are read as glTF lays them out | partial | `C85_determined` (PropsAccessor), `C85_read_partial` (PropsAccessor), `C85_plain` (PropsAccessor), `C85_typed` (PropsAccessor), `C85_read_refuted` (PropsAccessor) | proved in full for all formats that end with their last component (all of float and uint, most of short) and for the typed helpers; for the others where the stored layout has the padding the library expects; refuted by tightly packed VEC3 of bytes (wrong values or ErrShortBuffer), a missing last padding, strided UBYTE scalars and BYTE scalars in a longer view |
| C86 What is written means what was given, by the rules of glTF | partial | `C86_written_partial` (PropsAccessor), `C86_typed` (PropsAccessor), `C86_written_refuted` (PropsAccessor) | proved for all typed helpers, for single slices that need no padding or are vertices, and for interleaved data with a stride of at most 252 that is a multiple of four, aligned components and matrices, and no []uint8; refuted by WriteAccessor without target for [][3]uint8, by interleaved data with unaligned rows, and by strides above 252. What stands behind the last []uint8 of several slices is C107, the []uint8 themselves C105 |
| C87 Images are stored whole | proved | `C87_stored` (PropsImage), `C87_read` (PropsImage), `C87_failed` (PropsImage), `C87_panics_iff` (PropsImage), `C87_source` (PropsImage) | io.ReadAll of Go 1.20 is modelled; readers that return 0 bytes without an error forever are not |
| C88 Files carry what accessors and images mean | proved | `C88_encode_decode` (PropsAccessorFile), `C88_save_open` (PropsAccessorFile), `C88_exact` (PropsAccessorFile) | for documents nested at most 10000 deep; images may have any URI; GLB readers deliver whole 4-byte words per call, see C31 |
| C89 Absolute URIs survive loading and saving | partial | `C89_net_url` (PropsUrl), `C89_unchanged_partial` (PropsUrl), `C89_parse_string` (PropsUrl), `C89_encode_decode_partial` (PropsUrl), `C89_save_open_partial` (PropsUrl), `C89_unchanged_refuted` (PropsUrl) | False as stated: C89_unchanged_refuted, every /./ is shortened, also inside a query, and cleaning a second time shortens again. Proved for all other such URIs, for files of images at them, and that the model of sanitizeURI with go_url is the source with url.Parse and String (C89_net_url). Not covered: user information and percent escapes in the host (examples only) |
| C90 Files that conform to the schema do not crash the reader | partial | `C90_ready` (PropsConform), `C90_decode_partial` (PropsConform), `C90_view_partial` (PropsConform), `C90_accessor_partial` (PropsConform), `C90_decode_refuted` (PropsConform), `C90_read_refuted` (PropsConform) | False as stated: C90_decode_refuted, a GLB of a few bytes that declares 2^48 + 1 bytes makes Decode panic (the chunk length is compared modulo 2^32); C90_read_refuted, an accessor that begins behind its view makes ReadAccessor panic. Proved: C90_ready without conditions; C90_decode_partial for declared lengths up to 2^48; C90_view_partial when the end of the view is an int; C90_accessor_partial when the accessor begins within its view, the extents are ints, signed bytes fill their view and sparse indices are below the count |
| C91 Assets made by other programs open with exactly their contents | partial | `C91_open_partial` (PropsAsset), `C91_open_refuted` (PropsAsset) | False as stated: C91_open_refuted, a buffer in a data URI of the media type application/gltf-buffer, which the format names beside application/octet-stream, is taken for a file name, and is without data when there is no file system; a buffer without URI, which the format allows, is an error. Proved otherwise: C91_open_partial, for numbers in the range of float64, undefined members that no defined name matches by letter case, nesting up to 10000 and, with a BIN chunk, reads of multiples of four bytes (C31) |
| C92 What Encode writes is a conforming asset with the document's contents | partial | `C92_written_partial` (PropsAssetWritten), `C92_written_refuted` (PropsAssetWritten) | False as stated: C92_written_refuted, Encode accepts a buffer whose data is shorter than its byteLength, and two buffers whose URIs stand for one file, where the second replaces the first. Proved otherwise: C92_written_partial, for documents with required members set (ready), byteLength equal to the length of non-empty data, URIs that are empty, the data URI of the data, relative references or absolute URIs without dot segments, and different file names |
| C93 Vertex data, indices and images survive the exchange with any other program through a file | partial | `C93_determined` (PropsExchange), `C93_read_partial` (PropsExchange), `C93_written_partial` (PropsExchange), `C93_modeler_partial` (PropsExchange), `C93_read_refuted` (PropsExchange), `C93_written_refuted` (PropsExchange) | False as stated: C93_read_refuted, an asset with tightly packed VEC3 of bytes is read with other values, and C93_written_refuted, WriteAccessor without a target pads such elements and gives no stride, so that the asset it makes has other elements than the data given. Proved otherwise: C93_determined without conditions; C93_read_partial, for assets with numbers in the range of float64 and buffers located as C91 describes, and accessors whose layout the library reads (C85); C93_written_partial and C93_modeler_partial, for documents as in C92 and data that the library writes with the layout of glTF (C86) |
| C94 What Decode does with the buffers is settled by their lengths, URIs and contents | proved | `C94_outcome` (PropsLoad), `C94_unread` (PropsLoad) | C94_outcome for all readers that end with io.EOF, both directions; C94_unread for the rest. The base64 text that is accepted is that of Buffer.marshalData (C24); bytes after the JSON are those the JSON decoder left in the reader (C64 says which) |
| C95 What reading an accessor gives is settled by the document alone, and so are its crashes | proved | `C95_outcome` (PropsFetch), `C95_helpers` (PropsFetch) | C95_outcome (both directions, for panics and for results with their elements) and C95_helpers, under [modest]: counts below 2^31, strides within 31 bits, view offsets and lengths within 62 bits; beyond that int overflows are covered by C17_panics_iff and the refutations of C16 |
| C96 Exactly when Encode succeeds, fails and crashes, and which files it makes | proved | `C96_outcome` (PropsStore), `C96_panics_iff` (PropsStore), `C96_files_determined` (PropsStore) | C96_outcome gives the three outcomes with exclusive conditions and the files made in each; C96_panics_iff and C96_files_determined are consequences. That failures of the other writes of a GLB go unnoticed is C33_errors_refuted. |
| C97 Exactly what binary.Read and binary.Write do for any stride | proved | `C97_write` (PropsPut), `C97_read` (PropsPut), `C97_unsupported` (PropsPut) | C97_write, C97_read and C97_unsupported give exclusive conditions for the outcomes and the bytes or elements after a success. Strides are within 32 bits, counts below 2^31 and buffers below 2^62 bytes, so that Go's int does not overflow. Bytes stored before a panic are not modelled. |
| C98 Exactly when the modeler writers crash, fail and succeed | proved | `C98_panics_iff` (PropsAppend), `C98_errors_iff` (PropsAppend), `C98_succeeds_iff` (PropsAppend) | C98_panics_iff covers all fifteen write calls; C98_errors_iff and C98_succeeds_iff the three that return an error. The only hypothesis is that elements have the components their Go type says. The memory limit is 2^48 bytes, sizes are computed without wrap-around. |
| C99 Exactly what each write call adds to the document | proved | `C99_added` (PropsAdded), `C99_names` (PropsAdded), `C99_elsewhere` (PropsAdded), `C99_new` (PropsAdded) | C99_added covers all fifteen write calls and gives the whole document after the call; the bytes themselves are those of C03, C08 and C11. Which calls are accepted is C98. C99_names holds for repeated attribute names as well, which C14 leaves out. C99_elsewhere covers failing calls and sequences, C99_new starts them at NewDocument. |
| C100 Exactly when what the writers add obeys the rules of glTF | proved | `C100_rules` (PropsRules), `C100_ready` (PropsRules), `C100_unready` (PropsRules) | C100_rules is an equivalence for each successful call; which calls succeed is C98. C100_ready covers sequences and needs declared lengths below 2^63. The library does not check any of this: interleaving a []uint8 with vectors, or writing no data, succeeds and gives a document that breaks the rules (see Findings). |
| C101 Documents built by the rules save as assets that carry the data | partial | `C101_runs` (PropsBuilt), `C101_built` (PropsBuilt), `C101_data_partial` (PropsBuilt), `C101_data_refuted` (PropsBuilt), `C101_behind` (PropsBuiltBehind), `C101_bytes` (PropsBuiltBytes), `C101_every_byte` (PropsBuiltBytesAll), `C101_read_partial` (PropsBuiltRead), `C101_single` (PropsBuiltSingle) | C101_runs and C101_built need no more than the calls being proper; C101_data_partial, that the data is found, holds for calls that are faithful. Without that it is false: C101_data_refuted, WriteAccessor of [][3]uint8 without a target, and four interleaved []uint8, follow all rules and yet the file has other elements. C101_single says for every call of WriteAccessor, faithful or not, what each reading finds (the criterion of C103), and C101_bytes and C101_every_byte what it finds of each interleaved []uint8 (C105); what stands behind the last of them is found as given (C101_behind). C101_read_partial, the library's own reading after Decode, needs only that of several slices none is a []uint8 or []int8 (C12_interleaved_read_refuted otherwise), and GLB files read in pieces of multiples of four bytes (C30). Encode is run with the model of url.Parse of C89; file names and failing writers are C31 and C58. |
| C102 Completing a built document by hand does not disturb its data | partial | `C102_data_partial` (PropsComplete), `C102_rest` (PropsComplete), `C102_read_partial` (PropsComplete) | As for C101, the data is found for calls that are faithful (C102_data_partial), and read by the library for calls that do not write a []uint8 or []int8 with other slices (C102_read_partial); C101_data_refuted and C12_interleaved_read_refuted show that without that it is false. The rest is any well-formed document with the members that the schemas require, its buffers unused; further buffers with their own files are C93. |
| C103 Which single slices WriteAccessor stores as glTF says, exactly | proved | `C103_stored` (PropsSingle), `C103_exact` (PropsSingle) | exact criterion for WriteAccessor: conforms always, keeps the data iff the elements need no padding, are vertices, or there is one of them; otherwise the second element of the file starts with 0 |
| C104 Which interleaved bytes are read back | proved | `C104_one_row` (PropsOneRow), `C104_int8` (PropsRows), `C104_uint8` (PropsRows) | the cases that C12_interleaved_read_partial leaves out, for all data: []int8 panics when read (exact condition), []uint8 and its neighbour overwrite one another; rows of one element are read back (C104_one_row) |
| C105 What the file has of interleaved unsigned bytes | proved | `C105_elements` (PropsBytes), `C105_second` (PropsBytes), `C105_lost` (PropsBytes), `C105_exact` (PropsBytes), `C105_every` (PropsBytesAll), `C105_conforms` (PropsBytesFile), `C105_has` (PropsBytesFile), `C105_kept` (PropsBytesFile) | every element found in the file (C105_elements, C105_second), the condition under which those given are lost (C105_lost), and in closed form that only slices with zeros behind the first element survive (C105_exact); these are of the last []uint8 of a row. C105_every gives the elements of each of them, the last or not: the first is kept and the others come from the last []uint8 or are 0. C105_conforms: with rows of an allowed stride every interleaved []uint8 has conforming elements; C105_has and C105_kept then say which, without that premise |
| C106 Linear colours keep the order of the channel values | proved | `C106_order` (PropsOrder), `C106_injective` (PropsOrder), `C106_merged` (PropsOrder) | C106_order (both directions, per channel), C106_injective; C106_merged: what is lost in the round trip of C60 is lost by NormalizeRGB |
| C107 What stands behind the last unsigned byte of a row is stored as given | proved | `C107_ahead` (PropsAhead), `C107_ahead_read` (PropsAheadRead), `C107_behind` (PropsBehind), `C107_front` (PropsBehind), `C107_read` (PropsBehindRead) | C107_behind for each slice behind the last []uint8, C107_front for rows with one []uint8 in front; it extends C86_written_partial, which allows no []uint8 among several slices; C107_read: the library reads them back too, except []int8. C107_ahead: anywhere in a row, slices that are not []uint8 have conforming accessors and keep their first element and those beyond the reach of any []uint8 (C107_ahead_read: as the library reads them) |

### Print Assumptions

Closed under the global context (no axioms): 346 theorems, all those not named below.

Axioms `ClassicalDedekindReals.sig_forall_dec`, `ClassicalDedekindReals.sig_not_dec`, `Classical_Prop.classic`, `FunctionalExtensionality.functional_extensionality_dep`: `C22_normalized`, `C51_unsigned`, `C51_signed`, `C52_nearest`, `C52_in_range`, `C53_alpha`, `C60_eight_bit`, `C60_eight_bit_exact`, `C60_sixteen_bit_refuted`, `C60_dark_partial`, `C60_rgb64_refuted`, `C60_white_refuted`, `C60_within_one_partial`, `C61_unsigned`, `C61_signed`, `C72_linear`, `C72_encoded`, `C73_go_conversions`, `C84_node`, `C84_material`, `C84_extensions`, `C84_cone`, `C106_order`, `C106_injective`, `C106_merged`.

<!-- end -->

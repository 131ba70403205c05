{
 "C01": [
  "proved",
  "put/get of every element type against the column-major layout formula; frame included"
 ],
 "C02": [
  "partial",
  "holds for all kinds and strides except []uint8 with stride > 1, which is copied packed (refuted with a witness)"
 ],
 "C03": [
  "partial",
  "round trip for all kinds except []int8 into a longer buffer (Read panics) and []uint8 with stride > 1; both refuted with witnesses"
 ],
 "C04": [
  "partial",
  "strided reads proved; []uint8 with stride > 1 is read packed and []int8 panics (refuted)"
 ],
 "C05": [
  "partial",
  "no panic when the byte extent fits an int and the data is not []int8; int8 panic characterised exactly; overflow witness"
 ],
 "C06": [
  "partial",
  "all valid pairs except MakeSliceBuffer for Uint/Mat3, which always panics on a non-empty buffer (refuted)"
 ],
 "C07": [
  "proved",
  "zeroed memory / reinterpretation of the reuse buffer; for the pairs where MakeSliceBuffer returns"
 ],
 "C54": [
  "proved",
  "size equals the aligned layout extent; zero for unknown types; components never overlap"
 ],
 "C08": [
  "partial",
  "all supported types and reuse buffers except [3][3]uint32 with a non-empty reuse buffer, where the read panics (refuted); success of the write is part of the theorem"
 ],
 "C09": [
  "proved",
  "any sequence of the 15 write calls"
 ],
 "C10": [
  "proved",
  "any sequence of write calls from a consistent document, including failing calls"
 ],
 "C11": [
  "partial",
  "disjointness for all calls; alignment for calls that pad; WriteImage/WriteBufferView misalign and interleaved small elements give misaligned accessor offsets (refuted)"
 ],
 "C12": [
  "partial",
  "all types except []uint8/[]int8 when two or more slices are interleaved (refuted)"
 ],
 "C13": [
  "partial",
  "error exactly for different lengths; WriteBufferViewInterleaved leaves the document alone, the other two may leave padding or a new buffer (refuted); two empty slices panic"
 ],
 "C14": [
  "partial",
  "map, data and flag exact for distinct names; TEXCOORD_2+, COLOR_1+ integer data is not flagged (refuted)"
 ],
 "C15": [
  "proved",
  "bounds and attainment per component, widening to float64 preserves order"
 ],
 "C16": [
  "partial",
  "no panic when nil entries, negative or overflowing fields, out-of-range sparse indices, []int8 views longer than the accessor and impossible counts are excluded; every excluded case refuted with a witness; out-of-range references and short data proved to give errors"
 ],
 "C17": [
  "partial",
  "exact result for non-negative fields; a success is always the exact range; negative, overflowing and nil cases panic (refuted), and C17_panics_iff says for every document that fits in memory exactly which do"
 ],
 "C18": [
  "partial",
  "overlay proved for all formats, index types and strides the reader honours, with zero base only for an empty reuse buffer (refuted otherwise)"
 ],
 "C19": [
  "partial",
  "equal results for any two buffers when there is a buffer view; refuted for accessors without one, for Uint/Mat3 and for negative strides"
 ],
 "C20": [
  "partial",
  "all helpers independent of all pool contents when the accessor has a buffer view; refuted without one"
 ],
 "C21": [
  "partial",
  "ReadAccessor always returns Count elements; helpers do unless Count is 0 and a non-empty buffer is passed (refuted)"
 ],
 "C22": [
  "partial",
  "indices, joints, floats, normalized integers, 8-bit and 16-bit colors exact; ReadColor truncates 16-bit channels (refuted)"
 ],
 "C23": [
  "proved",
  "exact format table for every helper, all documents"
 ],
 "C24": [
  "proved",
  "base64 of any byte string against the RFC 4648 bit-level specification; marshalData of the embedded URI gives the bytes back; no panic for any URI"
 ],
 "C25": [
  "proved",
  "PNG and JPEG data URIs decode to their bytes; every other URI gives empty data; no panic for any URI"
 ],
 "C39": [
  "proved",
  "the JSON forms of all valid values and, every JSON value decodes to a valid value or an error; Target is a plain integer"
 ],
 "C40": [
  "partial",
  "all types; re-encoding an Asset with an empty version changes member order (refuted as byte equality, proved as equality of values)"
 ],
 "C41": [
  "partial",
  "whole document, from the tree to the text and back, for well-formed documents whose extras/extensions nest less than the decoder's depth limit; cameras without projection and nil buffers do not encode (refuted)"
 ],
 "C42": [
  "partial",
  "one round trip gives the normal form, later round trips change nothing; the first one may change the document (refuted: explicit null)"
 ],
 "C43": [
  "partial",
  "for JSON without null; explicit null leaves nil (refuted)"
 ],
 "C44": [
  "proved",
  "for extension objects at any place and for whole document texts; duplicate keys: the last one wins"
 ],
 "C46": [
  "partial",
  "valid UTF-8 strings; invalid bytes are replaced (refuted), and the result is characterised for all strings"
 ],
 "C55": [
  "proved",
  "Every document a Go program can hold (go_Document excludes none: names need not be UTF-8, enums may be unknown, floats NaN), JSON text and whole files: the same failure, or outputs that Decode reads as the same document or the same error, whatever the files around it. Binary files: sizes that fit 32 bits, and a reader that hands out multiples of four bytes (otherwise Decode loses chunk alignment, C31). C55_text_read and C55_files: in the C41 domain both succeed."
 ],
 "C26": [
  "proved",
  "every name passed to the file system is local or parses with a scheme; all inputs, all url parsers"
 ],
 "C27": [
  "partial",
  "an escaped URI such as %2e%2e/x is validated before it is unescaped and created as ../x (refuted); proved for URIs whose cleaned form is itself valid"
 ],
 "C28": [
  "partial",
  "a URI that sanitizeURI refuses, such as 100%.bin, is silently not written (refuted); names and contents agree for plain names, and for escaped ones whose cleaned form passes the same checks"
 ],
 "C29": [
  "proved",
  "exact container layout for all documents; C29_length_needed shows that the hypothesis len(Data) = ByteLength cannot be dropped"
 ],
 "C30": [
  "partial",
  "all documents with plain buffer names, delivered in multiples of four bytes, or with JSON that needs no padding; refuted otherwise because the padding is left unread, but then the result is an error and never another document (C30_any_pieces_partial)"
 ],
 "C31": [
  "partial",
  "proved for text and for GLB files delivered in multiples of four bytes or without padding; refuted for padded GLB files; with up to three bytes of padding any two readers agree or one gets an error before a file is opened (C31_never_wrong_partial), with four a wrong document is possible (C31_wrong_document_refuted)"
 ],
 "C32": [
  "partial",
  "all documents with plain buffer names, embedded buffers or none, any fragmentation; refuted for empty buffers, which Decode refuses"
 ],
 "C33": [
  "partial",
  "text mode: success means the whole text and every file was accepted; binary mode: success means the header and, when there is a BIN chunk, its padding write and every other file were accepted (C33_binary_partial), the write errors of the JSON text, padding and chunk are dropped (refuted)"
 ],
 "C34": [
  "partial",
  "null buffers, null images or a negative byteLength panic (refuted); every panic comes from one of these or a length over 2^48, for every stream, fragmentation and file system"
 ],
 "C35": [
  "partial",
  "exact for the binary chunk; external data is cut or short, embedded data is not checked (refuted); each case characterised"
 ],
 "C36": [
  "partial",
  "the sum is computed in uint32 and wraps for the 20 largest lengths (refuted); exact for all others, and Decode refuses those streams"
 ],
 "C37": [
  "partial",
  "os.Create truncates first, so a failed Save destroys the file (refuted); nothing changes when creation fails, and files outside the directory never change"
 ],
 "C38": [
  "proved",
  "text outputs are read as JSON, binary outputs as GLB, for every document that encodes"
 ],
 "C58": [
  "partial",
  "documents with plain distinct buffer names different from the file itself; refuted for names such as a/../b.bin, which io/fs refuses"
 ],
 "C57": [
  "proved",
  "every view any writer appends carries the target of its role, at most one view per call, all new accessors use it; a stride only on vertex data"
 ],
 "C59": [
  "proved",
  "each typed writer against its typed reader after any later writes, for all buffers and pools; integer texture coordinates and weights through the denormalization; 16-bit colors through ReadColor64 (ReadColor truncates them, see C22)"
 ],
 "C56": [
  "proved",
  "All ten enumerations, every value of the underlying 8 or 16 bit integer."
 ],
 "C51": [
  "proved",
  "all 8 and 16 bit values, IEEE arithmetic (Flocq)"
 ],
 "C52": [
  "proved",
  "every finite float32, in or out of range"
 ],
 "C53": [
  "proved",
  "every alpha value; math.Pow arbitrary"
 ],
 "C60": [
  "partial",
  "False as stated: 8-bit white becomes 254 for every math.Pow accurate to 2^-40, and 16-bit 53 becomes 52 (refuted). Every 8-bit and 16-bit channel comes back as itself or as the value below (C60_within_one_partial). For 8-bit channels the result is exact: C60_eight_bit and C60_eight_bit_exact name the 37 values that come back one lower, all others are unchanged; channels up to 10 whatever Pow does. For 16-bit channels no such list exists: 8400 comes back with one accurate Pow and not with another (C60_sixteen_bit_refuted)"
 ],
 "C61": [
  "proved",
  "every 8 and 16 bit value"
 ],
 "C47": [
  "partial",
  "False as stated: C47_refuted shows an extras string changed silently and an extras member turning the output into invalid JSON. C47_partial proves the round trip when no texture text contains one of the six edited patterns; C47_bare_textures discharges that for textures without extras and extensions."
 ],
 "C48": [
  "proved",
  "For every number format agreeing with strconv on 0, -0 and 1 and round-tripping finite floats. An all-zero scale comes back as the default, rotation -0 as 0."
 ],
 "C49": [
  "partial",
  "False as stated: C49_refuted shows that no light list or reference survives and that a light without range cannot be encoded again. C49_partial: single lights with finite range round trip, and the output put back under its member name restores the lights and the reference."
 ],
 "C50": [
  "proved",
  "Values compared after decoding (raw bytes may gain HTML escapes once); the text is stable from then on."
 ],
 "C45": [
  "proved",
  "Every interleaving of lock, two-phase map write, lookup and unlock steps by any number of goroutines; also race freedom and no deadlock. sync.RWMutex is its specification."
 ],
 "C62": [
  "proved",
  "every wf document meeting the schema's value constraints is written as schema-conforming JSON (schema tables written out in SpecSchema.v)"
 ],
 "C63": [
  "partial",
  "refuted: encoding/json matches member names without regard to letter case, so an undefined member such as Scene: \"main\" makes a conforming file fail; proved for undefined members whose names do not match a defined one up to case folding. Numbers inside extras must be in float64's range and -0 is not counted as an integer literal"
 ],
 "C64": [
  "proved",
  "for every reader; C64_place gives the exact position under alignment"
 ],
 "C65": [
  "proved",
  "independent inductive meaning of literals in SpecString.v"
 ],
 "C66": [
  "proved",
  "independent inductive meaning of percent-encoding in SpecString.v; references without scheme, query, fragment, leading slash and dot segments"
 ],
 "C67": [
  "proved",
  "relation m_gltf in SpecMeaning.v, written from the glTF 2.0 specification, independent of the codecs; C67_read for Decode, C67_unique, C67_written, C67_camera_type"
 ],
 "C68": [
  "partial",
  "C68_reads_partial, C68_written_partial, C68_typed: after any calls on a storable document whose last buffer has no data URI, with finite positions and some data; C68_sessions_partial for any number of GLB sessions. Refuted without these hypotheses: data appended to a loaded embedded buffer is lost (C68_reads_refuted), NaN positions cannot be saved, a document without data cannot be loaded. Missing: GLB readers with pieces not a multiple of four (see C30)."
 ],
 "C69": [
  "partial",
  "C69_read_partial: literals shorter than 9000 bytes are read as the nearest float64 (ties to even, error on overflow); C69_write and C69_shortest: every finite float64 is written as a JSON number that reads back, with the fewest digits and the closest of those; C69_contracts: the assumptions of the other properties about numbers hold. Refuted for longer literals (C69_read_refuted: strconv cuts the exponent). Model of strconv's documented results, not of its fast paths."
 ],
 "C71": [
  "partial",
  "relations m_transform, m_light_list, m_light_ref, m_specular, m_unlit in SpecExtMeaning.v, written from the Khronos extension specifications; reading, uniqueness and writing. Refuted: a member named light beside lights makes Unmarshal drop the list (C71_lights_refuted). Writing of specular-glossiness only for textures whose text the encoder does not damage (see C47); lights only one by one, as the list is written without its envelope (see C49)."
 ],
 "C70": [
  "partial",
  "False with lightspunctual or specular imported: C70_unsavable_refuted gives two valid documents that are decoded and cannot be encoded, C70_endless_light shows it for every document with a light without range, C70_lights_lost that lights come back as raw JSON. With texturetransform and unlit: C70_registry discharges the registry hypotheses of the other properties, C70_stable_partial and C70_save_open_partial are about documents, with go_floats and no hypothesis on registry or numbers. Specular-glossiness values only when clean (see C47). C70_depth: the unfolding of nested registries is exact for all JSON."
 ],
 "C72": [
  "proved",
  "srgb_decode and srgb_encode in SpecSrgb.v are the formulas of IEC 61966-2-1 over the reals; the theorems bound the error of the float32/float64 code against them, with the branch thresholds as rounded in the source"
 ],
 "C73": [
  "proved",
  "Every interleaving of the loads, stores, allocations and pool operations of all reading functions over a heap of arrays (Memory.v); the functions on values of C16-C22 are shown to be what these programs compute. Ownership is by whole arrays: buffers of different callers are in different arrays. A load or store of one element is one step. C73_go_conversions: math.go meets the hypothesis on the conversions, for every math.Pow."
 ],
 "C74": [
  "partial",
  "False for accessors without buffer view: C74_as_if_alone_refuted is an execution in which such a read returns the positions that another goroutine left in the pooled buffer. C74_as_if_alone_partial: true for accessors with a buffer view (`reusable`), and a count other than 0 for the typed readers (C21)."
 ],
 "C75": [
  "proved",
  "WriteMemory.v transcribes every writer to a heap of arrays, with append in place or into a new array of any extra capacity, and with elements loaded and stored one after the other; C75_writes: its outcome is that of the functions on values (C08-C15, C57) and all bytes outside of the last capacity are kept; C75_views_kept and C75_other_documents are consequences. C75_example_shared: the condition on the capacity is needed. One goroutine."
 ],
 "C76": [
  "partial",
  "False: C76_append_overwrites, an append to a view that is not at the end of its buffer overwrites the data behind the view, because the view is handed out with all the capacity behind it (buf[low:high] and not buf[low:high:high]); the documentation only says that the slice must not be modified. C76_append_keeps_document_refuted is a document in which it destroys another view. C76_append_keeps_document_partial: true if the append needs a new array, or if no buffer lies in the capacity of the view."
 ],
 "C77": [
  "proved",
  "Every Go document. Encoding panics exactly when a buffer is nil, fails exactly when a float is not finite, a camera has no projection or the encoder of an extension fails, and otherwise writes one well-formed JSON value. encoding/json reads it unless it nests deeper than 10000. The extension library is a parameter; its encoders must return JSON or an error."
 ],
 "C78": [
  "partial",
  "Refuted: the byteLength is compared with the length of the chunk as a uint32, so a file of 84 bytes makes Decode ask for 2^40 bytes. C78_requests_partial: what is asked for in every run; C78_declared_partial: with byteLength below 2^32, at most what the file declares (the declaration is not checked against the file); C78_success_partial: a Decode that succeeds asked for no more than the input has, plus the texts of embedded buffers. DecodeAlloc.v repeats Decode with the sizes passed to make and is shown to compute Decode. Not counted: encoding/json, fs.ReadFile."
 ],
 "C79": [
  "partial",
  "C79_by_counts: every execution of any number of concurrent calls. Refuted: a document without data makes ReadAccessor ask for any amount, by an accessor whose view does not exist or that has none. C79_proportional_partial: calls that succeed, on accessors with buffer views, with strides up to 252 and counts below 2^48. Memory model of C73; spare capacity that append adds is not counted (lengths are)."
 ],
 "C80": [
  "proved",
  "Generalises C41 from representable documents to all. C80_repair: there is one way to repair strings. registry_total holds of the registries of all packages of the repository (C70). C80_well_formed: representable documents are Go documents that can be saved, and for them it says what C41 says. Examples: a document in which every kind of change happens, and one that is refused."
 ],
 "C81": [
  "proved",
  "Generalises C30, C32 and C58 from representable documents to all whose buffers and images have plain URIs. C81_contents: what back keeps; C81_well_formed: for representable documents it is restored, the specification of C30. Example: a document that is not representable, with three buffers, saved and opened."
 ],
 "C82": [
  "partial",
  "Refuted: what is loaded depends on the old document (C82_independent_refuted: a GLB decoded into a document that held an external buffer takes the data of that file instead of its own chunk), and with escaped URIs in the old document a second Decode opens another file (C82_decode_again_refuted). Proved: C82_same_failure, C82_repeats and C82_reload for the JSON step without conditions; C82_decode_again_partial for documents whose URIs are empty, plain or embedded; C82_outcome: only old buffers and images matter. The law behind it, f(g(f x)) = f(g x) for all that JSON values do, is proved for every document type (Reload.v, DocReload.v). Simplification: Go also reuses slice elements beyond the length, within the capacity; the model only those within the length."
 ],
 "C83": [
  "partial",
  "False as stated: C83_saves_again_refuted gives a file with a light without range, which is read with range +Inf, and one with a camera without projection; both are opened and cannot be encoded. C83_saves_iff_partial says exactly when encoding succeeds, for any packages; otherwise it is an error and never a panic. C83_obstacles_partial: without specular-glossiness those two are the only obstacles; C83_no_lights: cameras only. C83_loaded and C83_decoded: what was read satisfies the hypotheses of C77 and C80; C83_values: so do all values of the packages' Go types. C83_again: the text is read back as C80 says."
 ],
 "C84": [
  "proved",
  "every OrDefault method of gltf.go and of the ext packages; the default is stated as a real number, pi/4 through Machin's formula of Coq's standard library"
 ],
 "C85": [
  "partial",
  "proved in full for all formats that end with their last component (all of float and uint, most of short) and for the typed helpers; for the others where the stored layout has the padding the library expects; refuted by tightly packed VEC3 of bytes (wrong values or ErrShortBuffer), a missing last padding, strided UBYTE scalars and BYTE scalars in a longer view"
 ],
 "C86": [
  "partial",
  "proved for all typed helpers, for single slices that need no padding or are vertices, and for interleaved data with a stride of at most 252 that is a multiple of four, aligned components and matrices, and no []uint8; refuted by WriteAccessor without target for [][3]uint8, by interleaved data with unaligned rows, and by strides above 252. What stands behind the last []uint8 of several slices is C107, the []uint8 themselves C105"
 ],
 "C87": [
  "proved",
  "io.ReadAll of Go 1.20 is modelled; readers that return 0 bytes without an error forever are not"
 ],
 "C88": [
  "proved",
  "for documents nested at most 10000 deep; images may have any URI; GLB readers deliver whole 4-byte words per call, see C31"
 ],
 "C89": [
  "partial",
  "False as stated: C89_unchanged_refuted, every /./ is shortened, also inside a query, and cleaning a second time shortens again. Proved for all other such URIs, for files of images at them, and that the model of sanitizeURI with go_url is the source with url.Parse and String (C89_net_url). Not covered: user information and percent escapes in the host (examples only)"
 ],
 "C90": [
  "partial",
  "False as stated: C90_decode_refuted, a GLB of a few bytes that declares 2^48 + 1 bytes makes Decode panic (the chunk length is compared modulo 2^32); C90_read_refuted, an accessor that begins behind its view makes ReadAccessor panic. Proved: C90_ready without conditions; C90_decode_partial for declared lengths up to 2^48; C90_view_partial when the end of the view is an int; C90_accessor_partial when the accessor begins within its view, the extents are ints, signed bytes fill their view and sparse indices are below the count"
 ],
 "C91": [
  "partial",
  "False as stated: C91_open_refuted, a buffer in a data URI of the media type application/gltf-buffer, which the format names beside application/octet-stream, is taken for a file name, and is without data when there is no file system; a buffer without URI, which the format allows, is an error. Proved otherwise: C91_open_partial, for numbers in the range of float64, undefined members that no defined name matches by letter case, nesting up to 10000 and, with a BIN chunk, reads of multiples of four bytes (C31)"
 ],
 "C92": [
  "partial",
  "False as stated: C92_written_refuted, Encode accepts a buffer whose data is shorter than its byteLength, and two buffers whose URIs stand for one file, where the second replaces the first. Proved otherwise: C92_written_partial, for documents with required members set (ready), byteLength equal to the length of non-empty data, URIs that are empty, the data URI of the data, relative references or absolute URIs without dot segments, and different file names"
 ],
 "C93": [
  "partial",
  "False as stated: C93_read_refuted, an asset with tightly packed VEC3 of bytes is read with other values, and C93_written_refuted, WriteAccessor without a target pads such elements and gives no stride, so that the asset it makes has other elements than the data given. Proved otherwise: C93_determined without conditions; C93_read_partial, for assets with numbers in the range of float64 and buffers located as C91 describes, and accessors whose layout the library reads (C85); C93_written_partial and C93_modeler_partial, for documents as in C92 and data that the library writes with the layout of glTF (C86)"
 ],
 "C94": [
  "proved",
  "C94_outcome for all readers that end with io.EOF, both directions; C94_unread for the rest. The base64 text that is accepted is that of Buffer.marshalData (C24); bytes after the JSON are those the JSON decoder left in the reader (C64 says which)"
 ],
 "C95": [
  "proved",
  "C95_outcome (both directions, for panics and for results with their elements) and C95_helpers, under [modest]: counts below 2^31, strides within 31 bits, view offsets and lengths within 62 bits; beyond that int overflows are covered by C17_panics_iff and the refutations of C16"
 ],
 "C96": [
  "proved",
  "C96_outcome gives the three outcomes with exclusive conditions and the files made in each; C96_panics_iff and C96_files_determined are consequences. That failures of the other writes of a GLB go unnoticed is C33_errors_refuted."
 ],
 "C97": [
  "proved",
  "C97_write, C97_read and C97_unsupported give exclusive conditions for the outcomes and the bytes or elements after a success. Strides are within 32 bits, counts below 2^31 and buffers below 2^62 bytes, so that Go's int does not overflow. Bytes stored before a panic are not modelled."
 ],
 "C98": [
  "proved",
  "C98_panics_iff covers all fifteen write calls; C98_errors_iff and C98_succeeds_iff the three that return an error. The only hypothesis is that elements have the components their Go type says. The memory limit is 2^48 bytes, sizes are computed without wrap-around."
 ],
 "C99": [
  "proved",
  "C99_added covers all fifteen write calls and gives the whole document after the call; the bytes themselves are those of C03, C08 and C11. Which calls are accepted is C98. C99_names holds for repeated attribute names as well, which C14 leaves out. C99_elsewhere covers failing calls and sequences, C99_new starts them at NewDocument."
 ],
 "C100": [
  "proved",
  "C100_rules is an equivalence for each successful call; which calls succeed is C98. C100_ready covers sequences and needs declared lengths below 2^63. The library does not check any of this: interleaving a []uint8 with vectors, or writing no data, succeeds and gives a document that breaks the rules (see Findings)."
 ],
 "C101": [
  "partial",
  "C101_runs and C101_built need no more than the calls being proper; C101_data_partial, that the data is found, holds for calls that are faithful. Without that it is false: C101_data_refuted, WriteAccessor of [][3]uint8 without a target, and four interleaved []uint8, follow all rules and yet the file has other elements. C101_single says for every call of WriteAccessor, faithful or not, what each reading finds (the criterion of C103), and C101_bytes and C101_every_byte what it finds of each interleaved []uint8 (C105); what stands behind the last of them is found as given (C101_behind). C101_read_partial, the library's own reading after Decode, needs only that of several slices none is a []uint8 or []int8 (C12_interleaved_read_refuted otherwise), and GLB files read in pieces of multiples of four bytes (C30). Encode is run with the model of url.Parse of C89; file names and failing writers are C31 and C58."
 ],
 "C102": [
  "partial",
  "As for C101, the data is found for calls that are faithful (C102_data_partial), and read by the library for calls that do not write a []uint8 or []int8 with other slices (C102_read_partial); C101_data_refuted and C12_interleaved_read_refuted show that without that it is false. The rest is any well-formed document with the members that the schemas require, its buffers unused; further buffers with their own files are C93."
 ],
 "C103": [
  "proved",
  "exact criterion for WriteAccessor: conforms always, keeps the data iff the elements need no padding, are vertices, or there is one of them; otherwise the second element of the file starts with 0"
 ],
 "C104": [
  "proved",
  "the cases that C12_interleaved_read_partial leaves out, for all data: []int8 panics when read (exact condition), []uint8 and its neighbour overwrite one another; rows of one element are read back (C104_one_row)"
 ],
 "C105": [
  "proved",
  "every element found in the file (C105_elements, C105_second), the condition under which those given are lost (C105_lost), and in closed form that only slices with zeros behind the first element survive (C105_exact); these are of the last []uint8 of a row. C105_every gives the elements of each of them, the last or not: the first is kept and the others come from the last []uint8 or are 0. C105_conforms: with rows of an allowed stride every interleaved []uint8 has conforming elements; C105_has and C105_kept then say which, without that premise"
 ],
 "C106": [
  "proved",
  "C106_order (both directions, per channel), C106_injective; C106_merged: what is lost in the round trip of C60 is lost by NormalizeRGB"
 ],
 "C107": [
  "proved",
  "C107_behind for each slice behind the last []uint8, C107_front for rows with one []uint8 in front; it extends C86_written_partial, which allows no []uint8 among several slices; C107_read: the library reads them back too, except []int8. C107_ahead: anywhere in a row, slices that are not []uint8 have conforming accessors and keep their first element and those beyond the reach of any []uint8 (C107_ahead_read: as the library reads them)"
 ]
}
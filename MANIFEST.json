{
 "claims": [
  {
   "property": "C01",
   "status": "proved",
   "theorems": [
    "C01_component_layout",
    "C01_column_alignment"
   ],
   "note": "put/get of every element type against the column-major layout formula; frame included"
  },
  {
   "property": "C02",
   "status": "partial",
   "theorems": [
    "C02_write_partial",
    "C02_write_short",
    "C02_write_uint8_refuted"
   ],
   "note": "holds for all kinds and strides except []uint8 with stride > 1, which is copied packed (refuted with a witness)"
  },
  {
   "property": "C03",
   "status": "partial",
   "theorems": [
    "C03_read_write_partial",
    "C03_int8_exact_partial",
    "C03_read_write_refuted"
   ],
   "note": "round trip for all kinds except []int8 into a longer buffer (Read panics) and []uint8 with stride > 1; both refuted with witnesses"
  },
  {
   "property": "C04",
   "status": "partial",
   "theorems": [
    "C04_read_strided_partial",
    "C04_read_short",
    "C04_read_refuted"
   ],
   "note": "strided reads proved; []uint8 with stride > 1 is read packed and []int8 panics (refuted)"
  },
  {
   "property": "C05",
   "status": "partial",
   "theorems": [
    "C05_read_no_panic_partial",
    "C05_write_no_panic_partial",
    "C05_read_int8_panics",
    "C05_no_panic_refuted"
   ],
   "note": "no panic when the byte extent fits an int and the data is not []int8; int8 panic characterised exactly; overflow witness"
  },
  {
   "property": "C06",
   "status": "partial",
   "theorems": [
    "C06_make_slice_type_partial",
    "C06_invalid_types_error",
    "C06_uint_mat3_refuted"
   ],
   "note": "all valid pairs except MakeSliceBuffer for Uint/Mat3, which always panics on a non-empty buffer (refuted)"
  },
  {
   "property": "C07",
   "status": "proved",
   "theorems": [
    "C07_make_slice_zero",
    "C07_make_slice_buffer"
   ],
   "note": "zeroed memory / reinterpretation of the reuse buffer; for the pairs where MakeSliceBuffer returns"
  },
  {
   "property": "C08",
   "status": "partial",
   "theorems": [
    "C08_write_read_partial",
    "C08_write_read_refuted"
   ],
   "note": "all supported types and reuse buffers except [3][3]uint32 with a non-empty reuse buffer, where the read panics (refuted); success of the write is part of the theorem"
  },
  {
   "property": "C09",
   "status": "proved",
   "theorems": [
    "C09_append_only",
    "C09_reads_stable",
    "C09_write_later_read"
   ],
   "note": "any sequence of the 15 write calls"
  },
  {
   "property": "C10",
   "status": "proved",
   "theorems": [
    "C10_consistent"
   ],
   "note": "any sequence of write calls from a consistent document, including failing calls"
  },
  {
   "property": "C11",
   "status": "partial",
   "theorems": [
    "C11_views_disjoint",
    "C11_views_aligned_partial",
    "C11_views_aligned_refuted",
    "C11_accessor_offset_single",
    "C11_accessor_offset_partial",
    "C11_accessor_offset_refuted"
   ],
   "note": "disjointness for all calls; alignment for calls that pad; WriteImage/WriteBufferView misalign and interleaved small elements give misaligned accessor offsets (refuted)"
  },
  {
   "property": "C12",
   "status": "partial",
   "theorems": [
    "C12_interleaved_read_partial",
    "C12_interleaved_succeeds",
    "C12_interleaved_read_refuted"
   ],
   "note": "all types except []uint8/[]int8 when two or more slices are interleaved (refuted)"
  },
  {
   "property": "C13",
   "status": "partial",
   "theorems": [
    "C13_view_error",
    "C13_accessors_error_partial",
    "C13_attributes_error_partial",
    "C13_unchanged_refuted",
    "C13_empty_refuted"
   ],
   "note": "error exactly for different lengths; WriteBufferViewInterleaved leaves the document alone, the other two may leave padding or a new buffer (refuted); two empty slices panic"
  },
  {
   "property": "C14",
   "status": "partial",
   "theorems": [
    "C14_attributes_partial",
    "C14_attributes_succeeds",
    "C14_normalized_refuted"
   ],
   "note": "map, data and flag exact for distinct names; TEXCOORD_2+, COLOR_1+ integer data is not flagged (refuted)"
  },
  {
   "property": "C15",
   "status": "proved",
   "theorems": [
    "C15_position_bounds",
    "C15_attribute_bounds",
    "C15_exact_order"
   ],
   "note": "bounds and attainment per component, widening to float64 preserves order"
  },
  {
   "property": "C16",
   "status": "partial",
   "theorems": [
    "C16_no_panic_partial",
    "C16_no_panic_refuted",
    "C16_out_of_range_errors"
   ],
   "note": "no panic when nil entries, negative or overflowing fields, out-of-range sparse indices, []int8 views longer than the accessor and impossible counts are excluded; every excluded case refuted with a witness; out-of-range references and short data proved to give errors"
  },
  {
   "property": "C17",
   "status": "partial",
   "theorems": [
    "C17_exact_partial",
    "C17_sound",
    "C17_exact_refuted",
    "C17_panics_iff"
   ],
   "note": "exact result for non-negative fields; a success is always the exact range; negative, overflowing and nil cases panic (refuted), and C17_panics_iff says for every document that fits in memory exactly which do"
  },
  {
   "property": "C18",
   "status": "partial",
   "theorems": [
    "C18_sparse_overlay_partial",
    "C18_sparse_overlay_refuted",
    "C18_overlay_unique"
   ],
   "note": "overlay proved for all formats, index types and strides the reader honours, with zero base only for an empty reuse buffer (refuted otherwise)"
  },
  {
   "property": "C19",
   "status": "partial",
   "theorems": [
    "C19_buffer_independent_partial",
    "C19_buffer_independent_refuted"
   ],
   "note": "equal results for any two buffers when there is a buffer view; refuted for accessors without one, for Uint/Mat3 and for negative strides"
  },
  {
   "property": "C20",
   "status": "partial",
   "theorems": [
    "C20_history_independent_partial",
    "C20_history_independent_refuted"
   ],
   "note": "all helpers independent of all pool contents when the accessor has a buffer view; refuted without one"
  },
  {
   "property": "C21",
   "status": "partial",
   "theorems": [
    "C21_ReadAccessor_count",
    "C21_helpers_count_partial",
    "C21_helpers_count_refuted"
   ],
   "note": "ReadAccessor always returns Count elements; helpers do unless Count is 0 and a non-empty buffer is passed (refuted)"
  },
  {
   "property": "C22",
   "status": "partial",
   "theorems": [
    "C22_values_in_range",
    "C22_ReadIndices",
    "C22_ReadJoints",
    "C22_floats_unchanged",
    "C22_ReadColor64_integers",
    "C22_ReadColor_integers_partial",
    "C22_ReadColor_ushort_refuted",
    "C22_normalized"
   ],
   "note": "indices, joints, floats, normalized integers, 8-bit and 16-bit colors exact; ReadColor truncates 16-bit channels (refuted)"
  },
  {
   "property": "C23",
   "status": "proved",
   "theorems": [
    "C23_formats"
   ],
   "note": "exact format table for every helper, all documents"
  },
  {
   "property": "C24",
   "status": "proved",
   "theorems": [
    "C24_embed_lossless",
    "C24_no_panic"
   ],
   "note": "base64 of any byte string against the RFC 4648 bit-level specification; marshalData of the embedded URI gives the bytes back; no panic for any URI"
  },
  {
   "property": "C25",
   "status": "proved",
   "theorems": [
    "C25_image_lossless",
    "C25_not_embedded",
    "C25_no_panic"
   ],
   "note": "PNG and JPEG data URIs decode to their bytes; every other URI gives empty data; no panic for any URI"
  },
  {
   "property": "C26",
   "status": "proved",
   "theorems": [
    "C26_decode_names"
   ],
   "note": "every name passed to the file system is local or parses with a scheme; all inputs, all url parsers"
  },
  {
   "property": "C27",
   "status": "partial",
   "theorems": [
    "C27_encode_names_refuted",
    "C27_encode_names_partial"
   ],
   "note": "an escaped URI such as %2e%2e/x is validated before it is unescaped and created as ../x (refuted); proved for URIs whose cleaned form is itself valid"
  },
  {
   "property": "C28",
   "status": "partial",
   "theorems": [
    "C28_found_refuted",
    "C28_found_partial",
    "C28_escaped_partial"
   ],
   "note": "a URI that sanitizeURI refuses, such as 100%.bin, is silently not written (refuted); names and contents agree for plain names, and for escaped ones whose cleaned form passes the same checks"
  },
  {
   "property": "C29",
   "status": "proved",
   "theorems": [
    "C29_glb_well_formed",
    "C29_length_needed"
   ],
   "note": "exact container layout for all documents; C29_length_needed shows that the hypothesis len(Data) = ByteLength cannot be dropped"
  },
  {
   "property": "C30",
   "status": "partial",
   "theorems": [
    "C30_any_pieces_partial",
    "C30_glb_roundtrip_partial",
    "C30_glb_unpadded_partial",
    "C30_glb_roundtrip_refuted"
   ],
   "note": "all documents with plain buffer names, delivered in multiples of four bytes, or with JSON that needs no padding; refuted otherwise because the padding is left unread, but then the result is an error and never another document (C30_any_pieces_partial)"
  },
  {
   "property": "C31",
   "status": "partial",
   "theorems": [
    "C31_never_wrong_partial",
    "C31_wrong_document_refuted",
    "C31_text_partial",
    "C31_glb_partial",
    "C31_fragments_refuted"
   ],
   "note": "proved for text and for GLB files delivered in multiples of four bytes or without padding; refuted for padded GLB files; with up to three bytes of padding any two readers agree or one gets an error before a file is opened (C31_never_wrong_partial), with four a wrong document is possible (C31_wrong_document_refuted)"
  },
  {
   "property": "C32",
   "status": "partial",
   "theorems": [
    "C32_json_roundtrip_partial",
    "C32_contents",
    "C32_json_roundtrip_refuted"
   ],
   "note": "all documents with plain buffer names, embedded buffers or none, any fragmentation; refuted for empty buffers, which Decode refuses"
  },
  {
   "property": "C33",
   "status": "partial",
   "theorems": [
    "C33_binary_partial",
    "C33_errors_refuted",
    "C33_errors_partial"
   ],
   "note": "text mode: success means the whole text and every file was accepted; binary mode: success means the header and, when there is a BIN chunk, its padding write and every other file were accepted (C33_binary_partial), the write errors of the JSON text, padding and chunk are dropped (refuted)"
  },
  {
   "property": "C34",
   "status": "partial",
   "theorems": [
    "C34_safe_refuted",
    "C34_safe_partial"
   ],
   "note": "null buffers, null images or a negative byteLength panic (refuted); every panic comes from one of these or a length over 2^48, for every stream, fragmentation and file system"
  },
  {
   "property": "C35",
   "status": "partial",
   "theorems": [
    "C35_length_refuted",
    "C35_length_partial"
   ],
   "note": "exact for the binary chunk; external data is cut or short, embedded data is not checked (refuted); each case characterised"
  },
  {
   "property": "C36",
   "status": "partial",
   "theorems": [
    "C36_header_refuted",
    "C36_header_partial",
    "C36_decode_partial"
   ],
   "note": "the sum is computed in uint32 and wraps for the 20 largest lengths (refuted); exact for all others, and Decode refuses those streams"
  },
  {
   "property": "C37",
   "status": "partial",
   "theorems": [
    "C37_save_refuted",
    "C37_save_partial"
   ],
   "note": "os.Create truncates first, so a failed Save destroys the file (refuted); nothing changes when creation fails, and files outside the directory never change"
  },
  {
   "property": "C38",
   "status": "proved",
   "theorems": [
    "C38_text_detected",
    "C38_binary_detected"
   ],
   "note": "text outputs are read as JSON, binary outputs as GLB, for every document that encodes"
  },
  {
   "property": "C39",
   "status": "proved",
   "theorems": [
    "C39_enums",
    "C39_target"
   ],
   "note": "the JSON forms of all valid values and, every JSON value decodes to a valid value or an error; Target is a plain integer"
  },
  {
   "property": "C40",
   "status": "partial",
   "theorems": [
    "C40_node",
    "C40_material",
    "C40_pbr",
    "C40_normal_texture",
    "C40_occlusion_texture",
    "C40_asset_partial",
    "C40_asset_refuted"
   ],
   "note": "all types; re-encoding an Asset with an empty version changes member order (refuted as byte equality, proved as equality of values)"
  },
  {
   "property": "C41",
   "status": "partial",
   "theorems": [
    "C41_lossless_partial",
    "C41_lossless_refuted"
   ],
   "note": "whole document, from the tree to the text and back, for well-formed documents whose extras/extensions nest less than the decoder's depth limit; cameras without projection and nil buffers do not encode (refuted)"
  },
  {
   "property": "C42",
   "status": "partial",
   "theorems": [
    "C42_stable_partial",
    "C42_stable_refuted"
   ],
   "note": "one round trip gives the normal form, later round trips change nothing; the first one may change the document (refuted: explicit null)"
  },
  {
   "property": "C43",
   "status": "partial",
   "theorems": [
    "C43_filled_partial",
    "C43_text_partial",
    "C43_filled_refuted"
   ],
   "note": "for JSON without null; explicit null leaves nil (refuted)"
  },
  {
   "property": "C44",
   "status": "proved",
   "theorems": [
    "C44_extensions",
    "C44_document"
   ],
   "note": "for extension objects at any place and for whole document texts; duplicate keys: the last one wins"
  },
  {
   "property": "C45",
   "status": "proved",
   "theorems": [
    "C45_last_write_wins",
    "C45_race_free",
    "C45_no_deadlock"
   ],
   "note": "Every interleaving of lock, two-phase map write, lookup and unlock steps by any number of goroutines; also race freedom and no deadlock. sync.RWMutex is its specification."
  },
  {
   "property": "C46",
   "status": "partial",
   "theorems": [
    "C46_repaired",
    "C46_strings_partial",
    "C46_strings_refuted"
   ],
   "note": "valid UTF-8 strings; invalid bytes are replaced (refuted), and the result is characterised for all strings"
  },
  {
   "property": "C47",
   "status": "partial",
   "theorems": [
    "C47_refuted",
    "C47_partial",
    "C47_bare_textures"
   ],
   "note": "False as stated: C47_refuted shows an extras string changed silently and an extras member turning the output into invalid JSON. C47_partial proves the round trip when no texture text contains one of the six edited patterns; C47_bare_textures discharges that for textures without extras and extensions."
  },
  {
   "property": "C48",
   "status": "proved",
   "theorems": [
    "C48_texture_transform",
    "C48_scale_in_use"
   ],
   "note": "For every number format agreeing with strconv on 0, -0 and 1 and round-tripping finite floats. An all-zero scale comes back as the default, rotation -0 as 0."
  },
  {
   "property": "C49",
   "status": "partial",
   "theorems": [
    "C49_refuted",
    "C49_partial"
   ],
   "note": "False as stated: C49_refuted shows that no light list or reference survives and that a light without range cannot be encoded again. C49_partial: single lights with finite range round trip, and the output put back under its member name restores the lights and the reference."
  },
  {
   "property": "C50",
   "status": "proved",
   "theorems": [
    "C50_unlit",
    "C50_null"
   ],
   "note": "Values compared after decoding (raw bytes may gain HTML escapes once); the text is stable from then on."
  },
  {
   "property": "C51",
   "status": "proved",
   "theorems": [
    "C51_unsigned",
    "C51_signed"
   ],
   "note": "all 8 and 16 bit values, IEEE arithmetic (Flocq)"
  },
  {
   "property": "C52",
   "status": "proved",
   "theorems": [
    "C52_nearest",
    "C52_in_range"
   ],
   "note": "every finite float32, in or out of range"
  },
  {
   "property": "C53",
   "status": "proved",
   "theorems": [
    "C53_alpha"
   ],
   "note": "every alpha value; math.Pow arbitrary"
  },
  {
   "property": "C54",
   "status": "proved",
   "theorems": [
    "C54_size_of_element",
    "C54_components_disjoint"
   ],
   "note": "size equals the aligned layout extent; zero for unknown types; components never overlap"
  },
  {
   "property": "C55",
   "status": "proved",
   "theorems": [
    "C55_text",
    "C55_any_files",
    "C55_text_read",
    "C55_files"
   ],
   "note": "Every document a Go program can hold (go_Document excludes none: names need not be UTF-8, enums may be unknown, floats NaN), JSON text and whole files: the same failure, or outputs that Decode reads as the same document or the same error, whatever the files around it. Binary files: sizes that fit 32 bits, and a reader that hands out multiples of four bytes (otherwise Decode loses chunk alignment, C31). C55_text_read and C55_files: in the C41 domain both succeed."
  },
  {
   "property": "C56",
   "status": "proved",
   "theorems": [
    "C56_strings",
    "C56_distinct",
    "C56_json"
   ],
   "note": "All ten enumerations, every value of the underlying 8 or 16 bit integer."
  },
  {
   "property": "C57",
   "status": "proved",
   "theorems": [
    "C57_targets",
    "C57_stride"
   ],
   "note": "every view any writer appends carries the target of its role, at most one view per call, all new accessors use it; a stride only on vertex data"
  },
  {
   "property": "C58",
   "status": "partial",
   "theorems": [
    "C58_save_open_partial",
    "C58_save_open_refuted"
   ],
   "note": "documents with plain distinct buffer names different from the file itself; refuted for names such as a/../b.bin, which io/fs refuses"
  },
  {
   "property": "C59",
   "status": "proved",
   "theorems": [
    "C59_vectors",
    "C59_indices",
    "C59_joints",
    "C59_normalized",
    "C59_colors"
   ],
   "note": "each typed writer against its typed reader after any later writes, for all buffers and pools; integer texture coordinates and weights through the denormalization; 16-bit colors through ReadColor64 (ReadColor truncates them, see C22)"
  },
  {
   "property": "C60",
   "status": "partial",
   "theorems": [
    "C60_eight_bit",
    "C60_eight_bit_exact",
    "C60_sixteen_bit_refuted",
    "C60_dark_partial",
    "C60_rgb64_refuted",
    "C60_white_refuted",
    "C60_within_one_partial"
   ],
   "note": "False as stated: 8-bit white becomes 254 for every math.Pow accurate to 2^-40, and 16-bit 53 becomes 52 (refuted). Every 8-bit and 16-bit channel comes back as itself or as the value below (C60_within_one_partial). For 8-bit channels the result is exact: C60_eight_bit and C60_eight_bit_exact name the 37 values that come back one lower, all others are unchanged; channels up to 10 whatever Pow does. For 16-bit channels no such list exists: 8400 comes back with one accurate Pow and not with another (C60_sixteen_bit_refuted)"
  },
  {
   "property": "C61",
   "status": "proved",
   "theorems": [
    "C61_unsigned",
    "C61_signed"
   ],
   "note": "every 8 and 16 bit value"
  },
  {
   "property": "C62",
   "status": "proved",
   "theorems": [
    "C62_schema"
   ],
   "note": "every wf document meeting the schema's value constraints is written as schema-conforming JSON (schema tables written out in SpecSchema.v)"
  },
  {
   "property": "C63",
   "status": "partial",
   "theorems": [
    "C63_accept_refuted",
    "C63_accept_partial"
   ],
   "note": "refuted: encoding/json matches member names without regard to letter case, so an undefined member such as Scene: \"main\" makes a conforming file fail; proved for undefined members whose names do not match a defined one up to case folding. Numbers inside extras must be in float64's range and -0 is not counted as an integer literal"
  },
  {
   "property": "C64",
   "status": "proved",
   "theorems": [
    "C64_binary_chunk",
    "C64_place"
   ],
   "note": "for every reader; C64_place gives the exact position under alignment"
  },
  {
   "property": "C65",
   "status": "proved",
   "theorems": [
    "C65_decoded",
    "C65_encoded"
   ],
   "note": "independent inductive meaning of literals in SpecString.v"
  },
  {
   "property": "C66",
   "status": "proved",
   "theorems": [
    "C66_opened",
    "C66_images"
   ],
   "note": "independent inductive meaning of percent-encoding in SpecString.v; references without scheme, query, fragment, leading slash and dot segments"
  },
  {
   "property": "C67",
   "status": "proved",
   "theorems": [
    "C67_read",
    "C67_unique",
    "C67_written",
    "C67_camera_type"
   ],
   "note": "relation m_gltf in SpecMeaning.v, written from the glTF 2.0 specification, independent of the codecs; C67_read for Decode, C67_unique, C67_written, C67_camera_type"
  },
  {
   "property": "C68",
   "status": "partial",
   "theorems": [
    "C68_storable",
    "C68_reads_partial",
    "C68_written_partial",
    "C68_typed",
    "C68_sessions_partial",
    "C68_reads_refuted",
    "C68_not_a_number_refuted",
    "C68_no_data_refuted"
   ],
   "note": "C68_reads_partial, C68_written_partial, C68_typed: after any calls on a storable document whose last buffer has no data URI, with finite positions and some data; C68_sessions_partial for any number of GLB sessions. Refuted without these hypotheses: data appended to a loaded embedded buffer is lost (C68_reads_refuted), NaN positions cannot be saved, a document without data cannot be loaded. Missing: GLB readers with pieces not a multiple of four (see C30)."
  },
  {
   "property": "C69",
   "status": "partial",
   "theorems": [
    "C69_read_partial",
    "C69_read_refuted",
    "C69_write",
    "C69_shortest",
    "C69_contracts",
    "C69_document",
    "C69_number"
   ],
   "note": "C69_read_partial: literals shorter than 9000 bytes are read as the nearest float64 (ties to even, error on overflow); C69_write and C69_shortest: every finite float64 is written as a JSON number that reads back, with the fewest digits and the closest of those; C69_contracts: the assumptions of the other properties about numbers hold. Refuted for longer literals (C69_read_refuted: strconv cuts the exponent). Model of strconv's documented results, not of its fast paths."
  },
  {
   "property": "C70",
   "status": "partial",
   "theorems": [
    "C70_registry",
    "C70_transform",
    "C70_unlit",
    "C70_specular_partial",
    "C70_lights_lost",
    "C70_depth",
    "C70_stable_partial",
    "C70_save_open_partial",
    "C70_unsavable_refuted",
    "C70_endless_light"
   ],
   "note": "False with lightspunctual or specular imported: C70_unsavable_refuted gives two valid documents that are decoded and cannot be encoded, C70_endless_light shows it for every document with a light without range, C70_lights_lost that lights come back as raw JSON. With texturetransform and unlit: C70_registry discharges the registry hypotheses of the other properties, C70_stable_partial and C70_save_open_partial are about documents, with go_floats and no hypothesis on registry or numbers. Specular-glossiness values only when clean (see C47). C70_depth: the unfolding of nested registries is exact for all JSON."
  },
  {
   "property": "C71",
   "status": "partial",
   "theorems": [
    "C71_transform",
    "C71_specular",
    "C71_lights_partial",
    "C71_unlit",
    "C71_unique",
    "C71_transform_written",
    "C71_specular_written_partial",
    "C71_light_written",
    "C71_unlit_written",
    "C71_lights_refuted"
   ],
   "note": "relations m_transform, m_light_list, m_light_ref, m_specular, m_unlit in SpecExtMeaning.v, written from the Khronos extension specifications; reading, uniqueness and writing. Refuted: a member named light beside lights makes Unmarshal drop the list (C71_lights_refuted). Writing of specular-glossiness only for textures whose text the encoder does not damage (see C47); lights only one by one, as the list is written without its envelope (see C49)."
  },
  {
   "property": "C72",
   "status": "proved",
   "theorems": [
    "C72_linear",
    "C72_encoded"
   ],
   "note": "srgb_decode and srgb_encode in SpecSrgb.v are the formulas of IEC 61966-2-1 over the reals; the theorems bound the error of the float32/float64 code against them, with the branch thresholds as rounded in the source"
  },
  {
   "property": "C73",
   "status": "proved",
   "theorems": [
    "C73_no_races",
    "C73_memory_kept",
    "C73_results",
    "C73_results_stay",
    "C73_ends",
    "C73_go_conversions"
   ],
   "note": "Every interleaving of the loads, stores, allocations and pool operations of all reading functions over a heap of arrays (Memory.v); the functions on values of C16-C22 are shown to be what these programs compute. Ownership is by whole arrays: buffers of different callers are in different arrays. A load or store of one element is one step. C73_go_conversions: math.go meets the hypothesis on the conversions, for every math.Pow."
  },
  {
   "property": "C74",
   "status": "partial",
   "theorems": [
    "C74_as_if_alone_partial",
    "C74_as_if_alone_refuted"
   ],
   "note": "False for accessors without buffer view: C74_as_if_alone_refuted is an execution in which such a read returns the positions that another goroutine left in the pooled buffer. C74_as_if_alone_partial: true for accessors with a buffer view (`reusable`), and a count other than 0 for the typed readers (C21)."
  },
  {
   "property": "C75",
   "status": "proved",
   "theorems": [
    "C75_writes",
    "C75_views_kept",
    "C75_other_documents"
   ],
   "note": "WriteMemory.v transcribes every writer to a heap of arrays, with append in place or into a new array of any extra capacity, and with elements loaded and stored one after the other; C75_writes: its outcome is that of the functions on values (C08-C15, C57) and all bytes outside of the last capacity are kept; C75_views_kept and C75_other_documents are consequences. C75_example_shared: the condition on the capacity is needed. One goroutine."
  },
  {
   "property": "C76",
   "status": "partial",
   "theorems": [
    "C76_append_overwrites",
    "C76_append_keeps_document_partial",
    "C76_append_keeps_document_refuted"
   ],
   "note": "False: C76_append_overwrites, an append to a view that is not at the end of its buffer overwrites the data behind the view, because the view is handed out with all the capacity behind it (buf[low:high] and not buf[low:high:high]); the documentation only says that the slice must not be modified. C76_append_keeps_document_refuted is a document in which it destroys another view. C76_append_keeps_document_partial: true if the append needs a new array, or if no buffer lies in the capacity of the view."
  },
  {
   "property": "C77",
   "status": "proved",
   "theorems": [
    "C77_encodes_or_fails",
    "C77_succeeds_iff",
    "C77_read_or_refused"
   ],
   "note": "Every Go document. Encoding panics exactly when a buffer is nil, fails exactly when a float is not finite, a camera has no projection or the encoder of an extension fails, and otherwise writes one well-formed JSON value. encoding/json reads it unless it nests deeper than 10000. The extension library is a parameter; its encoders must return JSON or an error."
  },
  {
   "property": "C78",
   "status": "partial",
   "theorems": [
    "C78_requests_partial",
    "C78_declared_partial",
    "C78_success_partial",
    "C78_requests_refuted"
   ],
   "note": "Refuted: the byteLength is compared with the length of the chunk as a uint32, so a file of 84 bytes makes Decode ask for 2^40 bytes. C78_requests_partial: what is asked for in every run; C78_declared_partial: with byteLength below 2^32, at most what the file declares (the declaration is not checked against the file); C78_success_partial: a Decode that succeeds asked for no more than the input has, plus the texts of embedded buffers. DecodeAlloc.v repeats Decode with the sizes passed to make and is shown to compute Decode. Not counted: encoding/json, fs.ReadFile."
  },
  {
   "property": "C79",
   "status": "partial",
   "theorems": [
    "C79_by_counts",
    "C79_proportional_partial",
    "C79_proportional_refuted"
   ],
   "note": "C79_by_counts: every execution of any number of concurrent calls. Refuted: a document without data makes ReadAccessor ask for any amount, by an accessor whose view does not exist or that has none. C79_proportional_partial: calls that succeed, on accessors with buffer views, with strides up to 252 and counts below 2^48. Memory model of C73; spare capacity that append adds is not counted (lengths are)."
  },
  {
   "property": "C80",
   "status": "proved",
   "theorems": [
    "C80_repair",
    "C80_kept",
    "C80_well_formed"
   ],
   "note": "Generalises C41 from representable documents to all. C80_repair: there is one way to repair strings. registry_total holds of the registries of all packages of the repository (C70). C80_well_formed: representable documents are Go documents that can be saved, and for them it says what C41 says. Examples: a document in which every kind of change happens, and one that is refused."
  },
  {
   "property": "C81",
   "status": "proved",
   "theorems": [
    "C81_encode_decode_images",
    "C81_save_open_images",
    "C81_encode_decode",
    "C81_save_open",
    "C81_contents",
    "C81_well_formed"
   ],
   "note": "Generalises C30, C32 and C58 from representable documents to all whose buffers and images have plain URIs. C81_contents: what back keeps; C81_well_formed: for representable documents it is restored, the specification of C30. Example: a document that is not representable, with three buffers, saved and opened."
  },
  {
   "property": "C82",
   "status": "partial",
   "theorems": [
    "C82_same_failure",
    "C82_repeats",
    "C82_reload",
    "C82_outcome",
    "C82_decode_again_partial",
    "C82_decode_again_refuted",
    "C82_independent_refuted"
   ],
   "note": "Refuted: what is loaded depends on the old document (C82_independent_refuted: a GLB decoded into a document that held an external buffer takes the data of that file instead of its own chunk), and with escaped URIs in the old document a second Decode opens another file (C82_decode_again_refuted). Proved: C82_same_failure, C82_repeats and C82_reload for the JSON step without conditions; C82_decode_again_partial for documents whose URIs are empty, plain or embedded; C82_outcome: only old buffers and images matter. The law behind it, f(g(f x)) = f(g x) for all that JSON values do, is proved for every document type (Reload.v, DocReload.v). Simplification: Go also reuses slice elements beyond the length, within the capacity; the model only those within the length."
  },
  {
   "property": "C83",
   "status": "partial",
   "theorems": [
    "C83_values",
    "C83_lights",
    "C83_loaded",
    "C83_empty",
    "C83_decoded",
    "C83_saves_iff_partial",
    "C83_obstacles_partial",
    "C83_no_lights",
    "C83_again",
    "C83_saves_again_refuted"
   ],
   "note": "False as stated: C83_saves_again_refuted gives a file with a light without range, which is read with range +Inf, and one with a camera without projection; both are opened and cannot be encoded. C83_saves_iff_partial says exactly when encoding succeeds, for any packages; otherwise it is an error and never a panic. C83_obstacles_partial: without specular-glossiness those two are the only obstacles; C83_no_lights: cameras only. C83_loaded and C83_decoded: what was read satisfies the hypotheses of C77 and C80; C83_values: so do all values of the packages' Go types. C83_again: the text is read back as C80 says."
  },
  {
   "property": "C84",
   "status": "proved",
   "theorems": [
    "C84_node",
    "C84_material",
    "C84_extensions",
    "C84_cone"
   ],
   "note": "every OrDefault method of gltf.go and of the ext packages; the default is stated as a real number, pi/4 through Machin's formula of Coq's standard library"
  },
  {
   "property": "C85",
   "status": "partial",
   "theorems": [
    "C85_determined",
    "C85_read_partial",
    "C85_plain",
    "C85_typed",
    "C85_read_refuted"
   ],
   "note": "proved in full for all formats that end with their last component (all of float and uint, most of short) and for the typed helpers; for the others where the stored layout has the padding the library expects; refuted by tightly packed VEC3 of bytes (wrong values or ErrShortBuffer), a missing last padding, strided UBYTE scalars and BYTE scalars in a longer view"
  },
  {
   "property": "C86",
   "status": "partial",
   "theorems": [
    "C86_written_partial",
    "C86_typed",
    "C86_written_refuted"
   ],
   "note": "proved for all typed helpers, for single slices that need no padding or are vertices, and for interleaved data with a stride of at most 252 that is a multiple of four, aligned components and matrices, and no []uint8; refuted by WriteAccessor without target for [][3]uint8, by interleaved data with unaligned rows, and by strides above 252. What stands behind the last []uint8 of several slices is C107, the []uint8 themselves C105"
  },
  {
   "property": "C87",
   "status": "proved",
   "theorems": [
    "C87_stored",
    "C87_read",
    "C87_failed",
    "C87_panics_iff",
    "C87_source"
   ],
   "note": "io.ReadAll of Go 1.20 is modelled; readers that return 0 bytes without an error forever are not"
  },
  {
   "property": "C88",
   "status": "proved",
   "theorems": [
    "C88_encode_decode",
    "C88_save_open",
    "C88_exact"
   ],
   "note": "for documents nested at most 10000 deep; images may have any URI; GLB readers deliver whole 4-byte words per call, see C31"
  },
  {
   "property": "C89",
   "status": "partial",
   "theorems": [
    "C89_net_url",
    "C89_unchanged_partial",
    "C89_parse_string",
    "C89_encode_decode_partial",
    "C89_save_open_partial",
    "C89_unchanged_refuted"
   ],
   "note": "False as stated: C89_unchanged_refuted, every /./ is shortened, also inside a query, and cleaning a second time shortens again. Proved for all other such URIs, for files of images at them, and that the model of sanitizeURI with go_url is the source with url.Parse and String (C89_net_url). Not covered: user information and percent escapes in the host (examples only)"
  },
  {
   "property": "C90",
   "status": "partial",
   "theorems": [
    "C90_ready",
    "C90_decode_partial",
    "C90_view_partial",
    "C90_accessor_partial",
    "C90_decode_refuted",
    "C90_read_refuted"
   ],
   "note": "False as stated: C90_decode_refuted, a GLB of a few bytes that declares 2^48 + 1 bytes makes Decode panic (the chunk length is compared modulo 2^32); C90_read_refuted, an accessor that begins behind its view makes ReadAccessor panic. Proved: C90_ready without conditions; C90_decode_partial for declared lengths up to 2^48; C90_view_partial when the end of the view is an int; C90_accessor_partial when the accessor begins within its view, the extents are ints, signed bytes fill their view and sparse indices are below the count"
  },
  {
   "property": "C91",
   "status": "partial",
   "theorems": [
    "C91_open_partial",
    "C91_open_refuted"
   ],
   "note": "False as stated: C91_open_refuted, a buffer in a data URI of the media type application/gltf-buffer, which the format names beside application/octet-stream, is taken for a file name, and is without data when there is no file system; a buffer without URI, which the format allows, is an error. Proved otherwise: C91_open_partial, for numbers in the range of float64, undefined members that no defined name matches by letter case, nesting up to 10000 and, with a BIN chunk, reads of multiples of four bytes (C31)"
  },
  {
   "property": "C92",
   "status": "partial",
   "theorems": [
    "C92_written_partial",
    "C92_written_refuted"
   ],
   "note": "False as stated: C92_written_refuted, Encode accepts a buffer whose data is shorter than its byteLength, and two buffers whose URIs stand for one file, where the second replaces the first. Proved otherwise: C92_written_partial, for documents with required members set (ready), byteLength equal to the length of non-empty data, URIs that are empty, the data URI of the data, relative references or absolute URIs without dot segments, and different file names"
  },
  {
   "property": "C93",
   "status": "partial",
   "theorems": [
    "C93_determined",
    "C93_read_partial",
    "C93_written_partial",
    "C93_modeler_partial",
    "C93_read_refuted",
    "C93_written_refuted"
   ],
   "note": "False as stated: C93_read_refuted, an asset with tightly packed VEC3 of bytes is read with other values, and C93_written_refuted, WriteAccessor without a target pads such elements and gives no stride, so that the asset it makes has other elements than the data given. Proved otherwise: C93_determined without conditions; C93_read_partial, for assets with numbers in the range of float64 and buffers located as C91 describes, and accessors whose layout the library reads (C85); C93_written_partial and C93_modeler_partial, for documents as in C92 and data that the library writes with the layout of glTF (C86)"
  },
  {
   "property": "C94",
   "status": "proved",
   "theorems": [
    "C94_outcome",
    "C94_unread"
   ],
   "note": "C94_outcome for all readers that end with io.EOF, both directions; C94_unread for the rest. The base64 text that is accepted is that of Buffer.marshalData (C24); bytes after the JSON are those the JSON decoder left in the reader (C64 says which)"
  },
  {
   "property": "C95",
   "status": "proved",
   "theorems": [
    "C95_outcome",
    "C95_helpers"
   ],
   "note": "C95_outcome (both directions, for panics and for results with their elements) and C95_helpers, under [modest]: counts below 2^31, strides within 31 bits, view offsets and lengths within 62 bits; beyond that int overflows are covered by C17_panics_iff and the refutations of C16"
  },
  {
   "property": "C96",
   "status": "proved",
   "theorems": [
    "C96_outcome",
    "C96_panics_iff",
    "C96_files_determined"
   ],
   "note": "C96_outcome gives the three outcomes with exclusive conditions and the files made in each; C96_panics_iff and C96_files_determined are consequences. That failures of the other writes of a GLB go unnoticed is C33_errors_refuted."
  },
  {
   "property": "C97",
   "status": "proved",
   "theorems": [
    "C97_write",
    "C97_read",
    "C97_unsupported"
   ],
   "note": "C97_write, C97_read and C97_unsupported give exclusive conditions for the outcomes and the bytes or elements after a success. Strides are within 32 bits, counts below 2^31 and buffers below 2^62 bytes, so that Go's int does not overflow. Bytes stored before a panic are not modelled."
  },
  {
   "property": "C98",
   "status": "proved",
   "theorems": [
    "C98_panics_iff",
    "C98_errors_iff",
    "C98_succeeds_iff"
   ],
   "note": "C98_panics_iff covers all fifteen write calls; C98_errors_iff and C98_succeeds_iff the three that return an error. The only hypothesis is that elements have the components their Go type says. The memory limit is 2^48 bytes, sizes are computed without wrap-around."
  },
  {
   "property": "C99",
   "status": "proved",
   "theorems": [
    "C99_added",
    "C99_names",
    "C99_elsewhere",
    "C99_new"
   ],
   "note": "C99_added covers all fifteen write calls and gives the whole document after the call; the bytes themselves are those of C03, C08 and C11. Which calls are accepted is C98. C99_names holds for repeated attribute names as well, which C14 leaves out. C99_elsewhere covers failing calls and sequences, C99_new starts them at NewDocument."
  },
  {
   "property": "C100",
   "status": "proved",
   "theorems": [
    "C100_rules",
    "C100_ready",
    "C100_unready"
   ],
   "note": "C100_rules is an equivalence for each successful call; which calls succeed is C98. C100_ready covers sequences and needs declared lengths below 2^63. The library does not check any of this: interleaving a []uint8 with vectors, or writing no data, succeeds and gives a document that breaks the rules (see Findings)."
  },
  {
   "property": "C101",
   "status": "partial",
   "theorems": [
    "C101_runs",
    "C101_built",
    "C101_data_partial",
    "C101_data_refuted",
    "C101_behind",
    "C101_bytes",
    "C101_every_byte",
    "C101_read_partial",
    "C101_single"
   ],
   "note": "C101_runs and C101_built need no more than the calls being proper; C101_data_partial, that the data is found, holds for calls that are faithful. Without that it is false: C101_data_refuted, WriteAccessor of [][3]uint8 without a target, and four interleaved []uint8, follow all rules and yet the file has other elements. C101_single says for every call of WriteAccessor, faithful or not, what each reading finds (the criterion of C103), and C101_bytes and C101_every_byte what it finds of each interleaved []uint8 (C105); what stands behind the last of them is found as given (C101_behind). C101_read_partial, the library's own reading after Decode, needs only that of several slices none is a []uint8 or []int8 (C12_interleaved_read_refuted otherwise), and GLB files read in pieces of multiples of four bytes (C30). Encode is run with the model of url.Parse of C89; file names and failing writers are C31 and C58."
  },
  {
   "property": "C102",
   "status": "partial",
   "theorems": [
    "C102_data_partial",
    "C102_rest",
    "C102_read_partial"
   ],
   "note": "As for C101, the data is found for calls that are faithful (C102_data_partial), and read by the library for calls that do not write a []uint8 or []int8 with other slices (C102_read_partial); C101_data_refuted and C12_interleaved_read_refuted show that without that it is false. The rest is any well-formed document with the members that the schemas require, its buffers unused; further buffers with their own files are C93."
  },
  {
   "property": "C103",
   "status": "proved",
   "theorems": [
    "C103_stored",
    "C103_exact"
   ],
   "note": "exact criterion for WriteAccessor: conforms always, keeps the data iff the elements need no padding, are vertices, or there is one of them; otherwise the second element of the file starts with 0"
  },
  {
   "property": "C104",
   "status": "proved",
   "theorems": [
    "C104_one_row",
    "C104_int8",
    "C104_uint8"
   ],
   "note": "the cases that C12_interleaved_read_partial leaves out, for all data: []int8 panics when read (exact condition), []uint8 and its neighbour overwrite one another; rows of one element are read back (C104_one_row)"
  },
  {
   "property": "C105",
   "status": "proved",
   "theorems": [
    "C105_elements",
    "C105_second",
    "C105_lost",
    "C105_exact",
    "C105_every",
    "C105_conforms",
    "C105_has",
    "C105_kept"
   ],
   "note": "every element found in the file (C105_elements, C105_second), the condition under which those given are lost (C105_lost), and in closed form that only slices with zeros behind the first element survive (C105_exact); these are of the last []uint8 of a row. C105_every gives the elements of each of them, the last or not: the first is kept and the others come from the last []uint8 or are 0. C105_conforms: with rows of an allowed stride every interleaved []uint8 has conforming elements; C105_has and C105_kept then say which, without that premise"
  },
  {
   "property": "C106",
   "status": "proved",
   "theorems": [
    "C106_order",
    "C106_injective",
    "C106_merged"
   ],
   "note": "C106_order (both directions, per channel), C106_injective; C106_merged: what is lost in the round trip of C60 is lost by NormalizeRGB"
  },
  {
   "property": "C107",
   "status": "proved",
   "theorems": [
    "C107_ahead",
    "C107_ahead_read",
    "C107_behind",
    "C107_front",
    "C107_read"
   ],
   "note": "C107_behind for each slice behind the last []uint8, C107_front for rows with one []uint8 in front; it extends C86_written_partial, which allows no []uint8 among several slices; C107_read: the library reads them back too, except []int8. C107_ahead: anywhere in a row, slices that are not []uint8 have conforming accessors and keep their first element and those beyond the reach of any []uint8 (C107_ahead_read: as the library reads them)"
  }
 ]
}
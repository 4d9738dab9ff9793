{"id": "C01", "title": "Length octets round-trip", "statement": "Writing any 64-bit length with encode_length into a buffer that is large enough and reading it back with extract_length yields the same length and the same number of octets, whatever bytes follow.", "quantifier": "every length 0..2^64-1, every buffer content and size, every trailing byte sequence", "why_tests_cant": "2^64 lengths and unbounded trailing data", "anchors": ["include/fast_ber/util/EncodeIdentifiers.hpp:encode_length", "include/fast_ber/util/Extract.hpp:extract_length"]}
{"id": "C02", "title": "Identifier octets round-trip", "statement": "Writing any class, construction and non-negative tag with encode_identifier and reading it back with extract_class, extract_construction and extract_tag yields the same triple and the same number of octets, whatever bytes follow; no signed overflow happens while reading it.", "quantifier": "every class, construction, tag 0..2^63-1, buffer and trailing bytes", "why_tests_cant": "2^63 tags; the multi-byte loop has a different shape for each size", "anchors": ["include/fast_ber/util/EncodeIdentifiers.hpp:encode_tag,encode_identifier", "include/fast_ber/util/Extract.hpp:extract_tag", "include/fast_ber/ber_types/Class.hpp", "include/fast_ber/ber_types/Construction.hpp"]}
{"id": "C03", "title": "Predicted sizes equal written sizes", "statement": "encoded_tag_length, encoded_length_length and encoded_header_length (single and double identifiers) return exactly the number of octets that encode_tag, encode_length and encode_header write when the buffer is large enough.", "quantifier": "every tag, length, identifier of depth 1 or 2 and buffer", "why_tests_cant": "table of thresholds versus loop over all 64-bit values", "anchors": ["include/fast_ber/util/EncodeIdentifiers.hpp", "include/fast_ber/util/EncodeHelpers.hpp:encode_header"]}
{"id": "C04", "title": "Header encoders respect the buffer", "statement": "encode_tag, encode_length and encode_header fail exactly when the buffer is too small for the octets (or the tag is negative), never change the buffer's size, and on success leave every byte after the returned count unchanged.", "quantifier": "every buffer size from 0 up, every tag, length, class, construction", "why_tests_cant": "off-by-one errors occur only at one buffer size per length class", "anchors": ["include/fast_ber/util/EncodeIdentifiers.hpp:encode_tag,encode_length,encode_header"]}
{"id": "C05", "title": "Header octets are the shortest possible", "statement": "No octet sequence shorter than the one produced by encode_length / encode_tag is read back by extract_length / extract_tag as the same length / tag.", "quantifier": "every length and tag, every alternative octet string", "why_tests_cant": "quantifies over all other encodings", "anchors": ["include/fast_ber/util/EncodeIdentifiers.hpp", "include/fast_ber/util/Extract.hpp"]}
{"id": "C06", "title": "Headers are self-delimiting and unambiguous", "statement": "Two encoded headers followed by arbitrary bytes can only be equal byte strings if class, construction, tag and length are equal; in particular no header encoding is a proper prefix of another.", "quantifier": "every pair of headers and trailing byte strings", "why_tests_cant": "pairs of 2^130 headers", "anchors": ["include/fast_ber/util/EncodeIdentifiers.hpp:encode_header"]}
{"id": "C07", "title": "A valid view never leaves its buffer", "statement": "If a BerView built from a span reports is_valid(), its header and content lie wholly inside that span, so reading header or content never touches a byte outside it.", "quantifier": "every byte string (attacker controlled)", "why_tests_cant": "2^(8n) inputs; the failing ones need a declared length near 2^64", "anchors": ["include/fast_ber/util/BerView.hpp:BerView::assign", "include/fast_ber/util/Extract.hpp:extract_length"]}
{"id": "C08", "title": "Views recover exactly what was encoded", "statement": "For every identifier, construction and content, a view over header+content+anything is valid and reports that class, tag, construction, header length and content.", "quantifier": "every identifier, content (below 2^63 octets) and trailing bytes", "why_tests_cant": "unbounded contents", "anchors": ["include/fast_ber/util/BerView.hpp:BerView::assign"]}
{"id": "C09", "title": "Truncated packets are rejected", "statement": "Every proper prefix of a packet produced by the encoder (header+content) yields an invalid view: truncation at any byte is detected.", "quantifier": "every packet and every cut point", "why_tests_cant": "every cut point of every packet", "anchors": ["include/fast_ber/util/BerView.hpp:BerView::assign"]}
{"id": "C10", "title": "Unsupported and malformed length octets are rejected", "statement": "A view is invalid whenever the length field is the indefinite form (0x80), uses more than 8 length octets, or is cut short; the view's length is the big-endian value of the length octets otherwise.", "quantifier": "every byte string", "why_tests_cant": "all malformed headers", "anchors": ["include/fast_ber/util/Extract.hpp:extract_length", "include/fast_ber/util/BerView.hpp:BerView::assign"]}
{"id": "C11", "title": "Iteration over children terminates and partitions the content", "statement": "Iterating a valid constructed view terminates after at most content-length steps; the children are valid, adjacent, in order, disjoint, and together form a prefix of the content; iteration stops at the first byte that is not a complete packet.", "quantifier": "every byte string and nesting", "why_tests_cant": "termination and coverage for all inputs", "anchors": ["include/fast_ber/util/BerView.hpp:BerViewIterator"]}
{"id": "C12", "title": "Iteration recovers concatenated packets", "statement": "Iterating over the concatenation of any list of encoded packets yields exactly those packets, in order.", "quantifier": "every list of packets", "why_tests_cant": "unbounded lists", "anchors": ["include/fast_ber/util/BerView.hpp:BerViewIterator"]}
{"id": "C13", "title": "Re-encoding a view copies it", "statement": "BerView::encode on a valid view succeeds exactly when the buffer is at least as long as the packet, then writes exactly the packet's bytes and leaves the rest of the buffer unchanged.", "quantifier": "every view and buffer", "why_tests_cant": "every buffer size", "anchors": ["include/fast_ber/util/BerView.hpp:BerView::encode"]}
{"id": "C14", "title": "Integer values round-trip", "statement": "Assigning any int64 to an Integer, encoding it, and decoding the bytes into another Integer of the same identifier gives the same value, for implicit and explicit (double) identifiers.", "quantifier": "every int64, every identifier of depth 1 or 2", "why_tests_cant": "2^64 values", "anchors": ["include/fast_ber/ber_types/Integer.hpp:Integer::assign,encode,decode,value", "include/fast_ber/util/SmallFixedIdBerContainer.hpp"]}
{"id": "C15", "title": "Integer contents are minimal two's complement", "statement": "encode_integer writes between 1 and 8 octets whose big-endian two's complement value is the input, and no shorter octet string has that value; if the span is too short it writes nothing and returns 0.", "quantifier": "every int64, every span size", "why_tests_cant": "2^64 values, minimality quantifies over alternatives", "anchors": ["include/fast_ber/ber_types/Integer.hpp:encode_integer"]}
{"id": "C16", "title": "Integer decoding is sign-extending and total", "statement": "decode_integer accepts exactly 1 to 8 content octets, and returns their big-endian two's complement value, minimal or not; other lengths fail and leave the output untouched.", "quantifier": "every byte string", "why_tests_cant": "every non-minimal encoding", "anchors": ["include/fast_ber/ber_types/Integer.hpp:decode_integer"]}
{"id": "C17", "title": "Integer decoding rejects empty contents", "statement": "Integer::decode fails on a packet whose content is empty, because X.690 requires at least one content octet.", "quantifier": "every packet", "why_tests_cant": "all headers", "anchors": ["include/fast_ber/ber_types/Integer.hpp:Integer::decode", "include/fast_ber/util/SmallFixedIdBerContainer.hpp:decode_impl"]}
{"id": "C18", "title": "Integer objects stay well formed over any history", "statement": "After any sequence of assignments, copies, and successful or failed decodes, an Integer encodes to a packet that decodes to its current value, and the value is that of the last successful operation.", "quantifier": "every operation history", "why_tests_cant": "unbounded histories", "anchors": ["include/fast_ber/ber_types/Integer.hpp", "include/fast_ber/util/SmallFixedIdBerContainer.hpp"]}
{"id": "C19", "title": "Boolean round-trip and BER tolerance", "statement": "A Boolean encodes as one content octet 0x00 or 0xFF, decodes any one-octet content (non-zero is true), rejects every other content length, and round-trips.", "quantifier": "both values, every identifier, every input packet", "why_tests_cant": "all 256 octets, all lengths, all identifiers", "anchors": ["include/fast_ber/ber_types/Boolean.hpp"]}
{"id": "C20", "title": "Null round-trip and strictness", "statement": "Null encodes to a header with empty content and decodes exactly the packets with its identifier, primitive form and empty content.", "quantifier": "every identifier and input packet", "why_tests_cant": "all packets", "anchors": ["include/fast_ber/ber_types/Null.hpp"]}
{"id": "C21", "title": "Enumerated values round-trip", "statement": "Every value of an enumeration (underlying type int, as in generated code, or any signed type of at most 64 bits) round-trips through Enumerated encode and decode; and after a successful decode value() is the number that was received.", "quantifier": "every underlying width, every value of the enumeration, every identifier; every received number", "why_tests_cant": "2^64 values", "anchors": ["include/fast_ber/ber_types/Enumerated.hpp"]}
{"id": "C22", "title": "String contents round-trip under every identifier", "statement": "Assigning any octets to a string/octet string, encoding, and decoding into a fresh object gives the same octets; encoded_length equals the bytes written.", "quantifier": "every content below 2^63 octets, every depth 1 or 2 identifier", "why_tests_cant": "unbounded contents, header size classes", "anchors": ["include/fast_ber/ber_types/StringImpl.hpp", "include/fast_ber/util/FixedIdBerContainer.hpp"]}
{"id": "C23", "title": "String containers stay well formed over any history", "statement": "After any history of construction, assign_content, resize_content, copy, and decode of single-tag packets, a FixedIdBerContainer holds one packet: the view of its bytes is valid, has the fixed identifier, and its content equals content().", "quantifier": "every operation history", "why_tests_cant": "unbounded histories", "anchors": ["include/fast_ber/util/FixedIdBerContainer.hpp"]}
{"id": "C24", "title": "Resizing content keeps the common prefix", "statement": "resize_content(n) leaves the first min(old,n) content octets unchanged and sets the content length to n, whatever header growth or shrinkage this causes.", "quantifier": "every content and new size", "why_tests_cant": "header size changes at 127/128, 255/256, ...", "anchors": ["include/fast_ber/util/FixedIdBerContainer.hpp:resize_content", "include/fast_ber/util/BerContainer.hpp:resize_content"]}
{"id": "C25", "title": "Failed decode of a primitive leaves the object unchanged", "statement": "If decode fails on Integer, Enumerated, Boolean, Null, string and object identifier objects, the object's value and encoding are unchanged.", "quantifier": "every object state and every rejected input", "why_tests_cant": "all rejected inputs", "anchors": ["include/fast_ber/util/FixedIdBerContainer.hpp:decode_impl", "include/fast_ber/util/SmallFixedIdBerContainer.hpp:decode_impl", "include/fast_ber/ber_types/Boolean.hpp:decode"]}
{"id": "C26", "title": "Explicitly tagged strings expose the inner content", "statement": "After a successful decode of an explicitly tagged string, content() is the content of the inner packet.", "quantifier": "every accepted packet", "why_tests_cant": "only packets with bytes after the inner packet fail", "anchors": ["include/fast_ber/util/FixedIdBerContainer.hpp:decode_impl(DoubleId)"]}
{"id": "C27", "title": "Small containers stay in bounds", "statement": "A SmallFixedIdBerContainer with a maximum content length allowed by its static_assert never stores more than its maximum and its bytes always form a valid packet with the stored content.", "quantifier": "every allowed maximum, identifier, and history of assign/resize/decode", "why_tests_cant": "the boundary maximum 128", "anchors": ["include/fast_ber/util/SmallFixedIdBerContainer.hpp"]}
{"id": "C28", "title": "BerContainer round-trips arbitrary packets", "statement": "decode of a valid view followed by encode reproduces the packet's bytes; assign_content(construction, class, tag, content) gives a container that reports exactly these.", "quantifier": "every packet, class, tag, construction, content", "why_tests_cant": "unbounded contents", "anchors": ["include/fast_ber/util/BerContainer.hpp"]}
{"id": "C29", "title": "Copies of a BerContainer are equivalent to the original", "statement": "A copy-assigned BerContainer is valid if and only if the original is, and has the same packet.", "quantifier": "every container state including those left by failed decodes", "why_tests_cant": "needs an invalid source", "anchors": ["include/fast_ber/util/BerContainer.hpp:operator="]}
{"id": "C30", "title": "BerContainer resize keeps identifier and content prefix", "statement": "resize_content on a valid BerContainer keeps the identifier and the common content prefix.", "quantifier": "every valid container, including those decoded from non-minimal identifiers", "why_tests_cant": "non-minimal identifiers", "anchors": ["include/fast_ber/util/BerContainer.hpp:resize_content", "include/fast_ber/util/BerView.hpp:identifier_length"]}
{"id": "C31", "title": "Object identifiers round-trip", "statement": "For every component list with at least two components, first in 0..2, second in 0..39 and all others in 0..2^63-1, assign succeeds and value() returns the same list, also after encode/decode.", "quantifier": "every component list", "why_tests_cant": "unbounded lists of 63-bit numbers", "anchors": ["include/fast_ber/ber_types/ObjectIdentifier.hpp"]}
{"id": "C32", "title": "Object identifier contents follow X.690", "statement": "The content octets of an assigned object identifier are 40*first+second followed by the minimal base-128 encoding of each further component, and encoded_object_id_length equals their number.", "quantifier": "every valid component list", "why_tests_cant": "unbounded lists", "anchors": ["include/fast_ber/ber_types/ObjectIdentifier.hpp:encode_object_id,encoded_object_id_length"]}
{"id": "C33", "title": "Object identifier decoding follows X.690 for every content", "statement": "decode_object_id returns the components X.690 8.19 assigns to the content, including first components 2 with large second components.", "quantifier": "every content octet string", "why_tests_cant": "only first octets >= 120 or multi-octet first subidentifiers fail", "anchors": ["include/fast_ber/ber_types/ObjectIdentifier.hpp:decode_object_id"]}
{"id": "C34", "title": "Object identifier component accessor agrees with the decoded value", "statement": "component_number(i) equals the i-th element of value() for every i below number_of_components(), and number_of_components() equals value().size().", "quantifier": "every content and index", "why_tests_cant": "every index", "anchors": ["include/fast_ber/ber_types/ObjectIdentifier.hpp:get_component_number,get_number_of_components"]}
{"id": "C35", "title": "A rejected object identifier assignment has no effect", "statement": "If ObjectIdentifier::assign returns false the object still holds its previous value.", "quantifier": "every previous value and rejected list", "why_tests_cant": "all rejected lists", "anchors": ["include/fast_ber/ber_types/ObjectIdentifier.hpp:assign"]}
{"id": "C36", "title": "Reals round-trip", "statement": "Assigning any double to a Real and reading value() gives the same double (NaN for NaN).", "quantifier": "all 2^64 doubles", "why_tests_cant": "2^64 bit patterns", "anchors": ["include/fast_ber/ber_types/Real.hpp:encode_real,decode_real_binary"]}
{"id": "C37", "title": "Real contents denote the assigned double", "statement": "The content octets produced for a finite non-zero double denote, by X.690 8.5, exactly the value of that double; infinities, NaN and zeros use the special forms.", "quantifier": "all 2^64 doubles", "why_tests_cant": "2^64 bit patterns", "anchors": ["include/fast_ber/ber_types/Real.hpp:encode_real"]}
{"id": "C38", "title": "Reading a Real always terminates", "statement": "Real::value() terminates for every content that Real::decode accepted.", "quantifier": "every content octet string", "why_tests_cant": "all contents", "anchors": ["include/fast_ber/ber_types/Real.hpp:decode_real_binary"]}
{"id": "C39", "title": "Real decoding accepts every valid short encoding", "statement": "decode_real_binary accepts the three-octet encodings X.690 allows (control, exponent, mantissa).", "quantifier": "every 3-octet binary encoding", "why_tests_cant": "all control octets", "anchors": ["include/fast_ber/ber_types/Real.hpp:check_real_binary"]}
{"id": "C40", "title": "encoded_length is exact for every type", "statement": "For every value of every type built from the library's primitives, Optional, Default, SequenceOf, Choice and generated SEQUENCE, SET and CHOICE, encoded_length() equals the length reported and written by a successful encode.", "quantifier": "every schema (unbounded nesting), every value", "why_tests_cant": "unbounded types and values", "anchors": ["include/fast_ber/ber_types/SequenceOf.hpp", "src/compiler/EncodeDecode.cpp:create_collection_encode_functions,create_choice_encode_functions", "include/fast_ber/ber_types/Optional.hpp", "include/fast_ber/ber_types/Default.hpp"]}
{"id": "C41", "title": "encode succeeds exactly when the buffer is large enough", "statement": "For every such value, encode succeeds if and only if the buffer has at least encoded_length() bytes; on success the first encoded_length() bytes are the encoding and every later byte is unchanged; on failure the buffer's size is unchanged and the reported length is 0.", "quantifier": "every schema, value and buffer size", "why_tests_cant": "header guesses and memmove at every size boundary", "anchors": ["include/fast_ber/util/EncodeHelpers.hpp:wrap_with_ber_header", "src/compiler/EncodeDecode.cpp"]}
{"id": "C42", "title": "Decoding an encoding returns the value", "statement": "For every schema whose identifiers are unambiguous and every value, decoding the encoded bytes, followed by anything, succeeds and returns an equal value.", "quantifier": "every unambiguous schema, every value, every trailing bytes, every previous object state", "why_tests_cant": "unbounded types and values", "anchors": ["src/compiler/EncodeDecode.cpp", "include/fast_ber/ber_types/SequenceOf.hpp", "include/fast_ber/ber_types/Choice.hpp", "include/fast_ber/ber_types/Optional.hpp", "include/fast_ber/ber_types/Default.hpp"]}
{"id": "C43", "title": "Distinct values have distinct encodings", "statement": "Two values of the same unambiguous schema whose encodings are equal are equal.", "quantifier": "every schema, every pair of values", "why_tests_cant": "pairs", "anchors": ["src/compiler/EncodeDecode.cpp"]}
{"id": "C44", "title": "Decoding never reads outside the input", "statement": "Decoding any byte string as any schema type only reads bytes of the input.", "quantifier": "every schema and every byte string", "why_tests_cant": "attacker controlled input", "anchors": ["include/fast_ber/util/BerView.hpp", "src/compiler/EncodeDecode.cpp"]}
{"id": "C45", "title": "Decoding rejects packets with the wrong identifier", "statement": "A successful decode of a type with a fixed identifier implies the input starts with a complete packet with that class, tag and construction.", "quantifier": "every schema type and byte string", "why_tests_cant": "all inputs", "anchors": ["include/fast_ber/util/DecodeHelpers.hpp:has_correct_header"]}
{"id": "C46", "title": "Optional and Default components", "statement": "An absent optional encodes to nothing and decodes to empty from an invalid view; a default component equal to its default is omitted; a present one is encoded as the underlying type; a non-matching identifier fails without changing the object.", "quantifier": "every underlying type, value and view", "why_tests_cant": "all types", "anchors": ["include/fast_ber/ber_types/Optional.hpp", "include/fast_ber/ber_types/Default.hpp"]}
{"id": "C47", "title": "Default values have a single representation", "statement": "Decoding a packet that explicitly carries the default value gives an object that reports is_default() (and so re-encodes canonically).", "quantifier": "every default component", "why_tests_cant": "all values", "anchors": ["include/fast_ber/ber_types/Default.hpp:decode"]}
{"id": "C48", "title": "SET decoding is independent of order", "statement": "Decoding a SET whose members arrive in any order gives the same result as in definition order.", "quantifier": "every SET schema, value and permutation", "why_tests_cant": "n! permutations", "anchors": ["src/compiler/EncodeDecode.cpp:create_collection_decode_functions"]}
{"id": "C49", "title": "SET decoding rejects missing, duplicate and unknown members", "statement": "SET decode fails if a mandatory member is missing, a member occurs twice, or (without extensibility) an unknown identifier occurs; absent optional members become empty and absent default members their default whatever the object held before.", "quantifier": "every SET schema and input", "why_tests_cant": "all inputs", "anchors": ["src/compiler/EncodeDecode.cpp:create_collection_decode_functions"]}
{"id": "C50", "title": "SEQUENCE decoding ignores unknown trailing members", "statement": "Appending further packets after the last member of a SEQUENCE does not change the result of decode (forward compatibility).", "quantifier": "every schema, value and appended packets", "why_tests_cant": "unbounded", "anchors": ["src/compiler/EncodeDecode.cpp:create_collection_decode_functions"]}
{"id": "C51", "title": "SEQUENCE OF accepts only well-formed content", "statement": "A successful SEQUENCE OF / SEQUENCE decode implies that the whole content was consumed as complete packets.", "quantifier": "every input", "why_tests_cant": "inputs with trailing garbage", "anchors": ["include/fast_ber/ber_types/SequenceOf.hpp:decode"]}
{"id": "C52", "title": "CHOICE decoding selects by class and tag", "statement": "Decoding a generated CHOICE selects an alternative only if the input packet's class and tag are that alternative's.", "quantifier": "every CHOICE schema and packet", "why_tests_cant": "class and tag combinations", "anchors": ["src/compiler/EncodeDecode.cpp:create_choice_decode_functions"]}
{"id": "C53", "title": "Automatic tagging round-trips", "statement": "In a module with AUTOMATIC TAGS, a SEQUENCE with optional or default members round-trips.", "quantifier": "every SEQUENCE schema and value", "why_tests_cant": "all schemas", "anchors": ["src/compiler/TypeAsString.cpp:create_collection_definition", "src/compiler/EncodeDecode.cpp:create_collection_decode_functions"]}
{"id": "C54", "title": "The compiler rejects ambiguous SEQUENCEs", "statement": "Every SEQUENCE accepted by the compiler's check decodes unambiguously: no optional member can be mistaken for a later member.", "quantifier": "every SEQUENCE definition", "why_tests_cant": "all definitions", "anchors": ["src/compiler/TypeAsString.cpp:check_valid"]}
{"id": "C55", "title": "The compiler rejects SETs and CHOICEs with duplicate identifiers", "statement": "check_valid(SET) and identifier(CHOICE) throw exactly when two members or alternatives share an outer identifier.", "quantifier": "every definition", "why_tests_cant": "all definitions", "anchors": ["src/compiler/TypeAsString.cpp:check_valid(SetType)", "src/compiler/Identifier.cpp:identifier(ChoiceType)"]}
{"id": "C56", "title": "Tag stacks follow X.680", "statement": "The identifier the compiler assigns to a tagged type produces the tags X.680 prescribes: explicit adds a tag, implicit replaces the outermost one.", "quantifier": "every tagged type nesting", "why_tests_cant": "unbounded nesting", "anchors": ["src/compiler/Identifier.cpp:identifier(TaggedType)"]}
{"id": "C57", "title": "Reordering puts definitions before uses", "statement": "reorder_assignments returns a permutation of the module's assignments in which every assignment comes after those it depends on, or fails / marks a cycle; it fails when a name is undefined or duplicated.", "quantifier": "every module", "why_tests_cant": "unbounded dependency graphs", "anchors": ["src/compiler/ReorderAssignments.cpp:reorder_assignments,resolve_dependencies,check_duplicated_names"]}
{"id": "C58", "title": "Module reordering puts imported modules first", "statement": "reorder_modules returns a permutation in which every module comes after the modules it imports, or fails.", "quantifier": "every module graph", "why_tests_cant": "unbounded graphs", "anchors": ["src/compiler/ReorderAssignments.cpp:reorder_modules,resolve_module_dependencies"]}
{"id": "C59", "title": "Sanitised names are legal and not reserved", "statement": "santize_name returns a name with no hyphen that is not one of the compiler's reserved words, and leaves other names alone.", "quantifier": "every name", "why_tests_cant": "unbounded strings, one missing comma", "anchors": ["src/compiler/CompilerTypes.cpp:santize_name,reserved_keywords"]}
{"id": "C60", "title": "Distinct ASN.1 names stay distinct", "statement": "Two different ASN.1 names are sanitised to different C++ names.", "quantifier": "every pair of names", "why_tests_cant": "pairs", "anchors": ["src/compiler/CompilerTypes.cpp:santize_name"]}
{"id": "C61", "title": "Hex string values denote their bytes", "statement": "The C++ literal generated for an ASN.1 hstring denotes the bytes of that hstring.", "quantifier": "every hstring", "why_tests_cant": "all byte values", "anchors": ["src/compiler/ValueAsString.cpp:cpp_value"]}
{"id": "C62", "title": "Type references resolve or fail", "statement": "Resolving a type reference to its underlying type terminates for every set of definitions, returning the builtin type at the end of the alias chain or an error.", "quantifier": "every set of definitions", "why_tests_cant": "alias cycles", "anchors": ["src/compiler/ResolveType.cpp:resolve_type_and_module"]}
{"id": "C63", "title": "COMPONENTS OF expansion", "statement": "resolve_components_of replaces every COMPONENTS OF by the referenced type's components, in place and in order, recursively.", "quantifier": "every definition", "why_tests_cant": "unbounded nesting", "anchors": ["src/compiler/ReorderAssignments.cpp:resolve_components_of"]}
{"id": "C64", "title": "Dynamic optionals own their value", "statement": "DynamicOptional never leaks, double-frees or aliases: after any history of construct, copy, move, assign (including self-assignment), emplace, reset, each live object owns at most one live allocation and copies are independent.", "quantifier": "every operation history", "why_tests_cant": "unbounded histories", "anchors": ["include/fast_ber/util/DynamicOptional.hpp"]}
{"id": "C65", "title": "Dynamic variants own their value", "statement": "DynamicVariant never uses freed memory, leaks or double-frees over any history of construct, copy, move, assign (including self-assignment) and emplace.", "quantifier": "every operation history", "why_tests_cant": "unbounded histories", "anchors": ["include/fast_ber/util/DynamicVariant.hpp"]}
{"id": "C66", "title": "GeneralizedTime decode and format", "statement": "GeneralizedTime::decode accepts only contents of 10 to 23 octets and a rejected decode leaves the object unchanged; set_time produces a content whose parsed time is the given one.", "quantifier": "every content, every time", "why_tests_cant": "all contents", "anchors": ["include/fast_ber/ber_types/GeneralizedTime.hpp"]}
{"id": "C67", "title": "Building a view has defined behaviour for every input", "statement": "Constructing a BerView from any byte string never has undefined behaviour (such as signed overflow while reading a long tag).", "quantifier": "every byte string (attacker controlled)", "why_tests_cant": "the tag accumulates over an unbounded number of octets; only a proof over all inputs shows no overflow", "anchors": ["include/fast_ber/util/Extract.hpp: extract_tag", "include/fast_ber/util/BerView.hpp: BerView::assign"]}
{"id": "C68", "title": "Resizing stays inside the container's size", "statement": "resize_content only reads octets inside the container's current size, whatever the old and new content lengths.", "quantifier": "every reachable container and every new size", "why_tests_cant": "The read past size() stays inside the allocation, so no crash or wrong value shows up in a test; it must be excluded for every pair of sizes.", "anchors": ["include/fast_ber/util/FixedIdBerContainer.hpp: FixedIdBerContainer::resize_content"]}
{"id": "C69", "title": "Object identifier assignment accepts only valid lists", "statement": "ObjectIdentifier::assign returns true exactly for lists of at least two components with the first in 0..2, the second in 0..39 and all others non-negative, and never overflows.", "quantifier": "every list of 64-bit components and every state of the object", "why_tests_cant": "Tests try a few rejected lists; negative leading components and the overflow of 40*first need the whole range of int64.", "anchors": ["include/fast_ber/ber_types/ObjectIdentifier.hpp: encode_object_id, ObjectIdentifier::assign"]}
{"id": "C70", "title": "A Real is read as the number X.690 says", "statement": "value() of a Real holding a binary encoding is the number that X.690 8.5.7 gives that encoding (truncated to 53 bits).", "quantifier": "every binary encoding: all control octets, exponents and mantissas", "why_tests_cant": "unboundedly many encodings of each number", "anchors": ["include/fast_ber/ber_types/Real.hpp:decode_real_binary"]}
{"id": "C71", "title": "Character string values denote their characters", "statement": "The C++ expression generated for an ASN.1 character string value denotes the characters of that value.", "quantifier": "every cstring token", "why_tests_cant": "quoting and escaping rules over all strings", "anchors": ["src/compiler/ValueAsString.cpp:value_as_string"]}
{"id": "C72", "title": "Bit string values denote their bits", "statement": "The C++ expression generated for a BIT STRING value denotes the bits of that value.", "quantifier": "every bstring and hstring", "why_tests_cant": "all bit strings", "anchors": ["src/compiler/ValueAsString.cpp:value_as_string"]}
{"id": "C73", "title": "Integer and object identifier values", "statement": "The C++ expression generated for an INTEGER or OBJECT IDENTIFIER value denotes that value.", "quantifier": "every int64 and every component list", "why_tests_cant": "all numbers and lists", "anchors": ["src/compiler/ValueAsString.cpp:value_as_string", "src/compiler/include/fast_ber/compiler/CompilerTypes.hpp:ObjectIdComponents"]}
{"id": "C74", "title": "Recursive values compare by value", "statement": "Comparing two DynamicOptionals or DynamicVariants with == is deep equality of what they contain and never touches invalid memory; operator< is a strict order consistent with it.", "quantifier": "every pair of values reachable by any operation history", "why_tests_cant": "unbounded nesting depth and histories", "anchors": ["include/fast_ber/util/DynamicOptional.hpp operator==", "include/fast_ber/util/DynamicVariant.hpp operator==, operator<, LessThan"]}
{"id": "C75", "title": "When building a view is undefined", "statement": "Constructing a BerView from a byte string (or advancing a BerViewIterator to it) has undefined behaviour exactly when the string starts with a multi-octet tag whose leading octets already have a value of 2^56 or more; for every other byte string it gives a view.", "quantifier": "all byte strings", "why_tests_cant": "the condition concerns unboundedly many prefixes; a test shows one", "anchors": ["include/fast_ber/util/Extract.hpp: extract_tag", "include/fast_ber/util/BerView.hpp: BerView::assign"]}
{"id": "C76", "title": "When a valid view leaves its buffer", "statement": "A view that reports is_valid() is either wholly inside its span, with content() the octets after the header, or its header length plus length field is at least 2^64 and content() is out of bounds: nothing in between.", "quantifier": "all byte strings shorter than 2^63", "why_tests_cant": "needs every length field value", "anchors": ["include/fast_ber/util/BerView.hpp: BerView::assign, content"]}
{"id": "C77", "title": "When iterating over children ends", "statement": "A loop over the children of any view runs forever exactly when it reaches a child whose header length plus length field is 2^64, is undefined exactly when it reaches a tag as in C75, and otherwise ends within content-length + 1 rounds.", "quantifier": "all content byte strings shorter than 2^63", "why_tests_cant": "non-termination cannot be observed by a test", "anchors": ["include/fast_ber/util/BerView.hpp: BerViewIterator::operator++, begin"]}
{"id": "C78", "title": "Integer::decode accepts an exact set of inputs", "statement": "For an Integer in any reachable state and any readable byte sequence, decode succeeds if and only if the bytes begin with a primitive packet carrying the type's identifier(s) and at most eight content octets; the value is then the two's complement value of those octets (0 for none), and a failed decode leaves object and value as they were.", "quantifier": "all identifiers, all reachable Integer objects, all byte sequences whose tags and lengths fit in 63 bits", "why_tests_cant": "acceptance is an iff over all inputs and all prior object states", "anchors": ["include/fast_ber/ber_types/Integer.hpp: decode, value", "include/fast_ber/util/SmallFixedIdBerContainer.hpp: decode"]}
{"id": "C79", "title": "String objects: what they hold after any history", "statement": "After any sequence of constructions (from contents, from accepted or rejected views, from other strings), assignments, resizes, copies and decodes, a string object either holds nothing (constructed from a rejected view and unchanged since: it encodes to zero octets and content() is empty) or holds exactly one packet of its type, encodes to it, and content() is the last |x| octets of the packet where x is the innermost content; every operation is defined in every such state, resize keeps the common prefix, decode accepts exactly the packets of the type.", "quantifier": "all identifiers, all histories, all inputs", "why_tests_cant": "histories and inputs are unbounded", "anchors": ["include/fast_ber/util/FixedIdBerContainer.hpp", "include/fast_ber/ber_types/StringImpl.hpp"]}
{"id": "C80", "title": "resize_content reads inside the vector exactly when the header does not shrink", "statement": "For a string object holding content x, shrinking to n octets reads only inside the vector's size if and only if the new header is at least as long as the old one; growing, if and only if the old packet is not longer than the new one.", "quantifier": "all reachable string objects, all new sizes", "why_tests_cant": "the boundary depends on all pairs of old and new sizes", "anchors": ["include/fast_ber/util/FixedIdBerContainer.hpp: resize_content"]}
{"id": "C81", "title": "Copy assignment of BerContainer, exactly", "statement": "Copy-assigning a BerContainer gives a container that claims to be valid in every case; if the original holds a packet the copy shows the same packet, class, tag and content; if the original was left by a failed decode the copy has no octets and reading its class is undefined behaviour.", "quantifier": "all containers holding a packet, all rejected views", "why_tests_cant": "depends on the full history of the source object", "anchors": ["include/fast_ber/util/BerContainer.hpp: operator=, decode"]}
{"id": "C82", "title": "ObjectIdentifier::value for every content", "statement": "For every content octets: empty content gives no components; otherwise value() is the first octet divided by 40, its remainder, and one component per complete base-128 group after it, reduced to the range of int64_t, an incomplete last group being ignored. Hence X.690 content decodes to its components if and only if its first subidentifier is below 120 and all later components fit in int64_t.", "quantifier": "all byte sequences", "why_tests_cant": "all contents of any length", "anchors": ["include/fast_ber/ber_types/ObjectIdentifier.hpp: decode_object_id, value"]}
{"id": "C83", "title": "ObjectIdentifier::component_number, exactly", "statement": "In every reachable state: number_of_components() is the size of value(); component_number(n) is -1 when nothing is held, value()[0] for n = 0, undefined behaviour for n = 1 with one content octet and otherwise the second content octet modulo 40, and for n >= 2 it is 0 when value() has an n-th element and -1 when not.", "quantifier": "all reachable objects, all n", "why_tests_cant": "all histories and indices", "anchors": ["include/fast_ber/ber_types/ObjectIdentifier.hpp: get_component_number, get_number_of_components"]}
{"id": "C84", "title": "ObjectIdentifier::assign, exactly", "statement": "For every list of int64_t and every reachable object: assign is undefined exactly when the first element is at most 2, the second at most 39 and 40*a+b overflows; otherwise it returns true exactly when there are at least two elements, the first at most 2, the second at most 39 and no later element is negative; the content is then (40*a+b) mod 256 followed by the shortest base-128 forms, and value() equals the list exactly when the first two elements are not negative; in all cases the object still encodes to one packet of its type.", "quantifier": "all lists of int64_t, all reachable objects", "why_tests_cant": "lists are unbounded and the object state matters", "anchors": ["include/fast_ber/ber_types/ObjectIdentifier.hpp: assign, encode_object_id"]}
{"id": "C85", "title": "Reading binary REALs, exactly", "statement": "Given contents octets whose first octet is 128 or more, the reader accepts exactly the inputs of two listed forms; on each it either never returns (leading octet of the mantissa below 16 and exponent not far below the denormal range) or returns (-1)^s * N * 2^e truncated towards zero to a double, where e is computed from one exponent octet (short form) or two (long form) whatever the exponent's length.", "quantifier": "every octet string with first octet >= 128, shorter than 2^27 octets", "why_tests_cant": "quantifies over all octet strings and includes non-termination", "anchors": ["include/fast_ber/ber_types/Real.hpp:decode_real_binary", "include/fast_ber/ber_types/Real.hpp:check_real_binary"]}
{"id": "C86", "title": "Real::value, exactly", "statement": "For a Real in any state it can reach, value() is determined by the contents octets: zero for empty contents, the four special values, the decimal reader's answer, the binary reader's answer, and 0.0 for everything that is rejected.", "quantifier": "every reachable Real object and every contents", "why_tests_cant": "quantifies over all histories of the object", "anchors": ["include/fast_ber/ber_types/Real.hpp:Real::value", "include/fast_ber/ber_types/Real.hpp:decode_real"]}
{"id": "C87", "title": "Which doubles survive assign and value", "statement": "After assigning a double, value() gives it back exactly when it is zero, infinite, NaN or of magnitude from 2^-76 to below 2^180; it never returns exactly for the denormals whose doubled fraction has a leading octet below 16; for the others it returns mantissa * 2^(floor(scale/256)).", "quantifier": "every double and every prior state of the object", "why_tests_cant": "2^64 doubles and unbounded histories", "anchors": ["include/fast_ber/ber_types/Real.hpp:encode_real", "include/fast_ber/ber_types/Real.hpp:decode_real"]}
{"id": "C88", "title": "Boolean and enumerated values in generated code", "statement": "A BOOLEAN value is written as the C++ literal with the same truth value; an ENUMERATED value is written as the qualified name of an enumerator of the enum class generated for its type; other values for an ENUMERATED make the compiler stop.", "quantifier": "every value and every enumeration", "why_tests_cant": "quantifies over all schemas", "anchors": ["src/compiler/ValueAsString.cpp:value_as_string"]}
{"id": "C89", "title": "Numbers of generated enumerators", "statement": "The enum class generated for an ENUMERATED type gives each item the number X.680 assigns it, distinct for distinct items.", "quantifier": "every list of enumeration items", "why_tests_cant": "quantifies over all schemas", "anchors": ["src/compiler/TypeAsString.cpp:create_type_assignment", "src/compiler/asn_compiler.yacc:Enumerations"]}
{"id": "C90", "title": "Printing enumerated values", "statement": "The generated to_string returns the name of the item with the given number, and 'Invalid state!' for a number no item has.", "quantifier": "every enumeration and every value", "why_tests_cant": "quantifies over all schemas and values", "anchors": ["src/compiler/GenerateHelpers.cpp:create_helper_functions_impl"]}
{"id": "C91", "title": "Parameterized types keep their meaning", "statement": "After the compiler has instantiated parameterized types, every type name still means the type it means by X.683 (dummy references stand for the actual parameters), no template and no reference with parameters is left, and modules are rejected exactly when some reference does not fit a template.", "quantifier": "every set of modules with parameterized types and every type name in it", "why_tests_cant": "quantifies over all sets of modules, including mutually recursive types", "anchors": ["src/compiler/Parameters.cpp:resolve_parameterized", "src/compiler/Parameters.cpp:parameterized_to_concrete", "src/compiler/Parameters.cpp:resolve_parameters"]}
{"id": "C92", "title": "Imports", "statement": "After the compiler has turned imports into definitions, every type means without the import lists what it meant with them, and a name can be resolved exactly when it is defined or imported.", "quantifier": "every set of modules, every type", "why_tests_cant": "quantifies over all sets of modules, including mutually recursive types", "anchors": ["src/compiler/ReorderAssignments.cpp:split_imports"]}
{"id": "C93", "title": "Nested structures", "statement": "Taking structures, choices and enumerations out of list types and tags keeps every type's meaning, leaves none behind, and gives each a name of its own.", "quantifier": "every set of modules, every type name, every starting value of the counter", "why_tests_cant": "quantifies over all sets of modules, including mutually recursive types", "anchors": ["src/compiler/ReorderAssignments.cpp:find_nested_structs", "src/compiler/ReorderAssignments.cpp:split_nested_structures"]}
{"id": "C94", "title": "Object classes are resolved", "statement": "Replacing class fields by their types and removing classes, objects and their other names keeps every remaining type's meaning, leaves no class and no class field, and throws exactly when a reference or a class field is not known.", "quantifier": "every set of modules with object classes, every type name", "why_tests_cant": "quantifies over all sets of modules, including mutually recursive types", "anchors": ["src/compiler/ObjectClass.cpp:object_class_to_concrete", "src/compiler/ObjectClass.cpp:remove_object_classes", "src/compiler/ObjectClass.cpp:resolve_object_classes"]}
{"id": "C95", "title": "Which names are object classes", "statement": "The search for names of classes always ends and finds exactly the classes, their other names (through assignments and imports, of any length) and their objects.", "quantifier": "every set of modules with object classes, every name", "why_tests_cant": "quantifies over all sets of modules, including mutually recursive types", "anchors": ["src/compiler/ObjectClass.cpp:get_object_class_names"]}
{"id": "C96", "title": "Recursive types: decode, encode and construction end, at a depth bounded by the data", "statement": "For definitions that refer to themselves (directly or through each other) but are never empty loops, decoding any input, encoding any object and default construction give one result that depends only on a finite number of nested definitions: for decoding at most (input octets + 3) * (K + 2), where K bounds the chains of definitions without a packet between them.", "quantifier": "All sets of recursive definitions, types, objects, inputs and buffers", "why_tests_cant": "Nesting depth is unbounded; tests use a few depths of a few types", "anchors": ["include/fast_ber/ber_types/Optional.hpp: DynamicOptional", "include/fast_ber/ber_types/Choice.hpp: decode_if", "src/compiler/ReorderAssignments.cpp: reorder_assignments (recursive types)", "src/compiler/EncodeDecode.cpp"]}
{"id": "C97", "title": "Recursive types: decoding arbitrary input stays in bounds and leaves a valid object", "statement": "For recursive definitions in which no CHOICE without a tag is a mandatory SEQUENCE member, decoding any (tame) input into any valid object never reads outside the input, ends, and leaves a valid object. The nesting depth is not limited: it grows with the input (refuted: a bound on the recursion depth).", "quantifier": "All such recursive definitions, objects and input octet strings", "why_tests_cant": "Adversarial inputs nest arbitrarily deep", "anchors": ["src/compiler/EncodeDecode.cpp: create_collection_decode_functions, create_choice_decode_functions", "include/fast_ber/util/BerView.hpp"]}
{"id": "C98", "title": "Recursive types: encode writes a BER encoding that decodes to the same value", "statement": "For recursive definitions with distinct tags, encode writes exactly encoded_length octets which form a BER encoding of the object's value (or fails when the buffer is too small), and every definite-length BER encoding of a value followed by anything decodes to that value; different values have different encodings.", "quantifier": "All such recursive definitions, all values of any nesting depth, all buffers and following octets", "why_tests_cant": "Values nest arbitrarily deep", "anchors": ["src/compiler/EncodeDecode.cpp", "include/fast_ber/ber_types/SequenceOf.hpp", "include/fast_ber/ber_types/Choice.hpp", "include/fast_ber/ber_types/Optional.hpp"]}
{"id": "C99", "title": "The lexer applies the longest match, and among equals the first rule", "statement": "On every text, the next token is made by the rule of the lexer specification that matches the longest piece of the text, and by the one written first if several match that much; every text is matched by some rule, and the choice is unique.", "quantifier": "all sequences of octets behind the cursor", "why_tests_cant": "The automaton has several hundred states with back-tracking; its inputs are unboundedly long texts.", "anchors": ["src/compiler/asn_compiler.yacc: yy::yylex", "src/compiler/autogen_copy/asn_compiler.hpp: yy::yylex"]}
{"id": "C100", "title": "The lexer reads only the text of the file", "statement": "Reading the tokens of a file never reads memory behind the terminating NUL of its text, whatever the file contains.", "quantifier": "all files of octets", "why_tests_cant": "An over-read happens only for certain unfinished constructs at the end of a file, and reads memory whose content tests do not control.", "anchors": ["src/compiler/asn_compiler.yacc: yy::yylex", "src/compiler/autogen_copy/asn_compiler.hpp: yy::yylex"]}
{"id": "C101", "title": "The tokens of a file are those of its lexemes, all of them", "statement": "Reading a file ends, and gives exactly the tokens of the lexemes that the text falls into, in order; no part of the text is dropped without a message, and only white space and comments give no token.", "quantifier": "all files of octets", "why_tests_cant": "Texts are unboundedly long and the cutting of one lexeme depends on all the text before it.", "anchors": ["src/compiler/asn_compiler.yacc: yy::yylex, asn_compiler::context", "src/compiler/autogen_copy/asn_compiler.hpp: yy::yylex, asn_compiler::context"]}
{"id": "C102", "title": "Words are keywords, references or identifiers, as a whole", "statement": "A word (letters, digits, single hyphens) that nothing continues is one token: the reserved word it spells, or else a type reference (capital first letter) or identifier with exactly its text; every reserved word of X.680 is read as one.", "quantifier": "all words and all texts behind them", "why_tests_cant": "There are infinitely many words; a keyword that is a prefix of a name must not split it.", "anchors": ["src/compiler/asn_compiler.yacc: yy::yylex", "src/compiler/autogen_copy/asn_compiler.hpp: yy::yylex"]}
{"id": "C103", "title": "White space and comments do not matter", "statement": "White space and comments (two hyphens up to the end of line or two hyphens, slash-star up to star-slash) between tokens do not change the tokens of a file, as X.680 12.6 defines them.", "quantifier": "all files, all comments and white space", "why_tests_cant": "Comments are arbitrarily long texts, and their end marks can overlap or stand inside other lexemes.", "anchors": ["src/compiler/asn_compiler.yacc: yy::yylex", "src/compiler/autogen_copy/asn_compiler.hpp: yy::yylex"]}
{"id": "C104", "title": "Numbers and strings carry their value", "statement": "A number token carries the decimal value of its digits (or the compiler stops with an exception if it does not fit 64 bits), and a string token exactly the text between its quotes, for all literals that X.680 allows.", "quantifier": "all literals and all texts behind them", "why_tests_cant": "Literals are unboundedly long; overflow and the end of a literal depend on all of it.", "anchors": ["src/compiler/asn_compiler.yacc: yy::yylex (stoll, std::string payload)", "src/compiler/autogen_copy/asn_compiler.hpp: yy::yylex (stoll, std::string payload)"]}
{"id": "C105", "title": "Tokens are located where they stand", "statement": "Each token's location has the line and column that the token starts on, so that error messages point to the right place.", "quantifier": "all files of octets and all tokens in them", "why_tests_cant": "Location arithmetic accumulates over the whole text before a token.", "anchors": ["src/compiler/asn_compiler.yacc: yy::yylex, yy::location", "src/compiler/autogen_copy/asn_compiler.hpp: yy::yylex, yy::location"]}
{"id": "C106", "title": "Only sentences of the compiler's grammar are accepted", "statement": "If the compiler accepts an ASN.1 file, the file's tokens are derived from ModuleDefinitionList by the rules of the grammar, and the tree handed to the later passes is the one that the rules' actions build on such a derivation.", "quantifier": "every octet string as the file, every tree read before", "why_tests_cant": "the generated parser is a machine with 876 states driven by packed tables; a wrong entry shows only on the token sequences that reach it", "anchors": ["src/compiler/asn_compiler.yacc 327-1730", "src/compiler/autogen_copy/asn_compiler.hpp asn1_parser::parse", "src/compiler/autogen_copy/asn_compiler.hpp yytable_, yycheck_, yypact_, yydefact_, yypgoto_, yydefgoto_, yyr1_, yyr2_"]}
{"id": "C107", "title": "Parsing comes to an end and does no harm", "statement": "On every file the parser stops after a number of steps linear in the file's length, never reads its tables out of bounds, pops an empty stack or takes a semantic value for one of another type; exceptions and reads past the text can come from the lexer only.", "quantifier": "every octet string as the file, every tree read before", "why_tests_cant": "termination and memory safety quantify over all inputs and all states of the stack", "anchors": ["src/compiler/autogen_copy/asn_compiler.hpp asn1_parser::parse, yy_lr_goto_state_", "src/compiler/asn_compiler.yacc 185-323"]}
{"id": "C108", "title": "The first syntax error is final", "statement": "A file is rejected because of its first tokens: every other file that begins with these tokens is rejected too, whatever follows, so that no text behind an error can make the compiler accept the file or add modules.", "quantifier": "every rejected file and every file that starts with the same tokens", "why_tests_cant": "it relates all continuations of a token sequence, and rests on no state shifting the error token", "anchors": ["src/compiler/autogen_copy/asn_compiler.hpp yyerrlab, yyerrlab1", "src/compiler/asn_compiler.yacc 327-1730"]}
{"id": "C109", "title": "ASN.1 notation is accepted", "statement": "Every file of modules written in ASN.1 notation that the grammar has rules for is accepted, however it is spelled and laid out.", "quantifier": "every list of modules, nesting of types, values and constraints, and every layout with white space and comments", "why_tests_cant": "the grammar is ambiguous and its conflicts are resolved by the generator; which sentences are lost cannot be found by trying some", "anchors": ["src/compiler/asn_compiler.yacc 327-1730", "src/compiler/autogen_copy/asn_compiler.hpp asn1_parser::parse"]}
{"id": "C110", "title": "The tree says what was written", "statement": "The tree that is handed to the later passes contains what the text says: different types, tags, values, defaults and parameters make different trees.", "quantifier": "every pair of files in the notation", "why_tests_cant": "it compares all pairs of texts", "anchors": ["src/compiler/asn_compiler.yacc 327-1730 (actions)", "src/compiler/include/fast_ber/compiler/CompilerTypes.hpp"]}
{"id": "C111", "title": "Files are read one after another without interfering", "statement": "The modules of a file do not depend on the files before it (except for the numbers of components without a name), and the trees of earlier files are left as they are; files in the notation are read as if they were one.", "quantifier": "every list of files and every tree read before", "why_tests_cant": "it relates runs of the parser from different states", "anchors": ["src/compiler_main/CompilerMain.cpp 217-240", "src/compiler/asn_compiler.yacc Context, ModuleDefinition"]}
{"id": "C112", "title": "Components without a name get names of their own", "statement": "Each component without a name gets a generated name that no other component has, across all files of a run.", "quantifier": "every list of files", "why_tests_cant": "the counter is global; freshness quantifies over all texts and all files of a run", "anchors": ["src/compiler/CompilerTypes.cpp gen_anon_member_name", "src/compiler/asn_compiler.yacc 1255-1270"]}
{"id": "C113", "title": "The text of ASN.1 modules decides what is on the wire", "statement": "For any ASN.1 files given to the compiler, in any spelling, and any type assigned in them: the code generated for that type encodes every value it can hold with the tags that X.680 gives the type as written (module default tagging, imports, references into other modules), the encoding decodes to the same value with that code, invalid types are refused, and the same files always give the same code.", "quantifier": "all texts of all lists of files of the supported notation, all types in them, all values of these types, all buffers and all octets that follow", "why_tests_cant": "Tests compile a handful of fixed ASN.1 files; the claim is about every text, through lexer, parser, resolution, code generation and the generated encode/decode functions at once.", "anchors": ["src/compiler_main/CompilerMain.cpp:main", "src/compiler/asn_compiler.yacc", "src/compiler/Identifier.cpp:identifier", "src/compiler/TypeAsString.cpp:type_as_string", "src/compiler/ResolveType.cpp:resolve_type"]}
{"id": "C114", "title": "Types without members have the universal tags of X.680", "statement": "Every built-in type without members that is assigned to a name without a tag is encoded with the universal tag number of X.680 Table 1.", "quantifier": "all texts, all types without members, all values", "why_tests_cant": "The numbers sit in a table that tests sample for a few types only, and what is written also depends on every stage between the text and the encode function.", "anchors": ["src/compiler/Identifier.cpp:identifier", "src/compiler/include/fast_ber/compiler/CompilerTypes.hpp:UniversalTag", "src/compiler/include/fast_ber/compiler/CompilerTypes.hpp:universal_tag"]}
{"id": "C115", "title": "Fresh objects encode to valid encodings", "statement": "An object of a generated type that nothing has been assigned to encodes to contents octets that X.690 allows for its type.", "quantifier": "all texts, all types without members", "why_tests_cant": "Tests assign before they encode; defaults of every type would have to be checked against the standard.", "anchors": ["include/fast_ber/ber_types/BitString.hpp", "include/fast_ber/ber_types/ObjectIdentifier.hpp", "include/fast_ber/ber_types/GeneralizedTime.hpp", "include/fast_ber/ber_types/UTCTime.hpp"]}
{"id": "C116", "title": "ber_view terminates and its exit status tells whether a packet was found", "statement": "The ber_view tool terminates for every file without undefined behaviour: it prints null and returns -1 exactly when the file does not start with a supported BER packet, and otherwise prints the packet and returns 0.", "quantifier": "every file content, every platform behaviour of std::isprint", "why_tests_cant": "files are arbitrary octets; nesting and lengths are unbounded, and the failures (header lengths that wrap, empty times) are single points in that space", "anchors": ["src/view/view.cpp:main", "src/util/BerView.cpp:operator<<", "include/fast_ber/util/BerView.hpp:BerViewIterator"]}
{"id": "C117", "title": "ber_view prints JSON that describes the packet tree", "statement": "What ber_view prints (operator<< of a view) is a JSON text: an object with the packet's length, class and tag, and its content - for a constructed packet the array of what is printed for the packets in it, in order, for a primitive packet its value.", "quantifier": "every packet tree, of any depth and width, with any octets as contents", "why_tests_cant": "every tree of packets and every content; a text that is no JSON appears only for particular contents", "anchors": ["src/util/BerView.cpp:operator<<", "include/fast_ber/ber_types/StringImpl.hpp:operator<<", "include/fast_ber/ber_types/Identifier.hpp:operator<<", "include/fast_ber/ber_types/Tag.hpp", "include/fast_ber/ber_types/Class.hpp", "include/fast_ber/ber_types/ObjectIdentifier.hpp:operator<<"]}
{"id": "C118", "title": "Printing a generated object gives JSON that says its value", "statement": "operator<< of an object of a generated type (SEQUENCE, SET, CHOICE, SEQUENCE OF, primitive types, OPTIONAL and DEFAULT members) writes a JSON text whose members are named as in the schema and whose leaves are the values of the object.", "quantifier": "every schema built from the modelled types, every object of it, of any size", "why_tests_cant": "every type and value; escaping, unknown enumerators and unparsable times are failures for single values", "anchors": ["include/fast_ber/ber_types/SequenceOf.hpp:operator<<", "src/compiler/GenerateHelpers.cpp:create_ostream_operators", "include/fast_ber/ber_types/Choice.hpp:operator<<", "include/fast_ber/ber_types/Optional.hpp:operator<<", "include/fast_ber/ber_types/Default.hpp:operator<<"]}
{"id": "C119", "title": "operator== of generated objects means the same ASN.1 value", "statement": "For two objects of a generated type, a == b is true exactly when both hold the same ASN.1 value, a DEFAULT member that was left out counting with its default; so == is reflexive, symmetric and transitive and never throws.", "quantifier": "every schema built from the modelled types, every two (three) objects", "why_tests_cant": "quantifies over all pairs and triples of objects of all types", "anchors": ["src/compiler/GenerateHelpers.cpp:create_collection_equality_operators", "src/compiler/GenerateChoice.cpp", "include/fast_ber/ber_types/SequenceOf.hpp:operator==", "include/fast_ber/ber_types/Default.hpp:operator==", "include/fast_ber/ber_types/Optional.hpp:operator==", "include/fast_ber/ber_types/GeneralizedTime.hpp:operator==", "include/fast_ber/ber_types/Enumerated.hpp:operator=="]}
{"id": "C120", "title": "A decoded object equals the encoded one", "statement": "Decoding the octets encode wrote for an object, into any object of the type and with any octets behind them, gives an object that compares == to the original, in both directions.", "quantifier": "every schema built from the modelled types, every object, every previous state of the target, every trailing octets", "why_tests_cant": "quantifies over all types, values and previous states", "anchors": ["src/compiler/EncodeDecode.cpp", "src/compiler/GenerateHelpers.cpp:create_collection_equality_operators", "include/fast_ber/ber_types/Choice.hpp"]}
{"id": "C121", "title": "All passes together keep the meaning of the modules", "statement": "Between parsing and writing, the compiler changes its tree in six passes (parameterized types, order of modules, imports and nested structures, COMPONENTS OF, object classes, order of assignments). Whatever they do to the files given, the code written for a type is the one its text calls for: values written by it are read back, and start with the tags of the text. Files in which every referenced name is defined or imported, with imports that exist and make no circle, are accepted. Files are refused if a module imported from is missing, if modules import from each other in a circle, or if a module defines a name twice.", "quantifier": "every set of files with any modules in the covered part of the notation, every type in them, every value, buffer and previous content of the object", "why_tests_cant": "The passes see all modules at once and rename, move and split definitions; tests compile a handful of files.", "anchors": ["src/compiler_main/CompilerMain.cpp: main", "src/compiler/Parameters.cpp: resolve_parameters", "src/compiler/ReorderAssignments.cpp: reorder_modules, split_imports, split_nested_structures, resolve_components_of, reorder_assignments", "src/compiler/ObjectClass.cpp: resolve_object_classes"]}
{"id": "C122", "title": "The C++ of the headers is the code that was called for", "statement": "What a C++ compiler makes of the generated header (names resolved by C++ scope rules, using declarations, alias classes, the bodies of encode/decode found by their class) is, for each type, the code its ASN.1 text calls for: its values are written so that they are read back, with the tags of the text. No name written in a header refers to another declaration than the one intended.", "quantifier": "every set of ASN.1 files in the covered part, every type, every value", "why_tests_cant": "quantifies over all schemas: name capture in generated code depends on the names users choose", "anchors": ["src/compiler/TypeAsString.cpp:create_type_assignment,type_as_string", "src/compiler/GenerateChoice.cpp", "src/compiler/EncodeDecode.cpp", "src/compiler_main/CompilerMain.cpp:create_assignment,create_output_file", "src/compiler/CppGeneration.cpp:make_type_name", "include/fast_ber/util/Alias.hpp:FAST_BER_ALIAS"]}
{"id": "C123", "title": "Headers written for valid modules compile", "statement": "Whenever the compiler accepts valid modules and writes a header, the header compiles: each name it uses is declared before, nothing is declared twice in a scope, and each function body belongs to a class that exists.", "quantifier": "every set of valid ASN.1 modules", "why_tests_cant": "quantifies over all schemas", "anchors": ["src/compiler/TypeAsString.cpp:create_type_assignment", "src/compiler/EncodeDecode.cpp", "src/compiler_main/CompilerMain.cpp", "src/compiler/ValueType.cpp"]}
{"id": "C124", "title": "Generated decoders accept an exact set of inputs and read a determined value", "statement": "For every type the compiler can generate (primitive types, SEQUENCE, SET, SEQUENCE OF, CHOICE, implicit and explicit tags, OPTIONAL and DEFAULT members, extensible SETs) decoding an input succeeds if and only if the input begins with a packet of that type as written down independently of the decoders: identifiers of the type, contents of a size the type holds, members taken from the front of a SEQUENCE, one packet per SET member in any order, alternatives of a CHOICE picked by tag number, and exactly the tolerated extras (octets behind the packet, octets that are no packet behind the members, packets behind the last member, packets of no member in an extensible SET). The object then shows exactly the value of that packet; no packet has two values; neither the previous contents of the object nor the octets behind the packet matter. Every BER encoding of a value is among the accepted inputs.", "quantifier": "all types, all previous objects, all input octets", "why_tests_cant": "The set of inputs is infinite and includes malformed ones; tests sample a few inputs of a few types, while acceptance and value depend on every octet and on every combination of members and tags.", "anchors": ["src/compiler/EncodeDecode.cpp:create_collection_decode_functions, create_choice_decode_functions", "include/fast_ber/util/DecodeHelpers.hpp:decode", "include/fast_ber/ber_types/Choice.hpp:decode", "include/fast_ber/ber_types/SequenceOf.hpp:decode"]}
{"id": "C125", "title": "Parameterized types: X { A } is compiled as if it were written out", "statement": "A module may define templates X { T } ::= type and use them as X { A }. Compiling files with templates gives the same result as compiling files in which each X { A } is replaced by the template's type with A for T and the templates are deleted: both are accepted or both refused, every type gets the same code, and the same C++ header is written. So a type that uses templates, if what it stands for is valid, gets code through which every value makes the round trip.", "quantifier": "all sets of files of the modelled notation with one-parameter templates of the same module, all their uses at any depth, all types of the modules, all values of those types, all buffers", "why_tests_cant": "the replacement happens inside trees of unbounded depth, and its result passes through six compiler passes before code is written; a test shows it for the templates and uses it writes down", "anchors": ["src/compiler/Parameters.cpp: resolve_parameters, parameterized_to_concrete, resolve_parameterized, remove_parameter_templates", "src/compiler/asn_compiler.yacc: ParameterizedType, ActualParameterList, ParameterList", "src/compiler_main/CompilerMain.cpp: main"]}
{"id": "C126", "title": "COMPONENTS OF, from the text to the generated code", "statement": "Files in which SEQUENCEs take over the components of other SEQUENCEs of their module with COMPONENTS OF compile to exactly the code, and the same headers, as files in which these components are written out in its place, together with templates written out as in C125; types of such files have code whose values make the round trip. Included SEQUENCEs that have COMPONENTS OF themselves, are imported, references or extensible, and COMPONENTS OF in SETs or directly nested SEQUENCEs, are refuted.", "quantifier": "every list of files, their modules and types, every value", "why_tests_cant": "the inclusion happens in one pass between others that rename, reorder and take apart types; tests try single files, and the losses of components are silent", "anchors": ["src/compiler/ReorderAssignments.cpp:resolve_components_of", "src/compiler/ResolveType.cpp:resolve", "src/compiler_main/CompilerMain.cpp", "src/compiler/ReorderAssignments.cpp:split_nested_structures"]}
{"id": "C127", "title": "Fields of object classes, from the text to the generated code", "statement": "Files whose types use value fields of the object classes of their module (CLASS.&field) compile to exactly the code, and the same headers, as files without the classes in which the types of the fields stand in their place, together with templates and COMPONENTS OF written out as in C125 and C126; types of such files have code whose values make the round trip. Open type fields, other names of classes, imported classes, fields made from other classes and fields that are structures in a SEQUENCE OF are refuted.", "quantifier": "every list of files, their modules and types, every value", "why_tests_cant": "classes are replaced after nested structures are taken out and before assignments are ordered, and the classes and all that refers to them are removed; tests try single files", "anchors": ["src/compiler/ObjectClass.cpp:resolve_object_classes", "src/compiler/ObjectClass.cpp:object_class_to_concrete", "src/compiler/ObjectClass.cpp:remove_object_classes", "src/compiler_main/CompilerMain.cpp"]}
{"id": "C128", "title": "Constants and default values, from the text to the header", "statement": "A constant of a module (x T ::= value), where T is INTEGER, REAL, a character string or OBJECT IDENTIFIER, possibly constrained or named once, has in the generated header the value that is written, also through references to other constants (for a REAL: the double nearest to the number that is written, whole or with at most six places; with more places, the double nearest to that number rounded to six places); and a member with DEFAULT has the written default value, also a BOOLEAN, an item of a named enumeration or a reference to a constant, if no name of the struct hides a name that is needed. Constants that are BOOLEAN, of a type with two names or an imported type, names of numbers and items, REAL with more than six places, BIT STRING values, object identifiers made of others and hidden names are refuted.", "quantifier": "every list of files, their modules, constants and default values", "why_tests_cant": "the declarations are reordered by dependency, nested structures taken out and values translated to C++ text by their kind; a REAL goes through a double and six decimal places; tests look at a few literals", "anchors": ["src/compiler/ValueAsString.cpp", "src/compiler/ValueType.cpp", "src/compiler_main/CompilerMain.cpp:create_assignment", "src/compiler_main/CompilerMain.cpp:create_type_assignment", "src/compiler/ReorderAssignments.cpp", "src/compiler/asn_compiler.yacc:realnumber"]}
{"id": "C129", "title": "No header is written unless all referenced types are defined", "statement": "If the compiler writes a header, then every type that is referred to in the definition of a type (at any depth: in members, alternatives, lists, behind tags and constraints) or by the definition of a constant, and every type that is imported, is defined: in the module that the reference names or stands in, or in one it is imported from, along any chain of imports. So an undefined, or only circularly imported, type is refused. (Names of values in constraints and imports, items of enumerations, and unused templates are not checked; names that the compiler makes up can be referred to.)", "quantifier": "all lists of files, modules, definitions, references at any depth, and chains of imports of any length", "why_tests_cant": "Tests compile a fixed set of modules, nearly all valid; whether some undefined reference slips through to the C++ compiler depends on every place a reference can stand, on imports and on all passes that rewrite the tree.", "anchors": ["src/compiler/ReorderAssignments.cpp: resolve_dependencies, split_imports", "src/compiler/ResolveType.cpp: resolve, resolve_type", "src/compiler/TypeAsString.cpp", "src/compiler/Identifier.cpp: identifier", "src/compiler_main/CompilerMain.cpp: compile, create_type_assignment"]}
{"id": "C130", "title": "ANY: which packets are accepted, held and passed on", "statement": "An object of type Any accepts a packet if and only if it is the primitive encoding of one of the universal types BIT STRING, BOOLEAN, CHARACTER STRING, GeneralizedTime, INTEGER (up to 8 octets), NULL, OBJECT IDENTIFIER, OCTET STRING, REAL (up to 100 octets), UTCTime, VisibleString, with a length the type allows; input without a packet is refused and leaves the object alone. What was accepted is encoded again with the same identifier and the same contents, in exactly encoded_length octets; and a value of any of the sixteen alternatives is decoded with the same contents. (It is not 'any value': structures, enumerations, other strings and tagged values are refused, and the kinds of time that share a tag come back as the first of them.)", "quantifier": "all packets and contents of any length, all objects, all sixteen alternatives, all buffers", "why_tests_cant": "The only test of Any compares its identifier list; acceptance and relaying depend on the class, tag, length and contents of every packet.", "anchors": ["include/fast_ber/ber_types/Any.hpp: Any, AnyTypes", "include/fast_ber/ber_types/Choice.hpp: encode_old, decode_old, decode_if, ChoiceId"]}
{"id": "C131", "title": "Classes generated from a schema never do anything undefined", "statement": "For every ASN.1 text of the covered part and every type in it that has no untagged CHOICE as a mandatory component of a SEQUENCE: whatever sequence of inputs is decoded into an object of the class that is generated for the type, whatever octets they are, no memory outside the input is read, every decode ends with a verdict, and the object left behind, also after a failed decode, reports its exact encoded length and is encoded exactly into every buffer that is large enough and refused by every other; for a valid type the inputs that are accepted are exactly those that start with an encoding of a value, which is the one the object then shows.", "quantifier": "every text, every type in it, every sequence of inputs of any octets and lengths, every buffer", "why_tests_cant": "The schema, the inputs and their order are all unbounded; tests and fuzzing see some schemas and some inputs.", "anchors": ["include/fast_ber/ber_types/Choice.hpp", "src/compiler/EncodeDecode.cpp", "include/fast_ber/util/BerView.hpp", "src/compiler/CppGeneration.cpp"]}
{"id": "C132", "title": "Comparing two REAL values with operator== is a tolerance test that works as such", "statement": "For every two Real objects whose value() returns doubles a and b: a == b gives the same answer as b == a; it is true if the two doubles are the same and not NaN, and false if one is NaN; two infinities are equal exactly if they have the same sign; two finite values that differ by at most 2^-52, or by at most 2^-52 times the greater magnitude, are equal, and equal finite values differ by at most (2^-52 + 2^-104) times the greater of one and both magnitudes (exactly 2^-52 times the greater magnitude if that is at least one). Objects into which the same number is stored, and what a peer decodes from its encoding, compare equal. (Found false: an infinity is unequal to every finite value - it is equal to all of them, so that assigning an infinity to a DEFAULT component with a finite default is dropped; the relation is not transitive.)", "quantifier": "all pairs of doubles (finite of any magnitude, denormal, zero, infinite, NaN), all Real objects and identifiers", "why_tests_cant": "There are 2^128 pairs of doubles; tests compare a few, and the boundary of the tolerance depends on rounding of the difference and of the product.", "anchors": ["include/fast_ber/ber_types/Real.hpp: Real::operator==, Real::value", "include/fast_ber/ber_types/Default.hpp: operator="]}
{"id": "C133", "title": "A REAL received in decimal form has the value of its text, correctly rounded", "statement": "For every REAL whose contents are in decimal form (the two leading bits of the first octet zero) and whose text is a number in one of the three forms of ISO 6093 (blanks, optional sign, digits; with a decimal point or comma; with an exponent), of at most 99 characters: decoding it succeeds into any object and whatever follows it, and value() returns the double nearest to the number denoted, ties to even, an infinity from half a unit above the greatest finite double on, with the sign of the text; every other text makes value() return 0. (Found false: that the first octet must name the form; it is not looked at.)", "quantifier": "all texts, all numbers of digits, all exponents, all first octets 0 to 63, all objects decoded into, all identifiers", "why_tests_cant": "There are 2^792 texts; boundary cases are ties, underflow, overflow, and texts that differ from a number in one character.", "anchors": ["src/ber_types/Real.cpp: decode_real_decimal, g_iso_6093_nr1, g_iso_6093_nr2, g_iso_6093_nr3", "include/fast_ber/ber_types/Real.hpp: decode_real, Real::value, Real::decode"]}
{"id": "C134", "title": "A dynamic variant finds alternatives by type", "statement": "For a DynamicVariant whose list of alternatives contains a type T exactly once: holds_alternative<T> is true exactly if the object held is a T; get<T> returns that object, or throws BadVariantAccess if it holds something else, and get_if<T> returns a pointer to it or null; no object is ever read as one of another type; emplace<T> and in-place construction make a T; constructing or assigning from an argument makes the alternative that takes the argument better than all others, or does not compile; visit calls the visitor with the object as the alternative that it is.", "quantifier": "Every list of alternatives, every type asked for, every argument type and ranking of conversions, every object state, and every history of operations before", "why_tests_cant": "The lists of types, the conversions among them and the histories are unbounded, and a test fixes one instantiation; reading an object as another type usually goes unnoticed in a run.", "anchors": ["include/fast_ber/util/DynamicVariantHelpers.hpp: IndexOf, ExactlyOnce, TypeAtIndex, AcceptedIndex", "include/fast_ber/util/DynamicVariant.hpp: holds_alternative, get, get_if, visit, DynamicVariant::emplace"]}
{"id": "C135", "title": "Reals are printed as JSON numbers", "statement": "operator<< of a Real with a finite value writes a number of the JSON grammar that is the value rounded to six significant digits (nearest, ties to even), with the sign of the value; a value with at most six significant decimal digits is printed exactly. What is printed of any Real is a JSON number, and different values are printed differently.", "quantifier": "Every object, every double", "why_tests_cant": "2^64 doubles; rounding, the change to exponent notation and the removal of zeros go wrong only for few of them.", "anchors": ["include/fast_ber/ber_types/Real.hpp: operator<<"]}

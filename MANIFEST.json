{
 "claims": [
  {
   "property": "C01",
   "status": "proved",
   "theorems": [
    "C01_length_octets_roundtrip",
    "C01_length_octets_roundtrip_any_buffer"
   ],
   "note": "C01_length_octets_roundtrip: C01. Whatever length is written into a large enough buffer is read back, with the same number of octets, whatever precedes and follows; and the octets are X.690 length octets. C01_length_octets_roundtrip_any_buffer: C01, for any buffer: an encode that reports success (non-zero) is read back."
  },
  {
   "property": "C02",
   "status": "proved",
   "theorems": [
    "C02_identifier_roundtrip",
    "C02_identifier_roundtrip_any_buffer"
   ],
   "note": "C02_identifier_roundtrip: C02. Class, construction and tag written into a large enough buffer are read back."
  },
  {
   "property": "C03",
   "status": "proved",
   "theorems": [
    "C03_predicted_tag_length",
    "C03_predicted_length_length",
    "C03_predicted_header_length"
   ],
   "note": "C03_predicted_tag_length: C03. The predicted sizes are the sizes written. C03_predicted_header_length: The header of any identifier (one or two tags) for a content of [n] octets: a header of exactly the predicted size, which is the concatenation of X.690 identifier and length octets, and the reported total."
  },
  {
   "property": "C04",
   "status": "proved",
   "theorems": [
    "C04_encode_length_bounds",
    "C04_encode_identifier_bounds",
    "C04_encode_header_bounds",
    "C04_encode_header_id_bounds"
   ],
   "note": "C04_encode_length_bounds: C04. Exactly when do the encoders fail, and what do they touch? C04_encode_header_bounds: encode_header(span, construction, class, tag, length): fails exactly when the octets do not fit. C04_encode_header_id_bounds: encode_header for one- and two-tag identifiers. (With a single tag only the header has to fit; with two tags the code also checks the room for the content.)"
  },
  {
   "property": "C05",
   "status": "proved",
   "theorems": [
    "C05_length_octets_shortest",
    "C05_tag_octets_shortest"
   ],
   "note": "C05_length_octets_shortest: C05. Any octets that are read as this length (tag) are at least as many as the encoder writes."
  },
  {
   "property": "C06",
   "status": "proved",
   "theorems": [
    "C06_headers_self_delimiting"
   ],
   "note": "C06_headers_self_delimiting: C06. Two successfully encoded headers, followed by anything, are equal only if they encode the same thing."
  },
  {
   "property": "C07",
   "status": "partial",
   "theorems": [
    "C07_valid_view_in_bounds_refuted",
    "C07_valid_view_in_bounds_partial",
    "C07_out_of_bounds_only_by_wrap_partial"
   ],
   "note": "C07_valid_view_in_bounds_refuted: C07, refuted: the ten octets 04 88 FF FF FF FF FF FF FF FF form a view that reports is_valid(), but whose content (2^64-1 octets) lies outside the span: the size_t addition wraps. C07_valid_view_in_bounds_partial: C07, partial: it holds for every input whose length field is below 2^63 (every real buffer is shorter). C07_out_of_bounds_only_by_wrap_partial: The only way out of bounds is that header length + length field wraps around."
  },
  {
   "property": "C08",
   "status": "proved",
   "theorems": [
    "C08_views_recover_encoded",
    "C08_views_recover_encoded_double"
   ],
   "note": "C08_views_recover_encoded: C08. The view of header + content + anything reports exactly what was encoded (single identifier). C08_views_recover_encoded_double: C08 for double identifiers: the outer view's first child is the inner packet."
  },
  {
   "property": "C09",
   "status": "proved",
   "theorems": [
    "C09_truncation_rejected",
    "C09_truncation_of_encoder_output_rejected"
   ],
   "note": "C09_truncation_rejected: C09. Cutting a packet anywhere makes the view invalid (and reading it is never UB). C09_truncation_of_encoder_output_rejected: ... in particular the packets the encoder produces."
  },
  {
   "property": "C10",
   "status": "proved",
   "theorems": [
    "C10_valid_iff_well_formed_header",
    "C10_unsupported_lengths_rejected"
   ],
   "note": "C10_valid_iff_well_formed_header: C10. A view is valid exactly if the input starts with identifier octets and a definite length field of at most nine octets (1 + 8) whose value fits (modulo 2^64) in the input; its content length is the field's value. C10_unsupported_lengths_rejected: The indefinite form and more than eight length octets are always rejected."
  },
  {
   "property": "C11",
   "status": "partial",
   "theorems": [
    "C11_iteration_terminates_refuted",
    "C11_iteration_partitions_partial"
   ],
   "note": "C11_iteration_terminates_refuted: C11, refuted: the ten octets 04 88 FF FF FF FF FF FF FF F6 are a child whose ber_length() wraps to 0; iterating over them never ends. C11_iteration_partitions_partial: C11, partial: for content in which no length field reaches 2^63 and no tag overflows ([tame]), iteration ends after at most half the content's octets, and the children are packets that, in order, make up a prefix of the content; the rest does not start with a packet."
  },
  {
   "property": "C12",
   "status": "proved",
   "theorems": [
    "C12_iteration_recovers_concatenation"
   ],
   "note": "C12_iteration_recovers_concatenation: C12. Iterating over concatenated packets yields exactly these packets."
  },
  {
   "property": "C13",
   "status": "proved",
   "theorems": [
    "C13_view_encode_copies",
    "C13_invalid_view",
    "C13_default_view"
   ],
   "note": "C13_view_encode_copies: C13. Re-encoding a valid view copies the packet. C13_invalid_view: C13 for the views that are not valid: such a view, default constructed or made from any octets (also by an iterator, over any tag left from before), is empty, and encode() of it reports success, with nothing written. C13_default_view: The tag of a default constructed view is 0."
  },
  {
   "property": "C14",
   "status": "proved",
   "theorems": [
    "C14_integer_round_trip",
    "C14_integer_assign_round_trip"
   ],
   "note": "C14_integer_round_trip: C14. Round trip of every int64_t, for every identifier (one or two tags), whatever object it is decoded into and whatever follows it in the buffer. C14_integer_assign_round_trip: The same for assignment to an existing object."
  },
  {
   "property": "C15",
   "status": "proved",
   "theorems": [
    "C15_integer_minimal"
   ],
   "note": "C15_integer_minimal: C15. encode_integer writes the shortest big-endian two's complement form."
  },
  {
   "property": "C16",
   "status": "proved",
   "theorems": [
    "C16_integer_decoding"
   ],
   "note": "C16_integer_decoding: C16. decode_integer accepts exactly 1 to 8 octets and sign-extends them."
  },
  {
   "property": "C17",
   "status": "partial",
   "theorems": [
    "C17_integer_rejects_empty_refuted",
    "C17_integer_decode_exact_partial"
   ],
   "note": "C17_integer_rejects_empty_refuted: C17, refuted: the packet 02 00 (an INTEGER without content octets) is accepted, and the value becomes 0. C17_integer_decode_exact_partial: C17, partial: what decode accepts exactly: packets with the right identifier, primitive, and 0 to 8 content octets, the first of which (if any) decide the value; every longer content is rejected. Only the empty content is accepted against X.690."
  },
  {
   "property": "C18",
   "status": "proved",
   "theorems": [
    "C18_integer_history",
    "C18_integer_history_progress"
   ],
   "note": "C18_integer_history: C18. After any history an Integer's value is the one given by the last successful operation, it encodes to one well-formed packet of the advertised length whose content denotes that value, and that packet decodes (into any Integer with the same identifier) to the same value. C18_integer_history_progress: No operation on a reachable Integer is undefined, and each one leads to a reachable Integer."
  },
  {
   "property": "C19",
   "status": "proved",
   "theorems": [
    "C19_boolean_history",
    "C19_boolean_canonical",
    "C19_boolean_decode_exact"
   ],
   "note": "C19_boolean_history: Value, encoding and round trip, over any history. C19_boolean_canonical: An assigned Boolean has the single content octet 00 or FF. C19_boolean_decode_exact: Decode accepts exactly the packets with the right identifier, primitive form and one content octet."
  },
  {
   "property": "C20",
   "status": "proved",
   "theorems": [
    "C20_null_encoding",
    "C20_null_decode_exact",
    "C20_null_round_trip"
   ],
   "note": "C20_null_encoding: * C20: Null C20_null_round_trip: Round trip, with anything behind the packet."
  },
  {
   "property": "C21",
   "status": "partial",
   "theorems": [
    "C21_enumerated_round_trip",
    "C21_received_number_refuted"
   ],
   "note": "C21_received_number_refuted: C21, the other direction, refuted: what value() reports need not be the number received. 0A 05 01 00 00 00 01 is the ENUMERATED value 2^32 + 1; a generated enumeration decodes it successfully and reports its item with number 1."
  },
  {
   "property": "C22",
   "status": "proved",
   "theorems": [
    "C22_string_round_trip"
   ],
   "note": "C22_string_round_trip: C22. Round trip of every content, for every identifier, into any other container, whatever follows the packet."
  },
  {
   "property": "C23",
   "status": "partial",
   "theorems": [
    "C23_rejected_construction_refuted",
    "C23_string_history_partial",
    "C23_string_history_progress"
   ],
   "note": "C23_rejected_construction_refuted: C23, refuted: constructing a string from a view it rejects gives an object that holds no packet at all: it encodes, successfully, to nothing. C23_string_history_partial: C23, partial (all other histories): the container holds exactly one packet with its identifier, whose content is content(); the view of its octets is valid and passes the identifier check."
  },
  {
   "property": "C24",
   "status": "proved",
   "theorems": [
    "C24_resize_keeps_prefix"
   ],
   "note": "C24_resize_keeps_prefix: C24. Resizing keeps the common prefix and sets the length, whatever the header does."
  },
  {
   "property": "C25",
   "status": "proved",
   "theorems": [
    "C25_integer_failed_decode",
    "C25_enumerated_failed_decode",
    "C25_boolean_failed_decode",
    "C25_string_failed_decode",
    "C25_oid_failed_decode"
   ],
   "note": "C25_integer_failed_decode: * C25: failed decodes change nothing (for every object state and every view, not only those of tame inputs) C25_oid_failed_decode: C25 for object identifiers."
  },
  {
   "property": "C26",
   "status": "partial",
   "theorems": [
    "C26_explicit_string_content_refuted",
    "C26_explicit_string_content_partial"
   ],
   "note": "C26_explicit_string_content_refuted: C26, refuted: an explicitly tagged OCTET STRING with octets behind the inner packet is accepted, and content() is not the inner packet's content. C26_explicit_string_content_partial: C26, partial: it holds whenever nothing follows the inner packet (always, for single tags); and a packet is accepted exactly when it is a packet with the right identifiers."
  },
  {
   "property": "C27",
   "status": "partial",
   "theorems": [
    "C27_small_container_refuted",
    "C27_small_container_partial",
    "C27_small_container_progress_partial"
   ],
   "note": "C27_small_container_refuted: C27, refuted at the bound: a maximum of exactly 128 octets passes the static_assert, but a full container's octets are not a packet (the length octet is 0x80, the indefinite form), so its encoding cannot be decoded. C27_small_container_partial: C27, partial: for every maximum strictly below the static_assert's bound, after any history: never more than the maximum is stored, and the octets are one packet with the stored content. C27_small_container_progress_partial: ... and no operation on it is undefined."
  },
  {
   "property": "C28",
   "status": "proved",
   "theorems": [
    "C28_bercontainer_decode_encode",
    "C28_bercontainer_assign",
    "C28_bercontainer_assign_content",
    "C28_default_container"
   ],
   "note": "C28_bercontainer_decode_encode: C28. Decoding any packet and encoding again reproduces it, and the container reports what the packet holds. C28_default_container: C28 for a default constructed container: it holds a packet (X.690's end-of-contents octets: class UNIVERSAL, tag 0, no content)."
  },
  {
   "property": "C29",
   "status": "partial",
   "theorems": [
    "C29_bercontainer_copy_refuted",
    "C29_bercontainer_copy_partial"
   ],
   "note": "C29_bercontainer_copy_refuted: C29, refuted: copy-assigning from a container that holds no valid packet (a failed decode leaves one) gives a container that claims to be valid."
  },
  {
   "property": "C30",
   "status": "partial",
   "theorems": [
    "C30_bercontainer_resize_refuted",
    "C30_bercontainer_resize_partial"
   ],
   "note": "C30_bercontainer_resize_refuted: C30, refuted: the container decoded from 1F 80 05 02 08 09 (tag 5 with a redundant leading identifier octet) changes its tag when its content is resized to the size it already has. C30_bercontainer_resize_partial: C30, partial: for packets whose identifier octets are the shortest ones (as every encoder here writes), resizing keeps class, construction, tag and the common content prefix."
  },
  {
   "property": "C31",
   "status": "proved",
   "theorems": [
    "C31_oid_round_trip"
   ],
   "note": "C31_oid_round_trip: C31. From every state of the object, a valid component list is accepted, read back, and survives encode/decode into any other object of the same type."
  },
  {
   "property": "C32",
   "status": "proved",
   "theorems": [
    "C32_oid_content"
   ],
   "note": "C32_oid_content: C32. The content octets of an accepted valid list: 40 * first + second, then every further component in its shortest base-128 form; encoded_object_id_length is their number; and they are what X.690 assigns to the list."
  },
  {
   "property": "C33",
   "status": "partial",
   "theorems": [
    "C33_oid_decode_x690_refuted",
    "C33_oid_decode_x690_partial"
   ],
   "note": "C33_oid_decode_x690_refuted: C33, refuted: 2.999 (X.690's own example) decodes to 3.16.55, and content whose last subidentifier is cut off is accepted. C33_oid_decode_x690_partial: C33, partial: for every content X.690 8.19 allows, with components below 2^63, decoding returns the components X.690 assigns exactly when the first subidentifier is below 120 (so for all of arcs 0 and 1 and for 2.0-2.39)."
  },
  {
   "property": "C34",
   "status": "partial",
   "theorems": [
    "C34_oid_component_number_refuted",
    "C34_oid_component_number_partial",
    "C34_second_component_partial"
   ],
   "note": "C34_oid_component_number_refuted: C34, refuted: component_number returns 0 instead of 840 for index 2, reads the second content octet instead of the first for index 1, and reads past the content when it has one octet. C34_second_component_partial: The index that is left, 1, in every state: -1 if there is no content; past the content if it has one octet; otherwise the second octet modulo 40, which is value()'s second element if and only if the first two octets agree modulo 40."
  },
  {
   "property": "C35",
   "status": "partial",
   "theorems": [
    "C35_rejected_assign_refuted",
    "C35_rejected_assign_partial"
   ],
   "note": "C35_rejected_assign_refuted: C35, refuted: a rejected assignment changes the value. C35_rejected_assign_partial: C35, partial: after any assignment that does not overflow, accepted or rejected, the object still encodes to one complete packet with its own identifier, whose content has the length computed for the given list."
  },
  {
   "property": "C36",
   "status": "partial",
   "theorems": [
    "C36_real_round_trip_partial",
    "C36_real_round_trip_refuted"
   ],
   "note": "C36_real_round_trip_partial: C36. The statement wanted is this one with no condition [real_exact d]; the next theorem shows that it fails for every double left out here. Zeros, infinities, NaN and the numbers with magnitude from 2^-76 below 2^180 are read back, also after a transfer into any other Real with the same identifier, whatever follows in the buffer. C36_real_round_trip_refuted: Every other double: value() never returns it, however long one waits."
  },
  {
   "property": "C37",
   "status": "proved",
   "theorems": [
    "C37_real_contents"
   ],
   "note": "C37_real_contents: C37. The contents of a Real that was assigned a double."
  },
  {
   "property": "C38",
   "status": "partial",
   "theorems": [
    "C38_real_value_terminates_refuted",
    "C38_assigned_denormal_terminates_refuted",
    "C38_real_value_terminates_partial"
   ],
   "note": "C38_real_value_terminates_refuted: C38. Real::decode accepts the contents 80 00 00 01, and value() then never returns: for no amount of steps is there a result. C38_assigned_denormal_terminates_refuted: It never returns for a denormal that was assigned either: the least positive double. C38_real_value_terminates_partial: Missing from C38: only the contents named in the second alternative loop; on every other Real, value() returns and its result does not depend on the fuel. No content makes it read outside the object."
  },
  {
   "property": "C39",
   "status": "partial",
   "theorems": [
    "C39_real_short_accepted_refuted",
    "C39_real_short_accepted_partial",
    "C39_accepted_exactly_partial"
   ],
   "note": "C39_real_short_accepted_refuted: C39. Every three-octet binary encoding is rejected, among them 80 00 01 (the value 1) and 80 FF 03 (1.5). C39_real_short_accepted_partial: Missing: encodings of three octets; the form with a length octet for the exponent; exponents of two or three octets that start with nine identical bits (rejected; X.690 8.5.7.4 forbids them only in the form with a length octet). C39_accepted_exactly_partial: Exactly which encodings of X.690 8.5.7, in both forms, are rejected: those of three octets; those with an exponent that starts with nine identical bits or has more than four octets; and those of the number 0 (X.690 8.5.2: 0 has no octets)."
  },
  {
   "property": "C40",
   "status": "proved",
   "theorems": [
    "C40_default_is_object",
    "C40_decode_leaves_object",
    "C40_encoded_length_exact"
   ],
   "note": "C40_default_is_object: The objects of a type: a default constructed object is one, every decode (successful or not) leaves one, and their members and elements can be replaced by objects of the member's type ([obj] is defined member by member). C40_encoded_length_exact: encoded_length() is the number of octets encode reports and writes."
  },
  {
   "property": "C41",
   "status": "proved",
   "theorems": [
    "C41_encode_exact",
    "C41_encode_is_ber"
   ],
   "note": "C41_encode_exact: The octets do not depend on the buffer: they are one encoding p, and with too small a buffer encode fails. C41_encode_is_ber: When the object holds a value, the octets are a BER encoding of it (X.690 8.1, 8.9-8.14)."
  },
  {
   "property": "C42",
   "status": "partial",
   "theorems": [
    "C42_round_trip_partial",
    "C42_any_encoding_partial",
    "C42_choice_class_refuted"
   ],
   "note": "C42_round_trip_partial: Whatever object is decoded into and whatever follows the encoding. Partial: [good_schema] asks, beyond unambiguous identifiers, that the alternatives of generated CHOICEs differ in their tag numbers ([choices_by_tag]) and that the identifiers the generated code tests for are those of the members ([labelled]; see C53 for when they are not). C42_any_encoding_partial: Not only the library's own encodings: every definite-length BER encoding of the value (any length form with up to 8 length octets, SET members in any order) is decoded to it. C42_choice_class_refuted: Without [choices_by_tag] it fails: CHOICE { a [0] INTEGER, b [APPLICATION 0] INTEGER } is unambiguous, but the generated decoder tries the APPLICATION labels first and looks at the tag only: value a is rejected."
  },
  {
   "property": "C43",
   "status": "proved",
   "theorems": [
    "C43_encodings_distinct"
   ],
   "note": "C43_encodings_distinct: Encodings of one unambiguous type form a prefix code: if an encoding of v1 and one of v2 start the same octet string, then v1 = v2. (No assumption about the decoder.)"
  },
  {
   "property": "C44",
   "status": "partial",
   "theorems": [
    "C44_decode_in_bounds_partial",
    "C44_decode_packet_in_bounds_partial",
    "C44_untagged_choice_refuted"
   ],
   "note": "C44_decode_in_bounds_partial: Partial: [safe] and [guarded] exclude a generated CHOICE without a tag of its own at the top level of the input or as a mandatory SEQUENCE member (see the refutation); [tame] excludes inputs whose tag numbers overflow. C44_decode_packet_in_bounds_partial: With a complete packet in front, the restriction at the top level is not needed. C44_untagged_choice_refuted: The generated decoder of an untagged CHOICE does not test its view: on empty input, or when it is the mandatory last member of a SEQUENCE that ends early, the error message dereferences a null pointer."
  },
  {
   "property": "C45",
   "status": "proved",
   "theorems": [
    "C45_decode_checks_identifier",
    "C45_choice_checks_identifier"
   ],
   "note": "C45_decode_checks_identifier: * C45: the identifier is checked C45_choice_checks_identifier: And the packet of an untagged CHOICE has the identifier of one of its alternatives."
  },
  {
   "property": "C46",
   "status": "partial",
   "theorems": [
    "C46_absent_is_omitted",
    "C46_collection_contents",
    "C46_decode",
    "C46_default_assign",
    "C46_construct_from",
    "C46_construct_refuted"
   ],
   "note": "C46_construct_refuted: The constructor from a value of the underlying type compares with the default before the default exists."
  },
  {
   "property": "C47",
   "status": "partial",
   "theorems": [
    "C47_explicit_default_refuted",
    "C47_assigned_default_partial"
   ],
   "note": "C47_explicit_default_refuted: False: a packet that carries the default explicitly is kept, and encoded again. SEQUENCE { a INTEGER DEFAULT 5 }. C47_assigned_default_partial: Partial: values that are assigned (not decoded) have one representation each, and so does an absent member."
  },
  {
   "property": "C48",
   "status": "proved",
   "theorems": [
    "C48_set_order"
   ],
   "note": "C48_set_order: Packets qs and a permutation qs' of them, each inside its own header: decode succeeds for both or neither, with the same object. The octets after the last packet (if any) do not matter either."
  },
  {
   "property": "C49",
   "status": "partial",
   "theorems": [
    "C49_set_members_partial",
    "C49_empty_set_refuted"
   ],
   "note": "C49_empty_set_refuted: What is missing: for a SET without components the generated decoder does not look at the content at all, so unknown members are accepted although the SET is not extensible."
  },
  {
   "property": "C50",
   "status": "proved",
   "theorems": [
    "C50_unknown_trailing_members"
   ],
   "note": "C50_unknown_trailing_members: The packets qs, without and with further packets es whose identifiers are none of the SEQUENCE's: decode succeeds for both or neither, with the same object."
  },
  {
   "property": "C51",
   "status": "partial",
   "theorems": [
    "C51_trailing_garbage_refuted",
    "C51_sequence_of_elements_partial"
   ],
   "note": "C51_trailing_garbage_refuted: False: octets after the last complete packet that do not form a packet are ignored (both SEQUENCE OF and SEQUENCE). C51_sequence_of_elements_partial: Partial: all complete packets at the front of the content are decoded as elements, in order, none skipped; decode succeeds exactly if all of them do."
  },
  {
   "property": "C52",
   "status": "partial",
   "theorems": [
    "C52_choice_success_partial",
    "C52_wrong_class_refuted"
   ],
   "note": "C52_choice_success_partial: Partial: if decode succeeds, the packet has the class and tag of the alternative that was selected. C52_wrong_class_refuted: False otherwise: on failure an alternative of another class may have been selected, and what was held is lost."
  },
  {
   "property": "C53",
   "status": "partial",
   "theorems": [
    "C53_optional_refuted",
    "C53_reference_refuted",
    "C53_round_trip_partial"
   ],
   "note": "C53_optional_refuted: False. Optional members: the decoder of SEQUENCE { a INTEGER OPTIONAL } tests for the universal tag, the encoder writes [0]: { a 5 } decodes, successfully, as { }. C53_reference_refuted: References to structured types in a SET or CHOICE: encoded with their own tag, expected with the automatic one. C53_round_trip_partial: Without optional members, and without tags on or structured references in SETs and CHOICEs, AUTOMATIC TAGS work."
  },
  {
   "property": "C54",
   "status": "partial",
   "theorems": [
    "C54_gap_refuted",
    "C54_mandatory_next_refuted",
    "C54_choice_refuted",
    "C54_neighbours_rejected_partial",
    "C54_valid_accepted_partial",
    "C54_compiled_round_trip_partial"
   ],
   "note": "C54_gap_refuted: False: the check compares neighbouring optional members only. SEQUENCE { a INTEGER OPTIONAL, b BOOLEAN OPTIONAL, c INTEGER OPTIONAL } is accepted, and the encoding of { c 5 } decodes, successfully, as { a 5 }. C54_mandatory_next_refuted: SEQUENCE { a INTEGER OPTIONAL, b INTEGER } is accepted, and the encoding of { b 5 } cannot be decoded. C54_choice_refuted: A second CHOICE alternative is not compared either: SEQUENCE { a INTEGER OPTIONAL, b CHOICE { x BOOLEAN, y INTEGER } OPTIONAL } is accepted; { b y: 5 } decodes as { a 5 }. C54_valid_accepted_partial: The check never rejects a type that X.680 calls valid (and the generated code then round-trips, next theorem). C54_compiled_round_trip_partial: Code generated for an accepted type round-trips every value, if its SEQUENCEs satisfy X.680 25.6 (which the compiler does not check) and its CHOICEs differ in tag numbers: whatever references, tags and nesting it has."
  },
  {
   "property": "C55",
   "status": "partial",
   "theorems": [
    "C55_set_duplicates_partial",
    "C55_choice_duplicates_partial",
    "C55_universal_refuted"
   ],
   "note": "C55_set_duplicates_partial: SET and CHOICE definitions are rejected exactly when two members can start with the same tag. Partial: types with tags of class UNIVERSAL are excluded by [plain]. C55_universal_refuted: Without that exclusion it is false: SET { a INTEGER, b [UNIVERSAL 2] IMPLICIT BOOLEAN } and the corresponding CHOICE are accepted although both members have tag UNIVERSAL 2; the value { a 5, b TRUE } cannot be decoded."
  },
  {
   "property": "C56",
   "status": "partial",
   "theorems": [
    "C56_member_tags_partial",
    "C56_type_tags_partial",
    "C56_three_tags_refuted",
    "C56_explicit_choice_refuted",
    "C56_automatic_refuted",
    "C56_tagged_structure_refuted"
   ],
   "note": "C56_member_tags_partial: Members of SEQUENCE and SET and alternatives of CHOICE: what is written starts with exactly the tags X.680 gives the type, outermost first, whatever references and tags are nested (at most two tags in the result: [one_explicit]). [cpp_comps] in Compiler.v shows that this is the code of every member outside AUTOMATIC TAGS; see also the example. C56_three_tags_refuted: Without [one_explicit] it fails in three ways: (1) [0] EXPLICIT [1] EXPLICIT INTEGER loses the tag in the middle; (2) an explicit tag on a CHOICE adds a tag UNIVERSAL 0 after it, also when it is the default of the module; (3) under AUTOMATIC TAGS a tag without keyword is explicit. C56_explicit_choice_refuted: SEQUENCE { a [1] CHOICE { x INTEGER } } under EXPLICIT TAGS, value { a x: 5 }: X.680 asks for 30 05 A1 03 02 01 05. C56_tagged_structure_refuted: T ::= [5] SEQUENCE { a INTEGER }, and SEQUENCE OF such a type: the tag is lost (test/generated/Sequence.cpp has a \"TODO: Fixme\" for it)."
  },
  {
   "property": "C57",
   "status": "partial",
   "theorems": [
    "C57_duplicates",
    "C57_order_partial",
    "C57_outcome_partial",
    "C57_success_partial",
    "C57_nested_set_refuted",
    "C57_enumerated_default_refuted",
    "C57_tagged_default_refuted",
    "C57_other_module_refuted"
   ],
   "note": "C57_order_partial: When reorder_assignments returns: no name was defined twice, no name referred to was undefined, the result has the given assignments, storage aside, and every assignment comes after those it needs. Storage is dynamic only on cycles. Partial: a SET inside another type with a name as default value, see below. C57_outcome_partial: When type references are not circular, reorder_assignments returns or throws; it does not run forever. C57_success_partial: When it returns: distinct names, all defined; no type whose values are infinite; a default given by name in no SET. (With C57_order_partial, then, correctly ordered.) Partial: a default of a type that is a name for an ENUMERATED type is taken for the name of a value when looking for cycles, a reference into another module for one into this module: see below. C57_nested_set_refuted: T ::= SEQUENCE { s SET { a INTEGER DEFAULT v } }, v INTEGER ::= ...: the C++ for [v] comes after its use. C57_enumerated_default_refuted: E ::= ENUMERATED { red }, S ::= SEQUENCE { e E DEFAULT red }, C ::= CHOICE { s S }. C57_tagged_default_refuted: E ::= [1] ENUMERATED { red }, S ::= SEQUENCE { e E DEFAULT red }. C57_other_module_refuted: S ::= SEQUENCE { x Other.T }, with T in module Other."
  },
  {
   "property": "C58",
   "status": "partial",
   "theorems": [
    "C58_reorder_modules",
    "C58_same_name_refuted"
   ],
   "note": "C58_same_name_refuted: Two modules of the same name are not detected (nothing else does): the result has one of them twice, and an import cycle passes."
  },
  {
   "property": "C59",
   "status": "partial",
   "theorems": [
    "C59_legal_partial",
    "C59_missing_comma_refuted",
    "C59_any_name"
   ],
   "note": "C59_legal_partial: The result of santize_name on a name that X.680 allows is a C++ identifier; it is not a C++ keyword and not one of the names of the library, except for the two names that the missing comma (see CompilerNames.v) leaves out. C59_missing_comma_refuted: The ASN.1 names xor-eq and BMPString are left as the keyword xor_eq and the library's BMPString."
  },
  {
   "property": "C60",
   "status": "proved",
   "theorems": [
    "C60_distinct_names",
    "C60_underscore_refuted"
   ],
   "note": "For every pair of names X.680 allows. C60_underscore_refuted: names with underscores, which the lexer accepts beyond X.680, can collide."
  },
  {
   "property": "C61",
   "status": "partial",
   "theorems": [
    "C61_hex_partial",
    "C61_decimal_refuted"
   ],
   "note": "C61_hex_partial: The C++ expression written for an hstring denotes the octets of that hstring if and only if it has an even number of digits and every octet is between 1 and 7. (The bytes are written in decimal after a backslash, which C++ reads as octal; absl::string_view stops at a zero octet; and the digit missing from an odd number is taken to be the first, not the last.) C61_decimal_refuted: 'FF'H denotes the octet 173; 'ABC'H is AB C0 but does not even denote two octets."
  },
  {
   "property": "C62",
   "status": "partial",
   "theorems": [
    "C62_right_partial",
    "C62_found_partial",
    "C62_resolve_partial",
    "C62_cycle_refuted",
    "C62_module_refuted",
    "C62_two_tags_refuted"
   ],
   "note": "C62_right_partial: Whatever the definitions are, circular ones too: if resolving a type ends, then with the type and module that X.680 says, or, if there is none, with an exception. C62_found_partial: If X.680 says a type, it is found, whatever circles there are among the other definitions. (So a type that resolving never returns for, is none.) C62_resolve_partial: For distinct names and definitions that are not circular: resolving a type in module [m] ends, with the type and module X.680 says, or with an exception if there is none. Partial: circular definitions, and those excluded by [resolvable], see below. C62_cycle_refuted: A ::= B, B ::= A: the compiler never stops. C62_module_refuted: Module One imports Y from Two, where Y ::= [1] Z. In One, that Z is looked up in One: it may be another type. C62_two_tags_refuted: A ::= [1] [2] B, B ::= INTEGER: the reference to B is left unresolved."
  },
  {
   "property": "C63",
   "status": "partial",
   "theorems": [
    "C63_components_partial",
    "C63_order_refuted",
    "C63_alias_refuted",
    "C63_module_refuted",
    "C63_in_place_refuted"
   ],
   "note": "C63_components_partial: If every COMPONENTS OF in a SEQUENCE definition names another SEQUENCE or SET definition of the same module, directly, which has no COMPONENTS OF itself or is a SEQUENCE that comes before ([includes_ok]), all of them are expanded, in place and in order, and nothing else changes. Partial: see below for what goes wrong otherwise. C63_order_refuted: The same three definitions in the other order: the components of C are missing from A. C63_alias_refuted: A ::= SEQUENCE { COMPONENTS OF B }, B ::= C, C ::= SEQUENCE { x }: nothing is included. SET { COMPONENTS OF C } is not expanded at all. C63_module_refuted: Components of a type of another module keep their references, which then mean something else: One imports B from Two, where B ::= SEQUENCE { x T }. C63_in_place_refuted: COMPONENTS OF SEQUENCE { x }, with the type in place, and a SEQUENCE that includes itself: undefined behaviour."
  },
  {
   "property": "C64",
   "status": "proved",
   "theorems": [
    "C64_dynamic_optional_owns_its_value",
    "C64_dynamic_optional_no_leak",
    "C64_dynamic_optional_copies_independent"
   ],
   "note": "C64_dynamic_optional_owns_its_value: Whatever a caller does with optionals \u2014 including assigning one to itself, a part of it to itself and itself to a part of it \u2014 no freed or null memory is used, every variable contains what value semantics says, and the memory allocated is exactly that of the values the variables contain, each piece with one owner. C64_dynamic_optional_no_leak: Nothing remains allocated when all variables are gone. C64_dynamic_optional_copies_independent: Changing a copy does not change what it was copied from."
  },
  {
   "property": "C65",
   "status": "partial",
   "theorems": [
    "C65_dynamic_variant_owns_its_value_partial",
    "C65_self_assignment_refuted",
    "C65_copy_of_moved_from_refuted",
    "C65_assignment_of_part_refuted",
    "C65_throwing_constructor_refuted",
    "C65_assignment_steals_refuted"
   ],
   "note": "C65_dynamic_variant_owns_its_value_partial: Variants: the same, for callers that do not copy a variant to itself, to a part of itself or from a part of it, do not copy one that was moved from, do not assign a value containing a variant, and whose constructors do not throw; alternative 0 not containing a variant. C65_self_assignment_refuted: Copy-assigning a variant to itself uses freed memory, or follows a null pointer, always. C65_copy_of_moved_from_refuted: [tree] has a moved-from variant copied, a variant assigned a part of itself, a constructor throwing before destruction: C65_assignment_steals_refuted: Assigning an object to a variant takes what the object contains, though it was not given away: [v = t] moves from [t]."
  },
  {
   "property": "C66",
   "status": "partial",
   "theorems": [
    "C66_calendar",
    "C66_set_time_round_trip_partial",
    "C66_subsecond_refuted",
    "C66_set_time_zone_round_trip_partial",
    "C66_zone_meaning_refuted",
    "C66_set_civil_partial",
    "C66_decode_length_partial",
    "C66_rejected_decode_refuted"
   ],
   "note": "C66_set_time_round_trip_partial: The time set is the time read back, down to the second, whatever the object held before. C66_subsecond_refuted: Missing: fractions of a second are lost (so an object compares unequal to the time it was set from). C66_zone_meaning_refuted: But the content is wrong: the UTC time is written where X.680 wants the local time, so the octets denote another moment for everyone else (here 12:00 UTC is sent as 12:00+0100, which is 11:00 UTC). C66_set_civil_partial: A civil (local) time is read back as the same calendar fields in UTC, so as another moment unless the local zone is UTC. C66_decode_length_partial: A successful decode leaves a content of 10 to 23 octets. C66_rejected_decode_refuted: But a rejected decode has already replaced the content, and reading the time is then undefined behaviour."
  },
  {
   "property": "C67",
   "status": "partial",
   "theorems": [
    "C67_view_construction_defined_refuted",
    "C67_view_construction_defined_partial"
   ],
   "note": "C67_view_construction_defined_refuted: C67, refuted: building a view of 1F FF FF FF FF FF FF FF FF FF 01 00 overflows the signed tag (undefined behaviour). C67_view_construction_defined_partial: C67, partial: with at most nine tag octets (63 bits) after the first it is always defined."
  },
  {
   "property": "C68",
   "status": "partial",
   "theorems": [
    "C68_resize_reads_in_size_refuted",
    "C68_resize_reads_in_size_partial"
   ],
   "note": "C68_resize_reads_in_size_refuted: C68, refuted: shrinking 200 content octets to 10 makes memmove read octets behind the vector's size(). C68_resize_reads_in_size_partial: C68, partial: whenever the header does not shrink, resize_content stays inside size()."
  },
  {
   "property": "C69",
   "status": "partial",
   "theorems": [
    "C69_assign_accepts_only_valid_refuted",
    "C69_assign_accepts_only_valid_partial"
   ],
   "note": "C69_assign_accepts_only_valid_refuted: C69, refuted: assign accepts a negative first or second component (1.-2 is stored as 0.38), and with a first component below -2^63/40 it overflows. C69_assign_accepts_only_valid_partial: C69, partial: when the first two components are not negative, assign returns true exactly on the valid lists."
  },
  {
   "property": "C70",
   "status": "partial",
   "theorems": [
    "C70_real_value_by_x690_refuted",
    "C70_real_value_by_x690_partial",
    "C70_exponents_partial",
    "C70_results_partial",
    "C70_special_values"
   ],
   "note": "C70_real_value_by_x690_refuted: C70. What is read from a binary encoding is not always the value X.690 gives it: 81 01 00 10 is 16 * 2^256 and is read as 16 * 2^1. C70_real_value_by_x690_partial: Missing here: exponents in more than one octet (C70_exponents_partial), mantissas whose leading octet is below 16 (C38), results outside the normal range (C70_results_partial). Here the double read is the encoded number N * 2^(f + e * log2 base), truncated to 53 bits. C70_exponents_partial: Which octets are taken for the exponent, whatever its length. In the form without a length octet it is the first octet of the exponent alone, in the form with one it is the two octets behind the length octet, be they all of the exponent or not. So the number that is encoded is read in the former from exponents of one octet and no others, in the latter from those of two octets (and where the octet that follows only extends the sign). C70_results_partial: All results. With the exponent taken as above, N * 2^scale is read cut off to 53 bits if it is in the range of the normal doubles, as an infinity if it is beyond, and cut off to a multiple of 2^-1074 if it is below; or value() does not return (C38): if the leading octet of N is below 16, but for the least numbers."
  },
  {
   "property": "C71",
   "status": "partial",
   "theorems": [
    "C71_cstring_partial",
    "C71_quote_refuted",
    "C71_backslash_refuted"
   ],
   "note": "C71_quote_refuted: The ASN.1 string \"a\"\"b\", whose value is a, double quote, b, becomes ab; and a\\n, four characters with the two backslash-n, becomes a and a line feed."
  },
  {
   "property": "C72",
   "status": "partial",
   "theorems": [
    "C72_bit_string_refuted"
   ],
   "note": "C72_bit_string_refuted: False: every BIT STRING value, '101'B as well as 'FF'H, is written as an empty string literal."
  },
  {
   "property": "C73",
   "status": "partial",
   "theorems": [
    "C73_integer_partial",
    "C73_least_refuted",
    "C73_oid_partial",
    "C73_oid_names_refuted"
   ],
   "note": "C73_integer_partial: Missing: the least number, whose text is no C++ number. C73_oid_names_refuted: The X.660 names without numbers become 0: { iso standard 8571 } and { joint-iso-itu-t 3 } begin with arcs 1 and 2."
  },
  {
   "property": "C74",
   "status": "partial",
   "theorems": [
    "C74_equality_is_deep_optional",
    "C74_equality_is_deep_variant_partial",
    "C74_comparing_moved_from_refuted",
    "C74_alternatives_in_order",
    "C74_less_is_not_an_order_refuted",
    "C74_less_misses_refuted"
   ],
   "note": "C74_comparing_moved_from_refuted: Comparing with a moved-from variant of the same alternative follows a null pointer. C74_less_is_not_an_order_refuted: A variant that was not moved from is less than itself: operator< compares values of one alternative with ==. C74_less_misses_refuted: And 1 is not less than 2."
  },
  {
   "property": "C75",
   "status": "proved",
   "theorems": [
    "C75_view_construction_undefined_exactly"
   ],
   "note": "C75_view_construction_undefined_exactly: C75. Building a view (or moving an iterator) is undefined exactly when the input starts with a multi-octet tag whose leading octets have a value of at least 2^56; otherwise it gives a view, valid or not."
  },
  {
   "property": "C76",
   "status": "proved",
   "theorems": [
    "C76_valid_view_out_of_bounds_exactly"
   ],
   "note": "C76_valid_view_out_of_bounds_exactly: C76. What a view reports as valid leaves the buffer exactly when header length and length field add up to 2^64 or more; then content() is out of bounds for every buffer."
  },
  {
   "property": "C77",
   "status": "proved",
   "theorems": [
    "C77_iteration_outcome_exactly"
   ],
   "note": "C77_iteration_outcome_exactly: C77. A loop over the children of a view, for any content: it never ends exactly when it comes to a child whose header length and length field add up to 2^64; it is undefined exactly when it comes to a tag as in C75; otherwise it ends after at most as many rounds as there are octets, plus one."
  },
  {
   "property": "C78",
   "status": "proved",
   "theorems": [
    "C78_integer_decode_exact"
   ],
   "note": "C78_integer_decode_exact: C78. Integer::decode succeeds exactly when the bytes start with a primitive packet of the right identifier(s) with at most eight content octets; the value is then the two's complement value of these octets (0 when there are none), and otherwise the object is unchanged."
  },
  {
   "property": "C79",
   "status": "proved",
   "theorems": [
    "C79_string_history_exact",
    "C79_string_history_progress"
   ],
   "note": "C79_string_history_exact: C79. After any history, rejected constructions included: an object made from a rejected view and not changed since is empty and encodes to nothing; every other object holds exactly one packet of its type and encodes to it, and content() is the content of that packet, or, when [extra] octets stand behind the inner packet of an explicitly tagged one, the last |x| octets of the packet. C79_string_history_progress: Every operation is possible in every such state, resizing keeps the common prefix of content(), and decode accepts exactly the packets of the type."
  },
  {
   "property": "C80",
   "status": "proved",
   "theorems": [
    "C80_resize_reads_exact"
   ],
   "note": "C80_resize_reads_exact: C80. The reads of resize_content: with a header of [hl] octets in front of the content, shrinking (or keeping) the content reads inside the vector's size() exactly when the new header is not shorter than the old one, and growing it exactly when the old octets all lie inside the new size."
  },
  {
   "property": "C81",
   "status": "proved",
   "theorems": [
    "C81_bercontainer_copy_exact"
   ],
   "note": "C81_bercontainer_copy_exact: C81. Copy assignment of BerContainers: the copy always claims to be valid; it shows the same packet as the original exactly when the original was valid; and for an original left by a failed decode, the copy's octets are empty and reading its class is undefined."
  },
  {
   "property": "C82",
   "status": "proved",
   "theorems": [
    "C82_oid_value_exact",
    "C82_oid_decode_agrees_exactly"
   ],
   "note": "C82_oid_value_exact: C82. value() of any content octets: the first octet gives its quotient and remainder by 40, each complete base-128 group after it one component reduced to the range of int64_t, and an incomplete group at the end is ignored. C82_oid_decode_agrees_exactly: So an X.690 content is decoded to its components exactly when its first subidentifier is below 120 and every later component fits in int64_t."
  },
  {
   "property": "C83",
   "status": "proved",
   "theorems": [
    "C83_oid_component_number_exact"
   ],
   "note": "C83_oid_component_number_exact: C83. component_number and number_of_components for every reachable object, in terms of content(): nothing held: -1; 0: the first element of value(); 1: undefined when the content is one octet, and otherwise the second content octet modulo 40 (not value()[1]); from 2 on: 0 when value() has such an element and -1 when it has not."
  },
  {
   "property": "C84",
   "status": "proved",
   "theorems": [
    "C84_oid_assign_exact"
   ],
   "note": ""
  },
  {
   "property": "C85",
   "status": "proved",
   "theorems": [
    "C85_real_binary_exact"
   ],
   "note": "C85_real_binary_exact: C85. For every binary encoding (first octet 128 or above): the inputs of [real_form], and no others, are accepted; the reader then loops for ever exactly when [real_loops], and otherwise returns the number truncated towards zero."
  },
  {
   "property": "C86",
   "status": "proved",
   "theorems": [
    "C86_real_value_exact"
   ],
   "note": "C86_real_value_exact: C86. value() of a Real in any state it can reach, from its contents octets: every case."
  },
  {
   "property": "C87",
   "status": "proved",
   "theorems": [
    "C87_real_round_trip_exact"
   ],
   "note": "C87_real_round_trip_exact: C87. What value() gives after assigning a double: the same double exactly when [real_exact]; otherwise it never returns (denormals whose doubled fraction has a leading octet below 16) or returns mantissa * 2^(floor(scale / 256)): only the first of the exponent's two octets is read."
  },
  {
   "property": "C88",
   "status": "proved",
   "theorems": [
    "C88_boolean_values",
    "C88_enumerated_values",
    "C88_enumerated_only_names"
   ],
   "note": "C88_boolean_values: A BOOLEAN value is the C++ literal of the same truth value. C88_enumerated_values: An ENUMERATED value is a qualified name in the enum class the compiler writes for the type; values given in another way make the compiler stop."
  },
  {
   "property": "C89",
   "status": "partial",
   "theorems": [
    "C89_enum_class_exact",
    "C89_enum_extension",
    "C89_enum_numbers_x680_partial",
    "C89_enum_numbers_refuted",
    "C89_x680_distinct",
    "C89_enum_distinct_refuted",
    "C89_enum_large_refuted"
   ],
   "note": "C89_enum_numbers_x680_partial: Missing from \"the generated enumerators have the numbers of X.680\": lists in which an item without a number comes after one whose number is not its position, or whose numbers collide with the positions; the next two theorems. C89_enum_numbers_refuted: { first(2), second } : X.680 gives second the number 0, the generated class 3. C89_enum_large_refuted: A number outside int makes the generated class ill formed."
  },
  {
   "property": "C90",
   "status": "proved",
   "theorems": [
    "C90_enum_to_string"
   ],
   "note": "C90_enum_to_string: When the items' values are different, the generated to_string returns for each value the item's (C++) name and \"Invalid state!\" for every other value; when two are equal, the switch is ill formed."
  },
  {
   "property": "C91",
   "status": "partial",
   "theorems": [
    "C91_parameters_meaning_partial",
    "C91_parameters_gone",
    "C91_parameters_accepted",
    "C91_nested_actual_refuted",
    "C91_components_of_refuted",
    "C91_other_module_refuted",
    "C91_imported_template_refuted",
    "C91_template_in_template_refuted"
   ],
   "note": "C91_parameters_meaning_partial: Missing from \"resolve_parameters keeps every type's meaning\": modules that are not [parameters_ok]; the refutations below show the pass wrong for some of them. C91_nested_actual_refuted: A ::= List{List{INTEGER}}: the inner use is left in place, its template removed. C91_components_of_refuted: A ::= SEQUENCE { COMPONENTS OF Pair{INTEGER} }. C91_other_module_refuted: M: A ::= N.Pair{INTEGER}, Other ::= BOOLEAN; N: Pair{X} ::= SEQUENCE { x X, y Other }, Other ::= NULL: A gets M's Other. C91_imported_template_refuted: Types with a meaning that make the pass throw: an imported template, and a template that uses another."
  },
  {
   "property": "C92",
   "status": "proved",
   "theorems": [
    "C92_imports_meaning",
    "C92_imports_resolve"
   ],
   "note": "C92_imports_meaning: After split_imports has run on every module, the modules mean without their imports what they meant with them. C92_imports_resolve: ResolveType.cpp's resolve, which does not look at imports, then finds exactly the names that are defined or imported."
  },
  {
   "property": "C93",
   "status": "partial",
   "theorems": [
    "C93_nesting_meaning",
    "C93_nesting_flat",
    "C93_nesting_names",
    "C93_name_clash_refuted"
   ],
   "note": "C93_name_clash_refuted: A type of the user's may have such a name, and then the meaning changes: A ::= SET OF SET { x INTEGER }, UnnamedSet0 ::= BOOLEAN, B ::= SEQUENCE { u UnnamedSet0 }."
  },
  {
   "property": "C94",
   "status": "partial",
   "theorems": [
    "C94_classes_meaning_partial",
    "C94_classes_gone",
    "C94_classes_accepted",
    "C94_imports_kept",
    "C94_aliased_class_refuted",
    "C94_imported_class_refuted",
    "C94_other_module_refuted",
    "C94_type_removed_refuted",
    "C94_field_of_field_refuted"
   ],
   "note": "C94_classes_meaning_partial: Missing from \"resolve_object_classes keeps every type's meaning\": modules that are not [classes_ok]; the refutations below show the pass wrong for some of them. C94_aliased_class_refuted: A field of a class under another name: ALIAS.&id. C94_imported_class_refuted: A field of an imported class, as split_imports leaves it. C94_other_module_refuted: N: CLS ::= CLASS { &id Local }, Local ::= INTEGER; M: T ::= N.CLS.&id, Local ::= BOOLEAN: T becomes M's Local. C94_type_removed_refuted: M: B ::= CLASS { }, A ::= N.B; N: B ::= INTEGER: A is taken for another name of M's B, and the type D ::= A is removed. C94_field_of_field_refuted: CLS ::= CLASS { &id INTEGER }, CLT ::= CLASS { &x CLS.&id }, T ::= CLT.&x becomes CLS.&id, and CLS is removed."
  },
  {
   "property": "C95",
   "status": "partial",
   "theorems": [
    "C95_class_names_ends",
    "C95_class_names_exact",
    "C95_other_module_refuted"
   ],
   "note": "C95_other_module_refuted: Another name of another name of a class of a different module, without an import, is missed: M: A ::= N.ALIAS."
  },
  {
   "property": "C96",
   "status": "proved",
   "theorems": [
    "C96_decode_ends",
    "C96_encode_ends",
    "C96_construction_ends",
    "C96_endless_definitions_have_no_result"
   ],
   "note": "C96_decode_ends: Decoding n octets calls the functions of at most (n + 3) * (K + 2) definitions inside each other, whatever they contain: what would happen below that depth plays no role. C96_construction_ends: A default constructed object is finite, and a valid object. C96_endless_definitions_have_no_result: A ::= CHOICE { a A }: decoding goes on for ever, so that no depth settles the result."
  },
  {
   "property": "C97",
   "status": "partial",
   "theorems": [
    "C97_decode_in_bounds_partial",
    "C97_fresh_object_partial",
    "C97_nesting_refuted"
   ],
   "note": "C97_decode_in_bounds_partial: Partial for the reason C44 is: no CHOICE without a tag where its decoder may be given an empty view. C97_fresh_object_partial: Every decode of a default constructed object, as in a program that receives messages. C97_nesting_refuted: Nothing limits the depth: at most 138 octets of input make the decoder of a recursive type call itself once more, from inside itself. (The C++ stack is not modelled; where it is too small for the message, the program crashes.)"
  },
  {
   "property": "C98",
   "status": "partial",
   "theorems": [
    "C98_encode_exact",
    "C98_any_encoding_partial",
    "C98_round_trip_partial",
    "C98_encodings_distinct"
   ],
   "note": "C98_any_encoding_partial: Partial for the reason C42 is: good_defs asks for alternatives with different tag numbers."
  },
  {
   "property": "C99",
   "status": "proved",
   "theorems": [
    "C99_longest_match",
    "C99_always_a_rule",
    "C99_unique"
   ],
   "note": "C99_longest_match: The 775 labels of generated code do what the 128 rules say, on every memory content: the code executes rule [k] with the cursor [n] octets further on exactly when the longest text that any rule matches has length [n] and [k] is the first rule that matches it; and no rule matches a text that goes on behind the memory. C99_always_a_rule: There always is such a rule: any octet is matched by one."
  },
  {
   "property": "C100",
   "status": "partial",
   "theorems": [
    "C100_in_bounds_refuted",
    "C100_over_read_exactly",
    "C100_next_read_exactly",
    "C100_in_bounds_partial"
   ],
   "note": "C100_in_bounds_refuted: Text that is left when the file ends inside a comment or a string is read past its end. The witness is a file whose last line is a comment without a new line. C100_in_bounds_partial: A file without quotes and without a slash and star in it that ends with a new line is read in bounds. Missing: files with quotes or such comments, or whose last line is not ended."
  },
  {
   "property": "C101",
   "status": "partial",
   "theorems": [
    "C101_file_exact",
    "C101_reading_ends",
    "C101_whole_text_partial",
    "C101_whole_text_refuted",
    "C101_unknown_octets_refuted"
   ],
   "note": "C101_whole_text_partial: If the text has no NUL in it, the lexemes are the whole of it, in order, with nothing between them. Missing: files with a NUL. C101_whole_text_refuted: A NUL ends the file: what comes behind it is dropped without a message. C101_unknown_octets_refuted: Octets that start no lexeme of ASN.1 do not stop the compiler either."
  },
  {
   "property": "C102",
   "status": "partial",
   "theorems": [
    "C102_words",
    "C102_reserved_words_partial",
    "C102_reserved_words_refuted"
   ],
   "note": "C102_reserved_words_partial: The reserved words of X.680 but three are read as such, wherever they stand. Missing: the three. C102_reserved_words_refuted: PLUS-INFINITY, OID-IRI and ENCODING-CONTROL are read as type references (the rules spell them with an underscore), and ANY, which is not reserved, is not."
  },
  {
   "property": "C103",
   "status": "partial",
   "theorems": [
    "C103_white_space",
    "C103_white_space_file",
    "C103_closed_comment",
    "C103_line_comment_partial",
    "C103_line_comment_refuted",
    "C103_block_comment_partial",
    "C103_block_comment_refuted"
   ],
   "note": "C103_line_comment_partial: The other end of a comment: the end of the line, LF or CR. Missing: VT and FF, which end lines as well. C103_line_comment_refuted: Vertical tab and form feed end a line (X.680 12.1.6), but not a comment. C103_block_comment_partial: Slash and star: skipped up to the first star and slash. Missing: such comments inside it. C103_block_comment_refuted: X.680 12.6.4: these comments nest, so all of this file is one comment; here it ends at the first end mark."
  },
  {
   "property": "C104",
   "status": "partial",
   "theorems": [
    "C104_numbers",
    "C104_negative_numbers",
    "C104_real_numbers_refuted",
    "C104_strings_partial",
    "C104_strings_refuted",
    "C104_binary_strings_partial",
    "C104_hexadecimal_strings_partial",
    "C104_binary_strings_refuted"
   ],
   "note": "C104_real_numbers_refuted: X.680 12.9: a real number may have an exponent, or no digits behind the point; here these are other tokens. C104_strings_partial: A character string of octets other than quotes and backslash, and of doubled quotes, is one token with its text (the quotes around it and doubled quotes are kept). Missing: strings with an apostrophe or a backslash in them. C104_strings_refuted: An apostrophe ends a string, and a backslash hides the quote behind it. C104_binary_strings_partial: Binary and hexadecimal strings: the digits between the apostrophes. Missing: white space between the digits. C104_binary_strings_refuted: X.680 12.10: white space between the digits has no significance; here it makes a character string of them."
  },
  {
   "property": "C105",
   "status": "partial",
   "theorems": [
    "C105_lines_partial",
    "C105_lines_refuted",
    "C105_columns_refuted",
    "C105_positions_exact"
   ],
   "note": "C105_lines_partial: Each token is located on the line that it starts on: one more than the new lines in the text before it. Missing: files with a new line inside a string. C105_lines_refuted: Behind a string of two lines, all lines are one too low. C105_columns_refuted: Columns: a space counts for two, so that the column is right only behind tokens and comments. The second word is on column 3."
  },
  {
   "property": "C106",
   "status": "proved",
   "theorems": [
    "C106_accepted_is_sentence",
    "C106_tree_of_derivation",
    "C106_rules_are_the_grammar"
   ],
   "note": "C106_accepted_is_sentence: ** C106: only sentences of the grammar are accepted C106_tree_of_derivation: The tree is the one that the actions of the grammar's rules build on a derivation of the tokens: executed bottom-up and from left to right, each on the values of the symbols on the right of its rule. C106_rules_are_the_grammar: Rule and action, symbol and number, belong together."
  },
  {
   "property": "C107",
   "status": "proved",
   "theorems": [
    "C107_ends",
    "C107_harm_only_at_an_open_end"
   ],
   "note": "C107_ends: On every text, and whatever has been read before, the parser ends after at most 12 steps for each octet (and 48 more), with one of its verdicts; it reads no table out of bounds, pops no empty stack and takes no value for one of another type. An exception and reading past the end of the text can only come from the lexer. C107_harm_only_at_an_open_end: Which is decided by the text alone (C100, C101)."
  },
  {
   "property": "C108",
   "status": "proved",
   "theorems": [
    "C108_first_error_is_final",
    "C108_no_recovery"
   ],
   "note": "C108_first_error_is_final: A file that is rejected is rejected because of its first tokens: every file that starts with the same tokens is rejected, whatever follows them, even text that the lexer cannot read. C108_no_recovery: So that no file that begins with these tokens is accepted."
  },
  {
   "property": "C109",
   "status": "partial",
   "theorems": [
    "C109_grammar_refuted",
    "C109_notation_refuted",
    "C109_notation_partial",
    "C109_every_module_has_a_text"
   ],
   "note": "C109_grammar_refuted: Not every sentence of the compiler's own grammar is accepted: the tables prefer other rules. C109_notation_refuted: And not everything of X.680: imports into a module without assignments, version brackets, an empty list of additions, defaults in braces, numbers with an exponent, negative reals, values of other modules, sets of objects. C109_notation_partial: The common part of ASN.1 (ParserSource.v), spelled in whatever way X.680 allows (ParserText.v), is accepted: modules with object identifiers, default tagging, EXPORTS and IMPORTS; type, value and class assignments, with parameters; all types, tags, defaults, ranges, sizes, unions and intersections. Missing: the notation that ParserSource.v does not have."
  },
  {
   "property": "C110",
   "status": "partial",
   "theorems": [
    "C110_faithful_refuted",
    "C110_parameters_refuted",
    "C110_tree_partial",
    "C110_faithful_partial"
   ],
   "note": "C110_faithful_refuted: Values of value assignments are lost; defaults of bits and of hexadecimal digits are the same; numbers of tags wrap; numbers that are references become 0; parameters are reversed or lost; two types become ANY. C110_tree_partial: What the tree is, for the notation of ParserSource.v in whatever spelling: see [read_source] there. Missing: the notation that ParserSource.v does not have. C110_faithful_partial: Two texts that give the same tree write the same modules. Missing: notation of which the tree keeps less ([exact_source])."
  },
  {
   "property": "C111",
   "status": "partial",
   "theorems": [
    "C111_files_do_not_interfere",
    "C111_files_only_add",
    "C111_files_in_order",
    "C111_files_partial"
   ],
   "note": "C111_files_partial: Files in the notation of ParserSource.v are read as if they were one."
  },
  {
   "property": "C112",
   "status": "partial",
   "theorems": [
    "C112_fresh_refuted",
    "C112_made_up_names_partial",
    "C112_made_up_names_differ"
   ],
   "note": "C112_fresh_refuted: A name that the compiler makes up may be one that the text has, in the same SEQUENCE. C112_made_up_names_partial: In files in the notation of ParserSource.v: a name occurs in the tree as often as the text gives it to a component, and once more if it is one of the names made up; these are anonymous_member_ and one number after another, for as many as the counter has gone on. So names made up differ from each other, across all files. Missing: the notation that ParserSource.v does not have."
  },
  {
   "property": "C113",
   "status": "partial",
   "theorems": [
    "C113_one_code",
    "C113_types_only",
    "C113_round_trip_partial",
    "C113_tags_partial",
    "C113_automatic_partial",
    "C113_refused_partial",
    "C113_automatic_additions_refuted",
    "C113_tag_numbers_refuted",
    "C113_implied_refuted"
   ],
   "note": "C113_round_trip_partial: For every text of modules in the notation of ParserSource.v and every type in it that is valid ASN.1 and in the covered part: there is code for it, and every value it can hold is written, into every buffer that is large enough, as octets that are read back as the same value, whatever stands behind them and whatever the object held before. Missing: what [means], [covered] and [plain] leave out, AUTOMATIC TAGS (next but one), and CHOICEs whose alternatives differ only in the class of their tags (C52). C113_tags_partial: And the octets start with the tags that X.680 gives the type as it is written, outermost first. C113_automatic_partial: With AUTOMATIC TAGS: types with only mandatory components in SEQUENCEs, and in SETs and CHOICEs no tagged components or alternatives, and no references to structured types. C113_refused_partial: Types that X.680 forbids are refused, as far as C54 and C55 go. C113_automatic_additions_refuted: X.680 24.7, 25.8, 29.5: AUTOMATIC TAGS number the root components first and then the additions, in textual order. For CHOICE { a INTEGER, ..., b INTEGER } a has to get [0]; it is written with [1]. For SEQUENCE { a INTEGER, ..., b INTEGER, ..., c INTEGER } c has to get [1] and b [2]; it is the other way round. C113_tag_numbers_refuted: The parser keeps 32 bits of the numbers of tags: [4294967297] is written as [1], and so are two alternatives that differ: the type is rejected. C113_implied_refuted: EXTENSIBILITY IMPLIED makes no difference: a SET of such a module refuses a member that it does not know; with dots it skips it."
  },
  {
   "property": "C114",
   "status": "partial",
   "theorems": [
    "C114_universal_tags_partial",
    "C114_time_types_refuted"
   ],
   "note": "C114_universal_tags_partial: The types that the library has no class for, or that it does as GeneralizedTime, are not covered ([means]). C114_time_types_refuted: The other time types (X.680 38: TIME 14, DATE 31, TIME-OF-DAY 32, DATE-TIME 33, DURATION 34) are all written with the identifier octet 00, which is that of the end-of-contents octets (X.690 8.1.5), and with a GeneralizedTime as contents."
  },
  {
   "property": "C115",
   "status": "partial",
   "theorems": [
    "C115_default_refuted",
    "C115_default_partial"
   ],
   "note": "C115_default_refuted: BIT STRING, OBJECT IDENTIFIER: no contents. UTCTime: a year of four digits. ENUMERATED { a(5) }: 0, which is not one of its values. C115_default_partial: All others of the types without members that have a class."
  },
  {
   "property": "C116",
   "status": "partial",
   "theorems": [
    "C116_view_tool_terminates_partial",
    "C116_view_tool_terminates_refuted"
   ],
   "note": "C116_view_tool_terminates_partial: C116. For every file of ordinary octets the tool terminates: it prints null and returns -1 exactly when no packet is at the front; otherwise it returns 0, and has undefined behaviour exactly when a UTCTime or GeneralizedTime in the packet is empty or too short to look for a zone in. Missing: files with a header that overflows (see the refutation), files of 2^62 octets or more, and platforms where std::isprint of a negative char is undefined."
  },
  {
   "property": "C117",
   "status": "partial",
   "theorems": [
    "C117_view_tool_json_partial",
    "C117_view_tool_json_refuted"
   ],
   "note": "C117_view_tool_json_partial: C117. What the tool prints is JSON: an object with the packet's length, its identifier and its content; the content of a constructed packet is the array of what is printed for the packets in it, in order; the content of a primitive packet is its value. Proved for packets without REAL, UTCTime and GeneralizedTime, and without quotation marks and backslashes in their strings; the value of ENUMERATED, and of object identifiers with a first octet of 120 or more, is left out. C117_view_tool_json_refuted: In general it is not JSON, or says something else: ENUMERATED 1 is shown as 0; the content of a REAL and a time are left out or not quoted; a quotation mark in a string is not escaped; the object identifier 2.999 is shown as 3.16.55; and packets behind the first are dropped without a word."
  },
  {
   "property": "C118",
   "status": "partial",
   "theorems": [
    "C118_printed_object_json_partial",
    "C118_printed_object_json_refuted"
   ],
   "note": "C118_printed_object_json_partial: C118. Printing an object gives a JSON text that says its value. Proved for values without times, without quotation marks and backslashes, with declared enumerators, finite reals (shown to six digits), and object identifiers whose first octet is below 120; on platforms where std::isprint is defined for negative chars. C118_printed_object_json_refuted: A Real with these contents."
  },
  {
   "property": "C119",
   "status": "partial",
   "theorems": [
    "C119_equal_iff_same_value_partial",
    "C119_equivalence_partial",
    "C119_equal_iff_same_value_refuted"
   ],
   "note": "C119_equal_iff_same_value_partial: C119. a == b is true exactly when a and b hold the same value; a DEFAULT member that was left out counts with its default. Proved for values the types define: INTEGERs of one to eight octets, enumerations in the range of int, times written as YYYYMMDDHHMMSSZ; and for types without REAL, whose operator== is that of C132. C119_equivalence_partial: So it is an equivalence relation. C119_equal_iff_same_value_refuted: Not so for received objects in general: a time that cannot be parsed makes the comparison with itself throw (in a generated, noexcept operator==: terminate); two times an hour apart are equal, as the zone is not looked at; the INTEGER without octets equals 0; the REALs 1 and 1 + 2^-52, and 2 and infinity, are equal, and NaN is not equal to itself."
  },
  {
   "property": "C120",
   "status": "partial",
   "theorems": [
    "C120_decoded_equals_original_partial",
    "C120_equal_but_encoded_differently"
   ],
   "note": "C120_decoded_equals_original_partial: C120. Decoding what encode wrote, into any object and whatever follows it, gives an object that is == to the original. Partial as C42 and C119 are (but REALs are covered, unless they are NaN, which no object is equal to)."
  },
  {
   "property": "C121",
   "status": "partial",
   "theorems": [
    "C121_same_code_partial",
    "C121_round_trip_partial",
    "C121_tags_partial",
    "C121_accepted_partial",
    "C121_works_partial",
    "C121_imports",
    "C121_names",
    "C121_made_up_refuted",
    "C121_class_alias_refuted"
   ],
   "note": "C121_same_code_partial: Between parsing and writing the tree is changed by six passes: parameterized types, order of the modules, imports and nested structures, COMPONENTS OF, object classes, order of the assignments. Whatever they do, what is written for a type is what C113 says of it. Missing: what [means] and [covered] leave out, modules with classes, or with names like those the compiler makes up. C121_round_trip_partial: For every text in the covered part and every valid type in it: if the compiler gets through, it writes code for the type, and every value is written, into every buffer that is large enough, as octets that are read back as the same value, whatever stands behind them and whatever the object held before. C121_tags_partial: And the octets start with the tags that X.680 gives the type as it is written, outermost first. C121_accepted_partial: Every set of files is accepted in which everything is defined (AcceptSpec.v): with the conditions above, if every type that is defined or imported means something, modules do not import in circles, and the files have less than 2^31 octets, then the compiler gets through its passes, given time. Missing: as above; types of other modules in SEQUENCE and SET that are not imported, names as defaults and as values. C121_works_partial: So, without asking whether it is accepted: a valid type in such files has code, and values make the round trip. C121_made_up_refuted: A valid module with a type of its own named UnnamedSequence0 is refused. C121_class_alias_refuted: The code for a type disappears: U ::= T, T ::= Two.FOO, where Two.FOO is BOOLEAN, and the module has a class that is named FOO as well."
  },
  {
   "property": "C122",
   "status": "partial",
   "theorems": [
    "C122_code_partial",
    "C122_round_trip_partial",
    "C122_tags_partial",
    "C122_capture_refuted",
    "C122_optional_date_refuted"
   ],
   "note": "C122_code_partial: What the C++ compiler makes of the header is what C113 and C121 say is generated: for every set of files whose header has no errors and whose names keep apart (HeaderSpec.v), a type that means something has, under its own name in the namespace of its module, the code for that meaning. Missing: what C121 leaves out, and the conditions of [separate] (C122_capture_refuted shows that they are needed). C122_round_trip_partial: And so its values make the round trip. C122_tags_partial: And its octets start with the tags that X.680 gives the type. C122_capture_refuted: Names that do not keep apart: the component foo has its own class FooContained, which is taken for the one of the type Foo. The C++ compiler sees no error, and the component x is a SEQUENCE OF BOOLEAN. C122_optional_date_refuted: The compiler has no tag numbers for DATE, TIME and so on: they are written with the tag UNIVERSAL 0, and an OPTIONAL one is never read. The value given here is lost; what follows it in the octets is lost with it."
  },
  {
   "property": "C123",
   "status": "partial",
   "theorems": [
    "C123_compiles_partial",
    "C123_round_trip_partial",
    "C123_tagged_list_refuted",
    "C123_imported_list_refuted",
    "C123_imported_enumerated_refuted",
    "C123_name_of_owner_refuted",
    "C123_enumerated_default_refuted",
    "C123_enumerated_alias_refuted"
   ],
   "note": "C123_compiles_partial: Headers compile: if the modules, after the compiler's passes, keep to the conditions of ExpressSpec.v and names keep apart (HeaderSpec.v), and the compiler writes a header for them, the header has no errors. Missing: the conditions; the theorems below give modules for which the compiler writes headers with errors. C123_round_trip_partial: Then C122 needs no C++ compiler: types of such modules have the code for what they mean, and their values make the round trip. C123_tagged_list_refuted: A SEQUENCE OF behind a tag that is used by its name: its element has another name than the one that is used. C123_imported_list_refuted: A SEQUENCE OF of another module: its element is looked for in this module. C123_imported_enumerated_refuted: Two components of the same ENUMERATED type of another module: the same using declaration twice in one class. C123_name_of_owner_refuted: A component whose name, with a capital letter, is the name of its type: the class would have a member class of its own name, or its functions are written for a class that does not exist. C123_enumerated_default_refuted: A default value of an ENUMERATED that is written in the component: it comes before its class. C123_enumerated_alias_refuted: A component of a type that is a second name of an ENUMERATED: DValues is not declared."
  },
  {
   "property": "C124",
   "status": "partial",
   "theorems": [
    "C124_accepts_partial",
    "C124_one_value",
    "C124_object_shows_one_value",
    "C124_only_the_packet_matters_partial",
    "C124_encodings_are_read_partial",
    "C124_encodings_are_tame_partial"
   ],
   "note": "C124_accepts_partial: Decoding succeeds exactly on the inputs that begin with a packet the specification reads as some value, and the object then shows this value. Partial: [safe], and the choice of the last hypothesis, leave out the generated untagged CHOICE where its decoder may run on nothing (C44_untagged_choice_refuted); [tame] leaves out inputs whose tag numbers overflow at a header position. C124_only_the_packet_matters_partial: Neither the object decoded into nor the octets behind the packet make a difference. C124_encodings_are_read_partial: Every BER encoding of a value (C42's [ber_of]: any length form, any order of the members of a SET) is read as it. Partial: primitive contents that look like an overlong tag ([calm_value]) are left out, see C124_wild_content."
  },
  {
   "property": "C125",
   "status": "partial",
   "theorems": [
    "C125_same_code_partial",
    "C125_works_partial",
    "C125_header_partial",
    "C125_two_parameters_refuted",
    "C125_imported_template_refuted",
    "C125_nested_argument_refuted",
    "C125_arguments"
   ],
   "note": "C125_same_code_partial: Files with templates X { T } ::= ..., and files in which every X { A } is written out with A for T and the templates are gone: the compiler accepts both or neither, writes the same code for every type, and the same headers. Missing: templates with more than one parameter in use, or with governed ones; arguments and bodies that are themselves parameterized, imported templates (C91_nested_actual_refuted, C91_template_in_template_refuted, C91_imported_template_refuted, C125_two_parameters_refuted). C125_works_partial: So types that use templates work: with [l] the modules written out, a type of [l] that means something and is valid has code, and its values make the round trip. C125_header_partial: And so does what a C++ compiler makes of the header. C125_two_parameters_refuted: Arguments are taken in reverse: Pair {BOOLEAN, INTEGER} is compiled as Pair {INTEGER, BOOLEAN} should be (and that one is a syntax error, C110_parameters_refuted). C125_imported_template_refuted: Templates of other modules cannot be used: the file is refused, although all that is used is defined and imported. C125_nested_argument_refuted: X ::= Box {Box {BOOLEAN}} is refused."
  },
  {
   "property": "C126",
   "status": "partial",
   "theorems": [
    "C126_same_code_partial",
    "C126_works_partial",
    "C126_header_partial",
    "C126_order_refuted",
    "C126_imported_refuted",
    "C126_reference_refuted",
    "C126_extension_refuted",
    "C126_set_refuted",
    "C126_nested_refuted"
   ],
   "note": "C126_same_code_partial: Files with COMPONENTS OF (and templates), and files in which the components stand in its place: the compiler accepts both or neither, writes the same code for every type, and the same headers. Missing: COMPONENTS OF types that are imported, references, with COMPONENTS OF or an extension marker themselves (C126_order_refuted, C126_imported_refuted, C126_reference_refuted, C126_extension_refuted), in SETs and in SEQUENCEs right in another structure (C126_set_refuted, C126_nested_refuted), or whose components have made-up names. C126_works_partial: So types with COMPONENTS OF work: with [l] the modules written out, a type of [l] that means something and is valid has code, and its values make the round trip. C126_header_partial: And so does what a C++ compiler makes of the header. C126_order_refuted: COMPONENTS OF a SEQUENCE that itself has COMPONENTS OF: components are lost, without an error, if the included SEQUENCE stands first; with the definitions in reverse order, they are there. C126_imported_refuted: Components of imported types are left out, without an error. C126_reference_refuted: And those of types that are references to SEQUENCEs. C126_extension_refuted: Extension additions are included (X.680 25.4 leaves them out). C126_set_refuted: In a SET, and in a SEQUENCE right in another one, COMPONENTS OF stays: the file is accepted, with a member that has no name and type ANY."
  },
  {
   "property": "C127",
   "status": "partial",
   "theorems": [
    "C127_same_code_partial",
    "C127_works_partial",
    "C127_header_partial",
    "C127_open_refuted",
    "C127_alias_refuted",
    "C127_imported_refuted",
    "C127_chain_refuted",
    "C127_structure_refuted"
   ],
   "note": "C127_same_code_partial: Files with classes (and COMPONENTS OF, and templates), and files without, with the types of the fields in their place: the compiler accepts both or neither, writes the same code for every type, and the same headers. Missing: fields without a fixed type, classes that are imported or other names of classes, fields that are structures or made from other classes (C127_open_refuted, C127_alias_refuted, C127_imported_refuted, C127_structure_refuted, C127_chain_refuted), objects, and X ::= CLASS.&field where the type of the field is a reference. C127_works_partial: So types with fields of classes work: with [l] the modules written out, a type of [l] that means something and is valid has code, and its values make the round trip. C127_header_partial: And so does what a C++ compiler makes of the header. C127_open_refuted: Valid files that are refused: open types; C127_alias_refuted: another name for a class; C127_imported_refuted: and imported classes. C127_chain_refuted: A field whose type is a field of another class keeps it, and its class is removed. C127_structure_refuted: SEQUENCE OF CLASS.&field, where the type of the field is a SEQUENCE: the header has errors. Without the class, it has none."
  },
  {
   "property": "C128",
   "status": "partial",
   "theorems": [
    "C128_constant_partial",
    "C128_places",
    "C128_default_partial",
    "C128_places_refuted",
    "C128_boolean_refuted",
    "C128_reference_refuted",
    "C128_import_refuted",
    "C128_names_refuted",
    "C128_imported_refuted",
    "C128_oid_refuted",
    "C128_bits_refuted",
    "C128_hidden_refuted"
   ],
   "note": "C128_constant_partial: A constant of the text is a constant of the header, in the namespace of its module, and has the value that is written there, be it through other constants, wherever these stand in the module; a REAL is the double nearest to the number that is written. Missing: other types of values than numbers (REAL: with up to six places, C128_places_refuted), character strings and object identifiers; references to types and values beyond the module (see the refuted cases below). C128_default_partial: The member of a generated struct that is written with DEFAULT has the value that is written as its default value, if no name of the struct hides a name that this needs. C128_places_refuted: So one with more than six places loses them: this is zero. C128_boolean_refuted: Valid modules that are refused. A constant that is TRUE: C128_reference_refuted: a constant whose type is a second name of a type: C128_import_refuted: a constant whose type is imported: C128_names_refuted: the name of a number, of an item of an enumeration, behind ::= and behind DEFAULT: C128_imported_refuted: the name of a constant that is imported, behind ::= and behind DEFAULT: C128_oid_refuted: Object identifiers that are made of others lose them. C128_bits_refuted: A bit string loses its bits: C128_hidden_refuted: Without [unhidden]: here the default value of b is 5, and the generated get_value() returns a, the other member."
  },
  {
   "property": "C129",
   "status": "partial",
   "theorems": [
    "C129_types_partial",
    "C129_imports_partial",
    "C129_values_refuted",
    "C129_templates_refuted",
    "C129_made_up_refuted"
   ],
   "note": "C129_types_partial: If a header is written, then all types that are referred to anywhere in the definition of a type, or by that of a constant, are defined: in the module, or in the one the reference names, or along imports. Missing: modules with object classes, the bodies and arguments of templates, and everything that is not a type (see below). C129_imports_partial: Also those that are imported, whether they are used or not. C129_values_refuted: Undefined names of values, in constraints and imports, and those of the items of enumerations. (Other undefined names behind DEFAULT are refused, as are those of constants.) C129_templates_refuted: A template that is not used, an argument that its template does not use: C129_made_up_refuted: A name that the compiler makes up for a type without a name:"
  },
  {
   "property": "C130",
   "status": "partial",
   "theorems": [
    "C130_accepts",
    "C130_invalid",
    "C130_relay",
    "C130_round_trip",
    "C130_any_value_refuted",
    "C130_alternative_refuted"
   ],
   "note": "C130_any_value_refuted: A SEQUENCE, an item of an ENUMERATED, a UTF8String, a value with a tag, and a string encoded in pieces (X.690 8.7) are refused. C130_alternative_refuted: The alternative is not kept: a GeneralizedTime (alternative 6) comes back as a Date (alternative 3)."
  },
  {
   "property": "C131",
   "status": "partial",
   "theorems": [
    "C131_defined_partial",
    "C131_header_partial",
    "C131_accepts_partial",
    "C131_untagged_choice_refuted",
    "C131_automatic_refuted"
   ],
   "note": "C131_defined_partial: For every text of the covered part, and every type in it that has no untagged CHOICE as a mandatory component of a SEQUENCE: however many inputs are decoded into an object of the generated class one after the other, and whatever octets they are, every access stays within the memory that is there, every decode comes to an end with a verdict, and the object that is left over, whether the last decode succeeded or failed half way, is encoded within any buffer. The schema does not have to keep to the rules on distinct tags, and may have any tagging default. Missing: what [means] and [covered] leave out; the limits of [tame]; the untagged CHOICE (C131_untagged_choice_refuted). C131_header_partial: The same of the class that a C++ compiler finds in the header. C131_accepts_partial: For a valid type: an input is accepted exactly if it starts with octets that [reads] (DecodeSpec.v) has for some value, and then the object shows that value. C131_automatic_refuted: AUTOMATIC TAGS do not help a CHOICE that is referred to, although X.680 gives it a tag: the tag number of the component before it is looked up among its alternatives."
  },
  {
   "property": "C132",
   "status": "partial",
   "theorems": [
    "C132_symmetric",
    "C132_same_value",
    "C132_nan",
    "C132_infinities",
    "C132_equal_close",
    "C132_close_equal",
    "C132_equal_iff_close",
    "C132_infinite_refuted",
    "C132_assigned",
    "C132_default_refuted",
    "C132_transitive_refuted",
    "C132_value_refuted"
   ],
   "note": "C132_infinite_refuted: Refuted: an infinity compares equal to every finite value (of either sign), the difference and the tolerance both being infinite. C132_default_refuted: Refuted: a component with a finite default keeps it when an infinity is assigned: the component then counts as absent and get() returns the default. C132_transitive_refuted: Refuted: equality is not transitive, and unequal values compare equal: 0 == 2^-52 == 2^-51 != 0, and 1 == 1 + 2^-52."
  },
  {
   "property": "C133",
   "status": "partial",
   "theorems": [
    "C133_value",
    "C133_other_texts",
    "C133_one_number",
    "C133_one_double",
    "C133_form_refuted",
    "C133_packet"
   ],
   "note": "C133_form_refuted: Refuted: that the first octet tells the form (X.690 8.5.8: 01 for NR1, 02 for NR2, 03 for NR3, nothing else allowed). It is not looked at: with every one of the 64 the value is the same."
  },
  {
   "property": "C134",
   "status": "partial",
   "theorems": [
    "C134_holds_alternative",
    "C134_get",
    "C134_get_never_reinterprets",
    "C134_get_if_null",
    "C134_visit",
    "C134_visit_valueless",
    "C134_valueless",
    "C134_converting",
    "C134_in_place",
    "C134_after_history",
    "C134_twice_refuted",
    "C134_moved_from_refuted",
    "C134_text_makes_bool_refuted"
   ],
   "note": "C134_twice_refuted: A type that is an alternative twice compiles for holds_alternative and get, but what the second one holds is not found. C134_moved_from_refuted: A variant that was moved from still says that it holds its alternative, but getting it follows a null pointer, as does visiting it."
  },
  {
   "property": "C135",
   "status": "partial",
   "theorems": [
    "C135_printed",
    "C135_short_numbers_exact",
    "C135_infinite_refuted",
    "C135_digits_refuted"
   ],
   "note": "C135_infinite_refuted: Infinities and NaN are not printed as JSON. C135_digits_refuted: Different values are printed alike: 1234567 and 1234568, both as 1.23457e+06."
  }
 ]
}
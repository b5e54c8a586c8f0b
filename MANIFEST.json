{
 "claims": [
  {
   "property": "C01",
   "status": "proved",
   "theorems": [
    "get_returns_last_accepted"
   ],
   "note": ""
  },
  {
   "property": "C02",
   "status": "proved",
   "theorems": [
    "all_objects_in_insertion_order",
    "first_ids_meaning"
   ],
   "note": ""
  },
  {
   "property": "C03",
   "status": "proved",
   "theorems": [
    "unsorted_all_objects_same_multiset",
    "nosort_option_set"
   ],
   "note": ""
  },
  {
   "property": "C04",
   "status": "proved",
   "theorems": [
    "add_accepts_iff_valid",
    "add_changes_one_entry"
   ],
   "note": ""
  },
  {
   "property": "C05",
   "status": "proved",
   "theorems": [
    "get_all_by_type",
    "get_all_partitions"
   ],
   "note": ""
  },
  {
   "property": "C06",
   "status": "partial",
   "theorems": [
    "typed_accessors_agree_partial",
    "typed_accessors_outcome_partial",
    "typed_accessors_cover_builtin",
    "accessors_are_standard",
    "typed_accessors_no_panic_refuted"
   ],
   "note": "The full statement is false: an unchecked type assertion panics when a CustomObject reports a built-in type. Proved for collections whose objects have the Go type of their STIX type; typed_accessors_outcome_partial gives the outcome for every collection."
  },
  {
   "property": "C07",
   "status": "proved",
   "theorems": [
    "to_bundle_is_all_objects",
    "to_bundle_unsorted",
    "bundle_struct_text"
   ],
   "note": ""
  },
  {
   "property": "C08",
   "status": "proved",
   "theorems": [
    "mutation_cannot_corrupt"
   ],
   "note": ""
  },
  {
   "property": "C26",
   "status": "proved",
   "theorems": [
    "new_identifier_is_valid_v4",
    "new_identifier_builtin",
    "new_identifier_fresh"
   ],
   "note": ""
  },
  {
   "property": "C27",
   "status": "proved",
   "theorems": [
    "observable_identifier_is_valid_v5",
    "observable_identifier_injective"
   ],
   "note": ""
  },
  {
   "property": "C31",
   "status": "partial",
   "theorems": [
    "for_type_exact_refuted",
    "for_type_exact_partial",
    "for_types_exact_partial"
   ],
   "note": "The full statement is false: ForType is a prefix test."
  },
  {
   "property": "C32",
   "status": "proved",
   "theorems": [
    "for_type_exact_on_builtin"
   ],
   "note": ""
  },
  {
   "property": "C19",
   "status": "proved",
   "theorems": [
    "encode_fails_iff",
    "encode_members",
    "encode_covers",
    "encode_default_fails_iff"
   ],
   "note": "For the 41 object types encoded by marshalToJSONHelper, extended properties with names of their own. ExtensionDefinition is encoded by encoding/json directly and is covered by the round trip theorems only."
  },
  {
   "property": "C20",
   "status": "proved",
   "theorems": [
    "object_round_trip",
    "object_round_trip_exact",
    "nested_round_trip"
   ],
   "note": "The decimal to double conversion is an arbitrary function rnd; floats of the object are required to be values rnd gives back for their own shortest text."
  },
  {
   "property": "C22",
   "status": "proved",
   "theorems": [
    "parsed_extensions_typed",
    "parsed_extension_accessors",
    "extension_accessors_standard"
   ],
   "note": ""
  },
  {
   "property": "C23",
   "status": "proved",
   "theorems": [
    "enum_round_trip",
    "enum_names_distinct",
    "enum_decode_string",
    "enum_terms_standard",
    "enums_are_standard",
    "enum_properties_standard"
   ],
   "note": ""
  },
  {
   "property": "C24",
   "status": "proved",
   "theorems": [
    "timestamp_round_trip",
    "timestamp_round_trip_stable",
    "timestamp_order"
   ],
   "note": ""
  },
  {
   "property": "C25",
   "status": "proved",
   "theorems": [
    "binary_round_trip",
    "binary_nil_round_trip"
   ],
   "note": ""
  },
  {
   "property": "C34",
   "status": "proved",
   "theorems": [
    "hash_contribution_priority",
    "hash_contribution_others",
    "hash_contribution_injective"
   ],
   "note": ""
  },
  {
   "property": "C54",
   "status": "partial",
   "theorems": [
    "custom_object_get_set",
    "custom_object_set_total",
    "custom_object_typed_getters_partial",
    "custom_object_getters_no_panic_refuted",
    "custom_object_string_slice_parsed_refuted"
   ],
   "note": "The full statement is false: the typed getters use unchecked type assertions and panic on values of another type; GetAsStringSlice panics on every parsed array."
  },
  {
   "property": "C55",
   "status": "proved",
   "theorems": [
    "new_external_reference_spec",
    "new_kill_chain_phase_spec",
    "external_reference_round_trip",
    "kill_chain_phase_round_trip"
   ],
   "note": ""
  },
  {
   "property": "C56",
   "status": "proved",
   "theorems": [
    "tlp_markings_ok",
    "tlp_markings_distinct",
    "tlp_markings_standard"
   ],
   "note": ""
  },
  {
   "property": "C09",
   "status": "proved",
   "theorems": [
    "from_json_all_or_nothing",
    "from_json_bad_object_fails",
    "from_json_good_document_parsed",
    "collected_objects",
    "document_unique"
   ],
   "note": ""
  },
  {
   "property": "C10",
   "status": "partial",
   "theorems": [
    "objects_independent_refuted",
    "objects_independent_partial",
    "objects_independent_drop_partial"
   ],
   "note": "The full statement is false: extended properties leak into later objects. Proved for documents whose earlier objects have only properties of their type, and with drop-custom when every object has a type. custom_properties_kept bounds the leak in general."
  },
  {
   "property": "C11",
   "status": "proved",
   "theorems": [
    "own_fields_as_alone"
   ],
   "note": ""
  },
  {
   "property": "C12",
   "status": "proved",
   "theorems": [
    "drop_custom_drops_custom",
    "drop_option_set"
   ],
   "note": ""
  },
  {
   "property": "C13",
   "status": "partial",
   "theorems": [
    "typeless_skipped_refuted",
    "typeless_skipped_partial"
   ],
   "note": "The full statement is false: after a custom object the stale type is used."
  },
  {
   "property": "C14",
   "status": "proved",
   "theorems": [
    "parsers_used_for_their_type",
    "parser_error_fails",
    "last_parser_wins",
    "other_options_keep_parser"
   ],
   "note": ""
  },
  {
   "property": "C15",
   "status": "partial",
   "theorems": [
    "from_json_no_panic_refuted",
    "from_json_no_panic_partial"
   ],
   "note": "The full statement is false. All causes of a panic without custom parsers are characterised."
  },
  {
   "property": "C16",
   "status": "proved",
   "theorems": [
    "document_forms_agree",
    "bundle_is_array"
   ],
   "note": ""
  },
  {
   "property": "C17",
   "status": "partial",
   "theorems": [
    "bundle_survives_partial",
    "bundle_read_back_partial",
    "bundle_survives_refuted",
    "read_back_normal"
   ],
   "note": "False for collections with extended properties (they leak). Proved for all well formed objects of built-in types without extended properties, or with drop-custom."
  },
  {
   "property": "C18",
   "status": "partial",
   "theorems": [
    "filed_under_type_refuted",
    "filed_under_type_partial",
    "typed_accessors_on_parsed_partial"
   ],
   "note": "False when a member differs from \"type\" only in case. Proved otherwise."
  },
  {
   "property": "C21",
   "status": "proved",
   "theorems": [
    "extended_properties_encoded",
    "extended_properties_round_trip"
   ],
   "note": ""
  },
  {
   "property": "C57",
   "status": "proved",
   "theorems": [
    "custom_properties_kept"
   ],
   "note": ""
  },
  {
   "property": "C35",
   "status": "proved",
   "theorems": [
    "option_names",
    "option_sets_only_its_property",
    "extension_option_sets_only_its_key",
    "failing_option_changes_nothing"
   ],
   "note": ""
  },
  {
   "property": "C36",
   "status": "proved",
   "theorems": [
    "options_keep_type_and_id"
   ],
   "note": ""
  },
  {
   "property": "C37",
   "status": "partial",
   "theorems": [
    "documented_options_refuted",
    "documented_options_partial",
    "documented_types_exist",
    "documented_extension_option"
   ],
   "note": "The full statement is false for three documented pairs (OptionBelongsTo on IP addresses, OptionUserID on Software), and Bundle takes no options. Every other documented pair succeeds on every object and value."
  },
  {
   "property": "C38",
   "status": "proved",
   "theorems": [
    "options_commute",
    "adjacent_options_commute",
    "last_option_wins"
   ],
   "note": ""
  },
  {
   "property": "C39",
   "status": "partial",
   "theorems": [
    "options_no_panic_refuted",
    "options_no_panic_partial",
    "options_on_custom_objects"
   ],
   "note": "The full statement is false: OptionContent panics on a Note. That is the only panic."
  },
  {
   "property": "C48",
   "status": "proved",
   "theorems": [
    "canonical_text"
   ],
   "note": ""
  },
  {
   "property": "C49",
   "status": "proved",
   "theorems": [
    "canonicalization_idempotent",
    "canonicalization_keeps_value"
   ],
   "note": "For every number parser that rounds JSON numbers and returns doubles."
  },
  {
   "property": "C50",
   "status": "proved",
   "theorems": [
    "same_value_same_canonical_text",
    "canonical_text_iff_same_value",
    "text_denotes_one_value"
   ],
   "note": "Equality of values is up to member order and the sign of zero. The converse direction is for I-JSON texts."
  },
  {
   "property": "C51",
   "status": "proved",
   "theorems": [
    "duplicates_rejected"
   ],
   "note": ""
  },
  {
   "property": "C52",
   "status": "proved",
   "theorems": [
    "numbers_as_ecmascript"
   ],
   "note": "Doubles are given by their shortest decimal digits and exponent."
  },
  {
   "property": "C53",
   "status": "proved",
   "theorems": [
    "canonicalizer_total"
   ],
   "note": ""
  },
  {
   "property": "C58",
   "status": "partial",
   "theorems": [
    "unpaired_surrogates_rejected_refuted",
    "unpaired_surrogates_rejected_partial"
   ],
   "note": "The full statement is false: a surrogate followed by any \\u escape is accepted and replaced by U+FFFD."
  },
  {
   "property": "C28",
   "status": "partial",
   "theorems": [
    "single_value_identifiers_refuted",
    "single_value_identifiers_partial"
   ],
   "note": "The full statement is false: a Mutex renamed by OptionName keeps the identifier of its first name. Everything else is proved."
  },
  {
   "property": "C29",
   "status": "partial",
   "theorems": [
    "multi_value_identifiers_refuted",
    "multi_value_identifiers_partial",
    "identifiers_differ_by_type"
   ],
   "note": "False as stated: values are put into the hashed text unescaped, absent properties leave no gap, and hashes of other algorithms than MD5, SHA-1, SHA-256 and SHA-512 do not contribute (witnesses in the refuted theorem). Proved for values without quotation marks and objects with the same contributing properties set (the latter not needed for artifacts, registry keys and certificates): same identifier means same contributing values, or the two hashed texts are a UUIDv5 collision."
  },
  {
   "property": "C30",
   "status": "proved",
   "theorems": [
    "identifier_from_contributing",
    "identifier_ignores_other_options",
    "constructor_option_order"
   ],
   "note": ""
  },
  {
   "property": "C33",
   "status": "proved",
   "theorems": [
    "constructed_can_be_added"
   ],
   "note": ""
  },
  {
   "property": "C40",
   "status": "partial",
   "theorems": [
    "first_failure_reported",
    "any_failure_fails",
    "nil_options_ignored",
    "failing_option_reported",
    "later_options_not_applied",
    "object_with_error",
    "nil_option_ignored_refuted",
    "nil_option_ignored_partial"
   ],
   "note": "Not fully true: a nil option counts as \"an option was given\" for the constructors that need one. A failing option is always reported, and later options are never applied."
  },
  {
   "property": "C41",
   "status": "proved",
   "theorems": [
    "constructor_without_options",
    "constructor_properties",
    "constructor_stamps"
   ],
   "note": ""
  },
  {
   "property": "C42",
   "status": "partial",
   "theorems": [
    "sighting_ranges",
    "campaign_ranges",
    "artifact_contents",
    "family_has_name",
    "location_ranges_refuted",
    "location_ranges_partial"
   ],
   "note": "The Location part is false: options are applied after the checks, and NaN passes them. The other four parts are proved in full."
  },
  {
   "property": "C59",
   "status": "partial",
   "theorems": [
    "constructor_panics_iff"
   ],
   "note": "False in exactly the two cases the theorem names: OptionContent on NewNote and a nil registry value. It is an equivalence, so it also proves the absence of panics everywhere else."
  },
  {
   "property": "C45",
   "status": "partial",
   "theorems": [
    "helper_relation_refuted",
    "helper_relation_partial",
    "helper_ends"
   ],
   "note": "False for AttackPattern.AddUses, which makes a \"targets\" relationship; proved for the 68 other helpers. Source and target are proved for all."
  },
  {
   "property": "C46",
   "status": "partial",
   "theorems": [
    "helper_targets_refuted",
    "helper_targets_partial",
    "helper_targets_builtin_partial",
    "helper_rejects",
    "consists_of_targets",
    "helpers_covered"
   ],
   "note": "Types are compared by prefix, so malware-analysis is accepted where malware is asked for. The exact condition is proved as an equivalence."
  },
  {
   "property": "C47",
   "status": "proved",
   "theorems": [
    "common_relationships",
    "helper_relation_partial",
    "helper_ends",
    "receiver_id",
    "helpers_no_panic"
   ],
   "note": ""
  },
  {
   "property": "C43",
   "status": "partial",
   "theorems": [
    "constructed_encodable_refuted",
    "constructed_encodable_partial"
   ],
   "note": "False: NewIdentity without class succeeds and cannot be encoded. Proved instead: the exact condition, for all options."
  },
  {
   "property": "C44",
   "status": "proved",
   "theorems": [
    "constructor_result_encodable"
   ],
   "note": ""
  },
  {
   "property": "C60",
   "status": "proved",
   "theorems": [
    "encoded_property_names",
    "object_types_standard",
    "encoded_extension_names",
    "extension_keys_standard"
   ],
   "note": ""
  },
  {
   "property": "C61",
   "status": "proved",
   "theorems": [
    "timestamp_text",
    "timestamp_date_exists",
    "timestamp_parse_exact",
    "timestamp_parse_total"
   ],
   "note": ""
  },
  {
   "property": "C62",
   "status": "proved",
   "theorems": [
    "binary_text",
    "binary_read_exact",
    "binary_read_total"
   ],
   "note": ""
  },
  {
   "property": "C63",
   "status": "proved",
   "theorems": [
    "object_means",
    "object_read_exact",
    "meaning_unique",
    "document_means",
    "written_means",
    "member_names"
   ],
   "note": "For texts in which an object has two members of one name up to case, only the fields named once are specified."
  },
  {
   "property": "C64",
   "status": "partial",
   "theorems": [
    "getters_refuted",
    "document_getters_partial",
    "custom_getters_partial",
    "document_extended"
   ],
   "note": "False: GetCreated and GetModified panic on an extension definition without the time and on a custom object whose member is no string. The partial theorems give the result in every case, these included."
  },
  {
   "property": "C65",
   "status": "proved",
   "theorems": [
    "string_read_exact",
    "string_meaning_unique",
    "string_written",
    "string_characters"
   ],
   "note": ""
  },
  {
   "property": "C66",
   "status": "proved",
   "theorems": [
    "not_json_rejected",
    "text_value_unique",
    "encoded_text",
    "bundle_text"
   ],
   "note": ""
  },
  {
   "property": "C67",
   "status": "proved",
   "theorems": [
    "canonicalizer_exact",
    "other_texts_rejected"
   ],
   "note": ""
  },
  {
   "property": "C68",
   "status": "partial",
   "theorems": [
    "non_json_rejected_refuted",
    "non_json_rejected_partial"
   ],
   "note": "The full statement is false: number texts are whatever strconv.ParseFloat takes, so [01] is accepted. Proved: an accepted input is JSON unless one of its words is a number to the parser but not to JSON."
  },
  {
   "property": "C69",
   "status": "proved",
   "theorems": [
    "from_json_exact",
    "from_json_panics_exact",
    "document_read_once"
   ],
   "note": ""
  },
  {
   "property": "C70",
   "status": "proved",
   "theorems": [
    "number_read",
    "number_read_once",
    "number_written",
    "shortest_decimal_once",
    "float_values_are_doubles",
    "comparison_is_of_doubles",
    "degrees_of_doubles",
    "parse_float_is_a_parser",
    "canonical_number",
    "exponent_digits_skipped",
    "number_read_by_strconv",
    "exponent_digits_skipped_refuted"
   ],
   "note": "strconv is modelled by what it computes. Its treatment of exponents above 10000 is modelled separately (Exponent.v): no difference for numbers below 9600 bytes, exponent_digits_skipped_refuted shows one of 100000 bytes that is read wrongly."
  },
  {
   "property": "C71",
   "status": "proved",
   "theorems": [
    "white_space_irrelevant",
    "member_order_irrelevant",
    "object_member_order_irrelevant",
    "member_order_outcome_refuted"
   ],
   "note": "member_order_outcome_refuted shows that the kind of failure (error or panic) does depend on the order, which the property allows."
  },
  {
   "property": "C72",
   "status": "proved",
   "theorems": [
    "truncated_document_rejected",
    "trailing_data_rejected",
    "torn_bundle_rejected",
    "torn_object_rejected"
   ],
   "note": ""
  },
  {
   "property": "C73",
   "status": "proved",
   "theorems": [
    "merge_collections",
    "copy_collection",
    "copy_typed_accessors"
   ],
   "note": ""
  },
  {
   "property": "C74",
   "status": "proved",
   "theorems": [
    "go_rounding",
    "round_trip_settles",
    "read_value_well_formed",
    "read_write_settles",
    "collection_settles",
    "second_encoding_refuted"
   ],
   "note": "second_encoding_refuted shows that the hypothesis \"whenever it can be encoded\" is needed."
  },
  {
   "property": "C75",
   "status": "proved",
   "theorems": [
    "argument_errors",
    "option_errors_undocumented",
    "conflict_errors",
    "error_cause",
    "helper_errors",
    "missing_property_named"
   ],
   "note": ""
  },
  {
   "property": "C76",
   "status": "proved",
   "theorems": [
    "constructed_getters",
    "constructed_objects_survive"
   ],
   "note": ""
  },
  {
   "property": "C77",
   "status": "partial",
   "theorems": [
    "from_json_any_order_partial",
    "unmarshal_any_order_partial",
    "marshal_any_order",
    "from_json_order_refuted"
   ],
   "note": "Full for successful executions and for encoding. False of the code for failing ones: from_json_order_refuted gives bytes on which FromJSON returns an error or panics depending on the order in which the extensions are visited."
  },
  {
   "property": "C78",
   "status": "partial",
   "theorems": [
    "nesting_limit",
    "limited_not_json",
    "encoding_within_limit",
    "bundle_within_limit",
    "write_then_read_refuted"
   ],
   "note": "Full for reading and for encoding. That every bundle that can be written can be read is false at the limit: write_then_read_refuted gives an object of 10000 levels whose bundle is written but not read. bundle_within_limit is the strongest positive part: up to 9998 levels per object."
  },
  {
   "property": "C79",
   "status": "proved",
   "theorems": [
    "sha1_is_fips",
    "observable_identifier_is_uuid5"
   ],
   "note": "The specification (ShaSpec.v) is relational, written from FIPS 180-4 and RFC 4122; the FIPS test vectors for one and two blocks are Examples."
  },
  {
   "property": "C80",
   "status": "partial",
   "theorems": [
    "identifier_recipe_partial",
    "contributing_of_standard",
    "standard_recipe_refuted"
   ],
   "note": "identifier_recipe_partial covers every observable constructor with a computed identifier, for values that need no escaping (the code does not escape them) and set required properties. That it is the identifier STIX 2.1 prescribes is false: standard_recipe_refuted computes both for 198.51.100.3."
  },
  {
   "property": "C81",
   "status": "partial",
   "theorems": [
    "encoded_ijson",
    "encoded_names",
    "bundle_ijson",
    "bundle_names",
    "reread_ijson",
    "reread_canonical",
    "names_of_types_apart",
    "extensions_contribute",
    "go_rounds_integers",
    "encoded_names_refuted"
   ],
   "note": "The full statement is refuted (encoded_names_refuted): the names 0xfe and 0xff of one map are both written as U+FFFD. With UTF-8 names it is proved in full, and for what FromJSON read no condition is left (reread_canonical)."
  },
  {
   "property": "C82",
   "status": "proved",
   "theorems": [
    "bundle_settles",
    "bundle_settles_clear",
    "document_settles",
    "document_settles_clear",
    "document_settles_refuted"
   ],
   "note": "Second and third collection are equal, for every document resp. history of Add. The condition on names is stated in the property; document_settles_refuted shows that it is needed."
  },
  {
   "property": "C83",
   "status": "proved",
   "theorems": [
    "rewrite_reproduces",
    "document_rewrites",
    "document_rewrites_refuted"
   ],
   "note": "Objects: every text that can be read and written. Documents: the conditions are those in the property; document_rewrites_refuted shows that the one on null values is needed."
  },
  {
   "property": "C84",
   "status": "partial",
   "theorems": [
    "leftovers_unseen_partial",
    "leftovers_only_in_lists",
    "leftovers_unseen_refuted"
   ],
   "note": "The full statement is false: leftovers_unseen_refuted. leftovers_unseen_partial: texts that repeat no name. leftovers_only_in_lists: every text, everything outside of lists."
  },
  {
   "property": "C85",
   "status": "partial",
   "theorems": [
    "constructed_in_memory",
    "making_changes_nothing",
    "kept_by_reference",
    "shared_only_through_caller_partial",
    "in_place_change_partial",
    "in_place_change_refuted"
   ],
   "note": "The full statement is false: in_place_change_refuted. The partial theorems leave out the two time stamps of sightings, language contents and extension definitions. constructed_in_memory ties the memory model to the constructors of the other properties."
  },
  {
   "property": "C86",
   "status": "partial",
   "theorems": [
    "fingerprint_partial",
    "read_fingerprint_partial",
    "object_fingerprint_partial",
    "read_fingerprint_refuted",
    "fingerprint_refuted"
   ],
   "note": "Full statement false: the canonicalizer rounds integers beyond 53 bits (read_fingerprint_refuted), and structs in extended properties are written in another order than equal maps (fingerprint_refuted). Proved for safe numbers: all objects that were read, all objects a round trip gives back (then the objects are equal), and all objects with generic values."
  },
  {
   "property": "C87",
   "status": "proved",
   "theorems": [
    "accesses_complete",
    "locked_calls_in_turn",
    "locked_calls_return",
    "locked_objects_kept",
    "readers_need_no_lock",
    "unlocked_calls_in_turn_refuted",
    "unlocked_race_free_refuted"
   ],
   "note": "The refuted theorems show that the lock is needed as soon as one goroutine adds."
  },
  {
   "property": "C88",
   "status": "partial",
   "theorems": [
    "memory_same_objects",
    "memory_same_properties",
    "set_property_isolated",
    "change_seen_exactly",
    "own_properties_isolated_partial",
    "change_isolated_refuted"
   ],
   "note": "Isolation of changes in place is false in general (change_isolated_refuted); change_seen_exactly says exactly when a change is seen, own_properties_isolated_partial that documents whose objects name their own properties are isolated."
  },
  {
   "property": "C89",
   "status": "proved",
   "theorems": [
    "options_that_matter",
    "options_no_document",
    "options_in_any_order",
    "options_repeated",
    "nil_parser"
   ],
   "note": ""
  },
  {
   "property": "C90",
   "status": "partial",
   "theorems": [
    "properties_bounded",
    "properties_proportional_partial",
    "properties_proportional_refuted"
   ],
   "note": "A bound linear in the members of the document is false (properties_proportional_refuted); the quadratic bound is proved for all documents, the linear one for documents whose objects name their own properties."
  },
  {
   "property": "C91",
   "status": "proved",
   "theorems": [
    "null_fresh_start",
    "separated_independent"
   ],
   "note": ""
  },
  {
   "property": "C92",
   "status": "partial",
   "theorems": [
    "concatenation_refuted",
    "concatenation_partial"
   ],
   "note": "The full statement is false: extended properties leak from the first document into the second. Proved for first documents without custom content, and with drop-custom when every object of the second has a type. With a null between the two it is true in general (C91)."
  },
  {
   "property": "C93",
   "status": "proved",
   "theorems": [
    "appended_only_adds",
    "appended_keeps"
   ],
   "note": ""
  },
  {
   "property": "C94",
   "status": "partial",
   "theorems": [
    "drop_custom_leaves_out_refuted",
    "drop_custom_leaves_out_partial"
   ],
   "note": "The full statement is false: with the option, an object without a type after an object of a built in type is read as one of that type and fails. Proved for documents whose objects all state a type."
  },
  {
   "property": "C95",
   "status": "proved",
   "theorems": [
    "bundle_with_nulls_survives",
    "bundle_with_nulls_normal"
   ],
   "note": ""
  },
  {
   "property": "C96",
   "status": "partial",
   "theorems": [
    "object_order_refuted",
    "object_order_partial",
    "object_order_with_nulls"
   ],
   "note": "The full statement is false: extended properties spread to the objects that come after. Proved for objects without custom content, with drop-custom when every object has a type, and in general with a null after each object."
  },
  {
   "property": "C97",
   "status": "proved",
   "theorems": [
    "extended_properties_exact",
    "excess_exact"
   ],
   "note": ""
  },
  {
   "property": "C98",
   "status": "proved",
   "theorems": [
    "untyped_skipped_or_refused",
    "untyped_at_end",
    "only_custom_types_carried"
   ],
   "note": ""
  },
  {
   "property": "C99",
   "status": "proved",
   "theorems": [
    "untyped_dropped",
    "untyped_dropped_at_end"
   ],
   "note": ""
  },
  {
   "property": "C100",
   "status": "partial",
   "theorems": [
    "repeated_after_null",
    "repeated_refuted",
    "repeated_partial"
   ],
   "note": "The full statement is false: extended properties of the last objects show on the first ones of the repetition. Proved in general with a null in between, and without it for documents without custom content or with drop-custom when every object has a type."
  },
  {
   "property": "C101",
   "status": "proved",
   "theorems": [
    "alone_exactly"
   ],
   "note": ""
  },
  {
   "property": "C102",
   "status": "proved",
   "theorems": [
    "nosort_changes_order_only"
   ],
   "note": ""
  },
  {
   "property": "C103",
   "status": "proved",
   "theorems": [
    "document_order",
    "firsts_meaning"
   ],
   "note": ""
  }
 ]
}
{
 "claims": [
  {
   "property": "C01",
   "status": "proved",
   "theorems": [
    "C01_string_accepts_exactly_its_facets"
   ],
   "note": "Facet declarations: lengths other than 0, non-empty enumeration, pattern without top-level alternation (see C02, C03 for those)."
  },
  {
   "property": "C02",
   "status": "partial",
   "theorems": [
    "C02_zero_facets_refuted"
   ],
   "note": "Refuted: falsy facets are never checked. True part is C01."
  },
  {
   "property": "C03",
   "status": "partial",
   "theorems": [
    "C03_string_pattern_whole_partial",
    "C03_number_pattern_whole_partial",
    "C03_alternation_accepts_prefixes",
    "C03_whole_value_refuted"
   ],
   "note": "Refuted for patterns with a top-level alternation (exact characterisation proved); proved for all others up to one final newline."
  },
  {
   "property": "C04",
   "status": "proved",
   "theorems": [
    "C04_whitespace"
   ],
   "note": ""
  },
  {
   "property": "C05",
   "status": "proved",
   "theorems": [
    "C05_integer_ranges",
    "C05_integer_rejects_other_values",
    "C05_integer_assigned_texts"
   ],
   "note": ""
  },
  {
   "property": "C06",
   "status": "proved",
   "theorems": [
    "C06_integer_roundtrip",
    "C06_integer_texts",
    "C06_integer_bad_texts",
    "C06_none_text",
    "C06_none_unreadable"
   ],
   "note": ""
  },
  {
   "property": "C07",
   "status": "partial",
   "theorems": [
    "C07_user_facets_partial",
    "C07_maxInclusive_refuted",
    "C07_minInclusive_refuted",
    "C07_pattern_refuted"
   ],
   "note": "Refuted for maxInclusive/minInclusive overridden by the type and for pattern; proved for all other facets."
  },
  {
   "property": "C08",
   "status": "proved",
   "theorems": [
    "C08_decimal_facets",
    "C08_nan_passes_bounds"
   ],
   "note": "NaN excluded: it passes every bound (C08_nan_passes_bounds)."
  },
  {
   "property": "C09",
   "status": "partial",
   "theorems": [
    "C09_bounded_decimal_refuted",
    "C09_bounded_decimal_type_error",
    "C09_unbounded_decimal_partial"
   ],
   "note": "Refuted for every bounded field (TypeError); without facets the value is kept as an exact text."
  },
  {
   "property": "C10",
   "status": "partial",
   "theorems": [
    "C10_boolean_accepts",
    "C10_accepted_not_renderable_refuted",
    "C10_boolean_roundtrip_partial",
    "C10_boolean_texts"
   ],
   "note": "Refuted: numbers equal to 0/1 are accepted but cannot be written. Booleans, None and texts fully proved."
  },
  {
   "property": "C11",
   "status": "partial",
   "theorems": [
    "C11_date_roundtrip_partial",
    "C11_plain_dates_accepted",
    "C11_early_years_refuted",
    "C11_assigned"
   ],
   "note": "Refuted for years below 1000 when strftime('%Y') does not pad (glibc); proved for all other dates and all whole-minute offsets."
  },
  {
   "property": "C12",
   "status": "partial",
   "theorems": [
    "C12_date_texts_partial",
    "C12_date_errors_partial",
    "C12_hours_only_zone_refuted",
    "C12_huge_year_refuted"
   ],
   "note": "Exact characterisation of the texts that are read, and of the errors. Refuted: an hours-only zone raises TypeError and a huge year raises OverflowError."
  },
  {
   "property": "C13",
   "status": "partial",
   "theorems": [
    "C13_offset_suffix_partial",
    "C13_offset_minus_24_refuted"
   ],
   "note": "Refuted for offsets between -24h and -24h+1s, written -24:00; proved for all others."
  },
  {
   "property": "C14",
   "status": "proved",
   "theorems": [
    "C14_datetime_roundtrip",
    "C14_reads",
    "C14_assign"
   ],
   "note": ""
  },
  {
   "property": "C15",
   "status": "proved",
   "theorems": [
    "C15_time_roundtrip",
    "C15_time_errors",
    "C15_reads",
    "C15_assign",
    "C15_none"
   ],
   "note": ""
  },
  {
   "property": "C16",
   "status": "proved",
   "theorems": [
    "C16_maxoccurs_roundtrip",
    "C16_maxoccurs_assigned"
   ],
   "note": ""
  },
  {
   "property": "C17",
   "status": "partial",
   "theorems": [
    "C17_order_partial",
    "C17_rendered_partial",
    "C17_lists",
    "C17_twice_refuted"
   ],
   "note": "proved for every history and linearised hierarchy in which no Element object is two fields of one class; refuted otherwise"
  },
  {
   "property": "C18",
   "status": "partial",
   "theorems": [
    "C18_names_partial",
    "C18_reuse_refuted"
   ],
   "note": "proved for every history that never declares an Element object under two names; refuted for every reuse under another name"
  },
  {
   "property": "C19",
   "status": "proved",
   "theorems": [
    "C19_assignments_keep_fields_valid",
    "C19_assignment_effect",
    "C19_construction_succeeds",
    "C19_construction_result"
   ],
   "note": ""
  },
  {
   "property": "C20",
   "status": "partial",
   "theorems": [
    "C20_appends_keep_list_valid",
    "C20_append_effect",
    "C20_render_enforces_bounds_partial",
    "C20_out_of_bounds_is_ValueError",
    "C20_max_zero_refuted",
    "C20_append_succeeds"
   ],
   "note": "maxOccurs=0 refuted: it blocks appends but is not enforced on output; all other bounds proved."
  },
  {
   "property": "C21",
   "status": "proved",
   "theorems": [
    "C21_roundtrip",
    "C21_everyday_values",
    "C21_attribute_values"
   ],
   "note": "Values whose text is empty, '' and optional elements with a non-None default are outside the class of instances (see C34)."
  },
  {
   "property": "C22",
   "status": "proved",
   "theorems": [
    "C22_noise_ignored"
   ],
   "note": "Over all insertions at any depth, for classes without Choice (a Choice class reads the element itself, see C26). Processing instructions are not ignored: see C33."
  },
  {
   "property": "C23",
   "status": "proved",
   "theorems": [
    "C23_order_insensitive"
   ],
   "note": "Classes without Choice."
  },
  {
   "property": "C24",
   "status": "proved",
   "theorems": [
    "C24_rendered_shape",
    "C24_child_names",
    "C24_attributes_unqualified"
   ],
   "note": ""
  },
  {
   "property": "C25",
   "status": "partial",
   "theorems": [
    "C25_tagname_refuted",
    "C25_same_name_partial"
   ],
   "note": "Refuted: an attribute is read under its Python name, so a different tagname loses the value. Proved when the names agree."
  },
  {
   "property": "C26",
   "status": "partial",
   "theorems": [
    "C26_choice_refuted",
    "C26_inline_choice_partial"
   ],
   "note": "Refuted: a Choice is matched against the element itself, not its children. The inline reading is proved."
  },
  {
   "property": "C27",
   "status": "partial",
   "theorems": [
    "C27_ref_refuted",
    "C27_ref_reads_parent_partial"
   ],
   "note": "Refuted: written as a child, read from the parent. What is read is characterised; groups are covered by C21."
  },
  {
   "property": "C28",
   "status": "partial",
   "theorems": [
    "C28_separate_partial",
    "C28_group_refuted"
   ],
   "note": "proved for every program over classes whose groups have neither lists nor references; refuted with a list in a group"
  },
  {
   "property": "C29",
   "status": "partial",
   "theorems": [
    "C29_element_partial",
    "C29_list_partial",
    "C29_boolean_refuted"
   ],
   "note": "Refuted for '1' on elements and 'false' on list items; exact reading of xsi:nil proved for both."
  },
  {
   "property": "C30",
   "status": "proved",
   "theorems": [
    "C30_attributes_exact",
    "C30_missing_never_rendered",
    "C30_missing_is_ValueError",
    "C30_attribute_classes"
   ],
   "note": "ValueError stated for the case that the fields rendered before the missing attribute can be rendered; success is excluded unconditionally."
  },
  {
   "property": "C31",
   "status": "partial",
   "theorems": [
    "C31_equality_partial",
    "C31_reflexive_refuted"
   ],
   "note": "Reflexivity refuted for instances that were not parsed; the rest proved for every serialiser and hash."
  },
  {
   "property": "C32",
   "status": "proved",
   "theorems": [
    "C32_subclasses_accepted",
    "C32_others_are_ValueError",
    "C32_all_fields_rendered"
   ],
   "note": "Field-by-field rendering stated for classes without group references; with groups see C24_rendered_shape."
  },
  {
   "property": "C33",
   "status": "partial",
   "theorems": [
    "C33_object_or_ValueError_partial",
    "C33_object_or_error_partial",
    "C33_pi_refuted"
   ],
   "note": "Object or ValueError for documents without processing instructions and classes built from String, Boolean, Integer, Decimal (with numeric bounds), Time and MaxOccurs fields; with Date and DateTime fields also TypeError (C12), OverflowError and iso8601.ParseError, and nothing else. Refuted for processing instructions (TypeError)."
  },
  {
   "property": "C34",
   "status": "partial",
   "theorems": [
    "C34_empty_string_refuted",
    "C34_nonempty_partial"
   ],
   "note": "Refuted: '' becomes None. Proved for every non-empty string, and for attributes in C25_same_name_partial."
  },
  {
   "property": "C35",
   "status": "partial",
   "theorems": [
    "C35_first_declaration_partial",
    "C35_answer_partial",
    "C35_cycle_refuted"
   ],
   "note": "Proved for import graphs without cycles; on any graph a returned answer is right. Refuted on cyclic graphs: looking up an undeclared name never returns."
  },
  {
   "property": "C36",
   "status": "partial",
   "theorems": [
    "C36_once_partial",
    "C36_complete_partial",
    "C36_terminates",
    "C36_same_location_refuted"
   ],
   "note": "Termination on every graph and at most one call per location are proved; every reachable schema is visited when locations identify schemas. Refuted when two schemas share a location, e.g. both without one."
  },
  {
   "property": "C37",
   "status": "partial",
   "theorems": [
    "C37_element_partial",
    "C37_fault11_partial",
    "C37_empty_refuted",
    "C37_control_refuted"
   ],
   "note": "Proved for non-empty texts without control characters. Refuted otherwise: an empty message is read as None, a control character makes the server raise ValueError instead of answering."
  },
  {
   "property": "C38",
   "status": "partial",
   "theorems": [
    "C38_element_partial",
    "C38_fault12_partial",
    "C38_empty_refuted",
    "C38_control_refuted"
   ],
   "note": "Proved for non-empty texts without control characters. Refuted otherwise, as C37."
  },
  {
   "property": "C39",
   "status": "partial",
   "theorems": [
    "C39_actor_refuted",
    "C39_code_message_partial"
   ],
   "note": "Code and message arrive; the actor of a SOAPError raised by a handler is dropped by the dispatcher (refuted)."
  },
  {
   "property": "C40",
   "status": "proved",
   "theorems": [
    "C40_wsdl",
    "C40_xsd",
    "C40_soap",
    "C40_bad",
    "C40_exactly_one",
    "C40_query"
   ],
   "note": "Without hooks (C48 covers them)."
  },
  {
   "property": "C41",
   "status": "partial",
   "theorems": [
    "C41_soap_partial",
    "C41_success_partial",
    "C41_bad_request_refuted",
    "C41_unknown_schema_refuted",
    "C41_content_type"
   ],
   "note": "500 for faults and 200 for results proved; bad_request and not_found are answered with 200 because SOAPResponse ignores its status argument (refuted)."
  },
  {
   "property": "C42",
   "status": "partial",
   "theorems": [
    "C42_action_partial",
    "C42_root_partial",
    "C42_substitution_partial",
    "C42_only_partial",
    "C42_called_partial",
    "C42_crash_refuted"
   ],
   "note": "Lookup by action, root element and substitution group fully characterised; a valid root without substitution group that is no method's input raises AttributeError instead of a fault (refuted)."
  },
  {
   "property": "C43",
   "status": "proved",
   "theorems": [
    "C43_validated",
    "C43_once",
    "C43_this_request",
    "C43_own_middlewares"
   ],
   "note": "For all middlewares and hooks; 'at most once' for middlewares that call next_call at most once."
  },
  {
   "property": "C44",
   "status": "partial",
   "theorems": [
    "C44_fault_partial",
    "C44_control_refuted",
    "C44_empty_body_refuted",
    "C44_nil_header_refuted",
    "C44_instruction_refuted"
   ],
   "note": "Client fault for the six documented kinds of bad request; exceptions escape for control characters in the message, an empty Body, a nil Header, processing instructions in the Envelope (refuted)."
  },
  {
   "property": "C45",
   "status": "partial",
   "theorems": [
    "C45_fault_partial",
    "C45_result_partial",
    "C45_base_exceptions_partial",
    "C45_control_refuted"
   ],
   "note": "Exceptions whose text XML can carry; with control characters the fault cannot be built and ValueError escapes (refuted). KeyboardInterrupt and the like pass through by design."
  },
  {
   "property": "C46",
   "status": "proved",
   "theorems": [
    "C46_transparent",
    "C46_anywhere"
   ],
   "note": ""
  },
  {
   "property": "C47",
   "status": "proved",
   "theorems": [
    "C47_order",
    "C47_stop",
    "C47_stop_result",
    "C47_rest"
   ],
   "note": ""
  },
  {
   "property": "C48",
   "status": "partial",
   "theorems": [
    "C48_names_partial",
    "C48_names_refuted",
    "C48_only_partial",
    "C48_xsd_response_refuted",
    "C48_soap_request_partial",
    "C48_get_request_partial",
    "C48_soap_response_partial",
    "C48_get_response_partial",
    "C48_wrong_kind_partial",
    "C48_refused"
   ],
   "note": "Hooks work at their points, but names are only checked as prefixes and 'xsd-response' is never called (refuted)."
  },
  {
   "property": "C49",
   "status": "partial",
   "theorems": [
    "C49_soap12_partial",
    "C49_soap12_backslash_refuted",
    "C49_soap12_quote_refuted",
    "C49_soap11_django_partial",
    "C49_soap11_quote_refuted",
    "C49_soap11_wsgi_refuted",
    "C49_soap12_server",
    "C49_soap11_server"
   ],
   "note": "SOAP 1.2 and SOAP 1.1 under Django, for actions without quotes or double backslashes; under WSGI and Flask the SOAP 1.1 action never arrives (refuted)."
  },
  {
   "property": "C50",
   "status": "partial",
   "theorems": [
    "C50_filled_partial",
    "C50_no_host_partial",
    "C50_dollar_refuted",
    "C50_django_refuted"
   ],
   "note": "For documents whose only dollar signs are the two placeholders; '$$' is served as '$' and under Django the scheme is always http without a proxy header (refuted)."
  },
  {
   "property": "C51",
   "status": "partial",
   "theorems": [
    "C51_simple_output_refuted",
    "C51_call_partial",
    "C51_class_output_refuted",
    "C51_soap11_class_input_refuted"
   ],
   "note": "proved for every service without hooks and middlewares, objects of classes that round-trip (C21), document transmission as a hypothesis; class-typed and simple outputs and SOAP 1.1 with class-typed inputs refuted"
  },
  {
   "property": "C52",
   "status": "partial",
   "theorems": [
    "C52_headers_partial",
    "C52_no_schema_refuted"
   ],
   "note": "proved for header objects of exactly the declared class with a schema; refuted for classes without a schema"
  },
  {
   "property": "C53",
   "status": "proved",
   "theorems": [
    "C53_selected",
    "C53_rejected"
   ],
   "note": "Also covers the WSDL binding namespaces."
  },
  {
   "property": "C54",
   "status": "partial",
   "theorems": [
    "C54_document_partial",
    "C54_consistent_partial",
    "C54_leads_partial",
    "C54_defined_partial",
    "C54_built_lookup_partial",
    "C54_lookup_partial",
    "C54_found_partial",
    "C54_other_schema_refuted",
    "C54_same_names_refuted",
    "C54_colon_refuted",
    "C54_no_schema_refuted",
    "C54_one_way_refuted"
   ],
   "note": "For services whose schemas and methods can be described, with distinct colon-free operation names: the exact document, consistency of its references, and the library's own lookup. Refuted for elements of other schemas than the first, shared operation names, names with colons, no schemas and one-way operations."
  },
  {
   "property": "C55",
   "status": "partial",
   "theorems": [
    "C55_partial",
    "C55_attribute_refuted",
    "C55_include_refuted",
    "C55_fraction_refuted",
    "C55_enumeration_refuted"
   ],
   "note": "Schemas without XML attributes are described, with the exact document (C55_partial). Refuted for every class with an attribute, includes without location, numeric fractionDigits of a class and numeric enumerations."
  },
  {
   "property": "C56",
   "status": "partial",
   "theorems": [
    "C56_partial",
    "C56_length_refuted",
    "C56_zero_refuted",
    "C56_enumeration_refuted"
   ],
   "note": "The facets in the document are exactly the carried ones (C56_partial). Lengths, white space, zero bounds and enumerations of derived types are dropped (refuted)."
  },
  {
   "property": "C57",
   "status": "partial",
   "theorems": [
    "C57_once",
    "C57_first_partial",
    "C57_kept",
    "C57_chain_refuted",
    "C57_module_partial"
   ],
   "note": "Every schema exactly once: proved for all lists. Imports first: proved where imported schemas import nothing, and lists already in order are kept; refuted for chains of imports. C57_module_partial says the same of the statements in a module generated from a WSDL document."
  },
  {
   "property": "C58",
   "status": "partial",
   "theorems": [
    "C58_once",
    "C58_local_partial",
    "C58_prefixed_refuted",
    "C58_unknown_refuted"
   ],
   "note": "Every type exactly once, and bases first where bases are unprefixed types of the same schema, for any sort satisfying the documented contract of list.sort; refuted for prefixed bases and for unknown unprefixed ones."
  },
  {
   "property": "C59",
   "status": "partial",
   "theorems": [
    "C59_terminates",
    "C59_once",
    "C59_all",
    "C59_root_refuted",
    "C59_wsdl_partial",
    "C59_wsdl_refuted",
    "C59_inline_refuted"
   ],
   "note": "xsd2py: termination, at most once, at least once proved for all import graphs and path spellings; refuted for the root document and for schemas inside a WSDL document. wsdl2py: proved for documents importing each other by mere names; refuted for ./name."
  },
  {
   "property": "C60",
   "status": "partial",
   "theorems": [
    "C60_xsd_partial",
    "C60_remote_refuted",
    "C60_url_refuted",
    "C60_sibling_refuted",
    "C60_inline_refuted"
   ],
   "note": "xsd2py with local documents: proved for all paths. Refuted for documents at URLs, for the imports of a WSDL document after one in a subdirectory, and for schemas in imported WSDL documents."
  },
  {
   "property": "C61",
   "status": "partial",
   "theorems": [
    "C61_distinct_partial",
    "C61_tags_partial",
    "C61_back_partial",
    "C61_case_refuted",
    "C61_back_refuted",
    "C61_prefix_refuted"
   ],
   "note": "Distinctness and restoring proved for names whose first letters have the same case; refuted in general (first-letter case, qName, prefixes)."
  },
  {
   "property": "C62",
   "status": "partial",
   "theorems": [
    "C62_order_partial",
    "C62_unparsed_refuted"
   ],
   "note": "Proved for parsed instances; refuted otherwise."
  },
  {
   "property": "C63",
   "status": "partial",
   "theorems": [
    "C63_stale_equality_refuted",
    "C63_tail_refuted"
   ],
   "note": "Refuted both ways: equality is by the original element, including the text after it."
  },
  {
   "property": "C64",
   "status": "partial",
   "theorems": [
    "C64_absent_attribute_default_partial",
    "C64_native_default_refuted",
    "C64_decimal_default_refuted"
   ],
   "note": "Proved for all types and all defaults except the text 'nil' for types other than texts and decimal.Decimal objects for Decimal. Refuted for Boolean, Date, DateTime and Time attributes whose default is a Python value of the type (every document without the attribute is rejected), and for decimal.Decimal defaults (a float is read where a new object holds the text)."
  },
  {
   "property": "C65",
   "status": "partial",
   "theorems": [
    "C65_self_containing_refuted",
    "C65_layered_partial"
   ],
   "note": "Refuted for self-reference through Element/Attribute/Ref/Content/ClassNamedElement (no recursion limit suffices); proved that classes referring to themselves only through ListElement can be instantiated (and parsed: C33)."
  },
  {
   "property": "C66",
   "status": "partial",
   "theorems": [
    "C66_frameworks",
    "C66_exact_body",
    "C66_no_length",
    "C66_status_line",
    "C66_garbage",
    "C66_negative_refuted"
   ],
   "note": "All nonnegative lengths; with a negative length the whole input is read (refuted)."
  },
  {
   "property": "C67",
   "status": "partial",
   "theorems": [
    "C67_header_namespace_refuted"
   ],
   "note": "refuted: the blocks are in the SOAP envelope namespace"
  },
  {
   "property": "C68",
   "status": "proved",
   "theorems": [
    "C68_merged"
   ],
   "note": "For every graph of imports; equality of schemas is by serialisation, as in the code."
  },
  {
   "property": "C69",
   "status": "partial",
   "theorems": [
    "C69_partial",
    "C69_refuted"
   ],
   "note": "The restricted integers, NMTOKEN(S), LanguageString and MaxOccurs refer to types that do not exist (C69_refuted); all other library types and the classes of the schema resolve."
  },
  {
   "property": "C70",
   "status": "proved",
   "theorems": [
    "C70_library",
    "C70_schema",
    "C70_definitions"
   ],
   "note": "For all describable schemas and services (SpecXsd, SpecGenWsdl)."
  },
  {
   "property": "C71",
   "status": "partial",
   "theorems": [
    "C71_class_partial",
    "C71_extension_partial",
    "C71_element_partial",
    "C71_anonymous_partial",
    "C71_namespace",
    "C71_attributeGroup_partial",
    "C71_group_partial",
    "C71_builtins",
    "C71_recursive_refuted",
    "C71_import_refuted",
    "C71_inline_refuted",
    "C71_nested_refuted",
    "C71_names_refuted",
    "C71_default_refuted",
    "C71_restriction_refuted",
    "C71_references_partial",
    "C71_extension_references_partial"
   ],
   "note": "Proved for types whose particles name their types (attributes and elements with type=), extensions, top-level elements, groups and attribute groups, for the types in any order the generator puts them; the counterexamples listed in the statement are proved as _refuted theorems, the one about recursive types for all schemas and recursion limits.  That documents can be imported at all is C78.  References to attribute groups: C71_references_partial and C71_extension_references_partial.  Not covered: documents that define a class name twice."
  },
  {
   "property": "C72",
   "status": "partial",
   "theorems": [
    "C72_strings_partial",
    "C72_length_refuted",
    "C72_inherited_pattern_refuted",
    "C72_numbers_refuted"
   ],
   "note": "Enumeration and pattern on string types proved exactly; the loss of length, inherited pattern and all numeric facets is proved as _refuted."
  },
  {
   "property": "C73",
   "status": "partial",
   "theorems": [
    "C73_address_partial",
    "C73_refuted",
    "C73_given"
   ],
   "note": "Proved for all absolute addresses without empty parts and dollar signs; the other cases are refuted by witnesses."
  },
  {
   "property": "C74",
   "status": "partial",
   "theorems": [
    "C74_client_partial",
    "C74_server_partial",
    "C74_type_refuted",
    "C74_parts_refuted",
    "C74_one_way_refuted",
    "C74_action_refuted",
    "C74_style_refuted",
    "C74_hidden_refuted",
    "C74_names_refuted",
    "C74_overloaded_refuted",
    "C74_shadow_refuted",
    "C74_header_refuted",
    "C74_versions_refuted"
   ],
   "note": "Proved for client and server over all documents with one element part per message, usable names and no headers; C91 proves the same with header blocks. The excluded shapes are refuted one by one."
  },
  {
   "property": "C75",
   "status": "partial",
   "theorems": [
    "C75_call_partial",
    "C75_same_element_refuted"
   ],
   "note": "C75_call_partial for documents of the shape of C74 (one part per message given by an element, actions stated, no headers) and one platform shared by both sides, without hooks and middlewares; C75_same_element_refuted: with SOAP 1.1 under WSGI and Flask the second of two operations taking the same element runs the function of the first. Header blocks: C92."
  },
  {
   "property": "C76",
   "status": "partial",
   "theorems": [
    "C76_client_partial",
    "C76_server_partial",
    "C76_name_refuted",
    "C76_class_refuted",
    "C76_placeholders_refuted"
   ],
   "note": "C76_client_partial and C76_server_partial: inputs and outputs by element, usable names, absolute location, documents without inserted noise; the Schema objects are those the module has bound (C71 is about them).  C76_name_refuted, C76_class_refuted, C76_placeholders_refuted."
  },
  {
   "property": "C77",
   "status": "partial",
   "theorems": [
    "C77_same_call_partial",
    "C77_call_partial"
   ],
   "note": "C77_same_call_partial and C77_call_partial for services without header classes; one platform shared by both sides.  Header classes are not written to WSDL by py2wsdl, so they cannot come back."
  },
  {
   "property": "C78",
   "status": "proved",
   "theorems": [
    "C78_import",
    "C78_classes",
    "C78_parameter_refuted",
    "C78_anyType_refuted",
    "C78_mutual_refuted",
    "C78_bases_refuted"
   ],
   "note": "Generation (with the reordering of types), import and calling every class are proved to succeed for all documents of the form described; four _refuted theorems show that the conditions matter."
  },
  {
   "property": "C79",
   "status": "proved",
   "theorems": [
    "C79_import",
    "C79_classes",
    "C79_elements",
    "C79_simple",
    "C79_names_refuted",
    "C79_list_refuted",
    "C79_types_refuted"
   ],
   "note": "Composition of C55, C70, C58, C78 and C71/C72 for schemas in which types are passed as classes; the refuted theorems show what is not kept and why the conditions are needed. Types passed as instances (facets written inside the element) and XML attributes (which py2xsd cannot describe, C55) are not covered."
  },
  {
   "property": "C80",
   "status": "proved",
   "theorems": [
    "C80_reads",
    "C80_writes",
    "C80_builds",
    "C80_exchange",
    "C80_subclass_refuted"
   ],
   "note": "Two environments that agree on a closed set of classes read, write and build the same; agreement by C79 and the exact simple types of C72. The refuted theorem shows why derived classes are excluded when building."
  },
  {
   "property": "C81",
   "status": "partial",
   "theorems": [
    "C81_client_partial",
    "C81_server_partial",
    "C81_classes_partial",
    "C81_elements_partial",
    "C81_exchange_partial",
    "C81_clash_refuted"
   ],
   "note": "Composition of C76 with C78, C79 and C80 over the one module state; services with one schema (several schemas: not covered), documents without inserted noise. C81_clash_refuted: a class named like an operation is lost in a server module."
  },
  {
   "property": "C82",
   "status": "partial",
   "theorems": [
    "C82_same_call_partial",
    "C82_call_partial"
   ],
   "note": "C80 and C81 give the module's classes and methods; then the stub is equal on platforms whose environments agree. Services with one schema and without headers; noise in the document and several schemas are not covered."
  },
  {
   "property": "C83",
   "status": "partial",
   "theorems": [
    "C83_same_answer_partial",
    "C83_both_partial"
   ],
   "note": "As C82, for the dispatcher; the functions are those of the original service (the generated bodies raise NotImplementedError)."
  },
  {
   "property": "C84",
   "status": "proved",
   "theorems": [
    "C84_import",
    "C84_classes",
    "C84_schemas",
    "C84_circle_refuted",
    "C84_location_refuted",
    "C84_chameleon_refuted",
    "C84_names_refuted"
   ],
   "note": "All documents of a directory that fit together, for all graphs without circles; four _refuted theorems (three of them for whole families of documents) show that the conditions matter. Documents in other directories or at URLs are covered by C59 (which documents are visited) but not here."
  },
  {
   "property": "C85",
   "status": "proved",
   "theorems": [
    "C85_valid",
    "C85_sent",
    "C85_list_refuted",
    "C85_required_refuted",
    "C85_choice_refuted",
    "C85_decimal_refuted",
    "C85_zone_refuted"
   ],
   "note": "The spec of validity (SpecValid) covers the constructs that py2xsd writes; facets of inherited pattern of Integer are included. Classes with XML attributes and group references are outside: the former have no XSD document at all (C55)."
  },
  {
   "property": "C86",
   "status": "proved",
   "theorems": [
    "C86_reads",
    "C86_one_meaning",
    "C86_boolean_refuted",
    "C86_zero_refuted",
    "C86_length_refuted",
    "C86_fraction_refuted",
    "C86_enumeration_refuted",
    "C86_choice_refuted"
   ],
   "note": "All documents that SpecValid calls valid; it leaves out other built-in types, facets and attributes. The conditions are part of the statement; the refuted theorems show valid documents that are refused or misread without them."
  },
  {
   "property": "C87",
   "status": "proved",
   "theorems": [
    "C87_fill",
    "C87_first",
    "C87_no_action",
    "C87_blocks",
    "C87_answer",
    "C87_use_wsa_refuted"
   ],
   "note": "The refuted theorem shows that use_wsa=True never works."
  },
  {
   "property": "C88",
   "status": "proved",
   "theorems": [
    "C88_last",
    "C88_decided",
    "C88_frame",
    "C88_unknown",
    "C88_returns",
    "C88_dispatch",
    "C88_reaches"
   ],
   "note": ""
  },
  {
   "property": "C89",
   "status": "proved",
   "theorems": [
    "C89_serves",
    "C89_links_wsdl",
    "C89_links_xsd",
    "C89_one_schema_refuted",
    "C89_nameless_refuted",
    "C89_query_refuted"
   ],
   "note": "C89_serves, C89_links_wsdl and C89_links_xsd; the conditions in the statement are shown to matter by the _refuted theorems. lxml's serialisation and XMLSchema compilation are parameters."
  },
  {
   "property": "C90",
   "status": "partial",
   "theorems": [
    "C90_calls",
    "C90_accepts",
    "C90_answers",
    "C90_header_calls_partial",
    "C90_header_calls_refuted"
   ],
   "note": "Composition of C51, C85, C86 and C89: assumes of etree.XMLSchema only that it accepts what is valid (SpecValid). Calls with SOAP headers are refuted for the default strict_soap_header=True (C90_header_calls_refuted) and proved for strict_soap_header=False and header classes of plain elements (C90_header_calls_partial)."
  },
  {
   "property": "C91",
   "status": "proved",
   "theorems": [
    "C91_client",
    "C91_server",
    "C91_blocks",
    "C91_shared_refuted",
    "C91_same_message_refuted",
    "C91_two_schemas_refuted",
    "C91_type_refuted",
    "C91_namespace_refuted",
    "C91_name_refuted",
    "C91_part_refuted"
   ],
   "note": "Client, server and field lookup, for all documents of the stated shape; the excluded shapes are refuted one by one."
  },
  {
   "property": "C92",
   "status": "partial",
   "theorems": [
    "C92_call",
    "C92_block_refuted"
   ],
   "note": "C92_call gives the round trip of headers and bodies. The class names of the header classes on the platform are a parameter (clsc, clss). That the blocks are the elements the document names is false: C92_block_refuted."
  },
  {
   "property": "C93",
   "status": "partial",
   "theorems": [
    "C93_request_partial",
    "C93_same_call_partial",
    "C93_reply_partial",
    "C93_fault_partial",
    "C93_version_refuted",
    "C93_must_understand_refuted",
    "C93_names_partial",
    "C93_names_refuted"
   ],
   "note": "Requests, replies and faults are proved read from every such envelope. Refuted: the namespace of the envelope is never looked at, so an envelope of the other SOAP version runs the function (C93_version_refuted), and an unknown block with mustUnderstand is ignored by a dispatcher that is not strict (C93_must_understand_refuted). Messages called message or Fault are found by the server (C93_names_partial); the client does not return a result called Fault (C93_names_refuted). Not covered: such messages with children called like the parts the Body class reads; processing instructions crash (C44_instruction_refuted)."
  },
  {
   "property": "C94",
   "status": "partial",
   "theorems": [
    "C94_agree",
    "C94_finish",
    "C94_name_refuted",
    "C94_names_partial",
    "C94_alone"
   ],
   "note": "C94_agree and C94_finish for types given by class or instance, or used before. Refuted for types given by name that have not been used: two first uses can make one of them raise TypeError (C94_name_refuted). In that case nothing but a TypeError can be raised and whoever finishes has the right type (C94_names_partial); a thread on its own raises nothing (C94_alone). Granularity: one read or write of a shared attribute."
  },
  {
   "property": "C95",
   "status": "partial",
   "theorems": [
    "C95_whole_partial",
    "C95_alone_partial",
    "C95_refuted"
   ],
   "note": "Proved when the statement raising the counter is carried out as a whole (C95_whole_partial), and when only one thread makes Element objects (C95_alone_partial). Refuted when another thread can come between its read and its write: the fields of a class change their order (C95_refuted)."
  },
  {
   "property": "C96",
   "status": "partial",
   "theorems": [
    "C96_bound_partial",
    "C96_total",
    "C96_refuted"
   ],
   "note": "At most one item too many per further thread (C96_bound_partial), nothing is lost (C96_total); the bound itself is refuted for two threads (C96_refuted). C20 then refuses to write the list."
  },
  {
   "property": "C97",
   "status": "partial",
   "theorems": [
    "C97_text",
    "C97_round",
    "C97_history",
    "C97_kept",
    "C97_derived_refuted",
    "C97_derived",
    "C97_root_refuted"
   ],
   "note": "Proved for roots that are Elements of a complex type. The natural claims that parsexml returns the document, that NAMESPACE and tagname are used, and that derived classes are unaffected are refuted: C97_history, C97_root_refuted, C97_derived_refuted."
  },
  {
   "property": "C98",
   "status": "partial",
   "theorems": [
    "C98_read_only",
    "C98_write_only",
    "C98_read_all",
    "C98_described",
    "C98_round",
    "C98_reads",
    "C98_object_refuted"
   ],
   "note": "Everything proved except that xml accepts a Schema object, which is refuted (C98_object_refuted)."
  },
  {
   "property": "C99",
   "status": "partial",
   "theorems": [
    "C99_xsd2py",
    "C99_stdout",
    "C99_wsdl2py",
    "C99_told",
    "C99_module",
    "C99_interrupted",
    "C99_no_output",
    "C99_failed_refuted",
    "C99_failed_partial",
    "C99_in_place",
    "C99_between"
   ],
   "note": "What the programs write, where options may stand, and every point of interruption are proved. That a failed run leaves the output as it was is refuted; proved instead is that nothing but the output is changed and that it is empty then."
  },
  {
   "property": "C100",
   "status": "partial",
   "theorems": [
    "C100_last",
    "C100_documents",
    "C100_types_partial",
    "C100_refuted"
   ],
   "note": "Which prefixes are taken for XML Schema's is characterised for all documents; that type names are printed by their meaning is proved if no prefix has two meanings and refuted in general. Declarations on elements below a schema are not followed."
  },
  {
   "property": "C101",
   "status": "partial",
   "theorems": [
    "C101_returns",
    "C101_shows",
    "C101_hides_refuted",
    "C101_error_partial",
    "C101_ambiguous_refuted"
   ],
   "note": "Refuted in general: attributes are not shown (C101_hides_refuted) and texts are ambiguous (C101_ambiguous_refuted); C101_returns and C101_shows hold for all objects, C101_error_partial for errors without the separators."
  },
  {
   "property": "C102",
   "status": "partial",
   "theorems": [
    "C102_last",
    "C102_element",
    "C102_reading",
    "C102_making",
    "C102_writing_partial",
    "C102_writing_refuted",
    "C102_raises_refuted"
   ],
   "note": "That a further schema leaves what is written unchanged is refuted (C102_writing_refuted), as is that a Schema call that raises has no effect (C102_raises_refuted); proved for schemas that name none of the classes. Everything else holds for all histories."
  },
  {
   "property": "C103",
   "status": "partial",
   "theorems": [
    "C103_equal",
    "C103_written",
    "C103_kinds",
    "C103_datetimes",
    "C103_transitive_refuted",
    "C103_from_date",
    "C103_to_date_partial"
   ],
   "note": "Equality of XSDDates, kinds of equal values and the way from dates are proved. Refuted: equality is not transitive, since an XSDDate equals every datetime of its day and zone (C103_transitive_refuted); the way to a plain date loses the zone (C103_to_date_partial is exact)."
  }
 ]
}
{
 "claims": [
  {
   "property": "C01",
   "status": "proved",
   "theorems": [
    "C01_callers_memory",
    "C01_same_bom",
    "C01_undisturbed",
    "C01_no_race"
   ],
   "note": "On the memory model: any heap with any sharing and no cycles, any number of calls for any versions on any pointers of the caller, every interleaving, at every moment."
  },
  {
   "property": "C02",
   "status": "proved",
   "theorems": [
    "C02_markers"
   ],
   "note": ""
  },
  {
   "property": "C03",
   "status": "proved",
   "theorems": [
    "C03_sections",
    "C03_metadata",
    "C03_compositions",
    "C03_vulnerabilities",
    "C03_dependencies"
   ],
   "note": ""
  },
  {
   "property": "C04",
   "status": "proved",
   "theorems": [
    "C04_components_clean"
   ],
   "note": ""
  },
  {
   "property": "C05",
   "status": "proved",
   "theorems": [
    "C05_services_clean"
   ],
   "note": ""
  },
  {
   "property": "C06",
   "status": "partial",
   "theorems": [
    "C06_component_licenses",
    "C06_evidence_licenses_partial",
    "C06_evidence_licenses_refuted"
   ],
   "note": "Proved for component, metadata and (from 1.5) evidence licenses; refuted for evidence licenses at 1.3/1.4, which the code does not convert."
  },
  {
   "property": "C07",
   "status": "proved",
   "theorems": [
    "C07_component_hashes",
    "C07_algorithms_from_schema"
   ],
   "note": ""
  },
  {
   "property": "C08",
   "status": "proved",
   "theorems": [
    "C08_metadata_tools",
    "C08_vulnerability_tools"
   ],
   "note": ""
  },
  {
   "property": "C09",
   "status": "proved",
   "theorems": [
    "C09_component_enums",
    "C09_service_extrefs",
    "C09_bom_extrefs",
    "C09_fallbacks_defined",
    "C09_component_types_from_schema",
    "C09_scopes_from_schema",
    "C09_scoring_methods_from_schema",
    "C09_reference_types_from_schema",
    "C09_aggregates_from_schema"
   ],
   "note": ""
  },
  {
   "property": "C10",
   "status": "partial",
   "theorems": [
    "C10_unchanged_partial",
    "C10_changes_exact",
    "C10_newest",
    "C10_marked",
    "C10_refuted"
   ],
   "note": "Proved under an exact proviso (C10_changes_exact: the document is unchanged if and only if it is stable); refuted without it: cryptographic-asset, scope excluded in 1.1, data flow descriptions in 1.5."
  },
  {
   "property": "C11",
   "status": "proved",
   "theorems": [
    "C11_idempotent"
   ],
   "note": ""
  },
  {
   "property": "C12",
   "status": "partial",
   "theorems": [
    "C12_stepwise_partial",
    "C12_stepwise_evidence",
    "C12_stepwise_refuted"
   ],
   "note": "Proved for every detour except from 1.3/1.4 over 1.5/1.6, where it is refuted (evidence licenses are not converted for 1.3/1.4); proved there too when evidence licenses are expressible in the intermediate version."
  },
  {
   "property": "C13",
   "status": "proved",
   "theorems": [
    "C13_component_tree",
    "C13_service_tree"
   ],
   "note": ""
  },
  {
   "property": "C14",
   "status": "partial",
   "theorems": [
    "C14_copy_partial",
    "C14_copy_determined",
    "C14_copy_exact",
    "C14_copy_again",
    "C14_copy_refuted",
    "C14_lossy_scalars",
    "C14_copy_and_convert",
    "C14_copy_and_convert_exact"
   ],
   "note": "Copying always succeeds and the copy is determined: it is the original up to an explicit list of losses (pointers to zero or empty values become nil, empty lists become nil); the copy is exact if and only if there is nothing to lose. Refuted as stated: authenticated=false, score=0 and the like are lost."
  },
  {
   "property": "C15",
   "status": "partial",
   "theorems": [
    "C15_encode",
    "C15_encode_exactly",
    "C15_encode_version",
    "C15_encode_version_exactly",
    "C15_conversion_refuted",
    "C15_json_all_versions",
    "C15_media_type",
    "C15_media_type_text",
    "C15_xml_encode",
    "C15_xml_encode_version",
    "C15_xml_all_versions"
   ],
   "note": "JSON Encode: error exactly for versions below 1.2, nothing written (C29). JSON EncodeVersion: always an error below 1.2; from 1.2 on none if the converted copy can be encoded (C15_encode_version_exactly), which is so for every BOM that Encode accepts in which every tools choice has a tool (C15_json_all_versions; or the depth limit of encoding/json is hit). Without that condition refuted: C15_conversion_refuted (tools set to an empty list). XML: Encode does not look at the version; if a BOM encodes, EncodeVersion succeeds for every version (C15_xml_all_versions)."
  },
  {
   "property": "C16",
   "status": "partial",
   "theorems": [
    "C16_decodes_partial",
    "C16_round_trip_partial",
    "C16_any_depth",
    "C16_decoded",
    "C16_deep_refuted",
    "C16_depth",
    "C16_losses_refuted",
    "C16_text_partial",
    "C16_text_any_depth",
    "C16_text"
   ],
   "note": "On bytes, for both layouts and both escapings, and on trees, with no bound (C16_any_depth, C16_text_any_depth): decoding gives the BOM up to explicit losses (jback), or encoding/json refuses because of more than 10000 levels; what decodes is exact if and only if nothing is lost. Up to 10000 levels decoding always succeeds (theorems _partial); beyond that the property is refuted (C16_deep_refuted). C16_losses_refuted: single signer signatures, pointers to nil lists, empty states."
  },
  {
   "property": "C17",
   "status": "partial",
   "theorems": [
    "C17_decodes_partial",
    "C17_any_depth",
    "C17_decoded",
    "C17_round_trip_partial",
    "C17_losses_refuted",
    "C17_deep_refuted",
    "C17_text_any_depth",
    "C17_text_decoded",
    "C17_text_decodes_partial",
    "C17_text_round_trip_partial",
    "C17_text_deep_refuted"
   ],
   "note": "On trees and on bytes. For every BOM that encodes, with no bound (C17_any_depth, C17_text_any_depth): decoding gives the BOM up to the losses spelled out by xml_back, or encoding/xml refuses because values are nested more than 10000 deep; what decodes is exact if and only if nothing is lost. Documents of at most 5000 levels always decode (the theorems _partial). The property as stated is refuted for deeper ones: 5000 components within each other encode and do not decode (C17_deep_refuted). C17_losses_refuted: examples of losses."
  },
  {
   "property": "C18",
   "status": "proved",
   "theorems": [
    "C18_json_written",
    "C18_json_read",
    "C18_text_read",
    "C18_accepts_exactly",
    "C18_roundtrip",
    "C18_out_of_range",
    "C18_text",
    "C18_distinct",
    "C18_xml_read",
    "C18_xml_written"
   ],
   "note": "Text forms; the specVersion member of JSON documents; the element that MarshalXML writes and UnmarshalXML reads."
  },
  {
   "property": "C19",
   "status": "proved",
   "theorems": [
    "C19_namespace_lookup",
    "C19_decoded",
    "C19_text"
   ],
   "note": "Lookup loop for every map order, and decoding of every byte string into every BOM."
  },
  {
   "property": "C20",
   "status": "proved",
   "theorems": [
    "C20_link_roundtrip",
    "C20_link_text_injective"
   ],
   "note": ""
  },
  {
   "property": "C21",
   "status": "proved",
   "theorems": [
    "C21_is_bom_link_grammar",
    "C21_parse_exact",
    "C21_is_link_but_unparsable_refuted"
   ],
   "note": ""
  },
  {
   "property": "C22",
   "status": "proved",
   "theorems": [
    "C22_new_link_accepts",
    "C22_new_link_rejects",
    "C22_new_link_panics"
   ],
   "note": ""
  },
  {
   "property": "C23",
   "status": "proved",
   "theorems": [
    "C23_parsed_valid",
    "C23_parsed_canonical",
    "C23_reparse",
    "C23_plain_identity"
   ],
   "note": ""
  },
  {
   "property": "C24",
   "status": "partial",
   "theorems": [
    "C24_fails_exactly_partial",
    "C24_fails_exactly",
    "C24_json_partial",
    "C24_metadata_tools",
    "C24_components",
    "C24_json_refuted",
    "C24_xml_fails_exactly",
    "C24_xml_partial",
    "C24_xml_metadata_tools",
    "C24_xml_components",
    "C24_xml_refuted"
   ],
   "note": "Exact failure condition, for every BOM in both formats; JSON may also fail beyond 10000 levels (C24_fails_exactly). JSON refuses: tools, identity, certificate state and extension, license id and name; refuted for asserter, environment variable, license with expression, which JSON encodes silently. XML refuses: tools, certificate state and extension, an asserter with organization and individual, license id and name, license with expression, environment variable; refuted for identity and for an asserter with a reference and for patents, which XML encodes silently."
  },
  {
   "property": "C25",
   "status": "partial",
   "theorems": [
    "C25_json_partial",
    "C25_json_refuted",
    "C25_text_partial",
    "C25_xml",
    "C25_xml_refuted",
    "C25_xml_text"
   ],
   "note": "JSON: every document without duplicate keys; refuted with duplicate keys. XML: every document, for the types of the property; refuted for an asserter with two elements and a license with id and name."
  },
  {
   "property": "C26",
   "status": "partial",
   "theorems": [
    "C26_pretty",
    "C26_escape",
    "C26_defaults",
    "C26_encode",
    "C26_encode_version",
    "C26_same_bom",
    "C26_same_failure_partial",
    "C26_same_failure_refuted",
    "C26_escape_refuted",
    "C26_xml_pretty",
    "C26_xml_default",
    "C26_xml_escape_noop",
    "C26_xml_encode",
    "C26_xml_same_bom",
    "C26_xml_same_bom_partial",
    "C26_xml_same_failure"
   ],
   "note": "JSON and XML: every history of calls. Documents under any two settings decode alike: JSON without proviso; XML whenever both decode, and always for documents of at most 5000 levels. Encodability does not depend on the settings: XML without proviso, JSON up to 10000 levels, refuted beyond (C26_same_failure_refuted: indented JSON has a depth limit when encoding). C26_escape_refuted: SetEscapeHTML(false) does not reach types with marshalling hooks."
  },
  {
   "property": "C27",
   "status": "proved",
   "theorems": [
    "C27_parses",
    "C27_bom_parses",
    "C27_no_html",
    "C27_utf8",
    "C27_one_line"
   ],
   "note": "Every tree with grammatical numbers and plain keys, and every BOM."
  },
  {
   "property": "C28",
   "status": "proved",
   "theorems": [
    "C28_chunks",
    "C28_decodes",
    "C28_reader_error",
    "C28_whole_input"
   ],
   "note": "Every sequence of deliveries of the reader."
  },
  {
   "property": "C29",
   "status": "proved",
   "theorems": [
    "C29_json_nil",
    "C29_json_nothing",
    "C29_json_write_error",
    "C29_xml_nil",
    "C29_xml_header",
    "C29_xml_prefix",
    "C29_xml_unencodable",
    "C29_xml_write_error",
    "C29_xml_nothing_refuted"
   ],
   "note": "JSON and XML, every writer that keeps the contract of io.Writer, every way in which encoding/xml cuts the text into calls of Write. C29_xml_nothing_refuted: XML is not all-or-nothing, the header is written of a BOM that cannot be encoded."
  },
  {
   "property": "C30",
   "status": "proved",
   "theorems": [
    "C30_dependencies",
    "C30_exact",
    "C30_text"
   ],
   "note": "On trees and on bytes, for every BOM whose document decodes, with no bound; characters that XML does not allow are replaced. That a document does not decode happens only beyond the depth limit of encoding/xml (C17_any_depth)."
  },
  {
   "property": "C31",
   "status": "partial",
   "theorems": [
    "C31_nothing_newer_partial",
    "C31_gaps_exact",
    "C31_nothing_newer_1_7",
    "C31_leaks_refuted"
   ],
   "note": "Proved under an exact proviso (C31_gaps_exact: nothing newer survives if and only if nothing newer lies at the listed positions, which the converter does not visit); refuted without it by 29 documents."
  },
  {
   "property": "C32",
   "status": "proved",
   "theorems": [
    "C32_no_panic",
    "C32_every_bom"
   ],
   "note": "On the memory model every nil check is explicit and a nil dereference is a crash; no call reaches one, for every BOM, version and interleaving. The depth bound of the model is discharged: all large enough bounds agree. Cyclic BOMs (which no document denotes) make gob recurse forever and are outside."
  },
  {
   "property": "C33",
   "status": "proved",
   "theorems": [
    "C33_new_bom",
    "C33_convert_fixpoint"
   ],
   "note": ""
  },
  {
   "property": "C34",
   "status": "partial",
   "theorems": [
    "C34_decoded_again_partial",
    "C34_decoded_again",
    "C34_deep_refuted",
    "C34_encodes_refuted",
    "C34_any_document",
    "C34_duplicates_refuted",
    "C34_text_partial",
    "C34_text"
   ],
   "note": "For documents without duplicate keys: if the decoded BOM encodes, what it encodes to decodes to the same BOM or is refused as too deep; which can happen (C34_deep_refuted: empty structs one level below a document of exactly 10000 levels). Refuted that a decoded BOM always encodes (C34_encodes_refuted, empty tools object). Documents with duplicate keys: the BOM is the same exactly if nothing in it is lost by encoding (C34_any_document), which a repeated key can bring about (C34_duplicates_refuted)."
  },
  {
   "property": "C35",
   "status": "partial",
   "theorems": [
    "C35_encode_version_partial",
    "C35_encode_version",
    "C35_text_partial",
    "C35_text"
   ],
   "note": "On document trees and on bytes. What decodes is the converted copy exactly if nothing in it is lost, with no bound. That it decodes: up to 10000 levels; the only possible failure is the depth limit of encoding/json, which deeper BOMs do hit (C16_deep_refuted)."
  },
  {
   "property": "C36",
   "status": "partial",
   "theorems": [
    "C36_encode_version",
    "C36_encode_version_partial",
    "C36_text",
    "C36_text_partial"
   ],
   "note": "On trees and on bytes. Whatever is decoded is the converted copy up to the losses, exact if and only if nothing is lost, and has the version and name space asked for, with no bound. That it decodes: up to 5000 levels of elements; the only possible failure is the depth limit of encoding/xml, which deeper BOMs do hit (C17_deep_refuted)."
  },
  {
   "property": "C37",
   "status": "proved",
   "theorems": [
    "C37_tree",
    "C37_document",
    "C37_encodes",
    "C37_utf8"
   ],
   "note": "The reader is a model of encoding/xml's tokenizer that accepts ASCII names only; all names the library writes are ASCII."
  },
  {
   "property": "C38",
   "status": "proved",
   "theorems": [
    "C38_rest",
    "C38_rest_decoded",
    "C38_truncated",
    "C38_settled",
    "C38_pieces",
    "C38_incomplete",
    "C38_round_trip"
   ],
   "note": "Syntax errors of the modelled reader are reported when the reader ends rather than as soon as they are seen."
  },
  {
   "property": "C39",
   "status": "proved",
   "theorems": [
    "C39_json_untouched",
    "C39_json_fields",
    "C39_json_lists",
    "C39_json_null",
    "C39_json_again",
    "C39_xml_untouched",
    "C39_xml_fields",
    "C39_xml_appends",
    "C39_xml_twice",
    "C39_json_same_outcome",
    "C39_xml_same_outcome",
    "C39_json_fresh_refuted",
    "C39_json_choice_refuted",
    "C39_xml_fresh_refuted"
   ],
   "note": "C39_json_fresh_refuted, C39_json_choice_refuted and C39_xml_fresh_refuted show what the property does not promise: a used BOM is not a fresh one. Elements that Go may find in the unused capacity of a slice are taken to be zero. C39_json_again is for documents without repeated keys."
  },
  {
   "property": "C40",
   "status": "proved",
   "theorems": [
    "C40_json_grammar",
    "C40_json_unambiguous",
    "C40_json_accepts",
    "C40_json_refuses",
    "C40_json_layout",
    "C40_json_margins",
    "C40_json_written",
    "C40_json_options"
   ],
   "note": "The parser models encoding/json's scanner, which /repo calls; the grammar in JsonGrammar.v follows RFC 8259, with Go's U+FFFD for invalid UTF-8 and lone surrogates. Documents nested beyond 10000 levels are in the grammar and are refused afterwards (ETooDeep)."
  },
  {
   "property": "C41",
   "status": "proved",
   "theorems": [
    "C41_xml_reads",
    "C41_xml_delivered",
    "C41_xml_unambiguous",
    "C41_xml_layout",
    "C41_xml_written",
    "C41_xml_respelled",
    "C41_xml_prefix_refuted"
   ],
   "note": "The parser models encoding/xml's tokenizer, which /repo calls. The grammar covers XML 1.0 in UTF-8 with ASCII names; the declaration only in its usual forms and directives only without markup or quotation marks. That every text of the grammar is read is proved, not that nothing else is: encoding/xml takes some texts that are not well-formed. Name spaces are compared as the decoder does: C41_xml_prefix_refuted shows that a prefixed root loses its version."
  },
  {
   "property": "C42",
   "status": "partial",
   "theorems": [
    "C42_json_conforming_partial",
    "C42_json_conforming",
    "C42_json_texts",
    "C42_json_classification_refuted",
    "C42_json_asserter_refuted",
    "C42_json_items_refuted"
   ],
   "note": "Proved in full for 1.3, 1.4 and 1.5 (C42_json_conforming). For 1.2, 1.6 and 1.7 with the exceptions spelled out in PropsSchema.exceptions, which are needed: C42_json_classification_refuted, C42_json_asserter_refuted, C42_json_items_refuted. The schemas are translated by tools/gen_schema.py, which is trusted; it leaves out keywords that only narrow a node, so the theorems cover more documents than the schemas allow, and is narrower in the three places named in SchemaSpec.v (objects whose schema permits unlisted members are taken without them)."
  },
  {
   "property": "C43",
   "status": "partial",
   "theorems": [
    "C43_json_kept_partial",
    "C43_json_kept",
    "C43_json_texts",
    "C43_json_names",
    "C43_json_signer_refuted",
    "C43_json_model_refuted",
    "C43_json_assignee_refuted",
    "C43_json_family_refuted"
   ],
   "note": "Proved in full for 1.3 and, with the exceptions of C42, for 1.2 (C43_json_kept); for texts and all options in C43_json_texts. For 1.4 to 1.7 with the exceptions spelled out in PropsKept.losses, which are needed because data is lost: signatures by a single signer (C43_json_signer_refuted), properties of model cards (C43_json_model_refuted), assignees of patents (C43_json_assignee_refuted), asserters (C42_json_asserter_refuted), members of patent families with an empty identifier (C43_json_family_refuted). The theorem speaks of documents that are decoded and of BOMs that are encoded without error (C42 says when the first is the case, C24 and C35 when the second) and whose objects have no two members with the same name up to case."
  },
  {
   "property": "C44",
   "status": "proved",
   "theorems": [
    "C44_json_nothing_new",
    "C44_json_texts",
    "C44_json_strings",
    "C44_json_lists",
    "C44_json_twice_refuted"
   ],
   "note": "For trees (C44_json_nothing_new), for texts and all options (C44_json_texts), with two plain special cases (C44_json_strings, C44_json_lists). That no object has two members with the same name up to case is part of the property and is needed: two such members are merged (C44_json_twice_refuted)."
  },
  {
   "property": "C45",
   "status": "partial",
   "theorems": [
    "C45_json_known_partial",
    "C45_json_texts_partial",
    "C45_json_null",
    "C45_json_output_refuted",
    "C45_json_classification_refuted",
    "C45_json_asserter_refuted",
    "C45_json_assignee_refuted",
    "C45_json_null_refuted"
   ],
   "note": "Proved for every BOM (C45_json_known_partial, for texts C45_json_texts_partial) except at four places where the package writes what the schema does not have: parameters of a task's output, the classification of the data of declared evidence, the asserter of a patent assertion, the assignees of a patent (one _refuted theorem each). Null is written only for BOMs with something missing that the encoder does not leave out (C45_json_null), and is written for a pointer to a nil list (C45_json_null_refuted)."
  },
  {
   "property": "C46",
   "status": "partial",
   "theorems": [
    "C46_xml_known_partial",
    "C46_xml_texts_partial",
    "C46_xml_exceptions_refuted"
   ],
   "note": "Proved for every BOM (C46_xml_known_partial, for texts C46_xml_texts_partial) except at the thirty places listed in `exceptions` (PropsXsd.v), where the package writes what the schema does not define or defines in another form. C46_xml_exceptions_refuted shows for every one of them a BOM, decoded from JSON, whose XML the schema does not know even with all other exceptions granted, so the list cannot be shortened."
  },
  {
   "property": "C47",
   "status": "partial",
   "theorems": [
    "C47_xml_order_partial",
    "C47_xml_texts_partial",
    "C47_xml_misplaced_refuted"
   ],
   "note": "Proved for every BOM (C47_xml_order_partial, for texts C47_xml_texts_partial) but for the places of eleven elements listed in `misplaced` (PropsOrder.v), such as author and authors of a component, whose fields are in another order than the schema's. C47_xml_misplaced_refuted shows for every one of them a BOM, decoded from JSON, whose XML is out of order even if the places of all others listed do not matter."
  },
  {
   "property": "C48",
   "status": "partial",
   "theorems": [
    "C48_xml_limits_partial",
    "C48_xml_texts_partial",
    "C48_xml_repeated_refuted"
   ],
   "note": "Proved for every BOM (C48_xml_limits_partial, for texts C48_xml_texts_partial) but for six elements listed in `repeated` (PropsOrder.v), which are written once for every item of a list although the schema allows one, such as cipherSuites of a protocol. C48_xml_repeated_refuted shows for every one of them a BOM, decoded from JSON, whose XML has two, even if the number of all others listed does not matter."
  },
  {
   "property": "C49",
   "status": "partial",
   "theorems": [
    "C49_json_version_partial",
    "C49_json_texts_partial",
    "C49_json_early_refuted",
    "C49_json_other_places_refuted"
   ],
   "note": "Proved for every BOM and every version from 1.2 on, at the places of SiteSpec.v (C49_json_version_partial, for texts C49_json_texts_partial), but for six members that are never removed (`early` in PropsSites.v: signatures, tags of services, properties of the BOM). C49_json_early_refuted shows for each of them and each version a BOM that is written with it; C49_json_other_places_refuted shows that the supplier of a component and the licenses of a service are not covered for a reason."
  },
  {
   "property": "C50",
   "status": "partial",
   "theorems": [
    "C50_json_words_partial",
    "C50_json_texts_partial",
    "C50_json_other_words_refuted",
    "C50_json_newer_words_partial",
    "C50_json_unnoticed_refuted"
   ],
   "note": "Proved for every BOM and every version from 1.2 on for the type and scope of components at any depth, the algorithms of their hashes and the methods of ratings (C50_json_words_partial, for texts C50_json_texts_partial). For types of external references and aggregates of compositions, where words that no version lists stay, it is proved that a word listed by 1.7 is one the version lists, but for seven types of references (C50_json_newer_words_partial; C50_json_unnoticed_refuted has a BOM for each). Missing are the other members with a list of words; C50_json_other_words_refuted shows that hashes of external references are not filtered and that unknown words stay."
  },
  {
   "property": "C51",
   "status": "partial",
   "theorems": [
    "C51_json_required_partial",
    "C51_json_texts_partial",
    "C51_json_parts_partial",
    "C51_json_other_places_refuted"
   ],
   "note": "Proved without exception at the places of SiteSpec.v, for every BOM and every version from 1.2 on (C51_json_required_partial, for texts C51_json_texts_partial), and for hashes, properties and SWID tags within components (C51_json_parts_partial). Missing are the other places; C51_json_other_places_refuted shows that it fails for annotations, which are written without the text that 1.7 requires if it is empty. Licenses have no required members in the translated schemas, as `oneOf` that only says which members are required is left out."
  }
 ]
}
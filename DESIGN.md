# Formal model of CycloneDX/cyclonedx-go in Rocq (Coq 8.16.1)

`/repo` is read as text only. Nothing of it is built or run. The tie between
model and code is the file/line citation on every definition.

## Layout

All files are in `rocq/theories`; `_CoqProject` lists them in the order of the build.

| Files | Contents |
|---|---|
| `Base` | nil-able pointers and slices, results, byte strings |
| `Regex`, `RegexProofs`, `LinkModel`, `LinkSpec`, `LinkProofs`, `PropsLink` | `link.go`: the regexp literals, URL escaping, BOM links (C20-C23) |
| `Types`, `TypesFacts`, `Consts`, `Proj` (generated by `tools/gen_*.py`) | one record per Go struct of `cyclonedx.go`, the constants, extensionality |
| `Version`, `VersionProofs`, `PropsVersion` | versions, media types, name spaces, `NewBOM` (C15, C18, C19, C33) |
| `ConvertModel`; `ConvertSpec`, `ConvertReach`; `ConvertProofs`, `ConvertReachProofs`, `ConvertPropProofs`, `ConvertStep`; `PropsConvert`, `PropsStep` | `convert.go`; what a version has no place for; proofs; C02-C09, C11-C13 |
| `Within`, `WithinFacts` (generated from the schemas in `/repo/schema`), `SchemaTables`, `Gaps`, `Stable`, `WithinProofs`, `StableProofs`, `PropsWithin` | conversion compared with the official schemas (C10, C31, tables of C07 and C09) |
| `Univ`, `TypeTable`, `Reify`, `ReifyBase`, `ReifyFacts` (partly generated), `Wt` | Go values as reflection sees them, struct tags verbatim |
| `GobModel`, `GobSpec`, `GobProofs`, `PropsCopy` | `copy.go` over encoding/gob (C14) |
| `Numbers`, `NumbersProofs`, `Utf8`, `Utf8Proofs` | strconv, floats, UTF-8 |
| `JsonModel`, `JsonBack`, `JsonSpec`, `Json*` proofs, `PropsJson` | encoding/json over trees, hooks of `cyclonedx_json.go` (C15, C16, C18, C24, C25, C34, C35) |
| `JsonText`, `JsonIO`, `JsonText*` proofs, `PropsText` | JSON on bytes, encoder sessions, writers, readers (C26-C29 and the above on bytes) |
| `XmlModel`, `XmlBack`, `XmlSpec`, `XmlLossless`, `XmlOffence`, `Xml*` proofs, `PropsXml`, `PropsXmlChoices` | encoding/xml over trees, hooks of `cyclonedx_xml.go` (C15, C17-C19, C24, C25, C30, C36) |
| `XmlText`, `XmlIO`, `XmlText*` proofs, `XmlWritten`, `PropsXmlText` | XML on bytes, sessions, writers, readers (C17, C19, C25, C26, C29, C30, C36-C38) |
| `JsonAgain`, `JsonTyped`, `Reuse`, `SameOutcome`, `SameXml`, `PropsReuse` | decoding into a BOM that already holds data (C39), repeated keys (C34) |
| `JsonGrammar`, `JsonGrammarProofs`, `PropsGrammar` | the JSON grammar as a relation between texts and trees; the parser agrees with it (C40) |
| `XmlGrammar`, `XmlAlike`, `XmlGrammarProofs`, `PropsXmlGrammar` | XML texts as a relation between texts and trees, and when two trees say the same; the parser reads them, and the decoder does not tell them apart (C41) |
| `SchemaSpec`, `Schemas`, `SchemaProofs`, `PropsSchema` | JSON schemas and conforming documents; the official schemas 1.2 to 1.7, translated by `tools/gen_schema.py`; a checker that compares a schema with the types, proved sound (C42) |
| `SchemaKeep`, `PropsKept` | a second checker, for whether a schema has a place in the types and comes out of them again, proved sound; nothing is lost (C43) |
| `SaidSpec`, `JsonSaid`, `PropsSaid` | what a document says and that another one says it too; nothing is made up by decoding and encoding (C44) |
| `ShapeSpec`, `JsonShape`, `JsonNulls`, `PropsShape` | documents that say only what a schema knows, where null is written; every written document is such a document (C45) |
| `XsdSpec`, `Xsd` (generated by `tools/gen_xsd.py` from bom-1.7.xsd), `XmlShape`, `PropsXsd` | XML documents that say only what the schema knows; every written document is such a document, and where not (C46) |
| `OrderSpec`, `XsdOrder` (generated by `tools/gen_xsd.py --order`), `XmlOrder`, `PropsOrder` | the order and number of elements that the schema asks for; every written document keeps to them, and where not (C47, C48) |
| `SiteSpec`, `SiteProofs`, `PropsSites` | the places of a JSON document where definitions of the schemas apply; what EncodeVersion writes there is known to the schema of the version (C49) |
| `PropsWords` | words that EncodeVersion writes, and those the schema of the version lists (C50) |
| `PropsNeeded` | members that the schema of a version requires, and what EncodeVersion writes (C51) |
| `HeapModel`, `HeapSpec`, `Heap*` proofs, `PropsHeap` | `copy.go` and `convert.go` as programs on memory, interleavings (C01, C32) |
| `ExampleBom` | BOMs for the examples |
| `GoTests` | assertions of the Go unit tests, stated of the model |

The property theorems are exactly the theorems `Cnn_*` of the `Props*` files. A name ending in
`_partial` marks a theorem that proves only part of its property; `_refuted` marks a
counterexample to (a reading of) the property. Beside the theorems stand `Example`s
`*_nonvacuous` that a concrete case meets the hypotheses.

## Representation choices

* Go string = Coq `string` (sequence of bytes). Go `int` = `Z` (range
  hypotheses where overflow matters). `*T` = `option T` (`None` = nil). `[]T`
  = `option (list T)` (`None` = nil slice), so `*[]T` distinguishes nil
  pointer, pointer to nil slice, pointer to empty slice.
* Functions that mutate through a pointer return the new value; aliasing is the
  subject of the separate heap model.
* Errors are values; error texts are kept only where the code inspects them.
* Standard library behaviour (encoding/gob, encoding/json, encoding/xml,
  regexp, net/url, strconv, io) is modelled from its documentation and source
  knowledge as functions of the model, not assumed as axioms.

## Plan per property

| Id | Modelled | How proved |
|---|---|---|
| C01 | heap with locations; copy allocates fresh cells; conversion = any program holding only the copy's root; interleavings of several such programs | separation invariant, induction over steps |
| C02 | `convert` on records, `xmlNamespaces`, `jsonSchemas` | computation + case analysis on version |
| C03 | `convert` | case analysis; list induction for element-wise gates |
| C04, C05 | `convert` with nested recursion on components/services; reachability as an inductive relation in the spec | nested structural induction |
| C06, C07, C08, C09 | `convertLicenses`, `convertHashes`, `convertTools`, `supports*` | list induction against filter/map specs; enum tables as spec |
| C10, C11, C12 | `convert` | equational reasoning by nested induction; counterexamples where false |
| C13 | tree shape projection | nested induction |
| C14 | gob encode/decode composed on the value universe | induction on values; refutation for pointer-to-zero |
| C15 | encoder model with writer trace | case analysis |
| C16 | encoding/json on the value universe + hooks | one generic induction over values against the tag table; canonicalisation function describes every loss |
| C17 | encoding/xml likewise | as C16 |
| C18, C19 | stringer tables, switch, map iteration as arbitrary permutation | case analysis, permutation induction |
| C20-C23 | backtracking regexp matcher on the parsed regexp literal, percent-escaping, Atoi with overflow | equivalence of matcher and grammar, string induction |
| C24, C25 | hooks | case analysis, lifted to any nesting |
| C26 | encoder state machine | induction over call history |
| C27 | JSON printer and parser on bytes | induction over trees |
| C28, C29 | readers/writers as traces | induction over chunks |
| C30 | Dependency hooks | list induction |
| C31 | table of introduction versions x generic predicate over values | nested induction; counterexamples for the edges the converter misses |
| C32 | heap model/partial functions with explicit nil dereference | case analysis, induction |
| C33 | `NewBOM` | computation |
| C34, C35 | the JSON model of C16 composed with itself, and with the model of `copy.go` and `convert.go` | what decoding gives is lossless, then C16 |
| C36 | the XML model of C17 composed with copy and conversion | C17, name space lookup |
| C37 | XML printer and tokenizer on bytes | induction over trees; every tree the encoder writes is a proper document |
| C38 | readers as lists of deliveries; the parser never looks beyond the root element | extension lemma for the parser |
| C39 | the decoders of C16 and C17 take the old value as an argument; the statement goes through the fields of the BOM | lockstep induction over the members (elements) of the document for two old values, which also gives that both fail alike; idempotence of every JSON decoder |
| C40 | the grammar of RFC 8259 as inductive relations between texts and trees, without the parser | soundness by induction on the fuel, completeness by mutual induction on derivations; the fuel lemma of C27 raises the fuel |
| C41 | XML 1.0 with ASCII names as inductive relations between texts and trees; `same_document` on trees, with the list of the element names that hold text | the parser step by step along the derivation; the decoder by induction on the depth limit over every type of the universe, with the list of names checked against all of them |
| C42 | the schemas of /repo/schema as data, `conforms` as an inductive relation on documents | a checker of pairs (schema node, Go type), proved sound by induction on conformance against the decoder for every pair it reaches, then computed on the six schemas |
| C43 | `kept`: what one document says, another one says at the same place (SchemaSpec) | a checker of pairs (schema node, Go type) that also follows the encoder and its omitempty, proved sound by induction on conformance, then computed on the six schemas |
| C44 | `said`: what the written document says, the one that was read says at the same place (SaidSpec) | induction on the tree that is decoded, for every type that is reachable from BOM and every hook; the case of structs from the fact that each field is either untouched or comes from one member |
| C45 | `shaped`: every member is one that the schema defines there and has its type (ShapeSpec) | a checker relates the type table to the schema, with a set of (type, schema) pairs closed under members; it is run on the table by the kernel and proved sound by induction on the value that is encoded |
| C46 | `known`: every attribute and element is one that the type of the element defines, with text only where it has text (XsdSpec); the types are read off bom-1.7.xsd, without order, number and values | as C45: a checker relates the type table and its XML tags to the types of the schema, is run by the kernel and proved sound by induction on the value that is encoded; exceptions are listed, and every one is shown to be needed |
| C47 | `arranged`: of two elements within an element, the first has not the higher rank (OrderSpec); the ranks are read off the sequences and choices of bom-1.7.xsd, with one rank for what may be repeated as a whole | as C46: elements are written in the order of the fields (induction on the value), and a checker compares that order with the ranks for every pair of types that is met |
| C48 | `sparing`: within an element at most one of each name of which the schema has at most one (OrderSpec); the names are read off `maxOccurs` in bom-1.7.xsd | as C47: a field that is no list writes at most one element (induction on the value), and a checker compares the fields that can write several, and pairs of fields with the same name, with the limits |
| C49 | `site`: the objects of a document that a definition of the schemas is for, to any depth; `defined`: the members of a definition (SiteSpec) | induction on `site`: every such object was written for a part of the converted BOM that C03 to C06 speak of; members of fields that are empty then are not written, and the kernel compares all others with the schemas |
| C50 | `conforms` (SchemaSpec), `site` (SiteSpec), `allowed`: the member conforms to what the schema says about it | the component or rating that is written was converted (C07, C09), so its word is in a table of ConvertSpec; the kernel compares the tables with the lists of the schemas |
| C51 | `site` (SiteSpec), `required`: the members that a definition requires | every place comes from a part of the converted BOM that is not nil, so an object is written, with all members without omitempty; the kernel finds all required members among these, but for the version of a component, which convert fills in below 1.4 |

## Statements: recurring hypotheses

* `sane` / `bom_sane`: integers fit 64 bits, floats are floats of their width, the version
  number is one of those that can be written. The first two hold of every Go value (the types
  say so in Go, the model uses `Z` and decimals); they restrict nothing.
* `doc_utf8`, `doc_unique`: a JSON text parses to strings in UTF-8 by itself
  (`parse_utf8`), `doc_unique` excludes duplicate keys.
* `Permutation entries xmlNamespaces`: Go visits a map in any order.
* `honest` writers keep the contract of `io.Writer`.
* Depth: encoding/json and encoding/xml stop at 10000 levels. Theorems without `_partial` do
  not assume a bound: they say what happens when decoding succeeds, or name the depth error
  as the other outcome. The theorems with a bound say that decoding does succeed below it.

## Trusted base

* The kernel of Coq 8.16.1 and its virtual machine (`vm_compute`).
* Axioms: none. `Print Assumptions`, run at the end of every `Props*` file on all its theorems
  together, prints `Closed under the global context`. Loading the standard library brings the
  seven axioms-by-functor `Coq.ssr.ssrunder.Under_rel.*` into the environment; no theorem
  depends on them.
* That the model says what the code does. Every definition cites the lines it models;
  types, tags and constants are generated from the text of `/repo` by `tools/`.
* For C42 and C43, that `tools/gen_schema.py` translates the JSON schemas faithfully. It leaves out
  keywords that only narrow a node and fails on keywords it does not know; where it narrows is
  said in `SchemaSpec.v`.
* That the models of encoding/gob, encoding/json, encoding/xml, regexp, net/url, strconv and
  unicode/utf8 behave as those packages do. They are written down from knowledge of the Go
  sources, as functions, not as axioms. The sandbox has no Go tool chain, so they could not be
  compared with it by running. They were compared with what is recorded of it:
  `tools/snapshots.py` runs the model on every file of `/repo/testdata` (decode, encode indented;
  EncodeVersion to every version) and reproduces all 96 files of `/repo/testdata/snapshots` byte
  for byte, and `GoTests.v` states 95 assertions of the unit tests of the model. These are tests
  of the model, not part of the proofs.

## What is modelled

* `convert.go`: every function, on values and again on memory (loads, stores, allocation,
  nil dereference as failure, interleaving of calls).
* `copy.go`: gob encoding and decoding.
* `cyclonedx_json.go`, `cyclonedx_xml.go`: every MarshalX and UnmarshalX method.
* `encode.go`, `decode.go`: encoders with their options as state machines, writers that fail
  or write short, readers that deliver in pieces or fail, the header and indentation.
* `link.go`, `cyclonedx_string.go`, `cyclonedx.go`: links, versions, media types,
  `NewBOM`, and all types with their tags.
* encoding/json on bytes: scanner, strings and escapes, numbers, duplicate and case-folded
  keys, errors that do not stop decoding, the depth limit.
* encoding/xml on bytes: start and end tags, attributes, text, entities, comments, processing
  instructions, CDATA, directives, name spaces with their prefixes, the depth limit.

## What is not modelled

* `roundtrip_test.go` and other tests; documentation.
* What a failed Decode leaves in its argument.
* The limits of encoding/gob (1 GiB messages); cyclic BOMs, on which gob does not terminate.
* Binary rounding of floats: a float is the shortest decimal that denotes it. Hexadecimal
  floats in XML; XML floats that underflow.
* JSON: reuse of slice memory when a key occurs three times; the exact error values and
  offsets of syntax errors.
* XML: names beyond ASCII; encodings other than UTF-8; syntax errors are reported when the
  reader ends, and a document with both a syntax error and a later decoding error may report
  the other one of the two.
* Memory: slices cover their whole array; maps and strings are values.
* Two goroutines that share one encoder. (Calls on different encoders sharing a BOM are C01.)

## Findings

Deviations from the properties, all proved by counterexamples in the model:

* Conversion to 1.3 and 1.4 leaves licenses within evidence as they are (early return in
  `convertEvidence`): C06_evidence_licenses_refuted, C12_stepwise_refuted.
* 29 positions at which fields newer than the target version survive a downgrade:
  C31_leaks_refuted. For example services and organizations of annotators are visited only
  below 1.6.
* Values that the target version defines but conversion changes (cryptographic-asset at
  1.6 and 1.7, scope excluded at 1.1, data flow descriptions at 1.5, empty types and methods,
  lists of hashes that become empty): C10_refuted.
* The deep copy drops pointers to zero values: `authenticated: false`, `modified: false`,
  score 0 and 22 more fields: C14_copy_refuted, C14_lossy_scalars.
* A pointer to a nil list of hashes or licenses becomes `"hashes": null`; an empty tools
  choice cannot be encoded, and decoding `"tools": {}` produces one: C34_encodes_refuted. A document that repeats a key may
  decode to a BOM that changes when it is encoded and decoded: C34_duplicates_refuted.
* Either-or types that are encoded although both alternatives are set: C24_json_refuted,
  C24_xml_refuted. Decoded with both: C25_json_refuted (duplicate key), C25_xml_refuted.
* Losses: C16_losses_refuted (single signers because of the tag of the embedded struct, nil
  lists, empty states, unknown versions), C17_losses_refuted (signatures, licensing, single
  identity, empty strings in lists, ...).
* `EvidenceData.Classification` is written as `<dataflow>` in XML and lost.
* Depth: 5000 components within each other encode as XML and do not decode
  (C17_deep_refuted), 5001 likewise for compact JSON (C16_deep_refuted), where indented JSON
  does not even encode (C26_same_failure_refuted). A decoded document with a null among the
  components at level 10000 is encoded one level too deep (C34_deep_refuted).
* SetEscapeHTML(false) has no effect within types with a MarshalJSON: C26_escape_refuted.
* XML encoding is not all-or-nothing: the header is written before the BOM is looked at:
  C29_xml_nothing_refuted.
* IsBOMLink accepts links that ParseBOMLink rejects (versions beyond int):
  C21_is_link_but_unparsable_refuted. NewBOMLink panics on typed nil pointers:
  C22_new_link_panics.
* A BOM decoded from XML has no bomFormat, so EncodeVersion to JSON writes `"bomFormat": ""`.
* Any attribute whose local name fits is taken for the field, whatever its prefix.
* JSON EncodeVersion may refuse a BOM that Encode accepts, whatever the version (tools set to
  an empty list, which the copy drops): C15_conversion_refuted. In XML it cannot
  (C15_xml_all_versions).
* Decoding into a BOM that is in use: JSON puts list elements over the old ones, so that old
  descriptions show through (C39_json_fresh_refuted) and an either-or type may end with both
  alternatives and can then not be encoded (C39_json_choice_refuted); XML appends
  (C39_xml_fresh_refuted, C39_xml_twice).
* A root element with a prefix (`<k:bom xmlns:k="...">`) is decoded without a specification
  version, although its name space is the same: C41_xml_prefix_refuted.
* The classification of evidence in declarations is a string in the JSON schemas 1.6 and 1.7,
  but a struct in Go: valid documents are refused (C42_json_classification_refuted).
* The asserter of a patent assertion (1.7) is in the schema an organization, a contact or a
  reference; `AsserterChoice` expects it wrapped in `organization`, `individual` or `ref`.
  References are refused, the others lost (C42_json_asserter_refuted).
* A JSON signature by a single signer (1.4 and later) is lost on decoding: the embedded
  `*JSFSigner` has the tag `json:"-"` (cyclonedx.go:910, C43_json_signer_refuted).
* `modelCard.properties` (1.5 and later) has no field in `MLModelCard` and is lost
  (cyclonedx.go:1065-1070, C43_json_model_refuted).
* `patentAssignee` (1.7) holds organizations and contacts, Go expects them wrapped in
  `organization` or `individual`: they are lost (cyclonedx.go:1226-1229,
  C43_json_assignee_refuted). A patent family with an empty `familyId` is taken for a patent
  and loses its members (C43_json_family_refuted).
* The output of a task has `parameters` (cyclonedx.go:1494), as its input has; no schema
  defines them for outputs: C45_json_output_refuted. Where Go has another form than the schema
  for what it reads (above), it also writes it: C45_json_classification_refuted,
  C45_json_asserter_refuted, C45_json_assignee_refuted.
* XML is written that bom-1.7.xsd does not have, at thirty places (`exceptions` in PropsXsd.v,
  C46_xml_exceptions_refuted). Attribute and element are swapped: `isExternal` of a component
  (cyclonedx.go:272), `url` of SWID (1451), `line`, `offset`, `symbol`, `additionalContext` of an
  occurrence (734-737). A list lacks or has an element around it, or has another name:
  `properties` of the contents of component data (293), `cipherSuites`, `cryptoRefArray`,
  `relatedCryptographicAssets` of a protocol (512-515), `classification` of the data of declared
  evidence (614), `parameters` of a task's output (1494). A responsible party has `contact` where
  the schema has `individual` (298). A reference has text in the schema and is written as an
  empty element with an attribute `ref` (cyclonedx_xml.go:34-36): data sets, crypto assets,
  claims, attestations, citations, patent families and assertions.
* XML elements are written in another order than the sequences of bom-1.7.xsd ask for, so a BOM
  that fills in both is invalid (`misplaced` in PropsOrder.v, C47_xml_misplaced_refuted):
  `author` before `authors` of a component (cyclonedx.go:245-246), its `patentAssertions` and
  `versionRange` after all else (273-274), `manufacture` before `manufacturer` in metadata
  (1048-1049), `trustZone` and `patentAssertions` of a service at the end (1379-1380), `patentRefs`
  before `assertionType` (1781), `algorithmFamily` after `parameterSetIdentifier` (371),
  `certificateExtensions` and `relatedCryptographicAssets` before the dates of a certificate
  (184-185), `properties` of a task before `taskTypes` and the rest (1464).
* XML elements are written once for every item of a list although bom-1.7.xsd allows one, so a list
  of two is invalid (`repeated` in PropsOrder.v, C48_xml_repeated_refuted): `cipherSuites` of a
  protocol (cyclonedx.go:512) and `properties` of data contents (293), whose tags lack the element
  around the items; and `user`, `useCase`, `technicalLimitation`, `performanceTradeoff` of a model
  card (1073-1076), where the schema itself forgot `maxOccurs="unbounded"`.
* Annotations whose subjects, annotator, timestamp or text are empty are written without these members,
  which the schemas require (C51_json_other_places_refuted).
* EncodeVersion writes words that the schema of the version does not list (C50_json_other_words_refuted):
  hash algorithms in external references are not filtered as those of components are, and types of
  external references and aggregates of compositions that no version lists stay as they are. Seven types
  of external references that are newer than the version stay, too (C50_json_unnoticed_refuted).
* EncodeVersion leaves members that the schema of the version does not have (C49_json_early_refuted,
  C49_json_other_places_refuted): signatures of the BOM, of components, services and compositions
  before 1.4, `properties` of the BOM before 1.5 (JSON), `tags` of services before 1.6; at other
  places, `address` and `bom-ref` of a component's supplier, and all members of a service's licenses.
* Integers such as `1.0`, valid for JSON Schema, are refused (C42_json_integers).

Seen while modelling, without a theorem of their own: the `UnmarshalXML` of the IKEv2
transform types reads only the reference if there is one, `DataClassification.UnmarshalXML`
ends only at `</dataflow>`, a JSON null in a list of structs is encoded again as an object,
and a BOM with an unknown version is encoded as `SpecVersion(99)`, which does not decode.

## Wrong programs

`tools/mutate.py` applies an edit to a copy of the model, rebuilds, and lists the theorems that
no longer hold; `seeded/LOG.jsonl` has one line per edit.

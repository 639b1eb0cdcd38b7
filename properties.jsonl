{"id": "C01", "title": "EncodeVersion never modifies the caller's BOM", "statement": "Calling EncodeVersion (JSON or XML, any target version) leaves every part of the BOM the caller passed in, and everything reachable from it, exactly as it was, whatever sharing of pointers exists inside that BOM; the same holds when several EncodeVersion calls on one BOM are interleaved.", "quantifier": "every BOM (every heap shape, including shared sub-objects), every target version, every interleaving of several conversions of one BOM", "why_tests_cant": "A test compares a handful of BOMs before and after; an alias left behind by a shallow copy is only visible for the field that happens to be mutated through it.", "anchors": ["encode.go: BOMEncoder.EncodeVersion, jsonBOMEncoder.EncodeVersion, xmlBOMEncoder.EncodeVersion", "convert.go: BOM.copyAndConvert, BOM.convert", "copy.go: BOM.copy"]}
{"id": "C02", "title": "EncodeVersion stamps consistent version markers", "statement": "The document EncodeVersion produces for version v carries SpecVersion v, the XML namespace of v and the JSON schema URL of v, regardless of which markers the input BOM carried; for a version outside 1.0..1.7 namespace and schema are empty.", "quantifier": "every BOM with arbitrary previous markers, every SpecVersion value (valid or not)", "why_tests_cant": "Tests check the eight valid versions on one fixture with already consistent markers.", "anchors": ["convert.go: BOM.convert", "cyclonedx_xml.go: xmlNamespaces", "cyclonedx_json.go: jsonSchemas"]}
{"id": "C03", "title": "Downgrading removes top-level sections the target version does not know", "statement": "After conversion to v: no serial number/external references below 1.1; no dependencies, metadata, services below 1.2; no compositions below 1.3; no vulnerabilities below 1.4; no annotations/formulation below 1.5; no declarations/definitions and no Dependency.Provides below 1.6; no citations and no patents below 1.7; likewise for the version-gated fields of metadata, compositions, vulnerabilities and dependencies.", "quantifier": "every BOM, every target version", "why_tests_cant": "One fixture exercises each gate with one shape; thresholds off by one for the other shapes stay invisible.", "anchors": ["convert.go: BOM.convert, convertCompositions, convertVulnerabilities"]}
{"id": "C04", "title": "Downgrading strips newer component fields at every nesting depth", "statement": "In the converted BOM every component reachable from the component list or the metadata component, through nested components and through pedigree ancestors, descendants and variants, at any depth, has none of the component fields introduced after v.", "quantifier": "every BOM, every component at every depth of nesting and pedigree, every target version", "why_tests_cant": "Recursion depth and the mix of nesting and pedigree is unbounded; tests nest one or two levels.", "anchors": ["convert.go: componentConverter, recurseComponent, convertEvidence, convertModelCard, convertCryptoProperties"]}
{"id": "C05", "title": "Downgrading strips newer service fields at every nesting depth", "statement": "In the converted BOM every service reachable from the service list, at any depth of nesting, has none of the service fields introduced after v that the converter gates (properties, release notes, trust zone, dataflow details, patent assertions, provider address).", "quantifier": "every BOM, every service at every depth, every target version", "why_tests_cant": "Nesting is unbounded.", "anchors": ["convert.go: serviceConverter, recurseService, convertDataClassifications"]}
{"id": "C06", "title": "License downgrade keeps exactly the expressible licenses", "statement": "Converting a license list to v<1.1 keeps, in order, exactly the named or identified licenses (without text and URL) and drops expressions; below 1.5 no license keeps bom-ref/licensing/properties, below 1.6 no acknowledgement, below 1.7 no expression details; id, name and (from 1.1) expression are never altered.", "quantifier": "every license list of any length and content, every version", "why_tests_cant": "The filter must be right for every position and combination; tests use lists of one or two.", "anchors": ["convert.go: convertLicenses, convertOrganizationalEntity"]}
{"id": "C07", "title": "Hash downgrade is an order-preserving filter", "statement": "Converting the hashes of a component or tool to v keeps exactly the hashes whose algorithm v defines, unchanged and in their original order, and never adds a hash.", "quantifier": "every hash list, every algorithm string, every version", "why_tests_cant": "Lists and algorithm names are unbounded.", "anchors": ["convert.go: convertHashes, SpecVersion.supportsHashAlgorithm"]}
{"id": "C08", "title": "Tool information survives the pre-1.5 flattening", "statement": "Below 1.5 the tools of metadata and of every vulnerability are a flat list: first the legacy tools that were there, then one tool per component, then one per service, in order, each with the name, version and vendor (supplier/provider name, else author) of its source; no components/services remain, so the result is always encodable as a choice.", "quantifier": "every tools choice with any mix and number of tools, components and services", "why_tests_cant": "Mixes of the three lists, their order and multiplicity cannot be enumerated.", "anchors": ["convert.go: convertTools, convertTool, convertComponentToTool, convertServiceToTool"]}
{"id": "C09", "title": "Enumerated values are downgraded to a value the version defines", "statement": "After conversion to v every converted component type, scope, external reference type, composition aggregate, scoring method, hash algorithm, crypto primitive and protocol type is either unchanged and defined in v, or the documented fallback (application, none, other, unknown, other, dropped, none, none).", "quantifier": "every value of each enumerated string (including unknown strings), every version, every occurrence at any depth", "why_tests_cant": "The domain is all strings times all versions.", "anchors": ["convert.go: SpecVersion.supportsComponentType, supportsScope, supportsExternalReferenceType, supportsCompositionAggregate, supportsScoringMethod, supportsHashAlgorithm, supportsCryptoPrimitive, supportsCryptoProtocolType"]}
{"id": "C10", "title": "Conversion does not touch what the target version can express", "statement": "Converting a BOM to a version that defines everything the BOM uses changes nothing but the version markers; in particular converting to 1.7 (or later) is the identity up to markers on BOMs whose enumerated values are defined.", "quantifier": "every BOM, every version", "why_tests_cant": "Preservation quantifies over all fields and all values.", "anchors": ["convert.go: BOM.convert and every convert* helper"]}
{"id": "C11", "title": "Conversion is idempotent", "statement": "Converting an already converted BOM to the same version again changes nothing.", "quantifier": "every BOM, every version", "why_tests_cant": "Must hold for every BOM.", "anchors": ["convert.go: BOM.convert"]}
{"id": "C12", "title": "Stepwise downgrading equals direct downgrading", "statement": "Converting to v2 and then to v1<=v2 gives the same BOM as converting to v1 directly.", "quantifier": "every BOM, every pair of versions v1<=v2", "why_tests_cant": "All BOMs times all version pairs.", "anchors": ["convert.go: BOM.convert, convertEvidence"]}
{"id": "C13", "title": "Conversion neither loses nor invents components, services or vulnerabilities", "statement": "The tree of components (names, order, nesting, pedigree from 1.1) and the tree of services (names, order, nesting) of the converted BOM is the tree of the input whenever the section exists in the target version; same for the list of vulnerabilities, compositions and dependencies and their identifying fields.", "quantifier": "every BOM, every version", "why_tests_cant": "Shape preservation over unbounded trees.", "anchors": ["convert.go: recurseComponent, recurseService, BOM.convert"]}
{"id": "C14", "title": "The internal deep copy is value preserving", "statement": "EncodeVersion first copies the BOM; the copy equals the original in every field the formats can express.", "quantifier": "every BOM", "why_tests_cant": "Loss only shows for particular values (false, 0, empty) in particular positions.", "anchors": ["copy.go: BOM.copy"]}
{"id": "C15", "title": "JSON encoding refuses versions below 1.2 and writes nothing", "statement": "JSON Encode/EncodeVersion return an error exactly for versions below 1.2 (given an otherwise encodable BOM) and in that case write no byte; MediaType JSON.WithVersion refuses exactly the same versions; XML accepts all versions.", "quantifier": "every BOM, every version value, every writer", "why_tests_cant": "All version values and writers.", "anchors": ["encode.go: jsonBOMEncoder.Encode", "cyclonedx.go: MediaType.WithVersion"]}
{"id": "C16", "title": "JSON round trip", "statement": "If a BOM encodes as JSON, decoding the result into a fresh BOM succeeds and gives back the BOM, except for an explicit list of losses (XML-only fields, empty choices, nil lists behind pointers, embedded signer).", "quantifier": "every BOM", "why_tests_cant": "All BOM values of unbounded size; tests use fixtures.", "anchors": ["encode.go: jsonBOMEncoder.Encode", "decode.go: jsonBOMDecoder.Decode", "cyclonedx_json.go: all MarshalJSON/UnmarshalJSON", "cyclonedx.go: json struct tags"]}
{"id": "C17", "title": "XML round trip", "statement": "If a BOM encodes as XML, decoding the result into a fresh BOM succeeds and gives back the BOM, except for an explicit list of losses.", "quantifier": "every BOM", "why_tests_cant": "All BOM values of unbounded size.", "anchors": ["encode.go: xmlBOMEncoder.Encode", "decode.go: xmlBOMDecoder.Decode", "cyclonedx_xml.go: all MarshalXML/UnmarshalXML", "cyclonedx.go: xml struct tags"]}
{"id": "C18", "title": "SpecVersion text forms are a bijection on valid versions", "statement": "String/MarshalJSON/MarshalXML of each valid SpecVersion decode back to it, distinct versions have distinct texts, and every other text is rejected with ErrInvalidSpecVersion leaving the value unchanged; out-of-range versions print a text that no decoder accepts.", "quantifier": "every string, every int", "why_tests_cant": "All strings and ints.", "anchors": ["cyclonedx_string.go: SpecVersion.String", "cyclonedx_json.go: SpecVersion.MarshalJSON/UnmarshalJSON", "cyclonedx_xml.go: SpecVersion.MarshalXML/UnmarshalXML"]}
{"id": "C19", "title": "XML namespace determines the SpecVersion deterministically", "statement": "After XML decoding SpecVersion is v exactly when the document's xmlns is the namespace of v; for any other namespace SpecVersion is left as it was; the result does not depend on Go's random map iteration order.", "quantifier": "every namespace string, every permutation of the version map, every previous SpecVersion", "why_tests_cant": "Map order is random per run.", "anchors": ["decode.go: xmlBOMDecoder.Decode", "cyclonedx_xml.go: xmlNamespaces"]}
{"id": "C20", "title": "BOM-Link round trip", "statement": "For every link built by NewBOMLink, ParseBOMLink(link.String()) returns exactly that link, whatever bytes the reference contains, and distinct links have distinct strings.", "quantifier": "every valid serial, every positive int, every non-empty reference byte string", "why_tests_cant": "References are arbitrary byte strings.", "anchors": ["link.go: NewBOMLink, BOMLink.String, ParseBOMLink"]}
{"id": "C21", "title": "IsBOMLink decides exactly the BOM-Link grammar", "statement": "IsBOMLink(s) holds iff s is urn:cdx:<lower-case uuid>/<positive decimal>[#<non-empty reference over the allowed characters>]; ParseBOMLink succeeds only on such strings, and fails on them only if the version overflows int or the reference has a malformed percent escape.", "quantifier": "every string", "why_tests_cant": "All strings.", "anchors": ["link.go: bomLinkRegex, IsBOMLink, ParseBOMLink"]}
{"id": "C22", "title": "NewBOMLink accepts exactly valid input", "statement": "NewBOMLink succeeds iff the serial is urn:uuid:<lower-case uuid>, the version is positive, and the element is absent or a component/service/vulnerability (or pointer to one) with a non-empty bom-ref; on success the link carries exactly these three values.", "quantifier": "every serial string, every int, every element", "why_tests_cant": "All strings, ints and elements.", "anchors": ["link.go: NewBOMLink", "cyclonedx.go: serialNumberRegex"]}
{"id": "C23", "title": "Parsed BOM-Links are valid and canonical", "statement": "Whatever ParseBOMLink returns is a link NewBOMLink could have built (valid serial, positive version), and its String is again a BOM-Link that parses to the same link; its String equals the input whenever the input's reference is in the canonical escaped form.", "quantifier": "every string", "why_tests_cant": "All strings.", "anchors": ["link.go: ParseBOMLink, BOMLink.String"]}
{"id": "C24", "title": "Either-or types are never encoded with both alternatives", "statement": "Encoding a value in which both alternatives of an either-or type are set fails instead of silently dropping one: tools, evidence identity, certificate state, certificate extension, asserter, license id/name, license/expression, environment variable.", "quantifier": "every value, wherever it is nested in the BOM, both formats", "why_tests_cant": "All positions and contents.", "anchors": ["cyclonedx_json.go: MarshalJSON of the choice types", "cyclonedx_xml.go: MarshalXML of the choice types"]}
{"id": "C25", "title": "Either-or types decode to at most one alternative", "statement": "Whatever document is decoded, a decoded tools choice, evidence identity choice, dataset choice, certificate state/extension, patent choice or environment variable has at most one alternative set.", "quantifier": "every JSON/XML document", "why_tests_cant": "All documents.", "anchors": ["cyclonedx_json.go: UnmarshalJSON of the choice types", "cyclonedx_xml.go: UnmarshalXML of the choice types"]}
{"id": "C26", "title": "Encoder options: last setting wins and never affects content", "statement": "After any sequence of SetPretty/SetEscapeHTML calls the encoder behaves as if only the last call of each kind was made; SetEscapeHTML is a no-op for XML; documents written under any two option settings decode to the same BOM.", "quantifier": "every history of option calls, every BOM", "why_tests_cant": "Histories are unbounded.", "anchors": ["encode.go: SetPretty, SetEscapeHTML, Encode"]}
{"id": "C27", "title": "JSON text is faithful", "statement": "The JSON text written for any document tree, compact or indented, with or without HTML escaping, parses back to exactly that tree; with HTML escaping on, the output contains no '<', '>' or '&'.", "quantifier": "every JSON tree with valid UTF-8 strings, every option setting", "why_tests_cant": "All strings and nesting depths.", "anchors": ["encode.go: jsonBOMEncoder.Encode (json.Encoder with SetEscapeHTML/SetIndent)", "decode.go: jsonBOMDecoder.Decode"]}
{"id": "C28", "title": "Decoding does not depend on how the reader delivers bytes", "statement": "The result of JSON Decode depends only on the concatenation of the bytes delivered, not on the sizes of the individual reads; a reader error is reported and never yields a decoded BOM.", "quantifier": "every chunking of every byte sequence, every error position", "why_tests_cant": "All read schedules.", "anchors": ["decode.go: jsonBOMDecoder.Decode"]}
{"id": "C29", "title": "Write failures are reported", "statement": "If the writer fails or the marshalling fails, Encode returns an error; JSON output is all-or-nothing with respect to marshalling errors (a BOM that cannot be marshalled causes no byte to be written), XML output starts with the XML header; Encode returns nil only if the whole document was accepted by the writer.", "quantifier": "every failure point of the writer, every BOM", "why_tests_cant": "All failure points.", "anchors": ["encode.go: jsonBOMEncoder.Encode, xmlBOMEncoder.Encode"]}
{"id": "C30", "title": "Dependency graph survives XML", "statement": "A dependency with its dependsOn/provides lists is restored exactly by an XML round trip (empty lists become absent), for any list contents.", "quantifier": "every dependency", "why_tests_cant": "Lists and strings unbounded.", "anchors": ["cyclonedx_xml.go: Dependency.MarshalXML/UnmarshalXML"]}
{"id": "C31", "title": "Downgraded documents contain no newer fields anywhere", "statement": "In the BOM produced for v no field introduced after v is set, anywhere in the document.", "quantifier": "every BOM, every field of every nested object, every version", "why_tests_cant": "The claim covers every position; a missed edge is invisible unless a test populates it.", "anchors": ["convert.go: BOM.convert and every convert* helper"]}
{"id": "C32", "title": "Conversion never dereferences nil", "statement": "Conversion and copying never panic, whatever combination of absent (nil) and present parts the BOM has.", "quantifier": "every BOM, every combination of nil pointers and nil/empty slices, every version", "why_tests_cant": "Exponentially many nil patterns.", "anchors": ["convert.go: BOM.convert and every convert* helper"]}
{"id": "C33", "title": "NewBOM is a valid starting point", "statement": "NewBOM returns a BOM with version 1, format CycloneDX and mutually consistent newest version markers; converting it to its own version is the identity.", "quantifier": "single value; all later conversions of it", "why_tests_cant": "Consistency with tables that change independently.", "anchors": ["cyclonedx.go: NewBOM", "convert.go: BOM.convert"]}
{"id": "C34", "title": "Decoding is stable", "statement": "A BOM obtained by decoding any document, if it can be encoded at all, is decoded to exactly the same BOM again from its encoding.", "quantifier": "every document without duplicate keys, both HTML escaping settings", "why_tests_cant": "Needs an argument about every type, hook and string in every document.", "anchors": ["decode.go: jsonBOMDecoder.Decode", "encode.go: jsonBOMEncoder.Encode", "cyclonedx_json.go"]}
{"id": "C35", "title": "EncodeVersion from end to end", "statement": "What EncodeVersion writes is decoded to the BOM that converting a copy of the input to that version gives, exactly if that converted copy has nothing JSON cannot carry.", "quantifier": "every BOM, every version", "why_tests_cant": "Composes copy, conversion, encoding and decoding over all BOMs.", "anchors": ["encode.go: jsonBOMEncoder.EncodeVersion", "copy.go", "convert.go", "decode.go"]}
{"id": "C36", "title": "XML EncodeVersion end to end", "statement": "What EncodeVersion writes as XML is decoded to the BOM that converting a copy of the input to that version gives, exactly if that converted copy has nothing XML cannot carry; the decoded SpecVersion and namespace are in any case those of the version asked for.", "quantifier": "every BOM, every version, compact and pretty output, every map iteration order of the decoder", "why_tests_cant": "A test fixes a BOM and a version; the chain copy, convert, encode, decode has to agree for every BOM and every version, and the decoder's lookup of the version iterates a Go map in random order.", "anchors": ["encode.go:xmlBOMEncoder.EncodeVersion", "decode.go:xmlBOMDecoder.Decode", "convert.go:BOM.convert", "cyclonedx_xml.go"]}
{"id": "C37", "title": "The XML text is faithful", "statement": "Whatever bytes the strings of a BOM hold, what Encode writes as XML is valid UTF-8 that starts with the XML header and holds one element; reading it gives back exactly the elements, attributes and texts that were to be written. Markup characters, quotes, line ends and tabs survive, and no string can end its element or attribute or add another one.", "quantifier": "every BOM that can be encoded, every byte string in it, compact and pretty output", "why_tests_cant": "Injection and escaping bugs depend on the characters and on where they stand; a test tries a few strings in a few places.", "anchors": ["encode.go: xmlBOMEncoder.Encode", "cyclonedx_xml.go"]}
{"id": "C38", "title": "XML decoding reads exactly one root element from the stream", "statement": "Decode of XML gives the same result however the reader cuts the document into pieces, and whatever the reader delivers after the root element, even an error. A document that was cut off anywhere is never decoded to a BOM: while the reader may go on the decoder waits, and when it ends there is an error.", "quantifier": "every encoded document, every place to cut it, every sequence of reads, everything that may follow", "why_tests_cant": "The cuts, the sequences of reads and what follows are unbounded.", "anchors": ["decode.go: xmlBOMDecoder.Decode"]}
{"id": "C39", "title": "Decoding into a BOM that already holds data changes only what the document mentions", "statement": "After a successful Decode into a BOM that was in use, every field of the BOM that the document does not mention has its old value, and every other field depends only on the document and on the old value of that field. Whether Decode succeeds, and the error if it fails, depends on the document only. JSON: a list that the document mentions has as many members as the document gives it, null makes it nil, and decoding a document without repeated keys once more changes nothing. XML: lists keep their old members and the members of the document are appended; a document in an unknown name space keeps the old specification version.", "quantifier": "every document, every BOM decoded into, every field of the BOM", "why_tests_cant": "The project's tests always decode into a fresh BOM; what is left of old data depends on every combination of old BOM and document.", "anchors": ["decode.go: jsonBOMDecoder.Decode, xmlBOMDecoder.Decode", "cyclonedx.go: BOM", "cyclonedx_json.go: UnmarshalJSON methods", "cyclonedx_xml.go: UnmarshalXML methods"]}
{"id": "C40", "title": "JSON decoding takes exactly the texts of the JSON grammar", "statement": "Decode of JSON accepts only texts of the grammar of RFC 8259: one value with nothing but white space around it, no commas at the end of lists, no leading zeros, no control characters or unknown escapes in strings. Every other input is a syntax error. A text stands for at most one tree, the result depends on that tree alone and not on white space or on how characters are escaped, and everything that Encode writes is such a text.", "quantifier": "every byte string a reader delivers, every BOM decoded into, every BOM encoded with any options", "why_tests_cant": "There are infinitely many texts, well-formed or not, and infinitely many ways to lay out each document.", "anchors": ["decode.go: jsonBOMDecoder.Decode", "encode.go: jsonBOMEncoder.Encode"]}
{"id": "C41", "title": "XML decoding does not depend on how a document is spelled", "statement": "Two XML documents that say the same are decoded to the same BOM or to the same error, into whatever BOM. They say the same if their elements have, one by one, the same local names, attributes and texts: comments, processing instructions, the XML declaration, CDATA sections, character references, the kind of quotation marks, the order of attributes, white space within tags, line ends, the two forms of empty elements, prefixes of elements, what follows the root element, and the indentation of elements that have no text do not matter. Every well-formed document (with names in ASCII, in UTF-8) is read as the tree it stands for, and everything that Encode writes is such a document.", "quantifier": "every text of the XML grammar, every pair of texts that say the same, every BOM decoded into, every BOM encoded with any options, every way a reader delivers the text", "why_tests_cant": "There are infinitely many documents and infinitely many ways to spell each of them; the project's tests decode a few dozen files in one layout.", "anchors": ["decode.go: xmlBOMDecoder.Decode", "encode.go: xmlBOMEncoder.Encode", "cyclonedx_xml.go: UnmarshalXML methods"]}
{"id": "C42", "title": "JSON documents that conform to the official schemas are decoded", "statement": "A JSON document that conforms to the official CycloneDX schema of some version (1.2 to 1.7) and names an existing version is decoded without error, into whatever BOM, in whatever layout and in whatever pieces a reader delivers it, provided its integers are written without fraction or exponent and fit in 64 bits, its numbers are within the range of float32 and it has at most 10000 levels.", "quantifier": "every document that conforms to the schema, every version 1.2 to 1.7, every BOM decoded into, every layout of the text and every way a reader delivers it", "why_tests_cant": "The schemas describe infinitely many documents with hundreds of kinds of members in many combinations; the project's tests decode a few dozen example files.", "anchors": ["decode.go: jsonBOMDecoder.Decode", "cyclonedx.go: struct types and their json tags", "cyclonedx_json.go: UnmarshalJSON methods", "schema/bom-1.2-strict.schema.json .. schema/bom-1.7.schema.json, schema/jsf-0.82.schemax.json"]}
{"id": "C43", "title": "Nothing that a conforming JSON document says is lost", "statement": "When a JSON document that conforms to the official CycloneDX schema of its version is decoded and the BOM is encoded again, with whatever options, everything the document says is said in the output at the same place: every string and boolean is the same, every number has the same value, every list has the same elements in the same order; only members that say nothing (empty strings, false, zero, empty lists, objects of such) may be missing.", "quantifier": "every document that conforms to the schema, every version 1.2 to 1.7, every layout and delivery of the text, every option of the encoder", "why_tests_cant": "A type or a tag that does not fit loses data silently, for one member out of hundreds and only in some combinations; the project's round trip tests decode a few dozen example files and compare with snapshots of what the program wrote.", "anchors": ["decode.go: jsonBOMDecoder.Decode", "encode.go: jsonBOMEncoder.Encode", "cyclonedx.go: struct types and their json tags", "cyclonedx_json.go: MarshalJSON and UnmarshalJSON methods", "schema/bom-1.2-strict.schema.json .. schema/bom-1.7.schema.json, schema/jsf-0.82.schemax.json"]}
{"id": "C44", "title": "Decoding and encoding JSON makes nothing up", "statement": "When a JSON document is decoded and the BOM is encoded again, with whatever options, everything the output says was said in the document at the same place: every string and boolean that is not empty or false is there, every number has the same value, every list has the same length and order, and names of members agree up to case. This holds for every document that is decoded, conforming or not, in which no object has two members with the same name up to case.", "quantifier": "every JSON document without repeated names that is decoded without error, every layout and delivery of the text, every option of the encoder", "why_tests_cant": "The program has hand-written conversions for tools, licences, evidence identities, environment variables, data references, patents and organizational choices; a conversion that fills in a wrong member, doubles an element or moves it elsewhere does so only for some inputs, and the snapshots of the tests only hold what the program wrote before.", "anchors": ["decode.go: jsonBOMDecoder.Decode", "encode.go: jsonBOMEncoder.Encode", "cyclonedx.go: struct types and their json tags", "cyclonedx_json.go: MarshalJSON and UnmarshalJSON methods"]}
{"id": "C45", "title": "What is written as JSON is known to the official schema", "statement": "Whatever BOM is encoded as JSON, every member of every object that is written is one that the official CycloneDX 1.7 schema defines at that place, under exactly that name, and every value has the type the schema asks for there: a string, a whole number, a number, a boolean, a list or an object; no nulls are written. Which members are required and which words an enumeration allows is up to the caller.", "quantifier": "every BOM value the encoder accepts, however it was built, every option of the encoder", "why_tests_cant": "The schema validation of the tests sees the members that occur in a few example documents. A tag with a misspelt name, a type with a field too many or a hand-written conversion that wraps a value in one object too many only shows for BOMs that fill in that field, and there are hundreds of fields at thousands of places.", "anchors": ["encode.go: jsonBOMEncoder.Encode", "cyclonedx.go: struct types and their json tags", "cyclonedx_json.go: MarshalJSON methods", "schema/bom-1.7.schema.json"]}
{"id": "C46", "title": "What is written as XML is known to the official schema", "statement": "Whatever BOM is encoded as XML, every element and every attribute that is written is one that the official CycloneDX 1.7 XML schema defines at that place, under exactly that name: an attribute where the schema has an attribute, an element where it has an element, and text only where it has text. Order, number and the values themselves are up to the caller.", "quantifier": "every BOM value the encoder accepts, however it was built, every option of the encoder", "why_tests_cant": "The schema validation of the tests sees the elements that occur in a few example documents. A tag with a misspelt name, an element that should be an attribute or a list without the elements around its members only shows for BOMs that fill in that field, and there are hundreds of fields at thousands of places.", "anchors": ["encode.go: xmlBOMEncoder.Encode", "cyclonedx.go: struct types and their xml tags", "cyclonedx_xml.go: MarshalXML methods", "schema/bom-1.7.xsd"]}
{"id": "C47", "title": "What is written as XML is in the order of the official schema", "statement": "Whatever BOM is encoded as XML, within every element that is written the elements come in the order in which the official CycloneDX 1.7 XML schema has them: an element of a sequence never comes after one that the sequence has later. (XML schema sequences are ordered: a document with the right elements in the wrong order is invalid.)", "quantifier": "every BOM value the encoder accepts, however it was built, every option of the encoder", "why_tests_cant": "Two fields in the wrong order only show for a BOM that fills in both, and with hundreds of fields in over a hundred types no set of example documents has all pairs; the test documents validate although fields are out of order.", "anchors": ["encode.go: xmlBOMEncoder.Encode", "cyclonedx.go: order of the fields of the struct types", "cyclonedx_xml.go: MarshalXML methods", "schema/bom-1.7.xsd: xs:sequence"]}
{"id": "C48", "title": "What is written as XML has no element more often than the official schema allows", "statement": "Whatever BOM is encoded as XML, within every element that is written there is at most one element of each name of which the official CycloneDX 1.7 XML schema allows at most one.", "quantifier": "every BOM value the encoder accepts, however it was built, with lists of any length and any nesting, every option of the encoder", "why_tests_cant": "An element that is written once for every item of a list, where the schema has one element around the items, only shows when a list at that place has two items or more; no set of example documents fills every list of every type.", "anchors": ["encode.go: xmlBOMEncoder.Encode", "cyclonedx.go: xml tags of the fields of the struct types", "cyclonedx_xml.go: MarshalXML methods", "schema/bom-1.7.xsd: maxOccurs"]}
{"id": "C49", "title": "What is written as JSON for an old version is known to the schema of that version", "statement": "Whatever BOM is encoded as JSON with EncodeVersion for a version from 1.2 to 1.7, every member that is written is one that the official CycloneDX schema of that version defines at its place: in the document itself, its metadata, every component at any depth (nested, and in pedigrees), its evidence, its licenses and external references, every service at any depth, dependencies, compositions, vulnerabilities, suppliers and providers.", "quantifier": "every BOM value, with components and services nested to any depth, every version from 1.2 to 1.7, every option of the encoder", "why_tests_cant": "Whether a field is left out depends on the version, the type and the way to the place; a field that was forgotten only shows in a test document that sets it, at that place, for an older version.", "anchors": ["encode.go: jsonBOMEncoder.EncodeVersion", "convert.go: convert, convertComponents, convertServices, convertLicenses, convertExternalReferences", "schema/bom-1.2-strict.schema.json ... schema/bom-1.7.schema.json: properties"]}
{"id": "C50", "title": "Words written as JSON for a version are among those its schema lists", "statement": "Whatever BOM is encoded as JSON with EncodeVersion for a version from 1.2 to 1.7, wherever the official CycloneDX schema of that version lists the words a member may have, the word that is written is one of them: the type and the scope of every component at any depth (nested, and in pedigrees), the algorithm of every hash of a component, the method of every rating of a vulnerability, and likewise for all other such members.", "quantifier": "every BOM value with any text in these fields, components nested to any depth, every version from 1.2 to 1.7, every option of the encoder", "why_tests_cant": "The fields are plain strings, so that any text can be in them, and which words are known differs between versions; a test only covers the words and the places it has.", "anchors": ["encode.go: jsonBOMEncoder.EncodeVersion", "convert.go: convert, convertComponents, convertHashes, convertVulnerabilities", "schema/bom-1.2-strict.schema.json ... schema/bom-1.7.schema.json: enum"]}
{"id": "C51", "title": "What is written as JSON for a version has the members its schema requires", "statement": "Whatever BOM is encoded as JSON with EncodeVersion for a version from 1.2 to 1.7, every object that is written has the members that the official CycloneDX schema of that version requires at its place, even if the BOM leaves the fields empty: the format, specification version and version of the document; the type, the name and before 1.4 the version of every component at any depth; the name of every service at any depth; the url and type of references, the ref of dependencies, the aggregate of compositions. Nowhere is null written in place of such an object.", "quantifier": "every BOM value with any fields empty, components and services nested to any depth, every version from 1.2 to 1.7, every option of the encoder", "why_tests_cant": "What is required differs between versions and places, and a member is only missing if the field is empty, at a place and for a version that a test would have to combine.", "anchors": ["encode.go: jsonBOMEncoder.EncodeVersion", "convert.go: convert, convertComponents", "cyclonedx.go: struct tags (omitempty)", "schema/bom-1.2-strict.schema.json ... schema/bom-1.7.schema.json: required"]}

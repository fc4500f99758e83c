{"id": "C01", "title": "Listed components are exactly the reachable packages", "statement": "With the default 'all dependencies' setting, the SBOM generated for a workspace member lists, as components plus the described root, exactly the packages that can be reached from that member in the resolve graph through dependency edges that are not development-only (through normal edges only when build dependencies are excluded); each package appears exactly once and the member itself is not repeated among the components.", "quantifier": "every cargo metadata document (any number of packages, any edges, cycles included), every workspace member, both settings of the build-dependency switch", "why_tests_cant": "reachability over arbitrary, possibly cyclic graphs cannot be enumerated; a fixture exercises one graph", "anchors": ["cargo-cyclonedx/src/generator.rs:all_dependencies", "cargo-cyclonedx/src/generator.rs:filtered_dependencies", "cargo-cyclonedx/src/generator.rs:create_bom"]}
{"id": "C02", "title": "Top-level mode lists exactly the direct dependencies", "statement": "With the 'top level' setting, the SBOM lists exactly the direct non-development (or normal-only) dependencies of the member and records no dependency edges for anything but the member.", "quantifier": "every metadata document, member and build-dependency switch", "why_tests_cant": "ranges over all graphs", "anchors": ["cargo-cyclonedx/src/generator.rs:top_level_dependencies"]}
{"id": "C03", "title": "The dependency section is exact and closed", "statement": "The SBOM's dependency section has one entry per retained package, each entry lists exactly the retained edges of that package in the order cargo metadata gives them, and every reference in it names the described root or a listed component: there is no dangling reference.", "quantifier": "every metadata document whose nodes refer to existing packages", "why_tests_cant": "closure of references is a global property of arbitrary graphs", "anchors": ["cargo-cyclonedx/src/generator.rs:create_dependencies", "cargo-cyclonedx/src/generator.rs:add_filtered_dependencies"]}
{"id": "C04", "title": "Graph traversals terminate and do not panic", "statement": "For every resolve graph, including cyclic ones, the dependency traversal and the dependency-kind analysis finish; and when the metadata is closed (every referenced package id has a node and a package) neither panics.", "quantifier": "every finite resolve graph and root", "why_tests_cant": "non-termination cannot be observed by a finite test and cycles come in unboundedly many shapes", "anchors": ["cargo-cyclonedx/src/generator.rs:index_dep_kinds", "cargo-cyclonedx/src/generator.rs:all_dependencies"]}
{"id": "C05", "title": "Dependency kind is the strongest over all paths", "statement": "The kind attributed to a package is the maximum, over all dependency paths from the described root, of the weakest edge on the path (development < build < normal); hence a listed component has scope 'required' exactly when it can be reached from the root by normal edges only, and 'excluded' otherwise.", "quantifier": "every resolve graph (cycles and shared subtrees included), every root, every package", "why_tests_cant": "the number of paths is exponential or infinite, so exhaustive testing is impossible", "anchors": ["cargo-cyclonedx/src/generator.rs:index_dep_kinds", "cargo-cyclonedx/src/generator.rs:create_component"]}
{"id": "C06", "title": "Excluding build dependencies leaves only required components", "statement": "When build dependencies are excluded, every listed component is reachable from the root through normal edges only and is marked 'required'.", "quantifier": "every metadata document", "why_tests_cant": "ranges over all graphs; combines two separate traversals", "anchors": ["cargo-cyclonedx/src/generator.rs:filtered_dependencies", "cargo-cyclonedx/src/generator.rs:index_dep_kinds"]}
{"id": "C07", "title": "Output does not depend on the order of cargo metadata", "statement": "Permuting the package list and the node list of the metadata document does not change the generated SBOM; components appear in increasing order of package id. Permuting the dependencies inside the nodes and the kinds of a dependency changes nothing but the order of the names inside the dependency lists of the SBOM.", "quantifier": "every metadata document with distinct ids and every permutation of its lists", "why_tests_cant": "the number of permutations is factorial", "anchors": ["cargo-cyclonedx/src/generator.rs:index_packages", "cargo-cyclonedx/src/generator.rs:index_resolve", "cargo-cyclonedx/src/generator.rs:create_bom"]}
{"id": "C08", "title": "Reproducible output under SOURCE_DATE_EPOCH", "statement": "When SOURCE_DATE_EPOCH is set, the generated SBOM has no serial number and depends only on the metadata, the configuration and the lockfile: neither the clock nor the random UUID source influences it.", "quantifier": "every metadata document, configuration, clock value and random value", "why_tests_cant": "quantifies over all clock readings and random draws", "anchors": ["cargo-cyclonedx/src/generator.rs:create_bom", "cargo-cyclonedx/src/generator.rs:create_metadata"]}
{"id": "C09", "title": "Generated SBOMs have unique and resolvable references", "statement": "Every SBOM the generator produces from closed metadata whose package ids do not collide with generated target references passes the library's own bom-ref uniqueness check and dangling-reference check.", "quantifier": "every metadata document meeting the hypotheses, every configuration", "why_tests_cant": "relates two programs (generator and validator) over all inputs", "anchors": ["cargo-cyclonedx/src/generator.rs:create_bom", "cyclonedx-bom/src/models/bom.rs:validate_version"]}
{"id": "C10", "title": "Component contents come from the right package", "statement": "Each listed component carries the name, version and package id of the package it stands for, at most one license entry (the declared license when there is one, otherwise the license file), and a SHA-256 hash exactly when the lockfile records a checksum for the same name, version and source.", "quantifier": "every package, lockfile and license parse mode", "why_tests_cant": "must hold for every metadata/lockfile combination, including duplicates", "anchors": ["cargo-cyclonedx/src/generator.rs:create_component", "cargo-cyclonedx/src/generator.rs:get_licenses", "cargo-cyclonedx/src/generator.rs:get_hashes", "cargo-cyclonedx/src/generator.rs:package_hashes"]}
{"id": "C11", "title": "Per-artifact SBOMs differ only in the described artifact", "statement": "Describing binaries or all targets yields one SBOM per selected target of the package; each is the crate SBOM with only the described component's name, type and purl replaced by the target's and its sub-components removed; components, dependencies and metadata are unchanged, and the split never panics.", "quantifier": "every generated SBOM, every set of targets", "why_tests_cant": "ranges over all target lists", "anchors": ["cargo-cyclonedx/src/generator.rs:per_artifact_sboms"]}
{"id": "C12", "title": "Output files stay beside the manifest and do not clobber each other", "statement": "Each SBOM is written in the directory of the package's manifest with the extension of the chosen format, and distinct artifacts of one package get distinct files, for every filename setting the command line can produce.", "quantifier": "every package, configuration and artifact list", "why_tests_cant": "name collisions depend on arbitrary user-chosen strings", "anchors": ["cargo-cyclonedx/src/generator.rs:filename", "cargo-cyclonedx/src/generator.rs:write_to_files", "cargo-cyclonedx/src/config.rs:FilenameOverride"]}
{"id": "C13", "title": "Command-line settings take precedence over the environment", "statement": "A target given on the command line is the target used, whatever CARGO_BUILD_TARGET contains.", "quantifier": "every command line and environment", "why_tests_cant": "precedence must hold for every pair of settings", "anchors": ["cargo-cyclonedx/src/config.rs:merge", "cargo-cyclonedx/src/main.rs:resolve_config"]}
{"id": "C14", "title": "Configuration merging is a lawful override", "statement": "Merging configurations is associative, the empty configuration is neutral, a setting absent on one side is taken from the other, nothing is invented, and the accepted license names are united.", "quantifier": "every triple of configurations", "why_tests_cant": "algebraic law over all triples", "anchors": ["cargo-cyclonedx/src/config.rs:merge"]}
{"id": "C15", "title": "Feature lists are split completely", "statement": "Feature arguments are split at commas and spaces: no resulting feature name is empty or contains a separator, and the non-separator characters of the arguments are all kept in order.", "quantifier": "every list of argument strings", "why_tests_cant": "ranges over all strings", "anchors": ["cargo-cyclonedx/src/cli.rs:as_config"]}
{"id": "C16", "title": "The nearest lockfile is used", "statement": "The lockfile consulted is the Cargo.lock in the manifest's directory or, failing that, in its closest ancestor that has one; an error is reported exactly when no ancestor has one.", "quantifier": "every path and every file-system content", "why_tests_cant": "ranges over all directory trees", "anchors": ["cargo-cyclonedx/src/generator.rs:locate_cargo_lock"]}
{"id": "C17", "title": "Git source URLs are rewritten faithfully", "statement": "The vcs_url qualifier of a git dependency's purl is the source URL without its query, followed by '@' and the commit when there is one, and else the first branch, tag or revision of the query.", "quantifier": "every source string of the forms cargo produces", "why_tests_cant": "ranges over all strings", "anchors": ["cargo-cyclonedx/src/purl.rs:source_to_vcs_url"]}
{"id": "C18", "title": "Author strings are parsed faithfully", "statement": "An author string 'Name <email>' yields that name (trimmed) and email; a string without angle brackets yields only a name; strings that do not have this shape are kept whole as the name; an author is dropped only if its email part is invalid.", "quantifier": "every author string", "why_tests_cant": "ranges over all strings", "anchors": ["cargo-cyclonedx/src/generator.rs:parse_author", "cargo-cyclonedx/src/generator.rs:create_authors"]}
{"id": "C19", "title": "External references are complete and ordered", "statement": "A component's external references are exactly the valid ones among documentation, homepage, links and repository, in that order and with types documentation, website, other and vcs; the list is omitted exactly when none is valid.", "quantifier": "every package and every notion of valid URI", "why_tests_cant": "ranges over all combinations", "anchors": ["cargo-cyclonedx/src/generator.rs:get_external_references"]}
{"id": "C20", "title": "Described targets have unique references and known kinds", "statement": "The sub-components generated for a package's targets have pairwise distinct references, distinct from the package's own, and the target-kind table has an entry for each of them, so later lookups cannot panic.", "quantifier": "every package and target list", "why_tests_cant": "unbounded target lists", "anchors": ["cargo-cyclonedx/src/generator.rs:create_toplevel_component"]}
{"id": "C21", "title": "Normalized strings are normal", "statement": "Constructing a normalized string from any text gives text without carriage returns, line feeds and tabs, which passes validation; construction is idempotent and leaves already valid text unchanged.", "quantifier": "every string", "why_tests_cant": "ranges over all strings", "anchors": ["cyclonedx-bom/src/external_models/normalized_string.rs:NormalizedString::new", "cyclonedx-bom/src/external_models/normalized_string.rs:validate_normalized_string"]}
{"id": "C22", "title": "Validation detects duplicate bom-refs", "statement": "Validation reports a duplicate-reference error if and only if some bom-ref is carried by two of the described component, the components, the services (all nested ones included) and the vulnerabilities.", "quantifier": "every BOM with any nesting depth", "why_tests_cant": "unbounded nesting and list sizes", "anchors": ["cyclonedx-bom/src/models/bom.rs:validate_version", "cyclonedx-bom/src/models/bom.rs:BomReferencesContext"]}
{"id": "C23", "title": "Validation detects dangling references", "statement": "Validation reports a dangling reference for a dependency, dependency target, composition assembly or composition dependency if and only if it names no bom-ref carried in the BOM.", "quantifier": "every BOM", "why_tests_cant": "unbounded lists", "anchors": ["cyclonedx-bom/src/models/bom.rs:validate_version"]}
{"id": "C24", "title": "Validation never panics", "statement": "Validating any BOM value for any specification version returns a result; the internal 'attempt to replace' panics of the result builder are unreachable.", "quantifier": "every BOM value and version", "why_tests_cant": "the panics depend on combinations of errors in one object", "anchors": ["cyclonedx-bom/src/validation.rs:ValidationResult", "cyclonedx-bom/src/models/*.rs:validate_version"]}
{"id": "C25", "title": "Validation passes exactly when every checked field is valid", "statement": "Validation of a BOM passes if and only if every field the library checks, at any depth, satisfies its rule for the requested version.", "quantifier": "every BOM and version", "why_tests_cant": "conjunction over unboundedly many nested fields", "anchors": ["cyclonedx-bom/src/validation.rs:ValidationContext", "cyclonedx-bom/src/models/*.rs"]}
{"id": "C26", "title": "List errors point at the failing elements", "statement": "Validation of a list reports exactly the indices of the elements that fail, each with that element's own errors, in increasing order.", "quantifier": "every list and element check", "why_tests_cant": "ranges over all lists", "anchors": ["cyclonedx-bom/src/validation.rs:add_list"]}
{"id": "C27", "title": "Unique lists report exactly the repeated elements", "statement": "For lists required to have unique items, an index is reported if and only if its element is equal to an earlier one or fails its own validation; a list without repetition is validated like an ordinary list.", "quantifier": "every list", "why_tests_cant": "ranges over all lists", "anchors": ["cyclonedx-bom/src/validation.rs:add_unique_list"]}
{"id": "C28", "title": "Serial numbers are well-formed URNs", "statement": "The serial-number constructor and validation accept exactly the strings 'urn:uuid:' followed by five hyphen-separated groups of 8, 4, 4, 4 and 12 lowercase hexadecimal digits; generated serial numbers are accepted.", "quantifier": "every string and every generated UUID", "why_tests_cant": "ranges over all strings", "anchors": ["cyclonedx-bom/src/models/bom.rs:UrnUuid"]}
{"id": "C29", "title": "Hash values are checked in full", "statement": "Hash content passes validation exactly when it consists of 32, 40, 64, 96 or 128 hexadecimal digits and nothing else.", "quantifier": "every string", "why_tests_cant": "ranges over all strings", "anchors": ["cyclonedx-bom/src/models/hash.rs:validate_hash_value"]}
{"id": "C30", "title": "CPE names are checked in full", "statement": "A CPE passes validation only when the whole string is a CPE 2.2 or 2.3 name.", "quantifier": "every string", "why_tests_cant": "ranges over all strings", "anchors": ["cyclonedx-bom/src/models/component.rs:validate_cpe"]}
{"id": "C31", "title": "Confidence scores lie between 0 and 1", "statement": "A confidence score passes validation exactly when it lies between 0.0 and 1.0.", "quantifier": "every 32-bit float", "why_tests_cant": "ranges over all floats", "anchors": ["cyclonedx-bom/src/models/component.rs:validate_confidence"]}
{"id": "C32", "title": "Every timestamp of a vulnerability analysis is checked", "statement": "An analysis passes validation only if both its first-issued and its last-updated timestamps are valid ISO 8601 timestamps.", "quantifier": "every analysis record", "why_tests_cant": "ranges over all pairs of timestamps", "anchors": ["cyclonedx-bom/src/models/vulnerability_analysis.rs:validate_version"]}
{"id": "C33", "title": "Enumerated values survive being written and read", "statement": "For every enumerated type of the model, writing a value as text and reading it back gives the same value, and reading any text and writing it gives the same text.", "quantifier": "every value and every string for each enumerated type", "why_tests_cant": "unknown values carry arbitrary strings", "anchors": ["cyclonedx-bom/src/models/*.rs:new_unchecked", "cyclonedx-bom/src/models/*.rs:strum::Display"]}
{"id": "C34", "title": "Validation enforces version-specific value sets", "statement": "Values introduced in specification 1.5 (component types, aggregate types, BOM links, bom-refs on contacts) and score methods introduced in 1.5 fail validation for 1.3 and 1.4 and pass for 1.5; values accepted by an older version remain accepted by newer ones.", "quantifier": "every value and version pair", "why_tests_cant": "covers all values of the types", "anchors": ["cyclonedx-bom/src/models/component.rs:validate_classification", "cyclonedx-bom/src/models/composition.rs:validate_aggregate_type", "cyclonedx-bom/src/models/vulnerability_rating.rs:validate_score_method", "cyclonedx-bom/src/models/external_reference.rs:validate_bom_link"]}
{"id": "C35", "title": "Pattern checks accept exactly their documented language", "statement": "MIME types, BOM links and version ranges are recognised exactly according to their documented shapes.", "quantifier": "every string", "why_tests_cant": "ranges over all strings", "anchors": ["cyclonedx-bom/src/models/component.rs:validate_mime_type", "cyclonedx-bom/src/models/external_reference.rs:validate_bom_link", "cyclonedx-bom/src/models/vulnerability_target.rs:VersionRange::new"]}
{"id": "C36", "title": "Checked constructors agree with validation", "statement": "A value obtained from a checked constructor (URI, date-time, normalized string, SPDX identifier and expression, serial number) passes validation, and text that passes validation is accepted by the constructor.", "quantifier": "every string, for every behaviour of the underlying parsers", "why_tests_cant": "ranges over all strings", "anchors": ["cyclonedx-bom/src/external_models/*.rs"]}
{"id": "C37", "title": "JSON round trip, version 1.3", "statement": "Writing a BOM as JSON for version 1.3 and parsing the result, with the members of its objects in any order and with any of the parsers for it, gives back the same BOM restricted to what version 1.3 can represent; in particular BOMs using only 1.3 features are unchanged, and writing and reading again changes nothing from the second time on.", "quantifier": "every BOM value that can be written for version 1.3, any nesting depth", "why_tests_cant": "unbounded recursive data", "anchors": ["cyclonedx-bom/src/specs/common/*.rs", "cyclonedx-bom/src/models/bom.rs:output_as_json"]}
{"id": "C38", "title": "JSON round trip, version 1.4", "statement": "Writing a BOM as JSON for version 1.4 and parsing the result, with the members of its objects in any order and with any of the parsers for it, gives back the same BOM restricted to what version 1.4 can represent; in particular BOMs using only 1.4 features are unchanged, and writing and reading again changes nothing from the second time on.", "quantifier": "every BOM value that can be written for version 1.4, any nesting depth", "why_tests_cant": "unbounded recursive data", "anchors": ["cyclonedx-bom/src/specs/common/*.rs", "cyclonedx-bom/src/models/bom.rs:output_as_json"]}
{"id": "C39", "title": "JSON round trip, version 1.5", "statement": "Writing a BOM as JSON for version 1.5 and parsing the result, with the members of its objects in any order and with any of the parsers for it, gives back the same BOM restricted to what version 1.5 can represent; in particular BOMs using only 1.5 features are unchanged, and writing and reading again changes nothing from the second time on. The confidences of identification methods must be finite numbers.", "quantifier": "every BOM value that can be written for version 1.5, any nesting depth", "why_tests_cant": "unbounded recursive data", "anchors": ["cyclonedx-bom/src/specs/common/*.rs", "cyclonedx-bom/src/models/bom.rs:output_as_json"]}
{"id": "C40", "title": "XML round trip, version 1.3", "statement": "Writing a BOM as XML for version 1.3 and parsing the result gives back the same BOM restricted to what the XML of version 1.3 carries (text fields up to the white space trimming of the XML reader). Every BOM that can be written falls in one of two classes, told apart by the specification: those that read back this way, and those whose document the parser of the same version refuses.", "quantifier": "every BOM value that can be written for version 1.3, any nesting depth; every way of printing and reading f32 that is exact", "why_tests_cant": "unbounded recursive data", "anchors": ["cyclonedx-bom/src/specs/common/*.rs", "cyclonedx-bom/src/specs/v1_5/*.rs", "cyclonedx-bom/src/models/bom.rs:output_as_xml"]}
{"id": "C41", "title": "XML round trip, version 1.4", "statement": "Writing a BOM as XML for version 1.4 and parsing the result gives back the same BOM restricted to what the XML of version 1.4 carries (text fields up to the white space trimming of the XML reader). Every BOM that can be written falls in one of two classes, told apart by the specification: those that read back this way, and those whose document the parser of the same version refuses.", "quantifier": "every BOM value that can be written for version 1.4, any nesting depth; every way of printing and reading f32 that is exact", "why_tests_cant": "unbounded recursive data", "anchors": ["cyclonedx-bom/src/specs/common/*.rs", "cyclonedx-bom/src/specs/v1_5/*.rs", "cyclonedx-bom/src/models/bom.rs:output_as_xml"]}
{"id": "C42", "title": "XML round trip, version 1.5", "statement": "Writing a BOM as XML for version 1.5 and parsing the result gives back the same BOM restricted to what the XML of version 1.5 carries (text fields up to the white space trimming of the XML reader). Every BOM that can be written falls in one of two classes, told apart by the specification: those that read back this way, and those whose document the parser of the same version refuses.", "quantifier": "every BOM value that can be written for version 1.5, any nesting depth; every way of printing and reading f32 that is exact", "why_tests_cant": "unbounded recursive data", "anchors": ["cyclonedx-bom/src/specs/common/*.rs", "cyclonedx-bom/src/specs/v1_5/*.rs", "cyclonedx-bom/src/models/bom.rs:output_as_xml"]}
{"id": "C43", "title": "Writing for a version fails only for documented reasons", "statement": "Writing a BOM as JSON or XML fails only if it is written for 1.3 and contains a component without version, and then it reports an error rather than panicking; in all other cases it succeeds.", "quantifier": "every BOM and version", "why_tests_cant": "ranges over all BOMs", "anchors": ["cyclonedx-bom/src/specs/common/bom.rs:TryFrom", "cyclonedx-bom/src/specs/common/component.rs:TryFrom"]}
{"id": "C44", "title": "The declared version selects the parser", "statement": "Parsing JSON without stating a version uses the parser of the version declared in the document, rejects a missing, non-string or unsupported version, and parsing the output written for a version yields a BOM of that version.", "quantifier": "every JSON document", "why_tests_cant": "ranges over all documents", "anchors": ["cyclonedx-bom/src/models/bom.rs:parse_json_value"]}
{"id": "C45", "title": "A parser for one version rejects documents of another", "statement": "Parsing a document with the entry point of a given version succeeds only if the document declares that version (JSON) or its namespace (XML).", "quantifier": "every document and version", "why_tests_cant": "ranges over all documents", "anchors": ["cyclonedx-bom/src/models/bom.rs:parse_from_json_with_version", "cyclonedx-bom/src/specs/common/bom.rs:read_xml_document"]}
{"id": "C46", "title": "Unknown XML elements are skipped without side effects", "statement": "Inserting an arbitrary well-formed foreign element where the lax readers accept unknown children does not change the parsed BOM; the skipper consumes exactly that element.", "quantifier": "every foreign element tree and insertion point", "why_tests_cant": "unbounded trees", "anchors": ["cyclonedx-bom/src/xml.rs:read_lax_validation_tag", "cyclonedx-bom/src/xml.rs:get_elements_lax"]}
{"id": "C47", "title": "Unknown JSON keys are ignored, repeated keys rejected", "statement": "Adding an unrelated key to any JSON object of a document does not change the parsed BOM, and a repeated known key is an error.", "quantifier": "every document, position and key", "why_tests_cant": "ranges over all documents", "anchors": ["cyclonedx-bom/src/specs/common/*.rs:Deserialize"]}
{"id": "C48", "title": "XML readers consume exactly their element", "statement": "Whenever a reader for an element succeeds on a well-formed document it stops just after that element's end tag, so siblings are never skipped or swallowed.", "quantifier": "every well-formed event stream", "why_tests_cant": "unbounded streams", "anchors": ["cyclonedx-bom/src/xml.rs", "cyclonedx-bom/src/specs/common/component.rs:ComponentEvidence"]}
{"id": "C49", "title": "Version-specific code selection", "statement": "For each version listed on the annotated module, in that order, the versioning macro generates a module named after the version with the visibility of the annotated one, containing exactly the tokens of the annotated module that lie in no item, field, variant, match arm, struct-expression field, statement or expression limited to other versions, at any nesting depth; it is a compile error exactly if the listed versions, or a list in a part kept by some listed version, are malformed.", "quantifier": "every annotated module and version list", "why_tests_cant": "unbounded syntax trees", "anchors": ["cyclonedx-bom-macros/src/lib.rs"]}
{"id": "C50", "title": "Generated SBOMs pass the library's own validation", "statement": "Every SBOM file the tool writes, per crate or per artifact, passes the library's validation against every supported specification version, provided the same parsers are used for generating and validating and no package declares a link starting like a BOM link.", "quantifier": "every workspace, configuration, workspace member and specification version", "why_tests_cant": "unbounded graphs, texts and version combinations", "anchors": ["cargo-cyclonedx/src/generator.rs: create_bom, create_component, create_metadata", "cyclonedx-bom/src/models/bom.rs: Bom::validate_version"]}
{"id": "C51", "title": "Package URLs name the package and its source, not the machine", "statement": "The package URL of each component is built from the package's name and version, carries no qualifier for crates.io, the registry URL for other registries, the rewritten VCS URL for git, and a file URL for path packages, which for those inside the workspace is the way from the described package's directory to theirs; moving the workspace to another directory does not change the package URL of any package inside the workspace or with a source.", "quantifier": "every package, source text, workspace location and manifest path", "why_tests_cant": "unbounded source and path texts", "anchors": ["cargo-cyclonedx/src/purl.rs: get_purl"]}
{"id": "C52", "title": "Findings are filed under the offending field", "statement": "For every structure the validator visits, the result has an entry under a field's name exactly when that field breaks its rule, and has no entry under any other name.", "quantifier": "every value of every checked structure, every version", "why_tests_cant": "every combination of valid and invalid fields", "anchors": ["cyclonedx-bom/src/validation.rs", "cyclonedx-bom/src/models/*.rs: validate_version"]}
{"id": "C53", "title": "Validation findings accumulate", "statement": "Building a validation result by any sequence of context calls keeps everything that was reported: several field messages (or several custom messages) under one name are all kept in call order, a single structure, list or enumeration finding is kept as it is, names with nothing to report have no entry, and the builder panics exactly when findings of different kinds, or more than one structure, list or enumeration finding, are reported under one name.", "quantifier": "every sequence of ValidationContext calls with any names, callbacks and results", "why_tests_cant": "tests call the builder with one finding per name; the rule has to hold for every interleaving of names and kinds", "anchors": ["cyclonedx-bom/src/validation.rs: ValidationContext::add_field, add_enum, add_list, add_struct, add_custom", "cyclonedx-bom/src/validation.rs: ValidationResult::add_nested, add_field, add_enum, add_custom, error"]}
{"id": "C54", "title": "Written JSON conforms to the official CycloneDX JSON schema", "statement": "Every SBOM cargo-cyclonedx generates is written as a JSON document that conforms to the official CycloneDX JSON schema of the chosen version. More generally, the JSON form of any BOM that passes validation conforms to it, provided the BOM keeps the schema's rules the validator does not check (uniqueness, lengths, ranges, e-mail addresses) and uses none of a closed list of fields the library writes under another name or in another shape than the schema has; each field on that list makes the document violate the schema.", "quantifier": "every BOM value, specification version 1.3, 1.4 and 1.5, every cargo metadata and configuration; every behaviour of the date, URI, SPDX parsers that agrees with the schema's formats", "why_tests_cant": "snapshot tests check a handful of documents against the schema; conformance has to hold for every combination of fields and values", "anchors": ["cyclonedx-bom/src/specs: Serialize implementations", "cyclonedx-bom/test-utils/schema", "cyclonedx-bom/src/models/bom.rs: output_as_json_v1_3, output_as_json_v1_4, output_as_json_v1_5"]}
{"id": "C55", "title": "An XML document that is read has the required parts", "statement": "When an XML document is read successfully, every element in it that the library looks at has the attributes and child elements that CycloneDX requires of it: a component has a type and a name (and in 1.3 a version), a reference has a type and a url, a dependency, an assembly or a subject has a ref, a task has a bom-ref, a uid and task types, and so on through the table of requirements. No missing part is replaced by a default.", "quantifier": "every XML document with elements nested to any depth, every specification version (in 1.4: with signatures made of known parts; in 1.5: with no element with an open reader containing another of its own name)", "why_tests_cant": "tests leave out a part or two of one element; the requirement has to hold for each kind of element, in every position and at every depth", "anchors": ["cyclonedx-bom/src/specs: FromXml implementations", "cyclonedx-bom/src/xml.rs: attribute_or_error", "cyclonedx-bom/src/errors.rs: XmlReadError::RequiredDataMissing"]}
{"id": "C56", "title": "Which JSON documents are read", "statement": "Reading a JSON document with a given specification version succeeds exactly when the document is of a fixed grammar: every object has the members CycloneDX requires of it with values of the right type, the members that may be missing are missing, null or of the right type, no known member is repeated, and members of other names are ignored. Without a given version the document's last specVersion member must name one of the three versions and the document must be of that version's grammar. Nothing else makes reading fail: no combination of valid members, no depth and no length.", "quantifier": "every JSON value of any size and depth, each specification version and each entry point", "why_tests_cant": "the set of accepted documents is infinite in both directions; tests can neither show that no wrong document is accepted nor that no right one is refused", "anchors": ["cyclonedx-bom/src/models/bom.rs: Bom::parse_from_json, parse_from_json_with_version, parse_json_value", "cyclonedx-bom/src/specs: Deserialize implementations"]}
{"id": "C57", "title": "Generated SBOMs can be read back", "statement": "Every SBOM file that cargo cyclonedx plans to write, written as JSON or as XML of any of the three versions, can be read again by the library. From JSON the very same BOM comes back, whatever the order of the members. From XML the same BOM comes back but for blanks at the ends of texts, provided no package has a blank license name or an empty license file.", "quantifier": "every workspace and dependency graph cargo can report, every configuration, every member, every file of the plan, every version and both formats", "why_tests_cant": "package names, descriptions, licenses and URLs are arbitrary texts, and workspaces and graphs are unbounded; a test writes and reads a handful of them", "anchors": ["cargo-cyclonedx/src/generator.rs: SbomGenerator::create_sboms, GeneratedSbom::write_to_files, convert_to_file", "cyclonedx-bom/src/models/bom.rs: Bom::output_as_json_v1_*, output_as_xml_v1_*, parse_from_json, parse_from_xml_v1_*"]}
{"id": "C58", "title": "JSON documents that say the same are read alike", "statement": "Two JSON documents that differ only in members the format does not know, in the order of members, in null against a missing optional member, or in an array against an object for a struct, at any depth, are read to the same BOM or both refused. In particular reading a document by its declared version and reading it with that version given agree, unless a member occurs twice or a license or an affected version names several of its alternatives.", "quantifier": "every pair of JSON values related in this way at any depth and every version of the format", "why_tests_cant": "the places where documents may differ are unbounded in number, depth and combination, and every reader of some seventy structs has to overlook them; tests read documents in the order in which the library writes them", "anchors": ["cyclonedx-bom/src/models/bom.rs: Bom::parse_from_json, parse_json_value, parse_from_json_with_version, parse_from_json_v1_3, parse_from_json_value_v1_3", "cyclonedx-bom/src/specs/common/*.rs, v1_3/*.rs, v1_4/*.rs, v1_5/*.rs: derived Deserialize", "cyclonedx-bom/src/specs/common/license.rs: LicenseIdentifier"]}
{"id": "C59", "title": "What validating a formula means", "statement": "Validating a formula, or a workflow, task, trigger, event, condition, input, output, step, workspace or volume, always returns, passes exactly when the value is valid (known type names and modes, conforming date-times, valid references, attachments and properties, no repeated element where the format wants a set; formulas only from 1.5 on), and files each finding under the name of the field that breaks its rule. Validating a BOM does not look at its formulas.", "quantifier": "every formula and every part of one, every version, every behaviour of the external parsers and every equality of elements", "why_tests_cant": "formulas nest workflows, tasks, triggers and inputs without bound, and a field that is not looked at shows only in a value that breaks its rule and no other; tests validate one good and one bad value", "anchors": ["cyclonedx-bom/src/models/formulation/mod.rs: Formula::validate_version", "cyclonedx-bom/src/models/formulation/workflow/*.rs: Validate for Workflow, Task, Trigger, Event, Condition, Input, Output, Step, Workspace, Volume, ResourceReference", "cyclonedx-bom/src/validation.rs: ValidationContext::add_unique_list, add_unique_list_option"]}
{"id": "C60", "title": "A JSON document that was read can be saved again", "statement": "A BOM that was read from a JSON document, by any of the readers, can be saved as JSON in the version it was read in and in every later one, and what is saved reads again as the same BOM in the version it was saved in, except for three names that the library misspells (the reference type codified-infrastructure, the aggregate incomplete_first_party_proprietary_only and unknown identified fields). Saving and reading a second time changes nothing at all.", "quantifier": "every JSON document the library reads whose numbers are finite single-precision floats, every version it is read in and every version it is saved in from that one on", "why_tests_cant": "a field that one version reads and a later one forgets, or a value that is read but written so that it cannot be read, shows only in the documents that use it; tests save hand-written models and a few fixtures in one version", "anchors": ["cyclonedx-bom/src/models/bom.rs: Bom::parse_from_json, parse_from_json_with_version, output_as_json", "cyclonedx-bom/src/specs/common/*.rs: Serialize and Deserialize of every type, From conversions between specs and models"]}
{"id": "C61", "title": "Saving as XML settles", "statement": "If a BOM is saved as XML in some version and the document can be read back in that version, then the result can be saved and read back any number of times more, and from the second time on nothing changes any more.", "quantifier": "every BOM, every version, every number of rounds", "why_tests_cant": "a field that survives one round but not the next, or that keeps changing (trimmed text, values spelled like known ones, empty lists, organisations without data), depends on a combination of values; tests make one round with tidy values", "anchors": ["cyclonedx-bom/src/models/bom.rs: Bom::output_as_xml, Bom::parse_from_xml_with_version", "cyclonedx-bom/src/specs/common/*.rs: ToXml and FromXml of every type"]}
{"id": "C62", "title": "An XML document that was read can be saved again", "statement": "A BOM that was read from an XML document can be saved as XML in the version it was read in and in every later one. If the document has no text of white space only in a CDATA section and, in version 1.5, no attachment with both an encoding and a content type, no flow of data with both a name and a description, no task and no external reference to a resource, then what was saved can be read again, any number of times.", "quantifier": "every sequence of XML events the library reads as a BOM, every version it is read in and every version it is saved in from that one on", "why_tests_cant": "readers that look through unknown elements, skip others, and accept repeated ones produce values from documents no fixture looks like; whether all of them can be written and read again is a statement about every such document", "anchors": ["cyclonedx-bom/src/models/bom.rs: Bom::parse_from_xml_with_version, output_as_xml", "cyclonedx-bom/src/xml.rs: FromXml, read_list_tag, read_lax_validation_list_tag", "cyclonedx-bom/src/specs/common/*.rs: FromXml and ToXml of every type"]}
{"id": "C63", "title": "An XML document that was read can be converted to JSON", "statement": "A BOM that was read from an XML document can be saved as JSON in the version it was read in and in every later one. What is then read from the JSON document is the BOM that was read from XML, except that misspelt names are respelled, signature chains are lists of signers, unknown algorithms are called Unknown, flows of data are reduced to their classifications, and scores and confidences that are not finite numbers are gone. In version 1.5 this holds if the confidences of identification methods are finite.", "quantifier": "every sequence of XML events the library reads as a BOM, every version it is read in, every version it is saved in from that one on, and every order of the members of the objects of the JSON document", "why_tests_cant": "the XML readers and the JSON writers are separate hand-written code for every type; the values that only the XML readers produce, in a JSON writer that was tested with values made by hand, are what fixtures do not combine", "anchors": ["cyclonedx-bom/src/models/bom.rs: Bom::parse_from_xml_with_version, output_as_json, parse_from_json, parse_from_json_with_version, parse_json_value", "cyclonedx-bom/src/specs/common/*.rs: FromXml, Serialize and Deserialize of every type"]}
{"id": "C64", "title": "Which BOMs can be read after they were saved as XML", "statement": "The XML document that is saved for a BOM can be read in the same version if and only if: no text of a license, diff or SWID tag, no license id or name and no content of an attachment consists of white space only; no attachment has both an encoding and a content type; no flow of data has both a name and a description; no affected version is an undefined range; no data set of a model card is a reference; no input of a workflow is a list of parameters; no resource is an external reference; and there are no tasks. Only parts count that the version has. Otherwise the reader reports an error.", "quantifier": "every BOM that can be saved and every version", "why_tests_cant": "the claim has two directions for every BOM: a single part somewhere, at any depth of components, pedigrees and workflows, makes the document unreadable, and nothing else does", "anchors": ["cyclonedx-bom/src/models/bom.rs: Bom::output_as_xml, Bom::parse_from_xml_with_version", "cyclonedx-bom/src/specs/common/*.rs, specs/v1_5/**/*.rs: ToXml and FromXml of every type"]}
{"id": "C65", "title": "A JSON document that was read can be converted to XML", "statement": "A BOM that was read from a JSON document can be saved as XML in the version it was read in and in every later one. If the document is one of version 1.3 or 1.4, what was saved can be read if and only if no license id or name and no text is blank and no affected version is an undefined range; in version 1.5 the other conditions of C64 apply, except the one on flows of data.", "quantifier": "every JSON document the library reads as a BOM with any of its parsers, every version it is saved in from the one it was read in on", "why_tests_cant": "the JSON readers and the XML writers are separate code for every type; which values of the readers the writers turn into documents that cannot be read is a statement about every document", "anchors": ["cyclonedx-bom/src/models/bom.rs: Bom::parse_from_json, parse_json_value, parse_from_json_with_version, output_as_xml", "cyclonedx-bom/src/specs/common/*.rs: Deserialize, ToXml and FromXml of every type"]}
{"id": "C66", "title": "XML documents in the form of the CycloneDX format are read correctly", "statement": "Take any BOM and write it down as an XML document in the form of the CycloneDX format of version 1.3, 1.4 or 1.5: every part as the element or attribute the format has for it. Reorder attributes, reorder differently named child elements, put white space between elements and around texts. The library then reads exactly that BOM, without the white space around texts. This includes the parts the library itself never writes: licensing, occurrences, call stack and identity in evidence, proofs of concept, annotations, tasks and the signature of the BOM. Not included are BOMs the format cannot say (blank contents) and the parts the library does not read: references to datasets, considerations and properties of model cards, parameters as inputs.", "quantifier": "every BOM, every version, every document that says the same as its standard form", "why_tests_cant": "each element name and attribute name is a literal in a reader of its own; round trips through the library's writer do not reveal a name that reader and writer misspell alike, fixtures have a few values in one order, and nested parts combine without bound", "anchors": ["cyclonedx-bom/src/models/bom.rs: Bom::parse_from_xml_v1_3, parse_from_xml_v1_4, parse_from_xml_v1_5", "cyclonedx-bom/src/specs/common/*.rs, specs/v1_*/**/*.rs: FromXml of every type", "cyclonedx-bom/tests/spec/1.*/*.xml: the format"]}
{"id": "C67", "title": "Saved XML documents are in the form of the CycloneDX format", "statement": "For every BOM and version, the XML document the library saves is the standard form of the BOM: every part as the element or attribute the format has for it, in the namespace of the version, with nothing else in it. Left out are exactly the parts named in the specification: licensing, occurrences, call stack and identity in evidence, proofs of concept, annotations, the signature of the BOM, and contacts, organisations, sources and diffs without data. So every program that reads the format reads the rest of the BOM from it. Not included are BOMs with the five parts the library writes in another form: attachments with a content type, described flows of data, references to data sets, resources outside of the document, and tasks.", "quantifier": "every BOM, every version", "why_tests_cant": "element names are literals in a writer of each type, and tests compare with snapshots of the library's own output; nested parts combine without bound", "anchors": ["cyclonedx-bom/src/models/bom.rs: Bom::output_as_xml_v1_3, output_as_xml_v1_4, output_as_xml_v1_5", "cyclonedx-bom/src/specs/common/*.rs, specs/v1_*/**/*.rs: ToXml of every type"]}
{"id": "C68", "title": "JSON documents are read and written in the form of the CycloneDX format", "statement": "The JSON document the library writes for a BOM has every part of it under the member the CycloneDX format has for it and nothing else, and a document of that form, with the members of objects in any order, is read as what the version has of the BOM: no value ends up in the place of another. This holds for every BOM and version in the library's dialect of the format, and for the format of the standard exactly where the two forms of the BOM agree: they differ in thirteen listed places, where documents that conform to the official schema are refused or read incompletely.", "quantifier": "every BOM, every version, every order of members", "why_tests_cant": "member names are derived from field names by attributes on each struct; round trips do not reveal a name or place that reader and writer get wrong alike, and schema validation does not reveal texts in each other's place; nested parts combine without bound", "anchors": ["cyclonedx-bom/src/models/bom.rs: Bom::output_as_json_v1_3 .. v1_5, parse_from_json, parse_from_json_v1_3 .. v1_5", "cyclonedx-bom/src/specs/common/*.rs, specs/v1_*/**/*.rs: serde attributes of every type", "cyclonedx-bom/test-utils/schema/*.schema.json: the format"]}
{"id": "C69", "title": "What a run of the command does to the disk", "statement": "A run of cargo cyclonedx makes all SBOMs before it writes the first file, so if configuration, cargo or generation fails, nothing changes. While it writes, at every point (so wherever it is interrupted, crashes or meets a disk error) the files before the current one are complete, the current one has a beginning of its text, and every other file is as it was. It reports success only when every announced file has its text. Every run ends; under good conditions it ends with success, each package's files get their own text without one replacing another, they can be read back as the generated BOMs, and with SOURCE_DATE_EPOCH two runs give the same disk. Where cargo lists the same packages, nodes and members in another order, a successful run leaves the same files.", "quantifier": "every workspace, set of options, environment, disk, way of splitting the writes, failure and crash point", "why_tests_cant": "crash points and disk failures can fall anywhere in the sequence of writes, and the number of packages and files is unbounded; tests see complete successful runs", "anchors": ["cargo-cyclonedx/src/main.rs: main, generate_sboms, get_metadata, locate_manifest, resolve_config", "cargo-cyclonedx/src/generator.rs: GeneratedSbom::write_to_files, write_to_file", "cyclonedx-bom/src/models/bom.rs: output_as_json, output_as_xml"]}
{"id": "C70", "title": "What a run asks cargo and rustc for", "statement": "Cargo is asked about the manifest given with --manifest-path, else Cargo.toml in the working directory; with exactly the features the options ask for; and restricted to the chosen target unless that is 'all'. The target is CARGO_BUILD_TARGET, else --target, else the host that the program named by RUSTC (else rustc) reports: the rest of the first line of its output that begins with 'host: ', without the line ending. Rustc is not needed when a target is given. -qq silences the log, -q does not, each -v raises the level by one.", "quantifier": "every set of options, environment and output of rustc", "why_tests_cant": "the output of rustc is arbitrary text with any lines and line endings, and the sources of the target combine; a test runs on one machine", "anchors": ["cargo-cyclonedx/src/platform.rs: host_platform, rustc_location, rustc_host_target_triple", "cargo-cyclonedx/src/main.rs: resolve_config, locate_manifest, get_metadata, setup_logging"]}
{"id": "C71", "title": "What the constructors make is valid and survives saving", "statement": "A BOM put together with the constructors of the library and assignments to its fields, from arbitrary texts, enumerated values the version knows, and URIs, times, package URLs, licence identifiers and hashes that conform to their standards, passes validation unless its references are wrong. It can be saved as JSON and read back as the same BOM, and saved as XML in a form that can be read unless a licence has a blank name. Bytes given to AttachedText::new can be had back.", "quantifier": "every sequence of constructor calls and assignments, with components and services nested to any depth, and every text, including line breaks and control characters", "why_tests_cant": "the constructors take arbitrary text and their results are combined without limit; tests call them with plain words", "anchors": ["cyclonedx-bom/src/models/component.rs: Component::new", "cyclonedx-bom/src/models/service.rs: Service::new", "cyclonedx-bom/src/models/organization.rs: OrganizationalContact::new, OrganizationalEntity::new", "cyclonedx-bom/src/models/license.rs: LicenseChoice::license, LicenseChoice::expression, License::named_license, License::license_id", "cyclonedx-bom/src/models/attached_text.rs: AttachedText::new", "cyclonedx-bom/src/models/vulnerability*.rs: new", "cyclonedx-bom/src/models/bom.rs: Bom::default, Bom::validate_version, output_as_json, output_as_xml"]}
{"id": "C72", "title": "What an SBOM says about itself, the package and its artifacts", "statement": "The metadata of a generated SBOM name the tool and its version, the time (that of SOURCE_DATE_EPOCH if given), every author of the package with a usable address, and the target or that all targets were asked for. The component described is the workspace member itself, an application if it has a program and a library otherwise, with its own name, version, description, authors, licence, checksum and links, and each of its artifacts inside it with its name, kind and a package URL that points into the package. Every other component is a library that carries the same facts of its own package. Nothing else is said: all other parts of the SBOM are absent.", "quantifier": "every workspace, configuration, lock file, environment and clock", "why_tests_cant": "the texts, targets, authors and sources are arbitrary and combine; snapshot tests compare a few workspaces", "anchors": ["cargo-cyclonedx/src/generator.rs: create_metadata, create_toplevel_component, create_component, get_classification, create_authors, create_bom", "cyclonedx-bom/src/models/metadata.rs", "cyclonedx-bom/src/models/tool.rs: Tool::new"]}
{"id": "C73", "title": "Each option does what it says", "statement": "For every command line the parser accepts: --format and --spec-version decide the format and version of every file (else XML and 1.3); --top-level restricts the dependencies and --all or nothing does not; --no-build-deps, --license-strict, --license-accept-named and --describe decide the settings of that name. Files are named after the package, after each artifact with its kinds if --describe asks for artifacts, or as --override-filename says; --target-in-filename adds the target, and .cdx is left out only if the name is overridden and no target is added. An overridden name with a directory in it is refused, and apart from an unknown host nothing else is.", "quantifier": "every set of options, environment and workspace", "why_tests_cant": "fourteen options combine with arbitrary texts and any number of artifacts", "anchors": ["cargo-cyclonedx/src/cli.rs: Args::as_config", "cargo-cyclonedx/src/config.rs: SbomConfig::merge, FilenameOverride::new", "cargo-cyclonedx/src/main.rs: resolve_config", "cargo-cyclonedx/src/generator.rs: GeneratedSbom::filename, write_to_files"]}
{"id": "C74", "title": "Whatever is left out of an SBOM is reported, and nothing else is", "statement": "While an SBOM is made, a warning names each package that gets no package URL, each link of a manifest that does not get into the SBOM, each licence that is written as a name because it is not an expression, each licence file that cannot be read, each author left out because of an invalid address, each target that is neither described nor a test, bench, example or build script, each target whose source is outside the package, each source whose kind is not understood, and a lock file that is missing or cannot be read. There is no such warning without such a loss. The names given to --license-accept-named turn the message about that licence into a note and change nothing in the files.", "quantifier": "every workspace, configuration, lock file and environment for which an SBOM is made", "why_tests_cant": "losses depend on arbitrary texts of any number of packages; no test looks at the log", "anchors": ["cargo-cyclonedx/src/generator.rs: create_sboms, create_component, create_toplevel_component, get_external_references, get_licenses, create_authors", "cargo-cyclonedx/src/purl.rs: get_purl"]}
{"id": "C75", "title": "When the assertions of a debug build stop it", "statement": "Where a release build makes the SBOMs of a workspace, a debug build makes the same, unless a workspace member lies outside the directory of the workspace root and its SBOM contains a local package that lies inside: then, and only then, an assertion about package URLs panics. For workspaces whose members all lie in the root directory it never does.", "quantifier": "every workspace, configuration and environment for which SBOMs are made, given that packageurl reads the package URLs it writes", "why_tests_cant": "the assertion relates the paths of any two packages of a workspace; the fixtures have all members below the root", "anchors": ["cargo-cyclonedx/src/purl.rs: get_purl, assert_validation_passes", "cargo-cyclonedx/src/generator.rs: create_component, create_toplevel_component"]}
{"id": "C76", "title": "Findings say what is wrong", "statement": "Under the name of every field that breaks a rule of its own, the validation result has one entry of the kind the field calls for with the message of that rule: one text per rule, quoting the offending value where the message does so (unknown algorithms, identities, license types, approaches and score methods, SPDX expressions, the reason for which a package URL is refused). A finding about a part, or about the elements of a list, is the result of validating that part, or each failing element under its position.", "quantifier": "every value of every checked structure, formulas included, every version and every behaviour of the external parsers", "why_tests_cant": "tests pin the texts of a few single findings; that no other text or kind of entry stands under a name has to hold for every combination of broken rules", "anchors": ["cyclonedx-bom/src/validation.rs: ValidationContext", "cyclonedx-bom/src/models/*.rs: validate_version, validate_*", "cyclonedx-bom/src/external_models/*.rs: validate_*"]}
{"id": "C77", "title": "Queries and merging of validation results", "statement": "The queries of a validation result agree with each other: it has passed exactly when it lists no errors, has an error under a name exactly when looking it up finds one, and looking up finds exactly the listed entries. Merging a list of results passes exactly when all of them do, keeps the names in the order of first appearance and, under each name, the entry of the last result that has one; nothing is lost if the names are different. (That merging keeps every finding is false.)", "quantifier": "every list of validation results that the builder can make", "why_tests_cant": "overwriting shows only for results that share a name", "anchors": ["cyclonedx-bom/src/validation.rs: ValidationResult::passed, has_errors, error, has_error, errors, From<Vec<ValidationResult>>", "cyclonedx-bom/src/validation.rs: Validate::validate"]}
{"id": "C78", "title": "Why a run makes no SBOM", "statement": "A run of cargo cyclonedx makes the SBOMs of the workspace, or exactly one of eight reasons holds: the file name given has a directory separator; no target is given and rustc cannot be run, or its output names no host; the manifest path cannot be made absolute (or there is no working directory); cargo fails; there is no usable clock; SOURCE_DATE_EPOCH is not a decimal number of 64 bits, or is out of the range of dates. For each reason the way the run ends (error or panic) and the message are fixed, and the disk is left as it was. In a workspace without packages clock and SOURCE_DATE_EPOCH do not matter.", "quantifier": "every machine, environment and set of options", "why_tests_cant": "that there is no ninth reason, and that of several obstacles always the same one is reported, ranges over all combinations of options, environment and answers of other programs", "anchors": ["cargo-cyclonedx/src/main.rs: generate_sboms, resolve_config, locate_manifest, get_metadata", "cargo-cyclonedx/src/platform.rs", "cargo-cyclonedx/src/config.rs: FilenameOverride::new", "cargo-cyclonedx/src/generator.rs: create_metadata"]}
{"id": "C79", "title": "What the lenient constructors make", "statement": "A lenient license expression is accepted exactly if the lenient parser takes it and the text with ' OR ' in place of each slash is a valid expression; that text is the result, it has no slash, passes validation and is its own result; valid expressions are taken as they are. What is made of imprecise license names and of the parts of a package URL passes validation, given that the libraries accept their own output. Text that is valid as a BOM link is recognized as one. (That package URLs read from text are checked, and that every URI taken for a BOM link is a valid one, is false.)", "quantifier": "every string, every behaviour of the underlying libraries", "why_tests_cant": "ranges over all strings and over everything the license and package URL libraries may answer", "anchors": ["cyclonedx-bom/src/external_models/spdx.rs: SpdxExpression::parse_lax, convert_lax, SpdxIdentifier::imprecise", "cyclonedx-bom/src/external_models/uri.rs: Purl::new, Purl::from_str, Uri::new, Uri::is_bomlink"]}
{"id": "C80", "title": "What each command line means", "statement": "A command line is accepted, with certain options, exactly if it spells those options out: each option under its long name or its letter, with its value in the next argument, after an equals sign or attached, letters without values joined, values one of the listed words where there are such, nothing given twice except features, accepted license names and the counters, and none of the two forbidden combinations. Every other command line is refused. Options of different names can be given in any order, the ways of writing a value mean the same, and every allowed choice of options can be written.", "quantifier": "every list of arguments, every choice of options", "why_tests_cant": "there are infinitely many command lines, and refusing all the wrong ones cannot be tested", "anchors": ["cargo-cyclonedx/src/cli.rs: Opts, Args", "cargo-cyclonedx/src/config.rs: Describe, Format::from_str", "cyclonedx-bom/src/models/bom.rs: SpecVersion::from_str", "cargo-cyclonedx/src/main.rs: main"]}
{"id": "C81", "title": "Where a written JSON document has nulls, and no name twice", "statement": "In a JSON document that the library writes no object, however deep, has a name twice. A null stands only for a score or a confidence that is not a finite number and for an unknown term of a license (in 1.5); so there is none in 1.3, and none in any SBOM that the generator makes.", "quantifier": "every BOM, every version, every place of the written document; every workspace for generated SBOMs", "why_tests_cant": "the places are as many as the nested parts a BOM can have; a test looks at the optional fields of some of them", "anchors": ["cyclonedx-bom/src/models/bom.rs: Bom::output_as_json", "cyclonedx-bom/src/specs: the Serialize types (skip_serializing_if)", "cyclonedx-bom/src/specs/v1_5/licensing.rs: Licensing", "cyclonedx-bom/src/specs/common/vulnerability_rating.rs: VulnerabilityRating"]}
{"id": "C82", "title": "What an invocation does to the disk, whatever the words", "statement": "Whatever words follow `cargo cyclonedx` and wherever the program is interrupted: a file that has changed is an SBOM file of a package of the workspace, beside the package's manifest and named as the words ask, so that no manifest, lock file or source file is ever changed; words that ask for nothing the command knows change nothing; how and in which order the options are written, and how much is reported, makes no difference for the disk; when the command reports success, every SBOM asked for is there in full, in the format and version asked for, and nothing else has changed; under good conditions every run ends with success.", "quantifier": "every command line, machine, workspace and disk, every point of the execution", "why_tests_cant": "command lines, workspaces and crash points combine without bound", "anchors": ["cargo-cyclonedx/src/main.rs: main, generate_sboms", "cargo-cyclonedx/src/cli.rs: Opts, Args", "cargo-cyclonedx/src/generator.rs: GeneratedSbom::write_to_files"]}
{"id": "C83", "title": "What histories of invocations leave on the disk", "statement": "After any sequence of invocations, with whatever words and on whatever workspaces, each of them done, failed or interrupted at any point: a file that has changed is an SBOM that one of them was asked for; no file is removed, so SBOMs of earlier options or of packages that are gone stay; an invocation that succeeds after the same request was interrupted or failed any number of times leaves exactly the disk that it would have left at once; and what a successful invocation writes does not depend on what was there before.", "quantifier": "every sequence of invocations, every point of interruption, every disk", "why_tests_cant": "histories and crash points are unbounded", "anchors": ["cargo-cyclonedx/src/main.rs: main", "cargo-cyclonedx/src/generator.rs: GeneratedSbom::write_to_files, GeneratedSbom::write_to_file"]}
{"id": "C84", "title": "Invocations at the same time that write different files do not disturb each other", "statement": "If two invocations that are not asked for a common file (for example one for XML and one for JSON) run at the same time on one disk, then whatever the schedule of their steps each of them is at every point where it might have been alone, and the disk has the changes of both and no other; when both have succeeded the disk is as if one had been started after the other was done.", "quantifier": "every pair of invocations, every disk, every schedule and every point of it", "why_tests_cant": "schedules are unbounded; a test sees a few of them", "anchors": ["cargo-cyclonedx/src/main.rs: main", "cargo-cyclonedx/src/generator.rs: GeneratedSbom::write_to_files, GeneratedSbom::write_to_file"]}
{"id": "C85", "title": "Invocations at the same time on the same files", "statement": "If two invocations that make the same SBOMs (the same request with SOURCE_DATE_EPOCH) run at the same time on the same disk and both report success, then whatever the schedule of their writes each file has its whole text and nothing else has changed. Without SOURCE_DATE_EPOCH the two SBOMs have different serial numbers and times, and this fails: both may report success and leave a mixture of the two.", "quantifier": "every pair of invocations, every disk, every schedule of their writes", "why_tests_cant": "the positions at which the two are between their writes combine without bound", "anchors": ["cargo-cyclonedx/src/main.rs: main", "cargo-cyclonedx/src/generator.rs: GeneratedSbom::write_to_file (File::create, BufWriter)"]}
{"id": "C86", "title": "Unexpected content is refused where the parser is strict", "statement": "Each place of an XML document has its elements and one rule for anything else: lists such as licenses, hashes, dependencies, inputs of workflows, and elements such as external references, refuse every other element; elements that skip unknown elements still refuse text; elements that hold text refuse elements; pointers refuse everything. A document with something refused anywhere, reached through expected elements, is not parsed: the parser returns an error, whatever the rest of the document says.", "quantifier": "every version, every document whose look-through elements do not contain themselves (every document in 1.3), every place, every unexpected element or text, any depth", "why_tests_cant": "documents are unbounded in size and depth and there are more than a hundred places", "anchors": ["cyclonedx-bom/src/xml.rs: read_list_tag, read_lax_validation_list_tag, read_lax_validation_tag, unexpected_element_error", "cyclonedx-bom/src/specs: the read_xml_element functions"]}
{"id": "C87", "title": "What is neither expected nor refused does not change what is read", "statement": "Where an element of an XML document skips other elements, leaving out an element that is not listed there, whatever it contains, does not change the result of parsing. Where an element looks through others, replacing such an element by its content, or leaving out text, CDATA sections and processing instructions, does not change the result either. The two documents give the same bill of materials or are both refused.", "quantifier": "every version, every document whose look-through elements do not contain themselves (every document in 1.3), every place of the document, any number of such elements, any content in them", "why_tests_cant": "documents, places and the content of unknown elements are unbounded", "anchors": ["cyclonedx-bom/src/xml.rs: read_lax_validation_tag, read_lax_validation_list_tag", "cyclonedx-bom/src/specs: the read_xml_element functions"]}
{"id": "C88", "title": "Any number of invocations, begun at any time", "statement": "However many invocations there are, whenever each begins, and however their steps are interleaved or interrupted: only SBOMs that one of them is asked for change and no file disappears. If no two are asked for the same file, each behaves as if it were alone, and when all have succeeded the disk does not depend on the schedule or the order. If SOURCE_DATE_EPOCH is set and all are the same request, they may overlap on the same files: when all have succeeded the disk is as after one of them.", "quantifier": "every number of invocations, all command lines and machines, every point at which each begins, every schedule of their steps and sizes of the pieces written, every point of interruption", "why_tests_cant": "schedules, numbers of invocations and starting points are unbounded", "anchors": ["cargo-cyclonedx/src/main.rs: main", "cargo-cyclonedx/src/generator.rs: GeneratedSbom::write_to_files, write_to_file"]}
{"id": "C89", "title": "Only the listed attributes matter", "statement": "For each kind of element the attributes the XML parsers read are listed, version by version. Two documents that differ only in other attributes, or in the order of attributes, are parsed alike: both are refused, or both give the same document.", "quantifier": "all pairs of documents that differ so, at any number of elements and any depth, specification versions 1.3, 1.4 and 1.5", "why_tests_cant": "the documents, the attributes and their orders are unbounded, and the property covers every reader", "anchors": ["cyclonedx-bom/src/xml.rs: attribute_or_error, optional_attribute", "cyclonedx-bom/src/specs/common/*.rs: FromXml impls", "cyclonedx-bom/src/models/bom.rs: Bom::parse_from_xml_v1_3"]}
{"id": "C90", "title": "The order of different elements inside an element does not matter", "statement": "Two XML documents that differ only in the order of different elements inside an element are parsed alike: both are refused, or both give the same document. The exceptions are listed: alternatives (such as the id and the name of a license) and the entries of the same list (licenses and expressions, variables and values).", "quantifier": "all pairs of documents that differ so, at any number of places and any depth, specification versions 1.3, 1.4 and 1.5", "why_tests_cant": "the documents and the permutations are unbounded, and the property covers every pair of fields of every reader", "anchors": ["cyclonedx-bom/src/xml.rs: read_list_tag, read_lax_validation_list_tag", "cyclonedx-bom/src/specs/common/*.rs, specs/v1_5/*.rs: FromXml impls"]}
{"id": "C91", "title": "A CDATA section means its text", "statement": "Two XML documents that differ only in which texts (as the XML reader reports them, without white space at the ends) are written as CDATA sections are parsed alike: both are refused, or both give the same document.", "quantifier": "all pairs of documents that differ so, at any number of places and any depth, specification versions 1.3, 1.4 and 1.5", "why_tests_cant": "the documents are unbounded, and the property covers every reader of text", "anchors": ["cyclonedx-bom/src/xml.rs: read_simple_tag, inner_text_or_error, inner_text_or_none", "cyclonedx-bom/src/specs/v1_5/attachment.rs: Attachment::read_xml_element"]}
{"id": "C92", "title": "XML documents that say the same are read alike", "statement": "Two XML documents that differ, in any mixture, in attributes that are not read, the order of attributes, the order of different elements, which texts are CDATA sections, and content that is skipped or looked through, are parsed alike: both are refused, or both give the same document.", "quantifier": "all pairs of documents that differ so, in any number of ways at any depth, specification versions 1.3, 1.4 and 1.5", "why_tests_cant": "the documents and the combinations of differences are unbounded", "anchors": ["cyclonedx-bom/src/models/bom.rs: Bom::parse_from_xml_with_version", "cyclonedx-bom/src/specs/common/*.rs, specs/v1_5/*.rs: FromXml impls"]}
{"id": "C93", "title": "Conversions lose what the earliest version on the way cannot express, and nothing else", "statement": "A BOM that is saved as JSON and read back again and again, each time in a version of the caller's choice, with the members of the document in any order and by the reader that looks for the version or one that is told it, ends as what the earliest of these versions can express of it, under the number of the last version: the order and number of the other conversions do not matter. Taken through later versions only and back to its own, a document that was read is what it was, except for the names the library misspells. After the first stop no conversion fails, except into 1.3 for the first time.", "quantifier": "all BOMs, all finite sequences of specification versions 1.3, 1.4 and 1.5, all orders of the members of the documents and all three JSON readers", "why_tests_cant": "the BOMs and the sequences of conversions are unbounded", "anchors": ["cyclonedx-bom/src/models/bom.rs: Bom::output_as_json, Bom::parse_from_json", "cyclonedx-bom/src/specs/common/*.rs, specs/v1_3, v1_4, v1_5: TryFrom and From impls, serde derives"]}
{"id": "C94", "title": "A valid BOM is still valid after it was saved as JSON and read", "statement": "A BOM that passes validation for a version passes it again after it was saved as JSON in that version and read, provided that none of its names is among those the library misspells, no URL in it begins like a BOM-Link, and in 1.3 no dependency or composition refers to a vulnerability. Each of these conditions is needed.", "quantifier": "all BOMs, specification versions 1.3, 1.4 and 1.5, whatever the external checks of dates, URIs, package URLs and licenses answer", "why_tests_cant": "the BOMs are unbounded and nested to any depth", "anchors": ["cyclonedx-bom/src/models/bom.rs: Bom::output_as_json, Bom::parse_from_json, Validate for Bom", "cyclonedx-bom/src/models/*.rs: Validate impls"]}
{"id": "C95", "title": "A BOM that is valid for a version is valid for later ones, mixed licenses aside", "statement": "A BOM that passes validation for a version passes it for a later version exactly if every list of licenses in it is as the later version wants it, which only 1.5 restricts: licenses only, or at most one expression. Saved as JSON in the later version and read, it passes the validation of that version, under the conditions of C94.", "quantifier": "all BOMs, all pairs of specification versions, whatever the external checks of dates, URIs, package URLs and licenses answer", "why_tests_cant": "the BOMs are unbounded and nested to any depth", "anchors": ["cyclonedx-bom/src/models/bom.rs: Validate for Bom", "cyclonedx-bom/src/models/license.rs: Licenses", "cyclonedx-bom/src/models/*.rs: Validate impls"]}
{"id": "C96", "title": "Generated SBOMs can be converted to any versions and stay as they were", "statement": "Every SBOM file the tool plans to write, per crate or per artifact, can be saved as JSON and read back in any versions one after the other, with the members in any order and by any of the JSON readers: no conversion fails, nothing but the version number changes, and the result passes validation for every version, its own among them, under the conditions of C50.", "quantifier": "all cargo metadata with consistent indices, all configurations, all planned files, all finite sequences of specification versions", "why_tests_cant": "the metadata, and so the SBOMs, and the sequences of conversions are unbounded", "anchors": ["cargo-cyclonedx/src/generator.rs: SbomGenerator::create_sboms, GeneratedSbom::write_to_files", "cyclonedx-bom/src/models/bom.rs: Bom::output_as_json, Bom::parse_from_json, Bom::validate"]}
{"id": "C97", "title": "Valid BOMs stay valid through chains of conversions", "statement": "Let a BOM be saved as JSON and read back in any versions one after the other, with the members in any order and by any of the JSON readers. If the BOM passes validation for the earliest of these versions and is safe to save in it (the condition of C94), the result passes validation for that version. It also passes for every later version for which the BOM does not mix license expressions with other licenses (the condition of C95). So it passes its own validation if this holds for the last version.", "quantifier": "all BOMs, all date, URI and license checkers, all nonempty finite sequences of specification versions", "why_tests_cant": "the BOMs and the sequences of conversions are unbounded", "anchors": ["cyclonedx-bom/src/models/bom.rs: Bom::output_as_json, Bom::parse_from_json, Bom::validate, Bom::validate_version"]}
{"id": "C98", "title": "Generated SBOMs can be converted between JSON and XML and stay as they were", "statement": "Every SBOM file the tool plans to write, per crate or per artifact, can be saved and read back in any formats (JSON or XML) and versions one after the other: no conversion fails, and nothing changes but the version number and, once it was saved as XML, the blanks around texts. As in C57, no package may have a blank license name or an empty license file.", "quantifier": "all cargo metadata with consistent indices and legible licenses, all configurations, all planned files, all finite sequences of formats and specification versions", "why_tests_cant": "the metadata, and so the SBOMs, and the sequences of conversions are unbounded", "anchors": ["cargo-cyclonedx/src/generator.rs: SbomGenerator::create_sboms, GeneratedSbom::write_to_files", "cyclonedx-bom/src/models/bom.rs: Bom::output_as_json, Bom::parse_from_json, Bom::output_as_xml, Bom::parse_from_xml_with_version"]}

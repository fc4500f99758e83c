# Formal model of cyclonedx-rust-cargo in Rocq (Coq 8.16.1)

Sources: `/repo` (pinned commit), read as text. Model and proofs: `rocq/theories`.
Property list: `properties.jsonl`; claims: `MANIFEST.json`; mutation log: `seeded/LOG.jsonl`.

## Layout

* `*Model.v` / definitions: Gallina transcription of the Rust code. Every definition cites the file and
  lines it models, and says where it simplifies.
* `*Spec.v`: small, independent specifications (reachability, validity predicates, languages of patterns)
  that the theorems are stated against.
* `*Proofs.v`: lemmas.
* `*Props.v`: the theorems named in the manifest, each with a non-vacuity example and `Print Assumptions`.

| Part | Model | Specification | Theorems |
| --- | --- | --- | --- |
| shared: outcomes, strings, data types | `Base`, `Strings`, `Base64`, `ModelTypes` | | |
| cargo-cyclonedx: configuration, generator, output files | `ConfigModel`, `GenModel` | `GenSpec` | `GenProps` (C01-C20) |
| validation | `Enums`, `Regex`, `ValModel` | `ValSpec`, `ValLocSpec` | `ValProps`, `ValLocProps`, `ValBuildProps` (C21-C36, C52, C53) |
| generator and validation together | the above | the above | `GenValProps` (C09, C50, C51) |
| JSON | `Json`, `JsonModel` | `JsonSpec` | `JsonProps` (C37-C39, C43-C45, C47) |
| XML | `Xml`, `XmlModel` | `XmlSpec` (what a document carries), `XmlSpec2` (foreign elements, tidy documents), `XmlSpec3` (orderly documents) | `XmlProps`, `XmlProps2`, `XmlExactProps` (C40-C43, C45, C46, C48) |
| JSON schema | `Schema` (draft-07), `SchemaText` (translated schemas) | `SchemaSpec` | `SchemaProps` (C54) |
| Required parts (XML) | `XmlModel` | `ReqSpec` (table of requirements) | `ReqProps`, `XmlExactProps` (C55) |
| Accepted JSON | `JsonModel` | `GrammarSpec` (grammar of documents, no reference to the readers) | `GrammarProps` (C56) |
| JSON that says the same | `JsonModel`, `Json` | `SameSpec` over the grammar of `GrammarSpec` | `SameProps` (C58), proofs in `SameProofs`, `SameOrder` |
| Validation of formulas | `FormModel` | `FormSpec` | `FormProps` (C59), proofs in `FormProofs` |
| Saving JSON that was read | `JsonModel` | `ResaveSpec` | `ResaveProps` (C60), proofs in `ResaveProofs` |
| Saving XML, and saving XML that was read | `Xml`, `XmlModel` | `XmlSpec`, `XmlResaveSpec` | `XmlResaveProps` (C61, C62), proofs in `XmlSettle`, `XmlYield`, `XmlResave` |
| Converting XML to JSON | `Json`, `JsonModel`, `Xml`, `XmlModel` | `JsonSpec`, `ResaveSpec`, `ConvertSpec` | `ConvertProps` (C63), proofs in `ConvertProofs` |
| Readable XML, and converting JSON to XML | `Json`, `JsonModel`, `Xml`, `XmlModel` | `XmlFitSpec` | `XmlFitProps` (C64, C65), proofs in `XmlFitProofs`, `ConvertProofs2` |
| Reading the XML format | `Xml`, `XmlModel` | `XmlForm` | `XmlFormProps` (C66), proofs in `XmlFormRead`, `XmlFormProofs`, `XmlFormProofs2` |
| Writing the XML format | `Xml`, `XmlModel` | `XmlForm`, `XmlWrittenSpec` | `XmlWrittenProps` (C67), proofs in `XmlWrittenProofs` |
| The JSON format | `Json`, `JsonModel` | `JsonForm`, `JsonSpec` | `JsonFormProps` (C68), proofs in `JsonFormProofs` |
| Running the command | `RunModel` (with `ConfigModel`, `GenModel`) | `RunSpec` | `RunProps` (C69, C70) and `OrderProps` (C07, C69), proofs in `RunProofs` |
| Contents of generated SBOMs | `GenModel` | `DescribeSpec` | `DescribeProps` (C72) |
| Options | `ConfigModel`, `RunModel` | `OptionSpec` | `OptionProps` (C73) |
| Messages | `LogModel`, `GenModel` | `LogSpec` | `LogProps` (C74) |
| Debug assertions | `DebugModel` | in `DebugProps` | `DebugProps` (C75) |
| Messages of findings | `ValModel`, `FormModel` | `ValMsgSpec` | `ValMsgProps` (C76) |
| Queries and merging of results | `ValApiModel` | in `ValApiProps` | `ValApiProps` (C77) |
| Reasons to stop | `RunModel`, `ConfigModel`, `GenModel` | `StopSpec` | `StopProps` (C78) |
| Lenient constructors | `LaxModel` | in `LaxProps` | `LaxProps` (C79) |
| Command line | `CliModel` | `CliSpec` | `CliProofs`, `CliProps` (C80) |
| Whole invocations | `InvokeModel` | `InvokeSpec` | `InvokeProps` (C82) |
| Histories | `InvokeModel` | `HistorySpec` | `HistoryProps` (C83) |
| Schedules | `InvokeModel` | `TogetherSpec` | `TogetherProps` (C84) |
| Positions in files | `ShareModel` | `ShareSpec` | `ShareProps` (C85) |
| Places of an XML document | `XmlModel` | `StrictSpec` | `StrictProps` (C86) |
| Content that is skipped or looked through | `XmlModel` | `PassSpec` | `PassProps` (C87) |
| Any number of invocations | `InvokeModel`, `ShareModel` | `CrowdSpec` | `CrowdProps` (C88) |
| Attributes that are read | `XmlModel` | `AttrSpec` | `AttrProofs`, `AttrProps` (C89) |
| Order of elements | `XmlModel` | `SwapSpec` | `SwapProofs`, `SwapProps` (C90) |
| CDATA sections | `XmlModel` | `CdataSpec` | `CdataProps` (C91) |
| XML documents that say the same | `XmlModel` | `MixSpec` | `MixProps` (C92) |
| conversions between versions | `JsonModel` | `ChainSpec` | `ChainProps` (C93) |
| validity after saving | `JsonModel`, `ValModel` | `StaySpec` | `StayProps` (C94) |
| validity for later versions | `ValModel` | `UpSpec` | `UpProps` (C95) |
| conversions of generated SBOMs | `GenModel`, `JsonModel`, `ValModel` | `ChainSpec`, `GenSpec` | `MoveProps` (C96) |
| validity after chains of conversions | `JsonModel`, `ValModel` | `ChainSpec`, `StaySpec`, `UpSpec` | `HoldProps` (C97) |
| conversions of generated SBOMs between formats | `GenModel`, `JsonModel`, `XmlModel` | `TripSpec`, `GenReadSpec`, `ChainSpec` | `TripProps` (C98) |
| Nulls and names in JSON | `JsonModel` | `NullSpec` | `NullProofs`, `NullProps` (C81) |
| Constructors | `BuildModel` (with `GenModel`) | `BuildSpec` | `BuildProps` (C71), proofs in `BuildProofs` |
| Generated SBOMs read back | `GenModel`, `JsonModel`, `XmlModel` | `GenReadSpec` (the BOM with texts trimmed) | `GenReadProps` (C57) |
| the versioning macro | `VersionedModel` | `VersionedSpec` | `VersionedProps` (C49) |

## Modelling conventions

* Rust `String`/`&str`: Coq `string`, read as the UTF-8 bytes of the text. All characters the code
  inspects individually are ASCII, so searching, splitting and replacing agree on bytes and chars.
* `Result`: a data type; panics (`unwrap`, indexing, explicit `panic!`) are a third outcome, so
  "does not panic" is a statement. Unbounded loops take fuel and have an explicit out-of-fuel outcome,
  which is proved not to occur.
* `BTreeMap`: association list sorted by key; `HashMap`/`HashSet`/`IndexMap`: association lists/lists.
* External crates are not modelled: their results enter as function parameters (a `World`/oracle record)
  over which every theorem is universally quantified.
* Where the code violates the property, the faithful model is kept, the violation is a theorem with
  the suffix `_refuted`, and the strongest true variant is proved beside it.

## Plan per property

* **C01 Listed components are exactly the reachable packages.** Model: Gen*: cargo metadata records, `index_packages`, `index_resolve`, `all_dependencies` (level BFS), `create_bom`. Proof: Invariant of the BFS (seen set = keys of the output map, frontier inside it), completeness by induction on reachability; reachability is an inductive relation on the raw node list in GenSpec.
* **C02 Top-level mode lists exactly the direct dependencies.** Model: `top_level_dependencies`. Proof: direct computation lemma plus map lemmas.
* **C03 The dependency section is exact and closed.** Model: `add_filtered_dependencies`, `create_dependencies`. Proof: map lemmas, closure from C01's invariant.
* **C04 Graph traversals terminate and do not panic.** Model: fuelled BFS/DFS with explicit out-of-fuel outcome and explicit panic outcomes. Proof: explicit measure: unvisited (node,kind,path-kind) triples; theorem exhibits sufficient fuel for every graph; panic-freedom under closed metadata.
* **C05 Dependency kind is the strongest over all paths.** Model: `index_dep_kinds` as the stack machine of the code. Proof: DFS invariant; soundness (every recorded kind is witnessed by a path) and completeness (every path's bottleneck is dominated).
* **C06 Excluding build dependencies leaves only required components.** Model: as C01 and C05. Proof: corollary of C01 and C05.
* **C07 Output does not depend on the order of cargo metadata.** Model: `BTreeMap` as sorted association list (insert, get). Proof: extensionality of sorted association lists; `from_list` invariant under permutation of distinct keys. The lists inside the nodes may come in another order, too (`C07_dependency_order`, `GenProofs9.v`): the graph notions of `GenSpec.v` depend on the edges alone, so components, scopes and the set of dependencies stay the same, and only the order of the names inside each `dependsOn` follows cargo's order.
* **C08 Reproducible output under SOURCE_DATE_EPOCH.** Model: clock/uuid/environment as fields of a `World` record. Proof: two worlds agreeing on the environment give equal results.
* **C09 Generated SBOMs have unique and resolvable references.** Model: generator output mapped to the bom-ref view used by validation. Proof: C01/C03/C20 plus the exactness theorems C22/C23.
* **C10 Component contents come from the right package.** Model: `create_component`, `get_licenses`, `get_hashes`, `package_hashes`. Proof: case analysis, induction over lockfile entries.
* **C11 Per-artifact SBOMs differ only in the described artifact.** Model: `per_artifact_sboms`. Proof: induction over sub-components.
* **C12 Output files stay beside the manifest and do not clobber each other.** Model: `filename`, `write_to_files`. Proof: injectivity lemmas on string concatenation; a refutation where collisions exist.
* **C13 Command-line settings take precedence over the environment.** Model: `SbomConfig::merge`, `from_env`, `resolve_config`. Proof: refutation by a concrete configuration pair (the code does the opposite), plus the exact characterisation of what is done.
* **C14 Configuration merging is a lawful override.** Model: `SbomConfig::merge`, `LicenseParserOptions::merge`. Proof: case analysis; set union lemmas.
* **C15 Feature lists are split completely.** Model: `as_config` feature splitting. Proof: induction over strings.
* **C16 The nearest lockfile is used.** Model: `locate_cargo_lock` over a path as component list. Proof: induction over ancestors.
* **C17 Git source URLs are rewritten faithfully.** Model: `source_to_vcs_url`. Proof: string lemmas.
* **C18 Author strings are parsed faithfully.** Model: `parse_author` with its regular expression expanded into a matcher. Proof: string lemmas. The trimming of names is stated on its own: `SpaceSpec` lists the code points Unicode calls white space as UTF-8 bytes, and `SpaceProps` proves that the model's trim removes exactly these at both ends.
* **C19 External references are complete and ordered.** Model: `get_external_references`. Proof: case analysis.
* **C20 Described targets have unique references and known kinds.** Model: `create_toplevel_component`. Proof: induction over targets; injectivity of decimal printing.
* **C21 Normalized strings are normal.** Model: `NormalizedString::new`, `validate_normalized_string` on byte strings. Proof: induction over the string.
* **C22 Validation detects duplicate bom-refs.** Model: the bom-ref traversal of `Bom::validate_version` over recursive component/service trees. Proof: nested induction; `NoDup` of an independently defined list of references.
* **C23 Validation detects dangling references.** Model: the dependency/composition checks of `Bom::validate_version`. Proof: membership in the same list.
* **C24 Validation never panics.** Model: every `validate_version`, with the builder's panics as explicit outcomes. Proof: compositional: each builder call is given a fresh key.
* **C25 Validation passes exactly when every checked field is valid.** Model: every `validate_version`. Proof: an independent predicate `valid_*` per type; equivalence by structural induction.
* **C26 List errors point at the failing elements.** Model: `ValidationContext::add_list`. Proof: induction over lists.
* **C27 Unique lists report exactly the repeated elements.** Model: `ValidationContext::add_unique_list`. Proof: induction over lists.
* **C28 Serial numbers are well-formed URNs.** Model: `UrnUuid` with regular-expression semantics. Proof: regular-expression matcher proved equivalent to a denotational semantics; shape lemma.
* **C29 Hash values are checked in full.** Model: `validate_hash_value` regex. Proof: refuted (alternation binds weaker than the anchors); exact language proved instead.
* **C30 CPE names are checked in full.** Model: `validate_cpe` regex. Proof: refuted (unanchored).
* **C31 Confidence scores lie between 0 and 1.** Model: `validate_confidence` on binary32 floats (Flocq) . Proof: refuted; exact accepted set proved.
* **C32 Every timestamp of a vulnerability analysis is checked.** Model: `VulnerabilityAnalysis::validate_version`. Proof: refuted (checks first_issued twice).
* **C33 Enumerated values survive being written and read.** Model: all `new_unchecked`/`Display` pairs. Proof: case analysis over strings; two refutations (misspelt names), partial theorems for the rest.
* **C34 Validation enforces version-specific value sets.** Model: the version-gated checks. Proof: case analysis; refutation for aggregate types.
* **C35 Pattern checks accept exactly their documented language.** Model: regexes. Proof: matcher correctness + shape lemmas.
* **C36 Checked constructors agree with validation.** Model: constructors parameterised by the underlying parser. Proof: unfolding; holds for all parsers.
* **C37 JSON round trip, version 1.3.** Model: spec structs, `From`/`TryFrom` conversions, serde encoding/decoding over a JSON value type. Proof: structural induction over the recursive types; field-lookup automation.
* **C38 JSON round trip, version 1.4.** Model: spec structs, `From`/`TryFrom` conversions, serde encoding/decoding over a JSON value type. Proof: structural induction over the recursive types; field-lookup automation.
* **C39 JSON round trip, version 1.5.** Model: spec structs, `From`/`TryFrom` conversions, serde encoding/decoding over a JSON value type. Proof: structural induction over the recursive types; field-lookup automation.
* **C40 XML round trip, version 1.3.** Model: `ToXml`/`FromXml` over an XML event stream; the xml-rs writer/reader pair is an explicit function that trims text. Proof: structural induction over types; losses found in the code are stated as refutations and the positive theorem is stated for the remaining fields.
* **C41 XML round trip, version 1.4.** Model: `ToXml`/`FromXml` over an XML event stream; the xml-rs writer/reader pair is an explicit function that trims text. Proof: structural induction over types; losses found in the code are stated as refutations and the positive theorem is stated for the remaining fields.
* **C42 XML round trip, version 1.5.** Model: `ToXml`/`FromXml` over an XML event stream; the xml-rs writer/reader pair is an explicit function that trims text. Proof: structural induction over types; losses found in the code are stated as refutations and the positive theorem is stated for the remaining fields.
* **C43 Writing for a version fails only for documented reasons.** Model: `TryFrom` conversions. Proof: structural induction.
* **C44 The declared version selects the parser.** Model: `parse_json_value`. Proof: case analysis.
* **C45 A parser for one version rejects documents of another.** Model: entry points per version. Proof: JSON refuted if the parser does not compare the declared version; XML proved.
* **C46 Unknown XML elements are skipped without side effects.** Model: event-stream readers. Proof: induction over trees; documents of version 1.3 need no condition (see C48).
* **C47 Unknown JSON keys are ignored, repeated keys rejected.** Model: serde object decoding. Proof: lemmas on key lookup, lifted through the codecs.
* **C48 XML readers consume exactly their element.** Model: event-stream readers. Proof: induction on streams; the evidence reader is examined separately. For whole documents of versions 1.3 and 1.4 (`XmlExact.v`): a reader that stops early leaves an end tag that the readers around it, which do not look through unknown elements, cannot take (counting start and end tags), so a document that is read was read exactly. This needs nothing of documents of version 1.3 and plain signatures in version 1.4 (`XmlSpec3.orderly`).
* **C49 Version-specific code selection.** Model: the macro on an abstract item tree. Proof: induction over the tree.
* **C50 Generated SBOMs pass the library's own validation.** Model: generator and validator together, with the same oracles. Proof: the shape of generated SBOMs, then C25's equivalence; a refutation shows the condition on package links is needed.
* **C51 Package URLs name the package and its source.** Model: `get_purl`. Specification: `qualifier_of`, with `leads` (the relative way between two directories) and `repository_at` (the forms of git sources), in `GenValProps.v`. Proof: case analysis over sources.
* **C52 Findings are filed under the offending field.** Model: `ValidationContext` keys. Proof: one equivalence per structure.
* **C53 Validation findings accumulate.** Model: the builder of validation results. Proof: induction over the sequence of calls.
* **C54 Written JSON documents conform to the CycloneDX schema.** Model: the schemas shipped in `cyclonedx-bom/test-utils/schema`, translated to Coq data by `tools/schema2coq.py`, and the semantics of the JSON Schema keywords they use. Proof: one lemma per structure; conditions validation does not ensure are explicit, and the deviations are refutations.
* **C55 Required parts (XML).** Model: the XML readers. Specification: the table `ReqSpec.requirements` (element and surrounding elements, required attributes, required children). Proof: an accepting reader has seen what it requires (one lemma per reader), an element that is read was accepted by its reader, induction over the way down. Partial: orderly documents (`XmlSpec3.orderly`), which are all documents of version 1.3; `C55_signature_refuted` and `C55_untidy_refuted` show that documents of versions 1.4 and 1.5 that are not orderly are read without required parts.
* **C56 Which JSON documents are read.** Model: the JSON readers. Specification: a grammar of kinds of values (`GrammarSpec.grammar`: members of each object, required or not, type of their values) and `fits`, structural over the document. Proof: one lemma per reader, acceptance = fitting the kind of its name, by induction on the size of the document for the readers that call themselves. `C56_members` says in terms of members what the grammar requires of an object. The member names and presence in the grammar were compared with the `Deserialize` structs in `/repo` by a script; the flattened and untagged types were compared by hand.
* **C57 Generated SBOMs can be read back.** Model: the generator, the plan of files, both writers and both readers. Specification: `as_version`, `trimmed` (`GenReadSpec.v`). Proof: components of generated SBOMs use few fields (shape lemma over `create_component` and `retarget`), on which what JSON keeps is everything and what XML keeps is everything but blanks; then C35 to C42. `C57_empty_license_refuted`: the condition on licenses is needed.
* **C58 JSON documents that say the same are read alike.** Model: all JSON readers and the three entry points. Specification: the relation `same` over the kinds of the grammar of C56 (`SameSpec.v`), which does not mention the readers. Proof: for every reader, by induction on the size of the value, values related at its kind are read to the same result; for order, `like` documents are related, by induction on size. `C58_order_needed`: the conditions on order are needed.
* **C59 What validating a formula means.** Model: the validators of `models/formulation` (`FormModel.v`). The derived equality of the elements of unique lists is an oracle record `equalities`, quantified over; `C59_different_is_nodup` says what a set is when it is equality. Specification: `valid_X` and `fields_of_X` (`FormSpec.v`), which do not mention the validators. Proof: field by field, with the lemmas of C25. `C59_all_parts_checked_refuted`: some parts carry no rule in the code.
* **C60 A JSON document that was read can be saved again.** No new model. Specification: `respell_X`, the identity up to three names, and `numbers_fit` (`ResaveSpec.v`). Proof: for each type, what a later version keeps of a value that was read is the respelled value, by induction on the size of the JSON value; every component of the BOM is shown to have been read from a part of the document, so that the conditions of C39 and C43 hold. `C60_any_number_refuted`, `C60_earlier_version_refuted`: the conditions are needed.
* **C61 Saving as XML settles.** No new model. Proof: for each type, what XML keeps of a value (`kx_X`, C40-C42) is a function that is total on its results and settles after two applications (`st_X`), by induction on components and services. `C61_one_round_refuted`: one round is not enough.
* **C62 An XML document that was read can be saved again.** No new model. Specification: `saves_well` (`XmlResaveSpec.v`), a condition on each event of the document. Proof: a logic for readers, `yields d P`: whatever the reader `d` returns has the property `P` (`XmlYield.v`), applied to `fun x => kx_X x <> None` and, for writing in 1.3, to the presence of versions. `C62_always_readable_refuted`, `C62_earlier_refuted`: every condition is needed.
* **C63 An XML document that was read can be converted to JSON.** No new model. Specification: `ConvertSpec.v`, a function from BOMs to BOMs that makes the listed changes and no other. Proof: the logic for readers of C62 with `P x := kept_X x = as_json_X x`, where `kept_X` is what JSON keeps of any value (C37-C39); the version of every component of a 1.3 document as in C62. `C63_changes` says what the changes are, `C63_always_unchanged_refuted` that they happen, `C63_always_readable_refuted` that the condition on confidences is needed.
* **C64 Which BOMs can be read after they were saved as XML.** No new model. Specification: `XmlFitSpec.v` lists the parts of a BOM that the saved document has and says which fit. Proof: for each type, what XML keeps of a value (`kx_X`, C40-C42) is something iff all parts of the value fit, by induction on components and services.
* **C65 A JSON document that was read can be converted to XML.** No new model. Proof: as for C60, every component that is read has what the writer needs; the parts of a BOM that was read are of the kinds its version has (`bom_good`), by induction on the size of the document; with C64. `C65_always_readable_refuted`, `C65_task_refuted`: the conditions are needed.
* **C66 XML documents in the form of the format are read correctly.** No new model. Specification: `XmlForm.v`, written from the example documents of the standard in `tests/spec`, not from the readers: the form of every type, which documents say the same, and what an application should get. Proof: for each type, its reader gives that value on every document that says the same as the form (`tells`); alternatives of a reader own disjoint sets of names, so that children can be reordered between alternatives; induction on the fuel for components and services. `float_text_exact`: the texts of floating point numbers are read as themselves and have no white space. `C66_model_card_refuted`, `C66_unreadable_refuted`: the parts that are left out.
* **C67 Saved XML documents are in the form of the format.** No new model. Specification: `form_bom` of C66, and `written_part` (what of a BOM is written) and `part_standard` in `XmlWrittenSpec.v`. Proof: type by type, the written element is the form of the written part; induction on components and services. `C67_attachment_refuted`, `C67_task_refuted`, `C67_resource_refuted`, `C67_dataset_refuted`, `C67_flow_refuted`: each exception is needed.
* **C68 JSON documents are read and written in the form of the format.** No new model. Specification: `JsonForm.v`, written from the official schemas, in two dialects that differ where it says `if standard`. Proof: type by type, the written value is the form in the dialect of the library; reading by C37-C39. `C68_always_read_refuted` and `C68_always_read_right_refuted`: documents in the form of the standard, checked against the official schema, that the library refuses or reads incompletely, one for each difference.
* **C69 What a run does to the disk.** Model: `RunModel.v`, the program as a transition system over the contents of the disk: generation first (composed from the earlier models), then for each package and file validate (debug builds), create, append pieces of any size, close; creating and writing may fail where the disk does. Any reachable state is a possible crash point. Proof: an invariant over the steps, a decreasing measure, and C04, C08, C12, C50, C57. `C69_old_files_survive_refuted`: files are truncated before they are rewritten. Not modelled: files written by cargo itself, clap, the logger, file systems that do not tell upper from lower case, loss of data after a successful flush. `OrderProps.v` lifts C07 to runs: on a machine whose cargo gives the same lists in another order a successful run leaves the same disk (`C69_order_independent`; `C69_member_order` if the workspace members are permuted as well and have directories of their own).
* **C70 What a run asks cargo and rustc for.** Model: `RunModel.v` (platform.rs, main.rs); specification of the output of rustc (`host_named`) in terms of the text. Proof: induction over the lines.
* **C71 What the constructors make.** Model: `BuildModel.v`, each constructor and assignment. Specification: `made_bom`, an inductive description of everything a program can put together. `C71_carried` and the `C71_..._assignments` theorems state what JSON shows of each. Proof: induction over it, with C25 (valid = passes), C37-C39 (what JSON keeps), C43, C64. `C71_service_refuted`, `C71_entity_refuted`: `Service::new` and `OrganizationalEntity::new` keep line breaks in names, so the full claim is false of them; the `_partial` theorems state when what they make is valid. Fields without an assignment in the model: mime type, SWID tag, pedigree, evidence, model card, data, signatures, compositions, annotations, formulation.
* **C72 What an SBOM says.** Model: `GenModel.v`. Specification: `DescribeSpec.v` states field by field what a component says about a package (`describes`) or an artifact (`describes_target`) and what the metadata say (`says_who_and_when`), with the absent fields listed. Proof: inversion of a successful generation, with the lemmas behind C10, C16, C18, C19, C51.
* **C73 Each option does what it says.** Model: `ConfigModel.v`, `RunModel.v`, `GenModel.v`. Specification: `OptionSpec.v`: the target as text, and the names of the files of a package as a function of the options. Proof: inversion of `run_config`, with the lemmas behind C12 and C70. `clap_accepts` are the conflicts declared in cli.rs; C80 proves them of what the command line gives.
* **C74 What is left out is reported.** Model: `LogModel.v`, the warnings and notes of the generator as a list, function by function beside `GenModel.v`. Specification: `LogSpec.v` says what each message is about in terms of the manifest and of the SBOM (`told`, `declares`, `links_to`, `odd_target`, `source_kind`). Each theorem is an equivalence between the message and the loss. Proof: inversion of a successful generation, with the lemmas behind C16, C18 and C19. Observed on the way: the package URL of an artifact that packageurl refuses is dropped without a message (generator.rs:323), and a missing checksum is only logged at the level "debug". Not modelled: the levels "debug" and "trace", the wording, `setup_logging`.
* **C75 When a debug build stops.** Model: `DebugModel.v`, the calls of `get_purl` that a generation makes, with their assertions. Proof: inversion of a successful generation; each call checked against the paths. `C75_refuted` is the finding: `debug_assert!(root_package_dir.starts_with(workspace_root))` (purl.rs:42) does not hold for a member outside the root (cargo allows `members = ["../app"]`) with a path dependency inside it. The other assertions: generator.rs:970 concerns an argument only given for artifacts; generator.rs:863 is in C69 and C50.
* **C76 Findings say what is wrong.** Model: `ValModel.v`, `FormModel.v`. Specification: `ValMsgSpec.v`, one wording per structure (name of the field, entry that stands there). Proof: what a builder chain files under a name is what the call with that name reports (`collect_slot`). Together with C52 (under which names there are entries) this fixes the entries of all fields with rules of their own; C22 and C23 do so for references.
* **C77 Queries and merging.** Model: `ValApiModel.v`. Proof: induction over the list of results from its end.
* **C78 Why a run makes no SBOM.** Model: `RunModel.v`. Specification: `StopSpec.v`, one constructor per reason, and decimal numbers as an inductive relation. Proof: each reason determines the outcome of the generation (given the description of a workspace as cargo makes it, generation stops only at the clock), the outcomes differ, and a case analysis shows that there is no other.
* **C79 Lenient constructors.** Model: `LaxModel.v`; the license and package URL libraries are an oracle record (`lenient`). Specification: replacing slashes as an inductive relation. Proof: induction over the text.
* **C80 Command line.** Model: `CliModel.v`: the options of cli.rs, and the rules of clap 4 by which they are read (clap is a dependency that is not in the repository: these rules are part of the trusted base). Specification: `CliSpec.v`: a table of the options, a grammar (`written`) and what the options written ask for (`asks`). Proof: the lexer inverts the grammar (induction over the arguments), the rest field by field. `C80_accepted` shows that the hypothesis `clap_accepts` of C12, C69 and C73 holds of exactly the options that a command line can give. Not modelled: arguments that are not Unicode, error messages, the text of help and version.
* **C81 Nulls and names.** Model: `JsonModel.v`. Specification: `NullSpec.v`: what is found in a document under a path of names, and the paths where a null may stand (`hole`). Proof: by C68 a written document is in the form of `JsonForm.v`; there one lemma per object, induction over components and services. Generated SBOMs: what fits in version 1.3 has no license terms (C57's lemmas).
* **C82 Whole invocations.** Model: `InvokeModel.v` puts `CliModel.v` before `RunModel.v`. Specification: `InvokeSpec.v`: the path of an SBOM of a package of the workspace (`sbom_path`), from the options the words ask for (`asked`, C80). Proof: from C69, C73 and C80. `cargo_is_cargo` (C78) says that what cargo answers describes a workspace. Not modelled: links between files, and what cargo itself writes (it may create Cargo.lock).
* **C83 Histories.** Model: `InvokeModel.v`. Specification: `HistorySpec.v`: invocations one after the other, each on the disk that the last state of the one before left (that state need not be an end). Proof: induction over the history with C69 and C82; that the paths do not depend on the clock comes from C73.
* **C84 Schedules.** Model: the steps of `RunModel.v`. Specification: `TogetherSpec.v`: the steps of two invocations in any order on one disk; `apart` says that no path is an SBOM asked of both. Proof: a step depends on, and changes, the disk only at the paths of the files still to be written; so each invocation can be replayed alone (induction over the schedule).
* **C85 The same files at the same time.** Model: `ShareModel.v`: as `RunModel.v`, but each program writes at a position of its own, and a file that another program has truncated is filled up with zeros, as POSIX says. Specification: `ShareSpec.v`. Proof: `C85_alone`: for one program this is `RunModel.v`; `C85_apart`: with different files C84 holds. The rest by an invariant over schedules: the content of a file agrees with its text up to the progress of one of the two. `C85_mixture_refuted`: not so when the texts differ.
* **C86 Unexpected content is refused.** Model: `XmlModel.v`. Specification: `StrictSpec.v`, a table of the places of a document with their elements and the rule for anything else; it names no reader. Proof: every reader obeys the table (`StrictProofs.v`), and a reader that obeys the table does not accept a tree with something refused in it, by induction on the description of the reader. `C86_untidy_refuted`: in version 1.5 the condition on the document is needed.
* **C87 What is neither expected nor refused.** Model: `XmlModel.v`. Specification: `PassSpec.v`, over the same table of places as C86. Proof: a reader that obeys the table gives the same result for two trees that differ in one skipped or looked-through thing, by induction on the description of the reader; then the exactness of the parser on orderly documents (C48). Unlike C46, the elements need not be foreign to the whole format: an element that is listed somewhere else is skipped or looked through too.
* **C88 Any number of invocations.** Model: `RunModel.v`, `InvokeModel.v`, `ShareModel.v`. Specification: `CrowdSpec.v`: a list of invocations with a state each, one disk; at each step another invocation begins or one goes on. Proof: invariants over the steps; the invariants of C84 and C85 for one program among others. `C88_histories` and `C88_two` show that the histories of C83 and the pairs of C84 and C85 are special cases; `C85_mixture_refuted` applies to requests that are not the same.
* **C89 Only the listed attributes matter.** Model: the readers of `XmlModel.v`. Specification: `AttrSpec.v`: the attributes of an element by the place it is found in (the places of `StrictSpec.v`); one change of attributes, anywhere (directly inside signatures: at expected elements), and any number of changes. Proof: every reader reads the attributes listed (`AttrProofs.v`), then induction over readers and documents. In versions 1.4 and 1.5 for orderly documents, as in C87.
* **C90 The order of different elements does not matter.** Model: the readers of `XmlModel.v`. Specification: `SwapSpec.v`: the alternatives of each place of `StrictSpec.v`; exchanging two neighbours that are not, and any number of exchanges. Proof: every reader keeps elements of different names in different components of its state, except alternatives (`SwapProofs.v`), so that their updates commute; then induction over readers and documents. In versions 1.4 and 1.5 for orderly documents, as in C87. `C58` is the counterpart for JSON.
* **C91 A CDATA section means its text.** Model: the readers of `XmlModel.v`. Specification: `CdataSpec.v`. Proof: induction over readers and documents, with the table of places of C86. Partial: attachments of version 1.5 are read from text only, and a document with an attachment in a CDATA section is refused (`C91_attachment_refuted`); in versions 1.4 and 1.5 for orderly documents, as in C87.
* **C92 XML documents that say the same.** Specification: `MixSpec.v`, the union of the differences of C87, C89, C90 and C91. Proof: step by step; every step keeps a document orderly. The counterpart of C58.
* **C93 Chains of conversions.** Specification: `ChainSpec.v` (a journey through versions, by any of the three readers and with members reordered on the way; its earliest version) on top of `kept_bom` of `JsonSpec.v`. Proof: for every type, keeping what `w` and then what `v` can express is keeping twice what the earlier of the two can (`ChainProofs.v`, induction over nested components and services); then by induction over the journey. That the later steps succeed follows from C60.
* **C94 Validity after saving.** Specification: `StaySpec.v` (`safe_to_save`), on top of `valid_bom` of `ValSpec.v`. Proof: one lemma per type, that what a document keeps of a valid value is valid (`StayProofs.v`, induction over nested components and services); references are preserved. Each condition of `safe_to_save` has a counterexample.
* **C95 Validity for later versions.** Specification: `UpSpec.v` (`unmixed_bom`). Proof: one lemma per type in both directions (`UpProofs.v`), on top of `valid_bom` and C25; upgrading a document is C94 after it.
* **C96 Conversions of generated SBOMs.** Proof (`MoveProps.v`): by induction over the journey of C93, from what C57 says about one step; validity from C50.
* **C97 Validity after chains of conversions.** Proof (`HoldProofs.v`, `HoldProps.v`): C93 gives the result as the BOM kept twice by the earliest version; keeping it once is valid by C94, also for parsers that accept no links, and this makes keeping it again valid. Keeping a BOM does not mix licenses, so C95 covers the later versions.
* **C98 Conversions of generated SBOMs between formats.** Proof (`TripProofs.v`, `TripProps.v`): what C57 says about the first step holds for the trimmed SBOM as well, since trimming twice is trimming once; induction over the sequence.

## What is modelled

* `cargo-cyclonedx/src`: `config.rs`, `generator.rs`, `purl.rs`, `format.rs`, `platform.rs`, `urn`-handling, the
  precedence logic of `cli.rs`, `main.rs` (with the writing of files as steps that may be interrupted), `locate_cargo_lock`.
* `cyclonedx-bom/src/models` (every public type), `validation.rs`, every `validate` method reachable from
  `Bom::validate_version` (and, by name, what it does not reach), the constructors, `external_models`.
* `cyclonedx-bom/src/specs`: every struct and enum, the conversions from and to the models, serde encoding and
  decoding, and the XML writers and readers, for 1.3, 1.4 and 1.5. `xml.rs`.
* `cyclonedx-bom-macros/src/lib.rs`.

Not modelled: the inside of clap (its rules are in `CliModel.v`), cargo and `cargo_metadata` (their result is the input), the debug log, error
messages beyond the validation findings, reading files, the text layer of serde_json and xml-rs (see below), the
conversions that only wrap or unwrap a text, tests and test utilities, `versioned`'s use of syn's parser.

## Trusted base

* Coq 8.16.1's kernel (`coqc`; `coqchk -o` has been run over the whole development).
* `Print Assumptions` prints "Closed under the global context" for every theorem named in the manifest: no axioms, not
  even of the standard library. (`vcheck` lists `Coq.ssr.ssrunder.Under_rel...`; these are the parameters of a
  module type of the ssreflect plugin's standard-library part that is loaded by `lia`'s dependencies; no theorem uses them.)
* The correspondence between the Rust text and the Gallina definitions, by reading, cited per definition.
* External code enters as parameters the theorems quantify over; what is assumed about it is a visible hypothesis:
  * `world` (generator): clock, random bytes, environment, the SPDX, purl, URL and license parsers. C50 assumes
    `same_libraries`: generator and validator use the same parsers.
  * `parsers` (validation): URL, SPDX, date-time, purl parsers. Arbitrary functions.
  * `equalities` (formulas): the derived equality of the elements of sets. Arbitrary functions.
  * `float_text` (JSON, XML): printing and parsing `f32`. The XML round trips assume `float_text_ok` (the text of a
    finite `f32` parses to the same `f32`), which `sample_floats_ok` shows to be satisfiable.
  * serde_json: a JSON text is identified with its value (object members in order, duplicates kept). serde's derive
    macros are transcribed as functions on such values.
  * xml-rs: a well-formed document is identified with the events of a tree (`flat`), an ill-formed one has `EBad`
    where the error is noticed. Written text comes back trimmed, CDATA as it is; text XML cannot carry (control
    characters, `]]>` in CDATA, the normalisation of line ends) is outside the model. Repeated attributes are an error.
  * regex: the patterns are modelled as regular expressions with a matcher proved equal to their denotation; that the
    crate implements this semantics on UTF-8 bytes is trusted.
  * clap: how options may be written, repeated and combined is modelled in `CliModel.v` from the documentation of clap 4.
  * syn/quote: syn's default folds visit every child once; printing an unchanged node gives its tokens.
* JSON schema (C54): `SchemaText.v` is the output of `tools/schema2coq.py` on the schema files in
  `cyclonedx-bom/test-utils/schema`; the script and `Schema.v`'s reading of the draft-07 keywords are trusted. Formats
  (`date-time`, `iri-reference`, `idn-email`, `uri`) are an arbitrary function `fmt`; the theorems assume `formats_agree`
  (what the library's parsers accept has the schema's format) and, for generated SBOMs, `emails_agree`.
* 64-bit target, release profile (no overflow panics).

## Findings

Deviations of the code from what its users would expect, each found while proving. Theorem names in parentheses where the
deviation is a theorem.

Generator and configuration
1. Command-line settings do not override the environment (`C13_cli_precedence_refuted`).
2. `source_to_vcs_url` leaves query and fragment parts of git URLs in unexpected places (C17).
3. An invalid `SOURCE_DATE_EPOCH` is a panic.
4. `File::create` truncates the old file before serialisation can fail.
5. A custom file name with `--describe binaries` makes the files overwrite each other.
6. `--target some/path.json --target-in-filename` puts a `/` in the file name (`C12_target_path_in_name_refuted`).
7. `dependsOn` can contain an entry twice.
8. The generated BOM value carries `spec_version` 1.3 whatever version is written.
9. A package link starting with `urn:cdx` makes the SBOM invalid in 1.3 and 1.4 (`C50_bom_links_refuted`).
9a. Two runs at the same time without `SOURCE_DATE_EPOCH` may leave a mixture of two SBOMs and report success (`C85_mixture_refuted`).

Validation
10. The hash pattern's alternation is not grouped, so most prefixes and suffixes pass (C29). 
11. The CPE pattern is not anchored (C30).
12. The confidence check only rejects negative values (C31).
13. `last_updated` is checked by looking at `first_issued` (C32); `rejected` is not checked at all.
14. `AggregateType` has a misspelt name and its version gate is off by one (C33, C34); `condified-infrastructure`.
15. `IdentityField::Unknown` and `Algorithm::Unknown` do not display the text they were made from.
16. Vulnerability references of compositions are not resolved; components in a pedigree are not counted for uniqueness.
17. Annotations, formulation, signatures, model cards and component data are not validated.
18. A BOM valid for 1.4 may be invalid for 1.5 (license choices mixed with expressions).

JSON
19. The JSON parsers for one version accept documents declaring another (`C45_json_version_refuted`).
20. The parser that looks at the declared version accepts repeated members, the last one counts; the others reject them.
21. NaN and infinite scores become `null`; a required confidence that is NaN is written and cannot be read.
22. The reference member of contacts, organisations, licenses, expressions, occurrences, compositions, component data
    and model cards is called `bomRef`.
23. `confidence_interval`, `size_allocated`, `Organization`, `Contact` are spelt like the Rust names.
24. Licensing writes absent fields as `null`.
25. A signature chain reads back as signers; service data reads back as classifications.
26. An unknown member next to the key of an externally tagged alternative makes the document unreadable.
27. An undefined version range reads back as a version; `vers:` texts with a line feed are versions.

JSON and the official schema (C54; one theorem per item, plus `C54_validation_alone_refuted`)
S1. `bomRef` instead of `bom-ref` (`C54_composition_bom_ref`, `C54_author_bom_ref`, `C54_supplier_bom_ref`,
    `C54_license_bom_ref`, `C54_license_expression_bom_ref`, `C54_model_card_bom_ref`, `C54_occurrence_bom_ref`,
    `C54_data_set_bom_ref`).
S2. `responses` instead of `response` in a vulnerability analysis (`C54_analysis_responses`).
S3. `condified-infrastructure` (`C54_codified_infrastructure`).
S4. Lists and chains of signers are written as bare arrays (`C54_signature_list`).
S5. A licensing with any member missing carries `null`s (`C54_licensing_null`).
S6. Data governance parties are `Organization`/`Contact` (`C54_governance_parties`); `confidence_interval`
    (`C54_confidence_interval`); `size_allocated` (`C54_volume_size`).
S7. The data of a component are an object instead of an array (`C54_component_data`), sensitive data a text instead of
    an array (`C54_sensitive_data`), a data set reference a text instead of an object (`C54_data_set_reference`).
S8. Rules of the schema that validation does not check (`C54_unchecked_rules_refuted` has examples): BOM version at least 1,
    non-empty references, uniqueness of components, services, dependencies and targets, length of hash values, CWE numbers
    at least 1, ranges of confidences, e-mail addresses, types of external references introduced later.

XML
28. The document signature, annotations, proofs of concept, licensing, and occurrences, call stack and identity
    of evidence are never written.
29. Contacts, organisations, diffs and sources without data are left out silently.
30. Empty text of attached text or license names is written but cannot be read; text is trimmed.
31. The content type of an attachment is written as `encoding` (twice the same attribute when both are set); the
    description of service data is written as `name`.
32. Considerations and properties of model cards, dataset references, task types of tasks, input parameters,
    external resource references and undefined version ranges are written in a form that is not read, or that makes the
    document unreadable (`C40_unreadable_refuted`).
33. Tool objects become an empty list before 1.5; an empty list of tools becomes a tool object in 1.5.
34. Readers with a `_ => ()` arm look through unknown elements and stop at a nested element of their own
    name (`C46_open_refuted`, `C48_always_exact_refuted`).
35. The signature reader starts a nested reader on unexpected events, which consumes the end tag; on
    well-formed documents this ends in an error (`C48_signature_exact`) except for a signature inside a signature, which
    is read although the outer one has neither algorithm nor value (`C55_signature_refuted`).
36. Conversion to an older version drops fields silently (C43).

The versioning macro
37. The attribute is not looked for on members of impls and traits, parameters and patterns (`C49_members_refuted`).
38. Of several attributes on one element the last one decides (`C49_conjunction_refuted`).

The generator and the readers together
39. A package whose license is an empty file (or whose `license` is blank) gives an XML SBOM that the library cannot read: an element without text (`<text>`, or `<name>` or `<expression>`) is written and refused (`C57_empty_license_refuted`).
40. `parse_from_json` goes through a sorted map and `parse_from_json_with_version` does not, so the two read a license with a name before its id, or a document in which a member occurs twice, differently (`C58_order_needed`).
41. Validating a formula does not look at the properties of its workflows, tasks and workspaces, nor at the volumes of its workspaces, so a line break in such a property or an unknown volume mode passes (`C59_all_parts_checked_refuted`). A trigger outside a formula is refused below 1.5 because of its reference only.
42. A number that is too large for `f32` (such as `1e39`) is read as infinity and written as `null`. For the confidence of an identification method this makes a document that the library has just read and saved unreadable (`C60_any_number_refuted`).
43. XML documents that the library reads can be saved into XML documents that it cannot read: a license id of white space in a CDATA section, an attachment with both `content-type` and `encoding`, a flow of data with both `name` and `description`, a workflow with a task, and a resource that is an external reference (`C62_always_readable_refuted`). The last two are the normal way to write a formulation.
44. A supplier with an empty list of addresses is written as an empty element the first time and not at all the second time (`C61_one_round_refuted`): the BOM that is read back is not what the next round reads.
45. XML readers accept `NaN` as the confidence of an identification method; saved as JSON it is `null`, which the JSON reader refuses (`C63_always_readable_refuted`). `NaN` as a score disappears, signature chains become lists, and flows of data lose their names when a document is converted from XML to JSON (`C63_always_unchanged_refuted`).
46. A JSON document of any version with a license name of white space, and one of 1.5 with a task in a workflow, is read, and saved as an XML document that the library cannot read (`C65_always_readable_refuted`, `C65_task_refuted`). C64 has the complete list of reasons.
47. A reference to a dataset in a model card and parameters as an input of a workflow make an XML document unreadable; properties of model cards are ignored (`C66_unreadable_refuted`, `C66_model_card_refuted`).
48. JSON documents that conform to the official schema of 1.5 are refused if a component has data, a data set is given by reference or has sensitive data or an owner, or a document has several signatures or one with an algorithm given as URI (`C68_always_read_refuted`). The `bom-ref` of compositions, licenses, expressions, occurrences, data sets and model cards, `response` of an analysis, `confidenceInterval` and `sizeAllocated` are ignored (`C68_always_read_right_refuted`).
49. A run that is interrupted or meets a disk error may leave an SBOM that was there before empty or incomplete: the file is truncated before its new text is written (`C69_old_files_survive_refuted`).
50. `Service::new` and `OrganizationalEntity::new` put the name they are given into the BOM as it is, where `Component::new`, `Tool::new`, `OrganizationalContact::new` and the others replace line breaks and tabs: a service or organization made from a text with a line break does not pass validation (`C71_service_refuted`, `C71_entity_refuted`).
51. In 1.5 an element inside an unknown element that has the name of an element around it with an open reader ends that reader early; what follows is looked through, so that parts that would be refused elsewhere (a method without technique and confidence) are ignored (`C55_untidy_refuted`, `C48_document_exact_refuted`).
52. A debug build panics for a workspace member outside the workspace root with a local dependency inside it (`C75_refuted`); a release build makes the SBOM.
53. The package URL of an artifact that packageurl refuses is dropped without a message, and a package without a checksum is only mentioned at the level "debug" (C74).
54. Merging validation results (`From<Vec<ValidationResult>>`) overwrites: of two findings under one name only the later is kept (`C77_merge_keeps_all_refuted`). The library itself does not use the conversion.
55. `Purl::from_str` accepts every text (`C79_purl_from_str_refuted`), and every URI that begins with `urn:cdx` is taken for a BOM link, so that for example the valid URI `urn:cdxgen:app` does not pass validation as an external reference (`C79_bom_link_refuted`).
56. In 1.5 an attachment (of a proof of concept, component data or a workflow) whose text is a CDATA section is taken for missing, and the document is refused (`C91_attachment_refuted`); everywhere else CDATA sections are read.
57. A BOM that passes validation may fail it after it was saved as JSON and read: an external reference of type `CodifiedInfrastructure` and the aggregate `IncompleteFirstPartyProprietaryOnly` come back as unknown values, a `Uri::Url` that begins with `urn:cdx` comes back as a BOM-Link, and in 1.3 a dependency on a vulnerability comes back dangling (`C94_*_refuted`).

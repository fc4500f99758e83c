(** Text forms of the enumerated types: for each type the [Display] text
    ([text_...], mostly derived by [strum::Display] with a case rule) and the
    reading function ([..._of_text], [new_unchecked] or [FromStr]).  The spelling
    in each table is the one in the cited lines; the spelling in each [text_]
    function is computed from the variant names by the cited [serialize_all]
    rule (or is the explicit [strum(serialize)] text). *)
From Verif Require Import Base ModelTypes Strings.
Open Scope string_scope.
Open Scope list_scope.

(** A chain of string comparisons with a catch-all arm. *)
Fixpoint of_table {A} (unk : string -> A) (t : list (string * A)) (s : string) : A :=
  match t with
  | [] => unk s
  | (k, a) :: t' => if String.eqb k s then a else of_table unk t' s
  end.

(** [Display]: models/component.rs:195-218, derived with rule kebab-case *)
Definition text_classification (x : classification) : string :=
  match x with
  | CApplication => "application"
  | CFramework => "framework"
  | CLibrary => "library"
  | CContainer => "container"
  | COperatingSystem => "operating-system"
  | CDevice => "device"
  | CFirmware => "firmware"
  | CFile => "file"
  | CPlatform => "platform"
  | CDeviceDriver => "device-driver"
  | CMachineLearningModel => "machine-learning-model"
  | CData => "data"
  | CUnknown s => s
  end.
(** reading: models/component.rs:220-238 *)
Definition tbl_classification : list (string * classification) :=
  [("application", CApplication);
   ("framework", CFramework);
   ("library", CLibrary);
   ("container", CContainer);
   ("operating-system", COperatingSystem);
   ("device", CDevice);
   ("firmware", CFirmware);
   ("file", CFile);
   ("platform", CPlatform);
   ("device-driver", CDeviceDriver);
   ("machine-learning-model", CMachineLearningModel);
   ("data", CData)].
Definition classification_of_text (s : string) : classification := of_table CUnknown tbl_classification s.
(** the catch-all variant and the text it carries *)
Definition raw_classification (x : classification) : option string := match x with CUnknown s => Some s | _ => None end.

(** [Display]: models/component.rs:247-256, derived with rule kebab-case *)
Definition text_scope (x : scope) : string :=
  match x with
  | ScRequired => "required"
  | ScOptional => "optional"
  | ScExcluded => "excluded"
  | ScUnknown s => s
  end.
(** reading: models/component.rs:258-267 *)
Definition tbl_scope : list (string * scope) :=
  [("required", ScRequired);
   ("optional", ScOptional);
   ("excluded", ScExcluded)].
Definition scope_of_text (s : string) : scope := of_table ScUnknown tbl_scope s.
(** the catch-all variant and the text it carries *)
Definition raw_scope (x : scope) : option string := match x with ScUnknown s => Some s | _ => None end.

(** [Display]: models/component.rs:519-531, derived with rule kebab-case *)
Definition text_identity_field (x : identity_field) : string :=
  match x with
  | IFGroup => "group"
  | IFName => "name"
  | IFVersion => "version"
  | IFPurl => "purl"
  | IFCpe => "cpe"
  | IFSwid => "swid"
  | IFHash => "hash"
  | IFUnknown _ => "unknown"
  end.
(** reading: models/component.rs:533-546 *)
Definition tbl_identity_field : list (string * identity_field) :=
  [("group", IFGroup);
   ("name", IFName);
   ("version", IFVersion);
   ("purl", IFPurl);
   ("cpe", IFCpe);
   ("swid", IFSwid);
   ("hash", IFHash)].
Definition identity_field_of_text (s : string) : identity_field := of_table IFUnknown tbl_identity_field s.
(** the catch-all variant and the text it carries *)
Definition raw_identity_field (x : identity_field) : option string := match x with IFUnknown s => Some s | _ => None end.

(** [Display]: models/hash.rs:65-88, derived with rule SCREAMING-KEBAB-CASE *)
Definition text_hash_algorithm (x : hash_algorithm) : string :=
  match x with
  | MD5 => "MD5"
  | SHA1 => "SHA-1"
  | SHA_256 => "SHA-256"
  | SHA_384 => "SHA-384"
  | SHA_512 => "SHA-512"
  | SHA3_256 => "SHA3-256"
  | SHA3_384 => "SHA3-384"
  | SHA3_512 => "SHA3-512"
  | BLAKE2b_256 => "BLAKE2b-256"
  | BLAKE2b_384 => "BLAKE2b-384"
  | BLAKE2b_512 => "BLAKE2b-512"
  | BLAKE3 => "BLAKE3"
  | UnknownHash s => s
  end.
(** reading: models/hash.rs:89-107 *)
Definition tbl_hash_algorithm : list (string * hash_algorithm) :=
  [("MD5", MD5);
   ("SHA-1", SHA1);
   ("SHA-256", SHA_256);
   ("SHA-384", SHA_384);
   ("SHA-512", SHA_512);
   ("SHA3-256", SHA3_256);
   ("SHA3-384", SHA3_384);
   ("SHA3-512", SHA3_512);
   ("BLAKE2b-256", BLAKE2b_256);
   ("BLAKE2b-384", BLAKE2b_384);
   ("BLAKE2b-512", BLAKE2b_512);
   ("BLAKE3", BLAKE3)].
Definition hash_algorithm_of_text (s : string) : hash_algorithm := of_table UnknownHash tbl_hash_algorithm s.
(** the catch-all variant and the text it carries *)
Definition raw_hash_algorithm (x : hash_algorithm) : option string := match x with UnknownHash s => Some s | _ => None end.

(** [Display]: models/license.rs:263-286, derived with rule kebab-case *)
Definition text_license_type (x : license_type) : string :=
  match x with
  | LTAcademic => "academic"
  | LTAppliance => "appliance"
  | LTClientAccess => "client-access"
  | LTConcurrentUser => "concurrent-user"
  | LTCorePoints => "core-points"
  | LTCustomMetric => "custom-metric"
  | LTDevice => "device"
  | LTEvaluation => "evaluation"
  | LTNamedUser => "named-user"
  | LTNodeLocked => "node-locked"
  | LTOem => "oem"
  | LTPerpetual => "perpetual"
  | LTProcessorPoints => "processor-points"
  | LTSubscription => "subscription"
  | LTUser => "user"
  | LTOther => "other"
  | LTUnknown s => s
  end.
(** reading: models/license.rs:288-310 *)
Definition tbl_license_type : list (string * license_type) :=
  [("academic", LTAcademic);
   ("appliance", LTAppliance);
   ("client-access", LTClientAccess);
   ("concurrent-user", LTConcurrentUser);
   ("core-points", LTCorePoints);
   ("custom-metric", LTCustomMetric);
   ("device", LTDevice);
   ("evaluation", LTEvaluation);
   ("named-user", LTNamedUser);
   ("node-locked", LTNodeLocked);
   ("oem", LTOem);
   ("perpetual", LTPerpetual);
   ("processor-points", LTProcessorPoints);
   ("subscription", LTSubscription);
   ("user", LTUser);
   ("other", LTOther)].
Definition license_type_of_text (s : string) : license_type := of_table LTUnknown tbl_license_type s.
(** the catch-all variant and the text it carries *)
Definition raw_license_type (x : license_type) : option string := match x with LTUnknown s => Some s | _ => None end.

(** [Display]: models/composition.rs:77-98, derived with rule snake_case *)
Definition text_aggregate_type (x : aggregate_type) : string :=
  match x with
  | AComplete => "complete"
  | AIncomplete => "incomplete"
  | AIncompleteFirstPartyOnly => "incomplete_first_party_only"
  | AIncompleteThirdPartyOnly => "incomplete_third_party_only"
  | AUnknown => "unknown"
  | ANotSpecified => "not_specified"
  | AIncompleteFirstPartyProprietaryOnly => "incomplete_first_party_proprietary_only"
  | AIncompleteFirstPartyOpensourceOnly => "incomplete_first_party_opensource_only"
  | AIncompleteThirdPartyProprietaryOnly => "incomplete_third_party_proprietary_only"
  | AIncompleteThirdPartyOpensourceOnly => "incomplete_third_party_opensource_only"
  | AUnknownType s => s
  end.
(** reading: models/composition.rs:100-116 *)
Definition tbl_aggregate_type : list (string * aggregate_type) :=
  [("complete", AComplete);
   ("incomplete", AIncomplete);
   ("incomplete_first_party_only", AIncompleteFirstPartyOnly);
   ("incomplete_first_party_propprietary_only", AIncompleteFirstPartyProprietaryOnly);
   ("incomplete_first_party_opensource_only", AIncompleteFirstPartyOpensourceOnly);
   ("incomplete_third_party_only", AIncompleteThirdPartyOnly);
   ("incomplete_third_party_proprietary_only", AIncompleteThirdPartyProprietaryOnly);
   ("incomplete_third_party_opensource_only", AIncompleteThirdPartyOpensourceOnly);
   ("unknown", AUnknown);
   ("not_specified", ANotSpecified)].
Definition aggregate_type_of_text (s : string) : aggregate_type := of_table AUnknownType tbl_aggregate_type s.
(** the catch-all variant and the text it carries *)
Definition raw_aggregate_type (x : aggregate_type) : option string := match x with AUnknownType s => Some s | _ => None end.

(** [Display]: models/code.rs:138-147, derived with rule snake_case *)
Definition text_issue_classification (x : issue_classification) : string :=
  match x with
  | ICDefect => "defect"
  | ICEnhancement => "enhancement"
  | ICSecurity => "security"
  | ICUnknown s => s
  end.
(** reading: models/code.rs:149-158 *)
Definition tbl_issue_classification : list (string * issue_classification) :=
  [("defect", ICDefect);
   ("enhancement", ICEnhancement);
   ("security", ICSecurity)].
Definition issue_classification_of_text (s : string) : issue_classification := of_table ICUnknown tbl_issue_classification s.
(** the catch-all variant and the text it carries *)
Definition raw_issue_classification (x : issue_classification) : option string := match x with ICUnknown s => Some s | _ => None end.

(** [Display]: models/code.rs:206-216, derived with rule kebab-case *)
Definition text_patch_classification (x : patch_classification) : string :=
  match x with
  | PCUnofficial => "unofficial"
  | PCMonkey => "monkey"
  | PCBackport => "backport"
  | PCCherryPick => "cherry-pick"
  | PCUnknown s => s
  end.
(** reading: models/code.rs:218-228 *)
Definition tbl_patch_classification : list (string * patch_classification) :=
  [("unofficial", PCUnofficial);
   ("monkey", PCMonkey);
   ("backport", PCBackport);
   ("cherry-pick", PCCherryPick)].
Definition patch_classification_of_text (s : string) : patch_classification := of_table PCUnknown tbl_patch_classification s.
(** the catch-all variant and the text it carries *)
Definition raw_patch_classification (x : patch_classification) : option string := match x with PCUnknown s => Some s | _ => None end.

(** [Display]: models/service.rs:208-218, derived with rule kebab-case *)
Definition text_data_flow_type (x : data_flow_type) : string :=
  match x with
  | DFInbound => "inbound"
  | DFOutbound => "outbound"
  | DFBiDirectional => "bi-directional"
  | DFUnknown => "unknown"
  | DFUnknownFlow s => s
  end.
(** reading: models/service.rs:220-230 *)
Definition tbl_data_flow_type : list (string * data_flow_type) :=
  [("inbound", DFInbound);
   ("outbound", DFOutbound);
   ("bi-directional", DFBiDirectional);
   ("unknown", DFUnknown)].
Definition data_flow_type_of_text (s : string) : data_flow_type := of_table DFUnknownFlow tbl_data_flow_type s.
(** the catch-all variant and the text it carries *)
Definition raw_data_flow_type (x : data_flow_type) : option string := match x with DFUnknownFlow s => Some s | _ => None end.

(** [Display]: models/external_reference.rs:100-145, derived with rule kebab-case *)
Definition text_ext_ref_type (x : ext_ref_type) : string :=
  match x with
  | ERVcs => "vcs"
  | ERIssueTracker => "issue-tracker"
  | ERWebsite => "website"
  | ERAdvisories => "advisories"
  | ERBom => "bom"
  | ERMailingList => "mailing-list"
  | ERSocial => "social"
  | ERChat => "chat"
  | ERDocumentation => "documentation"
  | ERSupport => "support"
  | ERDistribution => "distribution"
  | ERDistributionIntake => "distribution-intake"
  | ERLicense => "license"
  | ERBuildMeta => "build-meta"
  | ERBuildSystem => "build-system"
  | EROther => "other"
  | ERUnknown s => s
  | ERReleaseNotes => "release-notes"
  | ERSecurityContact => "security-contact"
  | ERModelCard => "model-card"
  | ERLog => "log"
  | ERConfiguration => "configuration"
  | EREvidence => "evidence"
  | ERFormulation => "formulation"
  | ERAttestation => "attestation"
  | ERThreatModel => "threat-model"
  | ERAdversaryModel => "adversary-model"
  | ERRiskAssessment => "risk-assessment"
  | ERVulnerabilityAssertion => "vulnerability-assertion"
  | ERExploitabilityStatement => "exploitability-statement"
  | ERPentestReport => "pentest-report"
  | ERStaticAnalysisReport => "static-analysis-report"
  | ERDynamicAnalysisReport => "dynamic-analysis-report"
  | ERRuntimeAnalysisReport => "runtime-analysis-report"
  | ERComponentAnalysisReport => "component-analysis-report"
  | ERMaturityReport => "maturity-report"
  | ERCertificationReport => "certification-report"
  | ERCondifiedInfrastructure => "condified-infrastructure"
  | ERQualityMetrics => "quality-metrics"
  | ERPoam => "poam"
  end.
(** reading: models/external_reference.rs:147-192 *)
Definition tbl_ext_ref_type : list (string * ext_ref_type) :=
  [("vcs", ERVcs);
   ("issue-tracker", ERIssueTracker);
   ("website", ERWebsite);
   ("advisories", ERAdvisories);
   ("bom", ERBom);
   ("mailing-list", ERMailingList);
   ("social", ERSocial);
   ("chat", ERChat);
   ("documentation", ERDocumentation);
   ("support", ERSupport);
   ("distribution", ERDistribution);
   ("distribution-intake", ERDistributionIntake);
   ("license", ERLicense);
   ("build-meta", ERBuildMeta);
   ("build-system", ERBuildSystem);
   ("release-notes", ERReleaseNotes);
   ("security-contact", ERSecurityContact);
   ("model-card", ERModelCard);
   ("log", ERLog);
   ("configuration", ERConfiguration);
   ("evidence", EREvidence);
   ("formulation", ERFormulation);
   ("attestation", ERAttestation);
   ("threat-model", ERThreatModel);
   ("adversary-model", ERAdversaryModel);
   ("risk-assessment", ERRiskAssessment);
   ("vulnerability-assertion", ERVulnerabilityAssertion);
   ("exploitability-statement", ERExploitabilityStatement);
   ("pentest-report", ERPentestReport);
   ("static-analysis-report", ERStaticAnalysisReport);
   ("dynamic-analysis-report", ERDynamicAnalysisReport);
   ("runtime-analysis-report", ERRuntimeAnalysisReport);
   ("component-analysis-report", ERComponentAnalysisReport);
   ("maturity-report", ERMaturityReport);
   ("certification-report", ERCertificationReport);
   ("codified-infrastructure", ERCondifiedInfrastructure);
   ("quality-metrics", ERQualityMetrics);
   ("poam", ERPoam);
   ("other", EROther)].
Definition ext_ref_type_of_text (s : string) : ext_ref_type := of_table ERUnknown tbl_ext_ref_type s.
(** the catch-all variant and the text it carries *)
Definition raw_ext_ref_type (x : ext_ref_type) : option string := match x with ERUnknown s => Some s | _ => None end.

(** [Display]: models/attached_text.rs:84-91, derived with rule kebab-case *)
Definition text_encoding (x : encoding) : string :=
  match x with
  | EncBase64 => "base64"
  | EncUnknown s => s
  end.
(** reading: models/attached_text.rs:93-100 *)
Definition tbl_encoding : list (string * encoding) :=
  [("base64", EncBase64)].
Definition encoding_of_text (s : string) : encoding := of_table EncUnknown tbl_encoding s.
(** the catch-all variant and the text it carries *)
Definition raw_encoding (x : encoding) : option string := match x with EncUnknown s => Some s | _ => None end.

(** [Display]: models/component_data.rs:65-76, derived with rule kebab-case *)
Definition text_component_data_type (x : component_data_type) : string :=
  match x with
  | CDSourceCode => "source-code"
  | CDConfiguration => "configuration"
  | CDDataset => "dataset"
  | CDDefinition => "definition"
  | CDOther => "other"
  | CDUnknown s => s
  end.
(** reading: models/component_data.rs:65-82 *)
Definition tbl_component_data_type : list (string * component_data_type) :=
  [("source-code", CDSourceCode);
   ("configuration", CDConfiguration);
   ("dataset", CDDataset);
   ("definition", CDDefinition);
   ("other", CDOther)].
Definition component_data_type_of_text (s : string) : component_data_type := of_table CDUnknown tbl_component_data_type s.
(** the catch-all variant and the text it carries *)
Definition raw_component_data_type (x : component_data_type) : option string := match x with CDUnknown s => Some s | _ => None end.

(** [Display]: models/lifecycle.rs:43-57 *)
Definition text_phase (x : phase) : string :=
  match x with
  | PhDesign => "design"
  | PhPreBuild => "pre-build"
  | PhBuild => "build"
  | PhPostBuild => "post-build"
  | PhOperations => "operations"
  | PhDiscovery => "discovery"
  | PhDecommission => "decommission"
  | PhUnknown s => s
  end.
(** reading: models/lifecycle.rs:59-72 *)
Definition tbl_phase : list (string * phase) :=
  [("design", PhDesign);
   ("pre-build", PhPreBuild);
   ("build", PhBuild);
   ("post-build", PhPostBuild);
   ("operations", PhOperations);
   ("discovery", PhDiscovery);
   ("decommission", PhDecommission)].
Definition phase_of_text (s : string) : phase := of_table PhUnknown tbl_phase s.
(** the catch-all variant and the text it carries *)
Definition raw_phase (x : phase) : option string := match x with PhUnknown s => Some s | _ => None end.

(** [Display]: models/signature.rs:106-123, derived with no case rule *)
Definition text_algorithm (x : algorithm) : string :=
  match x with
  | RS256 => "RS256"
  | RS384 => "RS384"
  | RS512 => "RS512"
  | PS256 => "PS256"
  | PS384 => "PS384"
  | PS512 => "PS512"
  | ES256 => "ES256"
  | ES384 => "ES384"
  | ES512 => "ES512"
  | Ed25519 => "Ed25519"
  | Ed448 => "Ed448"
  | HS256 => "HS256"
  | HS384 => "HS384"
  | HS512 => "HS512"
  | AlgUnknown _ => "Unknown"
  end.
(** reading: models/signature.rs:132-153 *)
Definition tbl_algorithm : list (string * algorithm) :=
  [("RS256", RS256);
   ("RS384", RS384);
   ("RS512", RS512);
   ("PS256", PS256);
   ("PS384", PS384);
   ("PS512", PS512);
   ("ES256", ES256);
   ("ES384", ES384);
   ("ES512", ES512);
   ("Ed25519", Ed25519);
   ("Ed448", Ed448);
   ("HS256", HS256);
   ("HS384", HS384);
   ("HS512", HS512)].
Definition algorithm_of_text (s : string) : algorithm := of_table AlgUnknown tbl_algorithm s.
(** the catch-all variant and the text it carries *)
Definition raw_algorithm (x : algorithm) : option string := match x with AlgUnknown s => Some s | _ => None end.

(** [Display]: models/vulnerability_analysis.rs:105-117, derived with rule snake_case *)
Definition text_analysis_state (x : analysis_state) : string :=
  match x with
  | ASResolved => "resolved"
  | ASResolvedWithPedigree => "resolved_with_pedigree"
  | ASExploitable => "exploitable"
  | ASInTriage => "in_triage"
  | ASFalsePositive => "false_positive"
  | ASNotAffected => "not_affected"
  | ASUndefined s => s
  end.
(** reading: models/vulnerability_analysis.rs:119-131 *)
Definition tbl_analysis_state : list (string * analysis_state) :=
  [("resolved", ASResolved);
   ("resolved_with_pedigree", ASResolvedWithPedigree);
   ("exploitable", ASExploitable);
   ("in_triage", ASInTriage);
   ("false_positive", ASFalsePositive);
   ("not_affected", ASNotAffected)].
Definition analysis_state_of_text (s : string) : analysis_state := of_table ASUndefined tbl_analysis_state s.
(** the catch-all variant and the text it carries *)
Definition raw_analysis_state (x : analysis_state) : option string := match x with ASUndefined s => Some s | _ => None end.

(** [Display]: models/vulnerability_analysis.rs:148-163, derived with rule snake_case *)
Definition text_analysis_justification (x : analysis_justification) : string :=
  match x with
  | AJCodeNotPresent => "code_not_present"
  | AJCodeNotReachable => "code_not_reachable"
  | AJRequiresConfiguration => "requires_configuration"
  | AJRequiresDependency => "requires_dependency"
  | AJRequiresEnvironment => "requires_environment"
  | AJProtectedByCompiler => "protected_by_compiler"
  | AJProtectedAtRuntime => "protected_at_runtime"
  | AJProtectedAtPerimeter => "protected_at_perimeter"
  | AJProtectedByMitigatingControl => "protected_by_mitigating_control"
  | AJUndefined s => s
  end.
(** reading: models/vulnerability_analysis.rs:165-180 *)
Definition tbl_analysis_justification : list (string * analysis_justification) :=
  [("code_not_present", AJCodeNotPresent);
   ("code_not_reachable", AJCodeNotReachable);
   ("requires_configuration", AJRequiresConfiguration);
   ("requires_dependency", AJRequiresDependency);
   ("requires_environment", AJRequiresEnvironment);
   ("protected_by_compiler", AJProtectedByCompiler);
   ("protected_at_runtime", AJProtectedAtRuntime);
   ("protected_at_perimeter", AJProtectedAtPerimeter);
   ("protected_by_mitigating_control", AJProtectedByMitigatingControl)].
Definition analysis_justification_of_text (s : string) : analysis_justification := of_table AJUndefined tbl_analysis_justification s.
(** the catch-all variant and the text it carries *)
Definition raw_analysis_justification (x : analysis_justification) : option string := match x with AJUndefined s => Some s | _ => None end.

(** [Display]: models/vulnerability_analysis.rs:194-205, derived with rule snake_case *)
Definition text_analysis_response (x : analysis_response) : string :=
  match x with
  | ARCanNotFix => "can_not_fix"
  | ARWillNotFix => "will_not_fix"
  | ARUpdate => "update"
  | ARRollback => "rollback"
  | ARWorkaroundAvailable => "workaround_available"
  | ARUndefined s => s
  end.
(** reading: models/vulnerability_analysis.rs:207-218 *)
Definition tbl_analysis_response : list (string * analysis_response) :=
  [("can_not_fix", ARCanNotFix);
   ("will_not_fix", ARWillNotFix);
   ("update", ARUpdate);
   ("rollback", ARRollback);
   ("workaround_available", ARWorkaroundAvailable)].
Definition analysis_response_of_text (s : string) : analysis_response := of_table ARUndefined tbl_analysis_response s.
(** the catch-all variant and the text it carries *)
Definition raw_analysis_response (x : analysis_response) : option string := match x with ARUndefined s => Some s | _ => None end.

(** [Display]: models/vulnerability_rating.rs:138-151, derived with rule kebab-case *)
Definition text_severity (x : severity) : string :=
  match x with
  | SevCritical => "critical"
  | SevHigh => "high"
  | SevMedium => "medium"
  | SevLow => "low"
  | SevInfo => "info"
  | SevNone => "none"
  | SevUnknown => "unknown"
  | SevUndefined s => s
  end.
(** reading: models/vulnerability_rating.rs:153-166 *)
Definition tbl_severity : list (string * severity) :=
  [("critical", SevCritical);
   ("high", SevHigh);
   ("medium", SevMedium);
   ("low", SevLow);
   ("info", SevInfo);
   ("none", SevNone);
   ("unknown", SevUnknown)].
Definition severity_of_text (s : string) : severity := of_table SevUndefined tbl_severity s.
(** the catch-all variant and the text it carries *)
Definition raw_severity (x : severity) : option string := match x with SevUndefined s => Some s | _ => None end.

(** [Display]: models/vulnerability_rating.rs:187-200, derived with no case rule *)
Definition text_score_method (x : score_method) : string :=
  match x with
  | CVSSv2 => "CVSSv2"
  | CVSSv3 => "CVSSv3"
  | CVSSv31 => "CVSSv31"
  | OWASP => "OWASP"
  | CVSSv4 => "CVSSv4"
  | SSVC => "SSVC"
  | SMUnknown s => s
  end.
(** reading: models/vulnerability_rating.rs:202-214 *)
Definition tbl_score_method : list (string * score_method) :=
  [("CVSSv2", CVSSv2);
   ("CVSSv3", CVSSv3);
   ("CVSSv31", CVSSv31);
   ("CVSSv4", CVSSv4);
   ("OWASP", OWASP);
   ("SSVC", SSVC)].
Definition score_method_of_text (s : string) : score_method := of_table SMUnknown tbl_score_method s.
(** the catch-all variant and the text it carries *)
Definition raw_score_method (x : score_method) : option string := match x with SMUnknown s => Some s | _ => None end.

(** [Display]: models/vulnerability_target.rs:159-168, derived with rule kebab-case *)
Definition text_status (x : status) : string :=
  match x with
  | StAffected => "affected"
  | StUnaffected => "unaffected"
  | StUnknown => "unknown"
  | StUndefined s => s
  end.
(** reading: models/vulnerability_target.rs:170-179 *)
Definition tbl_status : list (string * status) :=
  [("affected", StAffected);
   ("unaffected", StUnaffected);
   ("unknown", StUnknown)].
Definition status_of_text (s : string) : status := of_table StUndefined tbl_status s.
(** the catch-all variant and the text it carries *)
Definition raw_status (x : status) : option string := match x with StUndefined s => Some s | _ => None end.

(** [Display]: models/modelcard.rs:135-147 *)
Definition text_approach_type (x : approach_type) : string :=
  match x with
  | ApSupervised => "supervised"
  | ApUnsupervised => "unsupervised"
  | ApReinforcementLearning => "reinforcement-learning"
  | ApSemiSupervised => "semi-supervised"
  | ApSelfSupervised => "self-supervised"
  | ApUnknown s => s
  end.
(** reading: models/modelcard.rs:122-133 *)
Definition tbl_approach_type : list (string * approach_type) :=
  [("supervised", ApSupervised);
   ("unsupervised", ApUnsupervised);
   ("reinforcement-learning", ApReinforcementLearning);
   ("semi-supervised", ApSemiSupervised);
   ("self-supervised", ApSelfSupervised)].
Definition approach_type_of_text (s : string) : approach_type := of_table ApUnknown tbl_approach_type s.
(** the catch-all variant and the text it carries *)
Definition raw_approach_type (x : approach_type) : option string := match x with ApUnknown s => Some s | _ => None end.

(** [Display]: models/formulation/workflow/mod.rs:138-155, derived with rule kebab-case *)
Definition text_task_type (x : task_type) : string :=
  match x with
  | TTCopy => "copy"
  | TTClone => "clone"
  | TTLint => "lint"
  | TTScan => "scan"
  | TTMerge => "merge"
  | TTBuild => "build"
  | TTTest => "test"
  | TTDeliver => "deliver"
  | TTDeploy => "deploy"
  | TTRelease => "release"
  | TTClean => "clean"
  | TTOther => "other"
  | TTUnknown s => s
  end.
(** reading: models/formulation/workflow/mod.rs:157-175 *)
Definition tbl_task_type : list (string * task_type) :=
  [("copy", TTCopy);
   ("clone", TTClone);
   ("lint", TTLint);
   ("scan", TTScan);
   ("merge", TTMerge);
   ("build", TTBuild);
   ("test", TTTest);
   ("deliver", TTDeliver);
   ("deploy", TTDeploy);
   ("release", TTRelease);
   ("clean", TTClean);
   ("other", TTOther)].
Definition task_type_of_text (s : string) : task_type := of_table TTUnknown tbl_task_type s.
(** the catch-all variant and the text it carries *)
Definition raw_task_type (x : task_type) : option string := match x with TTUnknown s => Some s | _ => None end.

(** [Display]: models/formulation/workflow/output.rs:50-62, derived with rule kebab-case *)
Definition text_output_type (x : output_type) : string :=
  match x with
  | OTArtifact => "artifact"
  | OTAttestation => "attestation"
  | OTLog => "log"
  | OTEvidence => "evidence"
  | OTMetrics => "metrics"
  | OTOther => "other"
  | OTUnknown s => s
  end.
(** reading: models/formulation/workflow/output.rs:64-76 *)
Definition tbl_output_type : list (string * output_type) :=
  [("artifact", OTArtifact);
   ("attestation", OTAttestation);
   ("log", OTLog);
   ("evidence", OTEvidence);
   ("metrics", OTMetrics);
   ("other", OTOther)].
Definition output_type_of_text (s : string) : output_type := of_table OTUnknown tbl_output_type s.
(** the catch-all variant and the text it carries *)
Definition raw_output_type (x : output_type) : option string := match x with OTUnknown s => Some s | _ => None end.

(** [Display]: models/formulation/workflow/trigger.rs:65-75, derived with rule kebab-case *)
Definition text_trigger_type (x : trigger_type) : string :=
  match x with
  | TgManual => "manual"
  | TgApi => "api"
  | TgWebhook => "webhook"
  | TgScheduled => "scheduled"
  | TgUnknown s => s
  end.
(** reading: models/formulation/workflow/trigger.rs:77-87 *)
Definition tbl_trigger_type : list (string * trigger_type) :=
  [("manual", TgManual);
   ("api", TgApi);
   ("webhook", TgWebhook);
   ("scheduled", TgScheduled)].
Definition trigger_type_of_text (s : string) : trigger_type := of_table TgUnknown tbl_trigger_type s.
(** the catch-all variant and the text it carries *)
Definition raw_trigger_type (x : trigger_type) : option string := match x with TgUnknown s => Some s | _ => None end.

(** [Display]: models/formulation/workflow/workspace.rs:42-53, derived with rule kebab-case *)
Definition text_access_mode (x : access_mode) : string :=
  match x with
  | AMReadOnly => "read-only"
  | AMReadWrite => "read-write"
  | AMReadWriteOnce => "read-write-once"
  | AMWriteOnce => "write-once"
  | AMWriteOnly => "write-only"
  | AMUnknown s => s
  end.
(** reading: models/formulation/workflow/workspace.rs:55-66 *)
Definition tbl_access_mode : list (string * access_mode) :=
  [("read-only", AMReadOnly);
   ("read-write", AMReadWrite);
   ("read-write-once", AMReadWriteOnce);
   ("write-once", AMWriteOnce);
   ("write-only", AMWriteOnly)].
Definition access_mode_of_text (s : string) : access_mode := of_table AMUnknown tbl_access_mode s.
(** the catch-all variant and the text it carries *)
Definition raw_access_mode (x : access_mode) : option string := match x with AMUnknown s => Some s | _ => None end.

(** [Display]: models/formulation/workflow/workspace.rs:95-104, derived with rule kebab-case *)
Definition text_volume_mode (x : volume_mode) : string :=
  match x with
  | VMFilesystem => "filesystem"
  | VMBlock => "block"
  | VMUnknown s => s
  end.
(** reading: models/formulation/workflow/workspace.rs:106-114 *)
Definition tbl_volume_mode : list (string * volume_mode) :=
  [("filesystem", VMFilesystem);
   ("block", VMBlock)].
Definition volume_mode_of_text (s : string) : volume_mode := of_table VMUnknown tbl_volume_mode s.
(** the catch-all variant and the text it carries *)
Definition raw_volume_mode (x : volume_mode) : option string := match x with VMUnknown s => Some s | _ => None end.

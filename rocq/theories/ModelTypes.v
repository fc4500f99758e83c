(** The data types of the library's public model, [cyclonedx-bom/src/models].
    Rust newtype wrappers around [String] ([NormalizedString], [Uri], [Purl],
    [DateTime], [BomReference], [UrnUuid], [Cpe], [HashValue], [MimeType],
    [SpdxIdentifier], [SpdxExpression], [Copyright], [BomLink]) are erased to
    [string], and newtype wrappers around [Vec] ([Components], [Licenses], ...)
    to [list].  Derived [PartialEq]/[Eq]/[Hash] become Coq equality. *)
From Verif Require Import Base.
From Coq Require Import ZArith.

(** models/bom.rs:49-59 *)
Inductive spec_version := V1_3 | V1_4 | V1_5.

(** derived [PartialOrd] on [SpecVersion], models/bom.rs:49 *)
Definition version_leb (a b : spec_version) : bool :=
  match a, b with
  | V1_3, _ => true
  | V1_4, V1_3 => false
  | V1_4, _ => true
  | V1_5, V1_5 => true
  | V1_5, _ => false
  end.

(** [f32]: NaN, the infinities, and the finite values (-1)^sign * mantissa * 2^exponent
    with 24-bit mantissa.  Only order and identity are used by the code. *)
Inductive f32 :=
| F_nan
| F_inf (neg : bool)
| F_fin (neg : bool) (mantissa : N) (exponent : Z).

(** [u32]: a number below 2^32 *)
Record u32 := mkU32 { u32_N : N; u32_range : (u32_N <? 4294967296)%N = true }.
Definition u32_1 : u32 := mkU32 1 eq_refl.

(** *** Enumerated types (value sets; text forms are in Enums.v) *)

(** models/component.rs:195-218 *)
Inductive classification :=
| CApplication | CFramework | CLibrary | CContainer | COperatingSystem | CDevice | CFirmware
| CFile | CPlatform | CDeviceDriver | CMachineLearningModel | CData
| CUnknown (s : string).
(** models/component.rs:247-256 *)
Inductive scope := ScRequired | ScOptional | ScExcluded | ScUnknown (s : string).
(** models/component.rs:519-531 *)
Inductive identity_field :=
| IFGroup | IFName | IFVersion | IFPurl | IFCpe | IFSwid | IFHash | IFUnknown (s : string).
(** models/hash.rs:65-88 *)
Inductive hash_algorithm :=
| MD5 | SHA1 | SHA_256 | SHA_384 | SHA_512 | SHA3_256 | SHA3_384 | SHA3_512
| BLAKE2b_256 | BLAKE2b_384 | BLAKE2b_512 | BLAKE3 | UnknownHash (s : string).
(** models/license.rs:263-286 *)
Inductive license_type :=
| LTAcademic | LTAppliance | LTClientAccess | LTConcurrentUser | LTCorePoints | LTCustomMetric
| LTDevice | LTEvaluation | LTNamedUser | LTNodeLocked | LTOem | LTPerpetual | LTProcessorPoints
| LTSubscription | LTUser | LTOther | LTUnknown (s : string).
(** models/composition.rs:77-98 *)
Inductive aggregate_type :=
| AComplete | AIncomplete | AIncompleteFirstPartyOnly | AIncompleteThirdPartyOnly | AUnknown
| ANotSpecified | AIncompleteFirstPartyProprietaryOnly | AIncompleteFirstPartyOpensourceOnly
| AIncompleteThirdPartyProprietaryOnly | AIncompleteThirdPartyOpensourceOnly
| AUnknownType (s : string).
(** models/code.rs:138-147 *)
Inductive issue_classification :=
| ICDefect | ICEnhancement | ICSecurity | ICUnknown (s : string).
(** models/code.rs:206-216 *)
Inductive patch_classification :=
| PCUnofficial | PCMonkey | PCBackport | PCCherryPick | PCUnknown (s : string).
(** models/service.rs:208-218 *)
Inductive data_flow_type :=
| DFInbound | DFOutbound | DFBiDirectional | DFUnknown | DFUnknownFlow (s : string).
(** models/external_reference.rs:100-145 *)
Inductive ext_ref_type :=
| ERVcs | ERIssueTracker | ERWebsite | ERAdvisories | ERBom | ERMailingList | ERSocial | ERChat
| ERDocumentation | ERSupport | ERDistribution | ERDistributionIntake | ERLicense | ERBuildMeta
| ERBuildSystem | EROther | ERUnknown (s : string) | ERReleaseNotes | ERSecurityContact
| ERModelCard | ERLog | ERConfiguration | EREvidence | ERFormulation | ERAttestation
| ERThreatModel | ERAdversaryModel | ERRiskAssessment | ERVulnerabilityAssertion
| ERExploitabilityStatement | ERPentestReport | ERStaticAnalysisReport | ERDynamicAnalysisReport
| ERRuntimeAnalysisReport | ERComponentAnalysisReport | ERMaturityReport | ERCertificationReport
| ERCondifiedInfrastructure | ERQualityMetrics | ERPoam.
(** models/attached_text.rs:84-91 *)
Inductive encoding := EncBase64 | EncUnknown (s : string).
(** models/component_data.rs:65-76 *)
Inductive component_data_type :=
| CDSourceCode | CDConfiguration | CDDataset | CDDefinition | CDOther | CDUnknown (s : string).
(** models/lifecycle.rs:30-41 *)
Inductive phase :=
| PhDesign | PhPreBuild | PhBuild | PhPostBuild | PhOperations | PhDiscovery | PhDecommission
| PhUnknown (s : string).
(** models/signature.rs:106-123 *)
Inductive algorithm :=
| RS256 | RS384 | RS512 | PS256 | PS384 | PS512 | ES256 | ES384 | ES512 | Ed25519 | Ed448
| HS256 | HS384 | HS512 | AlgUnknown (s : string).
(** models/vulnerability_analysis.rs:105-117 *)
Inductive analysis_state :=
| ASResolved | ASResolvedWithPedigree | ASExploitable | ASInTriage | ASFalsePositive
| ASNotAffected | ASUndefined (s : string).
(** models/vulnerability_analysis.rs:148-163 *)
Inductive analysis_justification :=
| AJCodeNotPresent | AJCodeNotReachable | AJRequiresConfiguration | AJRequiresDependency
| AJRequiresEnvironment | AJProtectedByCompiler | AJProtectedAtRuntime | AJProtectedAtPerimeter
| AJProtectedByMitigatingControl | AJUndefined (s : string).
(** models/vulnerability_analysis.rs:194-205 *)
Inductive analysis_response :=
| ARCanNotFix | ARWillNotFix | ARUpdate | ARRollback | ARWorkaroundAvailable
| ARUndefined (s : string).
(** models/vulnerability_rating.rs:138-151 *)
Inductive severity :=
| SevCritical | SevHigh | SevMedium | SevLow | SevInfo | SevNone | SevUnknown
| SevUndefined (s : string).
(** models/vulnerability_rating.rs:187-200 *)
Inductive score_method :=
| CVSSv2 | CVSSv3 | CVSSv31 | OWASP | CVSSv4 | SSVC | SMUnknown (s : string).
(** models/vulnerability_target.rs:159-168 *)
Inductive status := StAffected | StUnaffected | StUnknown | StUndefined (s : string).
(** models/vulnerability_target.rs:122-131 *)
Inductive version_range := VRVersion (s : string) | VRRange (s : string) | VRUndefined (s : string).
(** models/modelcard.rs:111-120 *)
Inductive approach_type :=
| ApSupervised | ApUnsupervised | ApReinforcementLearning | ApSemiSupervised | ApSelfSupervised
| ApUnknown (s : string).
(** models/formulation/workflow/mod.rs:138-155 *)
Inductive task_type :=
| TTCopy | TTClone | TTLint | TTScan | TTMerge | TTBuild | TTTest | TTDeliver | TTDeploy
| TTRelease | TTClean | TTOther | TTUnknown (s : string).
(** models/formulation/workflow/output.rs:50-62 *)
Inductive output_type :=
| OTArtifact | OTAttestation | OTLog | OTEvidence | OTMetrics | OTOther | OTUnknown (s : string).
(** models/formulation/workflow/trigger.rs:65-75 *)
Inductive trigger_type := TgManual | TgApi | TgWebhook | TgScheduled | TgUnknown (s : string).
(** models/formulation/workflow/workspace.rs:42-53 *)
Inductive access_mode :=
| AMReadOnly | AMReadWrite | AMReadWriteOnce | AMWriteOnce | AMWriteOnly | AMUnknown (s : string).
(** models/formulation/workflow/workspace.rs:95-104 *)
Inductive volume_mode := VMFilesystem | VMBlock | VMUnknown (s : string).

(** *** Leaf records *)

(** models/attached_text.rs:28-33 *)
Record attached_text := mkText {
  at_content_type : option string;
  at_encoding : option encoding;
  at_content : string }.
(** models/attachment.rs:26-31 *)
Record attachment := mkAttachment {
  att_content : string;
  att_content_type : option string;
  att_encoding : option string }.
(** models/hash.rs:29-33 *)
Record hash := mkHash { h_alg : hash_algorithm; h_content : string }.
(** models/property.rs:47-51 *)
Record property := mkProp { p_name : string; p_value : string }.
(** models/organization.rs:32-38 *)
Record contact := mkContact {
  ct_bom_ref : option string;
  ct_name : option string;
  ct_email : option string;
  ct_phone : option string }.
(** models/organization.rs:73-79 *)
Record entity := mkEntity {
  oe_bom_ref : option string;
  oe_name : option string;
  oe_url : option (list string);
  oe_contact : option (list contact) }.
(** models/external_reference.rs:194-198 *)
Inductive reference_uri := RUrl (s : string) | RBomLink (s : string).
(** models/external_reference.rs:31-37 *)
Record external_reference := mkExtRef {
  er_type : ext_ref_type;
  er_url : reference_uri;
  er_comment : option string;
  er_hashes : option (list hash) }.
(** models/signature.rs:53-59 *)
Record signer := mkSigner { sg_algorithm : algorithm; sg_value : string }.
(** models/signature.rs:25-33 *)
Inductive signature := SigSigners (l : list signer) | SigChain (l : list signer) | SigSingle (s : signer).

(** models/license.rs:182-188 *)
Inductive license_identifier := LSpdxId (s : string) | LName (s : string).
(** models/license.rs:240-244 *)
Inductive license_contact := LCOrganization (o : entity) | LCContact (c : contact).
(** models/license.rs:206-216 *)
Record licensing := mkLicensing {
  lg_alt_ids : option (list string);
  lg_licensor : option license_contact;
  lg_licensee : option license_contact;
  lg_purchaser : option license_contact;
  lg_purchase_order : option string;
  lg_license_types : option (list license_type);
  lg_last_renewal : option string;
  lg_expiration : option string }.
(** models/license.rs:84-92 *)
Record license := mkLicense {
  l_bom_ref : option string;
  l_identifier : license_identifier;
  l_text : option attached_text;
  l_url : option string;
  l_licensing : option licensing;
  l_properties : option (list property) }.
(** models/license.rs:42-46; the expression carries the two fields of [SpdxExpression],
    external_models/spdx.rs:113-117 *)
Inductive license_choice := LicLicense (l : license) | LicExpression (bom_ref : option string) (e : string).

(** models/code.rs:78-83 *)
Record identifiable_action := mkAction {
  ia_timestamp : option string; ia_name : option string; ia_email : option string }.
(** models/code.rs:31-38 *)
Record commit := mkCommit {
  cm_uid : option string; cm_url : option string; cm_author : option identifiable_action;
  cm_committer : option identifiable_action; cm_message : option string }.
(** models/code.rs:63-67 *)
Record diff := mkDiff { df_text : option attached_text; df_url : option string }.
(** models/code.rs:230-234 *)
Record source := mkSource { so_name : option string; so_url : option string }.
(** models/code.rs:95-103 *)
Record issue := mkIssue {
  is_type : issue_classification; is_id : option string; is_name : option string;
  is_description : option string; is_source : option source; is_references : option (list string) }.
(** models/code.rs:160-165 *)
Record patch := mkPatch {
  pa_type : patch_classification; pa_diff : option diff; pa_resolves : option (list issue) }.

(** models/data_governance.rs:52-56 *)
Inductive responsible_party := RPOrganization (o : entity) | RPContact (c : contact).
(** models/data_governance.rs:29-34 *)
Record data_governance := mkGovernance {
  dg_custodians : option (list responsible_party);
  dg_stewards : option (list responsible_party);
  dg_owners : option (list responsible_party) }.
(** models/component_data.rs:84-89 *)
Record data_contents := mkContents {
  dc_attachment : option attachment; dc_url : option string; dc_properties : option (list property) }.
(** models/component_data.rs:119-123 *)
Record graphic := mkGraphic { g_name : option string; g_image : option attachment }.
(** models/component_data.rs:102-106 *)
Record graphics_collection := mkGraphics {
  gc_description : option string; gc_collection : option (list graphic) }.
(** models/component_data.rs:32-44 *)
Record component_data := mkComponentData {
  cd_bom_ref : option string; cd_type : component_data_type; cd_name : option string;
  cd_contents : option data_contents; cd_classification : option string;
  cd_sensitive_data : option string; cd_graphics : option graphics_collection;
  cd_description : option string; cd_governance : option data_governance }.

(** models/modelcard.rs:82-85 *)
Record approach := mkApproach { ap_type : option approach_type }.
(** models/modelcard.rs:162-167 *)
Inductive dataset := DSComponent (c : component_data) | DSReference (s : string).
(** models/modelcard.rs:204-207 *)
Record ml_parameter := mkMLParameter { ml_format : option string }.
(** models/modelcard.rs:60-69 *)
Record model_parameters := mkModelParameters {
  mp_approach : option approach; mp_task : option string; mp_architecture_family : option string;
  mp_model_architecture : option string; mp_datasets : option (list dataset);
  mp_inputs : option (list ml_parameter); mp_outputs : option (list ml_parameter) }.
(** models/modelcard.rs:261-265 *)
Record confidence_interval := mkInterval {
  ci_lower_bound : option string; ci_upper_bound : option string }.
(** models/modelcard.rs:247-253 *)
Record performance_metric := mkMetric {
  pm_type : option string; pm_value : option string; pm_slice : option string;
  pm_confidence_interval : option confidence_interval }.
(** models/modelcard.rs:217-221 *)
Record quantitative_analysis := mkQuantitative {
  qa_performance_metrics : option (list performance_metric);
  qa_graphics : option graphics_collection }.
(** models/modelcard.rs:268-269: no fields *)
Inductive considerations := mkConsiderations.
(** models/modelcard.rs:33-40 *)
Record model_card := mkModelCard {
  mc_bom_ref : option string; mc_model_parameters : option model_parameters;
  mc_quantitative_analysis : option quantitative_analysis;
  mc_considerations : option considerations; mc_properties : option (list property) }.

(** *** Evidence, models/component.rs:361-582 *)
(** models/component.rs:401-405 *)
Record occurrence := mkOccurrence { oc_bom_ref : option string; oc_location : string }.
(** models/component.rs:457-466; [Callstack { frames }] (426-429) is its list of frames *)
Record frame := mkFrame {
  fr_package : option string; fr_module : string; fr_function : option string;
  fr_parameters : option (list string); fr_line : option u32; fr_column : option u32;
  fr_full_filename : option string }.
(** models/component.rs:574-579 *)
Record method := mkMethod { me_technique : string; me_confidence : f32; me_value : option string }.
(** models/component.rs:551-558 *)
Record identity := mkIdentity {
  id_field : identity_field; id_confidence : option f32; id_methods : option (list method);
  id_tools : option (list string) }.
(** models/component.rs:361-371 *)
Record evidence := mkEvidence {
  ev_licenses : option (list license_choice); ev_copyright : option (list string);
  ev_occurrences : option (list occurrence); ev_callstack : option (list frame);
  ev_identity : option identity }.

(** models/component.rs:286-295 *)
Record swid := mkSwid {
  sw_tag_id : string; sw_name : string; sw_version : option string; sw_tag_version : option u32;
  sw_patch : option bool; sw_text : option attached_text; sw_url : option string }.

(** models/component.rs:584-592, parameterised by the type of components to
    break the mutual recursion with [component] *)
Record pedigree_ (C : Type) := mkPedigree {
  pd_ancestors : option (list C); pd_descendants : option (list C); pd_variants : option (list C);
  pd_commits : option (list commit); pd_patches : option (list patch); pd_notes : option string }.
Arguments mkPedigree {C}.
Arguments pd_ancestors {C}. Arguments pd_descendants {C}. Arguments pd_variants {C}.
Arguments pd_commits {C}. Arguments pd_patches {C}. Arguments pd_notes {C}.

(** models/component.rs:48-79 *)
Inductive component := mkComponent {
  c_type : classification;
  c_mime_type : option string;
  c_bom_ref : option string;
  c_supplier : option entity;
  c_author : option string;
  c_publisher : option string;
  c_group : option string;
  c_name : string;
  c_version : option string;
  c_description : option string;
  c_scope : option scope;
  c_hashes : option (list hash);
  c_licenses : option (list license_choice);
  c_copyright : option string;
  c_cpe : option string;
  c_purl : option string;
  c_swid : option swid;
  c_modified : option bool;
  c_pedigree : option (pedigree_ component);
  c_external_references : option (list external_reference);
  c_properties : option (list property);
  c_components : option (list component);
  c_evidence : option evidence;
  c_signature : option signature;
  c_model_card : option model_card;
  c_data : option component_data }.
Notation pedigree := (pedigree_ component).

(** *** Services, models/service.rs *)
(** models/service.rs:186-190 *)
Record data_classification := mkDataClass { dcl_flow : data_flow_type; dcl_classification : string }.
(** models/service.rs:149-157 *)
Record service_data := mkServiceData {
  sd_name : option string; sd_description : option string; sd_classification : data_classification;
  sd_governance : option data_governance; sd_source : option (list string);
  sd_destination : option (list string) }.
(** models/service.rs:130-134 *)
Inductive data := DServiceData (l : list service_data) | DClassification (l : list data_classification).
(** models/service.rs:35-55 *)
Inductive service := mkService {
  s_bom_ref : option string;
  s_provider : option entity;
  s_group : option string;
  s_name : string;
  s_version : option string;
  s_description : option string;
  s_endpoints : option (list string);
  s_authenticated : option bool;
  s_x_trust_boundary : option bool;
  s_data : option data;
  s_licenses : option (list license_choice);
  s_external_references : option (list external_reference);
  s_properties : option (list property);
  s_services : option (list service);
  s_signature : option signature;
  s_trust_zone : option string }.

(** *** Tools and metadata *)
(** models/tool.rs:74-82 *)
Record tool := mkTool {
  t_vendor : option string; t_name : option string; t_version : option string;
  t_hashes : option (list hash); t_external_references : option (list external_reference) }.
(** models/tool.rs:32-42 *)
Inductive tools :=
| TList (l : list tool)
| TObject (services : option (list service)) (components : option (list component)).
(** models/lifecycle.rs:24-28, 75-79 *)
Inductive lifecycle := LPhase (p : phase) | LDescription (name : string) (description : option string).
(** models/metadata.rs:36-48 *)
Record metadata := mkMetadata {
  m_timestamp : option string; m_tools : option tools; m_authors : option (list contact);
  m_component : option component; m_manufacture : option entity; m_supplier : option entity;
  m_licenses : option (list license_choice); m_properties : option (list property);
  m_lifecycles : option (list lifecycle) }.

(** *** Compositions, dependencies, annotations *)
(** models/dependency.rs:22-26 *)
Record dependency := mkDependency { d_ref : string; d_dependencies : list string }.
(** models/composition.rs:26-34 *)
Record composition := mkComposition {
  co_bom_ref : option string; co_aggregate : aggregate_type; co_assemblies : option (list string);
  co_dependencies : option (list string); co_vulnerabilities : option (list string);
  co_signature : option signature }.
(** models/annotation.rs:66-72 *)
Inductive annotator :=
| AnOrganization (o : entity) | AnIndividual (c : contact) | AnComponent (c : component)
| AnService (s : service).
(** models/annotation.rs:46-54 *)
Record annotation := mkAnnotation {
  an_bom_ref : option string; an_subjects : list string; an_annotator : annotator;
  an_timestamp : string; an_text : string; an_signature : option signature }.

(** *** Vulnerabilities *)
(** models/vulnerability_source.rs:29-33 *)
Record vuln_source := mkVSource { vs_name : option string; vs_url : option string }.
(** models/vulnerability_reference.rs:29-33 *)
Record vuln_reference := mkVReference { vr_id : string; vr_source : vuln_source }.
(** models/vulnerability_rating.rs:30-38 *)
Record vuln_rating := mkRating {
  ra_source : option vuln_source; ra_score : option f32; ra_severity : option severity;
  ra_method : option score_method; ra_vector : option string; ra_justification : option string }.
(** models/advisory.rs:29-33 *)
Record advisory := mkAdvisory { ad_title : option string; ad_url : string }.
(** models/vulnerability_credits.rs:25-29 *)
Record vuln_credits := mkCredits {
  vc_organizations : option (list entity); vc_individuals : option (list contact) }.
(** models/vulnerability_analysis.rs:30-40 *)
Record vuln_analysis := mkAnalysis {
  va_state : option analysis_state; va_justification : option analysis_justification;
  va_responses : option (list analysis_response); va_detail : option string;
  va_first_issued : option string; va_last_updated : option string }.
(** models/vulnerability_target.rs:81-85 *)
Record version_status := mkVersion { ve_range : version_range; ve_status : status }.
(** models/vulnerability_target.rs:30-34 *)
Record vuln_target := mkTarget { vt_bom_ref : string; vt_versions : option (list version_status) }.
(** models/vulnerability.rs:157-162 *)
Record proof_of_concept := mkPoc {
  poc_reproduction_steps : option string; poc_environment : option string;
  poc_supporting_material : option (list attachment) }.
(** models/vulnerability.rs:39-62 *)
Record vulnerability := mkVulnerability {
  v_bom_ref : option string; v_id : option string; v_source : option vuln_source;
  v_references : option (list vuln_reference); v_ratings : option (list vuln_rating);
  v_cwes : option (list u32); v_description : option string; v_detail : option string;
  v_recommendation : option string; v_workaround : option string;
  v_proof_of_concept : option proof_of_concept; v_advisories : option (list advisory);
  v_created : option string; v_published : option string; v_updated : option string;
  v_rejected : option string; v_credits : option vuln_credits; v_tools : option tools;
  v_analysis : option vuln_analysis; v_targets : option (list vuln_target);
  v_properties : option (list property) }.

(** *** Formulation, models/formulation *)
(** models/formulation/workflow/mod.rs:190-194 *)
Inductive environment_var := EVProperty (name value : string) | EVValue (v : string).
(** models/formulation/workflow/resource_reference.rs:5-9 *)
Inductive resource_reference := RRRef (s : string) | RRExternal (e : external_reference).
(** models/formulation/workflow/input.rs:49-54 *)
Record parameter := mkParameter {
  pr_name : option string; pr_value : option string; pr_data_type : option string }.
(** models/formulation/workflow/input.rs:41-47 *)
Inductive required_input :=
| RIResource (r : resource_reference) | RIParameters (l : list parameter)
| RIEnvironmentVars (l : list environment_var) | RIData (a : attachment).
(** models/formulation/workflow/input.rs:9-15 *)
Record input := mkInput {
  in_required : required_input; in_source : option resource_reference;
  in_target : option resource_reference; in_properties : option (list property) }.
(** models/formulation/workflow/output.rs:43-48 *)
Inductive required_output :=
| ROResource (r : resource_reference) | ROEnvironmentVars (l : list environment_var)
| ROData (a : attachment).
(** models/formulation/workflow/output.rs:9-16 *)
Record output := mkOutput {
  ou_required : required_output; ou_type : option output_type;
  ou_source : option resource_reference; ou_target : option resource_reference;
  ou_properties : option (list property) }.
(** models/formulation/workflow/step.rs:25-29 *)
Record command := mkCommand { cmd_executed : option string; cmd_properties : option (list property) }.
(** models/formulation/workflow/step.rs:3-9 *)
Record step := mkStep {
  st_commands : option (list command); st_description : option string; st_name : option string;
  st_properties : option (list property) }.
(** models/formulation/workflow/workspace.rs:75-85 *)
Record volume := mkVolume {
  vo_uid : option string; vo_name : option string; vo_mode : volume_mode; vo_path : option string;
  vo_size_allocated : option string; vo_persistent : option bool; vo_remote : option bool;
  vo_properties : option (list property) }.
(** models/formulation/workflow/workspace.rs:9-23 *)
Record workspace := mkWorkspace {
  ws_bom_ref : string; ws_uid : string; ws_name : option string; ws_aliases : option (list string);
  ws_description : option string; ws_resource_references : option (list resource_reference);
  ws_access_mode : option access_mode; ws_mount_path : option string;
  ws_managed_data_type : option string; ws_volume_request : option string;
  ws_volume : option volume; ws_properties : option (list property) }.
(** models/formulation/workflow/trigger.rs:132-137 *)
Record condition := mkCondition {
  cn_description : option string; cn_expression : option string; cn_properties : option (list property) }.
(** models/formulation/workflow/trigger.rs:102-111 *)
Record event := mkEvent {
  e_uid : option string; e_description : option string; e_time_received : option string;
  e_data : option attachment; e_source : option resource_reference;
  e_target : option resource_reference; e_properties : option (list property) }.
(** models/formulation/workflow/trigger.rs:14-28 *)
Record trigger := mkTrigger {
  tr_bom_ref : string; tr_uid : string; tr_name : option string; tr_description : option string;
  tr_resource_references : option (list resource_reference); tr_type : trigger_type;
  tr_event : option event; tr_conditions : option (list condition);
  tr_time_activated : option string; tr_inputs : option (list input);
  tr_outputs : option (list output); tr_properties : option (list property) }.
(** models/formulation/workflow/mod.rs:83-100 *)
Record task := mkTask {
  tk_bom_ref : string; tk_uid : string; tk_name : option string; tk_description : option string;
  tk_resource_references : option (list resource_reference); tk_task_types : list task_type;
  tk_trigger : option trigger; tk_steps : option (list step); tk_inputs : option (list input);
  tk_outputs : option (list output); tk_time_start : option string; tk_time_end : option string;
  tk_workspaces : option (list workspace); tk_runtime_topology : option (list dependency);
  tk_properties : option (list property) }.
(** models/formulation/workflow/mod.rs:20-39 *)
Record workflow := mkWorkflow {
  wf_bom_ref : string; wf_uid : string; wf_name : option string; wf_description : option string;
  wf_resource_references : option (list resource_reference); wf_tasks : option (list task);
  wf_task_dependencies : option (list dependency); wf_task_types : list task_type;
  wf_trigger : option trigger; wf_steps : option (list step); wf_inputs : option (list input);
  wf_outputs : option (list output); wf_time_start : option string; wf_time_end : option string;
  wf_workspaces : option (list workspace); wf_runtime_topology : option (list dependency);
  wf_properties : option (list property) }.
(** models/formulation/mod.rs:12-19 *)
Record formula := mkFormula {
  fo_bom_ref : option string; fo_components : option (list component);
  fo_services : option (list service); fo_workflows : option (list workflow);
  fo_properties : option (list property) }.

(** models/bom.rs:104-123 *)
Record bom := mkBom {
  b_version : u32;
  b_serial_number : option string;
  b_metadata : option metadata;
  b_components : option (list component);
  b_services : option (list service);
  b_external_references : option (list external_reference);
  b_dependencies : option (list dependency);
  b_compositions : option (list composition);
  b_properties : option (list property);
  b_vulnerabilities : option (list vulnerability);
  b_signature : option signature;
  b_annotations : option (list annotation);
  b_formulation : option (list formula);
  b_spec_version : spec_version }.

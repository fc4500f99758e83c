(** The form of the CycloneDX format for JSON, versions 1.3, 1.4 and 1.5: which member of which object carries what (C68).
    Written from the official schemas in cyclonedx-bom/test-utils/schema, in two dialects: that of the standard and that of
    the library.  The words of enumerated types are those of C33, but for the three that differ.

    The dialects differ in 13 places.  Each is an [if standard]:
    - the reference of contacts, organisations, licenses, expressions, occurrences, compositions, component data and
      model cards is called [bom-ref], and that of the first two and of expressions is there from 1.5 on only: [ref_name], [later_ref];
    - [codified-infrastructure]: [ext_ref_word];
    - identified fields and signature algorithms the library has no word for: [identity_word], [jf_algorithm];
    - several signatures: [jf_signature];
    - missing members of a licensing: [may_null];
    - the responsible parties of data: [jf_responsible_party];
    - sensitive data, a list: [jf_component_data];
    - references to data sets: [jf_dataset];
    - [confidenceInterval], [sizeAllocated], [response];
    - the data of a component, a list: [jf_component]. *)
From Coq Require Import ZArith.
From Verif Require Import Base ModelTypes Enums Json.
Open Scope string_scope.
Open Scope list_scope.

Definition standard_word_ext_ref (t : ext_ref_type) : string :=
  match t with ERCondifiedInfrastructure => "codified-infrastructure" | t => text_ext_ref_type t end.
Definition standard_word_identity (f : identity_field) : string :=
  match f with IFUnknown s => s | f => text_identity_field f end.

(** an object with the members that are there *)
Definition object (ms : list (string * option json)) : json :=
  JObj (flat_map (fun m => match snd m with Some j => [(fst m, j)] | None => [] end) ms).
Definition must (k : string) (j : json) : string * option json := (k, Some j).
Definition may {A} (k : string) (f : A -> json) (o : option A) : string * option json := (k, option_map f o).
Definition each {A} (f : A -> json) (l : list A) : json := JArr (map f l).
Definition word {A} (t : A -> string) (a : A) : json := JStr (t a).
Definition jf_u32 (n : u32) : json := JInt (Z.of_N (u32_N n)).
(** numbers that JSON does not have are missing values *)
Definition jf_f32 (f : f32) : json := match f with F_fin _ _ _ => JFloat f | _ => JNull end.
Definition version_name (v : spec_version) : string :=
  match v with V1_3 => "1.3" | V1_4 => "1.4" | V1_5 => "1.5" end.

Section FORM.
Context (standard : bool) (v : spec_version).
Definition since_ (a : spec_version) (m : string * option json) : string * option json :=
  if version_leb a v then m else (fst m, None).
Definition ref_name : string := if standard then "bom-ref" else "bomRef".
Definition later_ref (r : option string) : string * option json :=
  if standard then since_ V1_5 (may "bom-ref" JStr r) else may "bomRef" JStr r.
Definition may_null {A} (k : string) (f : A -> json) (o : option A) : string * option json :=
  if standard then may k f o else must k (match o with Some a => f a | None => JNull end).
Definition ext_ref_word (t : ext_ref_type) : string := if standard then standard_word_ext_ref t else text_ext_ref_type t.
Definition identity_word (f : identity_field) : string := if standard then standard_word_identity f else text_identity_field f.

Definition jf_attached_text (x : attached_text) : json := object [
  may "contentType" JStr (at_content_type x);
  may "encoding" (word text_encoding) (at_encoding x);
  must "content" (JStr (at_content x))].
Definition jf_attachment (x : attachment) : json := object [
  must "content" (JStr (att_content x));
  may "contentType" JStr (att_content_type x);
  may "encoding" JStr (att_encoding x)].
Definition jf_hash (x : hash) : json := object [
  must "alg" (word text_hash_algorithm (h_alg x));
  must "content" (JStr (h_content x))].
Definition jf_property (x : property) : json := object [
  must "name" (JStr (p_name x));
  must "value" (JStr (p_value x))].
Definition jf_contact (x : contact) : json := object [
  later_ref (ct_bom_ref x);
  may "name" JStr (ct_name x);
  may "email" JStr (ct_email x);
  may "phone" JStr (ct_phone x)].
Definition jf_entity (x : entity) : json := object [
  later_ref (oe_bom_ref x);
  may "name" JStr (oe_name x);
  may "url" (each JStr) (oe_url x);
  may "contact" (each jf_contact) (oe_contact x)].
Definition jf_uri (u : reference_uri) : json := match u with RUrl s => JStr s | RBomLink s => JStr s end.
Definition jf_external_reference (x : external_reference) : json := object [
  must "type" (JStr (ext_ref_word (er_type x)));
  must "url" (jf_uri (er_url x));
  may "comment" JStr (er_comment x);
  may "hashes" (each jf_hash) (er_hashes x)].
Definition jf_algorithm (a : algorithm) : json :=
  match a with
  | AlgUnknown s =>
      if standard then JStr s else object [must "Unknown" (JStr "Unknown")]
  | a => word text_algorithm a
  end.
Definition jf_signer (x : signer) : json := object [
  must "algorithm" (jf_algorithm (sg_algorithm x));
  must "value" (JStr (sg_value x))].
Definition jf_signature (x : signature) : json :=
  match x with
  | SigSingle s => jf_signer s
  | SigSigners l => if standard then object [must "signers" (each jf_signer l)] else each jf_signer l
  | SigChain l => if standard then object [must "chain" (each jf_signer l)] else each jf_signer l
  end.
Definition jf_license_contact (x : license_contact) : json :=
  match x with
  | LCOrganization o => object [must "organization" (jf_entity o)]
  | LCContact c => object [must "individual" (jf_contact c)]
  end.
Definition jf_licensing (x : licensing) : json := object [
  may_null "altIds" (each JStr) (lg_alt_ids x);
  may_null "licensor" jf_license_contact (lg_licensor x);
  may_null "licensee" jf_license_contact (lg_licensee x);
  may_null "purchaser" jf_license_contact (lg_purchaser x);
  may_null "purchaseOrder" JStr (lg_purchase_order x);
  may_null "licenseTypes" (each (word text_license_type)) (lg_license_types x);
  may_null "lastRenewal" JStr (lg_last_renewal x);
  may_null "expiration" JStr (lg_expiration x)].
Definition jf_license_identifier (x : license_identifier) : string * option json :=
  match x with
  | LSpdxId s => must "id" (JStr s)
  | LName s => must "name" (JStr s)
  end.
Definition jf_license (x : license) : json := object [
  since_ V1_5 (may ref_name JStr (l_bom_ref x));
  jf_license_identifier (l_identifier x);
  may "text" jf_attached_text (l_text x);
  may "url" JStr (l_url x);
  since_ V1_5 (may "licensing" jf_licensing (l_licensing x));
  since_ V1_5 (may "properties" (each jf_property) (l_properties x))].
Definition jf_license_choice (x : license_choice) : json :=
  match x with
  | LicLicense l => object [must "license" (jf_license l)]
  | LicExpression r e => object [later_ref r; must "expression" (JStr e)]
  end.
Definition jf_identifiable_action (x : identifiable_action) : json := object [
  may "timestamp" JStr (ia_timestamp x);
  may "name" JStr (ia_name x);
  may "email" JStr (ia_email x)].
Definition jf_commit (x : commit) : json := object [
  may "uid" JStr (cm_uid x);
  may "url" JStr (cm_url x);
  may "author" jf_identifiable_action (cm_author x);
  may "committer" jf_identifiable_action (cm_committer x);
  may "message" JStr (cm_message x)].
Definition jf_diff (x : diff) : json := object [
  may "text" jf_attached_text (df_text x);
  may "url" JStr (df_url x)].
Definition jf_source (x : source) : json := object [
  may "name" JStr (so_name x);
  may "url" JStr (so_url x)].
Definition jf_issue (x : issue) : json := object [
  must "type" (word text_issue_classification (is_type x));
  may "id" JStr (is_id x);
  may "name" JStr (is_name x);
  may "description" JStr (is_description x);
  may "source" jf_source (is_source x);
  may "references" (each JStr) (is_references x)].
Definition jf_patch (x : patch) : json := object [
  must "type" (word text_patch_classification (pa_type x));
  may "diff" jf_diff (pa_diff x);
  may "resolves" (each jf_issue) (pa_resolves x)].
Definition jf_responsible_party (x : responsible_party) : json :=
  match x with
  | RPOrganization o => object [must (if standard then "organization" else "Organization") (jf_entity o)]
  | RPContact c => object [must (if standard then "contact" else "Contact") (jf_contact c)]
  end.
Definition jf_data_governance (x : data_governance) : json := object [
  may "custodians" (each jf_responsible_party) (dg_custodians x);
  may "stewards" (each jf_responsible_party) (dg_stewards x);
  may "owners" (each jf_responsible_party) (dg_owners x)].
Definition jf_data_contents (x : data_contents) : json := object [
  may "attachment" jf_attachment (dc_attachment x);
  may "url" JStr (dc_url x);
  may "properties" (each jf_property) (dc_properties x)].
Definition jf_graphic (x : graphic) : json := object [
  may "name" JStr (g_name x);
  may "image" jf_attachment (g_image x)].
Definition jf_graphics_collection (x : graphics_collection) : json := object [
  may "description" JStr (gc_description x);
  may "collection" (each jf_graphic) (gc_collection x)].
Definition jf_component_data (x : component_data) : json := object [
  may ref_name JStr (cd_bom_ref x);
  must "type" (word text_component_data_type (cd_type x));
  may "name" JStr (cd_name x);
  may "contents" jf_data_contents (cd_contents x);
  may "classification" JStr (cd_classification x);
  may "sensitiveData" (fun s => if standard then JArr [JStr s] else JStr s) (cd_sensitive_data x);
  may "graphics" jf_graphics_collection (cd_graphics x);
  may "description" JStr (cd_description x);
  may "governance" jf_data_governance (cd_governance x)].
Definition jf_approach (x : approach) : json := object [
  may "type" (word text_approach_type) (ap_type x)].
Definition jf_dataset (x : dataset) : json :=
  match x with
  | DSComponent c => jf_component_data c
  | DSReference s => if standard then object [must "ref" (JStr s)] else JStr s
  end.
Definition jf_ml_parameter (x : ml_parameter) : json := object [
  may "format" JStr (ml_format x)].
Definition jf_model_parameters (x : model_parameters) : json := object [
  may "approach" jf_approach (mp_approach x);
  may "task" JStr (mp_task x);
  may "architectureFamily" JStr (mp_architecture_family x);
  may "modelArchitecture" JStr (mp_model_architecture x);
  may "datasets" (each jf_dataset) (mp_datasets x);
  may "inputs" (each jf_ml_parameter) (mp_inputs x);
  may "outputs" (each jf_ml_parameter) (mp_outputs x)].
Definition jf_confidence_interval (x : confidence_interval) : json := object [
  may "lowerBound" JStr (ci_lower_bound x);
  may "upperBound" JStr (ci_upper_bound x)].
Definition jf_performance_metric (x : performance_metric) : json := object [
  may "type" JStr (pm_type x);
  may "value" JStr (pm_value x);
  may "slice" JStr (pm_slice x);
  may (if standard then "confidenceInterval" else "confidence_interval") jf_confidence_interval (pm_confidence_interval x)].
Definition jf_quantitative_analysis (x : quantitative_analysis) : json := object [
  may "performanceMetrics" (each jf_performance_metric) (qa_performance_metrics x);
  may "graphics" jf_graphics_collection (qa_graphics x)].
Definition jf_considerations (x : considerations) : json := object [].
Definition jf_model_card (x : model_card) : json := object [
  may ref_name JStr (mc_bom_ref x);
  may "modelParameters" jf_model_parameters (mc_model_parameters x);
  may "quantitativeAnalysis" jf_quantitative_analysis (mc_quantitative_analysis x);
  may "considerations" jf_considerations (mc_considerations x);
  may "properties" (each jf_property) (mc_properties x)].
Definition jf_occurrence (x : occurrence) : json := object [
  may ref_name JStr (oc_bom_ref x);
  must "location" (JStr (oc_location x))].
Definition jf_frame (x : frame) : json := object [
  may "package" JStr (fr_package x);
  must "module" (JStr (fr_module x));
  may "function" JStr (fr_function x);
  may "parameters" (each JStr) (fr_parameters x);
  may "line" jf_u32 (fr_line x);
  may "column" jf_u32 (fr_column x);
  may "fullFilename" JStr (fr_full_filename x)].
Definition jf_callstack (x : list frame) : json := object [must "frames" (each jf_frame x)].
Definition jf_method (x : method) : json := object [
  must "technique" (JStr (me_technique x));
  must "confidence" (jf_f32 (me_confidence x));
  may "value" JStr (me_value x)].
Definition jf_identity (x : identity) : json := object [
  must "field" (JStr (identity_word (id_field x)));
  may "confidence" jf_f32 (id_confidence x);
  may "methods" (each jf_method) (id_methods x);
  may "tools" (each JStr) (id_tools x)].
Definition jf_copyright (x : string) : json := object [must "text" (JStr x)].
Definition jf_evidence (x : evidence) : json := object [
  may "licenses" (each (jf_license_choice)) (ev_licenses x);
  may "copyright" (each jf_copyright) (ev_copyright x);
  since_ V1_5 (may "occurrences" (each jf_occurrence) (ev_occurrences x));
  since_ V1_5 (may "callstack" jf_callstack (ev_callstack x));
  since_ V1_5 (may "identity" jf_identity (ev_identity x))].
Definition jf_swid (x : swid) : json := object [
  must "tagId" (JStr (sw_tag_id x));
  must "name" (JStr (sw_name x));
  may "version" JStr (sw_version x);
  may "tagVersion" jf_u32 (sw_tag_version x);
  may "patch" JBool (sw_patch x);
  may "text" jf_attached_text (sw_text x);
  may "url" JStr (sw_url x)].
Definition jf_pedigree (to : component -> json) (x : pedigree) : json := object [
  may "ancestors" (each to) (pd_ancestors x);
  may "descendants" (each to) (pd_descendants x);
  may "variants" (each to) (pd_variants x);
  may "commits" (each jf_commit) (pd_commits x);
  may "patches" (each jf_patch) (pd_patches x);
  may "notes" JStr (pd_notes x)].
Fixpoint jf_component (x : component) : json := object [
  must "type" (word text_classification (c_type x));
  may "mime-type" JStr (c_mime_type x);
  may "bom-ref" JStr (c_bom_ref x);
  may "supplier" jf_entity (c_supplier x);
  may "author" JStr (c_author x);
  may "publisher" JStr (c_publisher x);
  may "group" JStr (c_group x);
  must "name" (JStr (c_name x));
  may "version" JStr (c_version x);
  may "description" JStr (c_description x);
  may "scope" (word text_scope) (c_scope x);
  may "hashes" (each jf_hash) (c_hashes x);
  may "licenses" (each (jf_license_choice)) (c_licenses x);
  may "copyright" JStr (c_copyright x);
  may "cpe" JStr (c_cpe x);
  may "purl" JStr (c_purl x);
  may "swid" jf_swid (c_swid x);
  may "modified" JBool (c_modified x);
  may "pedigree" (jf_pedigree (jf_component)) (c_pedigree x);
  may "externalReferences" (each jf_external_reference) (c_external_references x);
  may "properties" (each jf_property) (c_properties x);
  may "components" (each (jf_component)) (c_components x);
  may "evidence" (jf_evidence) (c_evidence x);
  since_ V1_4 (may "signature" jf_signature (c_signature x));
  since_ V1_5 (may "modelCard" jf_model_card (c_model_card x));
  since_ V1_5 (may "data" (fun d => if standard then JArr [jf_component_data d] else jf_component_data d) (c_data x))].
Definition jf_data_classification (x : data_classification) : json := object [
  must "flow" (word text_data_flow_type (dcl_flow x));
  must "classification" (JStr (dcl_classification x))].
Definition jf_service_data (x : service_data) : json := object [
  may "name" JStr (sd_name x);
  may "description" JStr (sd_description x);
  must "flow" (word text_data_flow_type (dcl_flow (sd_classification x)));
  must "classification" (JStr (dcl_classification (sd_classification x)));
  may "governance" jf_data_governance (sd_governance x);
  may "source" (each JStr) (sd_source x);
  may "destination" (each JStr) (sd_destination x)].
Definition jf_data (x : data) : json :=
  match x with
  | DClassification l => each jf_data_classification l
  | DServiceData l =>
      if version_leb V1_5 v then each jf_service_data l
      else each jf_data_classification (map sd_classification l)
  end.
Fixpoint jf_service (x : service) : json := object [
  may "bom-ref" JStr (s_bom_ref x);
  may "provider" jf_entity (s_provider x);
  may "group" JStr (s_group x);
  must "name" (JStr (s_name x));
  may "version" JStr (s_version x);
  may "description" JStr (s_description x);
  may "endpoints" (each JStr) (s_endpoints x);
  may "authenticated" JBool (s_authenticated x);
  may "x-trust-boundary" JBool (s_x_trust_boundary x);
  may "data" (jf_data) (s_data x);
  may "licenses" (each (jf_license_choice)) (s_licenses x);
  may "externalReferences" (each jf_external_reference) (s_external_references x);
  may "properties" (each jf_property) (s_properties x);
  may "services" (each (jf_service)) (s_services x);
  since_ V1_4 (may "signature" jf_signature (s_signature x));
  since_ V1_5 (may "trustZone" JStr (s_trust_zone x))].
Definition jf_tool (x : tool) : json := object [
  may "vendor" JStr (t_vendor x);
  may "name" JStr (t_name x);
  may "version" JStr (t_version x);
  may "hashes" (each jf_hash) (t_hashes x);
  since_ V1_4 (may "externalReferences" (each jf_external_reference) (t_external_references x))].
Definition jf_tools (x : tools) : json :=
  match x with
  | TList l => each (jf_tool) l
  | TObject s c =>
      if version_leb V1_5 v then object [
        may "services" (each (jf_service)) s;
        may "components" (each (jf_component)) c]
      else JArr []
  end.
Definition jf_lifecycle (x : lifecycle) : json :=
  match x with
  | LPhase p => object [must "phase" (word text_phase p)]
  | LDescription n d => object [must "name" (JStr n); may "description" JStr d]
  end.
Definition jf_metadata (x : metadata) : json := object [
  may "timestamp" JStr (m_timestamp x);
  may "tools" (jf_tools) (m_tools x);
  may "authors" (each jf_contact) (m_authors x);
  may "component" (jf_component) (m_component x);
  may "manufacture" jf_entity (m_manufacture x);
  may "supplier" jf_entity (m_supplier x);
  may "licenses" (each (jf_license_choice)) (m_licenses x);
  may "properties" (each jf_property) (m_properties x);
  since_ V1_5 (may "lifecycles" (each jf_lifecycle) (m_lifecycles x))].
Definition jf_dependency (x : dependency) : json := object [
  must "ref" (JStr (d_ref x));
  may "dependsOn" (each JStr) (match d_dependencies x with [] => None | l => Some l end)].
Definition jf_composition (x : composition) : json := object [
  since_ V1_5 (may ref_name JStr (co_bom_ref x));
  must "aggregate" (word text_aggregate_type (co_aggregate x));
  may "assemblies" (each JStr) (co_assemblies x);
  may "dependencies" (each JStr) (co_dependencies x);
  since_ V1_5 (may "vulnerabilities" (each JStr) (co_vulnerabilities x));
  since_ V1_4 (may "signature" jf_signature (co_signature x))].
Definition jf_annotator (x : annotator) : json :=
  match x with
  | AnOrganization o => object [must "organization" (jf_entity o)]
  | AnIndividual c => object [must "individual" (jf_contact c)]
  | AnComponent c => object [must "component" (jf_component c)]
  | AnService s => object [must "service" (jf_service s)]
  end.
Definition jf_annotation (x : annotation) : json := object [
  may "bom-ref" JStr (an_bom_ref x);
  must "subjects" (each JStr (an_subjects x));
  must "annotator" (jf_annotator (an_annotator x));
  must "timestamp" (JStr (an_timestamp x));
  must "text" (JStr (an_text x));
  may "signature" jf_signature (an_signature x)].
Definition jf_vuln_source (x : vuln_source) : json := object [
  may "name" JStr (vs_name x);
  may "url" JStr (vs_url x)].
Definition jf_vuln_reference (x : vuln_reference) : json := object [
  must "id" (JStr (vr_id x));
  must "source" (jf_vuln_source (vr_source x))].
Definition jf_vuln_rating (x : vuln_rating) : json := object [
  may "source" jf_vuln_source (ra_source x);
  may "score" jf_f32 (ra_score x);
  may "severity" (word text_severity) (ra_severity x);
  may "method" (word text_score_method) (ra_method x);
  may "vector" JStr (ra_vector x);
  may "justification" JStr (ra_justification x)].
Definition jf_advisory (x : advisory) : json := object [
  may "title" JStr (ad_title x);
  must "url" (JStr (ad_url x))].
Definition jf_vuln_credits (x : vuln_credits) : json := object [
  may "organizations" (each jf_entity) (vc_organizations x);
  may "individuals" (each jf_contact) (vc_individuals x)].
Definition jf_vuln_analysis (x : vuln_analysis) : json := object [
  may "state" (word text_analysis_state) (va_state x);
  may "justification" (word text_analysis_justification) (va_justification x);
  may (if standard then "response" else "responses") (each (word text_analysis_response)) (va_responses x);
  may "detail" JStr (va_detail x);
  since_ V1_5 (may "firstIssued" JStr (va_first_issued x));
  since_ V1_5 (may "lastUpdated" JStr (va_last_updated x))].
Definition jf_version_range (x : version_range) : string * option json :=
  match x with
  | VRVersion s => must "version" (JStr s)
  | VRRange s => must "range" (JStr s)
  | VRUndefined s => must "undefinedVersionRange" (JStr s)
  end.
Definition jf_version_status (x : version_status) : json := object [
  jf_version_range (ve_range x);
  must "status" (word text_status (ve_status x))].
Definition jf_vuln_target (x : vuln_target) : json := object [
  must "ref" (JStr (vt_bom_ref x));
  may "versions" (each jf_version_status) (vt_versions x)].
Definition jf_proof_of_concept (x : proof_of_concept) : json := object [
  may "reproductionSteps" JStr (poc_reproduction_steps x);
  may "environment" JStr (poc_environment x);
  may "supportingMaterial" (each jf_attachment) (poc_supporting_material x)].
Definition jf_vulnerability (x : vulnerability) : json := object [
  may "bom-ref" JStr (v_bom_ref x);
  may "id" JStr (v_id x);
  may "source" jf_vuln_source (v_source x);
  may "references" (each jf_vuln_reference) (v_references x);
  may "ratings" (each jf_vuln_rating) (v_ratings x);
  may "cwes" (each jf_u32) (v_cwes x);
  may "description" JStr (v_description x);
  may "detail" JStr (v_detail x);
  may "recommendation" JStr (v_recommendation x);
  since_ V1_5 (may "workaround" JStr (v_workaround x));
  since_ V1_5 (may "proofOfConcept" jf_proof_of_concept (v_proof_of_concept x));
  may "advisories" (each jf_advisory) (v_advisories x);
  may "created" JStr (v_created x);
  may "published" JStr (v_published x);
  may "updated" JStr (v_updated x);
  since_ V1_5 (may "rejected" JStr (v_rejected x));
  may "credits" jf_vuln_credits (v_credits x);
  may "tools" (jf_tools) (v_tools x);
  may "analysis" (jf_vuln_analysis) (v_analysis x);
  may "affects" (each jf_vuln_target) (v_targets x);
  may "properties" (each jf_property) (v_properties x)].
Definition jf_resource_reference (x : resource_reference) : json :=
  match x with
  | RRRef s => object [must "ref" (JStr s)]
  | RRExternal e => object [must "externalReference" (jf_external_reference e)]
  end.
Definition jf_environment_var (x : environment_var) : json :=
  match x with
  | EVProperty n s => object [must "name" (JStr n); must "value" (JStr s)]
  | EVValue s => JStr s
  end.
Definition jf_parameter (x : parameter) : json := object [
  may "name" JStr (pr_name x);
  may "value" JStr (pr_value x);
  may "dataType" JStr (pr_data_type x)].
Definition jf_required_input (x : required_input) : string * option json :=
  match x with
  | RIResource r => must "resource" (jf_resource_reference r)
  | RIParameters l => must "parameters" (each jf_parameter l)
  | RIEnvironmentVars l => must "environmentVars" (each jf_environment_var l)
  | RIData a => must "data" (jf_attachment a)
  end.
Definition jf_input (x : input) : json := object [
  jf_required_input (in_required x);
  may "source" jf_resource_reference (in_source x);
  may "target" jf_resource_reference (in_target x);
  may "properties" (each jf_property) (in_properties x)].
Definition jf_required_output (x : required_output) : string * option json :=
  match x with
  | ROResource r => must "resource" (jf_resource_reference r)
  | ROEnvironmentVars l => must "environmentVars" (each jf_environment_var l)
  | ROData a => must "data" (jf_attachment a)
  end.
Definition jf_output (x : output) : json := object [
  jf_required_output (ou_required x);
  may "type" (word text_output_type) (ou_type x);
  may "source" jf_resource_reference (ou_source x);
  may "target" jf_resource_reference (ou_target x);
  may "properties" (each jf_property) (ou_properties x)].
Definition jf_command (x : command) : json := object [
  may "executed" JStr (cmd_executed x);
  may "properties" (each jf_property) (cmd_properties x)].
Definition jf_step (x : step) : json := object [
  may "commands" (each jf_command) (st_commands x);
  may "description" JStr (st_description x);
  may "name" JStr (st_name x);
  may "properties" (each jf_property) (st_properties x)].
Definition jf_volume (x : volume) : json := object [
  may "uid" JStr (vo_uid x);
  may "name" JStr (vo_name x);
  may "mode" (word text_volume_mode) (Some (vo_mode x));
  may "path" JStr (vo_path x);
  may (if standard then "sizeAllocated" else "size_allocated") JStr (vo_size_allocated x);
  may "persistent" JBool (vo_persistent x);
  may "remote" JBool (vo_remote x);
  may "properties" (each jf_property) (vo_properties x)].
Definition jf_workspace (x : workspace) : json := object [
  must "bom-ref" (JStr (ws_bom_ref x));
  must "uid" (JStr (ws_uid x));
  may "name" JStr (ws_name x);
  may "aliases" (each JStr) (ws_aliases x);
  may "description" JStr (ws_description x);
  may "resourceReferences" (each jf_resource_reference) (ws_resource_references x);
  may "accessMode" (word text_access_mode) (ws_access_mode x);
  may "mountPath" JStr (ws_mount_path x);
  may "managedDataType" JStr (ws_managed_data_type x);
  may "volumeRequest" JStr (ws_volume_request x);
  may "volume" jf_volume (ws_volume x);
  may "properties" (each jf_property) (ws_properties x)].
Definition jf_condition (x : condition) : json := object [
  may "description" JStr (cn_description x);
  may "expression" JStr (cn_expression x);
  may "properties" (each jf_property) (cn_properties x)].
Definition jf_event (x : event) : json := object [
  may "uid" JStr (e_uid x);
  may "description" JStr (e_description x);
  may "timeReceived" JStr (e_time_received x);
  may "data" jf_attachment (e_data x);
  may "source" jf_resource_reference (e_source x);
  may "target" jf_resource_reference (e_target x);
  may "properties" (each jf_property) (e_properties x)].
Definition jf_trigger (x : trigger) : json := object [
  must "bom-ref" (JStr (tr_bom_ref x));
  must "uid" (JStr (tr_uid x));
  may "name" JStr (tr_name x);
  may "description" JStr (tr_description x);
  may "resourceReferences" (each jf_resource_reference) (tr_resource_references x);
  must "type" (word text_trigger_type (tr_type x));
  may "event" jf_event (tr_event x);
  may "conditions" (each jf_condition) (tr_conditions x);
  may "timeActivated" JStr (tr_time_activated x);
  may "inputs" (each jf_input) (tr_inputs x);
  may "outputs" (each jf_output) (tr_outputs x);
  may "properties" (each jf_property) (tr_properties x)].
Definition jf_task (x : task) : json := object [
  must "bom-ref" (JStr (tk_bom_ref x));
  must "uid" (JStr (tk_uid x));
  may "name" JStr (tk_name x);
  may "description" JStr (tk_description x);
  may "resourceReferences" (each jf_resource_reference) (tk_resource_references x);
  must "taskTypes" (each (word text_task_type) (tk_task_types x));
  may "trigger" jf_trigger (tk_trigger x);
  may "steps" (each jf_step) (tk_steps x);
  may "inputs" (each jf_input) (tk_inputs x);
  may "outputs" (each jf_output) (tk_outputs x);
  may "timeStart" JStr (tk_time_start x);
  may "timeEnd" JStr (tk_time_end x);
  may "workspaces" (each jf_workspace) (tk_workspaces x);
  may "runtimeTopology" (each jf_dependency) (tk_runtime_topology x);
  may "properties" (each jf_property) (tk_properties x)].
Definition jf_workflow (x : workflow) : json := object [
  must "bom-ref" (JStr (wf_bom_ref x));
  must "uid" (JStr (wf_uid x));
  may "name" JStr (wf_name x);
  may "description" JStr (wf_description x);
  may "resourceReferences" (each jf_resource_reference) (wf_resource_references x);
  may "tasks" (each jf_task) (wf_tasks x);
  may "taskDependencies" (each jf_dependency) (wf_task_dependencies x);
  must "taskTypes" (each (word text_task_type) (wf_task_types x));
  may "trigger" jf_trigger (wf_trigger x);
  may "steps" (each jf_step) (wf_steps x);
  may "inputs" (each jf_input) (wf_inputs x);
  may "outputs" (each jf_output) (wf_outputs x);
  may "timeStart" JStr (wf_time_start x);
  may "timeEnd" JStr (wf_time_end x);
  may "workspaces" (each jf_workspace) (wf_workspaces x);
  may "runtimeTopology" (each jf_dependency) (wf_runtime_topology x);
  may "properties" (each jf_property) (wf_properties x)].
Definition jf_formula (x : formula) : json := object [
  may "bom-ref" JStr (fo_bom_ref x);
  may "components" (each (jf_component)) (fo_components x);
  may "services" (each (jf_service)) (fo_services x);
  may "workflows" (each jf_workflow) (fo_workflows x);
  may "properties" (each jf_property) (fo_properties x)].
Definition jf_bom (x : bom) : json := object [
  must "bomFormat" (JStr "CycloneDX");
  must "specVersion" (JStr (version_name v));
  must "version" (jf_u32 (b_version x));
  may "serialNumber" JStr (b_serial_number x);
  may "metadata" (jf_metadata) (b_metadata x);
  may "components" (each (jf_component)) (b_components x);
  may "services" (each (jf_service)) (b_services x);
  may "externalReferences" (each jf_external_reference) (b_external_references x);
  may "dependencies" (each jf_dependency) (b_dependencies x);
  may "compositions" (each (jf_composition)) (b_compositions x);
  since_ V1_4 (may "vulnerabilities" (each (jf_vulnerability)) (b_vulnerabilities x));
  since_ V1_4 (may "signature" jf_signature (b_signature x));
  since_ V1_5 (may "annotations" (each (jf_annotation)) (b_annotations x));
  since_ V1_5 (may "properties" (each jf_property) (b_properties x));
  since_ V1_5 (may "formulation" (each (jf_formula)) (b_formulation x))].
End FORM.

(** The constructors a program calls to make the parts of a BOM, besides those in GenModel.v
    ([Component::new], [Tool::new], [ExternalReference::new], ...), and the assignments to public
    fields with which it puts the parts together.  A constructor that can fail gives an option. *)
From Verif Require Import Base Strings Base64 ModelTypes Enums ValModel GenModel.
From Coq Require Import NArith.
Open Scope string_scope.
Open Scope list_scope.

(** models/organization.rs:82-89: the name goes through [NormalizedString::new_unchecked]
    (external_models/normalized_string.rs:43-45), which keeps it as it is *)
Definition entity_new (name : string) : entity := mkEntity None (Some name) None None.
(** models/service.rs:64-83: the name is put into the tuple struct as it is *)
Definition service_new (name : string) (bom_ref : option string) : service :=
  mkService bom_ref None None name None None None None None None None None None None None None.
(** models/license.rs:118-128 *)
Definition license_id (s : string) : license := mkLicense None (LSpdxId s) None None None None.
(** models/license.rs:54-61; external_models/spdx.rs:121-126 *)
Definition choice_license (s : string) : license_choice := LicLicense (named_license s).
Definition choice_expression (s : string) : license_choice := LicExpression None s.
(** models/license.rs:49-51 *)
Definition is_license (c : license_choice) : bool := match c with LicLicense _ => true | LicExpression _ _ => false end.
(** external_models/uri.rs:82-84 *)
Definition is_bomlink (s : string) : bool := starts_with "urn:cdx" s.
(** models/advisory.rs:46-48 *)
Definition advisory_new (url : string) : advisory := mkAdvisory None url.
(** models/vulnerability_source.rs:46-54 *)
Definition vsource_new (name url : option string) : vuln_source :=
  match name with None => mkVSource None url | Some n => mkVSource (Some (normalize n)) url end.
(** models/vulnerability_reference.rs:48-53 *)
Definition vreference_new (id : string) (s : vuln_source) : vuln_reference := mkVReference (normalize id) s.
(** models/vulnerability_rating.rs:47-60 *)
Definition rating_new (score : option f32) (severity : option severity) (m : option score_method) : vuln_rating :=
  mkRating None score severity m None None.
(** models/vulnerability_analysis.rs:53-66 *)
Definition analysis_new (s : option analysis_state) (j : option analysis_justification)
  (r : option (list analysis_response)) : vuln_analysis := mkAnalysis s j r None None None.
(** models/vulnerability_target.rs:43-48, 94-99 *)
Definition target_new (bom_ref : string) : vuln_target := mkTarget bom_ref None.
Definition version_new (version status : string) : version_status :=
  mkVersion (version_range_new version) (status_of_text status).
(** models/vulnerability.rs:71-95 *)
Definition vulnerability_new (bom_ref : option string) : vulnerability :=
  mkVulnerability bom_ref None None None None None None None None None None None None None None None None None
    None None None.
(** models/signature.rs:62-67, 80-102 *)
Definition signer_new (a : algorithm) (value : string) : signer := mkSigner a value.
Definition signature_single (a : algorithm) (value : string) : signature := SigSingle (signer_new a value).
Definition signature_chain (l : list (algorithm * string)) : signature :=
  SigChain (map (fun p => signer_new (fst p) (snd p)) l).
Definition signature_signers (l : list (algorithm * string)) : signature :=
  SigSigners (map (fun p => signer_new (fst p) (snd p)) l).
(** models/modelcard.rs:96-100, 210-214 *)
Definition approach_new (s : string) : approach := mkApproach (Some (approach_type_of_text s)).
Definition ml_parameter_new (s : string) : ml_parameter := mkMLParameter (Some s).
(** models/component.rs:408-413 *)
Definition occurrence_new (location : string) : occurrence := mkOccurrence None location.
(** models/metadata.rs:61-69; [now] is what [DateTime::now] (external_models/date_time.rs:52-57)
    gives, a text or an error *)
Definition metadata_new (now : option string) : option metadata :=
  option_map (fun t => mkMetadata (Some t) None None None None None None None None) now.
(** models/bom.rs:337-357, [Bom::default]; [uuid] are the 16 random bytes of 584-586 *)
Definition bom_default (uuid : string) : bom :=
  mkBom (mkU32 1 eq_refl) (Some (urn_uuid_from uuid)) None None None None None None None None None None None V1_3.

(** ** Assignments [x.field = Some(value)] *)
(** fields of [Component], models/component.rs:49-79 *)
Definition with_component_supplier (c : component) (x : entity) :=
  mkComponent
    (c_type c) (c_mime_type c) (c_bom_ref c) (Some x) (c_author c) (c_publisher c) (c_group c)
    (c_name c) (c_version c) (c_description c) (c_scope c) (c_hashes c) (c_licenses c) (c_copyright
    c) (c_cpe c) (c_purl c) (c_swid c) (c_modified c) (c_pedigree c) (c_external_references c)
    (c_properties c) (c_components c) (c_evidence c) (c_signature c) (c_model_card c) (c_data c).
Definition with_component_author (c : component) (x : string) :=
  mkComponent
    (c_type c) (c_mime_type c) (c_bom_ref c) (c_supplier c) (Some x) (c_publisher c) (c_group c)
    (c_name c) (c_version c) (c_description c) (c_scope c) (c_hashes c) (c_licenses c) (c_copyright
    c) (c_cpe c) (c_purl c) (c_swid c) (c_modified c) (c_pedigree c) (c_external_references c)
    (c_properties c) (c_components c) (c_evidence c) (c_signature c) (c_model_card c) (c_data c).
Definition with_component_publisher (c : component) (x : string) :=
  mkComponent
    (c_type c) (c_mime_type c) (c_bom_ref c) (c_supplier c) (c_author c) (Some x) (c_group c)
    (c_name c) (c_version c) (c_description c) (c_scope c) (c_hashes c) (c_licenses c) (c_copyright
    c) (c_cpe c) (c_purl c) (c_swid c) (c_modified c) (c_pedigree c) (c_external_references c)
    (c_properties c) (c_components c) (c_evidence c) (c_signature c) (c_model_card c) (c_data c).
Definition with_component_group (c : component) (x : string) :=
  mkComponent
    (c_type c) (c_mime_type c) (c_bom_ref c) (c_supplier c) (c_author c) (c_publisher c) (Some x)
    (c_name c) (c_version c) (c_description c) (c_scope c) (c_hashes c) (c_licenses c) (c_copyright
    c) (c_cpe c) (c_purl c) (c_swid c) (c_modified c) (c_pedigree c) (c_external_references c)
    (c_properties c) (c_components c) (c_evidence c) (c_signature c) (c_model_card c) (c_data c).
Definition with_component_description (c : component) (x : string) :=
  mkComponent
    (c_type c) (c_mime_type c) (c_bom_ref c) (c_supplier c) (c_author c) (c_publisher c) (c_group c)
    (c_name c) (c_version c) (Some x) (c_scope c) (c_hashes c) (c_licenses c) (c_copyright c) (c_cpe
    c) (c_purl c) (c_swid c) (c_modified c) (c_pedigree c) (c_external_references c) (c_properties
    c) (c_components c) (c_evidence c) (c_signature c) (c_model_card c) (c_data c).
Definition with_component_scope (c : component) (x : scope) :=
  mkComponent
    (c_type c) (c_mime_type c) (c_bom_ref c) (c_supplier c) (c_author c) (c_publisher c) (c_group c)
    (c_name c) (c_version c) (c_description c) (Some x) (c_hashes c) (c_licenses c) (c_copyright c)
    (c_cpe c) (c_purl c) (c_swid c) (c_modified c) (c_pedigree c) (c_external_references c)
    (c_properties c) (c_components c) (c_evidence c) (c_signature c) (c_model_card c) (c_data c).
Definition with_component_hashes (c : component) (x : list hash) :=
  mkComponent
    (c_type c) (c_mime_type c) (c_bom_ref c) (c_supplier c) (c_author c) (c_publisher c) (c_group c)
    (c_name c) (c_version c) (c_description c) (c_scope c) (Some x) (c_licenses c) (c_copyright c)
    (c_cpe c) (c_purl c) (c_swid c) (c_modified c) (c_pedigree c) (c_external_references c)
    (c_properties c) (c_components c) (c_evidence c) (c_signature c) (c_model_card c) (c_data c).
Definition with_component_licenses (c : component) (x : list license_choice) :=
  mkComponent
    (c_type c) (c_mime_type c) (c_bom_ref c) (c_supplier c) (c_author c) (c_publisher c) (c_group c)
    (c_name c) (c_version c) (c_description c) (c_scope c) (c_hashes c) (Some x) (c_copyright c)
    (c_cpe c) (c_purl c) (c_swid c) (c_modified c) (c_pedigree c) (c_external_references c)
    (c_properties c) (c_components c) (c_evidence c) (c_signature c) (c_model_card c) (c_data c).
Definition with_component_copyright (c : component) (x : string) :=
  mkComponent
    (c_type c) (c_mime_type c) (c_bom_ref c) (c_supplier c) (c_author c) (c_publisher c) (c_group c)
    (c_name c) (c_version c) (c_description c) (c_scope c) (c_hashes c) (c_licenses c) (Some x)
    (c_cpe c) (c_purl c) (c_swid c) (c_modified c) (c_pedigree c) (c_external_references c)
    (c_properties c) (c_components c) (c_evidence c) (c_signature c) (c_model_card c) (c_data c).
Definition with_component_cpe (c : component) (x : string) :=
  mkComponent
    (c_type c) (c_mime_type c) (c_bom_ref c) (c_supplier c) (c_author c) (c_publisher c) (c_group c)
    (c_name c) (c_version c) (c_description c) (c_scope c) (c_hashes c) (c_licenses c) (c_copyright
    c) (Some x) (c_purl c) (c_swid c) (c_modified c) (c_pedigree c) (c_external_references c)
    (c_properties c) (c_components c) (c_evidence c) (c_signature c) (c_model_card c) (c_data c).
Definition with_component_purl (c : component) (x : string) :=
  mkComponent
    (c_type c) (c_mime_type c) (c_bom_ref c) (c_supplier c) (c_author c) (c_publisher c) (c_group c)
    (c_name c) (c_version c) (c_description c) (c_scope c) (c_hashes c) (c_licenses c) (c_copyright
    c) (c_cpe c) (Some x) (c_swid c) (c_modified c) (c_pedigree c) (c_external_references c)
    (c_properties c) (c_components c) (c_evidence c) (c_signature c) (c_model_card c) (c_data c).
Definition with_component_external_references (c : component) (x : list external_reference) :=
  mkComponent
    (c_type c) (c_mime_type c) (c_bom_ref c) (c_supplier c) (c_author c) (c_publisher c) (c_group c)
    (c_name c) (c_version c) (c_description c) (c_scope c) (c_hashes c) (c_licenses c) (c_copyright
    c) (c_cpe c) (c_purl c) (c_swid c) (c_modified c) (c_pedigree c) (Some x) (c_properties c)
    (c_components c) (c_evidence c) (c_signature c) (c_model_card c) (c_data c).
Definition with_component_properties (c : component) (x : list property) :=
  mkComponent
    (c_type c) (c_mime_type c) (c_bom_ref c) (c_supplier c) (c_author c) (c_publisher c) (c_group c)
    (c_name c) (c_version c) (c_description c) (c_scope c) (c_hashes c) (c_licenses c) (c_copyright
    c) (c_cpe c) (c_purl c) (c_swid c) (c_modified c) (c_pedigree c) (c_external_references c) (Some
    x) (c_components c) (c_evidence c) (c_signature c) (c_model_card c) (c_data c).
Definition with_component_components (c : component) (x : list component) :=
  mkComponent
    (c_type c) (c_mime_type c) (c_bom_ref c) (c_supplier c) (c_author c) (c_publisher c) (c_group c)
    (c_name c) (c_version c) (c_description c) (c_scope c) (c_hashes c) (c_licenses c) (c_copyright
    c) (c_cpe c) (c_purl c) (c_swid c) (c_modified c) (c_pedigree c) (c_external_references c)
    (c_properties c) (Some x) (c_evidence c) (c_signature c) (c_model_card c) (c_data c).

(** fields of [Service], models/service.rs:36-55 *)
Definition with_service_provider (s : service) (x : entity) :=
  mkService
    (s_bom_ref s) (Some x) (s_group s) (s_name s) (s_version s) (s_description s) (s_endpoints s)
    (s_authenticated s) (s_x_trust_boundary s) (s_data s) (s_licenses s) (s_external_references s)
    (s_properties s) (s_services s) (s_signature s) (s_trust_zone s).
Definition with_service_version (s : service) (x : string) :=
  mkService
    (s_bom_ref s) (s_provider s) (s_group s) (s_name s) (Some x) (s_description s) (s_endpoints s)
    (s_authenticated s) (s_x_trust_boundary s) (s_data s) (s_licenses s) (s_external_references s)
    (s_properties s) (s_services s) (s_signature s) (s_trust_zone s).
Definition with_service_description (s : service) (x : string) :=
  mkService
    (s_bom_ref s) (s_provider s) (s_group s) (s_name s) (s_version s) (Some x) (s_endpoints s)
    (s_authenticated s) (s_x_trust_boundary s) (s_data s) (s_licenses s) (s_external_references s)
    (s_properties s) (s_services s) (s_signature s) (s_trust_zone s).
Definition with_service_endpoints (s : service) (x : list string) :=
  mkService
    (s_bom_ref s) (s_provider s) (s_group s) (s_name s) (s_version s) (s_description s) (Some x)
    (s_authenticated s) (s_x_trust_boundary s) (s_data s) (s_licenses s) (s_external_references s)
    (s_properties s) (s_services s) (s_signature s) (s_trust_zone s).
Definition with_service_licenses (s : service) (x : list license_choice) :=
  mkService
    (s_bom_ref s) (s_provider s) (s_group s) (s_name s) (s_version s) (s_description s) (s_endpoints
    s) (s_authenticated s) (s_x_trust_boundary s) (s_data s) (Some x) (s_external_references s)
    (s_properties s) (s_services s) (s_signature s) (s_trust_zone s).
Definition with_service_external_references (s : service) (x : list external_reference) :=
  mkService
    (s_bom_ref s) (s_provider s) (s_group s) (s_name s) (s_version s) (s_description s) (s_endpoints
    s) (s_authenticated s) (s_x_trust_boundary s) (s_data s) (s_licenses s) (Some x) (s_properties
    s) (s_services s) (s_signature s) (s_trust_zone s).
Definition with_service_properties (s : service) (x : list property) :=
  mkService
    (s_bom_ref s) (s_provider s) (s_group s) (s_name s) (s_version s) (s_description s) (s_endpoints
    s) (s_authenticated s) (s_x_trust_boundary s) (s_data s) (s_licenses s) (s_external_references
    s) (Some x) (s_services s) (s_signature s) (s_trust_zone s).
Definition with_service_services (s : service) (x : list service) :=
  mkService
    (s_bom_ref s) (s_provider s) (s_group s) (s_name s) (s_version s) (s_description s) (s_endpoints
    s) (s_authenticated s) (s_x_trust_boundary s) (s_data s) (s_licenses s) (s_external_references
    s) (s_properties s) (Some x) (s_signature s) (s_trust_zone s).

(** fields of [Vulnerability], models/vulnerability.rs:40-62 *)
Definition with_vulnerability_id (u : vulnerability) (x : string) :=
  mkVulnerability
    (v_bom_ref u) (Some x) (v_source u) (v_references u) (v_ratings u) (v_cwes u) (v_description u)
    (v_detail u) (v_recommendation u) (v_workaround u) (v_proof_of_concept u) (v_advisories u)
    (v_created u) (v_published u) (v_updated u) (v_rejected u) (v_credits u) (v_tools u) (v_analysis
    u) (v_targets u) (v_properties u).
Definition with_vulnerability_source (u : vulnerability) (x : vuln_source) :=
  mkVulnerability
    (v_bom_ref u) (v_id u) (Some x) (v_references u) (v_ratings u) (v_cwes u) (v_description u)
    (v_detail u) (v_recommendation u) (v_workaround u) (v_proof_of_concept u) (v_advisories u)
    (v_created u) (v_published u) (v_updated u) (v_rejected u) (v_credits u) (v_tools u) (v_analysis
    u) (v_targets u) (v_properties u).
Definition with_vulnerability_references (u : vulnerability) (x : list vuln_reference) :=
  mkVulnerability
    (v_bom_ref u) (v_id u) (v_source u) (Some x) (v_ratings u) (v_cwes u) (v_description u)
    (v_detail u) (v_recommendation u) (v_workaround u) (v_proof_of_concept u) (v_advisories u)
    (v_created u) (v_published u) (v_updated u) (v_rejected u) (v_credits u) (v_tools u) (v_analysis
    u) (v_targets u) (v_properties u).
Definition with_vulnerability_ratings (u : vulnerability) (x : list vuln_rating) :=
  mkVulnerability
    (v_bom_ref u) (v_id u) (v_source u) (v_references u) (Some x) (v_cwes u) (v_description u)
    (v_detail u) (v_recommendation u) (v_workaround u) (v_proof_of_concept u) (v_advisories u)
    (v_created u) (v_published u) (v_updated u) (v_rejected u) (v_credits u) (v_tools u) (v_analysis
    u) (v_targets u) (v_properties u).
Definition with_vulnerability_description (u : vulnerability) (x : string) :=
  mkVulnerability
    (v_bom_ref u) (v_id u) (v_source u) (v_references u) (v_ratings u) (v_cwes u) (Some x) (v_detail
    u) (v_recommendation u) (v_workaround u) (v_proof_of_concept u) (v_advisories u) (v_created u)
    (v_published u) (v_updated u) (v_rejected u) (v_credits u) (v_tools u) (v_analysis u) (v_targets
    u) (v_properties u).
Definition with_vulnerability_advisories (u : vulnerability) (x : list advisory) :=
  mkVulnerability
    (v_bom_ref u) (v_id u) (v_source u) (v_references u) (v_ratings u) (v_cwes u) (v_description u)
    (v_detail u) (v_recommendation u) (v_workaround u) (v_proof_of_concept u) (Some x) (v_created u)
    (v_published u) (v_updated u) (v_rejected u) (v_credits u) (v_tools u) (v_analysis u) (v_targets
    u) (v_properties u).
Definition with_vulnerability_analysis (u : vulnerability) (x : vuln_analysis) :=
  mkVulnerability
    (v_bom_ref u) (v_id u) (v_source u) (v_references u) (v_ratings u) (v_cwes u) (v_description u)
    (v_detail u) (v_recommendation u) (v_workaround u) (v_proof_of_concept u) (v_advisories u)
    (v_created u) (v_published u) (v_updated u) (v_rejected u) (v_credits u) (v_tools u) (Some x)
    (v_targets u) (v_properties u).
Definition with_vulnerability_targets (u : vulnerability) (x : list vuln_target) :=
  mkVulnerability
    (v_bom_ref u) (v_id u) (v_source u) (v_references u) (v_ratings u) (v_cwes u) (v_description u)
    (v_detail u) (v_recommendation u) (v_workaround u) (v_proof_of_concept u) (v_advisories u)
    (v_created u) (v_published u) (v_updated u) (v_rejected u) (v_credits u) (v_tools u) (v_analysis
    u) (Some x) (v_properties u).
Definition with_vulnerability_properties (u : vulnerability) (x : list property) :=
  mkVulnerability
    (v_bom_ref u) (v_id u) (v_source u) (v_references u) (v_ratings u) (v_cwes u) (v_description u)
    (v_detail u) (v_recommendation u) (v_workaround u) (v_proof_of_concept u) (v_advisories u)
    (v_created u) (v_published u) (v_updated u) (v_rejected u) (v_credits u) (v_tools u) (v_analysis
    u) (v_targets u) (Some x).

(** fields of [Metadata], models/metadata.rs:37-48 *)
Definition with_metadata_tools (m : metadata) (x : tools) :=
  mkMetadata
    (m_timestamp m) (Some x) (m_authors m) (m_component m) (m_manufacture m) (m_supplier m)
    (m_licenses m) (m_properties m) (m_lifecycles m).
Definition with_metadata_authors (m : metadata) (x : list contact) :=
  mkMetadata
    (m_timestamp m) (m_tools m) (Some x) (m_component m) (m_manufacture m) (m_supplier m)
    (m_licenses m) (m_properties m) (m_lifecycles m).
Definition with_metadata_component (m : metadata) (x : component) :=
  mkMetadata
    (m_timestamp m) (m_tools m) (m_authors m) (Some x) (m_manufacture m) (m_supplier m) (m_licenses
    m) (m_properties m) (m_lifecycles m).
Definition with_metadata_manufacture (m : metadata) (x : entity) :=
  mkMetadata
    (m_timestamp m) (m_tools m) (m_authors m) (m_component m) (Some x) (m_supplier m) (m_licenses m)
    (m_properties m) (m_lifecycles m).
Definition with_metadata_supplier (m : metadata) (x : entity) :=
  mkMetadata
    (m_timestamp m) (m_tools m) (m_authors m) (m_component m) (m_manufacture m) (Some x) (m_licenses
    m) (m_properties m) (m_lifecycles m).
Definition with_metadata_licenses (m : metadata) (x : list license_choice) :=
  mkMetadata
    (m_timestamp m) (m_tools m) (m_authors m) (m_component m) (m_manufacture m) (m_supplier m) (Some
    x) (m_properties m) (m_lifecycles m).
Definition with_metadata_properties (m : metadata) (x : list property) :=
  mkMetadata
    (m_timestamp m) (m_tools m) (m_authors m) (m_component m) (m_manufacture m) (m_supplier m)
    (m_licenses m) (Some x) (m_lifecycles m).

(** fields of [Bom], models/bom.rs:104-123 *)
Definition with_bom_metadata (b : bom) (x : metadata) :=
  mkBom
    (b_version b) (b_serial_number b) (Some x) (b_components b) (b_services b)
    (b_external_references b) (b_dependencies b) (b_compositions b) (b_properties b)
    (b_vulnerabilities b) (b_signature b) (b_annotations b) (b_formulation b) (b_spec_version b).
Definition with_bom_components (b : bom) (x : list component) :=
  mkBom
    (b_version b) (b_serial_number b) (b_metadata b) (Some x) (b_services b) (b_external_references
    b) (b_dependencies b) (b_compositions b) (b_properties b) (b_vulnerabilities b) (b_signature b)
    (b_annotations b) (b_formulation b) (b_spec_version b).
Definition with_bom_services (b : bom) (x : list service) :=
  mkBom
    (b_version b) (b_serial_number b) (b_metadata b) (b_components b) (Some x)
    (b_external_references b) (b_dependencies b) (b_compositions b) (b_properties b)
    (b_vulnerabilities b) (b_signature b) (b_annotations b) (b_formulation b) (b_spec_version b).
Definition with_bom_external_references (b : bom) (x : list external_reference) :=
  mkBom
    (b_version b) (b_serial_number b) (b_metadata b) (b_components b) (b_services b) (Some x)
    (b_dependencies b) (b_compositions b) (b_properties b) (b_vulnerabilities b) (b_signature b)
    (b_annotations b) (b_formulation b) (b_spec_version b).
Definition with_bom_dependencies (b : bom) (x : list dependency) :=
  mkBom
    (b_version b) (b_serial_number b) (b_metadata b) (b_components b) (b_services b)
    (b_external_references b) (Some x) (b_compositions b) (b_properties b) (b_vulnerabilities b)
    (b_signature b) (b_annotations b) (b_formulation b) (b_spec_version b).
Definition with_bom_properties (b : bom) (x : list property) :=
  mkBom
    (b_version b) (b_serial_number b) (b_metadata b) (b_components b) (b_services b)
    (b_external_references b) (b_dependencies b) (b_compositions b) (Some x) (b_vulnerabilities b)
    (b_signature b) (b_annotations b) (b_formulation b) (b_spec_version b).
Definition with_bom_vulnerabilities (b : bom) (x : list vulnerability) :=
  mkBom
    (b_version b) (b_serial_number b) (b_metadata b) (b_components b) (b_services b)
    (b_external_references b) (b_dependencies b) (b_compositions b) (b_properties b) (Some x)
    (b_signature b) (b_annotations b) (b_formulation b) (b_spec_version b).


(** What of a BOM is in the XML document that is saved for the version [w] (C67): everything but licensing,
    occurrences, call stack and identity of evidence, proofs of concept, annotations and the signature of the BOM, and but
    contacts, organisations, sources and diffs without data.  Before 1.5 flows of data are their classifications and
    tools are a list.  [written_x x] is [x] without the rest.
    The detail of a vulnerability is always there. *)
From Verif Require Import Base ModelTypes Strings Enums Xml JsonSpec XmlSpec XmlFitSpec.
Open Scope string_scope.
Open Scope list_scope.

(** The parts that are written in another form than that of the standard: the content type of an attachment and the description of a
    flow of data become other attributes, references to data sets, resources outside of the document and tasks other
    elements. *)
Definition part_standard (p : part) : Prop :=
  match p with
  | PAttachment x => att_content_type x = None
  | PFlow x => sd_description x = None
  | PDataset (DSReference _) => False
  | PResource (RRExternal _) => False
  | PTask _ => False
  | _ => True
  end.

Definition written_entity (x : entity) : entity :=
  mkEntity (oe_bom_ref x) (oe_name x) (oe_url x) (option_map (filter contact_has_data) (oe_contact x)).
Definition written_license (x : license) : license :=
  mkLicense (l_bom_ref x) (l_identifier x) (l_text x) (l_url x) None (l_properties x).
Definition written_license_choice (x : license_choice) : license_choice :=
  match x with LicLicense l => LicLicense (written_license l) | other => other end.
Definition written_licenses := option_map (map written_license_choice).
Definition written_issue (x : issue) : issue :=
  mkIssue (is_type x) (is_id x) (is_name x) (is_description x) (only_if source_has_data (is_source x)) (is_references x).
Definition written_patch (x : patch) : patch :=
  mkPatch (pa_type x) (only_if diff_has_data (pa_diff x)) (option_map (map written_issue) (pa_resolves x)).
Definition written_pedigree {C} (k : C -> C) (x : pedigree_ C) : pedigree_ C :=
  mkPedigree (option_map (map k) (pd_ancestors x)) (option_map (map k) (pd_descendants x)) (option_map (map k) (pd_variants x))
    (pd_commits x) (option_map (map written_patch) (pd_patches x)) (pd_notes x).
Definition written_party (x : responsible_party) : responsible_party :=
  match x with RPOrganization o => RPOrganization (written_entity o) | other => other end.
Definition written_governance (x : data_governance) : data_governance :=
  mkGovernance (option_map (map written_party) (dg_custodians x)) (option_map (map written_party) (dg_stewards x))
    (option_map (map written_party) (dg_owners x)).
Definition written_component_data (x : component_data) : component_data :=
  mkComponentData (cd_bom_ref x) (cd_type x) (cd_name x) (cd_contents x) (cd_classification x) (cd_sensitive_data x)
    (cd_graphics x) (cd_description x) (option_map written_governance (cd_governance x)).
Definition written_dataset (x : dataset) : dataset :=
  match x with DSComponent c => DSComponent (written_component_data c) | other => other end.
Definition written_model_parameters (x : model_parameters) : model_parameters :=
  mkModelParameters (mp_approach x) (mp_task x) (mp_architecture_family x) (mp_model_architecture x)
    (option_map (map written_dataset) (mp_datasets x)) (mp_inputs x) (mp_outputs x).
Definition written_model_card (x : model_card) : model_card :=
  mkModelCard (mc_bom_ref x) (option_map written_model_parameters (mc_model_parameters x)) (mc_quantitative_analysis x)
    (mc_considerations x) (mc_properties x).
Definition written_evidence (x : evidence) : evidence :=
  mkEvidence (written_licenses (ev_licenses x)) (ev_copyright x) None None None.
Fixpoint written_component (x : component) : component :=
  mkComponent (c_type x) (c_mime_type x) (c_bom_ref x) (option_map written_entity (only_if entity_has_data (c_supplier x)))
    (c_author x) (c_publisher x) (c_group x) (c_name x) (c_version x) (c_description x) (c_scope x) (c_hashes x)
    (written_licenses (c_licenses x)) (c_copyright x) (c_cpe x) (c_purl x) (c_swid x) (c_modified x)
    (option_map (written_pedigree written_component) (c_pedigree x)) (c_external_references x) (c_properties x)
    (option_map (map written_component) (c_components x))
    (option_map written_evidence (only_if evidence_has_data (c_evidence x))) (c_signature x)
    (option_map written_model_card (c_model_card x)) (option_map written_component_data (c_data x)).

Section WRITTEN.
Context (w : spec_version).
Definition written_flow (x : service_data) : service_data :=
  mkServiceData (sd_name x) (sd_description x) (sd_classification x) (option_map written_governance (sd_governance x))
    (sd_source x) (sd_destination x).
Definition written_data (x : data) : data :=
  match x with
  | DServiceData l => if version_leb V1_5 w then DServiceData (map written_flow l) else DClassification (map sd_classification l)
  | other => other
  end.
Fixpoint written_service (x : service) : service :=
  mkService (s_bom_ref x) (option_map written_entity (s_provider x)) (s_group x) (s_name x) (s_version x) (s_description x)
    (s_endpoints x) (s_authenticated x) (s_x_trust_boundary x) (option_map written_data (s_data x))
    (written_licenses (s_licenses x)) (s_external_references x) (s_properties x)
    (option_map (map written_service) (s_services x)) (s_signature x) (s_trust_zone x).
Definition written_tools (x : tools) : tools :=
  match x with
  | TList l => TList l
  | TObject s c =>
      if version_leb V1_5 w then TObject (option_map (map written_service) s) (option_map (map written_component) c)
      else TList []
  end.
Definition written_metadata (x : metadata) : metadata :=
  mkMetadata (m_timestamp x) (option_map written_tools (m_tools x)) (option_map (filter contact_has_data) (m_authors x))
    (option_map written_component (m_component x)) (option_map written_entity (m_manufacture x))
    (option_map written_entity (m_supplier x)) (written_licenses (m_licenses x)) (m_properties x) (m_lifecycles x).
Definition written_credits (x : vuln_credits) : vuln_credits :=
  mkCredits (option_map (fun l => map written_entity (filter entity_has_data l)) (vc_organizations x))
    (option_map (filter contact_has_data) (vc_individuals x)).
Definition written_vulnerability (x : vulnerability) : vulnerability :=
  mkVulnerability (v_bom_ref x) (v_id x) (v_source x) (v_references x) (v_ratings x) (v_cwes x) (v_description x)
    (Some (match v_detail x with Some s => s | None => "" end)) (v_recommendation x) (v_workaround x) None
    (v_advisories x) (v_created x) (v_published x) (v_updated x) (v_rejected x) (option_map written_credits (v_credits x))
    (option_map written_tools (v_tools x)) (v_analysis x) (v_targets x) (v_properties x).
Definition written_formula (x : formula) : formula :=
  mkFormula (fo_bom_ref x) (option_map (map written_component) (fo_components x))
    (option_map (map written_service) (fo_services x)) (fo_workflows x) (fo_properties x).
Definition written_part (x : bom) : bom :=
  mkBom (b_version x) (b_serial_number x) (option_map written_metadata (b_metadata x))
    (option_map (map written_component) (b_components x)) (option_map (map written_service) (b_services x))
    (b_external_references x) (b_dependencies x) (b_compositions x) (b_properties x)
    (option_map (map written_vulnerability) (b_vulnerabilities x)) None None
    (option_map (map written_formula) (b_formulation x)) (b_spec_version x).
End WRITTEN.

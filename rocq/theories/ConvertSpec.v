(** What saving as JSON changes in a BOM that was read from XML (C63).  [as_json_x x] is [x] with these changes,
    wherever they apply:
    - the names the library misspells ([respell_...], ResaveSpec.v);
    - a signature chain becomes a list of signers, and the name of an unknown algorithm becomes ["Unknown"];
    - the data flows of a service become the list of their classifications;
    - scores and confidences that are not finite numbers are gone. *)
From Verif Require Import Base ModelTypes Strings Enums JsonSpec ResaveSpec.
Open Scope string_scope.
Open Scope list_scope.

Definition as_json_signer (x : signer) : signer :=
  mkSigner (match sg_algorithm x with AlgUnknown _ => AlgUnknown "Unknown" | a => a end) (sg_value x).
Definition as_json_signature (x : signature) : signature :=
  match x with
  | SigSingle s => SigSingle (as_json_signer s)
  | SigSigners l | SigChain l => SigSigners (map as_json_signer l)
  end.
Definition finite (f : f32) : bool := match f with F_fin _ _ _ => true | _ => false end.
Definition as_json_number (x : option f32) : option f32 :=
  match x with Some f => if finite f then Some f else None | None => None end.
Definition as_json_data (x : data) : data :=
  match x with DServiceData l => DClassification (map sd_classification l) | _ => x end.
Definition as_json_rating (x : vuln_rating) : vuln_rating :=
  mkRating (ra_source x) (as_json_number (ra_score x)) (ra_severity x) (ra_method x) (ra_vector x) (ra_justification x).

(** ** Where these occur *)
Definition as_json_identity (x : identity) : identity :=
  mkIdentity (respell_identity_field (id_field x)) (as_json_number (id_confidence x)) (id_methods x) (id_tools x).
Definition as_json_evidence (x : evidence) : evidence :=
  mkEvidence (ev_licenses x) (ev_copyright x) (ev_occurrences x) (ev_callstack x)
    (option_map as_json_identity (ev_identity x)).
Fixpoint as_json_component (x : component) : component :=
  mkComponent (c_type x) (c_mime_type x) (c_bom_ref x) (c_supplier x) (c_author x) (c_publisher x) (c_group x)
    (c_name x) (c_version x) (c_description x) (c_scope x) (c_hashes x) (c_licenses x) (c_copyright x) (c_cpe x)
    (c_purl x) (c_swid x) (c_modified x) (option_map (respell_pedigree as_json_component) (c_pedigree x))
    (respell_references (c_external_references x)) (c_properties x)
    (option_map (map as_json_component) (c_components x)) (option_map as_json_evidence (c_evidence x))
    (option_map as_json_signature (c_signature x)) (c_model_card x) (c_data x).
Fixpoint as_json_service (x : service) : service :=
  mkService (s_bom_ref x) (s_provider x) (s_group x) (s_name x) (s_version x) (s_description x) (s_endpoints x)
    (s_authenticated x) (s_x_trust_boundary x) (option_map as_json_data (s_data x)) (s_licenses x)
    (respell_references (s_external_references x)) (s_properties x)
    (option_map (map as_json_service) (s_services x)) (option_map as_json_signature (s_signature x)) (s_trust_zone x).
Definition as_json_tools (x : tools) : tools :=
  match x with
  | TList l => TList (map respell_tool l)
  | TObject s c => TObject (option_map (map as_json_service) s) (option_map (map as_json_component) c)
  end.
Definition as_json_metadata (x : metadata) : metadata :=
  mkMetadata (m_timestamp x) (option_map as_json_tools (m_tools x)) (m_authors x)
    (option_map as_json_component (m_component x)) (m_manufacture x) (m_supplier x) (m_licenses x) (m_properties x)
    (m_lifecycles x).
Definition as_json_composition (x : composition) : composition :=
  mkComposition (co_bom_ref x) (respell_aggregate_type (co_aggregate x)) (co_assemblies x) (co_dependencies x)
    (co_vulnerabilities x) (option_map as_json_signature (co_signature x)).
Definition as_json_annotator (x : annotator) : annotator :=
  match x with
  | AnComponent c => AnComponent (as_json_component c)
  | AnService s => AnService (as_json_service s)
  | _ => x
  end.
Definition as_json_annotation (x : annotation) : annotation :=
  mkAnnotation (an_bom_ref x) (an_subjects x) (as_json_annotator (an_annotator x)) (an_timestamp x) (an_text x)
    (option_map as_json_signature (an_signature x)).
Definition as_json_vulnerability (x : vulnerability) : vulnerability :=
  mkVulnerability (v_bom_ref x) (v_id x) (v_source x) (v_references x) (option_map (map as_json_rating) (v_ratings x))
    (v_cwes x) (v_description x) (v_detail x) (v_recommendation x) (v_workaround x) (v_proof_of_concept x)
    (v_advisories x) (v_created x) (v_published x) (v_updated x) (v_rejected x) (v_credits x)
    (option_map as_json_tools (v_tools x)) (v_analysis x) (v_targets x) (v_properties x).
Definition as_json_formula (x : formula) : formula :=
  mkFormula (fo_bom_ref x) (option_map (map as_json_component) (fo_components x))
    (option_map (map as_json_service) (fo_services x)) (option_map (map respell_workflow) (fo_workflows x))
    (fo_properties x).
(** [w]: the version the BOM is written for *)
Definition as_json_bom (w : spec_version) (x : bom) : bom :=
  mkBom (b_version x) (b_serial_number x) (option_map as_json_metadata (b_metadata x))
    (option_map (map as_json_component) (b_components x)) (option_map (map as_json_service) (b_services x))
    (respell_references (b_external_references x)) (b_dependencies x)
    (option_map (map as_json_composition) (b_compositions x)) (b_properties x)
    (option_map (map as_json_vulnerability) (b_vulnerabilities x)) (option_map as_json_signature (b_signature x))
    (option_map (map as_json_annotation) (b_annotations x)) (option_map (map as_json_formula) (b_formulation x)) w.

(** What a document written in JSON for a version holds: [kept_x v x] is the value a
    reader of the same version gets back for [x].  It is the value itself, except
    for what is listed here:
    - fields the version does not have are gone ([from]);
    - an unknown value of an enumeration whose text names a known one becomes that
      one ([settle]), and four enumerations have texts that do not read back;
    - floating point numbers that are not finite are gone;
    - a signature chain becomes a list of signers, service data becomes a list of
      classifications, and before 1.5 a tools object becomes an empty list;
    - a reference is a BOM link exactly if it starts with ["urn:cdx"]. *)
From Verif Require Import Base ModelTypes Strings Enums.
Open Scope string_scope.
Open Scope list_scope.

(** a field that exists from version [a] on *)
Definition from {A} (a v : spec_version) (o : option A) : option A :=
  if version_leb a v then o else None.

Definition settle {A} (raw : A -> option string) (of_text : string -> A) (x : A) : A :=
  match raw x with Some s => of_text s | None => x end.

Definition kept_classification := settle raw_classification classification_of_text.
Definition kept_scope := settle raw_scope scope_of_text.
Definition kept_hash_algorithm := settle raw_hash_algorithm hash_algorithm_of_text.
Definition kept_license_type := settle raw_license_type license_type_of_text.
Definition kept_issue_classification := settle raw_issue_classification issue_classification_of_text.
Definition kept_patch_classification := settle raw_patch_classification patch_classification_of_text.
Definition kept_data_flow_type := settle raw_data_flow_type data_flow_type_of_text.
Definition kept_encoding := settle raw_encoding encoding_of_text.
Definition kept_component_data_type := settle raw_component_data_type component_data_type_of_text.
Definition kept_phase := settle raw_phase phase_of_text.
Definition kept_analysis_state := settle raw_analysis_state analysis_state_of_text.
Definition kept_analysis_justification := settle raw_analysis_justification analysis_justification_of_text.
Definition kept_analysis_response := settle raw_analysis_response analysis_response_of_text.
Definition kept_severity := settle raw_severity severity_of_text.
Definition kept_score_method := settle raw_score_method score_method_of_text.
Definition kept_status := settle raw_status status_of_text.
Definition kept_approach_type := settle raw_approach_type approach_type_of_text.
Definition kept_task_type := settle raw_task_type task_type_of_text.
Definition kept_output_type := settle raw_output_type output_type_of_text.
Definition kept_trigger_type := settle raw_trigger_type trigger_type_of_text.
Definition kept_access_mode := settle raw_access_mode access_mode_of_text.
Definition kept_volume_mode := settle raw_volume_mode volume_mode_of_text.

(** the texts of these do not read back *)
Definition kept_identity_field (x : identity_field) : identity_field :=
  match x with IFUnknown _ => IFUnknown "unknown" | _ => x end.
Definition kept_algorithm (x : algorithm) : algorithm :=
  match x with AlgUnknown _ => AlgUnknown "Unknown" | _ => x end.
Definition kept_ext_ref_type (x : ext_ref_type) : ext_ref_type :=
  match x with
  | ERCondifiedInfrastructure => ERUnknown "condified-infrastructure"
  | ERUnknown s => ext_ref_type_of_text s
  | _ => x
  end.
Definition kept_aggregate_type (x : aggregate_type) : aggregate_type :=
  match x with
  | AIncompleteFirstPartyProprietaryOnly => AUnknownType "incomplete_first_party_proprietary_only"
  | AUnknownType s => aggregate_type_of_text s
  | _ => x
  end.

Definition kept_uri (x : reference_uri) : reference_uri :=
  let s := match x with RUrl s => s | RBomLink s => s end in
  if starts_with "urn:cdx" s then RBomLink s else RUrl s.

Definition is_finite (f : f32) : bool := match f with F_fin _ _ _ => true | _ => false end.
Definition finite_only (o : option f32) : option f32 :=
  match o with Some f => if is_finite f then Some f else None | None => None end.

Definition kept_attached_text (x : attached_text) : attached_text :=
  mkText
    (at_content_type x)
    (option_map kept_encoding (at_encoding x))
    (at_content x).

Definition kept_hash (x : hash) : hash :=
  mkHash
    (kept_hash_algorithm (h_alg x))
    (h_content x).

Definition kept_external_reference (x : external_reference) : external_reference :=
  mkExtRef
    (kept_ext_ref_type (er_type x))
    (kept_uri (er_url x))
    (er_comment x)
    (option_map (map kept_hash) (er_hashes x)).

Definition kept_signer (x : signer) : signer :=
  mkSigner (kept_algorithm (sg_algorithm x)) (sg_value x).
Definition kept_signature (x : signature) : signature :=
  match x with
  | SigSigners l => SigSigners (map kept_signer l)
  | SigChain l => SigSigners (map kept_signer l)
  | SigSingle s => SigSingle (kept_signer s)
  end.

Definition kept_licensing (x : licensing) : licensing :=
  mkLicensing
    (lg_alt_ids x)
    (lg_licensor x)
    (lg_licensee x)
    (lg_purchaser x)
    (lg_purchase_order x)
    (option_map (map kept_license_type) (lg_license_types x))
    (lg_last_renewal x)
    (lg_expiration x).

Definition kept_license (v : spec_version) (x : license) : license :=
  mkLicense
    (from V1_5 v (l_bom_ref x))
    (l_identifier x)
    (option_map kept_attached_text (l_text x))
    (l_url x)
    (from V1_5 v (option_map kept_licensing (l_licensing x)))
    (from V1_5 v (l_properties x)).
Definition kept_license_choice (v : spec_version) (x : license_choice) : license_choice :=
  match x with
  | LicLicense l => LicLicense (kept_license v l)
  | LicExpression r e => LicExpression r e
  end.

Definition kept_diff (x : diff) : diff :=
  mkDiff
    (option_map kept_attached_text (df_text x))
    (df_url x).

Definition kept_issue (x : issue) : issue :=
  mkIssue
    (kept_issue_classification (is_type x))
    (is_id x)
    (is_name x)
    (is_description x)
    (is_source x)
    (is_references x).

Definition kept_patch (x : patch) : patch :=
  mkPatch
    (kept_patch_classification (pa_type x))
    (option_map kept_diff (pa_diff x))
    (option_map (map kept_issue) (pa_resolves x)).

Definition kept_component_data (x : component_data) : component_data :=
  mkComponentData
    (cd_bom_ref x)
    (kept_component_data_type (cd_type x))
    (cd_name x)
    (cd_contents x)
    (cd_classification x)
    (cd_sensitive_data x)
    (cd_graphics x)
    (cd_description x)
    (cd_governance x).

Definition kept_approach (x : approach) : approach :=
  mkApproach
    (option_map kept_approach_type (ap_type x)).

Definition kept_dataset (x : dataset) : dataset :=
  match x with DSComponent c => DSComponent (kept_component_data c) | DSReference s => DSReference s end.

Definition kept_model_parameters (x : model_parameters) : model_parameters :=
  mkModelParameters
    (option_map kept_approach (mp_approach x))
    (mp_task x)
    (mp_architecture_family x)
    (mp_model_architecture x)
    (option_map (map kept_dataset) (mp_datasets x))
    (mp_inputs x)
    (mp_outputs x).

Definition kept_model_card (x : model_card) : model_card :=
  mkModelCard
    (mc_bom_ref x)
    (option_map kept_model_parameters (mc_model_parameters x))
    (mc_quantitative_analysis x)
    (mc_considerations x)
    (mc_properties x).

Definition kept_identity (x : identity) : identity :=
  mkIdentity
    (kept_identity_field (id_field x))
    (finite_only (id_confidence x))
    (id_methods x)
    (id_tools x).

Definition kept_evidence (v : spec_version) (x : evidence) : evidence :=
  mkEvidence
    (option_map (map (kept_license_choice v)) (ev_licenses x))
    (ev_copyright x)
    (from V1_5 v (ev_occurrences x))
    (from V1_5 v (ev_callstack x))
    (from V1_5 v (option_map kept_identity (ev_identity x))).

Definition kept_swid (x : swid) : swid :=
  mkSwid
    (sw_tag_id x)
    (sw_name x)
    (sw_version x)
    (sw_tag_version x)
    (sw_patch x)
    (option_map kept_attached_text (sw_text x))
    (sw_url x).

Definition kept_pedigree (kept : component -> component) (x : pedigree) : pedigree :=
  mkPedigree
    (option_map (map kept) (pd_ancestors x))
    (option_map (map kept) (pd_descendants x))
    (option_map (map kept) (pd_variants x))
    (pd_commits x)
    (option_map (map kept_patch) (pd_patches x))
    (pd_notes x).
Fixpoint kept_component (v : spec_version) (x : component) : component :=
  mkComponent
    (kept_classification (c_type x))
    (c_mime_type x)
    (c_bom_ref x)
    (c_supplier x)
    (c_author x)
    (c_publisher x)
    (c_group x)
    (c_name x)
    (c_version x)
    (c_description x)
    (option_map kept_scope (c_scope x))
    (option_map (map kept_hash) (c_hashes x))
    (option_map (map (kept_license_choice v)) (c_licenses x))
    (c_copyright x)
    (c_cpe x)
    (c_purl x)
    (option_map kept_swid (c_swid x))
    (c_modified x)
    (option_map (kept_pedigree (kept_component v)) (c_pedigree x))
    (option_map (map kept_external_reference) (c_external_references x))
    (c_properties x)
    (option_map (map (kept_component v)) (c_components x))
    (option_map (kept_evidence v) (c_evidence x))
    (from V1_4 v (option_map kept_signature (c_signature x)))
    (from V1_5 v (option_map kept_model_card (c_model_card x)))
    (from V1_5 v (option_map kept_component_data (c_data x))).

Definition kept_data_classification (x : data_classification) : data_classification :=
  mkDataClass
    (kept_data_flow_type (dcl_flow x))
    (dcl_classification x).

Definition kept_data (x : data) : data :=
  match x with
  | DClassification l => DClassification (map kept_data_classification l)
  | DServiceData l =>
      DClassification (map (fun d => kept_data_classification (sd_classification d)) l)
  end.
Fixpoint kept_service (v : spec_version) (x : service) : service :=
  mkService
    (s_bom_ref x)
    (s_provider x)
    (s_group x)
    (s_name x)
    (s_version x)
    (s_description x)
    (s_endpoints x)
    (s_authenticated x)
    (s_x_trust_boundary x)
    (option_map kept_data (s_data x))
    (option_map (map (kept_license_choice v)) (s_licenses x))
    (option_map (map kept_external_reference) (s_external_references x))
    (s_properties x)
    (option_map (map (kept_service v)) (s_services x))
    (from V1_4 v (option_map kept_signature (s_signature x)))
    (from V1_5 v (s_trust_zone x)).

Definition kept_tool (v : spec_version) (x : tool) : tool :=
  mkTool
    (t_vendor x)
    (t_name x)
    (t_version x)
    (option_map (map kept_hash) (t_hashes x))
    (from V1_4 v (option_map (map kept_external_reference) (t_external_references x))).

Definition kept_tools (v : spec_version) (x : tools) : tools :=
  match x with
  | TList l => TList (map (kept_tool v) l)
  | TObject s c =>
      if version_leb V1_5 v then
        TObject (option_map (map (kept_service v)) s) (option_map (map (kept_component v)) c)
      else TList []
  end.
Definition kept_lifecycle (x : lifecycle) : lifecycle :=
  match x with LPhase p => LPhase (kept_phase p) | LDescription n d => LDescription n d end.

Definition kept_metadata (v : spec_version) (x : metadata) : metadata :=
  mkMetadata
    (m_timestamp x)
    (option_map (kept_tools v) (m_tools x))
    (m_authors x)
    (option_map (kept_component v) (m_component x))
    (m_manufacture x)
    (m_supplier x)
    (option_map (map (kept_license_choice v)) (m_licenses x))
    (m_properties x)
    (from V1_5 v (option_map (map kept_lifecycle) (m_lifecycles x))).

Definition kept_composition (v : spec_version) (x : composition) : composition :=
  mkComposition
    (from V1_5 v (co_bom_ref x))
    (kept_aggregate_type (co_aggregate x))
    (co_assemblies x)
    (co_dependencies x)
    (from V1_5 v (co_vulnerabilities x))
    (from V1_4 v (option_map kept_signature (co_signature x))).

Definition kept_annotator (v : spec_version) (x : annotator) : annotator :=
  match x with
  | AnOrganization o => AnOrganization o
  | AnIndividual c => AnIndividual c
  | AnComponent c => AnComponent (kept_component v c)
  | AnService s => AnService (kept_service v s)
  end.

Definition kept_annotation (v : spec_version) (x : annotation) : annotation :=
  mkAnnotation
    (an_bom_ref x)
    (an_subjects x)
    ((kept_annotator v) (an_annotator x))
    (an_timestamp x)
    (an_text x)
    (option_map kept_signature (an_signature x)).

Definition kept_vuln_rating (x : vuln_rating) : vuln_rating :=
  mkRating
    (ra_source x)
    (finite_only (ra_score x))
    (option_map kept_severity (ra_severity x))
    (option_map kept_score_method (ra_method x))
    (ra_vector x)
    (ra_justification x).

Definition kept_vuln_analysis (v : spec_version) (x : vuln_analysis) : vuln_analysis :=
  mkAnalysis
    (option_map kept_analysis_state (va_state x))
    (option_map kept_analysis_justification (va_justification x))
    (option_map (map kept_analysis_response) (va_responses x))
    (va_detail x)
    (from V1_5 v (va_first_issued x))
    (from V1_5 v (va_last_updated x)).

Definition kept_version_status (x : version_status) : version_status :=
  mkVersion (ve_range x) (kept_status (ve_status x)).

Definition kept_vuln_target (x : vuln_target) : vuln_target :=
  mkTarget
    (vt_bom_ref x)
    (option_map (map kept_version_status) (vt_versions x)).

Definition kept_vulnerability (v : spec_version) (x : vulnerability) : vulnerability :=
  mkVulnerability
    (v_bom_ref x)
    (v_id x)
    (v_source x)
    (v_references x)
    (option_map (map kept_vuln_rating) (v_ratings x))
    (v_cwes x)
    (v_description x)
    (v_detail x)
    (v_recommendation x)
    (from V1_5 v (v_workaround x))
    (from V1_5 v (v_proof_of_concept x))
    (v_advisories x)
    (v_created x)
    (v_published x)
    (v_updated x)
    (from V1_5 v (v_rejected x))
    (v_credits x)
    (option_map (kept_tools v) (v_tools x))
    (option_map (kept_vuln_analysis v) (v_analysis x))
    (option_map (map kept_vuln_target) (v_targets x))
    (v_properties x).

Definition kept_resource_reference (x : resource_reference) : resource_reference :=
  match x with RRRef s => RRRef s | RRExternal e => RRExternal (kept_external_reference e) end.

Definition kept_input (x : input) : input :=
  mkInput
    (match in_required x with
     | RIResource r => RIResource (kept_resource_reference r)
     | r => r
     end)
    (option_map kept_resource_reference (in_source x))
    (option_map kept_resource_reference (in_target x))
    (in_properties x).
Definition kept_output (x : output) : output :=
  mkOutput
    (match ou_required x with
     | ROResource r => ROResource (kept_resource_reference r)
     | r => r
     end)
    (option_map kept_output_type (ou_type x))
    (option_map kept_resource_reference (ou_source x))
    (option_map kept_resource_reference (ou_target x))
    (ou_properties x).

Definition kept_volume (x : volume) : volume :=
  mkVolume (vo_uid x) (vo_name x) (kept_volume_mode (vo_mode x)) (vo_path x) (vo_size_allocated x)
    (vo_persistent x) (vo_remote x) (vo_properties x).

Definition kept_workspace (x : workspace) : workspace :=
  mkWorkspace
    (ws_bom_ref x)
    (ws_uid x)
    (ws_name x)
    (ws_aliases x)
    (ws_description x)
    (option_map (map kept_resource_reference) (ws_resource_references x))
    (option_map kept_access_mode (ws_access_mode x))
    (ws_mount_path x)
    (ws_managed_data_type x)
    (ws_volume_request x)
    (option_map kept_volume (ws_volume x))
    (ws_properties x).

Definition kept_event (x : event) : event :=
  mkEvent
    (e_uid x)
    (e_description x)
    (e_time_received x)
    (e_data x)
    (option_map kept_resource_reference (e_source x))
    (option_map kept_resource_reference (e_target x))
    (e_properties x).

Definition kept_trigger (x : trigger) : trigger :=
  mkTrigger
    (tr_bom_ref x)
    (tr_uid x)
    (tr_name x)
    (tr_description x)
    (option_map (map kept_resource_reference) (tr_resource_references x))
    (kept_trigger_type (tr_type x))
    (option_map kept_event (tr_event x))
    (tr_conditions x)
    (tr_time_activated x)
    (option_map (map kept_input) (tr_inputs x))
    (option_map (map kept_output) (tr_outputs x))
    (tr_properties x).

Definition kept_task (x : task) : task :=
  mkTask
    (tk_bom_ref x)
    (tk_uid x)
    (tk_name x)
    (tk_description x)
    (option_map (map kept_resource_reference) (tk_resource_references x))
    ((map kept_task_type) (tk_task_types x))
    (option_map kept_trigger (tk_trigger x))
    (tk_steps x)
    (option_map (map kept_input) (tk_inputs x))
    (option_map (map kept_output) (tk_outputs x))
    (tk_time_start x)
    (tk_time_end x)
    (option_map (map kept_workspace) (tk_workspaces x))
    (tk_runtime_topology x)
    (tk_properties x).

Definition kept_workflow (x : workflow) : workflow :=
  mkWorkflow
    (wf_bom_ref x)
    (wf_uid x)
    (wf_name x)
    (wf_description x)
    (option_map (map kept_resource_reference) (wf_resource_references x))
    (option_map (map kept_task) (wf_tasks x))
    (wf_task_dependencies x)
    ((map kept_task_type) (wf_task_types x))
    (option_map kept_trigger (wf_trigger x))
    (wf_steps x)
    (option_map (map kept_input) (wf_inputs x))
    (option_map (map kept_output) (wf_outputs x))
    (wf_time_start x)
    (wf_time_end x)
    (option_map (map kept_workspace) (wf_workspaces x))
    (wf_runtime_topology x)
    (wf_properties x).

Definition kept_formula (v : spec_version) (x : formula) : formula :=
  mkFormula
    (fo_bom_ref x)
    (option_map (map (kept_component v)) (fo_components x))
    (option_map (map (kept_service v)) (fo_services x))
    (option_map (map kept_workflow) (fo_workflows x))
    (fo_properties x).

Definition kept_bom (v : spec_version) (x : bom) : bom :=
  mkBom
    (b_version x)
    (b_serial_number x)
    (option_map (kept_metadata v) (b_metadata x))
    (option_map (map (kept_component v)) (b_components x))
    (option_map (map (kept_service v)) (b_services x))
    (option_map (map kept_external_reference) (b_external_references x))
    (b_dependencies x)
    (option_map (map (kept_composition v)) (b_compositions x))
    (from V1_5 v (b_properties x))
    (from V1_4 v (option_map (map (kept_vulnerability v)) (b_vulnerabilities x)))
    (from V1_4 v (option_map kept_signature (b_signature x)))
    (from V1_5 v (option_map (map (kept_annotation v)) (b_annotations x)))
    (from V1_5 v (option_map (map (kept_formula v)) (b_formulation x)))
    v.

(** ** The components a document of version [v] writes *)

Definition olist {A} (o : option (list A)) : list A := match o with Some l => l | None => [] end.
Definition one {A} (o : option A) : list A := match o with Some x => [x] | None => [] end.

(** a component, the ones inside it and the ones in its pedigree, at any depth *)
Definition pedigree_members (p : pedigree) : list component :=
  olist (pd_ancestors p) ++ olist (pd_descendants p) ++ olist (pd_variants p).
Inductive within : component -> component -> Prop :=
| within_self c : within c c
| within_nested c d e : In d (olist (c_components c)) -> within d e -> within c e
| within_pedigree c p d e :
    c_pedigree c = Some p -> In d (pedigree_members p) -> within d e -> within c e.

Definition tools_components (v : spec_version) (t : tools) : list component :=
  match t with TObject _ c => if version_leb V1_5 v then olist c else [] | TList _ => [] end.
Definition from_list {A} (a v : spec_version) (l : list A) : list A :=
  if version_leb a v then l else [].
Definition bom_roots (v : spec_version) (b : bom) : list component :=
  flat_map (fun m => flat_map (tools_components v) (one (m_tools m)) ++ one (m_component m))
           (one (b_metadata b)) ++
  olist (b_components b) ++
  from_list V1_4 v
    (flat_map (fun x => flat_map (tools_components v) (one (v_tools x))) (olist (b_vulnerabilities b))) ++
  from_list V1_5 v
    (flat_map (fun a => match an_annotator a with AnComponent c => [c] | _ => [] end)
              (olist (b_annotations b))) ++
  from_list V1_5 v (flat_map (fun f => olist (fo_components f)) (olist (b_formulation b))).
Definition bom_component (v : spec_version) (b : bom) (c : component) : Prop :=
  exists r, In r (bom_roots v b) /\ within r c.

(** from 1.5 on the confidence of an identification method is written as a number and
    has to be one to be read again *)
Definition methods_finite (v : spec_version) (c : component) : Prop :=
  v = V1_5 -> forall e i m, c_evidence c = Some e -> ev_identity e = Some i ->
    In m (olist (id_methods i)) -> is_finite (me_confidence m) = true.

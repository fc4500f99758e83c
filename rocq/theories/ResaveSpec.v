(** What writing a JSON document that was read changes (C60): the names the library misspells, and nothing else.
    [respell_x x] is [x] with these names changed wherever they occur. *)
From Verif Require Import Base ModelTypes Strings Enums Json.
Open Scope string_scope.
Open Scope list_scope.

(** the type [codified-infrastructure] of external references *)
Definition respell_ext_ref_type (x : ext_ref_type) : ext_ref_type :=
  match x with ERCondifiedInfrastructure => ERUnknown "condified-infrastructure" | _ => x end.
(** the aggregate type that the library names [incomplete_first_party_proprietary_only] when writing *)
Definition respell_aggregate_type (x : aggregate_type) : aggregate_type :=
  match x with
  | AIncompleteFirstPartyProprietaryOnly => AUnknownType "incomplete_first_party_proprietary_only"
  | _ => x
  end.
(** the text of an unknown field of an identity *)
Definition respell_identity_field (x : identity_field) : identity_field :=
  match x with IFUnknown _ => IFUnknown "unknown" | _ => x end.

(** ** Where these occur *)
Definition respell_reference (x : external_reference) : external_reference :=
  mkExtRef (respell_ext_ref_type (er_type x)) (er_url x) (er_comment x) (er_hashes x).
Definition respell_references := option_map (map respell_reference).
Definition respell_identity (x : identity) : identity :=
  mkIdentity (respell_identity_field (id_field x)) (id_confidence x) (id_methods x) (id_tools x).
Definition respell_evidence (x : evidence) : evidence :=
  mkEvidence (ev_licenses x) (ev_copyright x) (ev_occurrences x) (ev_callstack x)
    (option_map respell_identity (ev_identity x)).
Definition respell_pedigree (respell : component -> component) (x : pedigree) : pedigree :=
  mkPedigree (option_map (map respell) (pd_ancestors x)) (option_map (map respell) (pd_descendants x))
    (option_map (map respell) (pd_variants x)) (pd_commits x) (pd_patches x) (pd_notes x).
Fixpoint respell_component (x : component) : component :=
  mkComponent (c_type x) (c_mime_type x) (c_bom_ref x) (c_supplier x) (c_author x) (c_publisher x) (c_group x)
    (c_name x) (c_version x) (c_description x) (c_scope x) (c_hashes x) (c_licenses x) (c_copyright x) (c_cpe x)
    (c_purl x) (c_swid x) (c_modified x) (option_map (respell_pedigree respell_component) (c_pedigree x))
    (respell_references (c_external_references x)) (c_properties x)
    (option_map (map respell_component) (c_components x)) (option_map respell_evidence (c_evidence x))
    (c_signature x) (c_model_card x) (c_data x).
Fixpoint respell_service (x : service) : service :=
  mkService (s_bom_ref x) (s_provider x) (s_group x) (s_name x) (s_version x) (s_description x) (s_endpoints x)
    (s_authenticated x) (s_x_trust_boundary x) (s_data x) (s_licenses x)
    (respell_references (s_external_references x)) (s_properties x)
    (option_map (map respell_service) (s_services x)) (s_signature x) (s_trust_zone x).
Definition respell_tool (x : tool) : tool :=
  mkTool (t_vendor x) (t_name x) (t_version x) (t_hashes x) (respell_references (t_external_references x)).
Definition respell_tools (x : tools) : tools :=
  match x with
  | TList l => TList (map respell_tool l)
  | TObject s c => TObject (option_map (map respell_service) s) (option_map (map respell_component) c)
  end.
Definition respell_metadata (x : metadata) : metadata :=
  mkMetadata (m_timestamp x) (option_map respell_tools (m_tools x)) (m_authors x)
    (option_map respell_component (m_component x)) (m_manufacture x) (m_supplier x) (m_licenses x) (m_properties x)
    (m_lifecycles x).
Definition respell_composition (x : composition) : composition :=
  mkComposition (co_bom_ref x) (respell_aggregate_type (co_aggregate x)) (co_assemblies x) (co_dependencies x)
    (co_vulnerabilities x) (co_signature x).
Definition respell_annotator (x : annotator) : annotator :=
  match x with
  | AnComponent c => AnComponent (respell_component c)
  | AnService s => AnService (respell_service s)
  | _ => x
  end.
Definition respell_annotation (x : annotation) : annotation :=
  mkAnnotation (an_bom_ref x) (an_subjects x) (respell_annotator (an_annotator x)) (an_timestamp x) (an_text x)
    (an_signature x).
Definition respell_vulnerability (x : vulnerability) : vulnerability :=
  mkVulnerability (v_bom_ref x) (v_id x) (v_source x) (v_references x) (v_ratings x) (v_cwes x) (v_description x)
    (v_detail x) (v_recommendation x) (v_workaround x) (v_proof_of_concept x) (v_advisories x) (v_created x)
    (v_published x) (v_updated x) (v_rejected x) (v_credits x) (option_map respell_tools (v_tools x)) (v_analysis x)
    (v_targets x) (v_properties x).
Definition respell_resource (x : resource_reference) : resource_reference :=
  match x with RRRef s => RRRef s | RRExternal e => RRExternal (respell_reference e) end.
Definition respell_input (x : input) : input :=
  mkInput (match in_required x with RIResource r => RIResource (respell_resource r) | r => r end)
    (option_map respell_resource (in_source x)) (option_map respell_resource (in_target x)) (in_properties x).
Definition respell_output (x : output) : output :=
  mkOutput (match ou_required x with ROResource r => ROResource (respell_resource r) | r => r end) (ou_type x)
    (option_map respell_resource (ou_source x)) (option_map respell_resource (ou_target x)) (ou_properties x).
Definition respell_resources := option_map (map respell_resource).
Definition respell_inputs := option_map (map respell_input).
Definition respell_outputs := option_map (map respell_output).
Definition respell_workspace (x : workspace) : workspace :=
  mkWorkspace (ws_bom_ref x) (ws_uid x) (ws_name x) (ws_aliases x) (ws_description x)
    (respell_resources (ws_resource_references x)) (ws_access_mode x) (ws_mount_path x) (ws_managed_data_type x)
    (ws_volume_request x) (ws_volume x) (ws_properties x).
Definition respell_workspaces := option_map (map respell_workspace).
Definition respell_event (x : event) : event :=
  mkEvent (e_uid x) (e_description x) (e_time_received x) (e_data x) (option_map respell_resource (e_source x))
    (option_map respell_resource (e_target x)) (e_properties x).
Definition respell_trigger (x : trigger) : trigger :=
  mkTrigger (tr_bom_ref x) (tr_uid x) (tr_name x) (tr_description x) (respell_resources (tr_resource_references x))
    (tr_type x) (option_map respell_event (tr_event x)) (tr_conditions x) (tr_time_activated x)
    (respell_inputs (tr_inputs x)) (respell_outputs (tr_outputs x)) (tr_properties x).
Definition respell_task (x : task) : task :=
  mkTask (tk_bom_ref x) (tk_uid x) (tk_name x) (tk_description x) (respell_resources (tk_resource_references x))
    (tk_task_types x) (option_map respell_trigger (tk_trigger x)) (tk_steps x) (respell_inputs (tk_inputs x))
    (respell_outputs (tk_outputs x)) (tk_time_start x) (tk_time_end x) (respell_workspaces (tk_workspaces x))
    (tk_runtime_topology x) (tk_properties x).
Definition respell_workflow (x : workflow) : workflow :=
  mkWorkflow (wf_bom_ref x) (wf_uid x) (wf_name x) (wf_description x) (respell_resources (wf_resource_references x))
    (option_map (map respell_task) (wf_tasks x)) (wf_task_dependencies x) (wf_task_types x)
    (option_map respell_trigger (wf_trigger x)) (wf_steps x) (respell_inputs (wf_inputs x))
    (respell_outputs (wf_outputs x)) (wf_time_start x) (wf_time_end x) (respell_workspaces (wf_workspaces x))
    (wf_runtime_topology x) (wf_properties x).
Definition respell_formula (x : formula) : formula :=
  mkFormula (fo_bom_ref x) (option_map (map respell_component) (fo_components x))
    (option_map (map respell_service) (fo_services x)) (option_map (map respell_workflow) (fo_workflows x))
    (fo_properties x).
(** [w]: the version the BOM is written for *)
Definition respell_bom (w : spec_version) (x : bom) : bom :=
  mkBom (b_version x) (b_serial_number x) (option_map respell_metadata (b_metadata x))
    (option_map (map respell_component) (b_components x)) (option_map (map respell_service) (b_services x))
    (respell_references (b_external_references x)) (b_dependencies x)
    (option_map (map respell_composition) (b_compositions x)) (b_properties x)
    (option_map (map respell_vulnerability) (b_vulnerabilities x)) (b_signature x)
    (option_map (map respell_annotation) (b_annotations x)) (option_map (map respell_formula) (b_formulation x)) w.

(** every number with a fraction or an exponent in the document is finite as an [f32] *)
Fixpoint numbers_fit (j : json) : Prop :=
  match j with
  | JFloat f => match f with F_fin _ _ _ => True | _ => False end
  | JArr l => (fix go l := match l with [] => True | x :: l' => numbers_fit x /\ go l' end) l
  | JObj l => (fix go l := match l with [] => True | (_, x) :: l' => numbers_fit x /\ go l' end) l
  | _ => True
  end.

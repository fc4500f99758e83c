(** When the JSON form of a BOM conforms to the CycloneDX schema of its version.

    Passing validation is not enough, for three reasons, and [tame_x] lists what has to hold in
    addition for a value of type [x]:
    - rules of the schema which the library does not check (lengths, uniqueness, e-mail
      addresses, the shape of hash values, values introduced by a later version);
    - structures which validation does not look into (signatures of components and services,
      model cards, data, annotations, formulations, ...); for these [tame_x] includes validity;
    - places where the library writes something the schema does not know.  They are marked
      DEVIATION; each is shown to violate the schema in SchemaProps.v. *)
From Verif Require Import Base ModelTypes Strings Regex Enums Json JsonModel Schema SchemaText ValModel ValSpec.
From Coq Require Import ZArith.
Open Scope string_scope.
Open Scope list_scope.

(** The library's parsers and the schema's formats agree: what the library accepts as a time or
    a URI has the format the schema asks for, SPDX identifiers are those of the schema, and the
    names of signature algorithms are not URIs (the schema allows a name or a URI, not both). *)
Record formats_agree (x : parsers) (fmt : string -> string -> bool) : Prop := {
  fa_time : forall s, x_date_time x s = true -> fmt "date-time" s = true;
  fa_uri : forall s, x_uri x s = true -> fmt "iri-reference" s = true;
  fa_spdx : forall s, x_spdx_id x s = true -> In s spdx_ids;
  fa_algorithm : forall a, (forall s, a <> AlgUnknown s) -> fmt "uri" (text_algorithm a) = false }.

Section Tame.
Variable x : parsers.
Variable fmt : string -> string -> bool.
Variable v : spec_version.

Definition absent {A} (o : option A) : Prop := o = None.
Definition before_1_4 : Prop := v = V1_3.
Definition in_1_5 : Prop := v = V1_5.
Definition later {A} (o : option A) (P : A -> Prop) : Prop := in_1_5 -> when o P.

(** no two elements of a list are written as the same JSON value *)
Definition written_once {A} (f : A -> json) (l : list A) : Prop := all_different (map f l) = true.
Definition is_email (s : string) : Prop := fmt "idn-email" s = true.
(** a reference: from 1.5 on, at least one character *)
Definition tame_ref (r : string) : Prop := in_1_5 -> (1 <= chars r)%N.
Definition tame_refs (l : list string) : Prop := NoDup l /\ every tame_ref l.

Definition tame_hash (h : hash) : Prop := hash_shape (h_content h).
(** DEVIATION: bom-ref is written as "bomRef"; validation allows it in 1.5 only *)
Definition tame_contact (c : contact) : Prop :=
  absent (ct_bom_ref c) /\ (~ before_1_4 -> when (ct_email c) is_email).
(** DEVIATION: bom-ref is written as "bomRef", in every version *)
Definition tame_entity (e : entity) : Prop :=
  (before_1_4 \/ absent (oe_bom_ref e)) /\ every_in (oe_contact e) tame_contact.
(** the types of external references a version knows; validation accepts all of them always.
    DEVIATION: "codified-infrastructure" is written as "condified-infrastructure" *)
Definition ext_ref_type_in (t : ext_ref_type) : Prop :=
  match t with
  | ERUnknown _ | ERCondifiedInfrastructure => False
  | ERVcs | ERIssueTracker | ERWebsite | ERAdvisories | ERBom | ERMailingList | ERSocial | ERChat
  | ERDocumentation | ERSupport | ERDistribution | ERLicense | ERBuildMeta | ERBuildSystem
  | EROther => True
  | ERReleaseNotes => ~ before_1_4
  | _ => in_1_5
  end.
Definition tame_ext_ref (e : external_reference) : Prop :=
  ext_ref_type_in (er_type e)
  /\ match er_url e with RUrl _ => True | RBomLink s => fmt "iri-reference" s = true end
  /\ every_in (er_hashes e) tame_hash.
(** DEVIATION: lists of signers and chains are written without their enclosing object *)
Definition tame_signature (s : signature) : Prop :=
  match s with SigSingle g => valid_signer g | _ => False end.

Definition tame_license_contact (c : license_contact) : Prop :=
  match c with LCOrganization o => tame_entity o | LCContact c => tame_contact c end.
Definition given {A} (o : option A) (P : A -> Prop) : Prop := exists a, o = Some a /\ P a.
(** DEVIATION: absent members are written as null *)
Definition tame_licensing (l : licensing) : Prop :=
  given (lg_alt_ids l) (fun _ => True)
  /\ given (lg_licensor l) tame_license_contact
  /\ given (lg_licensee l) tame_license_contact
  /\ given (lg_purchaser l) tame_license_contact
  /\ given (lg_purchase_order l) (fun _ => True)
  /\ given (lg_license_types l) (fun _ => True)
  /\ given (lg_last_renewal l) (fun _ => True)
  /\ given (lg_expiration l) (fun _ => True).
(** DEVIATION: bom-ref is written as "bomRef" *)
Definition tame_license (l : license) : Prop :=
  in_1_5 -> absent (l_bom_ref l) /\ when (l_licensing l) tame_licensing.
(** DEVIATION: bom-ref is written as "bomRef", in every version *)
Definition tame_license_choice (c : license_choice) : Prop :=
  match c with LicLicense l => tame_license l | LicExpression r _ => before_1_4 \/ absent r end.

Definition tame_action (a : identifiable_action) : Prop := when (ia_email a) is_email.
Definition tame_commit (c : commit) : Prop :=
  when (cm_author c) tame_action /\ when (cm_committer c) tame_action.

(** ** Version 1.5 *)
(** DEVIATION: the members are "Organization" and "Contact" instead of "organization" and "contact" *)
Definition tame_governance (g : data_governance) : Prop :=
  when (dg_custodians g) (fun l => l = []) /\ when (dg_stewards g) (fun l => l = [])
  /\ when (dg_owners g) (fun l => l = []).
(** DEVIATION: bom-ref is written as "bomRef", sensitive data as one text instead of a list *)
Definition tame_component_data (d : component_data) : Prop :=
  valid_component_data x v d /\ absent (cd_bom_ref d) /\ absent (cd_sensitive_data d)
  /\ when (cd_governance d) tame_governance.
(** DEVIATION: references to data sets are written as a text instead of an object *)
Definition tame_dataset (d : dataset) : Prop :=
  match d with DSComponent c => tame_component_data c | DSReference _ => False end.
(** DEVIATION: the confidence interval is written as "confidence_interval" *)
Definition tame_metric (m : performance_metric) : Prop := absent (pm_confidence_interval m).
(** DEVIATION: bom-ref is written as "bomRef" *)
Definition tame_model_card (c : model_card) : Prop :=
  valid_model_card x v c /\ absent (mc_bom_ref c)
  /\ when (mc_model_parameters c) (fun p => every_in (mp_datasets p) tame_dataset)
  /\ when (mc_quantitative_analysis c) (fun q => every_in (qa_performance_metrics q) tame_metric).

Definition techniques : list string :=
  ["source-code-analysis"; "binary-analysis"; "manifest-analysis"; "ast-fingerprint"; "hash-comparison";
   "instrumentation"; "dynamic-analysis"; "filename"; "attestation"; "other"].
Definition tame_method (m : method) : Prop :=
  In (me_technique m) techniques /\ between_0_and_1 (me_confidence m).
Definition tame_identity (i : identity) : Prop :=
  when (id_confidence i) between_0_and_1 /\ every_in (id_methods i) tame_method
  /\ when (id_tools i) tame_refs.
(** DEVIATION: the bom-ref of an occurrence is written as "bomRef" *)
Definition tame_evidence (e : evidence) : Prop :=
  every_in (ev_licenses e) tame_license_choice
  /\ (in_1_5 -> every_in (ev_occurrences e) (fun o => absent (oc_bom_ref o))
                /\ when (ev_identity e) tame_identity).

(** ** Components and services *)
Definition tame_pedigree_with (tc : component -> Prop) (p : pedigree) : Prop :=
  every_in (pd_ancestors p) tc /\ every_in (pd_descendants p) tc /\ every_in (pd_variants p) tc
  /\ every_in (pd_commits p) tame_commit.
(** DEVIATION: the data of a component are written as one object instead of a list *)
Fixpoint tame_component (c : component) : Prop :=
  when (c_bom_ref c) tame_ref /\ when (c_supplier c) tame_entity
  /\ every_in (c_hashes c) tame_hash /\ every_in (c_licenses c) tame_license_choice
  /\ when (c_pedigree c) (tame_pedigree_with tame_component)
  /\ every_in (c_external_references c) tame_ext_ref
  /\ every_in (c_components c) tame_component
  /\ when (c_components c) (written_once (to_json_component v))
  /\ when (c_evidence c) tame_evidence
  /\ (~ before_1_4 -> when (c_signature c) tame_signature)
  /\ later (c_model_card c) tame_model_card
  /\ (in_1_5 -> absent (c_data c)).

Definition tame_data (d : data) : Prop :=
  match d with
  | DServiceData l => in_1_5 -> every (fun d => when (sd_governance d) tame_governance) l
  | DClassification _ => True
  end.
Fixpoint tame_service (s : service) : Prop :=
  when (s_bom_ref s) tame_ref /\ when (s_provider s) tame_entity
  /\ when (s_data s) tame_data /\ every_in (s_licenses s) tame_license_choice
  /\ every_in (s_external_references s) tame_ext_ref
  /\ every_in (s_services s) tame_service
  /\ when (s_services s) (written_once (to_json_service v))
  /\ (~ before_1_4 -> when (s_signature s) tame_signature).

(** ** Metadata *)
Definition tame_tool (t : tool) : Prop :=
  every_in (t_hashes t) tame_hash /\ (~ before_1_4 -> every_in (t_external_references t) tame_ext_ref).
Definition tame_components (l : list component) : Prop :=
  every tame_component l /\ written_once (to_json_component v) l.
Definition tame_services (l : list service) : Prop :=
  every tame_service l /\ written_once (to_json_service v) l.
Definition tame_tools (t : tools) : Prop :=
  match t with
  | TList l => every tame_tool l
  | TObject s c => when s tame_services /\ when c tame_components
  end.
Definition tame_lifecycle (l : lifecycle) : Prop :=
  match l with LPhase p => forall s, p <> PhUnknown s | LDescription _ _ => True end.
Definition tame_metadata (m : metadata) : Prop :=
  when (m_tools m) tame_tools /\ every_in (m_authors m) tame_contact
  /\ when (m_component m) tame_component /\ when (m_manufacture m) tame_entity
  /\ when (m_supplier m) tame_entity /\ every_in (m_licenses m) tame_license_choice
  /\ later (m_lifecycles m) (every tame_lifecycle).

(** ** Dependencies, compositions, annotations *)
Definition tame_dependency (d : dependency) : Prop := tame_ref (d_ref d) /\ tame_refs (d_dependencies d).
(** DEVIATION: bom-ref is written as "bomRef" *)
Definition tame_composition (c : composition) : Prop :=
  (in_1_5 -> absent (co_bom_ref c)) /\ aggregate_in v (co_aggregate c)
  /\ when (co_assemblies c) tame_refs /\ when (co_dependencies c) (@NoDup string)
  /\ later (co_vulnerabilities c) (@NoDup string)
  /\ (~ before_1_4 -> when (co_signature c) tame_signature).
Definition tame_annotator (a : annotator) : Prop :=
  match a with
  | AnOrganization o => tame_entity o | AnIndividual c => tame_contact c
  | AnComponent c => tame_component c | AnService s => tame_service s
  end.
Definition tame_annotation (a : annotation) : Prop :=
  valid_annotation x v a /\ when (an_bom_ref a) tame_ref /\ tame_refs (an_subjects a)
  /\ tame_annotator (an_annotator a) /\ when (an_signature a) tame_signature.

(** ** Vulnerabilities *)
Definition finite (f : f32) : Prop := exists n m e, f = F_fin n m e.
Definition tame_rating (r : vuln_rating) : Prop := when (ra_score r) finite.
Definition tame_credits (c : vuln_credits) : Prop :=
  every_in (vc_organizations c) tame_entity /\ every_in (vc_individuals c) tame_contact.
(** DEVIATION: the responses are written as "responses" instead of "response" *)
Definition tame_analysis (a : vuln_analysis) : Prop :=
  absent (va_responses a) /\ later (va_last_updated a) (is_time x).
Definition tame_range (r : version_range) : Prop :=
  match r with
  | VRVersion s | VRRange s => (1 <= chars s)%N /\ (chars s <= 1024)%N
  | VRUndefined _ => True
  end.
Definition tame_target (t : vuln_target) : Prop :=
  tame_ref (vt_bom_ref t) /\ every_in (vt_versions t) (fun s => tame_range (ve_range s)).
Definition tame_poc (p : proof_of_concept) : Prop := every_in (poc_supporting_material p) valid_attachment.
Definition tame_vulnerability (u : vulnerability) : Prop :=
  when (v_bom_ref u) tame_ref /\ every_in (v_ratings u) tame_rating
  /\ every_in (v_cwes u) (fun n => (1 <= u32_N n)%N)
  /\ later (v_proof_of_concept u) tame_poc /\ later (v_rejected u) (is_time x)
  /\ when (v_credits u) tame_credits /\ when (v_tools u) tame_tools /\ when (v_analysis u) tame_analysis
  /\ every_in (v_targets u) tame_target /\ when (v_targets u) (written_once to_json_vuln_target).

(** ** Formulation, version 1.5: not validated at all *)
Definition tame_resource (r : resource_reference) : Prop :=
  match r with RRRef s => tame_ref s | RRExternal e => valid_ext_ref x v e /\ tame_ext_ref e end.
Definition tame_resources (o : option (list resource_reference)) : Prop :=
  every_in o tame_resource /\ when o (written_once to_json_resource_reference).
Definition tame_input (i : input) : Prop :=
  match in_required i with
  | RIResource r => tame_resource r
  | RIParameters l => written_once to_json_parameter l
  | RIEnvironmentVars l => written_once to_json_environment_var l
  | RIData a => valid_attachment a
  end
  /\ when (in_source i) tame_resource /\ when (in_target i) tame_resource.
Definition tame_inputs (o : option (list input)) : Prop := every_in o tame_input /\ when o (written_once to_json_input).
Definition tame_output (u : output) : Prop :=
  match ou_required u with
  | ROResource r => tame_resource r
  | ROEnvironmentVars l => written_once to_json_environment_var l
  | ROData a => valid_attachment a
  end
  /\ when (ou_type u) (fun t => forall s, t <> OTUnknown s)
  /\ when (ou_source u) tame_resource /\ when (ou_target u) tame_resource.
Definition tame_outputs (o : option (list output)) : Prop := every_in o tame_output /\ when o (written_once to_json_output).
(** DEVIATION: the allocated size is written as "size_allocated" *)
Definition tame_volume (w : volume) : Prop := (forall s, vo_mode w <> VMUnknown s) /\ absent (vo_size_allocated w).
Definition tame_workspace (w : workspace) : Prop :=
  tame_ref (ws_bom_ref w) /\ tame_resources (ws_resource_references w)
  /\ when (ws_access_mode w) (fun m => forall s, m <> AMUnknown s) /\ when (ws_volume w) tame_volume.
Definition tame_workspaces (o : option (list workspace)) : Prop :=
  every_in o tame_workspace /\ when o (written_once to_json_workspace).
Definition tame_event (e : event) : Prop :=
  when (e_time_received e) (is_time x) /\ when (e_data e) valid_attachment
  /\ when (e_source e) tame_resource /\ when (e_target e) tame_resource.
Definition tame_trigger (t : trigger) : Prop :=
  tame_ref (tr_bom_ref t) /\ tame_resources (tr_resource_references t)
  /\ (forall s, tr_type t <> TgUnknown s) /\ when (tr_event t) tame_event
  /\ when (tr_conditions t) (written_once to_json_condition) /\ when (tr_time_activated t) (is_time x)
  /\ tame_inputs (tr_inputs t) /\ tame_outputs (tr_outputs t).
Definition tame_topology (o : option (list dependency)) : Prop :=
  every_in o tame_dependency /\ when o (written_once to_json_dependency).
Definition tame_steps (o : option (list step)) : Prop := when o (written_once to_json_step).
Definition tame_task (t : task) : Prop :=
  tame_ref (tk_bom_ref t) /\ tame_resources (tk_resource_references t)
  /\ every (fun k => forall s, k <> TTUnknown s) (tk_task_types t)
  /\ when (tk_trigger t) tame_trigger /\ tame_steps (tk_steps t)
  /\ tame_inputs (tk_inputs t) /\ tame_outputs (tk_outputs t)
  /\ when (tk_time_start t) (is_time x) /\ when (tk_time_end t) (is_time x)
  /\ tame_workspaces (tk_workspaces t) /\ tame_topology (tk_runtime_topology t).
Definition tame_workflow (w : workflow) : Prop :=
  tame_ref (wf_bom_ref w) /\ tame_resources (wf_resource_references w)
  /\ every_in (wf_tasks w) tame_task /\ when (wf_tasks w) (written_once to_json_task)
  /\ tame_topology (wf_task_dependencies w)
  /\ every (fun k => forall s, k <> TTUnknown s) (wf_task_types w)
  /\ when (wf_trigger w) tame_trigger /\ tame_steps (wf_steps w)
  /\ tame_inputs (wf_inputs w) /\ tame_outputs (wf_outputs w)
  /\ when (wf_time_start w) (is_time x) /\ when (wf_time_end w) (is_time x)
  /\ tame_workspaces (wf_workspaces w) /\ tame_topology (wf_runtime_topology w).
Definition tame_formula (f : formula) : Prop :=
  when (fo_bom_ref f) tame_ref
  /\ every_in (fo_components f) (valid_component x v) /\ when (fo_components f) tame_components
  /\ every_in (fo_services f) (valid_service x v) /\ when (fo_services f) tame_services
  /\ every_in (fo_workflows f) tame_workflow /\ when (fo_workflows f) (written_once to_json_workflow).

(** ** The whole BOM *)
Definition tame_bom (b : bom) : Prop :=
  (in_1_5 -> (1 <= u32_N (b_version b))%N)
  /\ when (b_metadata b) tame_metadata
  /\ when (b_components b) tame_components /\ when (b_services b) tame_services
  /\ every_in (b_external_references b) tame_ext_ref
  /\ every_in (b_dependencies b) tame_dependency /\ when (b_dependencies b) (written_once to_json_dependency)
  /\ every_in (b_compositions b) tame_composition
  /\ when (b_compositions b) (written_once (to_json_composition v))
  /\ (~ before_1_4 -> every_in (b_vulnerabilities b) tame_vulnerability
        /\ when (b_vulnerabilities b) (written_once (to_json_vulnerability v))
        /\ when (b_signature b) tame_signature)
  /\ (in_1_5 -> every_in (b_annotations b) tame_annotation
        /\ when (b_annotations b) (written_once (to_json_annotation v))
        /\ every_in (b_formulation b) tame_formula
        /\ when (b_formulation b) (written_once (to_json_formula v))).
End Tame.

(** the document conforms to the schema of the version *)
Definition conforms_to (fmt : string -> string -> bool) (v : spec_version) (j : json) : Prop :=
  conforms fmt (schema_definitions v) (schema_root v) j.
Definition violates_schema (fmt : string -> string -> bool) (v : spec_version) (j : json) : Prop :=
  violates fmt (schema_definitions v) (schema_root v) j.

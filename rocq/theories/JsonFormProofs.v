(** What the library writes as JSON is the form of the format in the library's dialect: proofs. *)
From Verif Require Import Base ModelTypes Enums Json JsonLemmas JsonModel JsonSpec JsonProofs JsonForm.
Open Scope string_scope.
Open Scope list_scope.

Lemma obj_object fs : obj fs = object fs.
Proof.
  unfold obj, object. f_equal. induction fs as [|[k [x|]] fs IH]; [reflexivity| |]; cbn [members flat_map fst snd app]; now rewrite ?IH.
Qed.
Section JSON_FORM.
Context (v : spec_version).
Lemma when_later a k j : (k, Json.when (since a v) j) = since_ v a (k, j).
Proof. unfold since_, Json.when, since. cbn. now destruct (version_leb a v). Qed.
Lemma arr_each {A} (f g : A -> json) l : (forall a, In a l -> f a = g a) -> arr f l = each g l.
Proof. intros H. unfold arr, each. f_equal. apply map_ext_in. exact H. Qed.
Lemma opt_may {A} k (f g : A -> json) o : (forall a, o = Some a -> f a = g a) -> (k, opt f o) = may k g o.
Proof. intros H. unfold may, opt. destruct o; cbn; [|reflexivity]. now rewrite H. Qed.
Lemma opt_each {A} k (f g : A -> json) o : (forall a, In a (olist o) -> f a = g a) -> (k, opt (arr f) o) = may k (each g) o.
Proof. intros H. apply opt_may. intros l ->. now apply arr_each. Qed.
Lemma object_eq ms ns : Forall2 eq ms ns -> object ms = object ns.
Proof. intros H. f_equal. induction H; congruence. Qed.

Lemma single_eq k x y : x = y -> JObj [(k, x)] = object [must k y].
Proof. now intros ->. Qed.
Lemma null_form {A} k (f g : A -> json) o : (forall a, f a = g a) -> (k, opt_null f o) = may_null false k g o.
Proof. intros H. unfold opt_null, may_null, must. destruct o; [now rewrite H|reflexivity]. Qed.
Ltac member :=
  rewrite ?when_later; try reflexivity;
  try (apply (f_equal (since_ v _)));
  first [reflexivity | solve [apply null_form; intros; auto with jf] | solve [apply opt_each; intros; auto with jf] | solve [apply opt_may; intros; auto with jf]
        | solve [apply opt_may; intros; apply arr_each; intros; auto with jf]
        | solve [unfold must; do 2 f_equal; auto with jf]
        | solve [unfold must; do 2 f_equal; apply arr_each; auto with jf] | solve [auto with jf] | idtac].
Ltac members := rewrite ?obj_object; apply object_eq; repeat (apply Forall2_cons; [member|]); [..|apply Forall2_nil].
Ltac form0 := solve [reflexivity | members | apply single_eq; auto with jf | apply arr_each; auto with jf | auto with jf].
Ltac form := first [form0 | match goal with x : _ |- _ => destruct x; solve [form0 | member] end | members | idtac].

Lemma attached_text_form x : to_json_attached_text x = jf_attached_text x.
Proof. unfold to_json_attached_text, jf_attached_text. form. Qed.
#[local] Hint Resolve attached_text_form : jf.
Lemma attachment_form x : to_json_attachment x = jf_attachment x.
Proof. unfold to_json_attachment, jf_attachment. form. Qed.
#[local] Hint Resolve attachment_form : jf.
Lemma hash_form x : to_json_hash x = jf_hash x.
Proof. unfold to_json_hash, jf_hash. form. Qed.
#[local] Hint Resolve hash_form : jf.
Lemma property_form x : to_json_property x = jf_property x.
Proof. unfold to_json_property, jf_property. form. Qed.
#[local] Hint Resolve property_form : jf.
Lemma contact_form x : to_json_contact x = jf_contact false v x.
Proof. unfold to_json_contact, jf_contact. form. Qed.
#[local] Hint Resolve contact_form : jf.
Lemma entity_form x : to_json_entity x = jf_entity false v x.
Proof. unfold to_json_entity, jf_entity. form. Qed.
#[local] Hint Resolve entity_form : jf.
Lemma external_reference_form x : to_json_external_reference x = jf_external_reference false x.
Proof. unfold to_json_external_reference, jf_external_reference. form. Qed.
#[local] Hint Resolve external_reference_form : jf.
Lemma algorithm_form x : to_json_algorithm x = jf_algorithm false x.
Proof. unfold to_json_algorithm, jf_algorithm. form. Qed.
#[local] Hint Resolve algorithm_form : jf.
Lemma signer_form x : to_json_signer x = jf_signer false x.
Proof. unfold to_json_signer, jf_signer. form. Qed.
#[local] Hint Resolve signer_form : jf.
Lemma signature_form x : to_json_signature x = jf_signature false x.
Proof. unfold to_json_signature, jf_signature. form. Qed.
#[local] Hint Resolve signature_form : jf.
Lemma license_contact_form x : to_json_license_contact x = jf_license_contact false v x.
Proof. unfold to_json_license_contact, jf_license_contact. form. Qed.
#[local] Hint Resolve license_contact_form : jf.
Lemma licensing_form x : to_json_licensing x = jf_licensing false v x.
Proof. unfold to_json_licensing, jf_licensing. form. Qed.
#[local] Hint Resolve licensing_form : jf.
Lemma license_identifier_form x : license_identifier_member x = jf_license_identifier x.
Proof. unfold license_identifier_member, jf_license_identifier. form. Qed.
#[local] Hint Resolve license_identifier_form : jf.
Lemma license_form x : to_json_license v x = jf_license false v x.
Proof. unfold to_json_license, jf_license. form. Qed.
#[local] Hint Resolve license_form : jf.
Lemma license_choice_form x : to_json_license_choice v x = jf_license_choice false v x.
Proof. unfold to_json_license_choice, jf_license_choice. form. Qed.
#[local] Hint Resolve license_choice_form : jf.
Lemma identifiable_action_form x : to_json_identifiable_action x = jf_identifiable_action x.
Proof. unfold to_json_identifiable_action, jf_identifiable_action. form. Qed.
#[local] Hint Resolve identifiable_action_form : jf.
Lemma commit_form x : to_json_commit x = jf_commit x.
Proof. unfold to_json_commit, jf_commit. form. Qed.
#[local] Hint Resolve commit_form : jf.
Lemma diff_form x : to_json_diff x = jf_diff x.
Proof. unfold to_json_diff, jf_diff. form. Qed.
#[local] Hint Resolve diff_form : jf.
Lemma source_form x : to_json_source x = jf_source x.
Proof. unfold to_json_source, jf_source. form. Qed.
#[local] Hint Resolve source_form : jf.
Lemma issue_form x : to_json_issue x = jf_issue x.
Proof. unfold to_json_issue, jf_issue. form. Qed.
#[local] Hint Resolve issue_form : jf.
Lemma patch_form x : to_json_patch x = jf_patch x.
Proof. unfold to_json_patch, jf_patch. form. Qed.
#[local] Hint Resolve patch_form : jf.
Lemma responsible_party_form x : to_json_responsible_party x = jf_responsible_party false v x.
Proof. unfold to_json_responsible_party, jf_responsible_party. form. Qed.
#[local] Hint Resolve responsible_party_form : jf.
Lemma data_governance_form x : to_json_data_governance x = jf_data_governance false v x.
Proof. unfold to_json_data_governance, jf_data_governance. form. Qed.
#[local] Hint Resolve data_governance_form : jf.
Lemma data_contents_form x : to_json_data_contents x = jf_data_contents x.
Proof. unfold to_json_data_contents, jf_data_contents. form. Qed.
#[local] Hint Resolve data_contents_form : jf.
Lemma graphic_form x : to_json_graphic x = jf_graphic x.
Proof. unfold to_json_graphic, jf_graphic. form. Qed.
#[local] Hint Resolve graphic_form : jf.
Lemma graphics_collection_form x : to_json_graphics_collection x = jf_graphics_collection x.
Proof. unfold to_json_graphics_collection, jf_graphics_collection. form. Qed.
#[local] Hint Resolve graphics_collection_form : jf.
Lemma component_data_form x : to_json_component_data x = jf_component_data false v x.
Proof. unfold to_json_component_data, jf_component_data. form. Qed.
#[local] Hint Resolve component_data_form : jf.
Lemma approach_form x : to_json_approach x = jf_approach x.
Proof. unfold to_json_approach, jf_approach. form. Qed.
#[local] Hint Resolve approach_form : jf.
Lemma dataset_form x : to_json_dataset x = jf_dataset false v x.
Proof. unfold to_json_dataset, jf_dataset. form. Qed.
#[local] Hint Resolve dataset_form : jf.
Lemma ml_parameter_form x : to_json_ml_parameter x = jf_ml_parameter x.
Proof. unfold to_json_ml_parameter, jf_ml_parameter. form. Qed.
#[local] Hint Resolve ml_parameter_form : jf.
Lemma model_parameters_form x : to_json_model_parameters x = jf_model_parameters false v x.
Proof. unfold to_json_model_parameters, jf_model_parameters. form. Qed.
#[local] Hint Resolve model_parameters_form : jf.
Lemma confidence_interval_form x : to_json_confidence_interval x = jf_confidence_interval x.
Proof. unfold to_json_confidence_interval, jf_confidence_interval. form. Qed.
#[local] Hint Resolve confidence_interval_form : jf.
Lemma performance_metric_form x : to_json_performance_metric x = jf_performance_metric false x.
Proof. unfold to_json_performance_metric, jf_performance_metric. form. Qed.
#[local] Hint Resolve performance_metric_form : jf.
Lemma quantitative_analysis_form x : to_json_quantitative_analysis x = jf_quantitative_analysis false x.
Proof. unfold to_json_quantitative_analysis, jf_quantitative_analysis. form. Qed.
#[local] Hint Resolve quantitative_analysis_form : jf.
Lemma considerations_form x : to_json_considerations x = jf_considerations x.
Proof. unfold to_json_considerations, jf_considerations. form. Qed.
#[local] Hint Resolve considerations_form : jf.
Lemma model_card_form x : to_json_model_card x = jf_model_card false v x.
Proof. unfold to_json_model_card, jf_model_card. form. Qed.
#[local] Hint Resolve model_card_form : jf.
Lemma occurrence_form x : to_json_occurrence x = jf_occurrence false x.
Proof. unfold to_json_occurrence, jf_occurrence. form. Qed.
#[local] Hint Resolve occurrence_form : jf.
Lemma frame_form x : to_json_frame x = jf_frame x.
Proof. unfold to_json_frame, jf_frame. form. Qed.
#[local] Hint Resolve frame_form : jf.
Lemma callstack_form x : to_json_callstack x = jf_callstack x.
Proof. unfold to_json_callstack, jf_callstack. form. Qed.
#[local] Hint Resolve callstack_form : jf.
Lemma method_form x : to_json_method x = jf_method x.
Proof. unfold to_json_method, jf_method. form. Qed.
#[local] Hint Resolve method_form : jf.
Lemma identity_form x : to_json_identity x = jf_identity false x.
Proof. unfold to_json_identity, jf_identity. form. Qed.
#[local] Hint Resolve identity_form : jf.
Lemma copyright_form x : to_json_copyright x = jf_copyright x.
Proof. unfold to_json_copyright, jf_copyright. form. Qed.
#[local] Hint Resolve copyright_form : jf.
Lemma evidence_form x : to_json_evidence v x = jf_evidence false v x.
Proof. unfold to_json_evidence, jf_evidence. form. Qed.
#[local] Hint Resolve evidence_form : jf.
Lemma swid_form x : to_json_swid x = jf_swid x.
Proof. unfold to_json_swid, jf_swid. form. Qed.
#[local] Hint Resolve swid_form : jf.
Lemma pedigree_form f g x : all_in (fun c => f c = g c) (pd_ancestors x) -> all_in (fun c => f c = g c) (pd_descendants x) ->
  all_in (fun c => f c = g c) (pd_variants x) -> to_json_pedigree f x = jf_pedigree g x.
Proof. intros A D V. unfold to_json_pedigree, jf_pedigree. form. Qed.
Lemma jf_component_eq x : jf_component false v x = object [
  must "type" (word text_classification (c_type x));
  may "mime-type" JStr (c_mime_type x);
  may "bom-ref" JStr (c_bom_ref x);
  may "supplier" (jf_entity false v) (c_supplier x);
  may "author" JStr (c_author x);
  may "publisher" JStr (c_publisher x);
  may "group" JStr (c_group x);
  must "name" (JStr (c_name x));
  may "version" JStr (c_version x);
  may "description" JStr (c_description x);
  may "scope" (word text_scope) (c_scope x);
  may "hashes" (each jf_hash) (c_hashes x);
  may "licenses" (each (jf_license_choice false v)) (c_licenses x);
  may "copyright" JStr (c_copyright x);
  may "cpe" JStr (c_cpe x);
  may "purl" JStr (c_purl x);
  may "swid" jf_swid (c_swid x);
  may "modified" JBool (c_modified x);
  may "pedigree" (jf_pedigree (jf_component false v)) (c_pedigree x);
  may "externalReferences" (each (jf_external_reference false)) (c_external_references x);
  may "properties" (each jf_property) (c_properties x);
  may "components" (each (jf_component false v)) (c_components x);
  may "evidence" (jf_evidence false v) (c_evidence x);
  since_ v V1_4 (may "signature" (jf_signature false) (c_signature x));
  since_ v V1_5 (may "modelCard" (jf_model_card false v) (c_model_card x));
  since_ v V1_5 (may "data" (jf_component_data false v) (c_data x))].
Proof. destruct x; reflexivity. Qed.
Lemma component_form x : to_json_component v x = jf_component false v x.
Proof.
  induction x as [x IHc IHp] using component_ind'. rewrite to_json_component_eq.
  rewrite jf_component_eq. form.
  apply opt_may. intros p E. destruct (IHp p E) as (A & D & V). now apply pedigree_form.
Qed.
#[local] Hint Resolve component_form : jf.
Lemma data_classification_form x : to_json_data_classification x = jf_data_classification x.
Proof. unfold to_json_data_classification, jf_data_classification. form. Qed.
#[local] Hint Resolve data_classification_form : jf.
Lemma service_data_form x : to_json_service_data x = jf_service_data false v x.
Proof. unfold to_json_service_data, jf_service_data. form. Qed.
#[local] Hint Resolve service_data_form : jf.
Lemma data_form x : to_json_data v x = jf_data false v x.
Proof.
  unfold to_json_data, jf_data, since. destruct x as [l|l]; [|form]. destruct (version_leb V1_5 v); apply arr_each; auto with jf.
Qed.
#[local] Hint Resolve data_form : jf.
Lemma to_json_service_eq x : to_json_service v x = obj [
  ("bom-ref", opt JStr (s_bom_ref x));
  ("provider", opt to_json_entity (s_provider x));
  ("group", opt JStr (s_group x));
  ("name", Some (JStr (s_name x)));
  ("version", opt JStr (s_version x));
  ("description", opt JStr (s_description x));
  ("endpoints", opt (arr JStr) (s_endpoints x));
  ("authenticated", opt JBool (s_authenticated x));
  ("x-trust-boundary", opt JBool (s_x_trust_boundary x));
  ("data", opt (to_json_data v) (s_data x));
  ("licenses", opt (arr (to_json_license_choice v)) (s_licenses x));
  ("externalReferences", opt (arr to_json_external_reference) (s_external_references x));
  ("properties", opt (arr to_json_property) (s_properties x));
  ("services", opt (arr (to_json_service v)) (s_services x));
  ("signature", when (since V1_4 v) (opt to_json_signature (s_signature x)));
  ("trustZone", when (since V1_5 v) (opt JStr (s_trust_zone x)))].
Proof. destruct x; reflexivity. Qed.
Lemma jf_service_eq x : jf_service false v x = object [
  may "bom-ref" JStr (s_bom_ref x);
  may "provider" (jf_entity false v) (s_provider x);
  may "group" JStr (s_group x);
  must "name" (JStr (s_name x));
  may "version" JStr (s_version x);
  may "description" JStr (s_description x);
  may "endpoints" (each JStr) (s_endpoints x);
  may "authenticated" JBool (s_authenticated x);
  may "x-trust-boundary" JBool (s_x_trust_boundary x);
  may "data" (jf_data false v) (s_data x);
  may "licenses" (each (jf_license_choice false v)) (s_licenses x);
  may "externalReferences" (each (jf_external_reference false)) (s_external_references x);
  may "properties" (each jf_property) (s_properties x);
  may "services" (each (jf_service false v)) (s_services x);
  since_ v V1_4 (may "signature" (jf_signature false) (s_signature x));
  since_ v V1_5 (may "trustZone" JStr (s_trust_zone x))].
Proof. destruct x; reflexivity. Qed.
Lemma service_form x : to_json_service v x = jf_service false v x.
Proof. induction x as [x IH] using service_ind'. rewrite to_json_service_eq, jf_service_eq. form. Qed.
#[local] Hint Resolve service_form : jf.
Lemma tool_form x : to_json_tool v x = jf_tool false v x.
Proof. unfold to_json_tool, jf_tool. form. Qed.
#[local] Hint Resolve tool_form : jf.
Lemma tools_form x : to_json_tools v x = jf_tools false v x.
Proof. unfold to_json_tools, jf_tools, since. destruct x as [l|s c]; [form|]. destruct (version_leb V1_5 v); [members|reflexivity]. Qed.
#[local] Hint Resolve tools_form : jf.
Lemma lifecycle_form x : to_json_lifecycle x = jf_lifecycle x.
Proof. unfold to_json_lifecycle, jf_lifecycle. form. Qed.
#[local] Hint Resolve lifecycle_form : jf.
Lemma metadata_form x : to_json_metadata v x = jf_metadata false v x.
Proof. unfold to_json_metadata, jf_metadata. form. Qed.
#[local] Hint Resolve metadata_form : jf.
Lemma dependency_form x : to_json_dependency x = jf_dependency x.
Proof. unfold to_json_dependency, jf_dependency. members. unfold may. now destruct (d_dependencies x). Qed.
#[local] Hint Resolve dependency_form : jf.
Lemma composition_form x : to_json_composition v x = jf_composition false v x.
Proof. unfold to_json_composition, jf_composition. form. Qed.
#[local] Hint Resolve composition_form : jf.
Lemma annotator_form x : to_json_annotator v x = jf_annotator false v x.
Proof. unfold to_json_annotator, jf_annotator. form. Qed.
#[local] Hint Resolve annotator_form : jf.
Lemma annotation_form x : to_json_annotation v x = jf_annotation false v x.
Proof. unfold to_json_annotation, jf_annotation. form. Qed.
#[local] Hint Resolve annotation_form : jf.
Lemma vuln_source_form x : to_json_vuln_source x = jf_vuln_source x.
Proof. unfold to_json_vuln_source, jf_vuln_source. form. Qed.
#[local] Hint Resolve vuln_source_form : jf.
Lemma vuln_reference_form x : to_json_vuln_reference x = jf_vuln_reference x.
Proof. unfold to_json_vuln_reference, jf_vuln_reference. form. Qed.
#[local] Hint Resolve vuln_reference_form : jf.
Lemma vuln_rating_form x : to_json_vuln_rating x = jf_vuln_rating x.
Proof. unfold to_json_vuln_rating, jf_vuln_rating. form. Qed.
#[local] Hint Resolve vuln_rating_form : jf.
Lemma advisory_form x : to_json_advisory x = jf_advisory x.
Proof. unfold to_json_advisory, jf_advisory. form. Qed.
#[local] Hint Resolve advisory_form : jf.
Lemma vuln_credits_form x : to_json_vuln_credits x = jf_vuln_credits false v x.
Proof. unfold to_json_vuln_credits, jf_vuln_credits. form. Qed.
#[local] Hint Resolve vuln_credits_form : jf.
Lemma vuln_analysis_form x : to_json_vuln_analysis v x = jf_vuln_analysis false v x.
Proof. unfold to_json_vuln_analysis, jf_vuln_analysis. form. Qed.
#[local] Hint Resolve vuln_analysis_form : jf.
Lemma version_range_form x : version_range_member x = jf_version_range x.
Proof. unfold version_range_member, jf_version_range. form. Qed.
#[local] Hint Resolve version_range_form : jf.
Lemma version_status_form x : to_json_version_status x = jf_version_status x.
Proof. unfold to_json_version_status, jf_version_status. form. Qed.
#[local] Hint Resolve version_status_form : jf.
Lemma vuln_target_form x : to_json_vuln_target x = jf_vuln_target x.
Proof. unfold to_json_vuln_target, jf_vuln_target. form. Qed.
#[local] Hint Resolve vuln_target_form : jf.
Lemma proof_of_concept_form x : to_json_proof_of_concept x = jf_proof_of_concept x.
Proof. unfold to_json_proof_of_concept, jf_proof_of_concept. form. Qed.
#[local] Hint Resolve proof_of_concept_form : jf.
Lemma vulnerability_form x : to_json_vulnerability v x = jf_vulnerability false v x.
Proof. unfold to_json_vulnerability, jf_vulnerability. form. Qed.
#[local] Hint Resolve vulnerability_form : jf.
Lemma resource_reference_form x : to_json_resource_reference x = jf_resource_reference false x.
Proof. unfold to_json_resource_reference, jf_resource_reference. form. Qed.
#[local] Hint Resolve resource_reference_form : jf.
Lemma environment_var_form x : to_json_environment_var x = jf_environment_var x.
Proof. unfold to_json_environment_var, jf_environment_var. form. Qed.
#[local] Hint Resolve environment_var_form : jf.
Lemma parameter_form x : to_json_parameter x = jf_parameter x.
Proof. unfold to_json_parameter, jf_parameter. form. Qed.
#[local] Hint Resolve parameter_form : jf.
Lemma required_input_form x : required_input_member x = jf_required_input false x.
Proof. unfold required_input_member, jf_required_input. form. Qed.
#[local] Hint Resolve required_input_form : jf.
Lemma input_form x : to_json_input x = jf_input false x.
Proof. unfold to_json_input, jf_input. form. Qed.
#[local] Hint Resolve input_form : jf.
Lemma required_output_form x : required_output_member x = jf_required_output false x.
Proof. unfold required_output_member, jf_required_output. form. Qed.
#[local] Hint Resolve required_output_form : jf.
Lemma output_form x : to_json_output x = jf_output false x.
Proof. unfold to_json_output, jf_output. form. Qed.
#[local] Hint Resolve output_form : jf.
Lemma command_form x : to_json_command x = jf_command x.
Proof. unfold to_json_command, jf_command. form. Qed.
#[local] Hint Resolve command_form : jf.
Lemma step_form x : to_json_step x = jf_step x.
Proof. unfold to_json_step, jf_step. form. Qed.
#[local] Hint Resolve step_form : jf.
Lemma volume_form x : to_json_volume x = jf_volume false x.
Proof. unfold to_json_volume, jf_volume. form. Qed.
#[local] Hint Resolve volume_form : jf.
Lemma workspace_form x : to_json_workspace x = jf_workspace false x.
Proof. unfold to_json_workspace, jf_workspace. form. Qed.
#[local] Hint Resolve workspace_form : jf.
Lemma condition_form x : to_json_condition x = jf_condition x.
Proof. unfold to_json_condition, jf_condition. form. Qed.
#[local] Hint Resolve condition_form : jf.
Lemma event_form x : to_json_event x = jf_event false x.
Proof. unfold to_json_event, jf_event. form. Qed.
#[local] Hint Resolve event_form : jf.
Lemma trigger_form x : to_json_trigger x = jf_trigger false x.
Proof. unfold to_json_trigger, jf_trigger. form. Qed.
#[local] Hint Resolve trigger_form : jf.
Lemma task_form x : to_json_task x = jf_task false x.
Proof. unfold to_json_task, jf_task. form. Qed.
#[local] Hint Resolve task_form : jf.
Lemma workflow_form x : to_json_workflow x = jf_workflow false x.
Proof. unfold to_json_workflow, jf_workflow. form. Qed.
#[local] Hint Resolve workflow_form : jf.
Lemma formula_form x : to_json_formula v x = jf_formula false v x.
Proof. unfold to_json_formula, jf_formula. form. Qed.
#[local] Hint Resolve formula_form : jf.
Lemma bom_form x : to_json_bom v x = jf_bom false v x.
Proof. unfold to_json_bom, jf_bom. form. Qed.
#[local] Hint Resolve bom_form : jf.
End JSON_FORM.

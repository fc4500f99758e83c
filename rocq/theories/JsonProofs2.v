(** Written documents never repeat a key, so reading them through [serde_json::Value]
    makes no difference. *)
From Verif Require Import Base ModelTypes Strings Enums GenModel Json JsonLemmas JsonModel JsonSpec JsonProofs.
Open Scope string_scope.
Open Scope list_scope.

Create HintDb plain.
Ltac pl :=
  match goal with
  | |- True => exact I
  | |- plain (arr _ _) => apply plain_list; intros; pl
  | |- plain (to_json_f32 ?x) => destruct x; constructor
  | |- plain (to_json_uri ?x) => destruct x; constructor
  | |- plain (JStr _) => constructor
  | |- plain (JBool _) => constructor
  | |- plain JNull => constructor
  | |- plain (jtext _ _) => constructor
  | |- plain (to_json_u32 _) => constructor
  | |- _ => solve [auto with plain]
  end.
Ltac settle_options :=
  repeat match goal with
  | |- match match ?x with _ => _ end with _ => _ end => destruct x
  end;
  try match goal with |- plain (match ?x with _ => _ end) => destruct x end.
Ltac plain_fields :=
  repeat (apply Forall_cons || apply Forall_nil); cbn [snd]; unfold opt, opt_null, when, option_map;
  settle_options; pl.
Ltac plain_struct f := unfold f; apply plain_written; [reflexivity|]; plain_fields.
Lemma plain_single k x : plain x -> plain (JObj [(k, x)]).
Proof. intros H. constructor; [cbn; constructor; [tauto|constructor]|]. constructor; auto. Qed.
#[export] Hint Resolve plain_single : plain.

Lemma plain_attached_text x : plain (to_json_attached_text x).
Proof. plain_struct to_json_attached_text. Qed.
#[export] Hint Resolve plain_attached_text : plain.

Lemma plain_attachment x : plain (to_json_attachment x).
Proof. plain_struct to_json_attachment. Qed.
#[export] Hint Resolve plain_attachment : plain.

Lemma plain_hash x : plain (to_json_hash x).
Proof. plain_struct to_json_hash. Qed.
#[export] Hint Resolve plain_hash : plain.

Lemma plain_property x : plain (to_json_property x).
Proof. plain_struct to_json_property. Qed.
#[export] Hint Resolve plain_property : plain.

Lemma plain_contact x : plain (to_json_contact x).
Proof. plain_struct to_json_contact. Qed.
#[export] Hint Resolve plain_contact : plain.

Lemma plain_entity x : plain (to_json_entity x).
Proof. plain_struct to_json_entity. Qed.
#[export] Hint Resolve plain_entity : plain.

Lemma plain_external_reference x : plain (to_json_external_reference x).
Proof. plain_struct to_json_external_reference. Qed.
#[export] Hint Resolve plain_external_reference : plain.

Lemma plain_algorithm x : plain (to_json_algorithm x).
Proof. unfold to_json_algorithm. destruct (convert_algorithm x); try constructor.
  all: cbn; repeat constructor; tauto. Qed.
#[export] Hint Resolve plain_algorithm : plain.
Lemma plain_signer x : plain (to_json_signer x).
Proof. plain_struct to_json_signer. Qed.
#[export] Hint Resolve plain_signer : plain.
Lemma plain_signature x : plain (to_json_signature x).
Proof. destruct x; cbn [to_json_signature]; pl. Qed.
#[export] Hint Resolve plain_signature : plain.

Lemma plain_license_contact x : plain (to_json_license_contact x).
Proof. destruct x; apply plain_single; pl. Qed.
#[export] Hint Resolve plain_license_contact : plain.

Lemma plain_licensing x : plain (to_json_licensing x).
Proof. plain_struct to_json_licensing. Qed.
#[export] Hint Resolve plain_licensing : plain.

Lemma plain_license v x : plain (to_json_license v x).
Proof.
  unfold to_json_license. destruct (l_identifier x); cbn [license_identifier_member];
    (apply plain_written; [reflexivity|]); plain_fields.
Qed.
#[export] Hint Resolve plain_license : plain.
Lemma plain_license_choice v x : plain (to_json_license_choice v x).
Proof.
  destruct x; cbn [to_json_license_choice]; [apply plain_single; pl|].
  apply plain_written; [reflexivity|]. plain_fields.
Qed.
#[export] Hint Resolve plain_license_choice : plain.

Lemma plain_identifiable_action x : plain (to_json_identifiable_action x).
Proof. plain_struct to_json_identifiable_action. Qed.
#[export] Hint Resolve plain_identifiable_action : plain.

Lemma plain_commit x : plain (to_json_commit x).
Proof. plain_struct to_json_commit. Qed.
#[export] Hint Resolve plain_commit : plain.

Lemma plain_diff x : plain (to_json_diff x).
Proof. plain_struct to_json_diff. Qed.
#[export] Hint Resolve plain_diff : plain.

Lemma plain_source x : plain (to_json_source x).
Proof. plain_struct to_json_source. Qed.
#[export] Hint Resolve plain_source : plain.

Lemma plain_issue x : plain (to_json_issue x).
Proof. plain_struct to_json_issue. Qed.
#[export] Hint Resolve plain_issue : plain.

Lemma plain_patch x : plain (to_json_patch x).
Proof. plain_struct to_json_patch. Qed.
#[export] Hint Resolve plain_patch : plain.

Lemma plain_responsible_party x : plain (to_json_responsible_party x).
Proof. destruct x; apply plain_single; pl. Qed.
#[export] Hint Resolve plain_responsible_party : plain.

Lemma plain_data_governance x : plain (to_json_data_governance x).
Proof. plain_struct to_json_data_governance. Qed.
#[export] Hint Resolve plain_data_governance : plain.

Lemma plain_data_contents x : plain (to_json_data_contents x).
Proof. plain_struct to_json_data_contents. Qed.
#[export] Hint Resolve plain_data_contents : plain.

Lemma plain_graphic x : plain (to_json_graphic x).
Proof. plain_struct to_json_graphic. Qed.
#[export] Hint Resolve plain_graphic : plain.

Lemma plain_graphics_collection x : plain (to_json_graphics_collection x).
Proof. plain_struct to_json_graphics_collection. Qed.
#[export] Hint Resolve plain_graphics_collection : plain.

Lemma plain_component_data x : plain (to_json_component_data x).
Proof. plain_struct to_json_component_data. Qed.
#[export] Hint Resolve plain_component_data : plain.

Lemma plain_approach x : plain (to_json_approach x).
Proof. plain_struct to_json_approach. Qed.
#[export] Hint Resolve plain_approach : plain.

Lemma plain_dataset x : plain (to_json_dataset x).
Proof. destruct x; cbn [to_json_dataset]; pl. Qed.
#[export] Hint Resolve plain_dataset : plain.

Lemma plain_ml_parameter x : plain (to_json_ml_parameter x).
Proof. plain_struct to_json_ml_parameter. Qed.
#[export] Hint Resolve plain_ml_parameter : plain.

Lemma plain_model_parameters x : plain (to_json_model_parameters x).
Proof. plain_struct to_json_model_parameters. Qed.
#[export] Hint Resolve plain_model_parameters : plain.

Lemma plain_confidence_interval x : plain (to_json_confidence_interval x).
Proof. plain_struct to_json_confidence_interval. Qed.
#[export] Hint Resolve plain_confidence_interval : plain.

Lemma plain_performance_metric x : plain (to_json_performance_metric x).
Proof. plain_struct to_json_performance_metric. Qed.
#[export] Hint Resolve plain_performance_metric : plain.

Lemma plain_quantitative_analysis x : plain (to_json_quantitative_analysis x).
Proof. plain_struct to_json_quantitative_analysis. Qed.
#[export] Hint Resolve plain_quantitative_analysis : plain.

Lemma plain_considerations x : plain (to_json_considerations x).
Proof. plain_struct to_json_considerations. Qed.
#[export] Hint Resolve plain_considerations : plain.

Lemma plain_model_card x : plain (to_json_model_card x).
Proof. plain_struct to_json_model_card. Qed.
#[export] Hint Resolve plain_model_card : plain.

Lemma plain_occurrence x : plain (to_json_occurrence x).
Proof. plain_struct to_json_occurrence. Qed.
#[export] Hint Resolve plain_occurrence : plain.

Lemma plain_frame x : plain (to_json_frame x).
Proof. plain_struct to_json_frame. Qed.
#[export] Hint Resolve plain_frame : plain.

Lemma plain_callstack x : plain (to_json_callstack x).
Proof. plain_struct to_json_callstack. Qed.
#[export] Hint Resolve plain_callstack : plain.

Lemma plain_method x : plain (to_json_method x).
Proof. plain_struct to_json_method. Qed.
#[export] Hint Resolve plain_method : plain.

Lemma plain_identity x : plain (to_json_identity x).
Proof. plain_struct to_json_identity. Qed.
#[export] Hint Resolve plain_identity : plain.

Lemma plain_copyright x : plain (to_json_copyright x).
Proof. plain_struct to_json_copyright. Qed.
#[export] Hint Resolve plain_copyright : plain.

Lemma plain_evidence v x : plain (to_json_evidence v x).
Proof. plain_struct to_json_evidence. Qed.
#[export] Hint Resolve plain_evidence : plain.

Lemma plain_swid x : plain (to_json_swid x).
Proof. plain_struct to_json_swid. Qed.
#[export] Hint Resolve plain_swid : plain.

Lemma plain_pedigree (to : component -> json) x :
  (forall c, In c (pedigree_members x) -> plain (to c)) -> plain (to_json_pedigree to x).
Proof.
  intros C. unfold to_json_pedigree. apply plain_written; [reflexivity|].
  unfold pedigree_members in C.
  repeat (apply Forall_cons || apply Forall_nil); cbn [snd]; unfold opt, option_map.
  1-3: match goal with |- match match ?x with _ => _ end with _ => _ end =>
    destruct x eqn:E; [|exact I] end; apply plain_list; intros c Ic; apply C;
    rewrite !in_app_iff; cbn [olist]; tauto.
  all: settle_options; pl.
Qed.
Lemma plain_component v x : plain (to_json_component v x).
Proof.
  induction x as [x IHc IHp] using component_ind'. rewrite to_json_component_eq.
  apply plain_written; [reflexivity|].
  do 18 (apply Forall_cons; [cbn [snd]; unfold opt, when, option_map;
    settle_options; pl|]).
  apply Forall_cons.
  { cbn [snd]. unfold opt, option_map. destruct (c_pedigree x) as [p|]; [|exact I].
    apply plain_pedigree. destruct (IHp p eq_refl) as [I1 [I2 I3]].
    intros c. unfold pedigree_members. rewrite !in_app_iff. intros [I|[I|I]]; auto. }
  do 2 (apply Forall_cons; [cbn [snd]; unfold opt, when, option_map;
    settle_options; pl|]).
  apply Forall_cons.
  { cbn [snd]. unfold opt, option_map. unfold all_in in IHc. destruct (c_components x) as [l|]; [|exact I].
    apply plain_list. exact IHc. }
  plain_fields.
Qed.
#[export] Hint Resolve plain_component : plain.

Lemma plain_data_classification x : plain (to_json_data_classification x).
Proof. plain_struct to_json_data_classification. Qed.
#[export] Hint Resolve plain_data_classification : plain.

Lemma plain_service_data x : plain (to_json_service_data x).
Proof. plain_struct to_json_service_data. Qed.
#[export] Hint Resolve plain_service_data : plain.
Lemma plain_data v x : plain (to_json_data v x).
Proof. destruct x; cbn [to_json_data]; [destruct (since V1_5 v)|]; pl. Qed.
#[export] Hint Resolve plain_data : plain.
Lemma plain_service v x : plain (to_json_service v x).
Proof.
  induction x as [x IH] using service_ind'. rewrite to_json_service_eq.
  apply plain_written; [reflexivity|].
  do 13 (apply Forall_cons; [cbn [snd]; unfold opt, when, option_map;
    settle_options; pl|]).
  apply Forall_cons.
  { cbn [snd]. unfold opt, option_map. destruct (s_services x) as [l|]; [|exact I].
    apply plain_list. exact IH. }
  plain_fields.
Qed.
#[export] Hint Resolve plain_service : plain.

Lemma plain_tool v x : plain (to_json_tool v x).
Proof. plain_struct to_json_tool. Qed.
#[export] Hint Resolve plain_tool : plain.

Lemma plain_tools v x : plain (to_json_tools v x).
Proof.
  destruct x; cbn [to_json_tools]; [pl|]. destruct (since V1_5 v); [|repeat constructor].
  apply plain_written; [reflexivity|]. plain_fields.
Qed.
#[export] Hint Resolve plain_tools : plain.
Lemma plain_lifecycle x : plain (to_json_lifecycle x).
Proof.
  destruct x; cbn [to_json_lifecycle]; [apply plain_single; pl|].
  apply plain_written; [reflexivity|]. plain_fields.
Qed.
#[export] Hint Resolve plain_lifecycle : plain.

Lemma plain_metadata v x : plain (to_json_metadata v x).
Proof. plain_struct to_json_metadata. Qed.
#[export] Hint Resolve plain_metadata : plain.

Lemma plain_dependency x : plain (to_json_dependency x).
Proof. plain_struct to_json_dependency. Qed.
#[export] Hint Resolve plain_dependency : plain.

Lemma plain_composition v x : plain (to_json_composition v x).
Proof. plain_struct to_json_composition. Qed.
#[export] Hint Resolve plain_composition : plain.

Lemma plain_annotator v x : plain (to_json_annotator v x).
Proof. destruct x; apply plain_single; pl. Qed.
#[export] Hint Resolve plain_annotator : plain.

Lemma plain_annotation v x : plain (to_json_annotation v x).
Proof. plain_struct to_json_annotation. Qed.
#[export] Hint Resolve plain_annotation : plain.

Lemma plain_vuln_source x : plain (to_json_vuln_source x).
Proof. plain_struct to_json_vuln_source. Qed.
#[export] Hint Resolve plain_vuln_source : plain.

Lemma plain_vuln_reference x : plain (to_json_vuln_reference x).
Proof. plain_struct to_json_vuln_reference. Qed.
#[export] Hint Resolve plain_vuln_reference : plain.

Lemma plain_vuln_rating x : plain (to_json_vuln_rating x).
Proof. plain_struct to_json_vuln_rating. Qed.
#[export] Hint Resolve plain_vuln_rating : plain.

Lemma plain_advisory x : plain (to_json_advisory x).
Proof. plain_struct to_json_advisory. Qed.
#[export] Hint Resolve plain_advisory : plain.

Lemma plain_vuln_credits x : plain (to_json_vuln_credits x).
Proof. plain_struct to_json_vuln_credits. Qed.
#[export] Hint Resolve plain_vuln_credits : plain.

Lemma plain_vuln_analysis v x : plain (to_json_vuln_analysis v x).
Proof. plain_struct to_json_vuln_analysis. Qed.
#[export] Hint Resolve plain_vuln_analysis : plain.

Lemma plain_version_status x : plain (to_json_version_status x).
Proof.
  unfold to_json_version_status. destruct (ve_range x); cbn [version_range_member];
    (apply plain_written; [reflexivity|]); plain_fields.
Qed.
#[export] Hint Resolve plain_version_status : plain.

Lemma plain_vuln_target x : plain (to_json_vuln_target x).
Proof. plain_struct to_json_vuln_target. Qed.
#[export] Hint Resolve plain_vuln_target : plain.

Lemma plain_proof_of_concept x : plain (to_json_proof_of_concept x).
Proof. plain_struct to_json_proof_of_concept. Qed.
#[export] Hint Resolve plain_proof_of_concept : plain.

Lemma plain_vulnerability v x : plain (to_json_vulnerability v x).
Proof. plain_struct to_json_vulnerability. Qed.
#[export] Hint Resolve plain_vulnerability : plain.

Lemma plain_resource_reference x : plain (to_json_resource_reference x).
Proof. destruct x; cbn [to_json_resource_reference]; apply plain_single; pl. Qed.
#[export] Hint Resolve plain_resource_reference : plain.
Lemma plain_environment_var x : plain (to_json_environment_var x).
Proof.
  destruct x; cbn [to_json_environment_var]; [|pl]. apply plain_written; [reflexivity|]. plain_fields.
Qed.
#[export] Hint Resolve plain_environment_var : plain.

Lemma plain_parameter x : plain (to_json_parameter x).
Proof. plain_struct to_json_parameter. Qed.
#[export] Hint Resolve plain_parameter : plain.

Lemma plain_input x : plain (to_json_input x).
Proof.
  unfold to_json_input. destruct (in_required x); cbn [required_input_member];
    (apply plain_written; [reflexivity|]); plain_fields.
Qed.
#[export] Hint Resolve plain_input : plain.
Lemma plain_output x : plain (to_json_output x).
Proof.
  unfold to_json_output. destruct (ou_required x); cbn [required_output_member];
    (apply plain_written; [reflexivity|]); plain_fields.
Qed.
#[export] Hint Resolve plain_output : plain.

Lemma plain_command x : plain (to_json_command x).
Proof. plain_struct to_json_command. Qed.
#[export] Hint Resolve plain_command : plain.

Lemma plain_step x : plain (to_json_step x).
Proof. plain_struct to_json_step. Qed.
#[export] Hint Resolve plain_step : plain.

Lemma plain_volume x : plain (to_json_volume x).
Proof. plain_struct to_json_volume. Qed.
#[export] Hint Resolve plain_volume : plain.

Lemma plain_workspace x : plain (to_json_workspace x).
Proof. plain_struct to_json_workspace. Qed.
#[export] Hint Resolve plain_workspace : plain.

Lemma plain_condition x : plain (to_json_condition x).
Proof. plain_struct to_json_condition. Qed.
#[export] Hint Resolve plain_condition : plain.

Lemma plain_event x : plain (to_json_event x).
Proof. plain_struct to_json_event. Qed.
#[export] Hint Resolve plain_event : plain.

Lemma plain_trigger x : plain (to_json_trigger x).
Proof. plain_struct to_json_trigger. Qed.
#[export] Hint Resolve plain_trigger : plain.

Lemma plain_task x : plain (to_json_task x).
Proof. plain_struct to_json_task. Qed.
#[export] Hint Resolve plain_task : plain.

Lemma plain_workflow x : plain (to_json_workflow x).
Proof. plain_struct to_json_workflow. Qed.
#[export] Hint Resolve plain_workflow : plain.

Lemma plain_formula v x : plain (to_json_formula v x).
Proof. plain_struct to_json_formula. Qed.
#[export] Hint Resolve plain_formula : plain.

Lemma plain_bom v x : plain (to_json_bom v x).
Proof. plain_struct to_json_bom. Qed.
#[export] Hint Resolve plain_bom : plain.

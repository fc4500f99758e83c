(** Every document that says [x] is read as [said_x x]: type by type. *)
From Coq Require Import NArith.
From Verif Require Import Base ModelTypes Strings Enums GenModel Json JsonLemmas JsonModel Xml XmlLemmas XmlModel XmlSpec XmlRead XmlProofs XmlProofs2 XmlForm XmlFormRead.
Open Scope string_scope.
Open Scope list_scope.
Open Scope nat_scope.
Open Scope shape_scope.

Create HintDb tell discriminated.
Create HintDb part discriminated.
Global Hint Constants Opaque : tell.
Global Hint Constants Opaque : part.

(** ** Tactics *)
Ltac tell := solve [ intros; eauto 3 with tell ].
Ltac part :=
  lazymatch goal with
  | |- parts _ (Xml.from (since _ _) _) _ _ _ =>
      first [ eapply parts_from_to; [reflexivity|part] | eapply parts_gate; [reflexivity|part] ]
  | |- parts _ (one_list _ _ _ _) _ _ _ =>
      first [ eapply parts_list_id; tell | eapply parts_list_t; tell | eapply parts_list; tell | solve [ eauto 2 with part ] ]
  | |- parts _ (many_opt _ _) _ (loose _ _) _ => eapply parts_items; tell
  | |- parts _ (many _ _) _ _ _ =>
      first [ eapply parts_many_id; tell | eapply parts_many_t; tell | eapply parts_many; tell ]
  | |- parts _ (one _ _) _ [_] _ => first [ eapply parts_req_t; tell | eapply parts_req; tell ]
  | |- parts _ (one _ _) _ _ _ =>
      first [ eapply parts_opt_id; tell | eapply parts_opt_t; tell | eapply parts_opt; tell ]
  | |- _ => solve [ eauto 2 with part ]
  end.
Ltac all_parts :=
  lazymatch goal with
  | |- parts _ (SPair _ _) _ (_ ++ _) _ => eapply parts_pair; [part|all_parts|reflexivity]
  | |- parts _ (SPair _ _) _ _ _ => eapply parts_pair_none; [part|cover|reflexivity]
  | |- _ => part
  end.
Ltac with_attrs_distinct :=
  repeat match goal with |- context [with_attr _ ?o] => destruct o; cbn [with_attr app] end; reflexivity.
Ltac with_attr_simp :=
  rewrite ?with_attr_app, ?with_attr_only; cbn [attr app String.eqb Ascii.eqb Bool.eqb];
  rewrite ?opt_eta; cbn [bindo].
Ltac tell_fin :=
  let ats := fresh "ats'" in let E := fresh "E" in
  intros ats E; steps; rewrite ?E; with_attr_simp; try reflexivity.
Ltac tell_rec := eapply tells_struct; [all_parts|with_attrs_distinct|tell_fin].

(** ** Text and enumerations *)
Global Hint Resolve tells_string tells_cdata tells_ref tells_ptext tells_optional : tell.
Ltac tell_enum := intros; apply tells_enum; match goal with x : _ |- _ => destruct x; reflexivity end.
Lemma te_scope h tag x : tells h tag (d_enum scope_of_text) (named text_scope tag x) (Some (kx_scope x)).
Proof. tell_enum. Qed.
Lemma te_component_data_type h tag x :
  tells h tag (d_enum component_data_type_of_text) (named text_component_data_type tag x) (Some (kx_component_data_type x)).
Proof. tell_enum. Qed.
Lemma te_phase h tag x : tells h tag (d_enum phase_of_text) (named text_phase tag x) (Some (kx_phase x)).
Proof. tell_enum. Qed.
Lemma te_analysis_state h tag x :
  tells h tag (d_enum analysis_state_of_text) (named text_analysis_state tag x) (Some (kx_analysis_state x)).
Proof. tell_enum. Qed.
Lemma te_analysis_justification h tag x :
  tells h tag (d_enum analysis_justification_of_text) (named text_analysis_justification tag x)
    (Some (kx_analysis_justification x)).
Proof. tell_enum. Qed.
Lemma te_analysis_response h tag x :
  tells h tag (d_enum analysis_response_of_text) (named text_analysis_response tag x) (Some (kx_analysis_response x)).
Proof. tell_enum. Qed.
Lemma te_severity h tag x : tells h tag (d_enum severity_of_text) (named text_severity tag x) (Some (kx_severity x)).
Proof. tell_enum. Qed.
Lemma te_score_method h tag x :
  tells h tag (d_enum score_method_of_text) (named text_score_method tag x) (Some (kx_score_method x)).
Proof. tell_enum. Qed.
Lemma te_approach_type h tag x :
  tells h tag (d_enum approach_type_of_text) (named text_approach_type tag x) (Some (kx_approach_type x)).
Proof. tell_enum. Qed.
Lemma te_task_type h tag x : tells h tag (d_enum task_type_of_text) (named text_task_type tag x) (Some (kx_task_type x)).
Proof. tell_enum. Qed.
Lemma te_output_type h tag x :
  tells h tag (d_enum output_type_of_text) (named text_output_type tag x) (Some (kx_output_type x)).
Proof. tell_enum. Qed.
Lemma te_trigger_type h tag x :
  tells h tag (d_enum trigger_type_of_text) (named text_trigger_type tag x) (Some (kx_trigger_type x)).
Proof. tell_enum. Qed.
Lemma te_access_mode h tag x :
  tells h tag (d_enum access_mode_of_text) (named text_access_mode tag x) (Some (kx_access_mode x)).
Proof. tell_enum. Qed.
Lemma te_volume_mode h tag x :
  tells h tag (d_enum volume_mode_of_text) (named text_volume_mode tag x) (Some (kx_volume_mode x)).
Proof. tell_enum. Qed.
Lemma te_aggregate_type h tag x :
  tells h tag (d_enum aggregate_type_of_text) (named text_aggregate_type tag x) (Some (kx_aggregate_type x)).
Proof. tell_enum. Qed.
Lemma te_license_type h tag x :
  tells h tag (d_enum license_type_of_text) (named text_license_type tag x) (Some (said_license_type x)).
Proof. tell_enum. Qed.
Lemma te_identity_field h tag x :
  tells h tag (d_enum identity_field_of_text) (named field_words tag x) (Some (said_identity_field x)).
Proof. tell_enum. Qed.
Global Hint Resolve te_scope te_component_data_type te_phase te_analysis_state te_analysis_justification
  te_analysis_response te_severity te_score_method te_approach_type te_task_type te_output_type
  te_trigger_type te_access_mode te_volume_mode te_aggregate_type te_license_type te_identity_field : tell.
Lemma te_bool h tag b : tells h tag d_bool (named yes_no tag b) (Some b).
Proof. eapply tells_eq; [apply (tells_text h xml_bool)|]. now destruct b. Qed.
Lemma te_u32 h tag n : tells h tag d_u32 (named number tag n) (Some n).
Proof.
  apply tells_attr_text; [reflexivity|]. intros _ _ _. destruct (string_of_N_digits (u32_N n)) as [D N].
  unfold nonblank, number. rewrite xtrim_digits by exact D.
  destruct (string_of_N (u32_N n)) as [|a s] eqn:E; [congruence|]. cbn [bindo]. rewrite <- E in *.
  unfold xml_u32_trim. rewrite trim_digits by exact D. apply (xml_u32_text n).
Qed.
Global Hint Resolve te_bool te_u32 : tell.

(** ** Building blocks *)
Lemma te_attached_text h tag x : tells h tag rd_attached_text (form_attached_text tag x) (said_attached_text x).
Proof.
  apply tells_attr_text; [with_attrs_distinct|]. intros ats' _ E. unfold said_attached_text.
  destruct (nonblank (at_content x)); [|reflexivity]. cbn [bindo]. rewrite !E.
  destruct (at_content_type x), (at_encoding x) as [e|];
    cbn [with_attr option_map rev app attr String.eqb Ascii.eqb Bool.eqb]; rewrite ?encoding_back; reflexivity.
Qed.
Lemma te_attachment h tag x : tells h tag rd_attachment (form_attachment tag x) (said_attachment x).
Proof.
  unfold rd_attachment, struct. eapply (tells_dmap h _ tag _ _ _ (Some (nonblank (att_content x)))); [|with_attrs_distinct|].
  - split; [reflexivity|]. intros y a Sm Hy E. injection E as <-.
    destruct (text_children _ _ _ _ Sm) as (ats' & ks & -> & P & R & O). exists ats', ks. split; [reflexivity|].
    rewrite attrs_ok_elem, O, (distinct_perm _ _ P) by with_attrs_distinct. cbn [andb checked tr]. rewrite R, reparses_text.
    unfold nonblank. cbn [on_chars init]. destruct (xtrim (att_content x)); reflexivity.
  - intros ats' E _. unfold said_attachment. cbn [bindo]. destruct (nonblank (att_content x)); [|reflexivity]. cbn [bindo].
    rewrite !E. with_attr_simp. reflexivity.
Qed.
Lemma te_property h x : tells h "property" rd_property (form_property x) (Some (mkProp (p_name x) (xtrim (p_value x)))).
Proof. apply tells_attr_simple; [reflexivity|]. intros ats' E. now rewrite E. Qed.
Lemma te_hash h x : tells h "hash" rd_hash (form_hash x) (Some (said_hash x)).
Proof. apply tells_attr_simple; [reflexivity|]. intros ats' E. rewrite E. with_attr_simp. now rewrite hash_algorithm_back. Qed.
Global Hint Resolve te_attached_text te_attachment te_property te_hash : tell.
Lemma te_properties h o : parts h rd_properties ["properties"] (form_properties o) (Some (said_properties o)).
Proof. apply parts_list_t. intros x. apply te_property. Qed.
Lemma te_hashes h o : parts h rd_hashes ["hashes"] (form_hashes o) (Some (said_hashes o)).
Proof. apply parts_list_t. intros x. apply te_hash. Qed.
Global Hint Resolve te_properties te_hashes : part.
Lemma te_contact h tag x : tells h tag rd_contact (form_contact tag x) (Some (said_contact x)).
Proof. tell_rec. Qed.
Global Hint Resolve te_contact : tell.
Lemma te_entity h tag x : tells h tag rd_entity (form_entity tag x) (Some (said_entity x)).
Proof. tell_rec. Qed.
Global Hint Resolve te_entity : tell.
Lemma said_uri_back x : uri_of (xtrim (uri_words x)) = said_uri x.
Proof. destruct x; reflexivity. Qed.
Lemma te_external_reference h tag x :
  tells h tag rd_external_reference (form_external_reference tag x) (Some (said_external_reference x)).
Proof. tell_rec. now rewrite ext_ref_type_back, said_uri_back. Qed.
Global Hint Resolve te_external_reference : tell.
Lemma te_external_references h o :
  parts h rd_external_references ["externalReferences"] (form_external_references o) (Some (said_external_references o)).
Proof. apply parts_list_t. intros x. apply te_external_reference. Qed.
Global Hint Resolve te_external_references : part.

(** ** Signatures *)
Lemma te_signer h tag x : tells h tag rd_signer (Elem tag [] (form_signer x)) (Some (said_signer x)).
Proof. unfold rd_signer, form_signer. tell_rec. now rewrite algorithm_back. Qed.
Global Hint Resolve te_signer : tell.
Lemma te_signature h x : tells h "signature" rd_signature (form_signature x) (Some (said_signature x)).
Proof.
  unfold rd_signature, form_signature. destruct x as [l|l|s]; (eapply tells_dmap; [eapply tells_odd| |]).
  - eapply parts_pair_none; [eapply parts_or_l; [|cover]|cover|].
    + eapply parts_req_t, tells_map; [apply tells_list_t; tell|reflexivity].
    + reflexivity.
  - reflexivity.
  - reflexivity.
  - reflexivity.
  - eapply parts_pair_none; [eapply parts_or_r; [cover|eapply parts_req_t, tells_map; [apply tells_list_t; tell|reflexivity]|reflexivity|reflexivity]|cover|reflexivity].
  - reflexivity.
  - reflexivity.
  - reflexivity.
  - eapply parts_none_pair; [cover| |]; [unfold form_signer; all_parts|reflexivity].
  - reflexivity.
  - reflexivity.
  - intros ats' _ _. cbn [bindo]. rewrite algorithm_back. reflexivity.
Qed.
Global Hint Resolve te_signature : tell.

(** ** Licenses *)
Lemma te_license_contact h tag x :
  tells h tag rd_license_contact (form_license_contact tag x) (Some (said_license_contact x)).
Proof.
  destruct x as [o|c]; unfold form_license_contact, rd_license_contact; (eapply tells_struct; [|reflexivity|]).
  - eapply parts_or_l; [|cover]. eapply parts_req_t, tells_map; [tell|reflexivity].
  - reflexivity.
  - eapply parts_or_r; [cover|eapply parts_req_t, tells_map; [tell|reflexivity]|reflexivity|reflexivity].
  - reflexivity.
Qed.
Global Hint Resolve te_license_contact : tell.
Lemma te_licensing h x : tells h "licensing" rd_licensing (form_licensing x) (Some (said_licensing x)).
Proof. tell_rec. Qed.
Global Hint Resolve te_licensing : tell.
Lemma te_license_identifier h x :
  parts h rd_license_identifier ["id"; "name"] (form_license_identifier x)
    (let? i := said_license_identifier x in Some (Some i)).
Proof.
  destruct x as [s|s]; unfold rd_license_identifier, form_license_identifier, said_license_identifier.
  - eapply (parts_or_l h _ _ ["id"] ["name"]); [|apply covers_on].
    refine (parts_on1 h "id" _ None _ _ _ _). eapply tells_map; [apply tells_ptext|reflexivity].
  - eapply (parts_or_r h _ _ ["id"] ["name"]); [apply covers_on| |reflexivity|reflexivity].
    refine (parts_on1 h "name" _ None _ _ _ _). eapply tells_map; [apply tells_ptext|reflexivity].
Qed.
Global Hint Resolve te_license_identifier : part.
Lemma te_license h v x : tells h "license" (rd_license v) (form_license v x) (said_license v x).
Proof.
  eapply tells_struct; [all_parts| |].
  - unfold in_version. destruct (version_leb V1_5 v); [with_attrs_distinct|reflexivity].
  - intros ats' E. unfold said_license. steps. rewrite E. unfold JsonSpec.from, since, in_version.
    destruct (version_leb V1_5 v); with_attr_simp; reflexivity.
Qed.
Lemma te_license_list h v l :
  tells h "licenses" (rd_license_list v) (group "licenses" (form_license_choice v) l) (each (said_license_choice v) l).
Proof.
  apply tells_mixed; [reflexivity|reflexivity|]. intros [x|r e]; cbn [form_license_choice said_license_choice].
  - left. eapply tells_map; [apply te_license|reflexivity].
  - right. apply tells_attr_simple; [with_attrs_distinct|]. intros ats' E. rewrite E. with_attr_simp. reflexivity.
Qed.
Lemma te_licenses h v o : parts h (rd_licenses v) ["licenses"] (form_licenses v o) (said_licenses v o).
Proof. apply parts_opt. intros l. apply te_license_list. Qed.
Global Hint Resolve te_licenses : part.

(** ** Pedigree *)
Lemma te_action h tag x : tells h tag rd_action (form_action tag x) (Some (said_action x)).
Proof. tell_rec. Qed.
Global Hint Resolve te_action : tell.
Lemma te_commit h x : tells h "commit" rd_commit (form_commit x) (Some (said_commit x)).
Proof. tell_rec. Qed.
Lemma te_diff h x : tells h "diff" rd_diff (form_diff x) (said_diff x).
Proof. unfold said_diff. tell_rec. Qed.
Lemma te_source h x : tells h "source" rd_source (form_source x) (Some (said_source x)).
Proof. tell_rec. Qed.
Global Hint Resolve te_commit te_diff te_source : tell.
Lemma te_issue h x : tells h "issue" rd_issue (form_issue x) (Some (said_issue x)).
Proof. tell_rec. now rewrite issue_classification_back. Qed.
Global Hint Resolve te_issue : tell.
Lemma te_patch h x : tells h "patch" rd_patch (form_patch x) (said_patch x).
Proof. unfold said_patch. tell_rec. now rewrite patch_classification_back. Qed.
Global Hint Resolve te_patch : tell.
Lemma te_pedigree {C D} h (f : C -> xml) (rc : desc D) (k : C -> option D) x :
  (forall c, tells h "component" rc (f c) (k c)) ->
  tells h "pedigree" (rd_pedigree rc) (form_pedigree f x) (said_pedigree k x).
Proof. intros H. unfold said_pedigree. tell_rec. Qed.

(** ** Component data and model cards *)
Lemma te_responsible_party h tag x :
  tells h tag rd_responsible_party (form_responsible_party tag x) (Some (said_responsible_party x)).
Proof.
  destruct x as [o|c]; unfold form_responsible_party, rd_responsible_party; (eapply tells_struct; [|reflexivity|]).
  - eapply parts_or_l; [|cover]. eapply parts_req_t, tells_map; [tell|reflexivity].
  - reflexivity.
  - eapply parts_or_r; [cover|eapply parts_req_t, tells_map; [tell|reflexivity]|reflexivity|reflexivity].
  - reflexivity.
Qed.
Global Hint Resolve te_responsible_party : tell.
Lemma te_governance h x : tells h "governance" rd_governance (form_governance x) (Some (said_governance x)).
Proof. tell_rec. Qed.
Lemma te_graphic h x : tells h "graphic" rd_graphic (form_graphic x) (said_graphic x).
Proof. unfold said_graphic. tell_rec. Qed.
Global Hint Resolve te_governance te_graphic : tell.
Lemma te_graphics h x : tells h "graphics" rd_graphics (form_graphics x) (said_graphics x).
Proof. unfold said_graphics. tell_rec. Qed.
Lemma te_contents h x : tells h "contents" rd_contents (form_contents x) (said_contents x).
Proof. unfold said_contents. tell_rec. Qed.
Global Hint Resolve te_graphics te_contents : tell.
Lemma te_component_data h tag x : tells h tag rd_component_data (form_component_data tag x) (said_component_data x).
Proof. unfold said_component_data. tell_rec. Qed.
Global Hint Resolve te_component_data : tell.
Lemma te_dataset h x : tells h "dataset" rd_dataset (form_dataset x) (said_dataset x).
Proof.
  destruct x as [c|s]; cbn [form_dataset said_dataset].
  - eapply tells_map; [tell|reflexivity].
  - split; [reflexivity|discriminate].
Qed.
Lemma te_approach h x : tells h "approach" rd_approach (form_approach x) (Some (said_approach x)).
Proof. tell_rec. Qed.
Lemma te_ml_parameter h tag x : tells h tag rd_ml_parameter (form_ml_parameter tag x) (Some (said_ml_parameter x)).
Proof. tell_rec. Qed.
Global Hint Resolve te_dataset te_approach te_ml_parameter : tell.
Lemma te_model_parameters h x :
  tells h "modelParameters" rd_model_parameters (form_model_parameters x) (said_model_parameters x).
Proof. unfold said_model_parameters. tell_rec. Qed.
Lemma te_interval h x : tells h "confidenceInterval" rd_interval (form_interval x) (Some (said_interval x)).
Proof. tell_rec. Qed.
Global Hint Resolve te_model_parameters te_interval : tell.
Lemma te_metric h x : tells h "performanceMetric" rd_metric (form_metric x) (Some (said_metric x)).
Proof. tell_rec. Qed.
Global Hint Resolve te_metric : tell.
Lemma te_quantitative h x : tells h "quantitativeAnalysis" rd_quantitative (form_quantitative x) (said_quantitative x).
Proof. unfold said_quantitative. tell_rec. Qed.
Global Hint Resolve te_quantitative : tell.
Lemma tells_some {A} h tag (d : desc A) x r : name_of x = Some tag -> (forall a, r = Some a -> tells h tag d x r) -> tells h tag d x r.
Proof. intros N H. split; [exact N|]. intros y a Sm Hy E. apply (H a E); auto. Qed.
Lemma te_model_card h x : tells h "modelCard" rd_model_card (form_model_card x) (said_model_card x).
Proof.
  unfold said_model_card. destruct (mc_considerations x) as [c|] eqn:Ec.
  { apply tells_some; [reflexivity|]. intros a H.
    destruct (maybe said_model_parameters (mc_model_parameters x)); [|discriminate].
    destruct (maybe said_quantitative (mc_quantitative_analysis x)); discriminate. }
  destruct (mc_properties x) as [p|] eqn:Ep.
  { apply tells_some; [reflexivity|]. intros a H.
    destruct (maybe said_model_parameters (mc_model_parameters x)); [|discriminate].
    destruct (maybe said_quantitative (mc_quantitative_analysis x)); discriminate. }
  unfold form_model_card. rewrite Ec, Ep. cbn [perhaps form_properties perhaps_group app]. rewrite app_nil_r. tell_rec.
Qed.
Global Hint Resolve te_model_card : tell.

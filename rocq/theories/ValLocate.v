(** Findings are filed under the right names. *)
From Verif Require Import Base ModelTypes Strings Base64 Regex Enums ValModel ValSpec ValLocSpec ValProofs ValProofs2 ValProofs3.
From Coq Require Import ZArith.
Open Scope string_scope.
Open Scope list_scope.
Open Scope nat_scope.

Lemma collect_error sl r : nodupb (map fst sl) = true -> collect sl = Done r ->
  forall k s, In (k, s) sl -> (error r k = None <-> slot_pass s).
Proof.
  revert r. induction sl as [|[k0 s0] sl IH]; intros r N C k s Hin; [destruct Hin|].
  cbn [collect] in C. inv_bind C. inv_bind C. injection C as <-. cbn [map fst nodupb] in N.
  apply andb_true_iff in N as [N1 N2]. apply negb_true_iff in N1.
  assert (Fresh : error v0 k0 = None).
  { eapply collect_keys; eauto. rewrite <- mem_In, N1. discriminate. }
  destruct Hin as [E|Hin].
  - injection E as -> ->. rewrite <- slot_err_pass, Hv. destruct v as [e|]; cbn [error].
    + rewrite String.eqb_refl. split; discriminate.
    + rewrite Fresh. tauto.
  - assert (K : k <> k0). { intros ->. rewrite <- not_true_iff_false, mem_In in N1. apply N1. apply in_map_iff. exists (k0, s). auto. }
    rewrite <- (IH _ N2 Hv0 _ _ Hin). destruct v as [e|]; [|tauto]. cbn [error].
    destruct (String.eqb_spec k0 k); [congruence|tauto].
Qed.

(** one name, one rule, per builder call *)
Definition matches (a : string * slot) (b : string * Prop) : Prop := fst a = fst b /\ (slot_pass (snd a) <-> snd b).
Lemma run_files sl fields r : nodupb (map fst sl) = true -> Forall2 matches sl fields -> run sl = Done r -> files_under r fields.
Proof.
  intros N F R. pose proof R as R'. rewrite run_collect in R' by exact N. split.
  - intros k P Hin.
    assert (exists s, In (k, s) sl /\ (slot_pass s <-> P)) as (s & Hs & <-).
    { clear -F Hin. induction F as [|[k1 s1] [k2 P2] l l' [A B] _ IH]; [destruct Hin|]. cbn in A, B. destruct Hin as [E|Hin].
      - injection E as -> ->. exists s1. subst. split; [now left|exact B].
      - destruct (IH Hin) as (s & X & Y). exists s. split; [now right|exact Y]. }
    exact (collect_error _ _ N R' _ _ Hs).
  - intros k Hk. assert (E : map fst fields = map fst sl).
    { clear -F. induction F as [|a b l l' [A _] _ IH]; cbn; congruence. }
    rewrite E. destruct (mem k (map fst sl)) eqn:M; [now apply mem_In|]. exfalso. apply Hk.
    eapply run_keys; eauto. rewrite <- mem_In, M. discriminate.
Qed.

Section Locate.
Variable x : parsers.
Variable v : spec_version.
Hint Resolve normalized_iff bom_ref_iff classification_iff aggregate_iff score_method_iff scope_iff identity_field_iff hash_algorithm_iff
  license_type_iff issue_iff patch_class_iff data_flow_iff ext_ref_type_iff datatype_iff algorithm_iff state_iff
  justification_iff response_iff severity_iff status_iff range_iff approach_iff confidence_iff date_time_iff
  uri_iff purl_iff spdx_id_iff urn_iff mime_check_iff cpe_check_iff hash_check_iff ref_uri_iff
  attached_text_iff attachment_iff vhash_iff hashes_iff property_iff properties_iff contact_iff entity_iff
  ext_ref_iff ext_refs_iff signer_iff signature_iff license_id_iff license_contact_iff licensing_iff license_iff
  license_choice_iff licenses_iff action_iff commit_iff commits_iff diff_iff source_iff vissue_iff
  patch_iff patches_iff party_iff governance_iff contents_iff graphic_iff graphics_iff component_data_iff
  dataset_iff datasets_iff vapproach_iff model_parameters_iff quantitative_iff occurrence_iff occurrences_iff frame_iff
  callstack_iff identity_iff evidence_iff swid_iff component_iff components_iff data_class_iff service_data_iff
  data_iff service_iff services_iff tool_iff tools_iff metadata_iff composition_iff compositions_iff
  annotator_iff annotation_iff vuln_source_iff vuln_reference_iff rating_iff advisory_iff credits_iff analysis_iff
  version_status_iff vuln_references_iff ratings_iff advisories_iff versions_iff target_iff targets_iff vulnerability_iff
  vulnerabilities_iff : viff.
Ltac leaf := intros; first [ solve [auto with viff nocore] | apply lift_pass; solve [auto with viff nocore] ].
Ltac slot_tac := cbv beta; first
  [ apply pass_field; leaf | apply pass_enum; leaf | apply pass_struct; leaf
  | apply pass_field_opt; leaf | apply pass_enum_opt; leaf
  | apply pass_items_opt; leaf | apply pass_struct_opt; leaf
  | apply pass_items_of_option; leaf | apply pass_items; leaf
  | apply pass_nested ].
Ltac locate := intros R; eapply run_files; [| |exact R]; [reflexivity|];
  repeat (apply Forall2_cons || apply Forall2_nil); (split; [reflexivity|]); cbn [fst snd]; try slot_tac.
Lemma hash_files a r : validate_hash a = Done r -> files_under r (fields_of_hash a).
Proof. unfold validate_hash, fields_of_hash. locate. Qed.
Lemma contact_files a r : (validate_contact v) a = Done r -> files_under r (fields_of_contact v a).
Proof. unfold validate_contact, fields_of_contact. locate. Qed.
Lemma entity_files a r : (validate_entity x v) a = Done r -> files_under r (fields_of_entity x v a).
Proof. unfold validate_entity, fields_of_entity. locate. Qed.
Lemma external_reference_files a r : (validate_external_reference x v) a = Done r -> files_under r (fields_of_external_reference x v a).
Proof. unfold validate_external_reference, fields_of_external_reference. locate. Qed.
Lemma licensing_files a r : (validate_licensing x v) a = Done r -> files_under r (fields_of_licensing x v a).
Proof. unfold validate_licensing, fields_of_licensing. locate. Qed.
Lemma license_files a r : (validate_license x v) a = Done r -> files_under r (fields_of_license x v a).
Proof. unfold validate_license, fields_of_license. locate. Qed.
Lemma identifiable_action_files a r : (validate_identifiable_action x) a = Done r -> files_under r (fields_of_identifiable_action x a).
Proof. unfold validate_identifiable_action, fields_of_identifiable_action. locate. Qed.
Lemma commit_files a r : (validate_commit x) a = Done r -> files_under r (fields_of_commit x a).
Proof. unfold validate_commit, fields_of_commit. locate. Qed.
Lemma diff_files a r : (validate_diff x) a = Done r -> files_under r (fields_of_diff x a).
Proof. unfold validate_diff, fields_of_diff. locate. Qed.
Lemma source_files a r : (validate_source x) a = Done r -> files_under r (fields_of_source x a).
Proof. unfold validate_source, fields_of_source. locate. Qed.
Lemma issue_files a r : (validate_issue x) a = Done r -> files_under r (fields_of_issue x a).
Proof. unfold validate_issue, fields_of_issue. locate. Qed.
Lemma patch_files a r : (validate_patch x) a = Done r -> files_under r (fields_of_patch x a).
Proof. unfold validate_patch, fields_of_patch. locate. Qed.
Lemma governance_files a r : (validate_governance x v) a = Done r -> files_under r (fields_of_governance x v a).
Proof. unfold validate_governance, fields_of_governance. locate. Qed.
Lemma data_contents_files a r : (validate_data_contents x) a = Done r -> files_under r (fields_of_data_contents x a).
Proof. unfold validate_data_contents, fields_of_data_contents. locate. Qed.
Lemma component_data_files a r : (validate_component_data x v) a = Done r -> files_under r (fields_of_component_data x v a).
Proof. unfold validate_component_data, fields_of_component_data. locate. Qed.
Lemma frame_files a r : validate_frame a = Done r -> files_under r (fields_of_frame a).
Proof. unfold validate_frame, fields_of_frame. locate. Qed.
Lemma identity_files a r : validate_identity a = Done r -> files_under r (fields_of_identity a).
Proof. unfold validate_identity, fields_of_identity. locate. Qed.
Lemma swid_files a r : (validate_swid x) a = Done r -> files_under r (fields_of_swid x a).
Proof. unfold validate_swid, fields_of_swid. locate. Qed.
Lemma component_files a r : (validate_component x v) a = Done r -> files_under r (fields_of_component x v a).
Proof.
  destruct a. cbn [validate_component].
  cbn [ModelTypes.c_type ModelTypes.c_mime_type ModelTypes.c_supplier ModelTypes.c_author ModelTypes.c_publisher ModelTypes.c_group ModelTypes.c_name ModelTypes.c_version ModelTypes.c_description ModelTypes.c_scope
       ModelTypes.c_hashes ModelTypes.c_licenses ModelTypes.c_copyright ModelTypes.c_cpe ModelTypes.c_purl ModelTypes.c_swid ModelTypes.c_pedigree ModelTypes.c_external_references ModelTypes.c_properties
       ModelTypes.c_components ModelTypes.c_evidence].
  assert (E : forall l, every (fun a => validate_component x v a = Done [] <-> valid_component x v a) l).
  { induction l; cbn; auto. split; auto. apply component_iff. }
  assert (E' : forall o, every_in o (fun a => validate_component x v a = Done [] <-> valid_component x v a)).
  { intros [l|]; cbn; auto. }
  locate; auto. apply pass_struct_opt_in. match goal with |- when ?o _ => destruct o end; cbn [when]; auto.
  now apply pedigree_iff.
Qed.
Lemma data_classification_files a r : validate_data_classification a = Done r -> files_under r (fields_of_data_classification a).
Proof. unfold validate_data_classification, fields_of_data_classification. locate. Qed.
Lemma service_data_files a r : (validate_service_data x v) a = Done r -> files_under r (fields_of_service_data x v a).
Proof. unfold validate_service_data, fields_of_service_data. locate. Qed.
Lemma service_files a r : (validate_service x v) a = Done r -> files_under r (fields_of_service x v a).
Proof.
  destruct a. cbn [validate_service].
  cbn [ModelTypes.s_provider ModelTypes.s_group ModelTypes.s_name ModelTypes.s_version ModelTypes.s_description ModelTypes.s_endpoints ModelTypes.s_data ModelTypes.s_licenses
       ModelTypes.s_external_references ModelTypes.s_properties ModelTypes.s_services ModelTypes.s_trust_zone].
  assert (E : forall l, every (fun a => validate_service x v a = Done [] <-> valid_service x v a) l).
  { induction l; cbn; auto. split; auto. apply service_iff. }
  assert (E' : forall o, every_in o (fun a => validate_service x v a = Done [] <-> valid_service x v a)).
  { intros [l|]; cbn; auto. }
  locate; auto.
Qed.
Lemma tool_files a r : (validate_tool x v) a = Done r -> files_under r (fields_of_tool x v a).
Proof. unfold validate_tool, fields_of_tool. locate. Qed.
Lemma metadata_files a r : (validate_metadata x v) a = Done r -> files_under r (fields_of_metadata x v a).
Proof. unfold validate_metadata, fields_of_metadata. locate. Qed.
Lemma composition_files a r : (validate_composition v) a = Done r -> files_under r (fields_of_composition v a).
Proof. unfold validate_composition, fields_of_composition. locate. Qed.
Lemma annotation_files a r : (validate_annotation x v) a = Done r -> files_under r (fields_of_annotation x v a).
Proof. unfold validate_annotation, fields_of_annotation. locate. Qed.
Lemma vuln_source_files a r : (validate_vuln_source x) a = Done r -> files_under r (fields_of_vuln_source x a).
Proof. unfold validate_vuln_source, fields_of_vuln_source. locate. Qed.
Lemma vuln_reference_files a r : (validate_vuln_reference x) a = Done r -> files_under r (fields_of_vuln_reference x a).
Proof. unfold validate_vuln_reference, fields_of_vuln_reference. locate. Qed.
Lemma rating_files a r : (validate_rating x v) a = Done r -> files_under r (fields_of_rating x v a).
Proof. unfold validate_rating, fields_of_rating. locate. Qed.
Lemma advisory_files a r : (validate_advisory x) a = Done r -> files_under r (fields_of_advisory x a).
Proof. unfold validate_advisory, fields_of_advisory. locate. Qed.
Lemma credits_files a r : (validate_credits x v) a = Done r -> files_under r (fields_of_credits x v a).
Proof. unfold validate_credits, fields_of_credits. locate. Qed.
Lemma version_status_files a r : validate_version_status a = Done r -> files_under r (fields_of_version_status a).
Proof. unfold validate_version_status, fields_of_version_status. locate. Qed.
Lemma vulnerability_files a r : (validate_vulnerability x v) a = Done r -> files_under r (fields_of_vulnerability x v a).
Proof. unfold validate_vulnerability, fields_of_vulnerability. locate. Qed.
Lemma bom_slot_files b r : run (bom_slots x v b) = Done r -> files_under r (firstn 8 (fields_of_bom x v b)).
Proof. unfold bom_slots, fields_of_bom. cbn [firstn]. locate. Qed.
End Locate.

Lemma bom_files x v b r : validate_bom x v b = Done r -> files_under r (fields_of_bom x v b).
Proof.
  intros R. destruct (validate_bom_ok x v b) as (r0 & r1 & R0 & E & H & K). rewrite R in E. injection E as <-.
  destruct (bom_slot_files x v b r0 R0) as [F1 F2].
  assert (Keys : forall k, ~ In k ["bom_ref"; "dependency_ref"; "sub dependency_ref"; "composition ref"] ->
    messages k (reference_findings b) = []).
  { intros k Hk. pose proof (finding_keys b) as Fk. rewrite Forall_forall in Fk.
    assert (G : ~ In k (map fst (reference_findings b))) by (intros X; apply Hk, Fk, X).
    revert G. generalize (reference_findings b) as l. induction l as [|[k' m] l IH]; cbn [messages map fst]; intros G; auto.
    destruct (String.eqb_spec k' k) as [->|N]; [exfalso; apply G; now left|]. apply IH. intros X; apply G; now right. }
  split.
  - intros k P Hin. change (fields_of_bom x v b) with (firstn 8 (fields_of_bom x v b) ++ skipn 8 (fields_of_bom x v b)) in Hin.
    apply in_app_or in Hin as [Hin|Hin].
    + rewrite H, Keys; [now apply F1|]. cbn in Hin. cbn. intros X.
      repeat (destruct Hin as [Hin|Hin]; [injection Hin as <- _; repeat (destruct X as [X|X]; [discriminate X|]); exact X|]). exact Hin.
    + cbn [skipn fields_of_bom In] in Hin.
      destruct Hin as [Hin|[Hin|[Hin|[Hin|[]]]]]; injection Hin as <- <-; rewrite H.
      * rewrite findings_bom_ref, K by (cbn; tauto). destruct (map repeat_msg (repeats [] (carried b))) eqn:M.
        { apply map_nil, repeats_nil in M. tauto. }
        split; [discriminate|]. intros N. exfalso.
        assert (Q : repeats [] (carried b) = []) by (apply repeats_nil; split; [exact N|intros ? _ []]).
        rewrite Q in M. discriminate.
      * rewrite findings_dep, K, <- dangling_nil by (cbn; tauto). destruct (dangling b _); cbn [map]; split; congruence.
      * rewrite findings_sub, K, <- dangling_nil by (cbn; tauto). destruct (dangling b _); cbn [map]; split; congruence.
      * rewrite findings_comp, K, <- dangling_nil by (cbn; tauto). destruct (dangling b _); cbn [map]; split; congruence.
  - intros k Hk. rewrite H in Hk. destruct (messages k (reference_findings b)) eqn:M.
    + apply F2 in Hk. change (fields_of_bom x v b) with (firstn 8 (fields_of_bom x v b) ++ skipn 8 (fields_of_bom x v b)).
      rewrite map_app. apply in_app_iff. now left.
    + destruct (in_dec string_dec k ["bom_ref"; "dependency_ref"; "sub dependency_ref"; "composition ref"]) as [D|D].
      * cbn in D. cbn. tauto.
      * rewrite Keys in M by exact D. discriminate.
Qed.

(** C52: every finding is filed under the name of the field that broke its rule,
    and under no other name.  The names and rules are in ValLocSpec.v. *)
From Verif Require Import Base ModelTypes Strings Regex Enums ValModel ValSpec ValLocSpec ValProofs3 ValProps ValLocate.
Open Scope string_scope.
Open Scope list_scope.

Theorem C52_bom_findings x v b r : validate_bom x v b = Done r -> files_under r (fields_of_bom x v b).
Proof. apply bom_files. Qed.
Theorem C52_structure_findings x v :
  (forall a r, validate_hash a = Done r -> files_under r (fields_of_hash a))
  /\ (forall a r, (validate_contact v) a = Done r -> files_under r (fields_of_contact v a))
  /\ (forall a r, (validate_entity x v) a = Done r -> files_under r (fields_of_entity x v a))
  /\ (forall a r, (validate_external_reference x v) a = Done r -> files_under r (fields_of_external_reference x v a))
  /\ (forall a r, (validate_licensing x v) a = Done r -> files_under r (fields_of_licensing x v a))
  /\ (forall a r, (validate_license x v) a = Done r -> files_under r (fields_of_license x v a))
  /\ (forall a r, (validate_identifiable_action x) a = Done r -> files_under r (fields_of_identifiable_action x a))
  /\ (forall a r, (validate_commit x) a = Done r -> files_under r (fields_of_commit x a))
  /\ (forall a r, (validate_diff x) a = Done r -> files_under r (fields_of_diff x a))
  /\ (forall a r, (validate_source x) a = Done r -> files_under r (fields_of_source x a))
  /\ (forall a r, (validate_issue x) a = Done r -> files_under r (fields_of_issue x a))
  /\ (forall a r, (validate_patch x) a = Done r -> files_under r (fields_of_patch x a))
  /\ (forall a r, (validate_governance x v) a = Done r -> files_under r (fields_of_governance x v a))
  /\ (forall a r, (validate_data_contents x) a = Done r -> files_under r (fields_of_data_contents x a))
  /\ (forall a r, (validate_component_data x v) a = Done r -> files_under r (fields_of_component_data x v a))
  /\ (forall a r, validate_frame a = Done r -> files_under r (fields_of_frame a))
  /\ (forall a r, validate_identity a = Done r -> files_under r (fields_of_identity a))
  /\ (forall a r, (validate_swid x) a = Done r -> files_under r (fields_of_swid x a))
  /\ (forall a r, (validate_component x v) a = Done r -> files_under r (fields_of_component x v a))
  /\ (forall a r, validate_data_classification a = Done r -> files_under r (fields_of_data_classification a))
  /\ (forall a r, (validate_service_data x v) a = Done r -> files_under r (fields_of_service_data x v a))
  /\ (forall a r, (validate_service x v) a = Done r -> files_under r (fields_of_service x v a))
  /\ (forall a r, (validate_tool x v) a = Done r -> files_under r (fields_of_tool x v a))
  /\ (forall a r, (validate_metadata x v) a = Done r -> files_under r (fields_of_metadata x v a))
  /\ (forall a r, (validate_composition v) a = Done r -> files_under r (fields_of_composition v a))
  /\ (forall a r, (validate_annotation x v) a = Done r -> files_under r (fields_of_annotation x v a))
  /\ (forall a r, (validate_vuln_source x) a = Done r -> files_under r (fields_of_vuln_source x a))
  /\ (forall a r, (validate_vuln_reference x) a = Done r -> files_under r (fields_of_vuln_reference x a))
  /\ (forall a r, (validate_rating x v) a = Done r -> files_under r (fields_of_rating x v a))
  /\ (forall a r, (validate_advisory x) a = Done r -> files_under r (fields_of_advisory x a))
  /\ (forall a r, (validate_credits x v) a = Done r -> files_under r (fields_of_credits x v a))
  /\ (forall a r, validate_version_status a = Done r -> files_under r (fields_of_version_status a))
  /\ (forall a r, (validate_vulnerability x v) a = Done r -> files_under r (fields_of_vulnerability x v a)).
Proof.
  split; [intros a r; apply hash_files|].
  split; [intros a r; apply contact_files|].
  split; [intros a r; apply entity_files|].
  split; [intros a r; apply external_reference_files|].
  split; [intros a r; apply licensing_files|].
  split; [intros a r; apply license_files|].
  split; [intros a r; apply identifiable_action_files|].
  split; [intros a r; apply commit_files|].
  split; [intros a r; apply diff_files|].
  split; [intros a r; apply source_files|].
  split; [intros a r; apply issue_files|].
  split; [intros a r; apply patch_files|].
  split; [intros a r; apply governance_files|].
  split; [intros a r; apply data_contents_files|].
  split; [intros a r; apply component_data_files|].
  split; [intros a r; apply frame_files|].
  split; [intros a r; apply identity_files|].
  split; [intros a r; apply swid_files|].
  split; [intros a r; apply component_files|].
  split; [intros a r; apply data_classification_files|].
  split; [intros a r; apply service_data_files|].
  split; [intros a r; apply service_files|].
  split; [intros a r; apply tool_files|].
  split; [intros a r; apply metadata_files|].
  split; [intros a r; apply composition_files|].
  split; [intros a r; apply annotation_files|].
  split; [intros a r; apply vuln_source_files|].
  split; [intros a r; apply vuln_reference_files|].
  split; [intros a r; apply rating_files|].
  split; [intros a r; apply advisory_files|].
  split; [intros a r; apply credits_files|].
  split; [intros a r; apply version_status_files|].
  intros a r; apply vulnerability_files.
Qed.
Example C52_example :
  let b := plain_bom (Some [plain_component (Some "r") (String "a" (String TAB "")) None]) None None None in
  exists r e, validate_bom picky_parsers V1_4 b = Done r /\ error r "components" = Some (ErrStruct [("inner", ErrList [(0, e)])])
    /\ error e "name" <> None /\ error e "version" = None /\ error r "metadata" = None.
Proof. cbn zeta. do 2 eexists. split; [vm_compute; reflexivity|]. split; [vm_compute; reflexivity|]. split; [discriminate|]. split; reflexivity. Qed.
Print Assumptions C52_bom_findings.
Print Assumptions C52_structure_findings.

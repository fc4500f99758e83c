(** Members a struct does not have are ignored, members it has must not be repeated. *)
From Verif Require Import Base ModelTypes Strings Enums GenModel Json JsonLemmas JsonModel JsonSpec JsonProofs.
Open Scope string_scope.
Open Scope list_scope.

Definition ignores_others {A} (ks : list string) (of : json -> option A) : Prop :=
  forall l1 k x l2, ~ In k ks -> of (JObj (l1 ++ (k, x) :: l2)) = of (JObj (l1 ++ l2)).
Definition rejects_repeated {A} (ks : list string) (of : json -> option A) : Prop :=
  forall k x y l1 l2 l3, In k ks -> of (JObj (l1 ++ (k, x) :: l2 ++ (k, y) :: l3)) = None.

Lemma count_key_other k' l1 k x l2 : k' <> k ->
  count_key k' (l1 ++ (k, x) :: l2) = count_key k' (l1 ++ l2).
Proof.
  intros N. induction l1 as [|[k1 x1] l1 IH]; cbn [app count_key].
  - destruct (String.eqb_spec k' k); [congruence|reflexivity].
  - now rewrite IH.
Qed.
Lemma assoc_other {A} k' l1 k (x : A) l2 : k' <> k -> assoc k' (l1 ++ (k, x) :: l2) = assoc k' (l1 ++ l2).
Proof.
  intros N. induction l1 as [|[k1 x1] l1 IH]; cbn [app assoc].
  - destruct (String.eqb_spec k' k); [congruence|reflexivity].
  - now rewrite IH.
Qed.
Lemma struct_ok_other ks l1 k x l2 : ~ In k ks ->
  struct_ok ks (JObj (l1 ++ (k, x) :: l2)) = struct_ok ks (JObj (l1 ++ l2)).
Proof.
  intros N. cbn [struct_ok]. induction ks as [|k' ks IH]; cbn [forallb]; auto.
  rewrite count_key_other by (intros ->; apply N; now left). rewrite IH; auto.
  intros I. apply N. now right.
Qed.
Lemma count_key_twice k x y l1 l2 l3 : 2 <= count_key k (l1 ++ (k, x) :: l2 ++ (k, y) :: l3).
Proof.
  induction l1 as [|[k1 x1] l1 IH]; cbn [app count_key].
  - rewrite String.eqb_refl. enough (1 <= count_key k (l2 ++ (k, y) :: l3)) by lia.
    induction l2 as [|[k1 x1] l2 IH]; cbn [app count_key]; [rewrite String.eqb_refl|]; lia.
  - lia.
Qed.
Lemma struct_ok_repeated ks k x y l1 l2 l3 : In k ks ->
  struct_ok ks (JObj (l1 ++ (k, x) :: l2 ++ (k, y) :: l3)) = false.
Proof.
  intros I. cbn [struct_ok]. apply not_true_is_false. rewrite forallb_forall. intros F.
  apply F in I. apply Nat.leb_le in I. pose proof (count_key_twice k x y l1 l2 l3). lia.
Qed.
Lemma apart k k' ks : ~ In k ks -> memb k' ks = true -> k' <> k.
Proof. intros N M E. apply N. rewrite <- E. now apply memb_In. Qed.
Lemma first_other ks l1 k x l2 : ~ In k ks ->
  first_of ks (JObj (l1 ++ (k, x) :: l2)) = first_of ks (JObj (l1 ++ l2)).
Proof.
  intros N. cbn [first_of]. assert (M : memb k ks = false).
  { apply not_true_is_false. rewrite memb_In. exact N. }
  induction l1 as [|[k1 x1] l1 IH]; cbn [app first_member]; [now rewrite M|].
  destruct (memb k1 ks); auto.
Qed.
Ltac ignore f :=
  let l1 := fresh "l1" in let k := fresh "k" in let x := fresh "x" in let l2 := fresh "l2" in
  let N := fresh "N" in
  intros l1 k x l2 N; unfold f, field, field_opt, field_default;
  rewrite ?get_JObj; cbn [since version_leb field_when];
  rewrite ?(fun ks l1 k x l2 (N : ~ In k ks) => struct_ok_other ks l1 k x l2 N) by exact N;
  repeat rewrite (assoc_other _ l1 k x l2) by (apply (apart _ _ _ N); reflexivity);
  reflexivity.
Ltac repeated f :=
  let k := fresh "k" in let x := fresh "x" in let y := fresh "y" in
  let l1 := fresh "l1" in let l2 := fresh "l2" in let l3 := fresh "l3" in let I := fresh "I" in
  intros k x y l1 l2 l3 I; unfold f;
  match goal with |- context [struct_ok ?ks _] => rewrite (struct_ok_repeated ks k x y l1 l2 l3 I) end;
  reflexivity.

Lemma others_attached_text : ignores_others ["contentType"; "encoding"; "content"] (of_json_attached_text).
Proof. ignore of_json_attached_text. Qed.
Lemma repeated_attached_text : rejects_repeated ["contentType"; "encoding"; "content"] (of_json_attached_text).
Proof. repeated of_json_attached_text. Qed.
Lemma others_attachment : ignores_others ["content"; "contentType"; "encoding"] (of_json_attachment).
Proof. ignore of_json_attachment. Qed.
Lemma repeated_attachment : rejects_repeated ["content"; "contentType"; "encoding"] (of_json_attachment).
Proof. repeated of_json_attachment. Qed.
Lemma others_hash : ignores_others ["alg"; "content"] (of_json_hash).
Proof. ignore of_json_hash. Qed.
Lemma repeated_hash : rejects_repeated ["alg"; "content"] (of_json_hash).
Proof. repeated of_json_hash. Qed.
Lemma others_property : ignores_others ["name"; "value"] (of_json_property).
Proof. ignore of_json_property. Qed.
Lemma repeated_property : rejects_repeated ["name"; "value"] (of_json_property).
Proof. repeated of_json_property. Qed.
Lemma others_contact : ignores_others ["bomRef"; "name"; "email"; "phone"] (of_json_contact).
Proof. ignore of_json_contact. Qed.
Lemma repeated_contact : rejects_repeated ["bomRef"; "name"; "email"; "phone"] (of_json_contact).
Proof. repeated of_json_contact. Qed.
Lemma others_entity : ignores_others ["bomRef"; "name"; "url"; "contact"] (of_json_entity).
Proof. ignore of_json_entity. Qed.
Lemma repeated_entity : rejects_repeated ["bomRef"; "name"; "url"; "contact"] (of_json_entity).
Proof. repeated of_json_entity. Qed.
Lemma others_external_reference : ignores_others ["type"; "url"; "comment"; "hashes"] (of_json_external_reference).
Proof. ignore of_json_external_reference. Qed.
Lemma repeated_external_reference : rejects_repeated ["type"; "url"; "comment"; "hashes"] (of_json_external_reference).
Proof. repeated of_json_external_reference. Qed.
Lemma others_licensing : ignores_others ["altIds"; "licensor"; "licensee"; "purchaser"; "purchaseOrder"; "licenseTypes"; "lastRenewal"; "expiration"] (of_json_licensing).
Proof. ignore of_json_licensing. Qed.
Lemma repeated_licensing : rejects_repeated ["altIds"; "licensor"; "licensee"; "purchaser"; "purchaseOrder"; "licenseTypes"; "lastRenewal"; "expiration"] (of_json_licensing).
Proof. repeated of_json_licensing. Qed.
Lemma others_identifiable_action : ignores_others ["timestamp"; "name"; "email"] (of_json_identifiable_action).
Proof. ignore of_json_identifiable_action. Qed.
Lemma repeated_identifiable_action : rejects_repeated ["timestamp"; "name"; "email"] (of_json_identifiable_action).
Proof. repeated of_json_identifiable_action. Qed.
Lemma others_commit : ignores_others ["uid"; "url"; "author"; "committer"; "message"] (of_json_commit).
Proof. ignore of_json_commit. Qed.
Lemma repeated_commit : rejects_repeated ["uid"; "url"; "author"; "committer"; "message"] (of_json_commit).
Proof. repeated of_json_commit. Qed.
Lemma others_diff : ignores_others ["text"; "url"] (of_json_diff).
Proof. ignore of_json_diff. Qed.
Lemma repeated_diff : rejects_repeated ["text"; "url"] (of_json_diff).
Proof. repeated of_json_diff. Qed.
Lemma others_source : ignores_others ["name"; "url"] (of_json_source).
Proof. ignore of_json_source. Qed.
Lemma repeated_source : rejects_repeated ["name"; "url"] (of_json_source).
Proof. repeated of_json_source. Qed.
Lemma others_issue : ignores_others ["type"; "id"; "name"; "description"; "source"; "references"] (of_json_issue).
Proof. ignore of_json_issue. Qed.
Lemma repeated_issue : rejects_repeated ["type"; "id"; "name"; "description"; "source"; "references"] (of_json_issue).
Proof. repeated of_json_issue. Qed.
Lemma others_patch : ignores_others ["type"; "diff"; "resolves"] (of_json_patch).
Proof. ignore of_json_patch. Qed.
Lemma repeated_patch : rejects_repeated ["type"; "diff"; "resolves"] (of_json_patch).
Proof. repeated of_json_patch. Qed.
Lemma others_data_governance : ignores_others ["custodians"; "stewards"; "owners"] (of_json_data_governance).
Proof. ignore of_json_data_governance. Qed.
Lemma repeated_data_governance : rejects_repeated ["custodians"; "stewards"; "owners"] (of_json_data_governance).
Proof. repeated of_json_data_governance. Qed.
Lemma others_data_contents : ignores_others ["attachment"; "url"; "properties"] (of_json_data_contents).
Proof. ignore of_json_data_contents. Qed.
Lemma repeated_data_contents : rejects_repeated ["attachment"; "url"; "properties"] (of_json_data_contents).
Proof. repeated of_json_data_contents. Qed.
Lemma others_graphic : ignores_others ["name"; "image"] (of_json_graphic).
Proof. ignore of_json_graphic. Qed.
Lemma repeated_graphic : rejects_repeated ["name"; "image"] (of_json_graphic).
Proof. repeated of_json_graphic. Qed.
Lemma others_graphics_collection : ignores_others ["description"; "collection"] (of_json_graphics_collection).
Proof. ignore of_json_graphics_collection. Qed.
Lemma repeated_graphics_collection : rejects_repeated ["description"; "collection"] (of_json_graphics_collection).
Proof. repeated of_json_graphics_collection. Qed.
Lemma others_component_data : ignores_others ["bomRef"; "type"; "name"; "contents"; "classification"; "sensitiveData"; "graphics"; "description"; "governance"] (of_json_component_data).
Proof. ignore of_json_component_data. Qed.
Lemma repeated_component_data : rejects_repeated ["bomRef"; "type"; "name"; "contents"; "classification"; "sensitiveData"; "graphics"; "description"; "governance"] (of_json_component_data).
Proof. repeated of_json_component_data. Qed.
Lemma others_approach : ignores_others ["type"] (of_json_approach).
Proof. ignore of_json_approach. Qed.
Lemma repeated_approach : rejects_repeated ["type"] (of_json_approach).
Proof. repeated of_json_approach. Qed.
Lemma others_ml_parameter : ignores_others ["format"] (of_json_ml_parameter).
Proof. ignore of_json_ml_parameter. Qed.
Lemma repeated_ml_parameter : rejects_repeated ["format"] (of_json_ml_parameter).
Proof. repeated of_json_ml_parameter. Qed.
Lemma others_model_parameters : ignores_others ["approach"; "task"; "architectureFamily"; "modelArchitecture"; "datasets"; "inputs"; "outputs"] (of_json_model_parameters).
Proof. ignore of_json_model_parameters. Qed.
Lemma repeated_model_parameters : rejects_repeated ["approach"; "task"; "architectureFamily"; "modelArchitecture"; "datasets"; "inputs"; "outputs"] (of_json_model_parameters).
Proof. repeated of_json_model_parameters. Qed.
Lemma others_confidence_interval : ignores_others ["lowerBound"; "upperBound"] (of_json_confidence_interval).
Proof. ignore of_json_confidence_interval. Qed.
Lemma repeated_confidence_interval : rejects_repeated ["lowerBound"; "upperBound"] (of_json_confidence_interval).
Proof. repeated of_json_confidence_interval. Qed.
Lemma others_performance_metric : ignores_others ["type"; "value"; "slice"; "confidence_interval"] (of_json_performance_metric).
Proof. ignore of_json_performance_metric. Qed.
Lemma repeated_performance_metric : rejects_repeated ["type"; "value"; "slice"; "confidence_interval"] (of_json_performance_metric).
Proof. repeated of_json_performance_metric. Qed.
Lemma others_quantitative_analysis : ignores_others ["performanceMetrics"; "graphics"] (of_json_quantitative_analysis).
Proof. ignore of_json_quantitative_analysis. Qed.
Lemma repeated_quantitative_analysis : rejects_repeated ["performanceMetrics"; "graphics"] (of_json_quantitative_analysis).
Proof. repeated of_json_quantitative_analysis. Qed.
Lemma others_model_card : ignores_others ["bomRef"; "modelParameters"; "quantitativeAnalysis"; "considerations"; "properties"] (of_json_model_card).
Proof. ignore of_json_model_card. Qed.
Lemma repeated_model_card : rejects_repeated ["bomRef"; "modelParameters"; "quantitativeAnalysis"; "considerations"; "properties"] (of_json_model_card).
Proof. repeated of_json_model_card. Qed.
Lemma others_occurrence : ignores_others ["bomRef"; "location"] (of_json_occurrence).
Proof. ignore of_json_occurrence. Qed.
Lemma repeated_occurrence : rejects_repeated ["bomRef"; "location"] (of_json_occurrence).
Proof. repeated of_json_occurrence. Qed.
Lemma others_frame : ignores_others ["package"; "module"; "function"; "parameters"; "line"; "column"; "fullFilename"] (of_json_frame).
Proof. ignore of_json_frame. Qed.
Lemma repeated_frame : rejects_repeated ["package"; "module"; "function"; "parameters"; "line"; "column"; "fullFilename"] (of_json_frame).
Proof. repeated of_json_frame. Qed.
Lemma others_method : ignores_others ["technique"; "confidence"; "value"] (of_json_method).
Proof. ignore of_json_method. Qed.
Lemma repeated_method : rejects_repeated ["technique"; "confidence"; "value"] (of_json_method).
Proof. repeated of_json_method. Qed.
Lemma others_identity : ignores_others ["field"; "confidence"; "methods"; "tools"] (of_json_identity).
Proof. ignore of_json_identity. Qed.
Lemma repeated_identity : rejects_repeated ["field"; "confidence"; "methods"; "tools"] (of_json_identity).
Proof. repeated of_json_identity. Qed.
Lemma others_evidence_1_3 : ignores_others ["licenses"; "copyright"] (of_json_evidence V1_3).
Proof. ignore of_json_evidence. Qed.
Lemma repeated_evidence_1_3 : rejects_repeated ["licenses"; "copyright"] (of_json_evidence V1_3).
Proof. repeated of_json_evidence. Qed.
Lemma others_evidence_1_4 : ignores_others ["licenses"; "copyright"] (of_json_evidence V1_4).
Proof. ignore of_json_evidence. Qed.
Lemma repeated_evidence_1_4 : rejects_repeated ["licenses"; "copyright"] (of_json_evidence V1_4).
Proof. repeated of_json_evidence. Qed.
Lemma others_evidence_1_5 : ignores_others ["licenses"; "copyright"; "occurrences"; "callstack"; "identity"] (of_json_evidence V1_5).
Proof. ignore of_json_evidence. Qed.
Lemma repeated_evidence_1_5 : rejects_repeated ["licenses"; "copyright"; "occurrences"; "callstack"; "identity"] (of_json_evidence V1_5).
Proof. repeated of_json_evidence. Qed.
Lemma others_swid : ignores_others ["tagId"; "name"; "version"; "tagVersion"; "patch"; "text"; "url"] (of_json_swid).
Proof. ignore of_json_swid. Qed.
Lemma repeated_swid : rejects_repeated ["tagId"; "name"; "version"; "tagVersion"; "patch"; "text"; "url"] (of_json_swid).
Proof. repeated of_json_swid. Qed.
Lemma others_data_classification : ignores_others ["flow"; "classification"] (of_json_data_classification).
Proof. ignore of_json_data_classification. Qed.
Lemma repeated_data_classification : rejects_repeated ["flow"; "classification"] (of_json_data_classification).
Proof. repeated of_json_data_classification. Qed.
Lemma others_tool_1_3 : ignores_others ["vendor"; "name"; "version"; "hashes"] (of_json_tool V1_3).
Proof. ignore of_json_tool. Qed.
Lemma repeated_tool_1_3 : rejects_repeated ["vendor"; "name"; "version"; "hashes"] (of_json_tool V1_3).
Proof. repeated of_json_tool. Qed.
Lemma others_tool_1_4 : ignores_others ["vendor"; "name"; "version"; "hashes"; "externalReferences"] (of_json_tool V1_4).
Proof. ignore of_json_tool. Qed.
Lemma repeated_tool_1_4 : rejects_repeated ["vendor"; "name"; "version"; "hashes"; "externalReferences"] (of_json_tool V1_4).
Proof. repeated of_json_tool. Qed.
Lemma others_tool_1_5 : ignores_others ["vendor"; "name"; "version"; "hashes"; "externalReferences"] (of_json_tool V1_5).
Proof. ignore of_json_tool. Qed.
Lemma repeated_tool_1_5 : rejects_repeated ["vendor"; "name"; "version"; "hashes"; "externalReferences"] (of_json_tool V1_5).
Proof. repeated of_json_tool. Qed.
Lemma others_metadata_1_3 : ignores_others ["timestamp"; "tools"; "authors"; "component"; "manufacture"; "supplier"; "licenses"; "properties"] (of_json_metadata V1_3).
Proof. ignore of_json_metadata. Qed.
Lemma repeated_metadata_1_3 : rejects_repeated ["timestamp"; "tools"; "authors"; "component"; "manufacture"; "supplier"; "licenses"; "properties"] (of_json_metadata V1_3).
Proof. repeated of_json_metadata. Qed.
Lemma others_metadata_1_4 : ignores_others ["timestamp"; "tools"; "authors"; "component"; "manufacture"; "supplier"; "licenses"; "properties"] (of_json_metadata V1_4).
Proof. ignore of_json_metadata. Qed.
Lemma repeated_metadata_1_4 : rejects_repeated ["timestamp"; "tools"; "authors"; "component"; "manufacture"; "supplier"; "licenses"; "properties"] (of_json_metadata V1_4).
Proof. repeated of_json_metadata. Qed.
Lemma others_metadata_1_5 : ignores_others ["timestamp"; "tools"; "authors"; "component"; "manufacture"; "supplier"; "licenses"; "properties"; "lifecycles"] (of_json_metadata V1_5).
Proof. ignore of_json_metadata. Qed.
Lemma repeated_metadata_1_5 : rejects_repeated ["timestamp"; "tools"; "authors"; "component"; "manufacture"; "supplier"; "licenses"; "properties"; "lifecycles"] (of_json_metadata V1_5).
Proof. repeated of_json_metadata. Qed.
Lemma others_dependency : ignores_others ["ref"; "dependsOn"] (of_json_dependency).
Proof. ignore of_json_dependency. Qed.
Lemma repeated_dependency : rejects_repeated ["ref"; "dependsOn"] (of_json_dependency).
Proof. repeated of_json_dependency. Qed.
Lemma others_composition_1_3 : ignores_others ["aggregate"; "assemblies"; "dependencies"] (of_json_composition V1_3).
Proof. ignore of_json_composition. Qed.
Lemma repeated_composition_1_3 : rejects_repeated ["aggregate"; "assemblies"; "dependencies"] (of_json_composition V1_3).
Proof. repeated of_json_composition. Qed.
Lemma others_composition_1_4 : ignores_others ["aggregate"; "assemblies"; "dependencies"; "signature"] (of_json_composition V1_4).
Proof. ignore of_json_composition. Qed.
Lemma repeated_composition_1_4 : rejects_repeated ["aggregate"; "assemblies"; "dependencies"; "signature"] (of_json_composition V1_4).
Proof. repeated of_json_composition. Qed.
Lemma others_composition_1_5 : ignores_others ["bomRef"; "aggregate"; "assemblies"; "dependencies"; "vulnerabilities"; "signature"] (of_json_composition V1_5).
Proof. ignore of_json_composition. Qed.
Lemma repeated_composition_1_5 : rejects_repeated ["bomRef"; "aggregate"; "assemblies"; "dependencies"; "vulnerabilities"; "signature"] (of_json_composition V1_5).
Proof. repeated of_json_composition. Qed.
Lemma others_annotation v : ignores_others ["bom-ref"; "subjects"; "annotator"; "timestamp"; "text"; "signature"] (of_json_annotation v).
Proof. ignore of_json_annotation. Qed.
Lemma repeated_annotation v : rejects_repeated ["bom-ref"; "subjects"; "annotator"; "timestamp"; "text"; "signature"] (of_json_annotation v).
Proof. repeated of_json_annotation. Qed.
Lemma others_vuln_source : ignores_others ["name"; "url"] (of_json_vuln_source).
Proof. ignore of_json_vuln_source. Qed.
Lemma repeated_vuln_source : rejects_repeated ["name"; "url"] (of_json_vuln_source).
Proof. repeated of_json_vuln_source. Qed.
Lemma others_vuln_reference : ignores_others ["id"; "source"] (of_json_vuln_reference).
Proof. ignore of_json_vuln_reference. Qed.
Lemma repeated_vuln_reference : rejects_repeated ["id"; "source"] (of_json_vuln_reference).
Proof. repeated of_json_vuln_reference. Qed.
Lemma others_vuln_rating : ignores_others ["source"; "score"; "severity"; "method"; "vector"; "justification"] (of_json_vuln_rating).
Proof. ignore of_json_vuln_rating. Qed.
Lemma repeated_vuln_rating : rejects_repeated ["source"; "score"; "severity"; "method"; "vector"; "justification"] (of_json_vuln_rating).
Proof. repeated of_json_vuln_rating. Qed.
Lemma others_advisory : ignores_others ["title"; "url"] (of_json_advisory).
Proof. ignore of_json_advisory. Qed.
Lemma repeated_advisory : rejects_repeated ["title"; "url"] (of_json_advisory).
Proof. repeated of_json_advisory. Qed.
Lemma others_vuln_credits : ignores_others ["organizations"; "individuals"] (of_json_vuln_credits).
Proof. ignore of_json_vuln_credits. Qed.
Lemma repeated_vuln_credits : rejects_repeated ["organizations"; "individuals"] (of_json_vuln_credits).
Proof. repeated of_json_vuln_credits. Qed.
Lemma others_vuln_analysis_1_3 : ignores_others ["state"; "justification"; "responses"; "detail"] (of_json_vuln_analysis V1_3).
Proof. ignore of_json_vuln_analysis. Qed.
Lemma repeated_vuln_analysis_1_3 : rejects_repeated ["state"; "justification"; "responses"; "detail"] (of_json_vuln_analysis V1_3).
Proof. repeated of_json_vuln_analysis. Qed.
Lemma others_vuln_analysis_1_4 : ignores_others ["state"; "justification"; "responses"; "detail"] (of_json_vuln_analysis V1_4).
Proof. ignore of_json_vuln_analysis. Qed.
Lemma repeated_vuln_analysis_1_4 : rejects_repeated ["state"; "justification"; "responses"; "detail"] (of_json_vuln_analysis V1_4).
Proof. repeated of_json_vuln_analysis. Qed.
Lemma others_vuln_analysis_1_5 : ignores_others ["state"; "justification"; "responses"; "detail"; "firstIssued"; "lastUpdated"] (of_json_vuln_analysis V1_5).
Proof. ignore of_json_vuln_analysis. Qed.
Lemma repeated_vuln_analysis_1_5 : rejects_repeated ["state"; "justification"; "responses"; "detail"; "firstIssued"; "lastUpdated"] (of_json_vuln_analysis V1_5).
Proof. repeated of_json_vuln_analysis. Qed.
Lemma others_vuln_target : ignores_others ["ref"; "versions"] (of_json_vuln_target).
Proof. ignore of_json_vuln_target. Qed.
Lemma repeated_vuln_target : rejects_repeated ["ref"; "versions"] (of_json_vuln_target).
Proof. repeated of_json_vuln_target. Qed.
Lemma others_proof_of_concept : ignores_others ["reproductionSteps"; "environment"; "supportingMaterial"] (of_json_proof_of_concept).
Proof. ignore of_json_proof_of_concept. Qed.
Lemma repeated_proof_of_concept : rejects_repeated ["reproductionSteps"; "environment"; "supportingMaterial"] (of_json_proof_of_concept).
Proof. repeated of_json_proof_of_concept. Qed.
Lemma others_vulnerability_1_3 : ignores_others ["bom-ref"; "id"; "source"; "references"; "ratings"; "cwes"; "description"; "detail"; "recommendation"; "advisories"; "created"; "published"; "updated"; "credits"; "tools"; "analysis"; "affects"; "properties"] (of_json_vulnerability V1_3).
Proof. ignore of_json_vulnerability. Qed.
Lemma repeated_vulnerability_1_3 : rejects_repeated ["bom-ref"; "id"; "source"; "references"; "ratings"; "cwes"; "description"; "detail"; "recommendation"; "advisories"; "created"; "published"; "updated"; "credits"; "tools"; "analysis"; "affects"; "properties"] (of_json_vulnerability V1_3).
Proof. repeated of_json_vulnerability. Qed.
Lemma others_vulnerability_1_4 : ignores_others ["bom-ref"; "id"; "source"; "references"; "ratings"; "cwes"; "description"; "detail"; "recommendation"; "advisories"; "created"; "published"; "updated"; "credits"; "tools"; "analysis"; "affects"; "properties"] (of_json_vulnerability V1_4).
Proof. ignore of_json_vulnerability. Qed.
Lemma repeated_vulnerability_1_4 : rejects_repeated ["bom-ref"; "id"; "source"; "references"; "ratings"; "cwes"; "description"; "detail"; "recommendation"; "advisories"; "created"; "published"; "updated"; "credits"; "tools"; "analysis"; "affects"; "properties"] (of_json_vulnerability V1_4).
Proof. repeated of_json_vulnerability. Qed.
Lemma others_vulnerability_1_5 : ignores_others ["bom-ref"; "id"; "source"; "references"; "ratings"; "cwes"; "description"; "detail"; "recommendation"; "workaround"; "proofOfConcept"; "advisories"; "created"; "published"; "updated"; "rejected"; "credits"; "tools"; "analysis"; "affects"; "properties"] (of_json_vulnerability V1_5).
Proof. ignore of_json_vulnerability. Qed.
Lemma repeated_vulnerability_1_5 : rejects_repeated ["bom-ref"; "id"; "source"; "references"; "ratings"; "cwes"; "description"; "detail"; "recommendation"; "workaround"; "proofOfConcept"; "advisories"; "created"; "published"; "updated"; "rejected"; "credits"; "tools"; "analysis"; "affects"; "properties"] (of_json_vulnerability V1_5).
Proof. repeated of_json_vulnerability. Qed.
Lemma others_parameter : ignores_others ["name"; "value"; "dataType"] (of_json_parameter).
Proof. ignore of_json_parameter. Qed.
Lemma repeated_parameter : rejects_repeated ["name"; "value"; "dataType"] (of_json_parameter).
Proof. repeated of_json_parameter. Qed.
Lemma others_command : ignores_others ["executed"; "properties"] (of_json_command).
Proof. ignore of_json_command. Qed.
Lemma repeated_command : rejects_repeated ["executed"; "properties"] (of_json_command).
Proof. repeated of_json_command. Qed.
Lemma others_step : ignores_others ["commands"; "description"; "name"; "properties"] (of_json_step).
Proof. ignore of_json_step. Qed.
Lemma repeated_step : rejects_repeated ["commands"; "description"; "name"; "properties"] (of_json_step).
Proof. repeated of_json_step. Qed.
Lemma others_workspace : ignores_others ["bom-ref"; "uid"; "name"; "aliases"; "description"; "resourceReferences"; "accessMode"; "mountPath"; "managedDataType"; "volumeRequest"; "volume"; "properties"] (of_json_workspace).
Proof. ignore of_json_workspace. Qed.
Lemma repeated_workspace : rejects_repeated ["bom-ref"; "uid"; "name"; "aliases"; "description"; "resourceReferences"; "accessMode"; "mountPath"; "managedDataType"; "volumeRequest"; "volume"; "properties"] (of_json_workspace).
Proof. repeated of_json_workspace. Qed.
Lemma others_condition : ignores_others ["description"; "expression"; "properties"] (of_json_condition).
Proof. ignore of_json_condition. Qed.
Lemma repeated_condition : rejects_repeated ["description"; "expression"; "properties"] (of_json_condition).
Proof. repeated of_json_condition. Qed.
Lemma others_event : ignores_others ["uid"; "description"; "timeReceived"; "data"; "source"; "target"; "properties"] (of_json_event).
Proof. ignore of_json_event. Qed.
Lemma repeated_event : rejects_repeated ["uid"; "description"; "timeReceived"; "data"; "source"; "target"; "properties"] (of_json_event).
Proof. repeated of_json_event. Qed.
Lemma others_trigger : ignores_others ["bom-ref"; "uid"; "name"; "description"; "resourceReferences"; "type"; "event"; "conditions"; "timeActivated"; "inputs"; "outputs"; "properties"] (of_json_trigger).
Proof. ignore of_json_trigger. Qed.
Lemma repeated_trigger : rejects_repeated ["bom-ref"; "uid"; "name"; "description"; "resourceReferences"; "type"; "event"; "conditions"; "timeActivated"; "inputs"; "outputs"; "properties"] (of_json_trigger).
Proof. repeated of_json_trigger. Qed.
Lemma others_task : ignores_others ["bom-ref"; "uid"; "name"; "description"; "resourceReferences"; "taskTypes"; "trigger"; "steps"; "inputs"; "outputs"; "timeStart"; "timeEnd"; "workspaces"; "runtimeTopology"; "properties"] (of_json_task).
Proof. ignore of_json_task. Qed.
Lemma repeated_task : rejects_repeated ["bom-ref"; "uid"; "name"; "description"; "resourceReferences"; "taskTypes"; "trigger"; "steps"; "inputs"; "outputs"; "timeStart"; "timeEnd"; "workspaces"; "runtimeTopology"; "properties"] (of_json_task).
Proof. repeated of_json_task. Qed.
Lemma others_workflow : ignores_others ["bom-ref"; "uid"; "name"; "description"; "resourceReferences"; "tasks"; "taskDependencies"; "taskTypes"; "trigger"; "steps"; "inputs"; "outputs"; "timeStart"; "timeEnd"; "workspaces"; "runtimeTopology"; "properties"] (of_json_workflow).
Proof. ignore of_json_workflow. Qed.
Lemma repeated_workflow : rejects_repeated ["bom-ref"; "uid"; "name"; "description"; "resourceReferences"; "tasks"; "taskDependencies"; "taskTypes"; "trigger"; "steps"; "inputs"; "outputs"; "timeStart"; "timeEnd"; "workspaces"; "runtimeTopology"; "properties"] (of_json_workflow).
Proof. repeated of_json_workflow. Qed.
Lemma others_formula v : ignores_others ["bom-ref"; "components"; "services"; "workflows"; "properties"] (of_json_formula v).
Proof. ignore of_json_formula. Qed.
Lemma repeated_formula v : rejects_repeated ["bom-ref"; "components"; "services"; "workflows"; "properties"] (of_json_formula v).
Proof. repeated of_json_formula. Qed.
Lemma others_signer : ignores_others ["algorithm"; "value"] (of_json_signer).
Proof. ignore of_json_signer. Qed.
Lemma repeated_signer : rejects_repeated ["algorithm"; "value"] (of_json_signer).
Proof. repeated of_json_signer. Qed.
Lemma others_considerations : ignores_others [] (of_json_considerations).
Proof. ignore of_json_considerations. Qed.
Lemma repeated_considerations : rejects_repeated [] (of_json_considerations).
Proof. repeated of_json_considerations. Qed.
Lemma others_callstack : ignores_others ["frames"] (of_json_callstack).
Proof. ignore of_json_callstack. Qed.
Lemma repeated_callstack : rejects_repeated ["frames"] (of_json_callstack).
Proof. repeated of_json_callstack. Qed.
Lemma others_copyright : ignores_others ["text"] (of_json_copyright).
Proof. ignore of_json_copyright. Qed.
Lemma repeated_copyright : rejects_repeated ["text"] (of_json_copyright).
Proof. repeated of_json_copyright. Qed.
Lemma others_volume : ignores_others ["uid"; "name"; "mode"; "path"; "size_allocated"; "persistent"; "remote"; "properties"] (of_json_volume).
Proof. ignore of_json_volume. Qed.
Lemma repeated_volume : rejects_repeated ["uid"; "name"; "mode"; "path"; "size_allocated"; "persistent"; "remote"; "properties"] (of_json_volume).
Proof. repeated of_json_volume. Qed.
Lemma others_bom_1_3 : ignores_others ["bomFormat"; "specVersion"; "version"; "serialNumber"; "metadata"; "components"; "services"; "externalReferences"; "dependencies"; "compositions"] (of_json_bom V1_3).
Proof. ignore of_json_bom. Qed.
Lemma repeated_bom_1_3 : rejects_repeated ["bomFormat"; "specVersion"; "version"; "serialNumber"; "metadata"; "components"; "services"; "externalReferences"; "dependencies"; "compositions"] (of_json_bom V1_3).
Proof. repeated of_json_bom. Qed.
Lemma others_bom_1_4 : ignores_others ["bomFormat"; "specVersion"; "version"; "serialNumber"; "metadata"; "components"; "services"; "externalReferences"; "dependencies"; "compositions"; "vulnerabilities"; "signature"] (of_json_bom V1_4).
Proof. ignore of_json_bom. Qed.
Lemma repeated_bom_1_4 : rejects_repeated ["bomFormat"; "specVersion"; "version"; "serialNumber"; "metadata"; "components"; "services"; "externalReferences"; "dependencies"; "compositions"; "vulnerabilities"; "signature"] (of_json_bom V1_4).
Proof. repeated of_json_bom. Qed.
Lemma others_bom_1_5 : ignores_others ["bomFormat"; "specVersion"; "version"; "serialNumber"; "metadata"; "components"; "services"; "externalReferences"; "dependencies"; "compositions"; "vulnerabilities"; "signature"; "annotations"; "properties"; "formulation"] (of_json_bom V1_5).
Proof. ignore of_json_bom. Qed.
Lemma repeated_bom_1_5 : rejects_repeated ["bomFormat"; "specVersion"; "version"; "serialNumber"; "metadata"; "components"; "services"; "externalReferences"; "dependencies"; "compositions"; "vulnerabilities"; "signature"; "annotations"; "properties"; "formulation"] (of_json_bom V1_5).
Proof. repeated of_json_bom. Qed.
Lemma others_component_1_3 : ignores_others ["type"; "mime-type"; "bom-ref"; "supplier"; "author"; "publisher"; "group"; "name"; "version"; "description"; "scope"; "hashes"; "licenses"; "copyright"; "cpe"; "purl"; "swid"; "modified"; "pedigree"; "externalReferences"; "properties"; "components"; "evidence"] (of_json_component V1_3).
Proof.
  intros l1 k x l2 N. rewrite !of_json_component_unfold. revert l1 k x l2 N.
  ignore @bindo.
Qed.
Lemma repeated_component_1_3 : rejects_repeated ["type"; "mime-type"; "bom-ref"; "supplier"; "author"; "publisher"; "group"; "name"; "version"; "description"; "scope"; "hashes"; "licenses"; "copyright"; "cpe"; "purl"; "swid"; "modified"; "pedigree"; "externalReferences"; "properties"; "components"; "evidence"] (of_json_component V1_3).
Proof.
  intros k x y l1 l2 l3 I. rewrite of_json_component_unfold.
  match goal with |- context [struct_ok ?ks _] => rewrite (struct_ok_repeated ks k x y l1 l2 l3 I) end.
  reflexivity.
Qed.
Lemma others_component_1_4 : ignores_others ["type"; "mime-type"; "bom-ref"; "supplier"; "author"; "publisher"; "group"; "name"; "version"; "description"; "scope"; "hashes"; "licenses"; "copyright"; "cpe"; "purl"; "swid"; "modified"; "pedigree"; "externalReferences"; "properties"; "components"; "evidence"; "signature"] (of_json_component V1_4).
Proof.
  intros l1 k x l2 N. rewrite !of_json_component_unfold. revert l1 k x l2 N.
  ignore @bindo.
Qed.
Lemma repeated_component_1_4 : rejects_repeated ["type"; "mime-type"; "bom-ref"; "supplier"; "author"; "publisher"; "group"; "name"; "version"; "description"; "scope"; "hashes"; "licenses"; "copyright"; "cpe"; "purl"; "swid"; "modified"; "pedigree"; "externalReferences"; "properties"; "components"; "evidence"; "signature"] (of_json_component V1_4).
Proof.
  intros k x y l1 l2 l3 I. rewrite of_json_component_unfold.
  match goal with |- context [struct_ok ?ks _] => rewrite (struct_ok_repeated ks k x y l1 l2 l3 I) end.
  reflexivity.
Qed.
Lemma others_component_1_5 : ignores_others ["type"; "mime-type"; "bom-ref"; "supplier"; "author"; "publisher"; "group"; "name"; "version"; "description"; "scope"; "hashes"; "licenses"; "copyright"; "cpe"; "purl"; "swid"; "modified"; "pedigree"; "externalReferences"; "properties"; "components"; "evidence"; "signature"; "modelCard"; "data"] (of_json_component V1_5).
Proof.
  intros l1 k x l2 N. rewrite !of_json_component_unfold. revert l1 k x l2 N.
  ignore @bindo.
Qed.
Lemma repeated_component_1_5 : rejects_repeated ["type"; "mime-type"; "bom-ref"; "supplier"; "author"; "publisher"; "group"; "name"; "version"; "description"; "scope"; "hashes"; "licenses"; "copyright"; "cpe"; "purl"; "swid"; "modified"; "pedigree"; "externalReferences"; "properties"; "components"; "evidence"; "signature"; "modelCard"; "data"] (of_json_component V1_5).
Proof.
  intros k x y l1 l2 l3 I. rewrite of_json_component_unfold.
  match goal with |- context [struct_ok ?ks _] => rewrite (struct_ok_repeated ks k x y l1 l2 l3 I) end.
  reflexivity.
Qed.
Lemma others_service_1_3 : ignores_others ["bom-ref"; "provider"; "group"; "name"; "version"; "description"; "endpoints"; "authenticated"; "x-trust-boundary"; "data"; "licenses"; "externalReferences"; "properties"; "services"] (of_json_service V1_3).
Proof.
  intros l1 k x l2 N. rewrite !of_json_service_unfold. revert l1 k x l2 N.
  ignore @bindo.
Qed.
Lemma repeated_service_1_3 : rejects_repeated ["bom-ref"; "provider"; "group"; "name"; "version"; "description"; "endpoints"; "authenticated"; "x-trust-boundary"; "data"; "licenses"; "externalReferences"; "properties"; "services"] (of_json_service V1_3).
Proof.
  intros k x y l1 l2 l3 I. rewrite of_json_service_unfold.
  match goal with |- context [struct_ok ?ks _] => rewrite (struct_ok_repeated ks k x y l1 l2 l3 I) end.
  reflexivity.
Qed.
Lemma others_service_1_4 : ignores_others ["bom-ref"; "provider"; "group"; "name"; "version"; "description"; "endpoints"; "authenticated"; "x-trust-boundary"; "data"; "licenses"; "externalReferences"; "properties"; "services"; "signature"] (of_json_service V1_4).
Proof.
  intros l1 k x l2 N. rewrite !of_json_service_unfold. revert l1 k x l2 N.
  ignore @bindo.
Qed.
Lemma repeated_service_1_4 : rejects_repeated ["bom-ref"; "provider"; "group"; "name"; "version"; "description"; "endpoints"; "authenticated"; "x-trust-boundary"; "data"; "licenses"; "externalReferences"; "properties"; "services"; "signature"] (of_json_service V1_4).
Proof.
  intros k x y l1 l2 l3 I. rewrite of_json_service_unfold.
  match goal with |- context [struct_ok ?ks _] => rewrite (struct_ok_repeated ks k x y l1 l2 l3 I) end.
  reflexivity.
Qed.
Lemma others_service_1_5 : ignores_others ["bom-ref"; "provider"; "group"; "name"; "version"; "description"; "endpoints"; "authenticated"; "x-trust-boundary"; "data"; "licenses"; "externalReferences"; "properties"; "services"; "signature"; "trustZone"] (of_json_service V1_5).
Proof.
  intros l1 k x l2 N. rewrite !of_json_service_unfold. revert l1 k x l2 N.
  ignore @bindo.
Qed.
Lemma repeated_service_1_5 : rejects_repeated ["bom-ref"; "provider"; "group"; "name"; "version"; "description"; "endpoints"; "authenticated"; "x-trust-boundary"; "data"; "licenses"; "externalReferences"; "properties"; "services"; "signature"; "trustZone"] (of_json_service V1_5).
Proof.
  intros k x y l1 l2 l3 I. rewrite of_json_service_unfold.
  match goal with |- context [struct_ok ?ks _] => rewrite (struct_ok_repeated ks k x y l1 l2 l3 I) end.
  reflexivity.
Qed.
Lemma others_pedigree f :
  ignores_others ["ancestors"; "descendants"; "variants"; "commits"; "patches"; "notes"] (of_json_pedigree f).
Proof. ignore of_json_pedigree. Qed.
Lemma repeated_pedigree f :
  rejects_repeated ["ancestors"; "descendants"; "variants"; "commits"; "patches"; "notes"] (of_json_pedigree f).
Proof. repeated of_json_pedigree. Qed.
(** Flattened members: one of the names of the variants is taken, the others ignored. *)
Lemma others_license v : ignores_others ["bomRef"; "text"; "url"; "licensing"; "properties"; "id"; "name"] (of_json_license v).
Proof.
  intros l1 k x l2 N. unfold of_json_license, of_json_license_identifier.
  rewrite first_other by (intros I; apply N; cbn in I |- *; tauto). revert l1 k x l2 N.
  destruct v; intros l1 k x l2 N; unfold object_ok, field, field_opt; rewrite !get_JObj;
    cbn [since version_leb field_when];
    rewrite struct_ok_other by (intros I; apply N; cbn in I |- *; tauto);
    repeat rewrite (assoc_other _ l1 k x l2) by (apply (apart _ _ _ N); reflexivity);
    reflexivity.
Qed.
Lemma others_version_status : ignores_others ["version"; "range"; "undefinedVersionRange"; "status"] of_json_version_status.
Proof.
  intros l1 k x l2 N. unfold of_json_version_status, of_json_version_range.
  rewrite first_other by (intros I; apply N; cbn in I |- *; tauto).
  unfold object_ok, field, field_opt; rewrite !get_JObj.
  rewrite struct_ok_other by (intros I; apply N; cbn in I |- *; tauto).
  repeat rewrite (assoc_other _ l1 k x l2) by (apply (apart _ _ _ N); reflexivity).
  reflexivity.
Qed.

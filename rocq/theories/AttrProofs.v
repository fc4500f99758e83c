(** Every reader of the library reads the attributes AttrSpec lists, and no other *)
From Verif Require Import Base ModelTypes Strings Enums GenModel Json JsonLemmas JsonModel
  Xml XmlLemmas XmlModel XmlGeneral StrictSpec StrictProofs AttrSpec.
Open Scope string_scope.
Open Scope list_scope.
Open Scope nat_scope.
Open Scope shape_scope.

Lemma attr_values k ats : attr k ats = hd_error (values k ats).
Proof.
  unfold values. induction ats as [|[a x] ats IH]; [reflexivity|]. cbn [attr filter fst].
  destruct (String.eqb a k); [reflexivity|exact IH].
Qed.
Lemma attr_last_values k ats : attr_last k ats = hd_error (rev (values k ats)).
Proof.
  unfold attr_last. rewrite attr_values. f_equal. unfold values. rewrite <- map_rev. f_equal.
  induction ats as [|x ats IH]; [reflexivity|]. cbn [rev]. rewrite filter_app, IH. cbn [filter].
  destruct (String.eqb (fst x) k); cbn [rev]; [reflexivity|apply app_nil_r].
Qed.
Lemma attr_same l ats ats' k : same_values l ats ats' -> In k l -> attr k ats = attr k ats'.
Proof. intros H I. now rewrite !attr_values, (H k I). Qed.
Lemma attr_last_same l ats ats' k : same_values l ats ats' -> In k l -> attr_last k ats = attr_last k ats'.
Proof. intros H I. now rewrite !attr_last_values, (H k I). Qed.

(** the reader [d] of elements at the place [q] reads the attributes [l] *)
Fixpoint minds (v : spec_version) {A} (d : desc A) (l : list string) (q : place) {struct d} : Prop :=
  match d with
  | DPrim _ => True
  | DMap f d => (forall n ats ats' x, same_values l ats ats' -> f n ats x = f n ats' x) /\ minds v d l q
  | DLoop _ sh => sminds v sh q
  | DOdd sh _ _ => sminds v sh q
  | DFuel => True
  end
with sminds (v : spec_version) {S} (sh : shape S) (q : place) {struct sh} : Prop :=
  match sh with
  | SNone _ | SChars _ _ => True
  | SOn tag d _ _ => match within v q tag with Some q' => minds v d (attributes v q tag) q' | None => False end
  | SOr a b => sminds v a q /\ sminds v b q
  | SPair a b => sminds v a q /\ sminds v b q
  end.

(** its own attributes: those that are not read make no difference *)
Theorem minds_here v {A} (d : desc A) l q n ats ats' kids : minds v d l q -> same_values l ats ats' -> tr d n ats kids = tr d n ats' kids.
Proof.
  induction d using desc_mut with (P0 := fun S sh => True); try exact I; try reflexivity.
  intros (H & K) E. cbn [tr]. rewrite (IHd K E). destruct (tr d n ats' kids) as [a| |]; cbn [tbind]; try reflexivity. now rewrite (H n ats ats' a E).
Qed.
(** ... and those of what is in it *)
Theorem minds_changed v {A} (d : desc A) : forall l q n ats kids kids', obeys v d q -> minds v d l q -> changed v q kids kids' ->
  tr d n ats kids = tr d n ats kids'.
Proof.
  induction d using desc_mut with
    (P0 := fun S sh => forall q, sobeys v sh q -> sminds v sh q -> forall m r q' ats kids kids', tr_arm sh m = Some r -> within v q m = Some q' ->
       (changed v q' kids kids' -> r ats kids = r ats kids') /\
       (forall ats', same_values (attributes v q m) ats ats' -> r ats kids = r ats' kids)).
  - intros l q n ats kids kids' (H & K) _ U. cbn [tr].
    destruct U as [q before m a a' ks after q' W E|q before m a a' ks after W E|q before m a ks ks' after q' W U];
      try (unfold within in W; rewrite K in W; discriminate).
    destruct p, before as [|[] [|]], after; reflexivity.
  - intros l q n ats kids kids' O (_ & K) U. cbn [tr]. now rewrite (IHd l q n ats kids kids' O K U).
  - intros l q n ats kids kids' (H & C & N & O) K U. cbn [tr].
    assert (Arm : forall m q', within v q m = Some q' -> exists r, tr_arm sh m = Some r).
    { intros m q' W. assert (E : has_arm sh m = true) by (rewrite forallb_forall in N; apply N; eapply within_in, W).
      rewrite has_arm_tr in E. destruct (tr_arm sh m) as [r|]; [now exists r|discriminate]. }
    destruct U as [q before m a a' ks after q' W E|q before m a a' ks after W E|q before m a ks ks' after q' W U];
      rewrite !absorb_app; destruct (absorb p (tr_arm sh) (on_chars sh) n before (init sh)) as [st| |]; cbn [tbind]; try reflexivity; cbn [absorb absorb1].
    + destruct (Arm m q' W) as (r & Er). rewrite Er. now rewrite (proj2 (IHd q O K m r q' a ks ks Er W) a' E).
    + assert (An : tr_arm sh m = None).
      { destruct (tr_arm sh m) eqn:Er; [|reflexivity]. exfalso. apply (sobeys_within v sh q m O); [rewrite has_arm_tr, Er; reflexivity|exact W]. }
      rewrite An. reflexivity.
    + destruct (Arm m q' W) as (r & Er). rewrite Er. now rewrite (proj1 (IHd q O K m r q' a ks ks' Er W) U).
  - intros l q n ats kids kids' (H & N & O) K U. cbn [tr].
    assert (Arm : forall m q', within v q m = Some q' -> exists r, tr_arm sh m = Some r).
    { intros m q' W. assert (E : has_arm sh m = true) by (rewrite forallb_forall in N; apply N; eapply within_in, W).
      rewrite has_arm_tr in E. destruct (tr_arm sh m) as [r|]; [now exists r|discriminate]. }
    destruct U as [q before m a a' ks after q' W E|q before m a a' ks after W E|q before m a ks ks' after q' W U]; [|contradiction|];
      rewrite !odd_absorb_app; destruct (odd_absorb (tr_arm sh) before (init sh)) as [st| |]; cbn [tbind]; try reflexivity; cbn [odd_absorb].
    + destruct (Arm m q' W) as (r & Er). rewrite Er. now rewrite (proj2 (IHd q O K m r q' a ks ks Er W) a' E).
    + destruct (Arm m q' W) as (r & Er). rewrite Er. now rewrite (proj1 (IHd q O K m r q' a ks ks' Er W) U).
  - reflexivity.
  - discriminate.
  - intros q O K m r q' ats kids kids'. cbn [tr_arm sobeys sminds] in *. destruct (String.eqb_spec m tag) as [->|]; [|discriminate].
    intros [= <-] W. rewrite W in *. split.
    + intros U. now rewrite (IHd _ q' tag ats kids kids' O K U).
    + intros ats' E. now rewrite (minds_here v d _ q' tag ats ats' kids K E).
  - discriminate.
  - intros q (H1 & H2) (K1 & K2) m r q' ats kids kids'. cbn [tr_arm]. destruct (tr_arm a m) eqn:E.
    + intros [= <-]. now apply (IHd q).
    + now apply (IHd0 q).
  - intros q (H1 & H2) (K1 & K2) m r q' ats kids kids'. cbn [tr_arm]. destruct (tr_arm a m) eqn:E.
    + intros [= <-] W. destruct (IHd q H1 K1 m _ q' ats kids kids' E W) as [X Y]. split; [intros U; now rewrite (X U)|intros ats' Z; now rewrite (Y ats' Z)].
    + destruct (tr_arm b m) eqn:E'; [|discriminate]. intros [= <-] W. destruct (IHd0 q H2 K2 m _ q' ats kids kids' E' W) as [X Y].
      split; [intros U; now rewrite (X U)|intros ats' Z; now rewrite (Y ats' Z)].
Qed.

(** The function that puts the parts together looks at the listed attributes *)
Ltac heed :=
  let n := fresh "n" in let a := fresh "ats" in let a' := fresh "ats" in let x := fresh "x" in let H := fresh "H" in
  intros n a a' x H; cbv beta; unfold attr_of;
  repeat match goal with |- context [since ?u ?w] => let r := eval vm_compute in (since u w) in change (since u w) with r; cbv iota end;
  repeat match goal with
  | |- context [attr ?k a] => rewrite (attr_same _ a a' k H) by (cbn; tauto)
  | |- context [attr_last ?k a] => rewrite (attr_last_same _ a a' k H) by (cbn; tauto)
  end; reflexivity.

(** ** The readers *)
Create HintDb minds discriminated.
Ltac mind1 :=
  match goal with
  | |- _ /\ _ => split
  | |- True => exact I
  | |- forall (n : string) (ats ats' : attrs) x, same_values _ ats ats' -> _ = _ => heed
  | |- minds _ (struct _ _ _) _ _ => unfold struct
  | |- minds _ d_string _ _ => unfold d_string
  | |- minds _ d_bool _ _ => unfold d_bool
  | |- minds _ d_u32 _ _ => unfold d_u32
  | |- minds _ (d_score _) _ _ => unfold d_score
  | |- minds _ (d_f32 _) _ _ => unfold d_f32
  | |- sminds _ rd_hashes _ => unfold rd_hashes
  | |- sminds _ rd_properties _ => unfold rd_properties
  | |- sminds _ rd_external_references _ => unfold rd_external_references
  | |- sminds _ (rd_licenses _) _ => unfold rd_licenses
  | |- sminds _ rd_license_identifier _ => unfold rd_license_identifier
  | |- sminds _ rd_resources _ => unfold rd_resources
  | |- sminds _ (rd_components _ _ _) _ => unfold rd_components
  | |- sminds _ (rd_services _ _) _ => unfold rd_services
  | |- minds _ (d_map _ _) _ _ => unfold d_map
  | |- minds _ (d_enum _) _ _ => unfold d_enum
  | |- minds _ (d_text _) _ _ => unfold d_text
  | |- minds _ (list_of _ _ _) _ _ => unfold list_of
  | |- minds _ (DMap _ _) _ _ => cbn [minds]
  | |- minds _ (DPrim _) _ _ => exact I
  | |- minds _ (DLoop _ _) _ _ => cbn [minds]
  | |- minds _ (DOdd _ _ _) _ _ => cbn [minds]
  | |- sminds _ (SPair _ _) _ => cbn [sminds]
  | |- sminds _ (SOr _ _) _ => cbn [sminds]
  | |- sminds _ (SNone _) _ => exact I
  | |- sminds _ (SChars _ _) _ => exact I
  | |- sminds _ (from (since ?a ?b) ?sh) _ => let r := eval vm_compute in (since a b) in change (from (since a b) sh) with (from r sh); cbn [from]
  | |- sminds _ (one _ _) _ => unfold one
  | |- sminds _ (many _ _) _ => unfold many
  | |- sminds _ (many_opt _ _) _ => unfold many_opt
  | |- sminds _ (single _ _) _ => unfold single
  | |- sminds _ (one_list _ _ _ _) _ => unfold one_list
  | |- sminds ?v (SOn ?tag ?d ?i ?u) ?q =>
      let r := eval vm_compute in (within v q tag) in
      let l := eval vm_compute in (attributes v q tag) in
      match r with Some ?q' => change (minds v d l q') end
  | |- match within ?v ?q ?tag with Some q' => minds _ ?d _ q' | None => False end =>
      let r := eval vm_compute in (within v q tag) in
      let l := eval vm_compute in (attributes v q tag) in
      match r with Some ?q' => change (minds v d l q') end
  | |- minds ?v ?d ?l ?q => first [solve [auto 2 with minds nocore] | change (minds v d (of_place v q) q); solve [auto 2 with minds nocore]]
  | |- _ => solve [auto 2 with minds nocore]
  end.
Ltac mind := repeat mind1.
Ltac mind_reader r := intros; unfold r; match goal with v : spec_version |- _ => destruct v end; mind.
Lemma minds_ref v : minds v rd_ref (of_place v PPointer) PPointer.
Proof. mind_reader rd_ref. Qed.
Lemma minds_attached_text v : minds v rd_attached_text ["content-type"; "encoding"] PWords.
Proof. mind_reader rd_attached_text. Qed.
Lemma minds_attachment v : minds v rd_attachment (of_place v PAttachment) PAttachment.
Proof. mind_reader rd_attachment. Qed.
Lemma minds_property v : minds v rd_property ["name"] PWords.
Proof. mind_reader rd_property. Qed.
Lemma minds_hash v : minds v rd_hash ["alg"] PWords.
Proof. mind_reader rd_hash. Qed.
Lemma minds_contact v : minds v rd_contact (of_place v PContact) PContact.
Proof. mind_reader rd_contact. Qed.
#[export] Hint Resolve minds_ref minds_attached_text minds_attachment minds_property minds_hash minds_contact : minds.
Lemma minds_entity v : minds v rd_entity (of_place v PEntity) PEntity.
Proof. mind_reader rd_entity. Qed.
Lemma minds_external_reference v : minds v rd_external_reference (of_place v PExternalReference) PExternalReference.
Proof. mind_reader rd_external_reference. Qed.
Lemma minds_signer v : minds v rd_signer (of_place v PSigner) PSigner.
Proof. mind_reader rd_signer. Qed.
#[export] Hint Resolve minds_signer : minds.
Lemma minds_signature v : minds v rd_signature (of_place v PSignature) PSignature.
Proof. mind_reader rd_signature. Qed.
#[export] Hint Resolve minds_entity minds_external_reference minds_signature : minds.
Lemma minds_license_contact v : minds v rd_license_contact (of_place v PLicenseContact) PLicenseContact.
Proof. mind_reader rd_license_contact. Qed.
#[export] Hint Resolve minds_license_contact : minds.
Lemma minds_licensing v : minds v rd_licensing (of_place v PLicensing) PLicensing.
Proof. mind_reader rd_licensing. Qed.
#[export] Hint Resolve minds_licensing : minds.
Lemma minds_license v : minds v (rd_license v) (of_place v PLicense) PLicense.
Proof. mind_reader rd_license. Qed.
Lemma minds_expression v : minds v rd_expression ["bom-ref"] PWords.
Proof. mind_reader rd_expression. Qed.
#[export] Hint Resolve minds_license minds_expression : minds.
Lemma minds_license_list v : minds v (rd_license_list v) (of_place v PLicenses) PLicenses.
Proof. mind_reader rd_license_list. Qed.
Lemma minds_action v : minds v rd_action (of_place v PAction) PAction.
Proof. mind_reader rd_action. Qed.
Lemma minds_diff v : minds v rd_diff (of_place v PDiff) PDiff.
Proof. mind_reader rd_diff. Qed.
Lemma minds_source v : minds v rd_source (of_place v PSource) PSource.
Proof. mind_reader rd_source. Qed.
#[export] Hint Resolve minds_license_list minds_action minds_diff minds_source : minds.
Lemma minds_commit v : minds v rd_commit (of_place v PCommit) PCommit.
Proof. mind_reader rd_commit. Qed.
Lemma minds_issue v : minds v rd_issue (of_place v PIssue) PIssue.
Proof. mind_reader rd_issue. Qed.
#[export] Hint Resolve minds_commit minds_issue : minds.
Lemma minds_patch v : minds v rd_patch (of_place v PPatch) PPatch.
Proof. mind_reader rd_patch. Qed.
#[export] Hint Resolve minds_patch : minds.
Lemma minds_pedigree v {C} (rc : desc C) : minds v rc (of_place v PComponent) PComponent -> minds v (rd_pedigree rc) (of_place v PPedigree) PPedigree.
Proof. intros H. unfold rd_pedigree. destruct v; mind; exact H. Qed.
Lemma minds_responsible_party v : minds v rd_responsible_party (of_place v PParty) PParty.
Proof. mind_reader rd_responsible_party. Qed.
Lemma minds_graphic v : minds v rd_graphic (of_place v PGraphic) PGraphic.
Proof. mind_reader rd_graphic. Qed.
Lemma minds_contents v : minds v rd_contents (of_place v PContents) PContents.
Proof. mind_reader rd_contents. Qed.
#[export] Hint Resolve minds_responsible_party minds_graphic minds_contents : minds.
Lemma minds_governance v : minds v rd_governance (of_place v PGovernance) PGovernance.
Proof. mind_reader rd_governance. Qed.
Lemma minds_graphics v : minds v rd_graphics (of_place v PGraphics) PGraphics.
Proof. mind_reader rd_graphics. Qed.
#[export] Hint Resolve minds_governance minds_graphics : minds.
Lemma minds_component_data v : minds v rd_component_data (of_place v PComponentData) PComponentData.
Proof. mind_reader rd_component_data. Qed.
Lemma minds_approach v : minds v rd_approach (of_place v PApproach) PApproach.
Proof. mind_reader rd_approach. Qed.
Lemma minds_ml_parameter v : minds v rd_ml_parameter (of_place v PParameter) PParameter.
Proof. mind_reader rd_ml_parameter. Qed.
Lemma minds_interval v : minds v rd_interval (of_place v PInterval) PInterval.
Proof. mind_reader rd_interval. Qed.
#[export] Hint Resolve minds_component_data minds_approach minds_ml_parameter minds_interval : minds.
Lemma minds_dataset v : minds v rd_dataset (of_place v PComponentData) PComponentData.
Proof. mind_reader rd_dataset. Qed.
Lemma minds_metric v : minds v rd_metric (of_place v PMetric) PMetric.
Proof. mind_reader rd_metric. Qed.
#[export] Hint Resolve minds_dataset minds_metric : minds.
Lemma minds_model_parameters v : minds v rd_model_parameters (of_place v PModelParameters) PModelParameters.
Proof. mind_reader rd_model_parameters. Qed.
Lemma minds_quantitative v : minds v rd_quantitative (of_place v PAnalysis) PAnalysis.
Proof. mind_reader rd_quantitative. Qed.
#[export] Hint Resolve minds_model_parameters minds_quantitative : minds.
Lemma minds_model_card v : minds v rd_model_card (of_place v PModelCard) PModelCard.
Proof. mind_reader rd_model_card. Qed.
Lemma minds_occurrence v : minds v rd_occurrence (of_place v POccurrence) POccurrence.
Proof. mind_reader rd_occurrence. Qed.
Lemma minds_frame v : minds v rd_frame (of_place v PFrame) PFrame.
Proof. mind_reader rd_frame. Qed.
Lemma minds_method F v : minds v (rd_method F) (of_place v PMethod) PMethod.
Proof. mind_reader rd_method. Qed.
Lemma minds_tool_refs v n : forall l, minds v (rd_tool_refs n) l PToolRefs.
Proof. induction n as [|n IH]; [intros; exact I|]. intros l. cbn [rd_tool_refs]. destruct v; mind; apply IH. Qed.
#[export] Hint Resolve minds_model_card minds_occurrence minds_frame minds_method minds_tool_refs : minds.
Lemma minds_identity F v n : minds v (rd_identity F n) (of_place v PIdentity) PIdentity.
Proof. mind_reader rd_identity. Qed.
#[export] Hint Resolve minds_identity : minds.
Lemma minds_evidence F v n : minds v (rd_evidence F v n) (of_place v PEvidence) PEvidence.
Proof. mind_reader rd_evidence. Qed.
Lemma minds_swid v : minds v rd_swid (of_place v PSwid) PSwid.
Proof. mind_reader rd_swid. Qed.
#[export] Hint Resolve minds_evidence minds_swid : minds.
Lemma minds_component F v n : minds v (rd_component F v n) (of_place v PComponent) PComponent.
Proof.
  induction n as [|n IH]; [exact I|]. cbn [rd_component]. pose proof (minds_pedigree v _ IH) as K.
  destruct v; mind; first [exact IH | exact K].
Qed.
#[export] Hint Resolve minds_component : minds.
Lemma minds_classification v : minds v rd_classification ["flow"] PWords.
Proof. mind_reader rd_classification. Qed.
#[export] Hint Resolve minds_classification : minds.
Lemma minds_service_data v : minds v rd_service_data (of_place v PDataflow) PDataflow.
Proof. mind_reader rd_service_data. Qed.
#[export] Hint Resolve minds_service_data : minds.
Lemma minds_data v : minds v (rd_data v) (of_place v PData) PData.
Proof. mind_reader rd_data. Qed.
#[export] Hint Resolve minds_data : minds.
Lemma minds_service v n : minds v (rd_service v n) (of_place v PService) PService.
Proof. induction n as [|n IH]; [exact I|]. cbn [rd_service]. destruct v; mind; exact IH. Qed.
#[export] Hint Resolve minds_service : minds.
Lemma minds_tool v : minds v (rd_tool v) (of_place v PTool) PTool.
Proof. mind_reader rd_tool. Qed.
#[export] Hint Resolve minds_tool : minds.
Lemma minds_tools F v n : minds v (rd_tools F v n) (of_place v PTools) PTools.
Proof. mind_reader rd_tools. Qed.
Lemma minds_lifecycle v : minds v rd_lifecycle (of_place v PLifecycle) PLifecycle.
Proof. mind_reader rd_lifecycle. Qed.
#[export] Hint Resolve minds_tools minds_lifecycle : minds.
Lemma minds_metadata F v n : minds v (rd_metadata F v n) (of_place v PMetadata) PMetadata.
Proof. mind_reader rd_metadata. Qed.
Lemma minds_dependency v : minds v rd_dependency (of_place v PDependency) PDependency.
Proof. mind_reader rd_dependency. Qed.
Lemma minds_composition v : minds v (rd_composition v) (of_place v PComposition) PComposition.
Proof. mind_reader rd_composition. Qed.
Lemma minds_annotator F v n : minds v (rd_annotator F v n) (of_place v PAnnotator) PAnnotator.
Proof. mind_reader rd_annotator. Qed.
#[export] Hint Resolve minds_metadata minds_dependency minds_composition minds_annotator : minds.
Lemma minds_annotation F v n : minds v (rd_annotation F v n) (of_place v PAnnotation) PAnnotation.
Proof. mind_reader rd_annotation. Qed.
Lemma minds_vuln_source v : minds v rd_vuln_source (of_place v PVSource) PVSource.
Proof. mind_reader rd_vuln_source. Qed.
#[export] Hint Resolve minds_annotation minds_vuln_source : minds.
Lemma minds_vuln_reference v : minds v rd_vuln_reference (of_place v PVReference) PVReference.
Proof. mind_reader rd_vuln_reference. Qed.
Lemma minds_rating F v : minds v (rd_rating F) (of_place v PRating) PRating.
Proof. mind_reader rd_rating. Qed.
Lemma minds_advisory v : minds v rd_advisory (of_place v PAdvisory) PAdvisory.
Proof. mind_reader rd_advisory. Qed.
Lemma minds_credits v : minds v rd_credits (of_place v PCredits) PCredits.
Proof. mind_reader rd_credits. Qed.
Lemma minds_analysis v : minds v (rd_analysis v) (of_place v PVAnalysis) PVAnalysis.
Proof. mind_reader rd_analysis. Qed.
Lemma minds_version_status v : minds v rd_version_status (of_place v PVersion) PVersion.
Proof. mind_reader rd_version_status. Qed.
#[export] Hint Resolve minds_vuln_reference minds_rating minds_advisory minds_credits minds_analysis minds_version_status : minds.
Lemma minds_target v : minds v rd_target (of_place v PTarget) PTarget.
Proof. mind_reader rd_target. Qed.
Lemma minds_poc v : minds v rd_poc (of_place v PProof) PProof.
Proof. mind_reader rd_poc. Qed.
#[export] Hint Resolve minds_target minds_poc : minds.
Lemma minds_vulnerability F v n : minds v (rd_vulnerability F v n) (of_place v PVulnerability) PVulnerability.
Proof. mind_reader rd_vulnerability. Qed.
Lemma minds_resource v : minds v rd_resource (of_place v PResource) PResource.
Proof. mind_reader rd_resource. Qed.
Lemma minds_environment_vars v : minds v rd_environment_vars (of_place v PVariables) PVariables.
Proof. mind_reader rd_environment_vars. Qed.
#[export] Hint Resolve minds_vulnerability minds_resource minds_environment_vars : minds.
Lemma minds_input v : minds v rd_input (of_place v PInput) PInput.
Proof. mind_reader rd_input. Qed.
Lemma minds_output v : minds v rd_output (of_place v POutput) POutput.
Proof. mind_reader rd_output. Qed.
Lemma minds_command v : minds v rd_command (of_place v PCommand) PCommand.
Proof. mind_reader rd_command. Qed.
Lemma minds_volume v : minds v rd_volume (of_place v PVolume) PVolume.
Proof. mind_reader rd_volume. Qed.
Lemma minds_condition v : minds v rd_condition (of_place v PCondition) PCondition.
Proof. mind_reader rd_condition. Qed.
Lemma minds_event v : minds v rd_event (of_place v PEvent) PEvent.
Proof. mind_reader rd_event. Qed.
#[export] Hint Resolve minds_input minds_output minds_command minds_volume minds_condition minds_event : minds.
Lemma minds_step v : minds v rd_step (of_place v PStep) PStep.
Proof. mind_reader rd_step. Qed.
Lemma minds_workspace v : minds v rd_workspace (of_place v PWorkspace) PWorkspace.
Proof. mind_reader rd_workspace. Qed.
Lemma minds_trigger v : minds v rd_trigger (of_place v PTrigger) PTrigger.
Proof. mind_reader rd_trigger. Qed.
#[export] Hint Resolve minds_step minds_workspace minds_trigger : minds.
Lemma minds_task v : minds v rd_task (of_place v PTask) PTask.
Proof. mind_reader rd_task. Qed.
#[export] Hint Resolve minds_task : minds.
Lemma minds_workflow v : minds v rd_workflow (of_place v PWorkflow) PWorkflow.
Proof. mind_reader rd_workflow. Qed.
#[export] Hint Resolve minds_workflow : minds.
Lemma minds_formula F v n : minds v (rd_formula F v n) (of_place v PFormula) PFormula.
Proof. mind_reader rd_formula. Qed.
#[export] Hint Resolve minds_formula : minds.
Lemma minds_bom F v n : minds v (rd_bom F v n) (of_place v PBom) PBom.
Proof. mind_reader rd_bom. Qed.

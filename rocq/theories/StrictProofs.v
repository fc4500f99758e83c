(** Every reader of the library does what StrictSpec says of its place *)
From Verif Require Import Base ModelTypes Strings Enums GenModel Json JsonLemmas JsonModel
  Xml XmlLemmas XmlModel XmlGeneral StrictSpec.
Open Scope string_scope.
Open Scope list_scope.
Open Scope nat_scope.
Open Scope shape_scope.

Definition manner_of (p : policy) : manner :=
  match p with Strict => Refuses | Lax => Skips | Open => Looks end.
Definition prim_manner {A} (p : prim A) : manner := match p with PEnd => Nothing | _ => Words end.
Fixpoint has_arm {S} (sh : shape S) (m : string) : bool :=
  match sh with
  | SNone _ | SChars _ _ => false
  | SOn tag _ _ _ => String.eqb m tag
  | SOr a b => has_arm a m || has_arm b m
  | SPair a b => has_arm a m || has_arm b m
  end.
Lemma has_arm_tr {S} (sh : shape S) m : has_arm sh m = match tr_arm sh m with Some _ => true | None => false end.
Proof.
  induction sh; cbn [has_arm tr_arm]; try reflexivity.
  - now destruct (String.eqb m tag).
  - rewrite IHsh1, IHsh2. now destruct (tr_arm sh1 m).
  - rewrite IHsh1, IHsh2. destruct (tr_arm sh1 m); [reflexivity|]. now destruct (tr_arm sh2 m).
Qed.

Lemma odd_absorb_app {S} arm (l1 l2 : list xml) : forall (st : S),
  odd_absorb arm (l1 ++ l2) st = tbind (odd_absorb arm l1 st) (odd_absorb arm l2).
Proof.
  induction l1 as [|x l IH]; intros st; [reflexivity|]. cbn [app odd_absorb].
  destruct x as [m ats ks| | |]; try reflexivity. destruct (arm m) as [r|]; [|reflexivity].
  destruct (r ats ks) as [u| |]; cbn [tbind]; try reflexivity. destruct (u st); cbn [of_opt tbind]; [apply IH|reflexivity].
Qed.
(** the reader [d] keeps to the place [q] *)
Fixpoint obeys (v : spec_version) {A} (d : desc A) (q : place) {struct d} : Prop :=
  match d with
  | DPrim p => fst (content v q) = prim_manner p /\ snd (content v q) = []
  | DMap _ d => obeys v d q
  | DLoop p sh =>
      fst (content v q) = manner_of p /\ (q <> PAttachment -> on_chars sh = None) /\
      forallb (has_arm sh) (map fst (snd (content v q))) = true /\ sobeys v sh q
  | DOdd sh _ _ =>
      fst (content v q) = Signed /\ forallb (has_arm sh) (map fst (snd (content v q))) = true /\ sobeys v sh q
  | DFuel => True
  end
with sobeys (v : spec_version) {S} (sh : shape S) (q : place) {struct sh} : Prop :=
  match sh with
  | SNone _ | SChars _ _ => True
  | SOn tag d _ _ => match within v q tag with Some q' => obeys v d q' | None => False end
  | SOr a b => sobeys v a q /\ sobeys v b q
  | SPair a b => sobeys v a q /\ sobeys v b q
  end.

Section OBEYS.
Context (v : spec_version).
Lemma within_in q n q' : within v q n = Some q' -> In n (map fst (snd (content v q))).
Proof.
  unfold within. induction (snd (content v q)) as [|[m x] l IH]; [discriminate|].
  destruct (String.eqb_spec n m) as [->|]; [now left|]. intros H. right. now apply IH.
Qed.
Lemma sobeys_within {S} (sh : shape S) q m : sobeys v sh q -> has_arm sh m = true -> within v q m <> None.
Proof.
  induction sh; cbn [sobeys has_arm]; try discriminate.
  - intros H E. apply String.eqb_eq in E. subst m. now destruct (within v q tag).
  - intros (H1 & H2) E. apply orb_prop in E as [E|E]; auto.
  - intros (H1 & H2) E. apply orb_prop in E as [E|E]; auto.
Qed.

Definition fails {A} (t : tres A) : Prop := forall a, t <> TOk a.
Lemma fails_bind {A B} (t : tres A) (f : A -> tres B) : fails t -> fails (tbind t f).
Proof. intros H b. destruct t as [a| |]; cbn; try discriminate. now destruct (H a). Qed.
Lemma fails_bind2 {A B} (t : tres A) (f : A -> tres B) : (forall a, fails (f a)) -> fails (tbind t f).
Proof. intros H b. destruct t as [a| |]; cbn; try discriminate. apply H. Qed.
Lemma fails_absorb {S} p arm chars n before x after (st : S) :
  (forall st, fails (absorb1 p arm chars n x st)) -> fails (absorb p arm chars n (before ++ x :: after) st).
Proof.
  intros H. rewrite absorb_app. apply fails_bind2. intros st'. cbn [absorb]. now apply fails_bind.
Qed.
Lemma prim_refuses {A} (p : prim A) before x after q :
  fst (content v q) = prim_manner p -> refused v q x = true -> fails (tr_prim p (before ++ x :: after)).
Proof.
  unfold refused. intros -> R. intros a.
  destruct p; cbn [prim_manner] in R; destruct x; try discriminate R; destruct before as [|[] [|]]; cbn; try discriminate;
    destruct after; discriminate.
Qed.

Theorem obeys_fails {A} (d : desc A) : forall q n ats kids, obeys v d q -> unexpected v q kids -> fails (tr d n ats kids).
Proof.
  induction d using desc_mut with
    (P0 := fun S sh => forall q, sobeys v sh q -> forall m r q' ats kids, tr_arm sh m = Some r -> within v q m = Some q' ->
       unexpected v q' kids -> fails (r ats kids)).
  - intros q n ats kids (H & K) U. cbn [tr]. destruct U as [q before x after R|q before m ats' kids' after q' W U].
    + eapply prim_refuses; eassumption.
    + unfold within in W. rewrite K in W. discriminate.
  - intros q n ats kids H U. cbn [tr]. apply fails_bind. eapply IHd; eassumption.
  - intros q n ats kids (H & C & N & K) U. cbn [tr]. destruct U as [q before x after R|q before m ats' kids' after q' W U].
    + apply fails_absorb. intros st a. unfold refused in R. rewrite H in R. destruct p; cbn [manner_of] in R; [| |discriminate R].
      * rewrite C by (now intros ->). destruct x as [m ats' ks| | |]; cbn [absorb1]; try discriminate.
        destruct (tr_arm sh m) eqn:E; [|discriminate].
        exfalso. apply (sobeys_within sh q m K); [rewrite has_arm_tr, E; reflexivity|]. now destruct (within v q m).
      * rewrite C by (now intros ->). destruct x; cbn [absorb1]; discriminate.
    + apply fails_absorb. intros st. cbn [absorb1].
      assert (E : has_arm sh m = true).
      { rewrite forallb_forall in N. apply N. eapply within_in, W. }
      rewrite has_arm_tr in E. destruct (tr_arm sh m) as [r|] eqn:Er; [|discriminate].
      apply fails_bind. eapply IHd; eassumption.
  - intros q n ats kids (H & N & K) U. cbn [tr]. destruct U as [q before x after R|q before m ats' kids' after q' W U].
    + unfold refused in R. rewrite H in R. discriminate.
    + rewrite odd_absorb_app. apply fails_bind2. intros st. cbn [odd_absorb].
      assert (E : has_arm sh m = true).
      { rewrite forallb_forall in N. apply N. eapply within_in, W. }
      rewrite has_arm_tr in E. destruct (tr_arm sh m) as [r|] eqn:Er; [|discriminate].
      apply fails_bind. eapply IHd; eassumption.
  - intros q n ats kids _ _ a. discriminate.
  - intros q _ m r q' ats kids E. discriminate.
  - intros q H m r q' ats kids. cbn [tr_arm sobeys] in *. destruct (String.eqb_spec m tag) as [->|]; [|discriminate].
    intros [= <-] W U. rewrite W in H. apply fails_bind. eapply IHd; eassumption.
  - intros q _ m r q' ats kids E. discriminate.
  - intros q (H1 & H2) m r q' ats kids. cbn [tr_arm]. destruct (tr_arm a m) eqn:E.
    + intros [= <-]. now apply (IHd q).
    + now apply (IHd0 q).
  - intros q (H1 & H2) m r q' ats kids. cbn [tr_arm]. destruct (tr_arm a m) eqn:E.
    + intros [= <-] W U. apply fails_bind. eapply IHd; eassumption.
    + destruct (tr_arm b m) eqn:E'; [|discriminate]. intros [= <-] W U. apply fails_bind. eapply IHd0; eassumption.
Qed.
End OBEYS.

(** ** The readers *)
Create HintDb obeys discriminated.
Ltac obey1 :=
  match goal with
  | |- _ /\ _ => split
  | |- True => exact I
  | |- ?x = ?y => reflexivity
  | |- _ <> PAttachment -> _ => let H := fresh in intros H; first [reflexivity | now destruct H]
  | |- obeys _ (struct _ _ _) _ => unfold struct
  | |- obeys _ d_string _ => unfold d_string
  | |- obeys _ d_bool _ => unfold d_bool
  | |- obeys _ d_u32 _ => unfold d_u32
  | |- obeys _ (d_score _) _ => unfold d_score
  | |- obeys _ (d_f32 _) _ => unfold d_f32
  | |- sobeys _ rd_hashes _ => unfold rd_hashes
  | |- sobeys _ rd_properties _ => unfold rd_properties
  | |- sobeys _ rd_external_references _ => unfold rd_external_references
  | |- sobeys _ (rd_licenses _) _ => unfold rd_licenses
  | |- sobeys _ rd_license_identifier _ => unfold rd_license_identifier
  | |- sobeys _ rd_resources _ => unfold rd_resources
  | |- sobeys _ (rd_components _ _ _) _ => unfold rd_components
  | |- sobeys _ (rd_services _ _) _ => unfold rd_services
  | |- obeys _ (d_map _ _) _ => unfold d_map
  | |- obeys _ (d_enum _) _ => unfold d_enum
  | |- obeys _ (d_text _) _ => unfold d_text
  | |- obeys _ (list_of _ _ _) _ => unfold list_of
  | |- obeys _ (DMap _ _) _ => cbn [obeys]
  | |- obeys _ (DPrim _) _ => cbn [obeys]
  | |- obeys _ (DLoop _ _) _ => cbn [obeys]
  | |- obeys _ (DOdd _ _ _) _ => cbn [obeys]
  | |- sobeys _ (SPair _ _) _ => cbn [sobeys]
  | |- sobeys _ (SOr _ _) _ => cbn [sobeys]
  | |- sobeys _ (SNone _) _ => exact I
  | |- sobeys _ (SChars _ _) _ => exact I
  | |- sobeys _ (from (since ?a ?b) ?sh) _ => let r := eval vm_compute in (since a b) in change (from (since a b) sh) with (from r sh); cbn [from]
  | |- sobeys _ (one _ _) _ => unfold one
  | |- sobeys _ (many _ _) _ => unfold many
  | |- sobeys _ (many_opt _ _) _ => unfold many_opt
  | |- sobeys _ (single _ _) _ => unfold single
  | |- sobeys _ (one_list _ _ _ _) _ => unfold one_list
  | |- sobeys ?v (SOn ?tag ?d ?i ?u) ?q =>
      let r := eval vm_compute in (within v q tag) in
      match r with Some ?q' => change (obeys v d q') end
  | |- match within ?v ?q ?tag with Some q' => obeys _ ?d q' | None => False end =>
      let r := eval vm_compute in (within v q tag) in
      match r with Some ?q' => change (obeys v d q') end
  | |- _ => solve [auto 2 with obeys nocore]
  end.
Ltac obey := repeat obey1.
Ltac obey_reader r := intros; unfold r; match goal with v : spec_version |- _ => destruct v end; obey.
Lemma obeys_ref v : obeys v rd_ref PPointer.
Proof. obey_reader rd_ref. Qed.
Lemma obeys_attached_text v : obeys v rd_attached_text PWords.
Proof. obey_reader rd_attached_text. Qed.
Lemma obeys_attachment v : obeys v rd_attachment PAttachment.
Proof. obey_reader rd_attachment. Qed.
Lemma obeys_property v : obeys v rd_property PWords.
Proof. obey_reader rd_property. Qed.
Lemma obeys_hash v : obeys v rd_hash PWords.
Proof. obey_reader rd_hash. Qed.
Lemma obeys_contact v : obeys v rd_contact PContact.
Proof. obey_reader rd_contact. Qed.
#[export] Hint Resolve obeys_ref obeys_attached_text obeys_attachment obeys_property obeys_hash obeys_contact : obeys.
Lemma obeys_entity v : obeys v rd_entity PEntity.
Proof. obey_reader rd_entity. Qed.
Lemma obeys_external_reference v : obeys v rd_external_reference PExternalReference.
Proof. obey_reader rd_external_reference. Qed.
Lemma obeys_signer v : obeys v rd_signer PSigner.
Proof. obey_reader rd_signer. Qed.
#[export] Hint Resolve obeys_signer : obeys.
Lemma obeys_signature v : obeys v rd_signature PSignature.
Proof. obey_reader rd_signature. Qed.
#[export] Hint Resolve obeys_entity obeys_external_reference obeys_signature : obeys.
Lemma obeys_license_contact v : obeys v rd_license_contact PLicenseContact.
Proof. obey_reader rd_license_contact. Qed.
#[export] Hint Resolve obeys_license_contact : obeys.
Lemma obeys_licensing v : obeys v rd_licensing PLicensing.
Proof. obey_reader rd_licensing. Qed.
#[export] Hint Resolve obeys_licensing : obeys.
Lemma obeys_license v : obeys v (rd_license v) PLicense.
Proof. obey_reader rd_license. Qed.
Lemma obeys_expression v : obeys v rd_expression PWords.
Proof. obey_reader rd_expression. Qed.
#[export] Hint Resolve obeys_license obeys_expression : obeys.
Lemma obeys_license_list v : obeys v (rd_license_list v) PLicenses.
Proof. obey_reader rd_license_list. Qed.
Lemma obeys_action v : obeys v rd_action PAction.
Proof. obey_reader rd_action. Qed.
Lemma obeys_diff v : obeys v rd_diff PDiff.
Proof. obey_reader rd_diff. Qed.
Lemma obeys_source v : obeys v rd_source PSource.
Proof. obey_reader rd_source. Qed.
#[export] Hint Resolve obeys_license_list obeys_action obeys_diff obeys_source : obeys.
Lemma obeys_commit v : obeys v rd_commit PCommit.
Proof. obey_reader rd_commit. Qed.
Lemma obeys_issue v : obeys v rd_issue PIssue.
Proof. obey_reader rd_issue. Qed.
#[export] Hint Resolve obeys_commit obeys_issue : obeys.
Lemma obeys_patch v : obeys v rd_patch PPatch.
Proof. obey_reader rd_patch. Qed.
#[export] Hint Resolve obeys_patch : obeys.
Lemma obeys_pedigree v {C} (rc : desc C) : obeys v rc PComponent -> obeys v (rd_pedigree rc) PPedigree.
Proof. intros H. unfold rd_pedigree. destruct v; obey; exact H. Qed.
Lemma obeys_responsible_party v : obeys v rd_responsible_party PParty.
Proof. obey_reader rd_responsible_party. Qed.
Lemma obeys_graphic v : obeys v rd_graphic PGraphic.
Proof. obey_reader rd_graphic. Qed.
Lemma obeys_contents v : obeys v rd_contents PContents.
Proof. obey_reader rd_contents. Qed.
#[export] Hint Resolve obeys_responsible_party obeys_graphic obeys_contents : obeys.
Lemma obeys_governance v : obeys v rd_governance PGovernance.
Proof. obey_reader rd_governance. Qed.
Lemma obeys_graphics v : obeys v rd_graphics PGraphics.
Proof. obey_reader rd_graphics. Qed.
#[export] Hint Resolve obeys_governance obeys_graphics : obeys.
Lemma obeys_component_data v : obeys v rd_component_data PComponentData.
Proof. obey_reader rd_component_data. Qed.
Lemma obeys_approach v : obeys v rd_approach PApproach.
Proof. obey_reader rd_approach. Qed.
Lemma obeys_ml_parameter v : obeys v rd_ml_parameter PParameter.
Proof. obey_reader rd_ml_parameter. Qed.
Lemma obeys_interval v : obeys v rd_interval PInterval.
Proof. obey_reader rd_interval. Qed.
#[export] Hint Resolve obeys_component_data obeys_approach obeys_ml_parameter obeys_interval : obeys.
Lemma obeys_dataset v : obeys v rd_dataset PComponentData.
Proof. obey_reader rd_dataset. Qed.
Lemma obeys_metric v : obeys v rd_metric PMetric.
Proof. obey_reader rd_metric. Qed.
#[export] Hint Resolve obeys_dataset obeys_metric : obeys.
Lemma obeys_model_parameters v : obeys v rd_model_parameters PModelParameters.
Proof. obey_reader rd_model_parameters. Qed.
Lemma obeys_quantitative v : obeys v rd_quantitative PAnalysis.
Proof. obey_reader rd_quantitative. Qed.
#[export] Hint Resolve obeys_model_parameters obeys_quantitative : obeys.
Lemma obeys_model_card v : obeys v rd_model_card PModelCard.
Proof. obey_reader rd_model_card. Qed.
Lemma obeys_occurrence v : obeys v rd_occurrence POccurrence.
Proof. obey_reader rd_occurrence. Qed.
Lemma obeys_frame v : obeys v rd_frame PFrame.
Proof. obey_reader rd_frame. Qed.
Lemma obeys_method F v : obeys v (rd_method F) PMethod.
Proof. obey_reader rd_method. Qed.
Lemma obeys_tool_refs v n : obeys v (rd_tool_refs n) PToolRefs.
Proof. induction n as [|n IH]; [exact I|]. cbn [rd_tool_refs]. destruct v; obey; exact IH. Qed.
#[export] Hint Resolve obeys_model_card obeys_occurrence obeys_frame obeys_method obeys_tool_refs : obeys.
Lemma obeys_identity F v n : obeys v (rd_identity F n) PIdentity.
Proof. obey_reader rd_identity. Qed.
#[export] Hint Resolve obeys_identity : obeys.
Lemma obeys_evidence F v n : obeys v (rd_evidence F v n) PEvidence.
Proof. obey_reader rd_evidence. Qed.
Lemma obeys_swid v : obeys v rd_swid PSwid.
Proof. obey_reader rd_swid. Qed.
#[export] Hint Resolve obeys_evidence obeys_swid : obeys.
Lemma obeys_component F v n : obeys v (rd_component F v n) PComponent.
Proof.
  induction n as [|n IH]; [exact I|]. cbn [rd_component]. pose proof (obeys_pedigree v _ IH) as K.
  destruct v; obey; first [exact IH | exact K].
Qed.
#[export] Hint Resolve obeys_component : obeys.
Lemma obeys_classification v : obeys v rd_classification PWords.
Proof. obey_reader rd_classification. Qed.
#[export] Hint Resolve obeys_classification : obeys.
Lemma obeys_service_data v : obeys v rd_service_data PDataflow.
Proof. obey_reader rd_service_data. Qed.
#[export] Hint Resolve obeys_service_data : obeys.
Lemma obeys_data v : obeys v (rd_data v) PData.
Proof. obey_reader rd_data. Qed.
#[export] Hint Resolve obeys_data : obeys.
Lemma obeys_service v n : obeys v (rd_service v n) PService.
Proof. induction n as [|n IH]; [exact I|]. cbn [rd_service]. destruct v; obey; exact IH. Qed.
#[export] Hint Resolve obeys_service : obeys.
Lemma obeys_tool v : obeys v (rd_tool v) PTool.
Proof. obey_reader rd_tool. Qed.
#[export] Hint Resolve obeys_tool : obeys.
Lemma obeys_tools F v n : obeys v (rd_tools F v n) PTools.
Proof. obey_reader rd_tools. Qed.
Lemma obeys_lifecycle v : obeys v rd_lifecycle PLifecycle.
Proof. obey_reader rd_lifecycle. Qed.
#[export] Hint Resolve obeys_tools obeys_lifecycle : obeys.
Lemma obeys_metadata F v n : obeys v (rd_metadata F v n) PMetadata.
Proof. obey_reader rd_metadata. Qed.
Lemma obeys_dependency v : obeys v rd_dependency PDependency.
Proof. obey_reader rd_dependency. Qed.
Lemma obeys_composition v : obeys v (rd_composition v) PComposition.
Proof. obey_reader rd_composition. Qed.
Lemma obeys_annotator F v n : obeys v (rd_annotator F v n) PAnnotator.
Proof. obey_reader rd_annotator. Qed.
#[export] Hint Resolve obeys_metadata obeys_dependency obeys_composition obeys_annotator : obeys.
Lemma obeys_annotation F v n : obeys v (rd_annotation F v n) PAnnotation.
Proof. obey_reader rd_annotation. Qed.
Lemma obeys_vuln_source v : obeys v rd_vuln_source PVSource.
Proof. obey_reader rd_vuln_source. Qed.
#[export] Hint Resolve obeys_annotation obeys_vuln_source : obeys.
Lemma obeys_vuln_reference v : obeys v rd_vuln_reference PVReference.
Proof. obey_reader rd_vuln_reference. Qed.
Lemma obeys_rating F v : obeys v (rd_rating F) PRating.
Proof. obey_reader rd_rating. Qed.
Lemma obeys_advisory v : obeys v rd_advisory PAdvisory.
Proof. obey_reader rd_advisory. Qed.
Lemma obeys_credits v : obeys v rd_credits PCredits.
Proof. obey_reader rd_credits. Qed.
Lemma obeys_analysis v : obeys v (rd_analysis v) PVAnalysis.
Proof. obey_reader rd_analysis. Qed.
Lemma obeys_version_status v : obeys v rd_version_status PVersion.
Proof. obey_reader rd_version_status. Qed.
#[export] Hint Resolve obeys_vuln_reference obeys_rating obeys_advisory obeys_credits obeys_analysis obeys_version_status : obeys.
Lemma obeys_target v : obeys v rd_target PTarget.
Proof. obey_reader rd_target. Qed.
Lemma obeys_poc v : obeys v rd_poc PProof.
Proof. obey_reader rd_poc. Qed.
#[export] Hint Resolve obeys_target obeys_poc : obeys.
Lemma obeys_vulnerability F v n : obeys v (rd_vulnerability F v n) PVulnerability.
Proof. obey_reader rd_vulnerability. Qed.
Lemma obeys_resource v : obeys v rd_resource PResource.
Proof. obey_reader rd_resource. Qed.
Lemma obeys_environment_vars v : obeys v rd_environment_vars PVariables.
Proof. obey_reader rd_environment_vars. Qed.
#[export] Hint Resolve obeys_vulnerability obeys_resource obeys_environment_vars : obeys.
Lemma obeys_input v : obeys v rd_input PInput.
Proof. obey_reader rd_input. Qed.
Lemma obeys_output v : obeys v rd_output POutput.
Proof. obey_reader rd_output. Qed.
Lemma obeys_command v : obeys v rd_command PCommand.
Proof. obey_reader rd_command. Qed.
Lemma obeys_volume v : obeys v rd_volume PVolume.
Proof. obey_reader rd_volume. Qed.
Lemma obeys_condition v : obeys v rd_condition PCondition.
Proof. obey_reader rd_condition. Qed.
Lemma obeys_event v : obeys v rd_event PEvent.
Proof. obey_reader rd_event. Qed.
#[export] Hint Resolve obeys_input obeys_output obeys_command obeys_volume obeys_condition obeys_event : obeys.
Lemma obeys_step v : obeys v rd_step PStep.
Proof. obey_reader rd_step. Qed.
Lemma obeys_workspace v : obeys v rd_workspace PWorkspace.
Proof. obey_reader rd_workspace. Qed.
Lemma obeys_trigger v : obeys v rd_trigger PTrigger.
Proof. obey_reader rd_trigger. Qed.
#[export] Hint Resolve obeys_step obeys_workspace obeys_trigger : obeys.
Lemma obeys_task v : obeys v rd_task PTask.
Proof. obey_reader rd_task. Qed.
#[export] Hint Resolve obeys_task : obeys.
Lemma obeys_workflow v : obeys v rd_workflow PWorkflow.
Proof. obey_reader rd_workflow. Qed.
#[export] Hint Resolve obeys_workflow : obeys.
Lemma obeys_formula F v n : obeys v (rd_formula F v n) PFormula.
Proof. obey_reader rd_formula. Qed.
#[export] Hint Resolve obeys_formula : obeys.
Lemma obeys_bom F v n : obeys v (rd_bom F v n) PBom.
Proof. obey_reader rd_bom. Qed.

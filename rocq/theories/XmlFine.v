(** Every reader of the library is fine in the sense of XmlGeneral.v *)
From Verif Require Import Base ModelTypes Strings Enums GenModel Json JsonLemmas JsonModel
  Xml XmlLemmas XmlModel XmlSpec2 XmlGeneral.
Open Scope string_scope.
Open Scope list_scope.
Open Scope nat_scope.
Open Scope shape_scope.

Lemma sfine_from {S} w c (sh : shape S) o k p : (c = true -> sfine w sh o k p) -> sfine w (from c sh) o k p.
Proof. intros H. destruct c; [now apply H|exact I]. Qed.

(** signatures exist from version 1.4 on *)
Definition odd_ok (v : spec_version) (o : bool) : Prop := since V1_4 v = true -> o = true.
Lemma odd_ok_14 v o : odd_ok v o -> since V1_4 v = true -> o = true.
Proof. auto. Qed.
Lemma odd_ok_15 v o : odd_ok v o -> since V1_5 v = true -> o = true.
Proof. intros H E. apply H. now destruct v. Qed.

Ltac fine_leaf := first [reflexivity | assumption | lia
  | match goal with H : odd_ok ?v ?o |- ?o = true =>
      first [apply (odd_ok_14 v o H); assumption | apply (odd_ok_15 v o H); assumption] end].
(** the children a reader does not look through *)
Definition passed_children (w : bool) (p : list string) : list string :=
  flat_map (fun q => match q with x :: q' => if starts q' p then [x] else [] | [] => [] end) (passed_places w).
Lemma passed_children_in w m p : passed_at w (m :: p) = true -> In m (passed_children w p).
Proof.
  intros H. apply existsb_exists in H. destruct H as (q & Hq & H). unfold passed_children. apply in_flat_map. exists q.
  split; [exact Hq|]. destruct q as [|x q].
  - exfalso. revert Hq. clear. destruct w; cbn; intuition discriminate.
  - cbn [starts] in H. apply andb_prop in H. destruct H as (K & H). apply String.eqb_eq in K. subst x. rewrite H. now left.
Qed.
Ltac passed_leaf :=
  let m := fresh "m" in let H := fresh "H" in
  intros m H; try match type of H with passed_at (?f ?a ?b) _ = _ => destruct (f a b) end;
  apply passed_children_in in H; vm_compute in H;
  repeat (destruct H as [<-|H]; [cbn; discriminate|]); contradiction.
Create HintDb fine discriminated.
#[export] Hint Extern 1 (_ = _) => fine_leaf : fine.
#[export] Hint Extern 1 (_ <= _) => lia : fine.
Definition no_child (w : bool) (p : list string) : Prop := forall m, passed_at w (m :: p) = true -> False.
#[export] Hint Extern 1 (no_child _ _) => unfold no_child; solve [passed_leaf] : fine.
#[export] Hint Extern 1 (odd_ok _ _) => assumption : fine.
Ltac fin :=
  intros;
  repeat first
    [ exact I
    | match goal with
      | |- _ /\ _ => split
      | |- mem _ _ = _ => fine_leaf
      | |- lax_at _ = _ => fine_leaf
      | |- forall m, passed_at _ (m :: _) = true -> _ => first [assumption | passed_leaf]
      | |- sfine _ (from _ _) _ _ _ => apply sfine_from; intro
      end
    | solve [auto 3 with fine nocore]
    | progress cbn [fine sfine struct one many many_opt single list_of one_list d_map d_text d_enum d_string d_bool d_u32
                    d_score d_f32 rd_hashes rd_properties rd_external_references rd_licenses rd_license_identifier
                    rd_resources rd_components rd_services] ].

Section FINE.
Context (F : float_text) (v : spec_version).
Local Ltac go r := intros; unfold r; fin.

Lemma fine_ref o k p : lax_at p = false -> fine (since V1_5 v) rd_ref o k p.
Proof. go rd_ref. Qed.
Lemma fine_attached_text o k p : lax_at p = false -> fine (since V1_5 v) rd_attached_text o k p.
Proof. go rd_attached_text. Qed.
Lemma fine_attachment o k p : lax_at p = false -> mem (name_of p) open_names = true ->
  no_child (since V1_5 v) p -> fine (since V1_5 v) rd_attachment o k p.
Proof. intros H1 H2 H3. unfold rd_attachment. fin. intros m H. now destruct (H3 m H). Qed.
Lemma fine_property o k p : lax_at p = false -> fine (since V1_5 v) rd_property o k p.
Proof. go rd_property. Qed.
Lemma fine_hash o k p : lax_at p = false -> fine (since V1_5 v) rd_hash o k p.
Proof. go rd_hash. Qed.
Lemma fine_contact o k p : fine (since V1_5 v) rd_contact o k p.
Proof. go rd_contact. Qed.
Hint Resolve fine_ref fine_attached_text fine_attachment fine_property fine_hash fine_contact : fine.
Lemma fine_entity o k p : fine (since V1_5 v) rd_entity o k p.
Proof. go rd_entity. Qed.
Lemma fine_external_reference o k p : lax_at p = false -> fine (since V1_5 v) rd_external_reference o k p.
Proof. go rd_external_reference. Qed.
Lemma fine_signer o k p : lax_at p = false -> fine (since V1_5 v) rd_signer o k p.
Proof. go rd_signer. Qed.
Hint Resolve fine_entity fine_external_reference fine_signer : fine.
Lemma fine_signature o k p : o = true -> fine (since V1_5 v) rd_signature o k ("signature" :: p).
Proof.
  intros ->. unfold rd_signature. cbn [fine]. repeat split; try (now fin).
  intros m H. unfold mem in H. apply existsb_exists in H. destruct H as (x & Hx & E).
  apply String.eqb_eq in E. subst x.
  repeat (destruct Hx as [<-|Hx]; [cbn; discriminate|]). contradiction.
Qed.
Hint Resolve fine_signature : fine.
Lemma fine_license_contact o k p : lax_at p = false -> fine (since V1_5 v) rd_license_contact o k p.
Proof. go rd_license_contact. Qed.
Hint Resolve fine_license_contact : fine.
Lemma fine_licensing o k p : lax_at p = false -> fine (since V1_5 v) rd_licensing o k p.
Proof. go rd_licensing. Qed.
Hint Resolve fine_licensing : fine.
Lemma fine_license o k p : fine (since V1_5 v) (rd_license v) o k p.
Proof. go rd_license. Qed.
Lemma fine_expression o k p : lax_at p = false -> fine (since V1_5 v) rd_expression o k p.
Proof. go rd_expression. Qed.
Hint Resolve fine_license fine_expression : fine.
Lemma fine_license_list o k p : lax_at p = false -> fine (since V1_5 v) (rd_license_list v) o k p.
Proof. go rd_license_list. Qed.
Hint Resolve fine_license_list : fine.
Lemma fine_action o k p : fine (since V1_5 v) rd_action o k p.
Proof. go rd_action. Qed.
Hint Resolve fine_action : fine.
Lemma fine_commit o k p : fine (since V1_5 v) rd_commit o k p.
Proof. go rd_commit. Qed.
Lemma fine_diff o k p : fine (since V1_5 v) rd_diff o k p.
Proof. go rd_diff. Qed.
Lemma fine_source o k p : lax_at p = false -> fine (since V1_5 v) rd_source o k p.
Proof. go rd_source. Qed.
Hint Resolve fine_commit fine_diff fine_source : fine.
Lemma fine_issue o k p : fine (since V1_5 v) rd_issue o k ("issue" :: p).
Proof. go rd_issue. Qed.
Hint Resolve fine_issue : fine.
Lemma fine_patch o k p : fine (since V1_5 v) rd_patch o k p.
Proof. go rd_patch. Qed.
Hint Resolve fine_patch : fine.
Lemma fine_pedigree {C} (rc : desc C) o k p :
  (forall q, fine (since V1_5 v) rc o (Nat.pred (Nat.pred k)) ("component" :: q)) -> fine (since V1_5 v) (rd_pedigree rc) o k p.
Proof. intros H. unfold rd_pedigree. fin. Qed.
Lemma fine_responsible_party o k p : lax_at p = false -> fine (since V1_5 v) rd_responsible_party o k p.
Proof. go rd_responsible_party. Qed.
Hint Resolve fine_responsible_party : fine.
Lemma fine_governance o k p : fine (since V1_5 v) rd_governance o k ("governance" :: p).
Proof. go rd_governance. Qed.
Lemma fine_graphic o k p : fine (since V1_5 v) rd_graphic o k ("graphic" :: p).
Proof. go rd_graphic. Qed.
Hint Resolve fine_governance fine_graphic : fine.
Lemma fine_graphics o k p : fine (since V1_5 v) rd_graphics o k ("graphics" :: p).
Proof. go rd_graphics. Qed.
Lemma fine_contents o k p : fine (since V1_5 v) rd_contents o k ("contents" :: p).
Proof. go rd_contents. Qed.
Hint Resolve fine_graphics fine_contents : fine.
Lemma fine_component_data o k p : fine (since V1_5 v) rd_component_data o k ("data" :: "component" :: p).
Proof. go rd_component_data. Qed.
Lemma fine_component_data_set o k p : fine (since V1_5 v) rd_component_data o k ("dataset" :: p).
Proof. go rd_component_data. Qed.
Hint Resolve fine_component_data fine_component_data_set : fine.
Lemma fine_approach o k p : fine (since V1_5 v) rd_approach o k ("approach" :: p).
Proof. go rd_approach. Qed.
Lemma fine_dataset o k p : fine (since V1_5 v) rd_dataset o k ("dataset" :: p).
Proof. go rd_dataset. Qed.
Lemma fine_ml_parameter o k n m p : lax_at (n :: m :: "modelParameters" :: p) = false -> mem n open_names = true ->
  no_child (since V1_5 v) (n :: m :: "modelParameters" :: p) ->
  fine (since V1_5 v) rd_ml_parameter o k (n :: m :: "modelParameters" :: p).
Proof. intros H1 H2 H3. unfold rd_ml_parameter. fin. intros x H. now destruct (H3 x H). Qed.
Hint Resolve fine_approach fine_dataset fine_ml_parameter : fine.
Lemma fine_model_parameters o k p : fine (since V1_5 v) rd_model_parameters o k ("modelParameters" :: p).
Proof. go rd_model_parameters. Qed.
Lemma fine_interval o k p : fine (since V1_5 v) rd_interval o k ("confidenceInterval" :: p).
Proof. go rd_interval. Qed.
Hint Resolve fine_model_parameters fine_interval : fine.
Lemma fine_metric o k p : fine (since V1_5 v) rd_metric o k ("performanceMetric" :: p).
Proof. go rd_metric. Qed.
Hint Resolve fine_metric : fine.
Lemma fine_quantitative o k p : fine (since V1_5 v) rd_quantitative o k ("quantitativeAnalysis" :: p).
Proof. go rd_quantitative. Qed.
Hint Resolve fine_quantitative : fine.
Lemma fine_model_card o k p : fine (since V1_5 v) rd_model_card o k ("modelCard" :: p).
Proof. go rd_model_card. Qed.
Hint Resolve fine_model_card : fine.
Lemma fine_occurrence o k p : lax_at p = false -> fine (since V1_5 v) rd_occurrence o k p.
Proof. go rd_occurrence. Qed.
Lemma fine_frame o k p : fine (since V1_5 v) rd_frame o k ("frame" :: p).
Proof. go rd_frame. Qed.
Lemma fine_method o k p : fine (since V1_5 v) (rd_method F) o k ("method" :: p).
Proof. go rd_method. Qed.
Hint Resolve fine_occurrence fine_frame fine_method : fine.
Lemma fine_tool_refs n : forall o k p, k <= n -> starts ["tools"; "identity"] p = true \/ starts ["tool"; "tool"] p = true \/
    starts ["tool"; "tools"; "identity"] p = true -> fine (since V1_5 v) (rd_tool_refs n) o k p.
Proof.
  assert (E : forall x y, String.eqb x y = true -> x = y) by (intros x y; apply String.eqb_eq).
  induction n as [|n IH]; intros o k p L H; [cbn; lia|].
  cbn [rd_tool_refs fine sfine].
  repeat split.
  - destruct H as [H|[H|H]]; (destruct p as [|a [|b [|c p]]]; try discriminate; cbn [starts] in H;
      repeat (apply andb_prop in H; destruct H as (?H & H)); try discriminate;
      repeat match goal with K : String.eqb _ _ = true |- _ => apply E in K; subst end; reflexivity).
  - apply IH; [lia|]. right. destruct H as [H|[H|H]]; (destruct p as [|a [|b [|c p]]]; try discriminate; cbn [starts] in H |- *;
      repeat (apply andb_prop in H; destruct H as (?H & H)); try discriminate;
      repeat match goal with K : String.eqb _ _ = true |- _ => apply E in K; subst end; cbn; auto).
Qed.
Lemma fine_identity n o k p : k <= n -> fine (since V1_5 v) (rd_identity F n) o k ("identity" :: p).
Proof. intros L. unfold rd_identity. fin. apply fine_tool_refs; [lia|]. now left. Qed.
Hint Resolve fine_identity : fine.
Lemma fine_evidence n o k p : k <= n -> fine (since V1_5 v) (rd_evidence F v n) o k ("evidence" :: p).
Proof. intros L. unfold rd_evidence. fin. Qed.
Hint Resolve fine_evidence : fine.
Lemma fine_swid o k p : fine (since V1_5 v) rd_swid o k p.
Proof. go rd_swid. Qed.
Hint Resolve fine_swid : fine.
Lemma fine_component n : forall o k p, odd_ok v o -> k <= n -> fine (since V1_5 v) (rd_component F v n) o k ("component" :: p).
Proof.
  induction n as [|n IH]; intros o k p Ho L; [cbn; lia|].
  cbn [rd_component]. fin. apply fine_pedigree. auto with fine.
Qed.
Hint Resolve fine_component : fine.
Lemma fine_classification o k p : lax_at p = false -> fine (since V1_5 v) rd_classification o k p.
Proof. go rd_classification. Qed.
Hint Resolve fine_classification : fine.
Lemma fine_service_data o k p : fine (since V1_5 v) rd_service_data o k ("dataflow" :: p).
Proof. go rd_service_data. Qed.
Hint Resolve fine_service_data : fine.
Lemma fine_data o k p : fine (since V1_5 v) (rd_data v) o k ("data" :: "service" :: p).
Proof. go rd_data. Qed.
Hint Resolve fine_data : fine.
Lemma fine_service n : forall o k p, odd_ok v o -> k <= n -> fine (since V1_5 v) (rd_service v n) o k ("service" :: p).
Proof. induction n as [|n IH]; intros o k p Ho L; [cbn; lia|]. cbn [rd_service]. fin. Qed.
Hint Resolve fine_service : fine.
Lemma fine_tool o k p : fine (since V1_5 v) (rd_tool v) o k ("tool" :: p).
Proof. go rd_tool. Qed.
Hint Resolve fine_tool : fine.
Lemma fine_tools n o k p : odd_ok v o -> k <= n -> fine (since V1_5 v) (rd_tools F v n) o k ("tools" :: p).
Proof. go rd_tools. Qed.
Hint Resolve fine_tools : fine.
Lemma fine_lifecycle o k p : lax_at p = false -> fine (since V1_5 v) rd_lifecycle o k p.
Proof. go rd_lifecycle. Qed.
Hint Resolve fine_lifecycle : fine.
Lemma fine_metadata n o k p : odd_ok v o -> k <= n -> fine (since V1_5 v) (rd_metadata F v n) o k ("metadata" :: p).
Proof. go rd_metadata. Qed.
Lemma fine_dependency o k p : lax_at p = false -> fine (since V1_5 v) rd_dependency o k ("dependency" :: p).
Proof. go rd_dependency. Qed.
Lemma fine_composition o k p : odd_ok v o -> fine (since V1_5 v) (rd_composition v) o k ("composition" :: p).
Proof. go rd_composition. Qed.
Lemma fine_annotator n o k p : odd_ok v o -> k <= n -> fine (since V1_5 v) (rd_annotator F v n) o k ("annotator" :: p).
Proof. go rd_annotator. Qed.
Hint Resolve fine_metadata fine_dependency fine_composition fine_annotator : fine.
Lemma fine_annotation n o k p : odd_ok v o -> o = true -> k <= n -> fine (since V1_5 v) (rd_annotation F v n) o k ("annotation" :: p).
Proof. go rd_annotation. Qed.
Lemma fine_vuln_source o k p : fine (since V1_5 v) rd_vuln_source o k p.
Proof. go rd_vuln_source. Qed.
Hint Resolve fine_annotation fine_vuln_source : fine.
Lemma fine_vuln_reference o k p : fine (since V1_5 v) rd_vuln_reference o k p.
Proof. go rd_vuln_reference. Qed.
Lemma fine_rating o k p : fine (since V1_5 v) (rd_rating F) o k p.
Proof. go rd_rating. Qed.
Lemma fine_advisory o k p : fine (since V1_5 v) rd_advisory o k p.
Proof. go rd_advisory. Qed.
Lemma fine_credits o k p : fine (since V1_5 v) rd_credits o k p.
Proof. go rd_credits. Qed.
Lemma fine_analysis o k p : fine (since V1_5 v) (rd_analysis v) o k p.
Proof. go rd_analysis. Qed.
Lemma fine_version_status o k p : fine (since V1_5 v) rd_version_status o k ("version" :: p).
Proof. go rd_version_status. Qed.
Hint Resolve fine_vuln_reference fine_rating fine_advisory fine_credits fine_analysis fine_version_status : fine.
Lemma fine_target o k p : fine (since V1_5 v) rd_target o k p.
Proof. go rd_target. Qed.
Lemma fine_poc o k p : fine (since V1_5 v) rd_poc o k ("proofOfConcept" :: p).
Proof. go rd_poc. Qed.
Hint Resolve fine_target fine_poc : fine.
Lemma fine_vulnerability n o k p : odd_ok v o -> k <= n -> fine (since V1_5 v) (rd_vulnerability F v n) o k ("vulnerability" :: p).
Proof. go rd_vulnerability. Qed.
Lemma fine_resource o k p : lax_at p = false -> fine (since V1_5 v) rd_resource o k p.
Proof. go rd_resource. Qed.
Lemma fine_environment_vars o k p : fine (since V1_5 v) rd_environment_vars o k p.
Proof. go rd_environment_vars. Qed.
Hint Resolve fine_vulnerability fine_resource fine_environment_vars : fine.
Lemma fine_input o k p : fine (since V1_5 v) rd_input o k ("input" :: p).
Proof. go rd_input. Qed.
Lemma fine_output o k p : fine (since V1_5 v) rd_output o k ("output" :: p).
Proof. go rd_output. Qed.
Lemma fine_command o k p : lax_at p = false -> fine (since V1_5 v) rd_command o k p.
Proof. go rd_command. Qed.
Hint Resolve fine_input fine_output fine_command : fine.
Lemma fine_step o k p : fine (since V1_5 v) rd_step o k p.
Proof. go rd_step. Qed.
Lemma fine_volume o k p : fine (since V1_5 v) rd_volume o k p.
Proof. go rd_volume. Qed.
Hint Resolve fine_step fine_volume : fine.
Lemma fine_workspace o k p : fine (since V1_5 v) rd_workspace o k p.
Proof. go rd_workspace. Qed.
Lemma fine_condition o k p : lax_at p = false -> fine (since V1_5 v) rd_condition o k p.
Proof. go rd_condition. Qed.
Lemma fine_event o k p : fine (since V1_5 v) rd_event o k ("event" :: p).
Proof. go rd_event. Qed.
Hint Resolve fine_workspace fine_condition fine_event : fine.
Lemma fine_trigger o k p : fine (since V1_5 v) rd_trigger o k p.
Proof. go rd_trigger. Qed.
Hint Resolve fine_trigger : fine.
Lemma fine_task o k p : fine (since V1_5 v) rd_task o k p.
Proof. go rd_task. Qed.
Hint Resolve fine_task : fine.
Lemma fine_workflow o k p : fine (since V1_5 v) rd_workflow o k p.
Proof. go rd_workflow. Qed.
Hint Resolve fine_workflow : fine.
Lemma fine_formula n o k p : odd_ok v o -> k <= n -> fine (since V1_5 v) (rd_formula F v n) o k ("formula" :: p).
Proof. go rd_formula. Qed.
Hint Resolve fine_formula : fine.
Theorem fine_bom n o k : odd_ok v o -> k <= n -> fine (since V1_5 v) (rd_bom F v n) o k ["bom"].
Proof. go rd_bom. Qed.
End FINE.

(** ** The bound on nested readers does not matter *)
Section APPROX.
Context (F : float_text) (v : spec_version).
Lemma approx_trans {A} (a b c : desc A) : approx a b -> approx b c -> approx a c.
Proof.
  intros H K n ats evs N. rewrite <- (H n ats evs N). apply K. rewrite (H n ats evs N). exact N.
Qed.
Ltac apx :=
  repeat first
    [ match goal with
      | |- approx ?a ?a => apply approx_refl
      | |- sapprox ?a ?a => apply sapprox_refl
      | |- approx (struct _ _ _) _ => apply approx_struct
      | |- approx (DMap _ _) _ => apply approx_map
      | |- approx (d_map _ _) _ => apply approx_map
      | |- approx (DLoop _ _) _ => apply approx_loop
      | |- approx (list_of _ _ _) _ => apply approx_loop
      | |- approx DFuel _ => apply approx_fuel
      | |- sapprox (SPair _ _) _ => apply sapprox_pair
      | |- sapprox (SOr _ _) _ => apply sapprox_or
      | |- sapprox (from _ _) _ => apply sapprox_from
      | |- sapprox (SOn _ _ _ _) _ => apply sapprox_on
      | |- sapprox (one _ _) _ => apply sapprox_one
      | |- sapprox (one_list _ _ _ _) _ => apply sapprox_one
      | |- sapprox (many _ _) _ => apply sapprox_many
      end
    | assumption | solve [auto 2 with approx nocore] ].
Create HintDb approx discriminated.

Lemma approx_tool_refs n : approx (rd_tool_refs n) (rd_tool_refs (S n)).
Proof. induction n as [|n IH]; [apply approx_fuel|]. change (approx (rd_tool_refs (S n)) (rd_tool_refs (S (S n)))).
  cbn [rd_tool_refs]. apply approx_loop, sapprox_on, approx_map. exact IH.
Qed.
Hint Resolve approx_tool_refs : approx.
Lemma approx_identity n : approx (rd_identity F n) (rd_identity F (S n)).
Proof. unfold rd_identity. apx. Qed.
Hint Resolve approx_identity : approx.
Lemma approx_evidence n : approx (rd_evidence F v n) (rd_evidence F v (S n)).
Proof. unfold rd_evidence. apx. Qed.
Hint Resolve approx_evidence : approx.
Lemma approx_pedigree {C} (a b : desc C) : approx a b -> approx (rd_pedigree a) (rd_pedigree b).
Proof. intros H. unfold rd_pedigree. apx. Qed.
Hint Resolve approx_pedigree : approx.
Lemma approx_component n : approx (rd_component F v n) (rd_component F v (S n)).
Proof.
  induction n as [|n IH]; [apply approx_fuel|].
  cbn [rd_component]. apply approx_struct.
  change (approx (rd_component F v n) (rd_component F v (S n))) in IH.
  fold (rd_component F v). apx.
Qed.
Hint Resolve approx_component : approx.
Lemma approx_service n : approx (rd_service v n) (rd_service v (S n)).
Proof. induction n as [|n IH]; [apply approx_fuel|]. cbn [rd_service]. apx. Qed.
Hint Resolve approx_service : approx.
Lemma approx_components n : sapprox (rd_components F v n) (rd_components F v (S n)).
Proof. unfold rd_components. apx. Qed.
Lemma approx_services n : sapprox (rd_services v n) (rd_services v (S n)).
Proof. unfold rd_services. apx. Qed.
Hint Resolve approx_components approx_services : approx.
Lemma approx_tools n : approx (rd_tools F v n) (rd_tools F v (S n)).
Proof. unfold rd_tools. apx. Qed.
Lemma approx_annotator n : approx (rd_annotator F v n) (rd_annotator F v (S n)).
Proof. unfold rd_annotator. apx. Qed.
Lemma approx_formula n : approx (rd_formula F v n) (rd_formula F v (S n)).
Proof. unfold rd_formula. apx. Qed.
Hint Resolve approx_tools approx_annotator approx_formula : approx.
Lemma approx_metadata n : approx (rd_metadata F v n) (rd_metadata F v (S n)).
Proof. unfold rd_metadata. apx. Qed.
Lemma approx_annotation n : approx (rd_annotation F v n) (rd_annotation F v (S n)).
Proof. unfold rd_annotation. apx. Qed.
Lemma approx_vulnerability n : approx (rd_vulnerability F v n) (rd_vulnerability F v (S n)).
Proof. unfold rd_vulnerability. apx. Qed.
Hint Resolve approx_metadata approx_annotation approx_vulnerability : approx.
Lemma approx_bom n : approx (rd_bom F v n) (rd_bom F v (S n)).
Proof. unfold rd_bom. apx. Qed.
Theorem rd_bom_fuel n m evs ats : List.length evs < n -> n <= m ->
  run (rd_bom F v m) "bom" ats evs = run (rd_bom F v n) "bom" ats evs.
Proof.
  intros L. induction 1 as [|m H IH]; [reflexivity|]. rewrite <- IH.
  apply approx_bom. rewrite IH.
  apply (fine_fuel (w := since V1_5 v) (rd_bom F v n) true n ["bom"]); [|exact L]. apply fine_bom; [now intros _|lia].
Qed.
End APPROX.

(** ** The reader of signatures
    On an event it has no arm for, it starts a reader for the algorithm and the value that runs to
    the end of the signature, and then goes on.  No well-formed document lets it finish beyond
    its own end tag. *)
Inductive dead : list event -> Prop :=
| dead_nil : dead []
| dead_tree x T : dead T -> dead (flat x ++ T)
| dead_end n T : n <> "signature" -> dead (EEnd n :: T).
Lemma dead_flats l T : dead T -> dead (flats l ++ T).
Proof. intros H. induction l as [|x l IH]; [exact H|]. rewrite flats_cons, <- app_assoc. now constructor. Qed.
Lemma after_flats l T : after_element T -> after_element (flats l ++ T).
Proof. intros H. induction l as [|x l IH]; [exact H|]. rewrite flats_cons, <- app_assoc. now constructor. Qed.
Lemma after_dead T : after_element T -> dead T.
Proof. induction 1; now constructor. Qed.

Definition sig_shape : shape (option signature * (option string * option string)) :=
  SOr (one "signers" (d_map SigSigners (list_of Strict "signer" rd_signer)))
      (one "chain" (d_map SigChain (list_of Strict "chain" rd_signer)))
  ** one "algorithm" d_string ** one "value" d_string.

Definition all_known {S} (sh : shape S) : Prop := forall m r ats ks, tr_arm sh m = Some r -> r ats ks <> TUnk.
Lemma known_none {S} (i : S) : all_known (SNone i).
Proof. discriminate. Qed.
Lemma known_on {A S} tag (d : desc A) (i : S) u : (forall n ats ks, tr d n ats ks <> TUnk) -> all_known (SOn tag d i u).
Proof.
  intros H m r ats ks. cbn [tr_arm]. destruct (String.eqb m tag); [|discriminate]. intros [= <-].
  apply tbind_known; [apply H|discriminate].
Qed.
Lemma known_or {S} (a b : shape S) : all_known a -> all_known b -> all_known (SOr a b).
Proof.
  intros H K m r ats ks. cbn [tr_arm]. destruct (tr_arm a m) eqn:E; [intros [= <-]; eapply H, E|apply K].
Qed.
Lemma known_pair {S T} (a : shape S) (b : shape T) : all_known a -> all_known b -> all_known (SPair a b).
Proof.
  intros H K m r ats ks. cbn [tr_arm]. destruct (tr_arm a m) eqn:E.
  - intros [= <-]. apply tbind_known; [eapply H, E|discriminate].
  - destruct (tr_arm b m) eqn:E'; [|discriminate]. intros [= <-]. apply tbind_known; [eapply K, E'|discriminate].
Qed.
Lemma known_prim {A} (p : prim A) n ats ks : tr (DPrim p) n ats ks <> TUnk.
Proof. cbn [tr]. destruct p, ks as [|[] [|]]; discriminate. Qed.
Lemma known_map {A B} (f : string -> attrs -> A -> option B) d n ats ks :
  tr d n ats ks <> TUnk -> tr (DMap f d) n ats ks <> TUnk.
Proof. intros H. cbn [tr]. apply tbind_known; [exact H|]. intros a. destruct (f n ats a); discriminate. Qed.
Lemma known_strict {S} (sh : shape S) : all_known sh -> forall n ats ks, tr (DLoop Strict sh) n ats ks <> TUnk.
Proof.
  intros H n ats ks. cbn [tr]. generalize (init sh). induction ks as [|x l IH]; intros st; cbn [absorb]; [discriminate|].
  apply tbind_known; [|exact IH].
  destruct x as [m a ks|s|s|]; cbn [absorb1]; try discriminate.
  - destruct (tr_arm sh m) as [r|] eqn:E; [|discriminate]. apply tbind_known; [eapply H, E|].
    intros u. destruct (u st); discriminate.
  - destruct (on_chars sh); discriminate.
Qed.
Lemma known_signer : all_known (one "algorithm" d_string ** one "value" d_string).
Proof. apply known_pair; apply known_on; intros; apply known_prim. Qed.
Lemma known_rd_signer n ats ks : tr rd_signer n ats ks <> TUnk.
Proof. unfold rd_signer, struct. apply known_map, known_strict, known_signer. Qed.
Lemma known_sig : all_known sig_shape.
Proof.
  unfold sig_shape. apply known_pair; [|exact known_signer].
  apply known_or; apply known_on; intros; unfold d_map, list_of; apply known_map, known_strict; apply known_on;
    intros; apply known_rd_signer.
Qed.

Definition never {A} (x : xres A) : Prop := forall a rest, x <> XOk a rest.
Lemma never_xbind {A B} (x : xres A) (f : A -> list event -> xres B) :
  (forall a rest, x = XOk a rest -> never (f a rest)) -> never (xbind x f).
Proof. intros H b rest. destruct x; cbn; try discriminate. now apply H. Qed.
Lemma known_run {A} (d : desc A) n ats ks rest : tr d n ats ks <> TUnk ->
  run d n ats (flats ks ++ EEnd n :: rest) = XErr \/ exists a, run d n ats (flats ks ++ EEnd n :: rest) = XOk a rest.
Proof.
  intros H. pose proof (run_tr d n ats ks rest) as K. destruct (tr d n ats ks); cbn [agree] in K; [right; eauto|now left|congruence].
Qed.
Lemma known_arm {S} (sh : shape S) m r : all_known sh -> run_arm sh m = Some r -> forall ats ks rest,
  r ats (flats ks ++ EEnd m :: rest) = XErr \/ exists u, r ats (flats ks ++ EEnd m :: rest) = XOk u rest.
Proof.
  intros H E ats ks rest.
  assert (L : arm_law sh).
  { clear. induction sh; intros m; cbn [tr_arm run_arm].
    - exact I.
    - destruct (String.eqb m tag); [|exact I]. intros ats ks rest. apply agree_xmap, run_tr.
    - exact I.
    - specialize (IHsh1 m). specialize (IHsh2 m).
      destruct (tr_arm sh1 m), (run_arm sh1 m); try contradiction; [exact IHsh1|exact IHsh2].
    - specialize (IHsh1 m). specialize (IHsh2 m).
      destruct (tr_arm sh1 m), (run_arm sh1 m); try contradiction.
      + intros ats ks rest. apply agree_xmap, IHsh1.
      + destruct (tr_arm sh2 m), (run_arm sh2 m); try contradiction; [|exact I].
        intros ats ks rest. apply agree_xmap, IHsh2. }
  specialize (L m). rewrite E in L. destruct (tr_arm sh m) as [t|] eqn:Et; [|contradiction].
  specialize (L ats ks rest). specialize (H m t ats ks Et).
  destruct (t ats ks); cbn [agree] in L; [right; eauto|now left|congruence].
Qed.
(* a strict loop for the element [signature] *)
Lemma strict_dead {S} (sh : shape S) : all_known sh -> on_chars sh = None -> forall fuel evs st, dead evs ->
  never (loop Strict (run_arm sh) (on_chars sh) "signature" fuel evs st).
Proof.
  intros H Hc. rewrite Hc. induction fuel as [|fuel IH]; intros evs st D a rest; [discriminate|].
  destruct D as [|x T D|n T N]; cbn [loop].
  - discriminate.
  - destruct x as [m ats ks|s|s|]; try discriminate.
    rewrite flat_elem. destruct (run_arm sh m) as [r|] eqn:Er; [|discriminate].
    destruct (known_arm sh m r H Er ats ks T) as [->|(u & ->)]; cbn; [discriminate|].
    destruct (u st); [|discriminate]. now apply IH.
  - destruct (String.eqb_spec n "signature"); [contradiction|discriminate].
Qed.
Lemma signer_dead ats evs : dead evs -> never (run rd_signer "signature" ats evs).
Proof.
  intros D. unfold rd_signer, struct. cbn [run]. apply never_xbind. intros s rest E.
  exfalso. eapply strict_dead; [exact known_signer|reflexivity|exact D|exact E].
Qed.

Section SIGNATURE.
Let upd (s : signer) (st : option signature * (option string * option string)) := (Some (SigSingle s), snd st).
Let odd (evs : list event) := xmap upd (run rd_signer "signature" [] evs).
Let go fuel evs st := odd_loop (run_arm sig_shape) "signature" odd fuel evs st.
Lemma odd_dead evs : dead evs -> never (odd evs).
Proof. intros D. apply never_xbind. intros s rest E. exfalso. eapply signer_dead; eassumption. Qed.
Lemma go_after fuel : forall T st, after_element T -> never (go fuel T st).
Proof.
  unfold go. induction fuel as [|fuel IH]; intros T st D a rest; [discriminate|].
  assert (Q : forall evs, dead evs -> never (xbind (odd evs) (fun u rest' => odd_loop (run_arm sig_shape) "signature" odd fuel rest' (u st)))).
  { intros evs De. apply never_xbind. intros u r E. exfalso. eapply odd_dead; eassumption. }
  destruct D as [|x T D|n T N D]; cbn [odd_loop].
  - apply Q. constructor.
  - destruct x as [m ats ks|s|s|]; cbn [flat app tl]; try (apply Q, after_dead, D).
    change (flat_map flat ks) with (flats ks). rewrite <- app_assoc. cbn [app]. destruct (run_arm sig_shape m) as [r|] eqn:Er.
    + destruct (known_arm sig_shape m r known_sig Er ats ks T) as [->|(u & ->)]; cbn; [discriminate|].
      destruct (u st); [|discriminate]. now apply IH.
    + destruct (String.eqb_spec m "signature") as [->|N].
      * unfold odd at 1, xmap.
        destruct (known_run rd_signer "signature" [] ks T (known_rd_signer _ _ _)) as [->|(s & ->)]; cbn; [discriminate|].
        now apply IH.
      * apply Q. apply dead_flats. now constructor.
  - destruct (String.eqb_spec n "signature"); [contradiction|]. apply Q, after_dead, D.
Qed.
Lemma go_exact T : after_element T -> forall fuel ks st a rest,
  go fuel (flats ks ++ EEnd "signature" :: T) st = XOk a rest -> rest = T.
Proof.
  intros D. unfold go. induction fuel as [|fuel IH]; intros ks st a rest; [discriminate|].
  destruct ks as [|x l].
  - cbn. intros [= _ <-]. reflexivity.
  - rewrite flats_cons, <- app_assoc.
    assert (Q : xbind (odd (flats l ++ EEnd "signature" :: T)) (fun u rest' => odd_loop (run_arm sig_shape) "signature" odd fuel rest' (u st)) = XOk a rest -> rest = T).
    { unfold odd at 1, xmap.
      destruct (known_run rd_signer "signature" [] l T (known_rd_signer _ _ _)) as [->|(s & ->)]; cbn; [discriminate|].
      intros E. exfalso. eapply (go_after fuel T); [exact D|exact E]. }
    destruct x as [m ats ks|s|s|]; cbn [flat app odd_loop tl]; try exact Q.
    change (flat_map flat ks) with (flats ks). rewrite <- app_assoc. cbn [app].
    destruct (run_arm sig_shape m) as [r|] eqn:Er.
    + destruct (known_arm sig_shape m r known_sig Er ats ks (flats l ++ EEnd "signature" :: T)) as [->|(u & ->)]; cbn; [discriminate|].
      destruct (u st); [|discriminate]. apply IH.
    + destruct (String.eqb_spec m "signature") as [->|N].
      * unfold odd at 1, xmap.
        destruct (known_run rd_signer "signature" [] ks (flats l ++ EEnd "signature" :: T) (known_rd_signer _ _ _)) as [->|(s & ->)]; cbn; [discriminate|].
        apply IH.
      * intros E. exfalso. revert E. apply never_xbind. intros u r E. exfalso. eapply odd_dead; [|exact E].
        apply dead_flats. now constructor.
Qed.
End SIGNATURE.
Theorem signature_exact ats ks T a rest : after_element T ->
  run rd_signature "signature" ats (flats ks ++ EEnd "signature" :: T) = XOk a rest -> rest = T.
Proof.
  intros D E. unfold rd_signature in E. cbn [run] in E.
  match type of E with xbind ?x _ = _ => destruct x as [s r| | |] eqn:Ex; try discriminate end. cbn in E.
  apply (go_exact T D) in Ex. subst r.
  match type of E with match ?x with _ => _ end = _ => destruct x; [|discriminate] end. now injection E as _ <-.
Qed.

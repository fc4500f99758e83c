(** The documents that are saved are in the form of the standard: proofs. *)
From Verif Require Import Base ModelTypes Strings Enums GenModel Json JsonLemmas JsonModel JsonSpec JsonProofs
  Xml XmlLemmas XmlModel XmlSpec XmlProofs XmlProofs2 XmlProofs3 XmlFitSpec XmlFitProofs XmlForm XmlWrittenSpec XmlFormProofs2.
Open Scope string_scope.
Open Scope list_scope.
Open Scope nat_scope.

Section WRITE.
Context (F : float_text) (w : spec_version).
Let show := show_f32 F.
Definition std (l : list part) : Prop := Forall part_standard l.
Lemma std_app a b : std (a ++ b) -> std a /\ std b.
Proof. apply Forall_app. Qed.
Lemma std_some {A} (f : A -> list part) o a : std (in_some f o) -> o = Some a -> std (f a).
Proof. intros H ->. exact H. Qed.
Lemma std_all {A} (f : A -> list part) o a : std (in_all f o) -> In a (olist o) -> std (f a).
Proof.
  destruct o as [l|]; [|intros _ []]. cbn [in_all in_some olist]. intros H I. unfold std in *. rewrite Forall_forall in *.
  intros p Hp. apply H. apply in_flat_map. eauto.
Qed.
Lemma std_new l : version_leb V1_5 w = true -> std (new w l) -> std l.
Proof. unfold new. intros ->. auto. Qed.

Lemma app2 {A} (a b c d : list A) : a = b -> c = d -> a ++ c = b ++ d.
Proof. now intros -> ->. Qed.
Lemma elem_eq n a b l m : a = b -> l = m -> Elem n a l = Elem n b m.
Proof. now intros -> ->. Qed.
Lemma opt_form {A} (f g : A -> xml) k o : (forall a, o = Some a -> f a = g (k a)) -> opt f o = perhaps g (option_map k o).
Proof. intros H. destruct o as [a|]; [|reflexivity]. cbn. now rewrite H. Qed.
Lemma opt_same {A} (f g : A -> xml) o : (forall a, o = Some a -> f a = g a) -> opt f o = perhaps g o.
Proof. intros H. destruct o as [a|]; [|reflexivity]. cbn. now rewrite H. Qed.
Lemma list_form {A} n (f g : A -> xml) k o :
  (forall a, In a (olist o) -> f a = g (k a)) -> opt_list n f o = perhaps_group n g (option_map (map k) o).
Proof.
  intros H. apply opt_form. intros l ->. unfold group, list_tag. f_equal. rewrite map_map. apply map_ext_in. exact H.
Qed.
Lemma list_same {A} n (f g : A -> xml) o : (forall a, In a (olist o) -> f a = g a) -> opt_list n f o = perhaps_group n g o.
Proof. intros H. apply opt_same. intros l ->. unfold group, list_tag. f_equal. apply map_ext_in. exact H. Qed.
Lemma keep_only {A} (p q : A -> bool) o : (forall a, p a = q a) -> keep p o = only_if q o.
Proof. intros H. destruct o as [a|]; [|reflexivity]. cbn. now rewrite H. Qed.
Lemma filter_map {A} (f : A -> xml) p q l : (forall a, p a = q a) -> map f (filter p l) = map f (filter q l).
Proof. intros H. now rewrite (filter_ext p q H). Qed.
Lemma contact_eq x : contact_written x = contact_has_data x.
Proof. unfold contact_written, contact_has_data. destruct (ct_name x), (ct_email x), (ct_phone x); reflexivity. Qed.
Lemma entity_eq x : entity_written x = entity_has_data x.
Proof. unfold entity_written, entity_has_data. destruct (oe_name x), (oe_url x), (oe_contact x); reflexivity. Qed.
Lemma diff_eq x : diff_written x = diff_has_data x.
Proof. unfold diff_written, diff_has_data. destruct (df_text x), (df_url x); reflexivity. Qed.
Lemma source_eq x : source_written x = source_has_data x.
Proof. unfold source_written, source_has_data. destruct (so_name x), (so_url x); reflexivity. Qed.

(** the children of an element, one after the other *)
Ltac kids := first [reflexivity | apply app2; [try reflexivity|kids] | idtac].
Ltac elem := apply elem_eq; [try reflexivity|kids].
Ltac tidy := repeat match goal with H : std (_ ++ _) |- _ => apply std_app in H; destruct H end.

Lemma put_entity n x : wr_entity n x = form_entity n (written_entity x).
Proof.
  unfold wr_entity, form_entity. elem. cbn [written_entity oe_contact]. destruct (oe_contact x) as [l|]; [|reflexivity].
  cbn. apply filter_map. exact contact_eq.
Qed.
Lemma in_version_none {A} a v (l : list A) : l = [] -> in_version a v l = [].
Proof. intros ->. unfold in_version. now destruct (version_leb a v). Qed.
Lemma put_license x : wr_license w x = form_license w (written_license x).
Proof.
  unfold wr_license, form_license. elem. rewrite (in_version_none V1_5 w (perhaps form_licensing _)); [|reflexivity].
  now rewrite app_nil_r.
Qed.
Lemma put_license_choice x : wr_license_choice w x = form_license_choice w (written_license_choice x).
Proof. destruct x as [l|r e]; [apply put_license|reflexivity]. Qed.
Lemma put_licenses o : wr_licenses w o = form_licenses w (written_licenses o).
Proof. apply list_form. intros a _. apply put_license_choice. Qed.
Lemma put_issue x : wr_issue x = form_issue (written_issue x).
Proof. unfold wr_issue, form_issue. elem. now rewrite (keep_only _ _ _ source_eq). Qed.
Lemma put_patch x : wr_patch x = form_patch (written_patch x).
Proof.
  unfold wr_patch, form_patch. elem; [now rewrite (keep_only _ _ _ diff_eq)|]. apply list_form. intros a _. apply put_issue.
Qed.
Lemma put_pedigree {C} (f g : C -> xml) k x :
  (forall c, In c (olist (pd_ancestors x)) \/ In c (olist (pd_descendants x)) \/ In c (olist (pd_variants x)) -> f c = g (k c)) ->
  wr_pedigree f x = form_pedigree g (written_pedigree k x).
Proof.
  intros H. unfold wr_pedigree, form_pedigree. elem; apply list_form; intros a I; auto. apply put_patch.
Qed.
Lemma put_party n x : wr_responsible_party n x = form_responsible_party n (written_party x).
Proof. destruct x as [o|c]; [|reflexivity]. unfold wr_responsible_party. now rewrite put_entity. Qed.
Lemma put_governance x : wr_governance "governance" x = form_governance (written_governance x).
Proof. unfold wr_governance, form_governance. elem; apply list_form; intros a _; apply put_party. Qed.
Lemma put_attachment n x : std [PAttachment x] -> wr_attachment n x = form_attachment n x.
Proof.
  intros H. inversion H as [|? ? E _]. cbn in E. unfold wr_attachment, form_attachment. rewrite E. cbn. now rewrite app_nil_r.
Qed.
Lemma put_graphic x : std (in_some (fun a => [PAttachment a]) (g_image x)) -> wr_graphic x = form_graphic x.
Proof. intros H. unfold wr_graphic, form_graphic. elem. apply opt_same. intros a E. apply put_attachment. eapply std_some in H; eauto. Qed.
Lemma put_graphics x : std (parts_graphics x) -> wr_graphics "graphics" x = form_graphics x.
Proof. intros H. unfold wr_graphics, form_graphics. elem. apply list_same. intros a I. apply put_graphic. eapply std_all in H; eauto. Qed.
Lemma put_contents x : std (in_some (fun a => [PAttachment a]) (dc_attachment x)) -> wr_contents x = form_contents x.
Proof. intros H. unfold wr_contents, form_contents. elem. apply opt_same. intros a E. apply put_attachment. eapply std_some in H; eauto. Qed.
Lemma put_component_data n x : std (parts_component_data x) -> wr_component_data n x = form_component_data n (written_component_data x).
Proof.
  intros H. unfold parts_component_data in H. tidy. unfold wr_component_data, form_component_data. elem.
  - apply opt_same. intros a E. apply put_contents. eapply std_some in H; eauto.
  - apply opt_same. intros a E. apply put_graphics. eapply std_some; eauto.
  - apply opt_form. intros a _. apply put_governance.
Qed.
Lemma put_dataset x : std (parts_dataset x) -> wr_dataset x = form_dataset (written_dataset x).
Proof.
  intros H. inversion H as [|? ? E K]. destruct x as [c|s]; [|contradiction E]. apply put_component_data. exact K.
Qed.
Lemma put_model_parameters x : std (in_all parts_dataset (mp_datasets x)) ->
  wr_model_parameters x = form_model_parameters (written_model_parameters x).
Proof.
  intros H. unfold wr_model_parameters, form_model_parameters. elem. apply list_form. intros a I. apply put_dataset.
  eapply std_all; eauto.
Qed.
Lemma put_quantitative x : std (in_some parts_graphics (qa_graphics x)) -> wr_quantitative x = form_quantitative x.
Proof. intros H. unfold wr_quantitative, form_quantitative. elem. apply opt_same. intros a E. apply put_graphics. eapply std_some; eauto. Qed.
Lemma put_model_card x : std (parts_model_card x) -> wr_model_card x = form_model_card (written_model_card x).
Proof.
  intros H. unfold parts_model_card in H. tidy. unfold wr_model_card, form_model_card. elem.
  - apply opt_form. intros a E. apply put_model_parameters. eapply std_some in H; eauto.
  - apply opt_same. intros a E. apply put_quantitative. eapply (std_some (fun q => in_some parts_graphics (qa_graphics q))); eauto.
Qed.
Lemma put_evidence x : wr_evidence w x = form_evidence show w (written_evidence x).
Proof.
  unfold wr_evidence, form_evidence. elem; [apply put_licenses|].
  rewrite !in_version_none by reflexivity. now rewrite !app_nil_r.
Qed.
Lemma written_component_eq x :
  written_component x =
  mkComponent (c_type x) (c_mime_type x) (c_bom_ref x) (option_map written_entity (only_if entity_has_data (c_supplier x)))
    (c_author x) (c_publisher x) (c_group x) (c_name x) (c_version x) (c_description x) (c_scope x) (c_hashes x)
    (written_licenses (c_licenses x)) (c_copyright x) (c_cpe x) (c_purl x) (c_swid x) (c_modified x)
    (option_map (written_pedigree written_component) (c_pedigree x)) (c_external_references x) (c_properties x)
    (option_map (map written_component) (c_components x))
    (option_map written_evidence (only_if evidence_has_data (c_evidence x))) (c_signature x)
    (option_map written_model_card (c_model_card x)) (option_map written_component_data (c_data x)).
Proof. destruct x; reflexivity. Qed.
Lemma when_form {A} a (l m : list A) : (version_leb a w = true -> l = m) -> when (since a w) l = in_version a w m.
Proof. unfold when, since, in_version. destruct (version_leb a w); auto. Qed.
Lemma put_component x : std (parts_component w x) -> wr_component w x = form_component show w (written_component x).
Proof.
  induction x as [x IHc IHp] using component_ind'. rewrite parts_component_eq. intros H. tidy.
  rewrite wr_component_eq, written_component_eq, form_component_eq.
  cbn [c_type c_mime_type c_bom_ref c_supplier c_author c_publisher c_group c_name c_version c_description c_scope c_hashes
       c_licenses c_copyright c_cpe c_purl c_swid c_modified c_pedigree c_external_references c_properties c_components
       c_evidence c_signature c_model_card c_data].
  elem.
  - rewrite (keep_only _ _ _ entity_eq). apply opt_form. intros a _. apply put_entity.
  - apply put_licenses.
  - apply opt_form. intros p E. destruct (IHp p E) as (A & D & V). apply put_pedigree.
    assert (K : std (parts_pedigree (parts_component w) p)) by (eapply std_some; eauto). unfold parts_pedigree in K. tidy.
    intros c [I|[I|I]]; [apply (A _ I)|apply (D _ I)|apply (V _ I)]; (eapply (std_all (parts_component w)); [|exact I]; assumption).
  - apply list_form. intros c I. apply IHc; [exact I|]. exact (std_all _ _ _ H2 I).
  - rewrite (keep_only _ _ _ evidence_written_eq). apply opt_form. intros a _. apply put_evidence.
  - apply when_form. intros L. apply opt_form. intros a E. apply put_model_card. eapply std_some; [eapply std_new; eauto|exact E].
  - apply when_form. intros L. apply opt_form. intros a E. apply put_component_data. eapply std_some; [eapply std_new; eauto|exact E].
Qed.
Lemma put_flow x : std [PFlow x] -> wr_service_data x = form_service_data (written_flow x).
Proof.
  intros H. inversion H as [|? ? E _]. cbn in E. unfold wr_service_data, form_service_data. elem.
  - cbn [written_flow sd_name sd_description]. now rewrite E.
  - apply opt_form. intros a _. apply put_governance.
Qed.
Lemma put_data x : std (parts_data w x) -> wr_data w x = form_data (written_data w x).
Proof.
  destruct x as [l|l]; [|reflexivity]. unfold parts_data, new, wr_data, form_data, written_data, since.
  destruct (version_leb V1_5 w); [|reflexivity]. intros H. f_equal. rewrite map_map. apply map_ext_in. intros a I. apply put_flow.
  unfold std in *. rewrite Forall_forall in H. constructor; [|constructor]. apply H. now apply in_map.
Qed.
Lemma written_service_eq x :
  written_service w x =
  mkService (s_bom_ref x) (option_map written_entity (s_provider x)) (s_group x) (s_name x) (s_version x) (s_description x)
    (s_endpoints x) (s_authenticated x) (s_x_trust_boundary x) (option_map (written_data w) (s_data x))
    (written_licenses (s_licenses x)) (s_external_references x) (s_properties x)
    (option_map (map (written_service w)) (s_services x)) (s_signature x) (s_trust_zone x).
Proof. destruct x; reflexivity. Qed.
Lemma put_service x : std (parts_service w x) -> wr_service w x = form_service w (written_service w x).
Proof.
  induction x as [x IH] using service_ind'. rewrite parts_service_eq. intros H. tidy.
  rewrite wr_service_eq, written_service_eq, form_service_eq.
  cbn [s_bom_ref s_provider s_group s_name s_version s_description s_endpoints s_authenticated s_x_trust_boundary s_data
       s_licenses s_external_references s_properties s_services s_signature s_trust_zone].
  elem.
  - apply opt_form. intros a _. apply put_entity.
  - apply opt_form. intros a E. apply put_data. eapply std_some; eauto.
  - apply put_licenses.
  - apply list_form. intros a I. apply IH; [exact I|]. eapply std_all; eauto.
Qed.
Lemma put_components o : std (in_all (parts_component w) o) ->
  wr_components w o = perhaps_group "components" (form_component show w) (option_map (map written_component) o).
Proof. intros H. apply list_form. intros a I. apply put_component. eapply std_all; eauto. Qed.
Lemma put_services o : std (in_all (parts_service w) o) ->
  wr_services w o = perhaps_group "services" (form_service w) (option_map (map (written_service w)) o).
Proof. intros H. apply list_form. intros a I. apply put_service. eapply std_all; eauto. Qed.
Lemma put_tools x : std (parts_tools w x) -> wr_tools w x = form_tools show w (written_tools w x).
Proof.
  destruct x as [l|s c]; [reflexivity|]. unfold wr_tools, form_tools, written_tools, parts_tools, new, when, since.
  destruct (version_leb V1_5 w); [|reflexivity]. intros H. tidy. f_equal. apply app2; [now apply put_services|now apply put_components].
Qed.
Lemma contacts_form n m o :
  opt_list n (wr_contact m) (option_map (filter contact_written) o)
  = perhaps_group n (form_contact m) (option_map (filter contact_has_data) o).
Proof. destruct o as [l|]; [|reflexivity]. cbn. unfold group, list_tag. now rewrite (filter_ext _ _ contact_eq). Qed.
Lemma put_metadata x : std (parts_metadata w x) -> wr_metadata w x = form_metadata show w (written_metadata w x).
Proof.
  unfold parts_metadata. intros H. tidy. unfold wr_metadata, form_metadata. elem.
  - apply opt_form. intros a E. apply put_tools. eapply std_some in H; eauto.
  - apply contacts_form.
  - apply opt_form. intros a E. apply put_component. eapply std_some; eauto.
  - apply opt_form. intros a _. apply put_entity.
  - apply opt_form. intros a _. apply put_entity.
  - apply put_licenses.
Qed.
Lemma put_credits x : wr_credits x = form_credits (written_credits x).
Proof.
  unfold wr_credits, form_credits. elem; [|apply contacts_form].
  cbn [written_credits vc_organizations]. destruct (vc_organizations x) as [l|]; [|reflexivity]. cbn. unfold group, list_tag.
  rewrite (filter_ext _ _ entity_eq), map_map. do 2 f_equal. apply map_ext. intros a. apply put_entity.
Qed.
Lemma put_vulnerability x : std (parts_vulnerability w x) ->
  wr_vulnerability F w x = form_vulnerability show w (written_vulnerability w x).
Proof.
  unfold parts_vulnerability. intros H. tidy. unfold wr_vulnerability, form_vulnerability. elem.
  - apply opt_form. intros a _. apply put_credits.
  - apply opt_form. intros a E. apply put_tools. eapply std_some in H; eauto.
  - rewrite (in_version_none V1_5 w (perhaps form_poc _)) by reflexivity. now rewrite app_nil_r.
Qed.
Lemma put_resource n x : std [PResource x] -> wr_resource n x = form_resource n x.
Proof. intros H. inversion H as [|? ? E _]. destruct x as [s|e]; [reflexivity|contradiction E]. Qed.
Lemma put_some_resource n o : std (in_some parts_resource o) -> opt (wr_resource n) o = perhaps (form_resource n) o.
Proof. intros H. apply opt_same. intros a E. apply put_resource. exact (std_some _ _ _ H E). Qed.
Lemma put_resources o : std (in_all parts_resource o) -> wr_resources o = form_resources o.
Proof. intros H. apply list_same. intros a I. apply put_resource. exact (std_all _ _ _ H I). Qed.
Lemma put_input x : std (parts_input x) -> wr_input x = form_input x.
Proof.
  unfold parts_input. intros H. tidy. unfold wr_input, form_input. elem; try now apply put_some_resource.
  inversion H as [|? ? _ K]. destruct (in_required x); try reflexivity; f_equal; [now apply put_resource|now apply put_attachment].
Qed.
Lemma put_output x : std (parts_output x) -> wr_output x = form_output x.
Proof.
  unfold parts_output. intros H. tidy. unfold wr_output, form_output. elem; try now apply put_some_resource.
  destruct (ou_required x); try reflexivity; f_equal; [now apply put_resource|now apply put_attachment].
Qed.
Lemma put_workspace x : std (parts_workspace x) -> wr_workspace x = form_workspace x.
Proof. intros H. unfold wr_workspace, form_workspace. elem. now apply put_resources. Qed.
Lemma put_event x : std (parts_event x) -> wr_event x = form_event x.
Proof.
  unfold parts_event. intros H. tidy. unfold wr_event, form_event. elem; try now apply put_some_resource.
  apply opt_same. intros a E. apply put_attachment. eapply std_some in H; eauto.
Qed.
Lemma put_trigger x : std (parts_trigger x) -> wr_trigger x = form_trigger x.
Proof.
  unfold parts_trigger. intros H. tidy. unfold wr_trigger, form_trigger. elem; try now apply put_resources.
  - apply opt_same. intros a E. apply put_event. eapply std_some; eauto.
  - apply list_same. intros a E. apply put_input. eapply std_all; eauto.
  - apply list_same. intros a E. apply put_output. eapply std_all; eauto.
Qed.
Lemma put_workflow x : std (parts_workflow x) -> wr_workflow x = form_workflow x.
Proof.
  unfold parts_workflow. intros H. tidy. unfold wr_workflow, form_workflow. elem; try now apply put_resources.
  - apply list_same. intros a I. assert (K : std [PTask a]) by (eapply (std_all (fun t => [PTask t])); eauto).
    inversion K as [|? ? Z _]. contradiction Z.
  - apply opt_same. intros a E. apply put_trigger. eapply std_some; eauto.
  - apply list_same. intros a E. apply put_input. eapply std_all; eauto.
  - apply list_same. intros a E. apply put_output. eapply std_all; eauto.
  - apply list_same. intros a E. apply put_workspace. eapply std_all; eauto.
Qed.
Lemma put_formula x : std (parts_formula w x) -> wr_formula w x = form_formula show w (written_formula w x).
Proof.
  unfold parts_formula. intros H. tidy. unfold wr_formula, form_formula. elem; [now apply put_components|now apply put_services|].
  apply list_same. intros a I. apply put_workflow. eapply std_all; eauto.
Qed.
Theorem put_bom x : std (parts_bom w x) -> wr_bom F w x = form_bom show w (written_part w x).
Proof.
  unfold parts_bom. intros H. tidy. unfold wr_bom, form_bom. elem.
  - apply opt_form. intros a E. apply put_metadata. eapply std_some in H; eauto.
  - now apply put_components.
  - now apply put_services.
  - apply when_form. intros L. rewrite L in *. apply list_form. intros a I. apply put_vulnerability. eapply std_all; eauto.
  - rewrite (in_version_none V1_4 w (perhaps form_signature _)) by reflexivity.
    rewrite (in_version_none V1_5 w (perhaps_group "annotations" _ _)) by reflexivity. rewrite !app_nil_r.
    apply when_form. intros L. apply list_form. intros a I. apply put_formula. eapply std_all; [eapply std_new; eauto|exact I].
Qed.
End WRITE.

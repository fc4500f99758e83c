(** No validator panics; what the reference checks report. *)
From Verif Require Import Base ModelTypes Strings Base64 Regex Enums ValModel ValSpec ValProofs ValProofs2.
Open Scope string_scope.
Open Scope list_scope.
Open Scope nat_scope.

(** ** Safety *)
Section Safety.
Variable x : parsers.
Lemma attached_text_safe a : safe (validate_attached_text a).
Proof. unfold validate_attached_text. destruct (at_encoding a) as [[|s]|]; run_safe_tac; exact I. Qed.
Hint Resolve attached_text_safe : vsafe.
Lemma attachment_safe a : safe (validate_attachment a).
Proof. unfold validate_attachment. run_safe_tac. Qed.
Hint Resolve attachment_safe : vsafe.
Lemma hash_safe a : safe (validate_hash a).
Proof. unfold validate_hash. run_safe_tac. Qed.
Hint Resolve hash_safe : vsafe.
Lemma hashes_safe a : safe (validate_hashes a).
Proof. unfold validate_hashes. run_safe_tac. Qed.
Hint Resolve hashes_safe : vsafe.
Lemma property_safe a : safe (validate_property a).
Proof. unfold validate_property. run_safe_tac. Qed.
Hint Resolve property_safe : vsafe.
Lemma properties_safe a : safe (validate_properties a).
Proof. unfold validate_properties. run_safe_tac. Qed.
Hint Resolve properties_safe : vsafe.
Lemma contact_safe v a : safe (validate_contact v a).
Proof. unfold validate_contact. run_safe_tac. Qed.
Hint Resolve contact_safe : vsafe.
Lemma entity_safe v a : safe (validate_entity x v a).
Proof. unfold validate_entity. run_safe_tac. Qed.
Hint Resolve entity_safe : vsafe.
Lemma external_reference_safe v a : safe (validate_external_reference x v a).
Proof. unfold validate_external_reference. run_safe_tac. Qed.
Hint Resolve external_reference_safe : vsafe.
Lemma external_references_safe v a : safe (validate_external_references x v a).
Proof. unfold validate_external_references. run_safe_tac. Qed.
Hint Resolve external_references_safe : vsafe.
Lemma signer_safe a : safe (validate_signer a).
Proof. unfold validate_signer. run_safe_tac. Qed.
Hint Resolve signer_safe : vsafe.
Lemma signature_safe a : safe (validate_signature a).
Proof. destruct a; cbn [validate_signature]; first [ solve [auto with vsafe] | run_safe_tac ]. Qed.
Hint Resolve signature_safe : vsafe.
Lemma license_identifier_safe a : safe (validate_license_identifier x a).
Proof. destruct a; cbn [validate_license_identifier]; first [ solve [auto with vsafe] | run_safe_tac ]. Qed.
Hint Resolve license_identifier_safe : vsafe.
Lemma license_contact_safe v a : safe (validate_license_contact x v a).
Proof. destruct a; cbn [validate_license_contact]; first [ solve [auto with vsafe] | run_safe_tac ]. Qed.
Hint Resolve license_contact_safe : vsafe.
Lemma licensing_safe v a : safe (validate_licensing x v a).
Proof. unfold validate_licensing. run_safe_tac. Qed.
Hint Resolve licensing_safe : vsafe.
Lemma license_safe v a : safe (validate_license x v a).
Proof. unfold validate_license. run_safe_tac. Qed.
Hint Resolve license_safe : vsafe.
Lemma license_choice_safe v a : safe (validate_license_choice x v a).
Proof. destruct a; cbn [validate_license_choice]; first [ solve [auto with vsafe] | run_safe_tac ]. Qed.
Hint Resolve license_choice_safe : vsafe.
Lemma licenses_safe v a : safe (validate_licenses x v a).
Proof.
  rewrite licenses_eq.
  assert (H : safe (run [ ("inner", items (validate_license_choice x v) a) ])) by run_safe_tac.
  destruct H as [r ->]. eexists. reflexivity.
Qed.
Hint Resolve licenses_safe : vsafe.
Lemma identifiable_action_safe a : safe (validate_identifiable_action x a).
Proof. unfold validate_identifiable_action. run_safe_tac. Qed.
Hint Resolve identifiable_action_safe : vsafe.
Lemma commit_safe a : safe (validate_commit x a).
Proof. unfold validate_commit. run_safe_tac. Qed.
Hint Resolve commit_safe : vsafe.
Lemma commits_safe a : safe (validate_commits x a).
Proof. unfold validate_commits. run_safe_tac. Qed.
Hint Resolve commits_safe : vsafe.
Lemma diff_safe a : safe (validate_diff x a).
Proof. unfold validate_diff. run_safe_tac. Qed.
Hint Resolve diff_safe : vsafe.
Lemma source_safe a : safe (validate_source x a).
Proof. unfold validate_source. run_safe_tac. Qed.
Hint Resolve source_safe : vsafe.
Lemma issue_safe a : safe (validate_issue x a).
Proof. unfold validate_issue. run_safe_tac. Qed.
Hint Resolve issue_safe : vsafe.
Lemma patch_safe a : safe (validate_patch x a).
Proof. unfold validate_patch. run_safe_tac. Qed.
Hint Resolve patch_safe : vsafe.
Lemma patches_safe a : safe (validate_patches x a).
Proof. unfold validate_patches. run_safe_tac. Qed.
Hint Resolve patches_safe : vsafe.
Lemma party_safe v a : safe (validate_party x v a).
Proof. destruct a; cbn [validate_party]; first [ solve [auto with vsafe] | run_safe_tac ]. Qed.
Hint Resolve party_safe : vsafe.
Lemma governance_safe v a : safe (validate_governance x v a).
Proof. unfold validate_governance. run_safe_tac. Qed.
Hint Resolve governance_safe : vsafe.
Lemma data_contents_safe a : safe (validate_data_contents x a).
Proof. unfold validate_data_contents. run_safe_tac. Qed.
Hint Resolve data_contents_safe : vsafe.
Lemma graphic_safe a : safe (validate_graphic a).
Proof. unfold validate_graphic. run_safe_tac. Qed.
Hint Resolve graphic_safe : vsafe.
Lemma graphics_safe a : safe (validate_graphics a).
Proof. unfold validate_graphics. run_safe_tac. Qed.
Hint Resolve graphics_safe : vsafe.
Lemma component_data_safe v a : safe (validate_component_data x v a).
Proof. unfold validate_component_data. run_safe_tac. Qed.
Hint Resolve component_data_safe : vsafe.
Lemma approach_safe a : safe (validate_approach a).
Proof. unfold validate_approach. run_safe_tac. Qed.
Hint Resolve approach_safe : vsafe.
Lemma dataset_safe v a : safe (validate_dataset x v a).
Proof. destruct a; cbn [validate_dataset]; first [ solve [auto with vsafe] | run_safe_tac ]. Qed.
Hint Resolve dataset_safe : vsafe.
Lemma datasets_safe v a : safe (validate_datasets x v a).
Proof. unfold validate_datasets. run_safe_tac. Qed.
Hint Resolve datasets_safe : vsafe.
Lemma ml_parameters_safe a : safe (validate_ml_parameters a).
Proof. unfold validate_ml_parameters. run_safe_tac. Qed.
Hint Resolve ml_parameters_safe : vsafe.
Lemma model_parameters_safe v a : safe (validate_model_parameters x v a).
Proof. unfold validate_model_parameters. run_safe_tac. Qed.
Hint Resolve model_parameters_safe : vsafe.
Lemma metrics_safe a : safe (validate_metrics a).
Proof. rewrite metrics_pass. eexists; reflexivity. Qed.
Hint Resolve metrics_safe : vsafe.
Lemma quantitative_safe a : safe (validate_quantitative a).
Proof. unfold validate_quantitative. run_safe_tac. Qed.
Hint Resolve quantitative_safe : vsafe.
Lemma considerations_safe a : safe (validate_considerations a).
Proof. unfold validate_considerations. run_safe_tac. Qed.
Hint Resolve considerations_safe : vsafe.
Lemma model_card_safe v a : safe (validate_model_card x v a).
Proof. unfold validate_model_card. run_safe_tac. Qed.
Hint Resolve model_card_safe : vsafe.
Lemma occurrence_safe v a : safe (validate_occurrence v a).
Proof. unfold validate_occurrence. run_safe_tac. Qed.
Hint Resolve occurrence_safe : vsafe.
Lemma occurrences_safe v a : safe (validate_occurrences v a).
Proof. unfold validate_occurrences. run_safe_tac. Qed.
Hint Resolve occurrences_safe : vsafe.
Lemma frame_safe a : safe (validate_frame a).
Proof. unfold validate_frame. run_safe_tac. Qed.
Hint Resolve frame_safe : vsafe.
Lemma callstack_safe a : safe (validate_callstack a).
Proof. unfold validate_callstack. run_safe_tac. Qed.
Hint Resolve callstack_safe : vsafe.
Lemma identity_safe a : safe (validate_identity a).
Proof. unfold validate_identity. run_safe_tac. Qed.
Hint Resolve identity_safe : vsafe.
Lemma copyright_texts_safe a : safe (validate_copyright_texts a).
Proof. unfold validate_copyright_texts. run_safe_tac. Qed.
Hint Resolve copyright_texts_safe : vsafe.
Lemma evidence_safe v a : safe (validate_evidence x v a).
Proof. unfold validate_evidence. run_safe_tac. Qed.
Hint Resolve evidence_safe : vsafe.
Lemma swid_safe a : safe (validate_swid x a).
Proof. unfold validate_swid. run_safe_tac. Qed.
Hint Resolve swid_safe : vsafe.

Lemma safe_nested {A} (f : A -> outcome vresult) o : every_in o (fun a => safe (f a)) ->
  slot_safe (struct_opt (fun l => run [ ("inner", items f l) ]) o).
Proof.
  destruct o as [l|]; cbn [every_in when struct_opt slot_safe]; auto. rewrite every_Forall. intros H.
  apply run_safe; [reflexivity|]. cbn [map snd]. repeat constructor. now apply safe_items_in.
Qed.
Lemma component_safe v c : safe (validate_component x v c).
Proof.
  induction c as [c IHc IHp] using component_deep_ind. destruct c.
  cbn [ModelTypes.c_components ModelTypes.c_pedigree] in IHc, IHp. cbn [validate_component].
  apply run_safe; [reflexivity|].
  cbn [map snd ModelTypes.c_pedigree ModelTypes.c_components]. forall_slots; auto with vsafe.
  - match goal with |- slot_safe (struct_opt _ ?o) => destruct o end; cbn [when struct_opt slot_safe] in *; auto.
    destruct IHp as (? & ? & ?). unfold validate_pedigree_with. apply run_safe; [reflexivity|].
    forall_slots; auto using safe_nested with vsafe.
  - now apply safe_nested.
Qed.
Hint Resolve component_safe : vsafe.
Lemma components_safe v a : safe (validate_components x v a).
Proof. unfold validate_components. run_safe_tac. Qed.
Hint Resolve components_safe : vsafe.
Lemma data_classification_safe a : safe (validate_data_classification a).
Proof. unfold validate_data_classification. run_safe_tac. Qed.
Hint Resolve data_classification_safe : vsafe.
Lemma service_data_safe v a : safe (validate_service_data x v a).
Proof. unfold validate_service_data. run_safe_tac. Qed.
Hint Resolve service_data_safe : vsafe.
Lemma data_safe v a : safe (validate_data x v a).
Proof. destruct a; cbn [validate_data]; first [ solve [auto with vsafe] | run_safe_tac ]. Qed.
Hint Resolve data_safe : vsafe.
Lemma service_safe v s : safe (validate_service x v s).
Proof.
  induction s as [s IH] using service_deep_ind. destruct s. cbn [ModelTypes.s_services] in IH.
  cbn [validate_service]. apply run_safe; [reflexivity|]. cbn [map snd ModelTypes.s_services].
  forall_slots; auto with vsafe. now apply safe_nested.
Qed.
Hint Resolve service_safe : vsafe.
Lemma services_safe v a : safe (validate_services x v a).
Proof. unfold validate_services. run_safe_tac. Qed.
Hint Resolve services_safe : vsafe.
Lemma tool_safe v a : safe (validate_tool x v a).
Proof. unfold validate_tool. run_safe_tac. Qed.
Hint Resolve tool_safe : vsafe.
Lemma tools_safe v t : safe (validate_tools x v t).
Proof.
  destruct t as [l|ss cs]; cbn [validate_tools]; [run_safe_tac|].
  destruct (version_leb v V1_4); [eexists; reflexivity|run_safe_tac].
Qed.
Hint Resolve tools_safe : vsafe.
Lemma metadata_safe v a : safe (validate_metadata x v a).
Proof. unfold validate_metadata. run_safe_tac. Qed.
Hint Resolve metadata_safe : vsafe.
Lemma composition_safe v a : safe (validate_composition v a).
Proof. unfold validate_composition. run_safe_tac. Qed.
Hint Resolve composition_safe : vsafe.
Lemma compositions_safe v a : safe (validate_compositions v a).
Proof. unfold validate_compositions. run_safe_tac. Qed.
Hint Resolve compositions_safe : vsafe.
Lemma annotator_safe v a : safe (validate_annotator x v a).
Proof. destruct a; cbn [validate_annotator]; first [ solve [auto with vsafe] | run_safe_tac ]. Qed.
Hint Resolve annotator_safe : vsafe.
Lemma annotation_safe v a : safe (validate_annotation x v a).
Proof. unfold validate_annotation. run_safe_tac. Qed.
Hint Resolve annotation_safe : vsafe.
Lemma annotations_safe v a : safe (validate_annotations x v a).
Proof. unfold validate_annotations. run_safe_tac. Qed.
Hint Resolve annotations_safe : vsafe.
Lemma vuln_source_safe a : safe (validate_vuln_source x a).
Proof. unfold validate_vuln_source. run_safe_tac. Qed.
Hint Resolve vuln_source_safe : vsafe.
Lemma vuln_reference_safe a : safe (validate_vuln_reference x a).
Proof. unfold validate_vuln_reference. run_safe_tac. Qed.
Hint Resolve vuln_reference_safe : vsafe.
Lemma vuln_references_safe a : safe (validate_vuln_references x a).
Proof. unfold validate_vuln_references. run_safe_tac. Qed.
Hint Resolve vuln_references_safe : vsafe.
Lemma rating_safe v a : safe (validate_rating x v a).
Proof. unfold validate_rating. run_safe_tac. Qed.
Hint Resolve rating_safe : vsafe.
Lemma ratings_safe v a : safe (validate_ratings x v a).
Proof. unfold validate_ratings. run_safe_tac. Qed.
Hint Resolve ratings_safe : vsafe.
Lemma advisory_safe a : safe (validate_advisory x a).
Proof. unfold validate_advisory. run_safe_tac. Qed.
Hint Resolve advisory_safe : vsafe.
Lemma advisories_safe a : safe (validate_advisories x a).
Proof. unfold validate_advisories. run_safe_tac. Qed.
Hint Resolve advisories_safe : vsafe.
Lemma credits_safe v a : safe (validate_credits x v a).
Proof. unfold validate_credits. run_safe_tac. Qed.
Hint Resolve credits_safe : vsafe.
Lemma analysis_safe a : safe (validate_analysis x a).
Proof. unfold validate_analysis. run_safe_tac. Qed.
Hint Resolve analysis_safe : vsafe.
Lemma version_status_safe a : safe (validate_version_status a).
Proof. unfold validate_version_status. run_safe_tac. Qed.
Hint Resolve version_status_safe : vsafe.
Lemma versions_safe a : safe (validate_versions a).
Proof. unfold validate_versions. run_safe_tac. Qed.
Hint Resolve versions_safe : vsafe.
Lemma target_safe a : safe (validate_target a).
Proof. unfold validate_target. run_safe_tac. Qed.
Hint Resolve target_safe : vsafe.
Lemma targets_safe a : safe (validate_targets a).
Proof. unfold validate_targets. run_safe_tac. Qed.
Hint Resolve targets_safe : vsafe.
Lemma vulnerability_safe v a : safe (validate_vulnerability x v a).
Proof. unfold validate_vulnerability. run_safe_tac. Qed.
Hint Resolve vulnerability_safe : vsafe.
Lemma vulnerabilities_safe v a : safe (validate_vulnerabilities x v a).
Proof. unfold validate_vulnerabilities. run_safe_tac. Qed.
Hint Resolve vulnerabilities_safe : vsafe.

Lemma bom_slots_safe v b : safe (run (bom_slots x v b)).
Proof. unfold bom_slots. run_safe_tac. Qed.
End Safety.

(** ** [add_customs] *)
Fixpoint messages (k : string) (l : list (string * string)) : list string :=
  match l with
  | [] => []
  | (k', m) :: l' => if String.eqb k' k then m :: messages k l' else messages k l'
  end.
Lemma messages_app k a b : messages k (a ++ b) = messages k a ++ messages k b.
Proof. induction a as [|[k' m] a IH]; cbn; [reflexivity|]. rewrite IH. destruct (String.eqb k' k); reflexivity. Qed.

Lemma error_update r k e k' : error r k <> None ->
  error (update k e r) k' = if String.eqb k k' then Some e else error r k'.
Proof.
  induction r as [|[k0 e0] r IH]; cbn [error update]; [tauto|].
  destruct (String.eqb_spec k0 k) as [->|N]; intros H.
  - cbn [error]. destruct (String.eqb k k'); reflexivity.
  - cbn [error]. rewrite IH by exact H. destruct (String.eqb_spec k0 k') as [->|]; [|reflexivity].
    destruct (String.eqb_spec k k') as [->|]; [congruence|reflexivity].
Qed.

(** a result in which the entries to be extended are custom ones *)
Definition custom_at (r : vresult) (k : string) : Prop :=
  error r k = None \/ exists l, error r k = Some (ErrCustom l).
Definition customs (r : vresult) (k : string) : list string :=
  match error r k with Some (ErrCustom l) => l | _ => [] end.
Lemma r_add_custom_ok k m r : custom_at r k ->
  exists r', r_add_custom k m r = Done r' /\ error r' k = Some (ErrCustom (customs r k ++ [m]))
             /\ (forall k', k' <> k -> error r' k' = error r k').
Proof.
  intros C. unfold r_add_custom, customs. destruct C as [E|[l E]]; rewrite E.
  - exists (r ++ [(k, ErrCustom [m])]). split; [reflexivity|]. split.
    + rewrite error_app, E, String.eqb_refl. reflexivity.
    + intros k' N. rewrite error_app. destruct (error r k'); [reflexivity|].
      destruct (String.eqb_spec k k'); [congruence|reflexivity].
  - exists (update k (ErrCustom (l ++ [m])) r). split; [reflexivity|].
    assert (H : error r k <> None) by congruence. split.
    + rewrite error_update by exact H. now rewrite String.eqb_refl.
    + intros k' N. rewrite error_update by exact H. destruct (String.eqb_spec k k'); [congruence|reflexivity].
Qed.

Lemma add_customs_ok l : forall r, (forall k, In k (map fst l) -> custom_at r k) ->
  exists r', add_customs l r = Done r'
    /\ (forall k, error r' k = match messages k l with
                               | [] => error r k
                               | ms => Some (ErrCustom (customs r k ++ ms)) end).
Proof.
  induction l as [|[k m] l IH]; intros r C; cbn [add_customs].
  - exists r. split; [reflexivity|]. reflexivity.
  - destruct (r_add_custom_ok k m r) as (r1 & A & E1 & E2); [apply C; left; reflexivity|].
    rewrite A. cbn [bind]. destruct (IH r1) as (r' & B & E').
    { intros k' I. destruct (String.eqb_spec k' k) as [->|N].
      - right. eauto.
      - unfold custom_at. rewrite E2 by exact N. apply C. right. exact I. }
    exists r'. split; [exact B|]. intros k'. rewrite E'. cbn [messages].
    destruct (String.eqb_spec k k') as [<-|N].
    + unfold customs at 1. rewrite E1. destruct (messages k l); [reflexivity|].
      f_equal. f_equal. now rewrite <- app_assoc.
    + unfold customs. rewrite (E2 k') by congruence. reflexivity.
Qed.
Lemma add_customs_nil l r : add_customs l r = Done [] -> l = [] /\ r = [].
Proof.
  assert (U : forall k e r, update k e r <> []) by (intros k e [|[]]; cbn; [|destruct (String.eqb _ _)]; discriminate).
  assert (H : forall l r, r <> [] -> add_customs l r <> Done []).
  { clear r l. intros l. induction l as [|[k m] l IH]; intros r N; cbn [add_customs]; [congruence|].
    unfold r_add_custom. destruct (error r k) as [[]|]; cbn [bind]; try discriminate; apply IH; auto.
    destruct r; discriminate. }
  destruct l as [|[k m] l]; cbn [add_customs].
  - intros E. injection E as ->. auto.
  - intros E. exfalso. revert E. unfold r_add_custom. destruct (error r k) as [[]|]; cbn [bind]; try discriminate.
    + apply H, U.
    + apply H. destruct r; discriminate.
Qed.

(** ** The traversal collecting references *)
Definition repeat_msg (r : string) : string := ("Bom ref """ ++ r ++ """ is not unique")%string.
(** visiting the references of a list one after another *)
Fixpoint visit_all (l : list string) (st : list string * list (string * string)) :=
  match l with [] => st | r :: l' => visit_all l' (visit_ref (Some r) st) end.
Lemma visit_all_app a b st : visit_all (a ++ b) st = visit_all b (visit_all a st).
Proof. revert st. induction a as [|r a IH]; intros st; cbn [app visit_all]; auto. Qed.
Lemma visit_own o st : visit_ref o st = visit_all (own o) st.
Proof. destruct o; reflexivity. Qed.
Lemma fold_visit {A} (f : A -> _ -> _) (g : A -> list string) l :
  every (fun a => forall st, f a st = visit_all (g a) st) l ->
  forall st, fold_left (fun st a => f a st) l st = visit_all (flat_map g l) st.
Proof.
  induction l as [|a l IH]; cbn [every fold_left flat_map]; [reflexivity|].
  intros [Ha Hl] st. rewrite Ha, visit_all_app. apply IH, Hl.
Qed.
Lemma visit_component_eq c : forall st, visit_component c st = visit_all (component_refs c) st.
Proof.
  induction c as [c IH _] using component_deep_ind. intros st. destruct c.
  cbn [visit_component component_refs ModelTypes.c_components ModelTypes.c_bom_ref] in *.
  rewrite visit_all_app, <- visit_own. match goal with |- match ?o with _ => _ end = _ => destruct o end; [|reflexivity].
  apply fold_visit. exact IH.
Qed.
Lemma visit_service_eq s : forall st, visit_service s st = visit_all (service_refs s) st.
Proof.
  induction s as [s IH] using service_deep_ind. intros st. destruct s.
  cbn [visit_service service_refs ModelTypes.s_services ModelTypes.s_bom_ref] in *.
  rewrite visit_all_app, <- visit_own. match goal with |- match ?o with _ => _ end = _ => destruct o end; [|reflexivity].
  apply fold_visit. exact IH.
Qed.
Lemma every_all {A} (P : A -> Prop) l : (forall a, P a) -> every P l.
Proof. intros H. induction l; cbn; auto. Qed.
Lemma visit_bom_eq b : visit_bom b = visit_all (carried b) ([], []).
Proof.
  unfold visit_bom, carried. rewrite !visit_all_app.
  assert (E1 : forall st, on_some (fun m => on_some visit_component (m_component m)) (b_metadata b) st
    = visit_all (match b_metadata b with
                 | Some m => match m_component m with Some c => component_refs c | None => [] end
                 | None => [] end) st).
  { intros st. destruct (b_metadata b) as [m|]; [|reflexivity]. cbn [on_some].
    destruct (m_component m); [apply visit_component_eq|reflexivity]. }
  assert (E2 : forall st, on_some visit_components (b_components b) st
    = visit_all (flat_map component_refs (opt_list (b_components b))) st).
  { intros st. destruct (b_components b); [|reflexivity]. apply fold_visit, every_all, visit_component_eq. }
  assert (E3 : forall st, on_some visit_services (b_services b) st
    = visit_all (flat_map service_refs (opt_list (b_services b))) st).
  { intros st. destruct (b_services b); [|reflexivity]. apply fold_visit, every_all, visit_service_eq. }
  assert (E4 : forall st, on_some visit_vulnerabilities (b_vulnerabilities b) st
    = visit_all (flat_map (fun u => own (v_bom_ref u)) (opt_list (b_vulnerabilities b))) st).
  { intros st. destruct (b_vulnerabilities b); [|reflexivity].
    apply (fold_visit (fun u => visit_ref (v_bom_ref u))), every_all. intros u st'. apply visit_own. }
  rewrite E1, E2, E3, E4. reflexivity.
Qed.

Lemma refs_contain_In seen r : refs_contain seen r = true <-> In r seen.
Proof.
  unfold refs_contain. rewrite existsb_exists. split.
  - intros (y & I & E). apply String.eqb_eq in E. now subst.
  - intros I. exists r. split; [exact I|apply String.eqb_refl].
Qed.
(** the elements equal to an earlier one, in order *)
Fixpoint repeats (seen l : list string) : list string :=
  match l with
  | [] => []
  | r :: l' => if refs_contain seen r then r :: repeats (r :: seen) l' else repeats (r :: seen) l'
  end.
Lemma visit_all_eq l : forall seen msgs, visit_all l (seen, msgs)
  = (rev l ++ seen, msgs ++ map (fun r => ("bom_ref", repeat_msg r)) (repeats seen l)).
Proof.
  induction l as [|r l IH]; intros seen msgs; cbn [visit_all visit_ref repeats rev].
  - now rewrite app_nil_r.
  - rewrite IH. rewrite <- app_assoc. cbn [app]. f_equal.
    destruct (refs_contain seen r); cbn [map]; [|reflexivity]. now rewrite <- app_assoc.
Qed.
Lemma repeats_nil l : forall seen, repeats seen l = [] <-> NoDup l /\ (forall r, In r l -> ~ In r seen).
Proof.
  induction l as [|r l IH]; intros seen; cbn [repeats].
  - split; [intros _; split; [constructor|intros r []]|auto].
  - destruct (refs_contain seen r) eqn:R.
    + apply refs_contain_In in R. split; [discriminate|]. intros [_ H]. exfalso. eapply H; [left; reflexivity|exact R].
    + rewrite IH. apply not_true_iff_false in R. rewrite refs_contain_In in R. split.
      * intros [N H]. split; [constructor; [|exact N]|].
        { intros I. apply (H r I). left. reflexivity. }
        { intros r' [<-|I]; [exact R|]. intros C. apply (H r' I). right. exact C. }
      * intros [N H]. inversion N; subst. split; [assumption|].
        intros r' I [<-|C]; [contradiction|]. apply (H r'); [right; exact I|exact C].
Qed.
Lemma repeats_mono l : forall seen seen', (forall r, In r seen <-> In r seen') -> repeats seen l = repeats seen' l.
Proof.
  induction l as [|r l IH]; intros seen seen' H; cbn [repeats]; [reflexivity|].
  assert (E : refs_contain seen r = refs_contain seen' r).
  { destruct (refs_contain seen r) eqn:A, (refs_contain seen' r) eqn:B; auto.
    - apply refs_contain_In, H, refs_contain_In in A. congruence.
    - apply refs_contain_In, H, refs_contain_In in B. congruence. }
  rewrite E, (IH (r :: seen) (r :: seen')); [reflexivity|].
  intros r'. cbn. rewrite H. tauto.
Qed.

(** ** The whole BOM *)
Lemma refs_contain_rev l seen r : refs_contain (rev l ++ seen) r = refs_contain (l ++ seen) r.
Proof.
  destruct (refs_contain (rev l ++ seen) r) eqn:A, (refs_contain (l ++ seen) r) eqn:B; auto.
  - apply refs_contain_In in A. rewrite in_app_iff, <- in_rev, <- in_app_iff in A. apply refs_contain_In in A. congruence.
  - apply refs_contain_In in B. rewrite in_app_iff, in_rev, <- in_app_iff in B. apply refs_contain_In in B. congruence.
Qed.
Lemma flat_map_ext_in {A B} (f g : A -> list B) l : (forall a, f a = g a) -> flat_map f l = flat_map g l.
Proof. intros H. induction l; cbn; [reflexivity|]. now rewrite H, IHl. Qed.

Lemma dependency_errors_ext s s' l : (forall r, refs_contain s r = refs_contain s' r) ->
  dependency_errors s l = dependency_errors s' l.
Proof.
  intros H. unfold dependency_errors. apply flat_map_ext_in. intros d. rewrite H. f_equal.
  apply flat_map_ext_in. intros r. now rewrite H.
Qed.
Lemma composition_errors_ext s s' l : (forall r, refs_contain s r = refs_contain s' r) ->
  composition_errors s l = composition_errors s' l.
Proof.
  intros H. unfold composition_errors. apply flat_map_ext_in. intros d.
  apply flat_map_ext_in. intros r. now rewrite H.
Qed.

(** all reference findings, over the plain list of carried references *)
Definition reference_findings (b : bom) : list (string * string) :=
  map (fun r => ("bom_ref", repeat_msg r)) (repeats [] (carried b))
  ++ dependency_errors (carried b) (opt_list (b_dependencies b))
  ++ composition_errors (carried b) (opt_list (b_compositions b)).
Lemma validate_bom_eq x v b :
  validate_bom x v b = do r <- run (bom_slots x v b); add_customs (reference_findings b) r.
Proof.
  unfold validate_bom. fold (bom_slots x v b). destruct (run (bom_slots x v b)) as [r| | |]; cbn [bind]; try reflexivity.
  rewrite visit_bom_eq, visit_all_eq. cbn [app]. unfold reference_findings.
  f_equal. f_equal. rewrite app_nil_r.
  assert (H : forall r, refs_contain (rev (carried b)) r = refs_contain (carried b) r).
  { intros k. pose proof (refs_contain_rev (carried b) [] k) as E. now rewrite !app_nil_r in E. }
  now rewrite (dependency_errors_ext _ _ _ H), (composition_errors_ext _ _ _ H).
Qed.
Lemma finding_keys b : Forall (fun k => In k ["bom_ref"; "dependency_ref"; "sub dependency_ref"; "composition ref"])
  (map fst (reference_findings b)).
Proof.
  apply Forall_forall. intros k I. apply in_map_iff in I as ([k' m] & <- & I). cbn [fst].
  unfold reference_findings in I. rewrite !in_app_iff in I. destruct I as [I|[I|I]].
  - apply in_map_iff in I as (r & E & _). injection E as <- _. cbn; tauto.
  - unfold dependency_errors in I. apply in_flat_map in I as (d & _ & I). apply in_app_iff in I as [I|I].
    + destruct (refs_contain _ _); [destruct I|]. destruct I as [E|[]]. injection E as <- _. cbn; tauto.
    + apply in_flat_map in I as (r & _ & I). destruct (refs_contain _ _); [destruct I|].
      destruct I as [E|[]]. injection E as <- _. cbn; tauto.
  - unfold composition_errors in I. apply in_flat_map in I as (d & _ & I). apply in_flat_map in I as (r & _ & I).
    destruct (refs_contain _ _); [destruct I|]. destruct I as [E|[]]. injection E as <- _. cbn; tauto.
Qed.
(** the outcome of validating a BOM, key by key *)
Lemma validate_bom_ok x v b : exists r0 r, run (bom_slots x v b) = Done r0 /\ validate_bom x v b = Done r
  /\ (forall k, error r k = match messages k (reference_findings b) with
                            | [] => error r0 k | ms => Some (ErrCustom ms) end)
  /\ (forall k, In k ["bom_ref"; "dependency_ref"; "sub dependency_ref"; "composition ref"] -> error r0 k = None).
Proof.
  destruct (bom_slots_safe x v b) as [r0 R]. exists r0.
  assert (K : forall k, In k ["bom_ref"; "dependency_ref"; "sub dependency_ref"; "composition ref"] -> error r0 k = None).
  { intros k I. eapply run_keys; [|exact R|]; [reflexivity|]. cbn [map fst bom_slots In] in *. intuition congruence. }
  destruct (add_customs_ok (reference_findings b) r0) as (r & A & E).
  { intros k I. left. apply K. pose proof (finding_keys b) as F. rewrite Forall_forall in F. now apply F. }
  exists r. rewrite validate_bom_eq, R. cbn [bind]. split; [reflexivity|]. split; [exact A|]. split; [|exact K].
  intros k. rewrite E. destruct (messages k (reference_findings b)) eqn:M; [reflexivity|].
  assert (I : In k (map fst (reference_findings b))).
  { clear -M. induction (reference_findings b) as [|[k1 m1] l1 IH]; cbn [messages] in M; [discriminate|].
    destruct (String.eqb_spec k1 k) as [->|]; [left; reflexivity|right; apply IH; exact M]. }
  unfold customs. rewrite K; [reflexivity|]. pose proof (finding_keys b) as F. rewrite Forall_forall in F. now apply F.
Qed.

(** messages per key *)
Lemma messages_map k k0 (f : string -> string) l :
  messages k (map (fun r => (k0, f r)) l) = if String.eqb k0 k then map f l else [].
Proof. induction l as [|r l IH]; cbn [map messages]; [destruct (String.eqb k0 k); reflexivity|]. rewrite IH. destruct (String.eqb k0 k); reflexivity. Qed.
Lemma messages_flat {A} k k0 (f : A -> list string) (m : string -> string) l (g : A -> list (string * string)) :
  (forall a, messages k (g a) = if String.eqb k0 k then map m (f a) else []) ->
  messages k (flat_map g l) = if String.eqb k0 k then map m (flat_map f l) else [].
Proof.
  intros H. induction l as [|a l IH]; cbn [flat_map]; [cbn; destruct (String.eqb k0 k); reflexivity|].
  rewrite messages_app, H, IH. destruct (String.eqb k0 k); [now rewrite map_app|reflexivity].
Qed.
(** the references not carried by anything in the BOM, in order *)
Definition dangling (b : bom) (l : list string) : list string :=
  filter (fun r => negb (refs_contain (carried b) r)) l.
Lemma dangling_flat b {A} (f : A -> list string) l :
  dangling b (flat_map f l) = flat_map (fun a => dangling b (f a)) l.
Proof. unfold dangling. induction l as [|a l IH]; cbn; [reflexivity|]. now rewrite filter_app, IH. Qed.
Lemma dangling_one b (k m : string) r :
  (if refs_contain (carried b) r then [] else [(k, m)]) = map (fun _ => (k, m)) (dangling b [r]).
Proof. unfold dangling. cbn. destruct (refs_contain (carried b) r); reflexivity. Qed.

Lemma composition_messages k b l :
  messages k (composition_errors (carried b) l)
  = if String.eqb "composition ref" k
    then map composition_msg (dangling b (flat_map (fun c => opt_list (co_assemblies c) ++ opt_list (co_dependencies c)) l))
    else [].
Proof.
  rewrite dangling_flat. unfold composition_errors. apply messages_flat. intros c.
  replace (dangling b (opt_list (co_assemblies c) ++ opt_list (co_dependencies c)))
    with (flat_map (fun r => dangling b [r]) (opt_list (co_assemblies c) ++ opt_list (co_dependencies c))).
  - apply messages_flat. intros r. unfold dangling. cbn [filter]. destruct (refs_contain (carried b) r); cbn [negb map messages].
    + destruct (String.eqb _ k); reflexivity.
    + destruct (String.eqb _ k); reflexivity.
  - induction (opt_list (co_assemblies c) ++ opt_list (co_dependencies c)) as [|r l' IH]; [reflexivity|].
    cbn [flat_map]. rewrite IH. unfold dangling. cbn [filter]. destruct (negb _); reflexivity.
Qed.
Lemma flat_map_single b l : flat_map (fun r => dangling b [r]) l = dangling b l.
Proof.
  induction l as [|r l' IH]; [reflexivity|].
  cbn [flat_map]. rewrite IH. unfold dangling. cbn [filter]. destruct (negb _); reflexivity.
Qed.
Lemma dependency_messages k b l :
  k <> "sub dependency_ref" ->
  messages k (dependency_errors (carried b) l)
  = if String.eqb "dependency_ref" k then map dependency_msg (dangling b (map d_ref l)) else [].
Proof.
  intros N. replace (map d_ref l) with (flat_map (fun d => [d_ref d]) l) by (induction l; cbn; congruence).
  rewrite dangling_flat. unfold dependency_errors. apply messages_flat. intros d. rewrite messages_app.
  rewrite (messages_flat k "sub dependency_ref" (fun r => dangling b [r]) dependency_msg).
  - destruct (String.eqb_spec "sub dependency_ref" k); [congruence|]. rewrite app_nil_r.
    unfold dangling. cbn [filter]. destruct (refs_contain (carried b) (d_ref d)); cbn [negb map messages];
      destruct (String.eqb _ k); reflexivity.
  - intros r. unfold dangling. cbn [filter]. destruct (refs_contain (carried b) r); cbn [negb map messages];
      destruct (String.eqb _ k); reflexivity.
Qed.
Lemma sub_dependency_messages b l :
  messages "sub dependency_ref" (dependency_errors (carried b) l)
  = map dependency_msg (dangling b (flat_map d_dependencies l)).
Proof.
  rewrite dangling_flat. unfold dependency_errors.
  apply (messages_flat "sub dependency_ref" "sub dependency_ref"). intros d. rewrite messages_app.
  rewrite (messages_flat "sub dependency_ref" "sub dependency_ref" (fun r => dangling b [r]) dependency_msg).
  - cbn [String.eqb Ascii.eqb Bool.eqb]. rewrite flat_map_single.
    destruct (refs_contain (carried b) (d_ref d)); reflexivity.
  - intros r. unfold dangling. cbn [filter]. destruct (refs_contain (carried b) r); reflexivity.
Qed.

Lemma findings_bom_ref b : messages "bom_ref" (reference_findings b) = map repeat_msg (repeats [] (carried b)).
Proof.
  unfold reference_findings. rewrite !messages_app, messages_map, composition_messages, dependency_messages by discriminate.
  cbn [String.eqb Ascii.eqb Bool.eqb]. now rewrite !app_nil_r.
Qed.
Lemma findings_dep b : messages "dependency_ref" (reference_findings b) = map dependency_msg (dangling b (dep_refs b)).
Proof.
  unfold reference_findings. rewrite !messages_app, messages_map, composition_messages, dependency_messages by discriminate.
  cbn [String.eqb Ascii.eqb Bool.eqb app]. now rewrite !app_nil_r.
Qed.
Lemma findings_sub b : messages "sub dependency_ref" (reference_findings b) = map dependency_msg (dangling b (dep_targets b)).
Proof.
  unfold reference_findings. rewrite !messages_app, messages_map, composition_messages, sub_dependency_messages.
  cbn [String.eqb Ascii.eqb Bool.eqb app]. now rewrite !app_nil_r.
Qed.
Lemma findings_comp b : messages "composition ref" (reference_findings b) = map composition_msg (dangling b (comp_refs b)).
Proof.
  unfold reference_findings. rewrite !messages_app, messages_map, composition_messages, dependency_messages by discriminate.
  reflexivity.
Qed.
Lemma dangling_nil b l : dangling b l = [] <-> forall r, In r l -> In r (carried b).
Proof.
  unfold dangling. induction l as [|r l IH]; cbn [filter].
  - split; [intros _ r []|auto].
  - destruct (refs_contain (carried b) r) eqn:R; cbn [negb].
    + rewrite IH. apply refs_contain_In in R. split; [intros H r' [<-|I]; auto|intros H r' I; apply H; right; exact I].
    + split; [discriminate|]. intros H. apply not_true_iff_false in R. rewrite refs_contain_In in R.
      exfalso. apply R, H. left. reflexivity.
Qed.
Lemma map_nil {A B} (f : A -> B) l : map f l = [] <-> l = [].
Proof. destruct l; split; [auto|auto|discriminate|discriminate]. Qed.
Lemma messages_all_nil l ks : Forall (fun k => In k ks) (map fst l) -> (forall k, In k ks -> messages k l = []) -> l = [].
Proof.
  destruct l as [|[k m] l]; [reflexivity|]. intros F H. exfalso. inversion F; subst. specialize (H k H2).
  cbn in H. rewrite String.eqb_refl in H. discriminate.
Qed.
Lemma findings_nil b : reference_findings b = [] <-> valid_references b.
Proof.
  unfold valid_references. split.
  - intros E. pose proof (findings_bom_ref b) as H1. pose proof (findings_dep b) as H2.
    pose proof (findings_sub b) as H3. pose proof (findings_comp b) as H4. rewrite E in *. cbn [messages] in *.
    symmetry in H1, H2, H3, H4. apply map_nil in H1, H2, H3, H4. rewrite dangling_nil in H2, H3, H4.
    apply repeats_nil in H1 as [N _]. split; [exact N|]. intros r [I|[I|I]]; auto.
  - intros [N H]. apply (messages_all_nil _ _ (finding_keys b)). intros k [<-|[<-|[<-|[<-|[]]]]].
    + rewrite findings_bom_ref. apply map_nil, repeats_nil. split; [exact N|]. intros r _ [].
    + rewrite findings_dep. apply map_nil, dangling_nil. auto.
    + rewrite findings_sub. apply map_nil, dangling_nil. auto.
    + rewrite findings_comp. apply map_nil, dangling_nil. auto.
Qed.
Lemma validate_bom_iff x v b : validate_bom x v b = Done [] <-> valid_bom x v b.
Proof.
  unfold valid_bom. rewrite <- (bom_slots_iff x v b), <- findings_nil, validate_bom_eq. split.
  - intros H. inv_bind H. apply add_customs_nil in H as [-> ->]. auto.
  - intros [-> ->]. reflexivity.
Qed.

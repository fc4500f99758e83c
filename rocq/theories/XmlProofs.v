(** Round trips through XML, type by type: reading what [wr_x] writes gives [kx_x]. *)
From Verif Require Import Base ModelTypes Strings Enums GenModel Json JsonModel Xml XmlLemmas XmlModel XmlSpec XmlRead.
Open Scope string_scope.
Open Scope list_scope.
Open Scope nat_scope.
Open Scope shape_scope.

Create HintDb rt discriminated.
Create HintDb fl discriminated.
Global Hint Constants Opaque : rt.
Global Hint Constants Opaque : fl.

(** ** Tactics *)
Lemma fills_from_to {A} a v (sh : shape (option A)) ts nodes x :
  init sh = None -> fills sh ts nodes (Some x) ->
  fills (from (since a v) sh) ts (when (since a v) nodes) (Some (JsonSpec.from a v x)).
Proof. intros I H. apply (fills_from_t (since a v)) in H. rewrite I in H. exact H. Qed.
Lemma fills_gate {A} a v (sh : shape (option A)) ts nodes r :
  init sh = None -> fills sh ts nodes r ->
  fills (from (since a v) sh) ts (when (since a v) nodes) (gate a v r).
Proof. intros I H. apply (fills_from (since a v)) in H. rewrite I in H. exact H. Qed.

Ltac rt := solve [ intros; eauto 3 with rt ].
Ltac leaf :=
  lazymatch goal with
  | |- fills (from (since _ _) _) _ _ _ =>
      first [ eapply fills_from_to; [reflexivity|leaf] | eapply fills_gate; [reflexivity|leaf] ]
  | |- fills (one_list _ _ _ _) _ _ _ =>
      first [ eapply fills_list_id; rt | eapply fills_list_t; rt | eapply fills_list; rt | solve [ eauto 2 with fl ] ]
  | |- fills (many_opt _ _) _ (items _ _) _ => eapply fills_items; rt
  | |- fills (many _ _) _ _ _ =>
      first [ eapply fills_many_id; rt | eapply fills_many_t; rt | eapply fills_many; rt ]
  | |- fills (one _ _) _ [_] _ => first [ eapply fills_req_t; rt | eapply fills_req; rt ]
  | |- fills (one _ _) _ _ _ =>
      first [ eapply fills_opt_id; rt | eapply fills_opt_t; rt | eapply fills_opt; rt ]
  | |- _ => solve [ eauto 2 with fl ]
  end.
Ltac cover :=
  first [ apply covers_on | apply covers_one | eapply covers_from; cover | eapply covers_or; cover | eapply covers_pair; cover ].
Ltac fields :=
  lazymatch goal with
  | |- fills (SPair _ _) _ (_ ++ _) _ => eapply fills_pair; [leaf|fields|reflexivity]
  | |- fills (SPair _ _) _ _ _ => eapply fills_pair_none; [leaf|cover|reflexivity]
  | |- _ => leaf
  end.
Ltac attrs_distinct :=
  repeat match goal with |- context [attr_opt _ ?o] => destruct o; cbn [attr_opt app] end; reflexivity.
Ltac attr_simp :=
  rewrite ?attr_opt_app, ?attr_opt_only; cbn [attr app String.eqb Ascii.eqb Bool.eqb];
  rewrite ?opt_eta; cbn [bindo].
Ltac peel r := lazymatch r with bindo ?r' _ => peel r' | _ => r end.
Ltac steps :=
  cbn [bindo fst snd];
  repeat (lazymatch goal with
          | |- bindo ?r _ = _ => let h := peel r in destruct h; cbn [bindo fst snd]; [|reflexivity]
          end).
Ltac fin := steps; attr_simp; try reflexivity.
Ltac rec := eapply reads_struct_eq; [fields|attrs_distinct|fin].

(** ** Text and enumerations *)
Global Hint Resolve reads_string reads_cdata reads_ref reads_ptext reads_optional : rt.

Ltac enum := intros; apply reads_enum; match goal with x : _ |- _ => destruct x; reflexivity end.
Lemma rt_scope tag x : reads tag (d_enum scope_of_text) (txt text_scope tag x) (Some (kx_scope x)).
Proof. enum. Qed.
Lemma rt_component_data_type tag x :
  reads tag (d_enum component_data_type_of_text) (txt text_component_data_type tag x) (Some (kx_component_data_type x)).
Proof. enum. Qed.
Lemma rt_phase tag x : reads tag (d_enum phase_of_text) (txt text_phase tag x) (Some (kx_phase x)).
Proof. enum. Qed.
Lemma rt_analysis_state tag x :
  reads tag (d_enum analysis_state_of_text) (txt text_analysis_state tag x) (Some (kx_analysis_state x)).
Proof. enum. Qed.
Lemma rt_analysis_justification tag x :
  reads tag (d_enum analysis_justification_of_text) (txt text_analysis_justification tag x)
    (Some (kx_analysis_justification x)).
Proof. enum. Qed.
Lemma rt_analysis_response tag x :
  reads tag (d_enum analysis_response_of_text) (txt text_analysis_response tag x) (Some (kx_analysis_response x)).
Proof. enum. Qed.
Lemma rt_severity tag x : reads tag (d_enum severity_of_text) (txt text_severity tag x) (Some (kx_severity x)).
Proof. enum. Qed.
Lemma rt_score_method tag x :
  reads tag (d_enum score_method_of_text) (txt text_score_method tag x) (Some (kx_score_method x)).
Proof. enum. Qed.
Lemma rt_approach_type tag x :
  reads tag (d_enum approach_type_of_text) (txt text_approach_type tag x) (Some (kx_approach_type x)).
Proof. enum. Qed.
Lemma rt_task_type tag x : reads tag (d_enum task_type_of_text) (txt text_task_type tag x) (Some (kx_task_type x)).
Proof. enum. Qed.
Lemma rt_output_type tag x :
  reads tag (d_enum output_type_of_text) (txt text_output_type tag x) (Some (kx_output_type x)).
Proof. enum. Qed.
Lemma rt_trigger_type tag x :
  reads tag (d_enum trigger_type_of_text) (txt text_trigger_type tag x) (Some (kx_trigger_type x)).
Proof. enum. Qed.
Lemma rt_access_mode tag x :
  reads tag (d_enum access_mode_of_text) (txt text_access_mode tag x) (Some (kx_access_mode x)).
Proof. enum. Qed.
Lemma rt_volume_mode tag x :
  reads tag (d_enum volume_mode_of_text) (txt text_volume_mode tag x) (Some (kx_volume_mode x)).
Proof. enum. Qed.
Lemma rt_aggregate_type tag x :
  reads tag (d_enum aggregate_type_of_text) (txt text_aggregate_type tag x) (Some (kx_aggregate_type x)).
Proof. enum. Qed.
Global Hint Resolve rt_scope rt_component_data_type rt_phase rt_analysis_state rt_analysis_justification
  rt_analysis_response rt_severity rt_score_method rt_approach_type rt_task_type rt_output_type
  rt_trigger_type rt_access_mode rt_volume_mode rt_aggregate_type : rt.
Lemma rt_bool tag b : reads tag d_bool (txt bool_text tag b) (Some b).
Proof. destruct b; [exists [], [Text "true"]|exists [], [Text "false"]]; split; reflexivity. Qed.
Global Hint Resolve rt_bool : rt.

(** ** Attributes of enumerated types *)
Lemma encoding_back x : encoding_of_text (text_encoding x) = JsonSpec.kept_encoding x.
Proof. destruct x; reflexivity. Qed.
Lemma hash_algorithm_back x : hash_algorithm_of_text (text_hash_algorithm x) = JsonSpec.kept_hash_algorithm x.
Proof. destruct x; reflexivity. Qed.
Lemma ext_ref_type_back x : ext_ref_type_of_text (text_ext_ref_type x) = JsonSpec.kept_ext_ref_type x.
Proof. destruct x; reflexivity. Qed.
Lemma issue_classification_back x :
  issue_classification_of_text (text_issue_classification x) = JsonSpec.kept_issue_classification x.
Proof. destruct x; reflexivity. Qed.
Lemma patch_classification_back x :
  patch_classification_of_text (text_patch_classification x) = JsonSpec.kept_patch_classification x.
Proof. destruct x; reflexivity. Qed.
Lemma classification_back x : classification_of_text (text_classification x) = JsonSpec.kept_classification x.
Proof. destruct x; reflexivity. Qed.
Lemma data_flow_type_back x : data_flow_type_of_text (text_data_flow_type x) = JsonSpec.kept_data_flow_type x.
Proof. destruct x; reflexivity. Qed.
Lemma algorithm_back x : algorithm_of_text (xtrim (text_algorithm x)) = JsonSpec.kept_algorithm x.
Proof. destruct x; reflexivity. Qed.
Lemma uri_back x : uri_of (xtrim (uri_text x)) = kx_uri x.
Proof. destruct x; reflexivity. Qed.

(** ** Building blocks *)
Lemma rt_attached_text tag x : reads tag rd_attached_text (wr_attached_text tag x) (kx_attached_text x).
Proof.
  apply reads_attr_text; [unfold attr_opt; destruct (at_content_type x), (at_encoding x); reflexivity|].
  unfold kx_attached_text. destruct (nonblank (at_content x)); [|reflexivity]. cbn [bindo]. unfold attr_last.
  destruct (at_content_type x), (at_encoding x) as [e|];
    cbn [attr_opt option_map rev app attr String.eqb Ascii.eqb Bool.eqb]; rewrite ?encoding_back; reflexivity.
Qed.
Lemma rt_attachment tag x : reads tag rd_attachment (wr_attachment tag x) (kx_attachment x).
Proof.
  unfold rd_attachment, wr_attachment, kx_attachment. eexists _, _. split; [reflexivity|].
  cbn [struct tr on_chars tr_arm init]. rewrite reparses_text. unfold nonblank.
  destruct (att_encoding x), (att_content_type x); cbn [attr_opt app]; try reflexivity;
    destruct (xtrim (att_content x)); reflexivity.
Qed.
Lemma rt_property x : reads "property" rd_property (wr_property x) (Some (kx_property x)).
Proof. apply reads_attr_simple; reflexivity. Qed.
Lemma rt_hash x : reads "hash" rd_hash (wr_hash x) (Some (kx_hash x)).
Proof. apply reads_attr_simple; [reflexivity|]. attr_simp. rewrite hash_algorithm_back. reflexivity. Qed.
Global Hint Resolve rt_attached_text rt_attachment rt_property rt_hash : rt.
Lemma rt_properties o : fills rd_properties ["properties"] (wr_properties o) (Some (kx_properties o)).
Proof. unfold rd_properties, wr_properties, kx_properties. leaf. Qed.
Lemma rt_hashes o : fills rd_hashes ["hashes"] (wr_hashes o) (Some (option_map (map kx_hash) o)).
Proof. unfold rd_hashes, wr_hashes. leaf. Qed.
Global Hint Resolve rt_properties rt_hashes : fl.

Lemma rt_contact tag x : reads tag rd_contact (wr_contact tag x) (Some (kx_contact x)).
Proof. rec. Qed.
Global Hint Resolve rt_contact : rt.
Lemma contact_written_eq x : contact_written x = contact_has_data x.
Proof. unfold contact_written, contact_has_data. destruct (ct_name x), (ct_email x), (ct_phone x); reflexivity. Qed.
Lemma entity_written_eq x : entity_written x = entity_has_data x.
Proof. unfold entity_written, entity_has_data. destruct (oe_name x), (oe_url x), (oe_contact x); reflexivity. Qed.
Lemma omap_filter {A} (p q : A -> bool) : (forall x, p x = q x) ->
  forall o, option_map (filter p) o = option_map (filter q) o.
Proof. intros H [l|]; [|reflexivity]. cbn. f_equal. apply filter_ext. exact H. Qed.
Lemma omap_map_filter {A B} (g : A -> B) (p q : A -> bool) : (forall x, p x = q x) ->
  forall o, option_map (map g) (option_map (filter p) o) = option_map (fun l => map g (filter q l)) o.
Proof. intros H [l|]; [|reflexivity]. cbn. f_equal. f_equal. apply filter_ext. exact H. Qed.
Lemma keep_only_if {A} (p q : A -> bool) : (forall x, p x = q x) -> forall o, keep p o = only_if q o.
Proof. intros H [a|]; [|reflexivity]. cbn. now rewrite H. Qed.
Lemma rt_entity tag x : reads tag rd_entity (wr_entity tag x) (Some (kx_entity x)).
Proof. rec. unfold kx_entity. now rewrite (omap_filter _ _ contact_written_eq). Qed.
Global Hint Resolve rt_entity : rt.
Lemma rt_external_reference x :
  reads "reference" rd_external_reference (wr_external_reference x) (Some (kx_external_reference x)).
Proof. rec. rewrite ext_ref_type_back, uri_back. reflexivity. Qed.
Global Hint Resolve rt_external_reference : rt.
Lemma rt_external_references o :
  fills rd_external_references ["externalReferences"] (wr_external_references o) (Some (option_map (map kx_external_reference) o)).
Proof. unfold rd_external_references, wr_external_references. leaf. Qed.
Global Hint Resolve rt_external_references : fl.

(** ** Signatures *)
Lemma rt_signer tag x : reads tag rd_signer (Elem tag [] (wr_signer x)) (Some (kx_signer x)).
Proof. unfold rd_signer, wr_signer. rec. rewrite algorithm_back. reflexivity. Qed.
Global Hint Resolve rt_signer : rt.
Lemma rt_signature x : reads "signature" rd_signature (wr_signature x) (Some (kx_signature x)).
Proof.
  unfold rd_signature, wr_signature. destruct x as [l|l|s]; (eapply reads_dmap; [eapply reads_odd|]).
  - eapply fills_pair_none; [eapply fills_or_l; [|cover]|cover|].
    + eapply fills_req_t, reads_map; [apply reads_list_t; rt|reflexivity].
    + reflexivity.
  - reflexivity.
  - reflexivity.
  - eapply fills_pair_none; [eapply fills_or_r; [cover|eapply fills_req_t, reads_map; [apply reads_list_t; rt|reflexivity]|reflexivity|reflexivity]|cover|reflexivity].
  - reflexivity.
  - reflexivity.
  - eapply fills_none_pair; [cover| |]; [unfold wr_signer; fields|reflexivity].
  - reflexivity.
  - cbn [bindo]. rewrite algorithm_back. reflexivity.
Qed.
Global Hint Resolve rt_signature : rt.

(** ** Licenses *)
Lemma covers_license_identifier : covers rd_license_identifier ["id"; "name"].
Proof. apply (covers_or _ _ ["id"] ["name"]); apply covers_on. Qed.
Lemma rt_license_identifier x :
  fills rd_license_identifier ["id"; "name"] (wr_license_identifier x)
    (let? i := kx_license_identifier x in Some (Some i)).
Proof.
  destruct x as [s|s]; unfold rd_license_identifier, wr_license_identifier, kx_license_identifier.
  - eapply (fills_or_l _ _ ["id"] ["name"]); [|apply covers_on].
    refine (fills_on1 "id" _ None _ _ _ _). eapply reads_map; [apply reads_ptext|reflexivity].
  - eapply (fills_or_r _ _ ["id"] ["name"]); [apply covers_on| |reflexivity|reflexivity].
    refine (fills_on1 "name" _ None _ _ _ _). eapply reads_map; [apply reads_ptext|reflexivity].
Qed.
Global Hint Resolve rt_license_identifier : fl.
Lemma rt_license v x : reads "license" (rd_license v) (wr_license v x) (kx_license v x).
Proof.
  eapply reads_struct_eq; [fields| |].
  - destruct (since V1_5 v); [attrs_distinct|reflexivity].
  - unfold kx_license. steps. unfold JsonSpec.from, since. destruct (version_leb V1_5 v); cbn [when]; attr_simp; reflexivity.
Qed.
Lemma rt_expression r e :
  reads "expression" rd_expression (wr_expression r e) (Some (LicExpression r (xtrim e))).
Proof. apply reads_attr_simple; [attrs_distinct|]. attr_simp. reflexivity. Qed.
Lemma rt_license_list v l :
  reads "licenses" (rd_license_list v) (list_tag "licenses" (wr_license_choice v) l) (each (kx_license_choice v) l).
Proof.
  eapply reads_loop; [|reflexivity]. apply fills_many2; [reflexivity|].
  intros [x|r e] _; cbn [wr_license_choice kx_license_choice].
  - left. eapply reads_map; [apply rt_license|reflexivity].
  - right. apply rt_expression.
Qed.
Lemma rt_licenses v o : fills (rd_licenses v) ["licenses"] (wr_licenses v o) (kx_licenses v o).
Proof. apply fills_opt. intros l _. apply rt_license_list. Qed.
Global Hint Resolve rt_licenses : fl.

(** ** Pedigree *)
Lemma diff_written_eq x : diff_written x = diff_has_data x.
Proof. unfold diff_written, diff_has_data. destruct (df_text x), (df_url x); reflexivity. Qed.
Lemma source_written_eq x : source_written x = source_has_data x.
Proof. unfold source_written, source_has_data. destruct (so_name x), (so_url x); reflexivity. Qed.
Lemma rt_action tag x : reads tag rd_action (wr_action tag x) (Some (kx_action x)).
Proof. rec. Qed.
Global Hint Resolve rt_action : rt.
Lemma rt_commit x : reads "commit" rd_commit (wr_commit x) (Some (kx_commit x)).
Proof. rec. Qed.
Lemma rt_diff x : reads "diff" rd_diff (wr_diff x) (kx_diff x).
Proof. unfold kx_diff. rec. Qed.
Lemma rt_source x : reads "source" rd_source (wr_source x) (Some (kx_source x)).
Proof. rec. Qed.
Global Hint Resolve rt_commit rt_diff rt_source : rt.
Lemma rt_issue x : reads "issue" rd_issue (wr_issue x) (Some (kx_issue x)).
Proof. rec. rewrite issue_classification_back, (keep_only_if _ _ source_written_eq). reflexivity. Qed.
Global Hint Resolve rt_issue : rt.
Lemma rt_patch x : reads "patch" rd_patch (wr_patch x) (kx_patch x).
Proof.
  eapply reads_struct_eq; [fields|attrs_distinct|]. unfold kx_patch. rewrite (keep_only_if _ _ diff_written_eq).
  fin. rewrite patch_classification_back. reflexivity.
Qed.
Global Hint Resolve rt_patch : rt.
Section PEDIGREE.
  Context {C D : Type} (wc : C -> xml) (rc : desc D) (kc : C -> option D).
  Lemma rt_pedigree (x : pedigree_ C) :
    (forall c, match pd_ancestors x with Some l => In c l | None => False end
               \/ match pd_descendants x with Some l => In c l | None => False end
               \/ match pd_variants x with Some l => In c l | None => False end ->
     reads "component" rc (wc c) (kc c)) ->
    reads "pedigree" (rd_pedigree rc) (wr_pedigree wc x) (kx_pedigree kc x).
  Proof.
    intros H. unfold kx_pedigree. eapply reads_struct_eq; [|attrs_distinct|].
    - eapply fills_pair; [eapply fills_list| |].
      { intros l a E Ha. apply H. left. now rewrite E. }
      eapply fills_pair; [eapply fills_list| |].
      { intros l a E Ha. apply H. right. left. now rewrite E. }
      eapply fills_pair; [eapply fills_list| |].
      { intros l a E Ha. apply H. right. right. now rewrite E. }
      + fields.
      + reflexivity.
      + reflexivity.
      + reflexivity.
    - fin.
  Qed.
End PEDIGREE.

(** ** Component data and model cards *)
Lemma rt_responsible_party tag x :
  reads tag rd_responsible_party (wr_responsible_party tag x) (Some (kx_responsible_party x)).
Proof.
  destruct x as [o|c]; unfold wr_responsible_party, rd_responsible_party; (eapply reads_struct_eq; [|reflexivity|]).
  - eapply fills_or_l; [|cover]. eapply fills_req_t, reads_map; [rt|reflexivity].
  - reflexivity.
  - eapply fills_or_r; [cover|eapply fills_req_t, reads_map; [rt|reflexivity]|reflexivity|reflexivity].
  - reflexivity.
Qed.
Global Hint Resolve rt_responsible_party : rt.
Lemma rt_governance tag x : reads tag rd_governance (wr_governance tag x) (Some (kx_governance x)).
Proof. rec. Qed.
Lemma rt_graphic x : reads "graphic" rd_graphic (wr_graphic x) (kx_graphic x).
Proof. unfold kx_graphic. rec. Qed.
Global Hint Resolve rt_governance rt_graphic : rt.
Lemma rt_graphics tag x : reads tag rd_graphics (wr_graphics tag x) (kx_graphics x).
Proof. unfold kx_graphics. rec. Qed.
Lemma rt_contents x : reads "contents" rd_contents (wr_contents x) (kx_contents x).
Proof. unfold kx_contents. rec. Qed.
Global Hint Resolve rt_graphics rt_contents : rt.
Lemma rt_component_data tag x : reads tag rd_component_data (wr_component_data tag x) (kx_component_data x).
Proof. unfold kx_component_data. rec. Qed.
Global Hint Resolve rt_component_data : rt.
Lemma rt_dataset x : reads "dataset" rd_dataset (wr_dataset x) (kx_dataset x).
Proof.
  destruct x as [c|s]; cbn [wr_dataset kx_dataset].
  - eapply reads_map; [rt|reflexivity].
  - exists [], [simple "ref" s]. split; [reflexivity|].
    unfold simple, reparses. cbn [flat_map reparse app]. cbn. destruct (xtrim s); reflexivity.
Qed.
Lemma rt_approach x :
  reads "approach" rd_approach (wr_approach x) (Some (kx_approach x)).
Proof. rec. Qed.
Lemma rt_ml_parameter tag x : reads tag rd_ml_parameter (wr_ml_parameter tag x) (Some (kx_ml_parameter x)).
Proof. rec. Qed.
Global Hint Resolve rt_dataset rt_approach rt_ml_parameter : rt.
Lemma rt_model_parameters x :
  reads "modelParameters" rd_model_parameters (wr_model_parameters x) (kx_model_parameters x).
Proof. unfold kx_model_parameters. rec. Qed.
Lemma rt_interval x : reads "confidenceInterval" rd_interval (wr_interval x) (Some (kx_interval x)).
Proof. rec. Qed.
Global Hint Resolve rt_model_parameters rt_interval : rt.
Lemma rt_metric x : reads "performanceMetric" rd_metric (wr_metric x) (Some (kx_metric x)).
Proof. rec. Qed.
Global Hint Resolve rt_metric : rt.
Lemma rt_quantitative x : reads "quantitativeAnalysis" rd_quantitative (wr_quantitative x) (kx_quantitative x).
Proof. unfold kx_quantitative. rec. Qed.
Global Hint Resolve rt_quantitative : rt.

(** considerations and properties are not seen by the reader *)
Lemma absorb_unseen {S} (sh : shape S) chars n nodes st :
  (forall x, In x nodes -> absorb Open (tr_arm sh) chars n (reparse x) st = TOk st) ->
  absorb Open (tr_arm sh) chars n (reparses nodes) st = TOk st.
Proof.
  induction nodes as [|x l IH]; intros H; [reflexivity|].
  rewrite reparses_cons, absorb_app, (H x) by now left. cbn [tbind].
  apply IH. intros y Hy. apply H. now right.
Qed.
Lemma rt_model_card x : reads "modelCard" rd_model_card (wr_model_card x) (kx_model_card x).
Proof.
  unfold kx_model_card, rd_model_card, wr_model_card.
  set (sh := one "modelParameters" rd_model_parameters ** one "quantitativeAnalysis" rd_quantitative).
  assert (H : fills sh (["modelParameters"] ++ ["quantitativeAnalysis"])
                (opt wr_model_parameters (mc_model_parameters x) ++ opt wr_quantitative (mc_quantitative_analysis x))
                (let? p := maybe kx_model_parameters (mc_model_parameters x) in
                 let? q := maybe kx_quantitative (mc_quantitative_analysis x) in Some (p, q))).
  { eapply fills_pair; [leaf|leaf|reflexivity]. }
  destruct H as [Hc Ho Hf].
  eexists _, _. split; [reflexivity|]. rewrite attrs_ok_elem.
  assert (D : distinct (map fst (attr_opt "bom-ref" (mc_bom_ref x))) = true) by attrs_distinct.
  rewrite D. cbn [andb struct tr].
  set (rest := opt (fun _ => Elem "considerations" [] []) (mc_considerations x) ++ wr_properties (mc_properties x)).
  rewrite app_assoc, forallb_app.
  assert (E : forallb attrs_ok rest = true).
  { subst rest. rewrite forallb_app. destruct (mc_considerations x), (mc_properties x) as [l|]; try reflexivity;
      cbn; rewrite ?Bool.andb_true_r; induction l; auto. }
  rewrite E, Bool.andb_true_r. eapply (checked_tbind _ _ _ _ (fun st => Some (mkModelCard (attr "bom-ref" (attr_opt "bom-ref" (mc_bom_ref x))) (fst st) (snd st) None None))) in Hf.
  2:{ intros a. reflexivity. }
  etransitivity; [|etransitivity; [exact Hf|]].
  - f_equal. rewrite reparses_app, absorb_app, absorb_tfold by exact Ho.
    rewrite tbind_assoc. apply tbind_ext. intros st.
    rewrite absorb_unseen; [destruct st; reflexivity|].
    intros y Hy. apply in_app_or in Hy. destruct Hy as [Hy|Hy].
    + destruct (mc_considerations x); [|contradiction]. destruct Hy as [<-|[]]. reflexivity.
    + destruct (mc_properties x) as [l|]; [|contradiction]. destruct Hy as [<-|[]].
      cbn [list_tag reparse absorb absorb1].
      assert (P : forall l, (fix go (l : list xml) (st : option model_parameters * option quantitative_analysis) :=
         match l with [] => TOk st | y :: l' => tbind (absorb1 Open (tr_arm sh) (on_chars sh) "modelCard" y st) (go l') end)
         (flat_map reparse (map wr_property l)) st = TOk st).
      { clear. induction l as [|p l IH]; [reflexivity|]. cbn [map flat_map].
        unfold wr_property at 1. cbn [reparse app flat_map]. destruct (xtrim (p_value p)); exact IH. }
      cbn [tr_arm sh one String.eqb Ascii.eqb Bool.eqb] in *. unfold list_tag. cbn [reparse absorb absorb1].
      rewrite P. reflexivity.
  - attr_simp. f_equal. steps. reflexivity.
Qed.
Global Hint Resolve rt_model_card : rt.

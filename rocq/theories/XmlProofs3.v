(** * XML round trips of services, metadata, compositions and vulnerabilities *)
From Coq Require Import NArith ZArith Decimal DecimalString DecimalN.
From Verif Require Import Base ModelTypes Strings Enums GenModel Json JsonLemmas JsonModel Xml XmlLemmas XmlModel XmlSpec XmlRead XmlProofs XmlProofs2.
Open Scope string_scope.
Open Scope list_scope.
Open Scope nat_scope.
Open Scope shape_scope.

(** ** Services *)
Lemma reads_bad {A} (d : desc A) tag ats ks : distinct (map fst ats) = false -> reads tag d (Elem tag ats ks) None.
Proof. intros D. exists ats, ks. split; [reflexivity|]. rewrite attrs_ok_elem, D. reflexivity. Qed.

Lemma rt_classification x : reads "classification" rd_classification (wr_classification x) (Some (kx_classification x)).
Proof. apply reads_attr_simple; [reflexivity|]. attr_simp. rewrite data_flow_type_back. reflexivity. Qed.
Global Hint Resolve rt_classification : rt.
Lemma rt_service_data x : reads "dataflow" rd_service_data (wr_service_data x) (kx_service_data x).
Proof.
  unfold rd_service_data, wr_service_data, kx_service_data.
  destruct (sd_name x), (sd_description x).
  - now apply reads_bad.
  - eapply reads_struct_eq; [fields|reflexivity|reflexivity].
  - eapply reads_struct_eq; [fields|reflexivity|reflexivity].
  - eapply reads_struct_eq; [fields|reflexivity|reflexivity].
Qed.
Global Hint Resolve rt_service_data : rt.
Lemma rt_data v x : reads "data" (rd_data v) (wr_data v x) (kx_data v x).
Proof.
  unfold rd_data, wr_data, kx_data. destruct x as [l|l].
  - unfold since. destruct (version_leb V1_5 v) eqn:E.
    + eapply reads_struct_eq; [|reflexivity|].
      * eapply fills_none_pair; [cover|cbn [Xml.from]; leaf|reflexivity].
      * destruct (each kx_service_data l) as [[|a l']|]; reflexivity.
    + eapply reads_struct_eq; [|reflexivity|].
      * eapply fills_pair_none; [leaf|eapply (covers_from false), covers_on|reflexivity].
      * cbn. now rewrite map_map.
  - eapply reads_struct_eq; [|reflexivity|].
    + eapply fills_pair_none; [leaf|cover|reflexivity].
    + cbn [bindo]. now destruct (since V1_5 v).
Qed.
Global Hint Resolve rt_data : rt.

Lemma rt_service v n : forall x, height (wr_service v x) < n ->
  reads "service" (rd_service v n) (wr_service v x) (kx_service v x).
Proof.
  induction n as [|n IH]; intros x H; [lia|].
  assert (HC : forall l a, s_services x = Some l -> In a l ->
            reads "service" (rd_service v n) (wr_service v a) (kx_service v a)).
  { intros l a E Ha. apply IH. pose proof (in_opt_list "services" (wr_service v) _ l E) as K.
    pose proof (height_list "services" (wr_service v) l a Ha) as K2.
    rewrite wr_service_eq in H.
    match type of H with height (Elem ?n ?a ?ks) < _ =>
      assert (K3 : height (list_tag "services" (wr_service v) l) < height (Elem n a ks))
        by (apply height_in; somewhere K) end. lia. }
  rewrite kx_service_eq, wr_service_eq. cbn [rd_service].
  clear H IH. rec.
Qed.

Lemma under n t a ks y : height (Elem t a ks) < n -> In y ks -> height y < n.
Proof. intros H Hy. pose proof (height_in t a ks y Hy). lia. Qed.
Lemma under_opt {A} n t a ks (f : A -> xml) o x :
  height (Elem t a ks) < n -> incl (opt f o) ks -> o = Some x -> height (f x) < n.
Proof. intros H I E. eapply under; [exact H|]. now apply I, in_opt. Qed.
Lemma under_list {A} n t a ks tag (f : A -> xml) o l x :
  height (Elem t a ks) < n -> incl (opt_list tag f o) ks -> o = Some l -> In x l -> height (f x) < n.
Proof.
  intros H I E Hx. pose proof (height_list tag f l x Hx).
  assert (height (list_tag tag f l) < n); [|lia]. eapply under; [exact H|]. now apply I, in_opt_list.
Qed.
Ltac within := let z := fresh "z" in let Hz := fresh "Hz" in intros z Hz; somewhere Hz.

Lemma rt_components F v n o : (forall l a, o = Some l -> In a l -> height (wr_component v a) < n) ->
  fills (rd_components F v n) ["components"] (wr_components v o) (maybe (each (kx_component v)) o).
Proof. intros H. eapply fills_list. intros l a E Ha. apply rt_component; eauto. Qed.
Lemma rt_services v n o : (forall l a, o = Some l -> In a l -> height (wr_service v a) < n) ->
  fills (rd_services v n) ["services"] (wr_services v o) (maybe (each (kx_service v)) o).
Proof. intros H. eapply fills_list. intros l a E Ha. apply rt_service; eauto. Qed.

(** ** Metadata *)
Lemma rt_tool v x : reads "tool" (rd_tool v) (wr_tool v x) (Some (kx_tool v x)).
Proof. rec. Qed.
Global Hint Resolve rt_tool : rt.
Lemma rt_tools F v n x : height (wr_tools v x) < n -> reads "tools" (rd_tools F v n) (wr_tools v x) (kx_tools v x).
Proof.
  intros H. unfold rd_tools, wr_tools, kx_tools in *. unfold since in *. destruct x as [l|s c].
  - eapply reads_struct_eq; [|reflexivity|].
    + change (map (wr_tool v) l) with (items (wr_tool v) (Some l)).
      eapply fills_pair_none; [leaf|cover|reflexivity].
    + destruct (version_leb V1_5 v), l; reflexivity.
  - destruct (version_leb V1_5 v); cbn [when] in *.
    + eapply reads_struct_eq; [|reflexivity|].
      * assert (H1 : forall l a, s = Some l -> In a l -> height (wr_service v a) < n)
          by (intros l a; eapply under_list; [exact H|within]).
        assert (H2 : forall l a, c = Some l -> In a l -> height (wr_component v a) < n)
          by (intros l a; eapply under_list; [exact H|within]).
        eapply fills_none_pair; [cover| |].
        -- cbn [Xml.from]. eapply fills_pair; [apply rt_services; exact H1|apply rt_components; exact H2|reflexivity].
        -- reflexivity.
      * cbn [bindo]. destruct (maybe (each (kx_service v)) s); [|reflexivity]. cbn [bindo].
        destruct (maybe (each (kx_component v)) c); reflexivity.
    + eapply reads_struct_eq; [apply fills_nil; cover|reflexivity|]. reflexivity.
Qed.
Lemma rt_lifecycle x : reads "lifecycle" rd_lifecycle (wr_lifecycle x) (Some (kx_lifecycle x)).
Proof.
  unfold rd_lifecycle, wr_lifecycle. destruct x as [p|n d].
  - eapply reads_struct_eq; [fields|reflexivity|reflexivity].
  - eapply reads_struct_eq; [|reflexivity|].
    + eapply fills_none_pair; [cover|fields|reflexivity].
    + reflexivity.
Qed.
Global Hint Resolve rt_lifecycle : rt.
Lemma rt_metadata F v n x : height (wr_metadata v x) < n ->
  reads "metadata" (rd_metadata F v n) (wr_metadata v x) (kx_metadata v x).
Proof.
  intros H. unfold kx_metadata.
  assert (HT : forall a, m_tools x = Some a -> reads "tools" (rd_tools F v n) (wr_tools v a) (kx_tools v a)).
  { intros a E. apply rt_tools. revert E. eapply under_opt; [exact H|within]. }
  assert (HC : forall a, m_component x = Some a ->
            reads "component" (rd_component F v n) (wr_component v a) (kx_component v a)).
  { intros a E. apply rt_component. revert E. eapply under_opt; [exact H|within]. }
  clear H. eapply reads_struct_eq; [fields|attrs_distinct|].
  rewrite (omap_map_filter _ _ _ contact_written_eq). fin.
Qed.

(** ** Dependencies, compositions *)
Lemma rt_dependency x : reads "dependency" rd_dependency (wr_dependency x) (Some x).
Proof. eapply reads_struct_eq; [leaf|reflexivity|]. now destruct x. Qed.
Lemma rt_composition v x : reads "composition" (rd_composition v) (wr_composition v x) (Some (kx_composition v x)).
Proof.
  eapply reads_struct_eq; [fields| |].
  - destruct (since V1_5 v); [attrs_distinct|reflexivity].
  - unfold kx_composition. steps. unfold JsonSpec.from, since. destruct (version_leb V1_5 v); cbn [when]; attr_simp; reflexivity.
Qed.
Global Hint Resolve rt_dependency rt_composition : rt.

(** ** Vulnerabilities *)

(** [Display] and [FromStr] of [f32]: a number's text reads back as the number and has no surrounding blanks *)
Definition float_text_ok (F : float_text) : Prop :=
  forall f, read_f32 F (show_f32 F f) = Some f /\ xtrim (show_f32 F f) = show_f32 F f.

Lemma rt_vuln_source x : reads "source" rd_vuln_source (wr_vuln_source x) (Some (kx_vuln_source x)).
Proof. rec. Qed.
Global Hint Resolve rt_vuln_source : rt.
Lemma rt_vuln_reference x : reads "reference" rd_vuln_reference (wr_vuln_reference x) (Some (kx_vuln_reference x)).
Proof. rec. Qed.
Lemma rt_rating F : float_text_ok F -> forall x, reads "rating" (rd_rating F) (wr_rating F x) (Some (kx_rating x)).
Proof.
  intros HF x.
  assert (HS : forall f, reads "score" (d_score F) (txt (show_f32 F) "score" f) (Some f)).
  { intros f. destruct (HF f) as [R T].
    pose proof (reads_text (read_f32 F) "score" (show_f32 F f)) as K. rewrite T, R in K. exact K. }
  rec.
Qed.
Lemma rt_advisory x : reads "advisory" rd_advisory (wr_advisory x) (Some (kx_advisory x)).
Proof. rec. Qed.
Lemma rt_credits x : reads "credits" rd_credits (wr_credits x) (Some (kx_credits x)).
Proof.
  eapply reads_struct_eq; [fields|attrs_distinct|].
  rewrite (omap_map_filter _ _ _ contact_written_eq), (omap_map_filter _ _ _ entity_written_eq). fin.
Qed.
Lemma rt_analysis v x : reads "analysis" (rd_analysis v) (wr_analysis v x) (Some (kx_analysis v x)).
Proof. rec. Qed.
Global Hint Resolve rt_vuln_reference rt_advisory rt_credits rt_analysis : rt.
Lemma rt_status_text x : reads "status" d_string (txt text_status "status" x) (Some (xtrim (text_status x))).
Proof. apply reads_string. Qed.
Lemma status_back x : status_of_text (xtrim (text_status x)) = kx_status x.
Proof. destruct x; reflexivity. Qed.
Lemma rt_version_status x : reads "version" rd_version_status (wr_version_status x) (kx_version_status x).
Proof.
  unfold rd_version_status, wr_version_status, kx_version_status.
  eapply reads_struct_eq; [|reflexivity|].
  - eapply (fills_pair _ _ ["version"; "range"]); [|eapply fills_req_t; apply rt_status_text|reflexivity].
    instantiate (1 := match ve_range x with
            | VRVersion s => Some (Some (VRVersion (xtrim s)))
            | VRRange s => Some (Some (VRRange (xtrim s)))
            | VRUndefined _ => Some None
            end).
    destruct (ve_range x) as [s|s|s]; cbn [wr_version_range].
    + eapply (fills_or_l _ _ ["version"] ["range"]); [|apply covers_on].
      eapply fills_req_t. eapply reads_map; [apply reads_string|reflexivity].
    + eapply (fills_or_r _ _ ["version"] ["range"]); [apply covers_on| |reflexivity|reflexivity].
      eapply fills_req_t. eapply reads_map; [apply reads_string|reflexivity].
    + apply (fills_nil (SOr (one "version" (d_map VRVersion d_string)) (one "range" (d_map VRRange d_string)))).
      apply (covers_or _ _ ["version"] ["range"]); apply covers_on.
  - destruct (ve_range x) as [s|s|s]; cbn [bindo]; rewrite ?status_back; reflexivity.
Qed.
Global Hint Resolve rt_version_status : rt.
Lemma rt_target x : reads "target" rd_target (wr_target x) (kx_target x).
Proof. unfold kx_target. rec. Qed.
Global Hint Resolve rt_target : rt.

Lemma rt_detail o :
  fills (SOn "detail" (DPrim POptional) None (fun a (_ : option string) => Some a)) ["detail"]
    [simple "detail" (match o with Some s => s | None => "" end)] (Some (bindo o nonblank)).
Proof.
  pose proof (fills_on1 (S := option string) "detail" _ None (fun a _ => Some a) _ _ (reads_optional "detail" (match o with Some s => s | None => "" end))) as H.
  cbn [bindo] in H. replace (bindo o nonblank) with (nonblank (match o with Some s => s | None => "" end)) by now destruct o.
  exact H.
Qed.
Global Hint Resolve rt_detail : fl.
Lemma rt_vulnerability F v n x : float_text_ok F -> height (wr_vulnerability F v x) < n ->
  reads "vulnerability" (rd_vulnerability F v n) (wr_vulnerability F v x) (kx_vulnerability v x).
Proof.
  intros HF H. unfold kx_vulnerability.
  assert (HT : forall a, v_tools x = Some a -> reads "tools" (rd_tools F v n) (wr_tools v a) (kx_tools v a)).
  { intros a E. apply rt_tools. revert E. eapply under_opt; [exact H|within]. }
  pose proof (rt_rating F HF) as HR.
  clear H. rec. unfold since; destruct (version_leb V1_5 v); reflexivity.
Qed.

(** ** Formulation *)

(** a first child that no branch of a strict loop accepts *)
Lemma reads_strict_unknown {S A} (sh : shape S) (fin : attrs -> S -> option A) tag ats m mats mks ks :
  tr_arm sh m = None -> reads tag (struct Strict sh fin) (Elem tag ats (Elem m mats mks :: ks)) None.
Proof.
  intros H. eexists _, _. split; [reflexivity|].
  cbn [struct tr]. rewrite reparses_cons. cbn [reparse]. cbn [app absorb absorb1]. rewrite H. cbn [tbind].
  unfold checked. now destruct (attrs_ok _).
Qed.
Lemma rt_resource tag x : reads tag rd_resource (wr_resource tag x) (kx_resource x).
Proof.
  destruct x as [s|e]; unfold rd_resource, wr_resource, kx_resource.
  - eapply reads_struct_eq; [|reflexivity|].
    + eapply (fills_or_l _ _ ["ref"] ["externalReference"]); [|apply covers_on].
      eapply fills_req_t. eapply reads_map; [apply reads_string|reflexivity].
    + reflexivity.
  - apply reads_strict_unknown. reflexivity.
Qed.
Global Hint Resolve rt_resource : rt.
Lemma rt_resources o : fills rd_resources ["resourceReferences"] (wr_resources o) (maybe (each kx_resource) o).
Proof. unfold rd_resources, wr_resources. leaf. Qed.
Global Hint Resolve rt_resources : fl.
Lemma rt_environment_vars l :
  reads "environmentVars" rd_environment_vars (wr_environment_vars l) (Some (map kx_environment_var l)).
Proof.
  eapply reads_loop; [|reflexivity]. rewrite <- each_total. apply fills_many2; [reflexivity|].
  intros [n s|s] _.
  - left. apply reads_attr_simple; reflexivity.
  - right. eapply reads_map; [apply reads_string|reflexivity].
Qed.
Global Hint Resolve rt_environment_vars : rt.
Lemma rt_input x : reads "input" rd_input (wr_input x) (kx_input x).
Proof.
  unfold rd_input, wr_input, kx_input. destruct (in_required x) as [r|l|l|a].
  - eapply reads_struct_eq; [|reflexivity|].
    + eapply (fills_pair _ _ ["resource"; "environmentVars"; "data"]); [|fields|reflexivity].
      eapply (fills_or_l _ _ ["resource"]); [|apply (covers_or _ _ ["environmentVars"] ["data"]); cover].
      eapply fills_req. eapply reads_map; [apply rt_resource|reflexivity].
    + destruct (kx_resource r); [|reflexivity]. cbn [bindo]. fin.
  - apply reads_strict_unknown. reflexivity.
  - eapply reads_struct_eq; [|reflexivity|].
    + eapply (fills_pair _ _ ["resource"; "environmentVars"; "data"]); [|fields|reflexivity].
      eapply (fills_or_r _ _ ["resource"]); [cover| |reflexivity|reflexivity].
      eapply (fills_or_l _ _ ["environmentVars"]); [|cover].
      eapply fills_req_t. eapply reads_map; [apply rt_environment_vars|reflexivity].
    + fin.
  - eapply reads_struct_eq; [|reflexivity|].
    + eapply (fills_pair _ _ ["resource"; "environmentVars"; "data"]); [|fields|reflexivity].
      eapply (fills_or_r _ _ ["resource"]); [cover| |reflexivity|reflexivity].
      eapply (fills_or_r _ _ ["environmentVars"]); [cover| |reflexivity|reflexivity].
      eapply fills_req. eapply reads_map; [apply rt_attachment|reflexivity].
    + destruct (kx_attachment a); [|reflexivity]. cbn [bindo]. fin.
Qed.
Lemma rt_output x : reads "output" rd_output (wr_output x) (kx_output x).
Proof.
  unfold rd_output, wr_output, kx_output. destruct (ou_required x) as [r|l|a].
  - eapply reads_struct_eq; [|reflexivity|].
    + eapply (fills_pair _ _ ["resource"; "environmentVars"; "data"]); [|fields|reflexivity].
      eapply (fills_or_l _ _ ["resource"]); [|apply (covers_or _ _ ["environmentVars"] ["data"]); cover].
      eapply fills_req. eapply reads_map; [apply rt_resource|reflexivity].
    + destruct (kx_resource r); [|reflexivity]. cbn [bindo]. fin.
  - eapply reads_struct_eq; [|reflexivity|].
    + eapply (fills_pair _ _ ["resource"; "environmentVars"; "data"]); [|fields|reflexivity].
      eapply (fills_or_r _ _ ["resource"]); [cover| |reflexivity|reflexivity].
      eapply (fills_or_l _ _ ["environmentVars"]); [|cover].
      eapply fills_req_t. eapply reads_map; [apply rt_environment_vars|reflexivity].
    + fin.
  - eapply reads_struct_eq; [|reflexivity|].
    + eapply (fills_pair _ _ ["resource"; "environmentVars"; "data"]); [|fields|reflexivity].
      eapply (fills_or_r _ _ ["resource"]); [cover| |reflexivity|reflexivity].
      eapply (fills_or_r _ _ ["environmentVars"]); [cover| |reflexivity|reflexivity].
      eapply fills_req. eapply reads_map; [apply rt_attachment|reflexivity].
    + destruct (kx_attachment a); [|reflexivity]. cbn [bindo]. fin.
Qed.
Lemma rt_command x : reads "command" rd_command (wr_command x) (Some (kx_command x)).
Proof. rec. Qed.
Global Hint Resolve rt_input rt_output rt_command : rt.
Lemma rt_step x : reads "step" rd_step (wr_step x) (Some (kx_step x)).
Proof. rec. Qed.
Lemma rt_volume x : reads "volume" rd_volume (wr_volume x) (Some (kx_volume x)).
Proof. rec. Qed.
Global Hint Resolve rt_step rt_volume : rt.
Lemma rt_workspace x : reads "workspace" rd_workspace (wr_workspace x) (kx_workspace x).
Proof. unfold kx_workspace. rec. Qed.
Lemma rt_condition x : reads "condition" rd_condition (wr_condition x) (Some (kx_condition x)).
Proof. rec. Qed.
Lemma rt_event x : reads "event" rd_event (wr_event x) (kx_event x).
Proof. unfold kx_event. rec. Qed.
Global Hint Resolve rt_workspace rt_condition rt_event : rt.
Lemma rt_trigger x : reads "trigger" rd_trigger (wr_trigger x) (kx_trigger x).
Proof. unfold kx_trigger. rec. Qed.
Global Hint Resolve rt_trigger : rt.
Lemma rt_task x : reads "task" rd_task (wr_task x) (kx_task x).
Proof.
  unfold kx_task. eapply reads_struct_eq; [fields|attrs_distinct|]. unfold one_list, one. cbn [init].
  steps. reflexivity.
Qed.
Global Hint Resolve rt_task : rt.
Lemma rt_task_types l :
  fills (one_list Strict "taskTypes" "taskType" (d_enum task_type_of_text)) ["taskTypes"]
    [list_tag "taskTypes" (txt text_task_type "taskType") l] (Some (Some (map kx_task_type l))).
Proof. eapply fills_req_t. eapply reads_list_t. rt. Qed.
Global Hint Resolve rt_task_types : fl.
Lemma rt_workflow x : reads "workflow" rd_workflow (wr_workflow x) (kx_workflow x).
Proof. unfold kx_workflow. rec. Qed.
Global Hint Resolve rt_workflow : rt.
Lemma rt_formula F v n x : height (wr_formula v x) < n ->
  reads "formula" (rd_formula F v n) (wr_formula v x) (kx_formula v x).
Proof.
  intros H. unfold kx_formula.
  assert (H1 : forall l a, fo_services x = Some l -> In a l -> height (wr_service v a) < n)
    by (intros l a; eapply under_list; [exact H|within]).
  assert (H2 : forall l a, fo_components x = Some l -> In a l -> height (wr_component v a) < n)
    by (intros l a; eapply under_list; [exact H|within]).
  apply rt_services in H1. apply (rt_components F) in H2. clear H.
  eapply reads_struct_eq; [|attrs_distinct|].
  - eapply fills_pair; [exact H2| |]; [eapply fills_pair; [exact H1|fields|reflexivity]|reflexivity].
  - fin.
Qed.

(** ** The BOM *)
Lemma rt_bom F v n x : (version_leb V1_4 v = true -> float_text_ok F) -> height (wr_bom F v x) < n ->
  reads "bom" (rd_bom F v n) (wr_bom F v x) (kx_bom v x).
Proof.
  intros HF H. unfold kx_bom.
  assert (HM : forall a, b_metadata x = Some a -> reads "metadata" (rd_metadata F v n) (wr_metadata v a) (kx_metadata v a)).
  { intros a E. apply rt_metadata. revert E. eapply under_opt; [exact H|within]. }
  assert (H1 : forall l a, b_services x = Some l -> In a l -> height (wr_service v a) < n)
    by (intros l a; eapply under_list; [exact H|within]).
  assert (H2 : forall l a, b_components x = Some l -> In a l -> height (wr_component v a) < n)
    by (intros l a; eapply under_list; [exact H|within]).
  assert (HV : since V1_4 v = true -> forall l a, b_vulnerabilities x = Some l -> In a l ->
            reads "vulnerability" (rd_vulnerability F v n) (wr_vulnerability F v a) (kx_vulnerability v a)).
  { intros S l a E Ha. apply rt_vulnerability; [exact (HF S)|]. revert E Ha. eapply under_list; [exact H|].
    unfold when. rewrite S. within. }
  assert (HO : since V1_5 v = true -> forall l a, b_formulation x = Some l -> In a l ->
            reads "formula" (rd_formula F v n) (wr_formula v a) (kx_formula v a)).
  { intros S l a E Ha. apply rt_formula. revert E Ha. eapply under_list; [exact H|].
    unfold when. rewrite S. within. }
  apply rt_services in H1. apply (rt_components F) in H2. clear H.
  assert (HVf : fills (Xml.from (since V1_4 v) (one_list Lax "vulnerabilities" "vulnerability" (rd_vulnerability F v n)))
            ["vulnerabilities"]
            (when (since V1_4 v) (opt_list "vulnerabilities" (wr_vulnerability F v) (b_vulnerabilities x)))
            (gate V1_4 v (maybe (each (kx_vulnerability v)) (b_vulnerabilities x)))).
  { destruct (Bool.bool_dec (since V1_4 v) true) as [E|E].
    - eapply fills_gate; [reflexivity|]. eapply fills_list. exact (HV E).
    - apply Bool.not_true_is_false in E. rewrite E. unfold gate. unfold since in E. rewrite E. cbn [when].
      refine (fills_nil (Xml.from false _) _ _). apply (covers_from false). apply covers_one. }
  assert (HOf : fills (Xml.from (since V1_5 v) (one_list Strict "formulation" "formula" (rd_formula F v n)))
            ["formulation"]
            (when (since V1_5 v) (opt_list "formulation" (wr_formula v) (b_formulation x)))
            (gate V1_5 v (maybe (each (kx_formula v)) (b_formulation x)))).
  { destruct (Bool.bool_dec (since V1_5 v) true) as [E|E].
    - eapply fills_gate; [reflexivity|]. eapply fills_list. exact (HO E).
    - apply Bool.not_true_is_false in E. rewrite E. unfold gate. unfold since in E. rewrite E. cbn [when].
      refine (fills_nil (Xml.from false _) _ _). apply (covers_from false). apply covers_one. }
  clear HV HO.
  eapply reads_struct_eq; [|attrs_distinct|].
  - eapply fills_pair; [leaf| |];
      [eapply fills_pair; [exact H2| |];
        [eapply fills_pair; [exact H1| |];
          [eapply fills_pair; [leaf| |];
            [eapply fills_pair; [leaf| |];
              [eapply fills_pair; [leaf| |];
                [eapply fills_pair; [leaf| |];
                  [eapply fills_pair; [exact HVf| |];
                    [eapply fills_pair_none; [exact HOf|cover|reflexivity]|reflexivity]
                  |reflexivity]|reflexivity]|reflexivity]|reflexivity]|reflexivity]|reflexivity]|reflexivity].
  - steps. attr_simp. unfold attr_of. cbn [attr app String.eqb Ascii.eqb Bool.eqb].
    destruct (b_serial_number x); cbn [attr_opt app attr String.eqb Ascii.eqb Bool.eqb bindo option_map];
      rewrite xml_u32_text; cbn [bindo]; unfold since; destruct v; reflexivity.
Qed.

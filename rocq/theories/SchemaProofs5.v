(** The JSON form of valid, tame values conforms to the schema: formulations (1.5) and whole BOMs. *)
From Verif Require Import Base ModelTypes Strings Regex Enums Json JsonModel JsonProofs JsonProofs2 JsonProofs4 JsonSpec Schema SchemaText SchemaLemmas ValModel ValSpec ValProofs SchemaSpec SchemaProofs SchemaProofs2 SchemaProofs3 SchemaProofs4.
From Coq Require Import ZArith Lia.
Open Scope string_scope.
Open Scope list_scope.

Section Conform.
Variable x : parsers.
Variable fmt : string -> string -> bool.
Hypothesis FA : formats_agree x fmt.
Notation ok v := (conforms fmt (schema_definitions v)).
Notation named r := (Sch [KRef r]).


Lemma ok_resource r : tame_resource x fmt V1_5 r -> ok V1_5 (named "resourceReferenceChoice") (to_json_resource_reference r).
Proof.
  destruct r as [s|e]; intros T; cbn in T; unfold to_json_resource_reference; open_hyps; go; required_one.
Qed.
Hint Resolve ok_resource : sch.
Lemma ok_parameter p : ok V1_5 (named "parameter") (to_json_parameter p).
Proof. unfold to_json_parameter. go. Qed.
Hint Resolve ok_parameter : sch.
Lemma ok_environment_var e : meets fmt (schema_definitions V1_5) (KOneOf [named "property"; Sch [KType Ty_string]]) (to_json_environment_var e).
Proof.
  destruct e as [n s|s]; unfold to_json_environment_var.
  - apply (meets_one _ _ 0). split; [exact (ok_property fmt V1_5 (mkProp n s))|].
    foralls. eapply violates_intro; [left; reflexivity|]. apply fails_type. reflexivity.
  - apply (meets_one _ _ 1). split.
    + eapply violates_ref; [reflexivity|]. eapply violates_intro; [left; reflexivity|]. apply fails_type. reflexivity.
    + split; [go|constructor].
Qed.
Lemma ok_input i : tame_input x fmt V1_5 i -> ok V1_5 (named "inputType") (to_json_input i).
Proof.
  unfold tame_input. intros (R & S & T). unfold to_json_input, required_input_member.
  destruct (in_required i) as [r|l|l|a]; open_hyps; eapply conforms_ref; try reflexivity; apply conforms_intro; foralls;
    try required_many; try kw; member; go; apply ok_environment_var.
Qed.
Hint Resolve ok_input : sch.
Lemma ok_output u : tame_output x fmt V1_5 u -> ok V1_5 (named "outputType") (to_json_output u).
Proof.
  unfold tame_output. intros (R & Y & S & T). unfold to_json_output, required_output_member, jtext.
  destruct (ou_required u) as [r|l|a]; open_hyps; eapply conforms_ref; try reflexivity; apply conforms_intro; foralls;
    try required_many; try kw; member; go; apply ok_environment_var.
Qed.
Hint Resolve ok_output : sch.
Lemma ok_command c : ok V1_5 (named "command") (to_json_command c).
Proof. unfold to_json_command. go. Qed.
Hint Resolve ok_command : sch.
Lemma ok_step s : ok V1_5 (named "step") (to_json_step s).
Proof. unfold to_json_step. go. Qed.
Hint Resolve ok_step : sch.
Lemma ok_volume w : tame_volume w -> ok V1_5 (named "volume") (to_json_volume w).
Proof.
  unfold tame_volume. intros. unfold to_json_volume, jtext.
  change (opt (fun y => JStr (text_volume_mode y)) (Some (vo_mode w))) with (Some (JStr (text_volume_mode (vo_mode w)))).
  open_hyps. go.
Qed.
Hint Resolve ok_volume : sch.
Lemma ok_workspace w : tame_workspace x fmt V1_5 w -> ok V1_5 (named "workspace") (to_json_workspace w).
Proof. unfold tame_workspace, tame_resources. intros. unfold to_json_workspace, jtext. open_hyps. go. Qed.
Hint Resolve ok_workspace : sch.
Lemma ok_condition c : ok V1_5 (named "condition") (to_json_condition c).
Proof. unfold to_json_condition. go. Qed.
Hint Resolve ok_condition : sch.
Lemma ok_event e : tame_event x fmt V1_5 e -> ok V1_5 (named "event") (to_json_event e).
Proof. unfold tame_event. intros. unfold to_json_event. open_hyps. go. Qed.
Hint Resolve ok_event : sch.
Lemma ok_trigger t : tame_trigger x fmt V1_5 t -> ok V1_5 (named "trigger") (to_json_trigger t).
Proof.
  unfold tame_trigger, tame_resources, tame_inputs, tame_outputs. intros. unfold to_json_trigger, jtext. open_hyps. go.
Qed.
Hint Resolve ok_trigger : sch.
Lemma ok_task t : tame_task x fmt V1_5 t -> ok V1_5 (named "task") (to_json_task t).
Proof.
  unfold tame_task, tame_resources, tame_inputs, tame_outputs, tame_steps, tame_workspaces, tame_topology.
  intros. unfold to_json_task, jtext. open_hyps. go.
Qed.
Hint Resolve ok_task : sch.
Lemma ok_workflow t : tame_workflow x fmt V1_5 t -> ok V1_5 (named "workflow") (to_json_workflow t).
Proof.
  unfold tame_workflow, tame_resources, tame_inputs, tame_outputs, tame_steps, tame_workspaces, tame_topology.
  intros. unfold to_json_workflow, jtext. open_hyps. go.
Qed.
Hint Resolve ok_workflow : sch.
Lemma ok_formula f : tame_formula x fmt V1_5 f -> ok V1_5 (named "formula") (to_json_formula V1_5 f).
Proof. unfold tame_formula. intros. unfold to_json_formula. open_hyps. go. Qed.
Hint Resolve ok_formula : sch.

(** ** Whole BOMs *)
Lemma ok_version v b : (v = V1_5 -> (1 <= u32_N (b_version b))%N) ->
  ok v (sub "version" (schema_root v)) (to_json_u32 (b_version b)).
Proof.
  intros L. destruct v; apply conforms_intro; foralls; try kw.
  apply meets_minimum. intros p E. cbn in E. injection E as <-. unfold at_least. cbn [fst snd].
  change (2 ^ Z.max (- 0) 0)%Z with 1%Z. change (2 ^ Z.max 0 0)%Z with 1%Z.
  specialize (L eq_refl). apply Z.leb_le. lia.
Qed.
Hint Extern 1 (conforms _ (schema_definitions ?v) _ (to_json_u32 _)) => apply (ok_version v) : sch.

Lemma ok_bom v b j : output_as_json v b = Done j -> valid_fields x v b -> tame_bom x fmt v b ->
  ok v (schema_root v) j.
Proof.
  intros O V T. unfold output_as_json in O.
  destruct (check_bom_iff v b) as [[C W]|[C _]]; rewrite C in O; cbn [bind] in O; [|discriminate].
  injection O as <-.
  assert (Wc : forall l c, b_components b = Some l -> In c l -> versioned v c).
  { intros l c E I. apply W. unfold bom_roots. rewrite E. cbn [olist]. rewrite !in_app_iff. auto. }
  assert (Wm : forall m c, b_metadata b = Some m -> m_component m = Some c -> versioned v c).
  { intros m c E1 E2. apply W. unfold bom_roots. rewrite E1. cbn [one flat_map]. rewrite E2. cbn [one].
    rewrite !in_app_iff. cbn. auto. }
  clear W C. unfold valid_fields, tame_bom in *. unfold to_json_bom, version_text.
  assert (F : In "CycloneDX" ["CycloneDX"]) by (left; reflexivity).
  assert (N : (v = V1_5 -> (1 <= u32_N (b_version b))%N)) by apply T.
  destruct v; open_hyps; unfold schema_root; apply conforms_intro; foralls;
    try (first [apply meets_properties; foralls | kw]); member; first [exact (ok_version _ b N) | go].
Qed.
End Conform.

(** C59: formulas *)
From Verif Require Import Base ModelTypes Strings Regex Enums ValModel ValSpec ValLocSpec ValProofs ValProofs3 ValProps ValLocate
  FormModel FormSpec FormProofs.
Open Scope string_scope.
Open Scope list_scope.

Theorem C59_formula_passes_iff_valid x q v f :
  (exists r, validate_formula x q v f = Done r /\ passed r = true) <-> valid_formula x q v f.
Proof.
  rewrite <- formula_iff. split; [intros ([|? ?] & H & P); [exact H|discriminate P]|intros H; exists []; auto].
Qed.
Theorem C59_parts_pass_iff_valid x q v :
  (forall w, validate_workflow x q v w = Done [] <-> valid_workflow x q v w)
  /\ (forall t, validate_task x q v t = Done [] <-> valid_task x q v t)
  /\ (forall t, validate_trigger x q v t = Done [] <-> valid_trigger x q v t)
  /\ (forall e, validate_event x v e = Done [] <-> valid_event x v e)
  /\ (forall c, validate_condition c = Done [] <-> valid_condition c)
  /\ (forall i, validate_input x v i = Done [] <-> valid_input x v i)
  /\ (forall o, validate_output x v o = Done [] <-> valid_output x v o)
  /\ (forall s, validate_step s = Done [] <-> valid_step s)
  /\ (forall w, validate_workspace x q v w = Done [] <-> valid_workspace x q v w)
  /\ (forall o, validate_volume o = Done [] <-> valid_volume o).
Proof.
  split; [apply workflow_iff|]. split; [apply task_iff|]. split; [apply trigger_iff|]. split; [apply event_iff|].
  split; [apply condition_iff|]. split; [apply input_iff|]. split; [apply output_iff|]. split; [apply step_iff|].
  split; [apply workspace_iff|apply volume_iff].
Qed.
Theorem C59_validation_returns x q v :
  (forall f, exists r, validate_formula x q v f = Done r)
  /\ (forall w, exists r, validate_workflow x q v w = Done r) /\ (forall t, exists r, validate_task x q v t = Done r)
  /\ (forall t, exists r, validate_trigger x q v t = Done r) /\ (forall e, exists r, validate_event x v e = Done r)
  /\ (forall c, exists r, validate_condition c = Done r) /\ (forall i, exists r, validate_input x v i = Done r)
  /\ (forall o, exists r, validate_output x v o = Done r) /\ (forall s, exists r, validate_step s = Done r)
  /\ (forall w, exists r, validate_workspace x q v w = Done r) /\ (forall o, exists r, validate_volume o = Done r).
Proof.
  split; [apply formula_safe|].
  split; [apply workflow_safe|]. split; [apply task_safe|]. split; [apply trigger_safe|]. split; [apply event_safe|].
  split; [apply condition_safe|]. split; [apply input_safe|]. split; [apply output_safe|]. split; [apply step_safe|].
  split; [apply workspace_safe|apply volume_safe].
Qed.
(** a finding is filed under the name of the field that breaks its rule, and under no other name *)
Theorem C59_findings x q v :
  (forall f r, v = V1_5 -> validate_formula x q v f = Done r -> files_under r (fields_of_formula x q v f))
  /\ (forall w r, validate_workflow x q v w = Done r -> files_under r (fields_of_workflow x q v w))
  /\ (forall t r, validate_task x q v t = Done r -> files_under r (fields_of_task x q v t))
  /\ (forall t r, validate_trigger x q v t = Done r -> files_under r (fields_of_trigger x q v t)).
Proof.
  split; [|split; [|split]].
  - intros f r E H. destruct (formula_rules x q v f E) as (sl & R & N & M). rewrite R in H. eapply run_files; eauto.
  - intros f r H. destruct (workflow_rules x q v f) as (sl & R & N & M). rewrite R in H. eapply run_files; eauto.
  - intros f r H. destruct (task_rules x q v f) as (sl & R & N & M). rewrite R in H. eapply run_files; eauto.
  - intros f r H. destruct (trigger_rules x q v f) as (sl & R & N & M). rewrite R in H. eapply run_files; eauto.
Qed.
Theorem C59_findings_in_parts x q v :
  (forall a r, validate_resource_reference x v a = Done r -> files_under r (fields_of_resource x v a))
  /\ (forall a r, validate_input x v a = Done r -> files_under r (fields_of_input x v a))
  /\ (forall a r, validate_output x v a = Done r -> files_under r (fields_of_output x v a))
  /\ (forall a r, validate_command a = Done r -> files_under r (fields_of_command a))
  /\ (forall a r, validate_step a = Done r -> files_under r (fields_of_step a))
  /\ (forall a r, validate_volume a = Done r -> files_under r (fields_of_volume a))
  /\ (forall a r, validate_workspace x q v a = Done r -> files_under r (fields_of_workspace x q v a))
  /\ (forall a r, validate_condition a = Done r -> files_under r (fields_of_condition a))
  /\ (forall a r, validate_event x v a = Done r -> files_under r (fields_of_event x v a)).
Proof.
  repeat match goal with |- _ /\ _ => split end; intros a r; apply ruled_files.
  - apply resource_rules.
  - apply input_rules.
  - apply output_rules.
  - apply command_rules.
  - apply step_rules.
  - apply volume_rules.
  - apply workspace_rules.
  - apply condition_rules.
  - apply event_rules.
Qed.
Theorem C59_not_before_1_5 x q f :
  validate_formula x q V1_3 f = Done [("", ErrCustom ["Formula is not defined for version 1.3"])]
  /\ validate_formula x q V1_4 f = Done [("", ErrCustom ["Formula is not defined for version 1.4"])].
Proof. split; reflexivity. Qed.
(** validating a BOM does not look at its formulas *)
Theorem C59_bom_ignores_formulas x v b f :
  validate_bom x v (mkBom (b_version b) (b_serial_number b) (b_metadata b) (b_components b) (b_services b) (b_external_references b)
     (b_dependencies b) (b_compositions b) (b_properties b) (b_vulnerabilities b) (b_signature b) (b_annotations b) f (b_spec_version b))
  = validate_bom x v b.
Proof. destruct b. reflexivity. Qed.

(** where the equality of the elements is equality, a set is a list without repetitions *)
Theorem C59_different_is_nodup {A} (eq : A -> A -> bool) (l : list A) :
  (forall a b, eq a b = true <-> a = b) -> (different eq l <-> NoDup l).
Proof.
  intros E. split.
  - intros D. apply NoDup_nth_error. intros i j Li Ei.
    destruct (nth_error l i) as [a|] eqn:Na; [|apply nth_error_None in Na; lia]. symmetry in Ei.
    assert (R : eq a a = true) by (apply E; reflexivity).
    destruct (Nat.lt_trichotomy i j) as [L|[L|L]]; [|exact L|].
    + rewrite (D i j a a L Na Ei) in R. discriminate.
    + rewrite (D j i a a L Ei Na) in R. discriminate.
  - intros N i j a b L Ni Nj. destruct (eq b a) eqn:Q; [|reflexivity]. apply E in Q. subst b.
    assert (i = j); [|lia]. apply (proj1 (NoDup_nth_error l) N); [apply nth_error_Some; congruence|congruence].
Qed.

(** ** A formula that is valid, one that is not, and one with parts that are not looked at *)
Definition no_parsers : parsers := mkParsers (fun s => String.eqb s "2024-01-01T00:00:00Z") (fun _ => true) (fun _ => None) (fun _ => true) (fun _ => true).
(* equal by reference or name *)
Definition by_name : equalities := mkEqualities
  (fun a b => String.eqb (c_name a) (c_name b)) (fun a b => String.eqb (s_name a) (s_name b))
  (fun a b => String.eqb (wf_bom_ref a) (wf_bom_ref b)) (fun a b => String.eqb (tk_bom_ref a) (tk_bom_ref b))
  (fun a b => String.eqb (d_ref a) (d_ref b)) (fun a b => match st_name a, st_name b with Some n, Some m => String.eqb n m | _, _ => false end)
  (fun _ _ => false) (fun _ _ => false) (fun a b => String.eqb (ws_bom_ref a) (ws_bom_ref b)) (fun _ _ => false) (fun _ _ => false).
Definition a_task (r : string) (start : string) (props : option (list property)) : task :=
  mkTask r "u" None None None [TTBuild] None (Some [mkStep None None (Some "s") None]) None None (Some start) None None None props.
Definition a_workflow (ts : list task) (ws : option (list workspace)) (props : option (list property)) : workflow :=
  mkWorkflow "w" "u" None None None (Some ts) None [TTCopy] None None None None None None ws None props.
Definition a_formula (w : workflow) : formula := mkFormula None None None (Some [w]) None.
Definition time : string := "2024-01-01T00:00:00Z".
Example C59_case :
  valid_formula no_parsers by_name V1_5 (a_formula (a_workflow [a_task "t" time None; a_task "t2" time None] None None))
  /\ ~ valid_formula no_parsers by_name V1_5 (a_formula (a_workflow [a_task "t" time None; a_task "t" time None] None None))
  /\ validate_formula no_parsers by_name V1_5 (a_formula (a_workflow [a_task "t" "now" None] None None))
     = Done [("workflows", ErrList [(0, [("tasks", ErrList [(0, [("time_start",
         ErrField ["DateTime does not conform to ISO 8601"])])])])])].
Proof.
  split; [apply formula_iff; vm_compute; reflexivity|]. split; [|vm_compute; reflexivity].
  intros H. apply formula_iff in H. vm_compute in H. discriminate.
Qed.
(** the properties of workflows and tasks and the volumes of workspaces are not checked *)
Theorem C59_all_parts_checked_refuted : exists x q f w t s o,
  fo_workflows f = Some [w] /\ wf_tasks w = Some [t] /\ wf_workspaces w = Some [s] /\ ws_volume s = Some o /\
  ~ properties_ok (wf_properties w) /\ ~ properties_ok (tk_properties t) /\ ~ properties_ok (ws_properties s) /\ ~ valid_volume o /\
  validate_formula x q V1_5 f = Done [].
Proof.
  set (bad := Some [mkProp "n" (String LF "")]).
  set (o := mkVolume None None (VMUnknown "?") None None None None None).
  set (s := mkWorkspace "s" "u" None None None None None None None None (Some o) bad).
  set (t := a_task "t" time bad). set (w := a_workflow [t] (Some [s]) bad).
  exists no_parsers, by_name, (a_formula w), w, t, s, o.
  assert (B : ~ properties_ok bad).
  { intros [H _]. destruct H as (_ & H & _). apply H. exists "", "". reflexivity. }
  split; [reflexivity|]. split; [reflexivity|]. split; [reflexivity|]. split; [reflexivity|].
  split; [exact B|]. split; [exact B|]. split; [exact B|]. split; [|vm_compute; reflexivity].
  intros H. apply (H "?"). reflexivity.
Qed.

Print Assumptions C59_formula_passes_iff_valid.
Print Assumptions C59_parts_pass_iff_valid.
Print Assumptions C59_validation_returns.
Print Assumptions C59_findings.
Print Assumptions C59_findings_in_parts.
Print Assumptions C59_not_before_1_5.
Print Assumptions C59_different_is_nodup.
Print Assumptions C59_bom_ignores_formulas.
Print Assumptions C59_all_parts_checked_refuted.

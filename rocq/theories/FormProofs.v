(** Formulas: every validator returns, passes exactly on valid values and files findings under the right names. *)
From Verif Require Import Base ModelTypes Strings Regex Enums ValModel ValSpec ValLocSpec ValProofs ValProofs2 ValProofs3 ValProofs4
  ValLocate FormModel FormSpec.
Open Scope string_scope.
Open Scope list_scope.

(** ** Unique lists *)
Lemma unique_pass {A} eqb (f : A -> outcome vresult) (P : A -> Prop) l : (forall a, f a = Done [] <-> P a) -> forall seen,
  Forall (fun o => o = Done []) (unique_items eqb f seen l) <->
  (different eqb l /\ (forall a b, In a l -> In b seen -> eqb a b = false)) /\ every P l.
Proof.
  intros H. induction l as [|a l IH]; intros seen; cbn [unique_items every].
  - split; [|constructor]. intros _. repeat split.
    + intros i j ? ? _ N. destruct i; discriminate N.
    + intros ? ? [].
  - rewrite Forall_cons_iff, IH. clear IH. split.
    + intros [Ha [[D S] E]]. destruct (existsb (eqb a) seen) eqn:X; [discriminate|]. apply H in Ha.
      assert (Z : forall b, In b seen -> eqb a b = false).
      { intros b Hb. destruct (eqb a b) eqn:Q; [|reflexivity]. exfalso. apply not_true_iff_false in X. apply X. apply existsb_exists. eauto. }
      repeat split; auto.
      * intros [|i] [|j] c d L Nc Nd; cbn [nth_error] in *; try lia.
        -- injection Nc as <-. apply S; [eapply nth_error_In; eauto|now left].
        -- apply (D i j); auto. lia.
      * intros c b [<-|Hc] Hb; [auto|]. apply S; [exact Hc|now right].
    + intros [[D S] [Pa E]]. split; [|split; [split|exact E]].
      * replace (existsb (eqb a) seen) with false; [now apply H|]. symmetry. apply not_true_iff_false. rewrite existsb_exists.
        intros (b & Hb & Q). rewrite (S a b) in Q; [discriminate|now left|exact Hb].
      * intros i j c d L Nc Nd. apply (D (1 + i) (1 + j)); auto. lia.
      * intros c b Hc [<-|Hb]; [|apply S; [now right|exact Hb]]. apply In_nth_error in Hc. destruct Hc as [j Hj].
        apply (D 0 (1 + j)); auto. lia.
Qed.
Lemma pass_unique_opt {A} eqb (f : A -> outcome vresult) (P : A -> Prop) o : (forall a, f a = Done [] <-> P a) ->
  (slot_pass (unique_opt eqb f o) <-> a_set eqb o P).
Proof.
  intros H. destruct o as [l|]; cbn; [|tauto]. rewrite (unique_pass eqb f P l H []). split; [tauto|].
  intros [D E]. split; [split; [exact D|intros ? ? _ []]|exact E].
Qed.
Lemma task_type_iff a : validate_task_type a = None <-> (forall t, a <> TTUnknown t).
Proof. revert a. enum_iff. Qed.
Lemma output_type_iff a : validate_output_type a = None <-> (forall t, a <> OTUnknown t).
Proof. revert a. enum_iff. Qed.
Lemma trigger_type_iff a : validate_trigger_type a = None <-> (forall t, a <> TgUnknown t).
Proof. revert a. enum_iff. Qed.
Lemma access_mode_iff a : validate_access_mode a = None <-> (forall t, a <> AMUnknown t).
Proof. revert a. enum_iff. Qed.
Lemma volume_mode_iff a : validate_volume_mode a = None <-> (forall t, a <> VMUnknown t).
Proof. revert a. enum_iff. Qed.
(** a chain passes exactly if its rules hold *)
Lemma run_holds sl fields : nodupb (map fst sl) = true -> Forall2 matches sl fields -> (run sl = Done [] <-> holds fields).
Proof.
  intros N F. rewrite run_pass by exact N. clear N. unfold holds. induction F as [|[k s] [k' P] sl fields [_ M] _ IH]; cbn [map snd fst] in *.
  - split; [intros _ ? ? []|constructor].
  - rewrite Forall_cons_iff, IH, M. split.
    + intros [HP HF] k0 P0 [[= <- <-]|I]; [exact HP|]. apply (HF _ _ I).
    + intros HF. split; [apply (HF k' P); now left|]. intros k0 P0 I. apply (HF k0 P0). now right.
Qed.

Section FORM.
Variable x : parsers.
Variable q : equalities.
Variable v : spec_version.
Hint Resolve bom_ref_iff date_time_iff attachment_iff properties_iff ext_ref_iff component_iff service_iff
  task_type_iff output_type_iff trigger_type_iff access_mode_iff volume_mode_iff : viff.
Lemma always_iff : Done (A := vresult) [] = Done [] <-> True.
Proof. tauto. Qed.
Hint Resolve always_iff : viff.
Ltac leaf := intros; first [ solve [auto with viff nocore] | apply lift_pass; solve [auto with viff nocore] ].
Ltac slot_tac := cbv beta; first
  [ apply pass_field; leaf | apply pass_struct; leaf
  | apply pass_field_opt; leaf
  | apply pass_items_opt; leaf | apply pass_struct_opt; leaf | apply pass_items; leaf
  | apply pass_unique_opt; leaf ].
Ltac run_pass_tac := rewrite run_pass by reflexivity; cbn [map snd app];
  repeat first [ apply pass_cons; [slot_tac|] | apply pass_one; slot_tac ].
Ltac rules := repeat (apply Forall2_cons || apply Forall2_nil); (split; [reflexivity|]); cbn [fst snd]; slot_tac.
Ltac run_holds_tac := apply run_holds; [reflexivity|]; rules.

Lemma resource_iff r : validate_resource_reference x v r = Done [] <-> valid_resource x v r.
Proof. destruct r; unfold validate_resource_reference, valid_resource; [split; auto|run_pass_tac]. Qed.
Hint Resolve resource_iff : viff.
Lemma input_iff i : validate_input x v i = Done [] <-> valid_input x v i.
Proof.
  unfold validate_input, valid_input, properties_ok. destruct (in_required i); cbn [app]; rewrite run_pass by reflexivity; cbn [map snd].
  all: try match goal with |- Forall _ ?l <-> True /\ ?P => assert (X : Forall slot_pass l <-> P); [|tauto] end.
  all: repeat first [ apply pass_cons; [slot_tac|] | apply pass_one; slot_tac ].
Qed.
Lemma output_iff o : validate_output x v o = Done [] <-> valid_output x v o.
Proof.
  unfold validate_output, valid_output, properties_ok. destruct (ou_required o); cbn [app]; rewrite run_pass by reflexivity; cbn [map snd].
  all: try match goal with |- Forall _ ?l <-> True /\ ?P => assert (X : Forall slot_pass l <-> P); [|tauto] end.
  all: repeat first [ apply pass_cons; [slot_tac|] | apply pass_one; slot_tac ].
Qed.
Lemma command_iff c : validate_command c = Done [] <-> properties_ok (cmd_properties c).
Proof. unfold validate_command, properties_ok. run_pass_tac. Qed.
Hint Resolve input_iff output_iff command_iff : viff.
Lemma step_iff s : validate_step s = Done [] <-> valid_step s.
Proof. unfold validate_step, valid_step, properties_ok at 2. run_pass_tac. Qed.
Lemma volume_iff o : validate_volume o = Done [] <-> valid_volume o.
Proof. unfold validate_volume, valid_volume. run_pass_tac. Qed.
Lemma workspace_iff w : validate_workspace x q v w = Done [] <-> valid_workspace x q v w.
Proof. unfold validate_workspace, valid_workspace. run_pass_tac. Qed.
Lemma condition_iff c : validate_condition c = Done [] <-> valid_condition c.
Proof. unfold validate_condition, valid_condition, properties_ok. run_pass_tac. Qed.
Lemma event_iff e : validate_event x v e = Done [] <-> valid_event x v e.
Proof. unfold validate_event, valid_event, properties_ok. run_pass_tac. Qed.
Hint Resolve step_iff workspace_iff condition_iff event_iff : viff.
Lemma trigger_rules t : exists sl, validate_trigger x q v t = run sl /\ nodupb (map fst sl) = true /\ Forall2 matches sl (fields_of_trigger x q v t).
Proof. unfold validate_trigger, fields_of_trigger, properties_ok. eexists. split; [reflexivity|]. split; [reflexivity|]. rules. Qed.
Lemma trigger_iff t : validate_trigger x q v t = Done [] <-> valid_trigger x q v t.
Proof. destruct (trigger_rules t) as (sl & -> & N & M). now apply run_holds. Qed.
Hint Resolve trigger_iff : viff.
Lemma task_rules t : exists sl, validate_task x q v t = run sl /\ nodupb (map fst sl) = true /\ Forall2 matches sl (fields_of_task x q v t).
Proof. unfold validate_task, fields_of_task. eexists. split; [reflexivity|]. split; [reflexivity|]. rules. Qed.
Lemma task_iff t : validate_task x q v t = Done [] <-> valid_task x q v t.
Proof. destruct (task_rules t) as (sl & -> & N & M). now apply run_holds. Qed.
Hint Resolve task_iff : viff.
Lemma workflow_rules w : exists sl, validate_workflow x q v w = run sl /\ nodupb (map fst sl) = true /\ Forall2 matches sl (fields_of_workflow x q v w).
Proof. unfold validate_workflow, fields_of_workflow. eexists. split; [reflexivity|]. split; [reflexivity|]. rules. Qed.
Lemma workflow_iff w : validate_workflow x q v w = Done [] <-> valid_workflow x q v w.
Proof. destruct (workflow_rules w) as (sl & -> & N & M). now apply run_holds. Qed.
Hint Resolve workflow_iff : viff.
Lemma formula_rules f : v = V1_5 -> exists sl, validate_formula x q v f = run sl /\ nodupb (map fst sl) = true /\ Forall2 matches sl (fields_of_formula x q v f).
Proof.
  intros E. unfold validate_formula, fields_of_formula, properties_ok. revert E. 
  assert (H : exists sl, run [ ("components", unique_opt (eq_component q) (validate_component x v) (fo_components f));
            ("services", unique_opt (eq_service q) (validate_service x v) (fo_services f));
            ("workflows", unique_opt (eq_workflow q) (validate_workflow x q v) (fo_workflows f));
            ("properties", struct_opt validate_properties (fo_properties f)) ] = run sl /\ nodupb (map fst sl) = true /\
      Forall2 matches sl (fields_of_formula x q v f)).
  { eexists. split; [reflexivity|]. split; [reflexivity|]. unfold fields_of_formula, properties_ok. rules. }
  destruct v; try discriminate. intros _. exact H.
Qed.
Lemma formula_iff f : validate_formula x q v f = Done [] <-> valid_formula x q v f.
Proof.
  unfold valid_formula. split.
  - intros H. assert (E : v = V1_5) by (destruct v; [discriminate H|discriminate H|reflexivity]). split; [exact E|].
    destruct (formula_rules f E) as (sl & R & N & M). rewrite R in H. exact (proj1 (run_holds sl _ N M) H).
  - intros [E H]. destruct (formula_rules f E) as (sl & -> & N & M). exact (proj2 (run_holds sl _ N M) H).
Qed.

Ltac part_rules := eexists; split; [reflexivity|]; split; [reflexivity|]; unfold valid_volume; cbn [app]; rules.
Definition ruled (o : outcome vresult) (fields : list (string * Prop)) : Prop :=
  exists sl, o = run sl /\ nodupb (map fst sl) = true /\ Forall2 matches sl fields.
Lemma resource_rules r : ruled (validate_resource_reference x v r) (fields_of_resource x v r).
Proof. unfold ruled, validate_resource_reference, fields_of_resource. destruct r; [exists []; repeat split; constructor|part_rules]. Qed.
Lemma input_rules i : ruled (validate_input x v i) (fields_of_input x v i).
Proof. unfold ruled, validate_input, fields_of_input, properties_ok. destruct (in_required i); part_rules. Qed.
Lemma output_rules i : ruled (validate_output x v i) (fields_of_output x v i).
Proof. unfold ruled, validate_output, fields_of_output, properties_ok. destruct (ou_required i); part_rules. Qed.
Lemma command_rules c : ruled (validate_command c) (fields_of_command c).
Proof. unfold ruled, validate_command, fields_of_command, properties_ok. part_rules. Qed.
Lemma step_rules c : ruled (validate_step c) (fields_of_step c).
Proof. unfold ruled, validate_step, fields_of_step, properties_ok at 2. part_rules. Qed.
Lemma volume_rules c : ruled (validate_volume c) (fields_of_volume c).
Proof. unfold ruled, validate_volume, fields_of_volume. part_rules. Qed.
Lemma workspace_rules w : ruled (validate_workspace x q v w) (fields_of_workspace x q v w).
Proof. unfold ruled, validate_workspace, fields_of_workspace. part_rules. Qed.
Lemma condition_rules c : ruled (validate_condition c) (fields_of_condition c).
Proof. unfold ruled, validate_condition, fields_of_condition, properties_ok. part_rules. Qed.
Lemma event_rules e : ruled (validate_event x v e) (fields_of_event x v e).
Proof. unfold ruled, validate_event, fields_of_event, properties_ok. part_rules. Qed.
Lemma ruled_files o fields r : ruled o fields -> o = Done r -> files_under r fields.
Proof. intros (sl & R & N & M) H. rewrite R in H. eapply run_files; eauto. Qed.

(** ** Every validator returns *)
Hint Resolve attachment_safe properties_safe external_reference_safe component_safe service_safe : vsafe.
Ltac returns := apply run_safe; [reflexivity|]; forall_slots; auto with vsafe.
Lemma resource_safe r : safe (validate_resource_reference x v r).
Proof. destruct r; unfold validate_resource_reference; returns. Qed.
Hint Resolve resource_safe : vsafe.
Lemma input_safe i : safe (validate_input x v i).
Proof. unfold validate_input. destruct (in_required i); cbn [app]; returns. Qed.
Lemma output_safe o : safe (validate_output x v o).
Proof. unfold validate_output. destruct (ou_required o); cbn [app]; returns. Qed.
Lemma command_safe c : safe (validate_command c).
Proof. unfold validate_command. returns. Qed.
Hint Resolve input_safe output_safe command_safe : vsafe.
Lemma step_safe s : safe (validate_step s).
Proof. unfold validate_step. returns. Qed.
Lemma volume_safe o : safe (validate_volume o).
Proof. unfold validate_volume. returns. Qed.
Lemma workspace_safe w : safe (validate_workspace x q v w).
Proof. unfold validate_workspace. returns. Qed.
Lemma condition_safe c : safe (validate_condition c).
Proof. unfold validate_condition. returns. Qed.
Lemma event_safe e : safe (validate_event x v e).
Proof. unfold validate_event. returns. Qed.
Lemma nothing_safe : safe (Done (A := vresult) []).
Proof. eexists; reflexivity. Qed.
Hint Resolve step_safe workspace_safe condition_safe event_safe nothing_safe : vsafe.
Lemma trigger_safe t : safe (validate_trigger x q v t).
Proof. unfold validate_trigger. returns. Qed.
Hint Resolve trigger_safe : vsafe.
Lemma task_safe t : safe (validate_task x q v t).
Proof. unfold validate_task. returns. Qed.
Hint Resolve task_safe : vsafe.
Lemma workflow_safe w : safe (validate_workflow x q v w).
Proof. unfold validate_workflow. returns. Qed.
Hint Resolve workflow_safe : vsafe.
Lemma formula_safe f : safe (validate_formula x q v f).
Proof. unfold validate_formula. destruct v eqn:E; [eexists; reflexivity..|]. rewrite <- E. returns. Qed.
End FORM.

(** When a formula is valid (C59), and under which names findings about it are filed.  This file does not refer to the
    validators. *)
From Verif Require Import Base ModelTypes Strings Enums ValModel ValSpec ValLocSpec FormModel.
Open Scope string_scope.
Open Scope list_scope.

(** no two elements are equal *)
Definition different {A} (eq : A -> A -> bool) (l : list A) : Prop :=
  forall i j a b, i < j -> nth_error l i = Some a -> nth_error l j = Some b -> eq b a = false.
Definition a_set {A} (eq : A -> A -> bool) (o : option (list A)) (P : A -> Prop) : Prop :=
  when o (fun l => different eq l /\ every P l).

Section VALID.
Variable x : parsers.
Variable q : equalities.
Variable v : spec_version.
Definition properties_ok (o : option (list property)) : Prop := every_in o valid_property.

Definition valid_resource (r : resource_reference) : Prop :=
  match r with RRRef _ => True | RRExternal e => valid_ext_ref x v e end.
Definition valid_input (i : input) : Prop :=
  match in_required i with RIResource r => valid_resource r | RIData a => valid_attachment a | _ => True end
  /\ when (in_source i) valid_resource /\ when (in_target i) valid_resource /\ properties_ok (in_properties i).
Definition valid_output (o : output) : Prop :=
  match ou_required o with ROResource r => valid_resource r | ROData a => valid_attachment a | _ => True end
  /\ when (ou_type o) (fun t => forall s, t <> OTUnknown s)
  /\ when (ou_source o) valid_resource /\ when (ou_target o) valid_resource /\ properties_ok (ou_properties o).
Definition valid_step (s : step) : Prop :=
  every_in (st_commands s) (fun c => properties_ok (cmd_properties c)) /\ properties_ok (st_properties s).
Definition valid_volume (o : volume) : Prop := forall s, vo_mode o <> VMUnknown s.
(** the volume carries no rule *)
Definition valid_workspace (w : workspace) : Prop :=
  a_set (eq_resource q) (ws_resource_references w) valid_resource
  /\ when (ws_access_mode w) (fun m => forall s, m <> AMUnknown s).
Definition valid_condition (c : condition) : Prop := properties_ok (cn_properties c).
Definition valid_event (e : event) : Prop :=
  when (e_time_received e) (is_time x) /\ when (e_data e) valid_attachment /\ when (e_source e) valid_resource
  /\ when (e_target e) valid_resource /\ properties_ok (e_properties e).
Definition fields_of_trigger (t : trigger) : list (string * Prop) :=
  [ ("bom_ref", v = V1_5);
    ("resource_reference", every_in (tr_resource_references t) valid_resource);
    ("type", forall s, tr_type t <> TgUnknown s);
    ("event", when (tr_event t) valid_event);
    ("conditions", a_set (eq_condition q) (tr_conditions t) valid_condition);
    ("time_activated", when (tr_time_activated t) (is_time x));
    ("inputs", a_set (eq_input q) (tr_inputs t) valid_input);
    ("outputs", a_set (eq_output q) (tr_outputs t) valid_output);
    ("properties", properties_ok (tr_properties t)) ].
Definition holds (fields : list (string * Prop)) : Prop := forall k P, In (k, P) fields -> P.
Definition valid_trigger (t : trigger) : Prop := holds (fields_of_trigger t).
(** the properties of tasks and workflows carry no rule *)
Definition fields_of_task (t : task) : list (string * Prop) :=
  [ ("resource_references", every_in (tk_resource_references t) valid_resource);
    ("task_types", every (fun t => forall s, t <> TTUnknown s) (tk_task_types t));
    ("trigger", when (tk_trigger t) valid_trigger);
    ("steps", a_set (eq_step q) (tk_steps t) valid_step);
    ("inputs", a_set (eq_input q) (tk_inputs t) valid_input);
    ("outputs", a_set (eq_output q) (tk_outputs t) valid_output);
    ("time_start", when (tk_time_start t) (is_time x));
    ("time_end", when (tk_time_end t) (is_time x));
    ("workspaces", a_set (eq_workspace q) (tk_workspaces t) valid_workspace);
    ("runtime_topology", a_set (eq_dependency q) (tk_runtime_topology t) (fun _ => True)) ].
Definition valid_task (t : task) : Prop := holds (fields_of_task t).
Definition fields_of_workflow (w : workflow) : list (string * Prop) :=
  [ ("resource_references", every_in (wf_resource_references w) valid_resource);
    ("tasks", a_set (eq_task q) (wf_tasks w) valid_task);
    ("task_dependencies", a_set (eq_dependency q) (wf_task_dependencies w) (fun _ => True));
    ("task_types", every (fun t => forall s, t <> TTUnknown s) (wf_task_types w));
    ("trigger", when (wf_trigger w) valid_trigger);
    ("steps", a_set (eq_step q) (wf_steps w) valid_step);
    ("inputs", a_set (eq_input q) (wf_inputs w) valid_input);
    ("outputs", a_set (eq_output q) (wf_outputs w) valid_output);
    ("time_start", when (wf_time_start w) (is_time x));
    ("time_end", when (wf_time_end w) (is_time x));
    ("workspaces", a_set (eq_workspace q) (wf_workspaces w) valid_workspace);
    ("runtime_topology", a_set (eq_dependency q) (wf_runtime_topology w) (fun _ => True)) ].
Definition valid_workflow (w : workflow) : Prop := holds (fields_of_workflow w).
Definition fields_of_formula (f : formula) : list (string * Prop) :=
  [ ("components", a_set (eq_component q) (fo_components f) (valid_component x v));
    ("services", a_set (eq_service q) (fo_services f) (valid_service x v));
    ("workflows", a_set (eq_workflow q) (fo_workflows f) valid_workflow);
    ("properties", properties_ok (fo_properties f)) ].
(** there are formulas from 1.5 on *)
Definition valid_formula (f : formula) : Prop := v = V1_5 /\ holds (fields_of_formula f).
(** the rules of the smaller parts, by the names under which findings are filed *)
Definition fields_of_resource (r : resource_reference) : list (string * Prop) :=
  match r with RRRef _ => [] | RRExternal e => [ ("external_reference", valid_ext_ref x v e) ] end.
Definition fields_of_input (i : input) : list (string * Prop) :=
  match in_required i with
  | RIResource r => [ ("resource", valid_resource r) ] | RIData a => [ ("data", valid_attachment a) ] | _ => []
  end
  ++ [ ("source", when (in_source i) valid_resource); ("target", when (in_target i) valid_resource);
       ("properties", properties_ok (in_properties i)) ].
Definition fields_of_output (o : output) : list (string * Prop) :=
  match ou_required o with
  | ROResource r => [ ("resource", valid_resource r) ] | ROData a => [ ("data", valid_attachment a) ] | _ => []
  end
  ++ [ ("type", when (ou_type o) (fun t => forall s, t <> OTUnknown s));
       ("source", when (ou_source o) valid_resource); ("target", when (ou_target o) valid_resource);
       ("properties", properties_ok (ou_properties o)) ].
Definition fields_of_command (c : command) : list (string * Prop) := [ ("properties", properties_ok (cmd_properties c)) ].
Definition fields_of_step (s : step) : list (string * Prop) :=
  [ ("commands", every_in (st_commands s) (fun c => properties_ok (cmd_properties c)));
    ("properties", properties_ok (st_properties s)) ].
Definition fields_of_volume (o : volume) : list (string * Prop) := [ ("mode", valid_volume o) ].
Definition fields_of_workspace (w : workspace) : list (string * Prop) :=
  [ ("resource_references", a_set (eq_resource q) (ws_resource_references w) valid_resource);
    ("access_mode", when (ws_access_mode w) (fun m => forall s, m <> AMUnknown s)) ].
Definition fields_of_condition (c : condition) : list (string * Prop) := [ ("properties", properties_ok (cn_properties c)) ].
Definition fields_of_event (e : event) : list (string * Prop) :=
  [ ("time_received", when (e_time_received e) (is_time x)); ("data", when (e_data e) valid_attachment);
    ("source", when (e_source e) valid_resource); ("target", when (e_target e) valid_resource);
    ("properties", properties_ok (e_properties e)) ].
End VALID.

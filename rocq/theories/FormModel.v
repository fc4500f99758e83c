(** Validation of formulas: the [Validate] implementations of
    [cyclonedx-bom/src/models/formulation], which validating a BOM does not reach. *)
From Verif Require Import Base ModelTypes Strings Enums ValModel JsonModel.
Open Scope string_scope.
Open Scope list_scope.

(** The derived [Eq] of the elements of unique lists (the hash sets of validation.rs:254 compare with it) *)
Record equalities := mkEqualities {
  eq_component : component -> component -> bool;
  eq_service : service -> service -> bool;
  eq_workflow : workflow -> workflow -> bool;
  eq_task : task -> task -> bool;
  eq_dependency : dependency -> dependency -> bool;
  eq_step : step -> step -> bool;
  eq_input : input -> input -> bool;
  eq_output : output -> output -> bool;
  eq_workspace : workspace -> workspace -> bool;
  eq_condition : condition -> condition -> bool;
  eq_resource : resource_reference -> resource_reference -> bool }.

(** models/formulation/workflow/mod.rs:177-188 *)
Definition validate_task_type (t : task_type) : check :=
  match t with TTUnknown _ => Some "unknown task type" | _ => None end.
(** models/formulation/workflow/output.rs:78-89 *)
Definition validate_output_type (t : output_type) : check :=
  match t with OTUnknown _ => Some "unknown output type" | _ => None end.
(** models/formulation/workflow/trigger.rs:89-100 *)
Definition validate_trigger_type (t : trigger_type) : check :=
  match t with TgUnknown _ => Some "unknown trigger type" | _ => None end.
(** models/formulation/workflow/workspace.rs:68-73 *)
Definition validate_access_mode (m : access_mode) : check :=
  match m with AMUnknown _ => Some "Unknown access mode" | _ => None end.
(** models/formulation/workflow/workspace.rs:116-121 *)
Definition validate_volume_mode (m : volume_mode) : check :=
  match m with VMUnknown _ => Some "Unknown mode" | _ => None end.

Section FORM.
Variable x : parsers.
Variable q : equalities.
Variable v : spec_version.

(** models/formulation/workflow/resource_reference.rs:11-24 *)
Definition validate_resource_reference (r : resource_reference) : outcome vresult :=
  match r with
  | RRRef _ => run []
  | RRExternal e => run [ ("external_reference", struct (validate_external_reference x v) e) ]
  end.
(** models/formulation/workflow/input.rs:17-39 *)
Definition validate_input (i : input) : outcome vresult :=
  run (match in_required i with
       | RIResource r => [ ("resource", struct validate_resource_reference r) ]
       | RIData a => [ ("data", struct validate_attachment a) ]
       | _ => []
       end
       ++ [ ("source", struct_opt validate_resource_reference (in_source i));
            ("target", struct_opt validate_resource_reference (in_target i));
            ("properties", struct_opt validate_properties (in_properties i)) ]).
(** models/formulation/workflow/output.rs:18-41 *)
Definition validate_output (o : output) : outcome vresult :=
  run (match ou_required o with
       | ROResource r => [ ("resource", struct validate_resource_reference r) ]
       | ROData a => [ ("data", struct validate_attachment a) ]
       | _ => []
       end
       ++ [ ("type", struct_opt (lift validate_output_type) (ou_type o));
            ("source", struct_opt validate_resource_reference (ou_source o));
            ("target", struct_opt validate_resource_reference (ou_target o));
            ("properties", struct_opt validate_properties (ou_properties o)) ]).
(** models/formulation/workflow/step.rs:31-40 *)
Definition validate_command (c : command) : outcome vresult :=
  run [ ("properties", struct_opt validate_properties (cmd_properties c)) ].
(** models/formulation/workflow/step.rs:11-23 *)
Definition validate_step (s : step) : outcome vresult :=
  run [ ("commands", items_opt validate_command (st_commands s));
        ("properties", struct_opt validate_properties (st_properties s)) ].
(** models/formulation/workflow/workspace.rs:87-93 *)
Definition validate_volume (o : volume) : outcome vresult :=
  run [ ("mode", field validate_volume_mode (vo_mode o)) ].
(** models/formulation/workflow/workspace.rs:25-40: the volume and the properties are not looked at *)
Definition validate_workspace (w : workspace) : outcome vresult :=
  run [ ("resource_references", unique_opt (eq_resource q) validate_resource_reference (ws_resource_references w));
        ("access_mode", field_opt validate_access_mode (ws_access_mode w)) ].
(** models/formulation/workflow/trigger.rs:139-148 *)
Definition validate_condition (c : condition) : outcome vresult :=
  run [ ("properties", struct_opt validate_properties (cn_properties c)) ].
(** models/formulation/workflow/trigger.rs:113-130 *)
Definition validate_event (e : event) : outcome vresult :=
  run [ ("time_received", field_opt (validate_date_time x) (e_time_received e));
        ("data", struct_opt validate_attachment (e_data e));
        ("source", struct_opt validate_resource_reference (e_source e));
        ("target", struct_opt validate_resource_reference (e_target e));
        ("properties", struct_opt validate_properties (e_properties e)) ].
(** models/formulation/workflow/trigger.rs:30-64 *)
Definition validate_trigger (t : trigger) : outcome vresult :=
  run [ ("bom_ref", field (validate_bom_ref v) (tr_bom_ref t));
        ("resource_reference", items_opt validate_resource_reference (tr_resource_references t));
        ("type", struct (lift validate_trigger_type) (tr_type t));
        ("event", struct_opt validate_event (tr_event t));
        ("conditions", unique_opt (eq_condition q) validate_condition (tr_conditions t));
        ("time_activated", field_opt (validate_date_time x) (tr_time_activated t));
        ("inputs", unique_opt (eq_input q) validate_input (tr_inputs t));
        ("outputs", unique_opt (eq_output q) validate_output (tr_outputs t));
        ("properties", struct_opt validate_properties (tr_properties t)) ].
(** models/formulation/workflow/mod.rs:102-139: the properties are not looked at *)
Definition validate_task (t : task) : outcome vresult :=
  run [ ("resource_references", items_opt validate_resource_reference (tk_resource_references t));
        ("task_types", items (lift validate_task_type) (tk_task_types t));
        ("trigger", struct_opt validate_trigger (tk_trigger t));
        ("steps", unique_opt (eq_step q) validate_step (tk_steps t));
        ("inputs", unique_opt (eq_input q) validate_input (tk_inputs t));
        ("outputs", unique_opt (eq_output q) validate_output (tk_outputs t));
        ("time_start", field_opt (validate_date_time x) (tk_time_start t));
        ("time_end", field_opt (validate_date_time x) (tk_time_end t));
        ("workspaces", unique_opt (eq_workspace q) validate_workspace (tk_workspaces t));
        ("runtime_topology", unique_opt (eq_dependency q) (fun _ => Done []) (tk_runtime_topology t)) ].
(** models/formulation/workflow/mod.rs:41-81: the properties are not looked at *)
Definition validate_workflow (w : workflow) : outcome vresult :=
  run [ ("resource_references", items_opt validate_resource_reference (wf_resource_references w));
        ("tasks", unique_opt (eq_task q) validate_task (wf_tasks w));
        ("task_dependencies", unique_opt (eq_dependency q) (fun _ => Done []) (wf_task_dependencies w));
        ("task_types", items (lift validate_task_type) (wf_task_types w));
        ("trigger", struct_opt validate_trigger (wf_trigger w));
        ("steps", unique_opt (eq_step q) validate_step (wf_steps w));
        ("inputs", unique_opt (eq_input q) validate_input (wf_inputs w));
        ("outputs", unique_opt (eq_output q) validate_output (wf_outputs w));
        ("time_start", field_opt (validate_date_time x) (wf_time_start w));
        ("time_end", field_opt (validate_date_time x) (wf_time_end w));
        ("workspaces", unique_opt (eq_workspace q) validate_workspace (wf_workspaces w));
        ("runtime_topology", unique_opt (eq_dependency q) (fun _ => Done []) (wf_runtime_topology w)) ].
(** models/formulation/mod.rs:21-48; [Display] of a version: models/bom.rs:48-59 *)
Definition validate_formula (f : formula) : outcome vresult :=
  match v with
  | V1_3 | V1_4 => Done (from_check (Some ("Formula is not defined for version " ++ version_text v)%string))
  | V1_5 =>
      run [ ("components", unique_opt (eq_component q) (validate_component x v) (fo_components f));
            ("services", unique_opt (eq_service q) (validate_service x v) (fo_services f));
            ("workflows", unique_opt (eq_workflow q) validate_workflow (fo_workflows f));
            ("properties", struct_opt validate_properties (fo_properties f)) ]
  end.
End FORM.

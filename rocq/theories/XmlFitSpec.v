(** Which BOMs can be read after they were saved as XML (C64): every part of the BOM of one of the kinds below, that the
    saved document has, is such that [part_fits] holds of it. *)
From Verif Require Import Base ModelTypes Strings Enums Xml JsonSpec.
Open Scope string_scope.
Open Scope list_scope.

Inductive part :=
| PText (x : attached_text)        (* the text of a license, a diff or a SWID tag *)
| PLicense (x : license_identifier)
| PAttachment (x : attachment)
| PFlow (x : service_data)         (* a flow of data of a service *)
| PRange (x : version_range)       (* an affected version *)
| PDataset (x : dataset)           (* a data set a model was trained with *)
| PResource (x : resource_reference)
| PInput (x : required_input)
| PTask (x : task)
| PVersion (x : option string).    (* the version of a component *)

Definition not_blank (s : string) : Prop := xtrim s <> "".
Definition part_fits (w : spec_version) (p : part) : Prop :=
  match p with
  | PText x => not_blank (at_content x)
  | PLicense (LSpdxId s) | PLicense (LName s) => not_blank s
  | PAttachment x => not_blank (att_content x) /\ (att_encoding x = None \/ att_content_type x = None)
  | PFlow x => sd_name x = None \/ sd_description x = None
  | PRange (VRUndefined _) => False
  | PDataset (DSReference _) => False
  | PResource (RRExternal _) => False
  | PInput (RIParameters _) => False
  | PTask _ => False
  | PVersion x => w = V1_3 -> x <> None
  | _ => True
  end.

(** ** The parts of a BOM that are in the document saved for the version [w] *)
Definition in_some {A} (f : A -> list part) (o : option A) : list part := match o with Some a => f a | None => [] end.
Definition in_all {A} (f : A -> list part) (o : option (list A)) : list part := in_some (flat_map f) o.
Section PARTS.
Context (w : spec_version).
Definition new (l : list part) : list part := if version_leb V1_5 w then l else [].

Definition parts_license (x : license) : list part :=
  PLicense (l_identifier x) :: in_some (fun t => [PText t]) (l_text x).
Definition parts_license_choice (x : license_choice) : list part :=
  match x with LicLicense l => parts_license l | LicExpression _ _ => [] end.
Definition parts_licenses := in_all parts_license_choice.
Definition parts_diff (x : diff) : list part := in_some (fun t => [PText t]) (df_text x).
Definition parts_patch (x : patch) : list part := in_some parts_diff (pa_diff x).
Definition parts_pedigree {C} (f : C -> list part) (x : pedigree_ C) : list part :=
  in_all f (pd_ancestors x) ++ in_all f (pd_descendants x) ++ in_all f (pd_variants x) ++ in_all parts_patch (pd_patches x).
Definition parts_graphics (x : graphics_collection) : list part :=
  in_all (fun g => in_some (fun a => [PAttachment a]) (g_image g)) (gc_collection x).
Definition parts_component_data (x : component_data) : list part :=
  in_some (fun c => in_some (fun a => [PAttachment a]) (dc_attachment c)) (cd_contents x)
  ++ in_some parts_graphics (cd_graphics x).
Definition parts_dataset (x : dataset) : list part :=
  PDataset x :: match x with DSComponent c => parts_component_data c | DSReference _ => [] end.
Definition parts_model_card (x : model_card) : list part :=
  in_some (fun p => in_all parts_dataset (mp_datasets p)) (mc_model_parameters x)
  ++ in_some (fun q => in_some parts_graphics (qa_graphics q)) (mc_quantitative_analysis x).
Definition parts_swid (x : swid) : list part := in_some (fun t => [PText t]) (sw_text x).
Fixpoint parts_component (x : component) : list part :=
  parts_licenses (c_licenses x) ++ in_some parts_swid (c_swid x)
  ++ in_some (parts_pedigree parts_component) (c_pedigree x) ++ in_all parts_component (c_components x)
  ++ in_some (fun e => parts_licenses (ev_licenses e)) (c_evidence x)
  ++ new (in_some parts_model_card (c_model_card x)) ++ new (in_some parts_component_data (c_data x))
  ++ [PVersion (c_version x)].
Definition parts_data (x : data) : list part :=
  match x with DServiceData l => new (map PFlow l) | DClassification _ => [] end.
Fixpoint parts_service (x : service) : list part :=
  in_some parts_data (s_data x) ++ parts_licenses (s_licenses x) ++ in_all parts_service (s_services x).
Definition parts_tools (x : tools) : list part :=
  match x with TList _ => [] | TObject s c => new (in_all parts_service s ++ in_all parts_component c) end.
Definition parts_metadata (x : metadata) : list part :=
  in_some parts_tools (m_tools x) ++ in_some parts_component (m_component x) ++ parts_licenses (m_licenses x).
Definition parts_vulnerability (x : vulnerability) : list part :=
  in_some parts_tools (v_tools x) ++ in_all (fun t => in_all (fun y => [PRange (ve_range y)]) (vt_versions t)) (v_targets x).
Definition parts_resource (x : resource_reference) : list part := [PResource x].
Definition parts_input (x : input) : list part :=
  (PInput (in_required x) :: match in_required x with
                             | RIResource r => [PResource r] | RIData a => [PAttachment a] | _ => [] end)
  ++ in_some parts_resource (in_source x) ++ in_some parts_resource (in_target x).
Definition parts_output (x : output) : list part :=
  match ou_required x with ROResource r => [PResource r] | ROData a => [PAttachment a] | _ => [] end
  ++ in_some parts_resource (ou_source x) ++ in_some parts_resource (ou_target x).
Definition parts_workspace (x : workspace) : list part := in_all parts_resource (ws_resource_references x).
Definition parts_event (x : ModelTypes.event) : list part :=
  in_some (fun a => [PAttachment a]) (e_data x) ++ in_some parts_resource (e_source x) ++ in_some parts_resource (e_target x).
Definition parts_trigger (x : trigger) : list part :=
  in_all parts_resource (tr_resource_references x) ++ in_some parts_event (tr_event x) ++ in_all parts_input (tr_inputs x)
  ++ in_all parts_output (tr_outputs x).
Definition parts_workflow (x : workflow) : list part :=
  in_all parts_resource (wf_resource_references x) ++ in_all (fun t => [PTask t]) (wf_tasks x)
  ++ in_some parts_trigger (wf_trigger x) ++ in_all parts_input (wf_inputs x) ++ in_all parts_output (wf_outputs x)
  ++ in_all parts_workspace (wf_workspaces x).
Definition parts_formula (x : formula) : list part :=
  in_all parts_component (fo_components x) ++ in_all parts_service (fo_services x) ++ in_all parts_workflow (fo_workflows x).
Definition parts_bom (x : bom) : list part :=
  in_some parts_metadata (b_metadata x) ++ in_all parts_component (b_components x) ++ in_all parts_service (b_services x)
  ++ (if version_leb V1_4 w then in_all parts_vulnerability (b_vulnerabilities x) else [])
  ++ new (in_all parts_formula (b_formulation x)).
End PARTS.

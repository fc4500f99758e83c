(** What a document written in XML for a version holds: [kx_x x] is the value a reader of the
    same version gets back for [x], or [None] if the document is written but cannot be read
    (the reader reports an error).  It is the value itself, except for what is listed here:
    - text loses the white space around it ([xtrim]; attributes and copyright texts of
      evidence do not);
    - what has no text where the reader wants some cannot be read ([nonblank]): attached texts,
      attachments, license ids and names;
    - organisations, contacts, diffs, sources and evidence without data are not written where the
      writer asks whether there is some ([only_if], [filter]);
    - fields the version does not have are gone ([from], [gate]), and so are those the writer
      leaves out: licensing, considerations and properties of model cards, occurrences, call stack
      and identity of evidence, proofs of concept, signature and annotations of the BOM;
    - an unknown value of an enumeration whose text names a known one becomes that one, and a few
      texts do not read back (JsonSpec.v);
    - a few things are written in a form that cannot be read: datasets that are references,
      input parameters, external references to resources, tasks, undefined version
      ranges, attachments with both an encoding and a content type, and data flows with both a name
      and a description. *)
From Verif Require Import Base ModelTypes Strings Enums Json Xml JsonSpec.
Open Scope string_scope.
Open Scope list_scope.

(** ** Helpers *)
Definition trimo (o : option string) : option string := option_map xtrim o.
Definition nonblank (s : string) : option string := match xtrim s with "" => None | t => Some t end.

(** readable if every element is *)
Section EACH.
  Context {A B : Type} (k : A -> option B).
  Fixpoint each (l : list A) : option (list B) :=
    match l with
    | [] => Some []
    | a :: l' => let? b := k a in let? l'' := each l' in Some (b :: l'')
    end.
  Definition maybe (o : option A) : option (option B) :=
    match o with None => Some None | Some a => let? b := k a in Some (Some b) end.
End EACH.
Definition gate {A} (a v : spec_version) (r : option (option A)) : option (option A) :=
  if version_leb a v then r else Some None.
Definition only_if {A} (p : A -> bool) (o : option A) : option A :=
  match o with Some a => if p a then Some a else None | None => None end.
(** a list without an element of its own: an empty one is as good as none *)
Definition some_items {A B} (g : A -> B) (o : option (list A)) : option (list B) :=
  match o with Some (a :: l) => Some (g a :: map g l) | _ => None end.

(** the value of an enumeration written as the text of an element *)
Definition in_text {A} (raw : A -> option string) (of_text : string -> A) (x : A) : A :=
  match raw x with Some s => of_text (xtrim s) | None => x end.
Definition kx_scope := in_text raw_scope scope_of_text.
Definition kx_component_data_type := in_text raw_component_data_type component_data_type_of_text.
Definition kx_phase := in_text raw_phase phase_of_text.
Definition kx_analysis_state := in_text raw_analysis_state analysis_state_of_text.
Definition kx_analysis_justification := in_text raw_analysis_justification analysis_justification_of_text.
Definition kx_analysis_response := in_text raw_analysis_response analysis_response_of_text.
Definition kx_severity := in_text raw_severity severity_of_text.
Definition kx_score_method := in_text raw_score_method score_method_of_text.
Definition kx_status := in_text raw_status status_of_text.
Definition kx_approach_type := in_text raw_approach_type approach_type_of_text.
Definition kx_task_type := in_text raw_task_type task_type_of_text.
Definition kx_output_type := in_text raw_output_type output_type_of_text.
Definition kx_trigger_type := in_text raw_trigger_type trigger_type_of_text.
Definition kx_access_mode := in_text raw_access_mode access_mode_of_text.
Definition kx_volume_mode := in_text raw_volume_mode volume_mode_of_text.
Definition kx_aggregate_type (x : aggregate_type) : aggregate_type :=
  match x with
  | AIncompleteFirstPartyProprietaryOnly => AUnknownType "incomplete_first_party_proprietary_only"
  | AUnknownType s => aggregate_type_of_text (xtrim s)
  | _ => x
  end.

(** ** Building blocks *)
Definition kx_attached_text (x : attached_text) : option attached_text :=
  let? c := nonblank (at_content x) in
  Some (mkText (at_content_type x) (option_map kept_encoding (at_encoding x)) c).
Definition kx_attachment (x : attachment) : option attachment :=
  match att_encoding x, att_content_type x with
  | Some _, Some _ => None
  | Some e, None | None, Some e => let? c := nonblank (att_content x) in Some (mkAttachment c None (Some e))
  | None, None => let? c := nonblank (att_content x) in Some (mkAttachment c None None)
  end.
Definition kx_property (x : property) : property := mkProp (p_name x) (xtrim (p_value x)).
Definition kx_properties := option_map (map kx_property).
Definition kx_hash (x : hash) : hash := mkHash (kept_hash_algorithm (h_alg x)) (xtrim (h_content x)).
Definition kx_contact (x : contact) : contact :=
  mkContact (ct_bom_ref x) (trimo (ct_name x)) (trimo (ct_email x)) (trimo (ct_phone x)).
Definition contact_has_data (x : contact) : bool :=
  match ct_name x, ct_email x, ct_phone x with None, None, None => false | _, _, _ => true end.
Definition kx_entity (x : entity) : entity :=
  mkEntity (oe_bom_ref x) (trimo (oe_name x)) (some_items xtrim (oe_url x))
    (some_items kx_contact (option_map (filter contact_has_data) (oe_contact x))).
Definition entity_has_data (x : entity) : bool :=
  match oe_name x, oe_url x, oe_contact x with None, None, None => false | _, _, _ => true end.
Definition kx_uri (x : reference_uri) : reference_uri :=
  kept_uri (match x with RUrl s => RUrl (xtrim s) | RBomLink s => RBomLink (xtrim s) end).
Definition kx_external_reference (x : external_reference) : external_reference :=
  mkExtRef (kept_ext_ref_type (er_type x)) (kx_uri (er_url x)) (trimo (er_comment x))
    (option_map (map kx_hash) (er_hashes x)).
Definition kx_signer (x : signer) : signer := mkSigner (kept_algorithm (sg_algorithm x)) (xtrim (sg_value x)).
Definition kx_signature (x : signature) : signature :=
  match x with
  | SigSigners l => SigSigners (map kx_signer l)
  | SigChain l => SigChain (map kx_signer l)
  | SigSingle s => SigSingle (kx_signer s)
  end.

(** ** Licenses *)
Definition kx_license_identifier (x : license_identifier) : option license_identifier :=
  match x with
  | LSpdxId s => let? s := nonblank s in Some (LSpdxId s)
  | LName s => let? s := nonblank s in Some (LName s)
  end.
Definition kx_license (v : spec_version) (x : license) : option license :=
  let? i := kx_license_identifier (l_identifier x) in
  let? t := maybe kx_attached_text (l_text x) in
  Some (mkLicense (from V1_5 v (l_bom_ref x)) i t (trimo (l_url x)) None (from V1_5 v (kx_properties (l_properties x)))).
Definition kx_license_choice (v : spec_version) (x : license_choice) : option license_choice :=
  match x with
  | LicLicense l => let? l := kx_license v l in Some (LicLicense l)
  | LicExpression r e => Some (LicExpression r (xtrim e))
  end.
Definition kx_licenses (v : spec_version) (o : option (list license_choice)) : option (option (list license_choice)) :=
  maybe (each (kx_license_choice v)) o.

(** ** Pedigree *)
Definition kx_action (x : identifiable_action) : identifiable_action :=
  mkAction (trimo (ia_timestamp x)) (trimo (ia_name x)) (trimo (ia_email x)).
Definition kx_commit (x : commit) : commit :=
  mkCommit (trimo (cm_uid x)) (trimo (cm_url x)) (option_map kx_action (cm_author x))
    (option_map kx_action (cm_committer x)) (trimo (cm_message x)).
Definition kx_diff (x : diff) : option diff :=
  let? t := maybe kx_attached_text (df_text x) in Some (mkDiff t (trimo (df_url x))).
Definition diff_has_data (x : diff) : bool := match df_text x, df_url x with None, None => false | _, _ => true end.
Definition kx_source (x : source) : source := mkSource (trimo (so_name x)) (trimo (so_url x)).
Definition source_has_data (x : source) : bool := match so_name x, so_url x with None, None => false | _, _ => true end.
Definition kx_issue (x : issue) : issue :=
  mkIssue (kept_issue_classification (is_type x)) (trimo (is_id x)) (trimo (is_name x)) (trimo (is_description x))
    (option_map kx_source (only_if source_has_data (is_source x))) (option_map (map xtrim) (is_references x)).
Definition kx_patch (x : patch) : option patch :=
  let? d := maybe kx_diff (only_if diff_has_data (pa_diff x)) in
  Some (mkPatch (kept_patch_classification (pa_type x)) d (option_map (map kx_issue) (pa_resolves x))).
Definition kx_pedigree {C D} (k : C -> option D) (x : pedigree_ C) : option (pedigree_ D) :=
  let? a := maybe (each k) (pd_ancestors x) in
  let? d := maybe (each k) (pd_descendants x) in
  let? w := maybe (each k) (pd_variants x) in
  let? p := maybe (each kx_patch) (pd_patches x) in
  Some (mkPedigree a d w (option_map (map kx_commit) (pd_commits x)) p (trimo (pd_notes x))).

(** ** Component data and model cards *)
Definition kx_responsible_party (x : responsible_party) : responsible_party :=
  match x with RPOrganization o => RPOrganization (kx_entity o) | RPContact c => RPContact (kx_contact c) end.
Definition kx_governance (x : data_governance) : data_governance :=
  mkGovernance (option_map (map kx_responsible_party) (dg_custodians x))
    (option_map (map kx_responsible_party) (dg_stewards x)) (option_map (map kx_responsible_party) (dg_owners x)).
Definition kx_graphic (x : graphic) : option graphic :=
  let? i := maybe kx_attachment (g_image x) in Some (mkGraphic (trimo (g_name x)) i).
Definition kx_graphics (x : graphics_collection) : option graphics_collection :=
  let? c := maybe (each kx_graphic) (gc_collection x) in Some (mkGraphics (trimo (gc_description x)) c).
Definition kx_contents (x : data_contents) : option data_contents :=
  let? a := maybe kx_attachment (dc_attachment x) in
  Some (mkContents a (trimo (dc_url x)) (kx_properties (dc_properties x))).
Definition kx_component_data (x : component_data) : option component_data :=
  let? c := maybe kx_contents (cd_contents x) in
  let? g := maybe kx_graphics (cd_graphics x) in
  Some (mkComponentData (cd_bom_ref x) (kx_component_data_type (cd_type x)) (trimo (cd_name x)) c
          (trimo (cd_classification x)) (trimo (cd_sensitive_data x)) g (trimo (cd_description x))
          (option_map kx_governance (cd_governance x))).
Definition kx_dataset (x : dataset) : option dataset :=
  match x with
  | DSComponent c => let? c := kx_component_data c in Some (DSComponent c)
  | DSReference _ => None
  end.
Definition kx_approach (x : approach) : approach := mkApproach (option_map kx_approach_type (ap_type x)).
Definition kx_ml_parameter (x : ml_parameter) : ml_parameter := mkMLParameter (trimo (ml_format x)).
Definition kx_model_parameters (x : model_parameters) : option model_parameters :=
  let? d := maybe (each kx_dataset) (mp_datasets x) in
  Some (mkModelParameters (option_map kx_approach (mp_approach x))
          (trimo (mp_task x)) (trimo (mp_architecture_family x)) (trimo (mp_model_architecture x)) d
          (option_map (map kx_ml_parameter) (mp_inputs x)) (option_map (map kx_ml_parameter) (mp_outputs x))).
Definition kx_interval (x : confidence_interval) : confidence_interval :=
  mkInterval (trimo (ci_lower_bound x)) (trimo (ci_upper_bound x)).
Definition kx_metric (x : performance_metric) : performance_metric :=
  mkMetric (trimo (pm_type x)) (trimo (pm_value x)) (trimo (pm_slice x))
    (option_map kx_interval (pm_confidence_interval x)).
Definition kx_quantitative (x : quantitative_analysis) : option quantitative_analysis :=
  let? g := maybe kx_graphics (qa_graphics x) in
  Some (mkQuantitative (option_map (map kx_metric) (qa_performance_metrics x)) g).
Definition kx_model_card (x : model_card) : option model_card :=
  let? p := maybe kx_model_parameters (mc_model_parameters x) in
  let? q := maybe kx_quantitative (mc_quantitative_analysis x) in
  Some (mkModelCard (mc_bom_ref x) p q None None).

(** ** Components *)
Definition kx_evidence (v : spec_version) (x : evidence) : option evidence :=
  let? l := kx_licenses v (ev_licenses x) in Some (mkEvidence l (ev_copyright x) None None None).
Definition evidence_has_data (x : evidence) : bool :=
  match ev_licenses x, ev_copyright x with None, None => false | _, _ => true end.
Definition kx_swid (x : swid) : option swid :=
  let? t := maybe kx_attached_text (sw_text x) in
  Some (mkSwid (sw_tag_id x) (sw_name x) (sw_version x) (sw_tag_version x) (sw_patch x) t (trimo (sw_url x))).
(** In version 1.3 a component without a version cannot be read; it is not written either. *)
Fixpoint kx_component (v : spec_version) (x : component) : option component :=
  let? li := kx_licenses v (c_licenses x) in
  let? sw := maybe kx_swid (c_swid x) in
  let? pe := maybe (kx_pedigree (kx_component v)) (c_pedigree x) in
  let? cs := maybe (each (kx_component v)) (c_components x) in
  let? ev := maybe (kx_evidence v) (only_if evidence_has_data (c_evidence x)) in
  let? mc := gate V1_5 v (maybe kx_model_card (c_model_card x)) in
  let? da := gate V1_5 v (maybe kx_component_data (c_data x)) in
  let? ve := match trimo (c_version x) with
             | None => if version_leb V1_4 v then Some None else None
             | Some s => Some (Some s)
             end in
  Some (mkComponent (kept_classification (c_type x)) (c_mime_type x) (c_bom_ref x)
          (option_map kx_entity (only_if entity_has_data (c_supplier x)))
          (trimo (c_author x)) (trimo (c_publisher x)) (trimo (c_group x)) (xtrim (c_name x)) ve
          (trimo (c_description x)) (option_map kx_scope (c_scope x)) (option_map (map kx_hash) (c_hashes x)) li
          (trimo (c_copyright x)) (trimo (c_cpe x)) (trimo (c_purl x)) sw (c_modified x) pe
          (option_map (map kx_external_reference) (c_external_references x)) (kx_properties (c_properties x))
          cs ev (from V1_4 v (option_map kx_signature (c_signature x))) mc da).

(** ** Services *)
Definition kx_classification (x : data_classification) : data_classification :=
  mkDataClass (kept_data_flow_type (dcl_flow x)) (xtrim (dcl_classification x)).
Definition kx_service_data (x : service_data) : option service_data :=
  let rest name :=
    Some (mkServiceData name None (kx_classification (sd_classification x)) (option_map kx_governance (sd_governance x))
            (option_map (map xtrim) (sd_source x)) (option_map (map xtrim) (sd_destination x))) in
  match sd_name x, sd_description x with
  | Some _, Some _ => None
  | Some s, None | None, Some s => rest (Some s)
  | None, None => rest None
  end.
Definition kx_data (v : spec_version) (x : data) : option data :=
  match x with
  | DClassification l => Some (DClassification (map kx_classification l))
  | DServiceData l =>
      if version_leb V1_5 v then
        let? l := each kx_service_data l in
        Some (match l with [] => DClassification [] | _ => DServiceData l end)
      else Some (DClassification (map (fun d => kx_classification (sd_classification d)) l))
  end.
Fixpoint kx_service (v : spec_version) (x : service) : option service :=
  let? da := maybe (kx_data v) (s_data x) in
  let? li := kx_licenses v (s_licenses x) in
  let? ss := maybe (each (kx_service v)) (s_services x) in
  Some (mkService (s_bom_ref x) (option_map kx_entity (s_provider x)) (trimo (s_group x)) (xtrim (s_name x))
          (trimo (s_version x)) (trimo (s_description x)) (option_map (map xtrim) (s_endpoints x))
          (s_authenticated x) (s_x_trust_boundary x) da li
          (option_map (map kx_external_reference) (s_external_references x)) (kx_properties (s_properties x)) ss
          (from V1_4 v (option_map kx_signature (s_signature x))) (from V1_5 v (trimo (s_trust_zone x)))).

(** ** Metadata *)
Definition kx_tool (v : spec_version) (x : tool) : tool :=
  mkTool (trimo (t_vendor x)) (trimo (t_name x)) (trimo (t_version x)) (option_map (map kx_hash) (t_hashes x))
    (from V1_4 v (option_map (map kx_external_reference) (t_external_references x))).
(** In 1.5 an empty list becomes an empty object, before 1.5 an object becomes an empty list. *)
Definition kx_tools (v : spec_version) (x : tools) : option tools :=
  match x with
  | TList [] => Some (if version_leb V1_5 v then TObject None None else TList [])
  | TList l => Some (TList (map (kx_tool v) l))
  | TObject s c =>
      if version_leb V1_5 v then
        let? s := maybe (each (kx_service v)) s in
        let? c := maybe (each (kx_component v)) c in
        Some (TObject s c)
      else Some (TList [])
  end.
Definition kx_lifecycle (x : lifecycle) : lifecycle :=
  match x with LPhase p => LPhase (kx_phase p) | LDescription n d => LDescription (xtrim n) (trimo d) end.
Definition kx_metadata (v : spec_version) (x : metadata) : option metadata :=
  let? t := maybe (kx_tools v) (m_tools x) in
  let? c := maybe (kx_component v) (m_component x) in
  let? l := kx_licenses v (m_licenses x) in
  Some (mkMetadata (trimo (m_timestamp x)) t
          (option_map (fun l => map kx_contact (filter contact_has_data l)) (m_authors x)) c
          (option_map kx_entity (m_manufacture x)) (option_map kx_entity (m_supplier x)) l (kx_properties (m_properties x))
          (from V1_5 v (option_map (map kx_lifecycle) (m_lifecycles x)))).

(** ** Compositions *)
Definition kx_composition (v : spec_version) (x : composition) : composition :=
  mkComposition (from V1_5 v (co_bom_ref x)) (kx_aggregate_type (co_aggregate x)) (co_assemblies x) (co_dependencies x)
    (from V1_5 v (co_vulnerabilities x)) (from V1_4 v (option_map kx_signature (co_signature x))).

(** ** Vulnerabilities *)
Definition kx_vuln_source (x : vuln_source) : vuln_source := mkVSource (trimo (vs_name x)) (trimo (vs_url x)).
Definition kx_vuln_reference (x : vuln_reference) : vuln_reference :=
  mkVReference (xtrim (vr_id x)) (kx_vuln_source (vr_source x)).
Definition kx_rating (x : vuln_rating) : vuln_rating :=
  mkRating (option_map kx_vuln_source (ra_source x)) (ra_score x) (option_map kx_severity (ra_severity x))
    (option_map kx_score_method (ra_method x)) (trimo (ra_vector x)) (trimo (ra_justification x)).
Definition kx_advisory (x : advisory) : advisory := mkAdvisory (trimo (ad_title x)) (xtrim (ad_url x)).
Definition kx_credits (x : vuln_credits) : vuln_credits :=
  mkCredits (option_map (fun l => map kx_entity (filter entity_has_data l)) (vc_organizations x))
    (option_map (fun l => map kx_contact (filter contact_has_data l)) (vc_individuals x)).
Definition kx_analysis (v : spec_version) (x : vuln_analysis) : vuln_analysis :=
  mkAnalysis (option_map kx_analysis_state (va_state x)) (option_map kx_analysis_justification (va_justification x))
    (option_map (map kx_analysis_response) (va_responses x)) (trimo (va_detail x))
    (from V1_5 v (trimo (va_first_issued x))) (from V1_5 v (trimo (va_last_updated x))).
Definition kx_version_status (x : version_status) : option version_status :=
  let? r := match ve_range x with
            | VRVersion s => Some (VRVersion (xtrim s))
            | VRRange s => Some (VRRange (xtrim s))
            | VRUndefined _ => None
            end in
  Some (mkVersion r (kx_status (ve_status x))).
Definition kx_target (x : vuln_target) : option vuln_target :=
  let? l := maybe (each kx_version_status) (vt_versions x) in Some (mkTarget (xtrim (vt_bom_ref x)) l).
Definition kx_vulnerability (v : spec_version) (x : vulnerability) : option vulnerability :=
  let? tl := maybe (kx_tools v) (v_tools x) in
  let? tg := maybe (each kx_target) (v_targets x) in
  Some (mkVulnerability (v_bom_ref x) (trimo (v_id x)) (option_map kx_vuln_source (v_source x))
          (option_map (map kx_vuln_reference) (v_references x)) (option_map (map kx_rating) (v_ratings x)) (v_cwes x)
          (trimo (v_description x)) (bindo (v_detail x) nonblank) (trimo (v_recommendation x))
          (from V1_5 v (trimo (v_workaround x))) None (option_map (map kx_advisory) (v_advisories x))
          (trimo (v_created x)) (trimo (v_published x)) (trimo (v_updated x)) (from V1_5 v (trimo (v_rejected x)))
          (option_map kx_credits (v_credits x)) tl (option_map (kx_analysis v) (v_analysis x)) tg
          (kx_properties (v_properties x))).

(** ** Formulation *)
Definition kx_resource (x : resource_reference) : option resource_reference :=
  match x with RRRef s => Some (RRRef (xtrim s)) | RRExternal _ => None end.
Definition kx_environment_var (x : environment_var) : environment_var :=
  match x with EVProperty n s => EVProperty n (xtrim s) | EVValue s => EVValue (xtrim s) end.
Definition kx_input (x : input) : option input :=
  let? r := match in_required x with
            | RIResource r => let? r := kx_resource r in Some (RIResource r)
            | RIParameters _ => None
            | RIEnvironmentVars l => Some (RIEnvironmentVars (map kx_environment_var l))
            | RIData a => let? a := kx_attachment a in Some (RIData a)
            end in
  let? s := maybe kx_resource (in_source x) in
  let? t := maybe kx_resource (in_target x) in
  Some (mkInput r s t (kx_properties (in_properties x))).
Definition kx_output (x : output) : option output :=
  let? r := match ou_required x with
            | ROResource r => let? r := kx_resource r in Some (ROResource r)
            | ROEnvironmentVars l => Some (ROEnvironmentVars (map kx_environment_var l))
            | ROData a => let? a := kx_attachment a in Some (ROData a)
            end in
  let? s := maybe kx_resource (ou_source x) in
  let? t := maybe kx_resource (ou_target x) in
  Some (mkOutput r (option_map kx_output_type (ou_type x)) s t (kx_properties (ou_properties x))).
Definition kx_command (x : command) : command := mkCommand (trimo (cmd_executed x)) (kx_properties (cmd_properties x)).
Definition kx_step (x : step) : step :=
  mkStep (option_map (map kx_command) (st_commands x)) (trimo (st_description x)) (trimo (st_name x))
    (kx_properties (st_properties x)).
Definition kx_volume (x : volume) : volume :=
  mkVolume (trimo (vo_uid x)) (trimo (vo_name x)) (kx_volume_mode (vo_mode x)) (trimo (vo_path x))
    (trimo (vo_size_allocated x)) (vo_persistent x) (vo_remote x) (kx_properties (vo_properties x)).
Definition kx_workspace (x : workspace) : option workspace :=
  let? r := maybe (each kx_resource) (ws_resource_references x) in
  Some (mkWorkspace (ws_bom_ref x) (xtrim (ws_uid x)) (trimo (ws_name x)) (option_map (map xtrim) (ws_aliases x))
          (trimo (ws_description x)) r (option_map kx_access_mode (ws_access_mode x)) (trimo (ws_mount_path x))
          (trimo (ws_managed_data_type x)) (trimo (ws_volume_request x)) (option_map kx_volume (ws_volume x))
          (kx_properties (ws_properties x))).
Definition kx_condition (x : condition) : condition :=
  mkCondition (trimo (cn_description x)) (trimo (cn_expression x)) (kx_properties (cn_properties x)).
Definition kx_event (x : ModelTypes.event) : option ModelTypes.event :=
  let? d := maybe kx_attachment (e_data x) in
  let? s := maybe kx_resource (e_source x) in
  let? t := maybe kx_resource (e_target x) in
  Some (mkEvent (trimo (e_uid x)) (trimo (e_description x)) (trimo (e_time_received x)) d s t (kx_properties (e_properties x))).
Definition kx_trigger (x : trigger) : option trigger :=
  let? r := maybe (each kx_resource) (tr_resource_references x) in
  let? e := maybe kx_event (tr_event x) in
  let? i := maybe (each kx_input) (tr_inputs x) in
  let? o := maybe (each kx_output) (tr_outputs x) in
  Some (mkTrigger (tr_bom_ref x) (xtrim (tr_uid x)) (trimo (tr_name x)) (trimo (tr_description x)) r
          (kx_trigger_type (tr_type x)) e (option_map (map kx_condition) (tr_conditions x))
          (trimo (tr_time_activated x)) i o (kx_properties (tr_properties x))).
(** a task is written without its task types, which the reader wants *)
Definition kx_task (x : task) : option task := None.
Definition kx_workflow (x : workflow) : option workflow :=
  let? r := maybe (each kx_resource) (wf_resource_references x) in
  let? tk := maybe (each kx_task) (wf_tasks x) in
  let? tg := maybe kx_trigger (wf_trigger x) in
  let? i := maybe (each kx_input) (wf_inputs x) in
  let? o := maybe (each kx_output) (wf_outputs x) in
  let? w := maybe (each kx_workspace) (wf_workspaces x) in
  Some (mkWorkflow (wf_bom_ref x) (xtrim (wf_uid x)) (trimo (wf_name x)) (trimo (wf_description x)) r tk
          (wf_task_dependencies x) (map kx_task_type (wf_task_types x)) tg (option_map (map kx_step) (wf_steps x)) i o
          (trimo (wf_time_start x)) (trimo (wf_time_end x)) w (wf_runtime_topology x) (kx_properties (wf_properties x))).
Definition kx_formula (v : spec_version) (x : formula) : option formula :=
  let? c := maybe (each (kx_component v)) (fo_components x) in
  let? s := maybe (each (kx_service v)) (fo_services x) in
  let? w := maybe (each kx_workflow) (fo_workflows x) in
  Some (mkFormula (fo_bom_ref x) c s w (kx_properties (fo_properties x))).

(** ** The BOM *)
Definition kx_bom (v : spec_version) (x : bom) : option bom :=
  let? m := maybe (kx_metadata v) (b_metadata x) in
  let? c := maybe (each (kx_component v)) (b_components x) in
  let? s := maybe (each (kx_service v)) (b_services x) in
  let? vu := gate V1_4 v (maybe (each (kx_vulnerability v)) (b_vulnerabilities x)) in
  let? f := gate V1_5 v (maybe (each (kx_formula v)) (b_formulation x)) in
  Some (mkBom (b_version x) (b_serial_number x) m c s
          (option_map (map kx_external_reference) (b_external_references x)) (b_dependencies x)
          (option_map (map (kx_composition v)) (b_compositions x)) (from V1_5 v (kx_properties (b_properties x)))
          vu None None f v).

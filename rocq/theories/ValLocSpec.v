(** Which name each finding is filed under: for every structure, the fields the
    library checks, by the name used in the result, with the rule for each. *)
From Verif Require Import Base ModelTypes Strings Regex Enums ValModel ValSpec.
Open Scope string_scope.
Open Scope list_scope.

Section Fields.
Variable x : parsers.
Variable v : spec_version.

Definition fields_of_hash (h : hash) : list (string * Prop) :=
  [
    ("alg", (forall s, h_alg h <> UnknownHash s));
    ("content", hash_accepted (h_content h)) ].
Definition fields_of_contact (c : contact) : list (string * Prop) :=
  [
    ("bom-ref", when (ct_bom_ref c) (fun _ => v = V1_5));
    ("name", when (ct_name c) single_line);
    ("email", when (ct_email c) single_line);
    ("phone", when (ct_phone c) single_line) ].
Definition fields_of_entity (e : entity) : list (string * Prop) :=
  [
    ("name", when (oe_name e) single_line);
    ("url", every_in (oe_url e) (is_uri x));
    ("contact", every_in (oe_contact e) (valid_contact v)) ].
Definition fields_of_external_reference (e : external_reference) : list (string * Prop) :=
  [
    ("external_reference_type", (forall s, er_type e <> ERUnknown s));
    ("url", (valid_ref_uri x v) (er_url e));
    ("hashes", every_in (er_hashes e) valid_hash) ].
Definition fields_of_licensing (l : licensing) : list (string * Prop) :=
  [
    ("alt_ids", every_in (lg_alt_ids l) single_line);
    ("licensor", when (lg_licensor l) (valid_license_contact x v));
    ("licensee", when (lg_licensee l) (valid_license_contact x v));
    ("purchaser", when (lg_purchaser l) (valid_license_contact x v));
    ("license_types", every_in (lg_license_types l) (fun t => forall s, t <> LTUnknown s));
    ("last_renewal", when (lg_last_renewal l) (is_time x));
    ("expiration", when (lg_expiration l) (is_time x)) ].
Definition fields_of_license (l : license) : list (string * Prop) :=
  [
    ("license_identifier", (valid_license_id x) (l_identifier l));
    ("text", when (l_text l) valid_text);
    ("url", when (l_url l) (is_uri x));
    ("licensing", when (l_licensing l) (valid_licensing x v));
    ("properties", every_in (l_properties l) valid_property) ].
Definition fields_of_identifiable_action (a : identifiable_action) : list (string * Prop) :=
  [
    ("timestamp", when (ia_timestamp a) (is_time x));
    ("name", when (ia_name a) single_line);
    ("email", when (ia_email a) single_line) ].
Definition fields_of_commit (c : commit) : list (string * Prop) :=
  [
    ("uid", when (cm_uid c) single_line);
    ("url", when (cm_url c) (is_uri x));
    ("author", when (cm_author c) (valid_action x));
    ("committer", when (cm_committer c) (valid_action x));
    ("message", when (cm_message c) single_line) ].
Definition fields_of_diff (d : diff) : list (string * Prop) :=
  [
    ("text", when (df_text d) valid_text);
    ("url", when (df_url d) (is_uri x)) ].
Definition fields_of_source (s : source) : list (string * Prop) :=
  [
    ("name", when (so_name s) single_line);
    ("url", when (so_url s) (is_uri x)) ].
Definition fields_of_issue (i : issue) : list (string * Prop) :=
  [
    ("issue_type", (forall s, is_type i <> ICUnknown s));
    ("id", when (is_id i) single_line);
    ("name", when (is_name i) single_line);
    ("description", when (is_description i) single_line);
    ("source", when (is_source i) (valid_source x));
    ("references", every_in (is_references i) (is_uri x)) ].
Definition fields_of_patch (p : patch) : list (string * Prop) :=
  [
    ("patch_type", (forall s, pa_type p <> PCUnknown s));
    ("diff", when (pa_diff p) (valid_diff x));
    ("resolves", every_in (pa_resolves p) (valid_issue x)) ].
Definition fields_of_governance (g : data_governance) : list (string * Prop) :=
  [
    ("custodians", every_in (dg_custodians g) (valid_party x v));
    ("stewards", every_in (dg_stewards g) (valid_party x v));
    ("owners", every_in (dg_owners g) (valid_party x v)) ].
Definition fields_of_data_contents (c : data_contents) : list (string * Prop) :=
  [
    ("attachment", when (dc_attachment c) valid_attachment);
    ("url", when (dc_url c) (is_uri x));
    ("properties", every_in (dc_properties c) valid_property) ].
Definition fields_of_component_data (d : component_data) : list (string * Prop) :=
  [
    ("type", (forall s, cd_type d <> CDUnknown s));
    ("contents", when (cd_contents d) (valid_contents x));
    ("graphics", when (cd_graphics d) valid_graphics);
    ("governance", when (cd_governance d) (valid_governance x v)) ].
Definition fields_of_frame (f : frame) : list (string * Prop) :=
  [
    ("package", when (fr_package f) single_line);
    ("module", single_line (fr_module f));
    ("function", when (fr_function f) single_line);
    ("parameters", every_in (fr_parameters f) single_line);
    ("full_filename", when (fr_full_filename f) single_line) ].
Definition fields_of_identity (i : identity) : list (string * Prop) :=
  [
    ("field", (forall s, id_field i <> IFUnknown s));
    ("confidence", when (id_confidence i) not_negative) ].
Definition fields_of_swid (s : swid) : list (string * Prop) :=
  [
    ("text", when (sw_text s) valid_text);
    ("url", when (sw_url s) (is_uri x)) ].
Definition fields_of_component (c : component) : list (string * Prop) :=
  [
    ("component_type", classification_in v (c_type c));
    ("mime_type", when (c_mime_type c) mime_shape);
    ("supplier", when (c_supplier c) (valid_entity x v));
    ("author", when (c_author c) single_line);
    ("publisher", when (c_publisher c) single_line);
    ("group", when (c_group c) single_line);
    ("name", single_line (c_name c));
    ("version", when (c_version c) single_line);
    ("description", when (c_description c) single_line);
    ("scope", when (c_scope c) (fun s => forall t, s <> ScUnknown t));
    ("hashes", every_in (c_hashes c) valid_hash);
    ("licenses", when (c_licenses c) (valid_licenses x v));
    ("copyright", when (c_copyright c) single_line);
    ("cpe", when (c_cpe c) cpe_accepted);
    ("purl", when (c_purl c) (is_purl x));
    ("swid", when (c_swid c) (valid_swid x));
    ("pedigree", when (c_pedigree c) ((valid_pedigree_with x) (valid_component x v)));
    ("external_references", every_in (c_external_references c) (valid_ext_ref x v));
    ("properties", every_in (c_properties c) valid_property);
    ("components", every_in (c_components c) (valid_component x v));
    ("evidence", when (c_evidence c) (valid_evidence x v)) ].
Definition fields_of_data_classification (d : data_classification) : list (string * Prop) :=
  [
    ("flow", (forall s, dcl_flow d <> DFUnknownFlow s));
    ("classification", single_line (dcl_classification d)) ].
Definition fields_of_service_data (d : service_data) : list (string * Prop) :=
  [
    ("name", when (sd_name d) single_line);
    ("description", when (sd_description d) single_line);
    ("classification", valid_data_class (sd_classification d));
    ("governance", when (sd_governance d) (valid_governance x v));
    ("source", every_in (sd_source d) (is_uri x));
    ("destination", every_in (sd_destination d) (is_uri x)) ].
Definition fields_of_service (s : service) : list (string * Prop) :=
  [
    ("provider", when (s_provider s) (valid_entity x v));
    ("group", when (s_group s) single_line);
    ("name", single_line (s_name s));
    ("version", when (s_version s) single_line);
    ("description", when (s_description s) single_line);
    ("endpoints", every_in (s_endpoints s) (is_uri x));
    ("data", when (s_data s) (valid_data x v));
    ("licenses", when (s_licenses s) (valid_licenses x v));
    ("external_references", every_in (s_external_references s) (valid_ext_ref x v));
    ("properties", every_in (s_properties s) valid_property);
    ("services", every_in (s_services s) (valid_service x v));
    ("trust_zone", when (s_trust_zone s) single_line) ].
Definition fields_of_tool (t : tool) : list (string * Prop) :=
  [
    ("vendor", when (t_vendor t) single_line);
    ("name", when (t_name t) single_line);
    ("version", when (t_version t) single_line);
    ("hashes", every_in (t_hashes t) valid_hash);
    ("external_references", every_in (t_external_references t) (valid_ext_ref x v)) ].
Definition fields_of_metadata (m : metadata) : list (string * Prop) :=
  [
    ("timestamp", when (m_timestamp m) (is_time x));
    ("tools", when (m_tools m) (valid_tools x v));
    ("authors", every_in (m_authors m) (valid_contact v));
    ("component", when (m_component m) (valid_component x v));
    ("manufacture", when (m_manufacture m) (valid_entity x v));
    ("supplier", when (m_supplier m) (valid_entity x v));
    ("licenses", when (m_licenses m) (valid_licenses x v));
    ("properties", every_in (m_properties m) valid_property) ].
Definition fields_of_composition (c : composition) : list (string * Prop) :=
  [
    ("aggregate", aggregate_accepted v (co_aggregate c));
    ("signature", when (co_signature c) valid_signature) ].
Definition fields_of_annotation (a : annotation) : list (string * Prop) :=
  [
    ("timestamp", (is_time x) (an_timestamp a));
    ("annotator", (valid_annotator x v) (an_annotator a)) ].
Definition fields_of_vuln_source (s : vuln_source) : list (string * Prop) :=
  [
    ("name", when (vs_name s) single_line);
    ("url", when (vs_url s) (is_uri x)) ].
Definition fields_of_vuln_reference (r : vuln_reference) : list (string * Prop) :=
  [
    ("id", single_line (vr_id r));
    ("vulnerability_source", (valid_vuln_source x) (vr_source r)) ].
Definition fields_of_rating (r : vuln_rating) : list (string * Prop) :=
  [
    ("vulnerability_source", when (ra_source r) (valid_vuln_source x));
    ("severity", when (ra_severity r) (fun s => forall t, s <> SevUndefined t));
    ("score_method", when (ra_method r) (score_method_in v));
    ("vector", when (ra_vector r) single_line) ].
Definition fields_of_advisory (a : advisory) : list (string * Prop) :=
  [
    ("title", when (ad_title a) single_line);
    ("url", (is_uri x) (ad_url a)) ].
Definition fields_of_credits (c : vuln_credits) : list (string * Prop) :=
  [
    ("organizations", every_in (vc_organizations c) (valid_entity x v));
    ("individuals", every_in (vc_individuals c) (valid_contact v)) ].
Definition fields_of_version_status (s : version_status) : list (string * Prop) :=
  [
    ("version_range", (forall t, ve_range s <> VRUndefined t));
    ("status", (forall t, ve_status s <> StUndefined t)) ].
Definition fields_of_vulnerability (u : vulnerability) : list (string * Prop) :=
  [
    ("id", when (v_id u) single_line);
    ("vulnerability_source", when (v_source u) (valid_vuln_source x));
    ("vulnerability_references", every_in (v_references u) (valid_vuln_reference x));
    ("vulnerability_ratings", every_in (v_ratings u) (valid_rating x v));
    ("advisories", every_in (v_advisories u) (valid_advisory x));
    ("created", when (v_created u) (is_time x));
    ("published", when (v_published u) (is_time x));
    ("updated", when (v_updated u) (is_time x));
    ("vulnerability_credits", when (v_credits u) (valid_credits x v));
    ("tools", when (v_tools u) (valid_tools x v));
    ("vulnerability_analysis", when (v_analysis u) (valid_analysis x));
    ("vulnerability_targets", every_in (v_targets u) valid_target);
    ("properties", every_in (v_properties u) valid_property) ].
Definition fields_of_bom (b : bom) : list (string * Prop) :=
  [
    ("serial_number", when (b_serial_number b) serial_shape);
    ("metadata", when (b_metadata b) (valid_metadata x v));
    ("components", every_in (b_components b) (valid_component x v));
    ("services", every_in (b_services b) (valid_service x v));
    ("external_references", every_in (b_external_references b) (valid_ext_ref x v));
    ("compositions", every_in (b_compositions b) (valid_composition v));
    ("properties", every_in (b_properties b) valid_property);
    ("vulnerabilities", every_in (b_vulnerabilities b) (valid_vulnerability x v));
    ("bom_ref", NoDup (carried b));
    ("dependency_ref", forall r, In r (dep_refs b) -> In r (carried b));
    ("sub dependency_ref", forall r, In r (dep_targets b) -> In r (carried b));
    ("composition ref", forall r, In r (comp_refs b) -> In r (carried b)) ].
End Fields.

(** [r] has an entry under a name exactly when that field breaks its rule, and
    under no other name *)
Definition files_under (r : vresult) (fields : list (string * Prop)) : Prop :=
  (forall k P, In (k, P) fields -> (error r k = None <-> P))
  /\ (forall k, error r k <> None -> In k (map fst fields)).

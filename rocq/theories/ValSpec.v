(** What "valid" means, stated without the result builder, the regular
    expression matcher and the traversal used by the library.  The rules are
    those the library documents it checks, per specification version. *)
From Verif Require Import Base ModelTypes Strings Base64 Regex ValModel.
From Coq Require Import ZArith.
Open Scope string_scope.
Open Scope list_scope.

Definition when {A} (o : option A) (P : A -> Prop) : Prop :=
  match o with Some a => P a | None => True end.
Definition every {A} (P : A -> Prop) : list A -> Prop :=
  fix every l := match l with [] => True | a :: l' => P a /\ every l' end.
Definition every_in {A} (o : option (list A)) (P : A -> Prop) : Prop := when o (every P).

Definition at_least_1_5 (v : spec_version) : Prop := v = V1_5.

(** ** Text *)
(** the byte [c] occurs in [s] *)
Definition occurs (c : ascii) (s : string) : Prop := exists a b, s = (a ++ String c b)%string.
Definition all_of (p : ascii -> bool) (s : string) : Prop := forall c, occurs c s -> p c = true.

(** no carriage return, line feed or tab *)
Definition single_line (s : string) : Prop := ~ occurs CR s /\ ~ occurs LF s /\ ~ occurs TAB s.

(** [t] is [s] with every CR LF pair, and every other CR, LF and tab, replaced by one space *)
Inductive flattened : string -> string -> Prop :=
| flat_end : flattened "" ""
| flat_pair s t : flattened s t -> flattened (String CR (String LF s)) (String " " t)
| flat_control c s t : In c [CR; LF; TAB] -> ~ (c = CR /\ exists s', s = String LF s') ->
    flattened s t -> flattened (String c s) (String " " t)
| flat_other c s t : ~ In c [CR; LF; TAB] -> flattened s t -> flattened (String c s) (String c t).

Definition hex_group (n : nat) (s : string) : Prop := String.length s = n /\ all_of hex_lower s.
(** five hyphen-separated groups of 8, 4, 4, 4 and 12 lowercase hex digits *)
Definition uuid_shape (s : string) : Prop :=
  exists a b c d e, s = (a ++ "-" ++ b ++ "-" ++ c ++ "-" ++ d ++ "-" ++ e)%string
    /\ hex_group 8 a /\ hex_group 4 b /\ hex_group 4 c /\ hex_group 4 d /\ hex_group 12 e.
Definition serial_shape (s : string) : Prop := exists u, s = ("urn:uuid:" ++ u)%string /\ uuid_shape u.

(** two non-empty runs of lowercase letters, digits and [-+.] around a slash *)
Definition mime_shape (s : string) : Prop :=
  let ok c := contains_char c "-+." || lower c || digit c in
  exists a b, s = (a ++ "/" ++ b)%string /\ a <> "" /\ b <> "" /\ all_of ok a /\ all_of ok b.

(** a positive decimal number without leading zero *)
Definition positive_number (s : string) : Prop :=
  exists c r, s = String c r /\ in_range "1" "9" c = true /\ all_of digit r.
Definition bom_link_shape (s : string) : Prop :=
  exists u n f, s = ("urn:cdx:" ++ u ++ "/" ++ n ++ f)%string /\ uuid_shape u /\ positive_number n
    /\ (f = "" \/ exists g, f = ("#" ++ g)%string /\ g <> "" /\ ~ occurs LF g).
Definition version_range_shape (s : string) : Prop :=
  exists r, s = ("vers:" ++ r)%string /\ ~ occurs LF r.

(** what the CycloneDX schema asks of a hash value *)
Definition hash_shape (s : string) : Prop :=
  all_of hex_any s /\ In (String.length s) [32; 40; 64; 96; 128].
(** what the library accepts: 32 hex digits in front, or 40 in a row anywhere *)
Definition hash_accepted (s : string) : Prop :=
  (exists w t, s = (w ++ t)%string /\ String.length w = 32 /\ all_of hex_any w)
  \/ (exists p w t, s = (p ++ w ++ t)%string /\ String.length w = 40 /\ all_of hex_any w).

(** every part with a colon in front *)
Fixpoint parts_text (l : list string) : string :=
  match l with [] => "" | p :: l' => (":" ++ p ++ parts_text l')%string end.
Definition letter (c : ascii) : bool := lower c || upper c.
(** a CPE 2.2 URI: "cpe:/" (in one of four capitalisations), at most one letter for
    the kind of product, and at most six parts of letters, digits and [._-~%] *)
Definition cpe_2_2 (s : string) : Prop :=
  exists pre kind parts, s = (pre ++ kind ++ parts_text parts)%string
    /\ In pre ["cpe:/"; "cPe:/"; "cpE:/"; "cPE:/"]
    /\ In kind [""; "A"; "H"; "O"; "a"; "h"; "o"]
    /\ List.length parts <= 6
    /\ every (all_of (fun c => letter c || digit c || contains_char c "._-~%")) parts.
(** one character of a CPE 2.3 value: a letter, a digit, one of [-._], or a backslash
    and a special character *)
Definition cpe_2_3_char (s : string) : Prop :=
  exists c, (s = String c "" /\ (letter c || digit c || contains_char c "-._") = true)
            \/ (s = String "\" (String c "") /\ contains_char c "\*?!""#$%&'()+,/:;<=>@[]^`{|}~" = true).
(** wildcards allowed at either end of a value: question marks, or one asterisk *)
Definition cpe_2_3_wild (s : string) : Prop := all_of (Ascii.eqb "?") s \/ s = "*".
Definition cpe_2_3_value (s : string) : Prop :=
  s = "*" \/ s = "-"
  \/ exists a l b, s = (a ++ String.concat "" l ++ b)%string
       /\ l <> [] /\ every cpe_2_3_char l /\ cpe_2_3_wild a /\ cpe_2_3_wild b.
(** a language: two or three letters and possibly a region of two letters or three digits *)
Definition cpe_2_3_language (s : string) : Prop :=
  s = "*" \/ s = "-"
  \/ exists l r, s = (l ++ r)%string /\ all_of letter l /\ In (String.length l) [2; 3]
       /\ (r = "" \/ exists g, r = ("-" ++ g)%string
             /\ ((String.length g = 2 /\ all_of letter g) \/ (String.length g = 3 /\ all_of digit g))).
(** a CPE 2.3 formatted string: the kind of product, five values, a language, four values *)
Definition cpe_2_3 (s : string) : Prop :=
  exists kind five language four,
    s = ("cpe:2.3:" ++ kind ++ parts_text five ++ parts_text [language] ++ parts_text four)%string
    /\ In kind ["a"; "h"; "o"; "*"; "-"]
    /\ List.length five = 5 /\ every cpe_2_3_value five
    /\ cpe_2_3_language language
    /\ List.length four = 4 /\ every cpe_2_3_value four.
Definition cpe_shape (s : string) : Prop := cpe_2_2 s \/ cpe_2_3 s.
(** what the library accepts: a text containing a CPE name *)
Definition cpe_accepted (s : string) : Prop :=
  exists p w t, s = (p ++ w ++ t)%string /\ cpe_shape w.

(** ** Numbers *)
(** 0 <= c <= 1 *)
Definition between_0_and_1 (c : f32) : Prop :=
  match c with
  | F_fin neg m e =>
      (neg = false \/ m = 0%N) /\ (Z.of_N m * 2 ^ Z.max e 0 <= 2 ^ Z.max (- e) 0)%Z
  | _ => False
  end.
(** c is not a negative number *)
Definition not_negative (c : f32) : Prop :=
  match c with F_fin true m _ => m = 0%N | F_inf true => False | _ => True end.

(** ** Enumerated values: known in a version *)
Definition known {A} (raw : A -> option string) (a : A) : Prop := raw a = None.
Definition classification_in (v : spec_version) (c : classification) : Prop :=
  match c with
  | CUnknown _ => False
  | CPlatform | CDeviceDriver | CMachineLearningModel | CData => v = V1_5
  | _ => True
  end.
Definition aggregate_in (v : spec_version) (a : aggregate_type) : Prop :=
  match a with
  | AUnknownType _ => False
  | AIncompleteFirstPartyProprietaryOnly | AIncompleteFirstPartyOpensourceOnly
  | AIncompleteThirdPartyProprietaryOnly | AIncompleteThirdPartyOpensourceOnly => v = V1_5
  | _ => True
  end.
(** what the library accepts: one of the values added in 1.5 passes in every version *)
Definition aggregate_accepted (v : spec_version) (a : aggregate_type) : Prop :=
  aggregate_in v a \/ a = AIncompleteFirstPartyProprietaryOnly.
Definition score_method_in (v : spec_version) (m : score_method) : Prop :=
  match m with SMUnknown _ => False | CVSSv4 | SSVC => v = V1_5 | _ => True end.

(** ** Text forms
    Reading then writing any text gives that text; writing then reading any named
    value gives that value; the catch-all value writes the text it carries. *)
Definition faithful_text {A} (write : A -> string) (read : string -> A) (carries : A -> option string) : Prop :=
  (forall s, write (read s) = s)
  /\ (forall a, carries a = None -> read (write a) = a)
  /\ (forall a s, carries a = Some s -> write a = s).

Section Valid.
Variable x : parsers.
Variable v : spec_version.

Definition is_time (s : string) : Prop := x_date_time x s = true.
Definition is_uri (s : string) : Prop := x_uri x s = true.
Definition is_purl (s : string) : Prop := x_purl x s = None.

Definition valid_text (t : attached_text) : Prop :=
  when (at_content_type t) single_line
  /\ match at_encoding t with
     | None => True
     | Some EncBase64 => exists bytes, b64_decode (at_content t) = Some bytes
     | Some (EncUnknown _) => False
     end.
Definition valid_attachment (a : attachment) : Prop := when (att_encoding a) (fun e => e = "base64").
Definition valid_hash (h : hash) : Prop :=
  (forall s, h_alg h <> UnknownHash s) /\ hash_accepted (h_content h).
Definition valid_property (p : property) : Prop := single_line (p_value p).
Definition valid_contact (c : contact) : Prop :=
  when (ct_bom_ref c) (fun _ => v = V1_5) /\ when (ct_name c) single_line
  /\ when (ct_email c) single_line /\ when (ct_phone c) single_line.
Definition valid_entity (e : entity) : Prop :=
  when (oe_name e) single_line /\ every_in (oe_url e) is_uri /\ every_in (oe_contact e) valid_contact.
Definition valid_ref_uri (u : reference_uri) : Prop :=
  match u with RUrl s => is_uri s | RBomLink s => v = V1_5 /\ bom_link_shape s end.
Definition valid_ext_ref (e : external_reference) : Prop :=
  (forall s, er_type e <> ERUnknown s) /\ valid_ref_uri (er_url e) /\ every_in (er_hashes e) valid_hash.
Definition valid_signer (s : signer) : Prop := forall t, sg_algorithm s <> AlgUnknown t.
Definition valid_signature (s : signature) : Prop :=
  match s with SigSigners l | SigChain l => every valid_signer l | SigSingle g => valid_signer g end.

Definition valid_license_id (i : license_identifier) : Prop :=
  match i with LName n => single_line n | LSpdxId s => x_spdx_id x s = true end.
Definition valid_license_contact (c : license_contact) : Prop :=
  match c with LCOrganization o => valid_entity o | LCContact c => valid_contact c end.
Definition valid_licensing (l : licensing) : Prop :=
  every_in (lg_alt_ids l) single_line
  /\ when (lg_licensor l) valid_license_contact /\ when (lg_licensee l) valid_license_contact
  /\ when (lg_purchaser l) valid_license_contact
  /\ every_in (lg_license_types l) (fun t => forall s, t <> LTUnknown s)
  /\ when (lg_last_renewal l) is_time /\ when (lg_expiration l) is_time.
Definition valid_license (l : license) : Prop :=
  valid_license_id (l_identifier l) /\ when (l_text l) valid_text /\ when (l_url l) is_uri
  /\ when (l_licensing l) valid_licensing /\ every_in (l_properties l) valid_property.
Definition valid_license_choice (c : license_choice) : Prop :=
  match c with LicLicense l => valid_license l | LicExpression _ e => x_spdx_expr x e = true end.
(** from 1.5 on: licenses only, or at most one expression *)
Definition license_mix_ok (l : list license_choice) : Prop :=
  v = V1_5 ->
  (forall c, In c l -> exists k, c = LicLicense k) \/ List.length l <= 1.
Definition valid_licenses (l : list license_choice) : Prop :=
  every valid_license_choice l /\ license_mix_ok l.

Definition valid_action (a : identifiable_action) : Prop :=
  when (ia_timestamp a) is_time /\ when (ia_name a) single_line /\ when (ia_email a) single_line.
Definition valid_commit (c : commit) : Prop :=
  when (cm_uid c) single_line /\ when (cm_url c) is_uri /\ when (cm_author c) valid_action
  /\ when (cm_committer c) valid_action /\ when (cm_message c) single_line.
Definition valid_diff (d : diff) : Prop := when (df_text d) valid_text /\ when (df_url d) is_uri.
Definition valid_source (s : source) : Prop := when (so_name s) single_line /\ when (so_url s) is_uri.
Definition valid_issue (i : issue) : Prop :=
  (forall s, is_type i <> ICUnknown s) /\ when (is_id i) single_line /\ when (is_name i) single_line
  /\ when (is_description i) single_line /\ when (is_source i) valid_source
  /\ every_in (is_references i) is_uri.
Definition valid_patch (p : patch) : Prop :=
  (forall s, pa_type p <> PCUnknown s) /\ when (pa_diff p) valid_diff /\ every_in (pa_resolves p) valid_issue.

Definition valid_party (p : responsible_party) : Prop :=
  match p with RPOrganization o => valid_entity o | RPContact c => valid_contact c end.
Definition valid_governance (g : data_governance) : Prop :=
  every_in (dg_custodians g) valid_party /\ every_in (dg_stewards g) valid_party
  /\ every_in (dg_owners g) valid_party.
Definition valid_contents (c : data_contents) : Prop :=
  when (dc_attachment c) valid_attachment /\ when (dc_url c) is_uri
  /\ every_in (dc_properties c) valid_property.
Definition valid_graphics (g : graphics_collection) : Prop :=
  every_in (gc_collection g) (fun p => when (g_image p) valid_attachment).
Definition valid_component_data (d : component_data) : Prop :=
  (forall s, cd_type d <> CDUnknown s) /\ when (cd_contents d) valid_contents
  /\ when (cd_graphics d) valid_graphics /\ when (cd_governance d) valid_governance.
Definition valid_dataset (d : dataset) : Prop :=
  match d with DSComponent c => valid_component_data c | DSReference _ => True end.
Definition valid_model_parameters (p : model_parameters) : Prop :=
  when (mp_approach p) (fun a => when (ap_type a) (fun t => forall s, t <> ApUnknown s))
  /\ every_in (mp_datasets p) valid_dataset.
Definition valid_model_card (c : model_card) : Prop :=
  when (mc_model_parameters c) valid_model_parameters
  /\ when (mc_quantitative_analysis c) (fun q => when (qa_graphics q) valid_graphics)
  /\ every_in (mc_properties c) valid_property.

Definition valid_frame (f : frame) : Prop :=
  when (fr_package f) single_line /\ single_line (fr_module f) /\ when (fr_function f) single_line
  /\ every_in (fr_parameters f) single_line /\ when (fr_full_filename f) single_line.
Definition valid_identity (i : identity) : Prop :=
  (forall s, id_field i <> IFUnknown s) /\ when (id_confidence i) not_negative.
Definition valid_evidence (e : evidence) : Prop :=
  when (ev_licenses e) valid_licenses
  /\ every_in (ev_occurrences e) (fun o => when (oc_bom_ref o) (fun _ => v = V1_5))
  /\ every_in (ev_callstack e) valid_frame /\ when (ev_identity e) valid_identity.
Definition valid_swid (s : swid) : Prop := when (sw_text s) valid_text /\ when (sw_url s) is_uri.

Definition valid_pedigree_with (vc : component -> Prop) (p : pedigree) : Prop :=
  every_in (pd_ancestors p) vc /\ every_in (pd_descendants p) vc /\ every_in (pd_variants p) vc
  /\ every_in (pd_commits p) valid_commit /\ every_in (pd_patches p) valid_patch.
(** a component with everything inside it; signature, model card, data and
    bom-ref carry no rule of their own *)
Fixpoint valid_component (c : component) : Prop :=
  classification_in v (c_type c)
  /\ when (c_mime_type c) mime_shape /\ when (c_supplier c) valid_entity
  /\ when (c_author c) single_line /\ when (c_publisher c) single_line /\ when (c_group c) single_line
  /\ single_line (c_name c) /\ when (c_version c) single_line /\ when (c_description c) single_line
  /\ when (c_scope c) (fun s => forall t, s <> ScUnknown t)
  /\ every_in (c_hashes c) valid_hash /\ when (c_licenses c) valid_licenses
  /\ when (c_copyright c) single_line /\ when (c_cpe c) cpe_accepted /\ when (c_purl c) is_purl
  /\ when (c_swid c) valid_swid
  /\ when (c_pedigree c) (valid_pedigree_with valid_component)
  /\ every_in (c_external_references c) valid_ext_ref /\ every_in (c_properties c) valid_property
  /\ every_in (c_components c) valid_component
  /\ when (c_evidence c) valid_evidence.

Definition valid_data_class (d : data_classification) : Prop :=
  (forall s, dcl_flow d <> DFUnknownFlow s) /\ single_line (dcl_classification d).
Definition valid_service_data (d : service_data) : Prop :=
  when (sd_name d) single_line /\ when (sd_description d) single_line
  /\ valid_data_class (sd_classification d) /\ when (sd_governance d) valid_governance
  /\ every_in (sd_source d) is_uri /\ every_in (sd_destination d) is_uri.
Definition valid_data (d : data) : Prop :=
  match d with DServiceData l => every valid_service_data l | DClassification l => every valid_data_class l end.
Fixpoint valid_service (s : service) : Prop :=
  when (s_provider s) valid_entity /\ when (s_group s) single_line /\ single_line (s_name s)
  /\ when (s_version s) single_line /\ when (s_description s) single_line
  /\ every_in (s_endpoints s) is_uri /\ when (s_data s) valid_data
  /\ when (s_licenses s) valid_licenses /\ every_in (s_external_references s) valid_ext_ref
  /\ every_in (s_properties s) valid_property /\ every_in (s_services s) valid_service
  /\ when (s_trust_zone s) single_line.

Definition valid_tool (t : tool) : Prop :=
  when (t_vendor t) single_line /\ when (t_name t) single_line /\ when (t_version t) single_line
  /\ every_in (t_hashes t) valid_hash /\ every_in (t_external_references t) valid_ext_ref.
Definition valid_tools (t : tools) : Prop :=
  match t with
  | TList l => every valid_tool l
  | TObject ss cs => v = V1_5 /\ every_in cs valid_component /\ every_in ss valid_service
  end.
Definition valid_metadata (m : metadata) : Prop :=
  when (m_timestamp m) is_time /\ when (m_tools m) valid_tools /\ every_in (m_authors m) valid_contact
  /\ when (m_component m) valid_component /\ when (m_manufacture m) valid_entity
  /\ when (m_supplier m) valid_entity /\ when (m_licenses m) valid_licenses
  /\ every_in (m_properties m) valid_property.
Definition valid_composition (c : composition) : Prop :=
  aggregate_accepted v (co_aggregate c) /\ when (co_signature c) valid_signature.
Definition valid_annotator (a : annotator) : Prop :=
  match a with
  | AnOrganization o => valid_entity o | AnIndividual c => valid_contact c
  | AnComponent c => valid_component c | AnService s => valid_service s
  end.
Definition valid_annotation (a : annotation) : Prop := is_time (an_timestamp a) /\ valid_annotator (an_annotator a).

Definition valid_vuln_source (s : vuln_source) : Prop := when (vs_name s) single_line /\ when (vs_url s) is_uri.
Definition valid_vuln_reference (r : vuln_reference) : Prop := single_line (vr_id r) /\ valid_vuln_source (vr_source r).
Definition valid_rating (r : vuln_rating) : Prop :=
  when (ra_source r) valid_vuln_source /\ when (ra_severity r) (fun s => forall t, s <> SevUndefined t)
  /\ when (ra_method r) (score_method_in v) /\ when (ra_vector r) single_line.
Definition valid_advisory (a : advisory) : Prop := when (ad_title a) single_line /\ is_uri (ad_url a).
Definition valid_credits (c : vuln_credits) : Prop :=
  every_in (vc_organizations c) valid_entity /\ every_in (vc_individuals c) valid_contact.
(** the time of the last update carries no rule *)
Definition valid_analysis (a : vuln_analysis) : Prop :=
  when (va_state a) (fun s => forall t, s <> ASUndefined t)
  /\ when (va_justification a) (fun s => forall t, s <> AJUndefined t)
  /\ every_in (va_responses a) (fun s => forall t, s <> ARUndefined t)
  /\ when (va_first_issued a) is_time.
Definition valid_version_status (s : version_status) : Prop :=
  (forall t, ve_range s <> VRUndefined t) /\ (forall t, ve_status s <> StUndefined t).
Definition valid_target (t : vuln_target) : Prop := every_in (vt_versions t) valid_version_status.
Definition valid_vulnerability (u : vulnerability) : Prop :=
  when (v_id u) single_line /\ when (v_source u) valid_vuln_source
  /\ every_in (v_references u) valid_vuln_reference /\ every_in (v_ratings u) valid_rating
  /\ every_in (v_advisories u) valid_advisory
  /\ when (v_created u) is_time /\ when (v_published u) is_time /\ when (v_updated u) is_time
  /\ when (v_credits u) valid_credits /\ when (v_tools u) valid_tools
  /\ when (v_analysis u) valid_analysis /\ every_in (v_targets u) valid_target
  /\ every_in (v_properties u) valid_property.

(** ** References *)
Definition own (o : option string) : list string := match o with Some r => [r] | None => [] end.
Fixpoint component_refs (c : component) : list string :=
  own (c_bom_ref c) ++ match c_components c with Some l => flat_map component_refs l | None => [] end.
Fixpoint service_refs (s : service) : list string :=
  own (s_bom_ref s) ++ match s_services s with Some l => flat_map service_refs l | None => [] end.
(** every bom-ref carried by the described component, a component, a service or a vulnerability *)
Definition carried (b : bom) : list string :=
  match b_metadata b with
  | Some m => match m_component m with Some c => component_refs c | None => [] end
  | None => []
  end
  ++ flat_map component_refs (opt_list (b_components b))
  ++ flat_map service_refs (opt_list (b_services b))
  ++ flat_map (fun u => own (v_bom_ref u)) (opt_list (b_vulnerabilities b)).
(** the references used by the dependency and composition sections *)
Definition dep_refs (b : bom) : list string := map d_ref (opt_list (b_dependencies b)).
Definition dep_targets (b : bom) : list string := flat_map d_dependencies (opt_list (b_dependencies b)).
Definition comp_refs (b : bom) : list string :=
  flat_map (fun c => opt_list (co_assemblies c) ++ opt_list (co_dependencies c)) (opt_list (b_compositions b)).

(** [n] stands at two places of [l] *)
Definition twice (n : string) (l : list string) : Prop := exists a b c, l = a ++ n :: b ++ n :: c.
(** the result has the message [m] under the name [k] *)
Definition reports (r : vresult) (k m : string) : Prop := exists ms, error r k = Some (ErrCustom ms) /\ In m ms.
Definition duplicate_message (n : string) : string := ("Bom ref """ ++ n ++ """ is not unique")%string.
Definition dangling_message (n : string) : string := ("Dependency ref '" ++ n ++ "' does not exist in the BOM")%string.
Definition dangling_composition_message (n : string) : string :=
  ("Composition reference '" ++ n ++ "' does not exist in the BOM")%string.

(** every field of the BOM that the library checks is valid *)
Definition valid_fields (b : bom) : Prop :=
  when (b_serial_number b) serial_shape /\ when (b_metadata b) valid_metadata
  /\ every_in (b_components b) valid_component /\ every_in (b_services b) valid_service
  /\ every_in (b_external_references b) valid_ext_ref /\ every_in (b_compositions b) valid_composition
  /\ every_in (b_properties b) valid_property /\ every_in (b_vulnerabilities b) valid_vulnerability.
Definition valid_references (b : bom) : Prop :=
  NoDup (carried b)
  /\ (forall r, In r (dep_refs b) \/ In r (dep_targets b) \/ In r (comp_refs b) -> In r (carried b)).
Definition valid_bom (b : bom) : Prop := valid_fields b /\ valid_references b.
End Valid.

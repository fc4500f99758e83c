(** What a program can put together with the constructors and assignments of BuildModel.v: every
    text is arbitrary, every enumerated value is one the version knows, and what another standard
    defines (URIs, times, package URLs, licence identifiers, hashes) conforms to it. *)
From Verif Require Import Base Strings Base64 ModelTypes Enums ValModel ValSpec GenModel BuildModel JsonSpec.
Open Scope string_scope.
Open Scope list_scope.

Definition all {A} (P : A -> Prop) (l : list A) : Prop := forall a, In a l -> P a.

Section Made.
Variable x : parsers.
Variable v : spec_version.

(** *** Parts *)
(** [NormalizedString::new] *)
Definition made_text (t : string) : Prop := exists s, t = normalize s.
Definition made_property (p : property) : Prop := exists n s, p = mkProp n (normalize s).
Definition made_contact (c : contact) : Prop := exists n e, c = contact_new n e.
(** the constructor keeps line breaks: the caller has to keep them out *)
Definition made_entity (e : entity) : Prop := exists n, e = entity_new n /\ single_line n.
Definition made_hash (h : hash) : Prop := (forall s, h_alg h <> UnknownHash s) /\ hash_shape (h_content h).
(** the one type whose text is not read back is left out *)
Definition made_ext_ref (e : external_reference) : Prop := exists t u, e = ext_ref_new t u
  /\ (forall s, t <> ERUnknown s) /\ t <> ERCondifiedInfrastructure
  /\ (if is_bomlink u then v = V1_5 /\ bom_link_shape u else is_uri x u).
Definition made_choice (c : license_choice) : Prop :=
  (exists s, c = choice_license s)
  \/ (exists s, c = LicLicense (license_id s) /\ x_spdx_id x s = true)
  \/ (exists s, c = choice_expression s /\ x_spdx_expr x s = true).
(** version 1.5 has either licences or one expression *)
Definition made_licenses (l : list license_choice) : Prop :=
  all made_choice l /\ (v = V1_5 -> all (fun c => is_license c = true) l \/ List.length l <= 1).
Definition made_tool (t : tool) : Prop := exists a b c, t = tool_new a b c.

(** *** Components, with all that is inside them *)
Inductive made_component : component -> Prop :=
| component_made t name version r : classification_in v t -> made_component (component_new t name version r)
| component_supplier c e : made_component c -> made_entity e -> made_component (with_component_supplier c e)
| component_author c s : made_component c -> made_component (with_component_author c (normalize s))
| component_publisher c s : made_component c -> made_component (with_component_publisher c (normalize s))
| component_group c s : made_component c -> made_component (with_component_group c (normalize s))
| component_description c s : made_component c -> made_component (with_component_description c (normalize s))
| component_scope c s : made_component c -> (forall t, s <> ScUnknown t) -> made_component (with_component_scope c s)
| component_hashes c l : made_component c -> all made_hash l -> made_component (with_component_hashes c l)
| component_licenses c l : made_component c -> made_licenses l -> made_component (with_component_licenses c l)
| component_copyright c s : made_component c -> made_component (with_component_copyright c (normalize s))
| component_cpe c s : made_component c -> cpe_shape s -> made_component (with_component_cpe c s)
| component_purl c s : made_component c -> is_purl x s -> made_component (with_component_purl c s)
| component_external_references c l : made_component c -> all made_ext_ref l ->
    made_component (with_component_external_references c l)
| component_properties c l : made_component c -> all made_property l ->
    made_component (with_component_properties c l)
| component_components c l : made_component c -> (forall d, In d l -> made_component d) ->
    made_component (with_component_components c l).

Inductive made_service : service -> Prop :=
| service_made name r : single_line name -> made_service (service_new name r)
| service_provider s e : made_service s -> made_entity e -> made_service (with_service_provider s e)
| service_version s t : made_service s -> made_service (with_service_version s (normalize t))
| service_description s t : made_service s -> made_service (with_service_description s (normalize t))
| service_endpoints s l : made_service s -> all (is_uri x) l -> made_service (with_service_endpoints s l)
| service_licenses s l : made_service s -> made_licenses l -> made_service (with_service_licenses s l)
| service_external_references s l : made_service s -> all made_ext_ref l ->
    made_service (with_service_external_references s l)
| service_properties s l : made_service s -> all made_property l -> made_service (with_service_properties s l)
| service_services s l : made_service s -> (forall t, In t l -> made_service t) ->
    made_service (with_service_services s l).

(** *** Vulnerabilities *)
Definition made_vsource (s : vuln_source) : Prop :=
  exists n u, s = vsource_new n u /\ when u (is_uri x).
Definition made_vreference (r : vuln_reference) : Prop := exists i s, r = vreference_new i s /\ made_vsource s.
Definition made_rating (r : vuln_rating) : Prop := exists c s m, r = rating_new c s m
  /\ when c (fun f => is_finite f = true) /\ when s (fun s => forall t, s <> SevUndefined t)
  /\ when m (score_method_in v).
Definition made_advisory (a : advisory) : Prop := exists u, a = advisory_new u /\ is_uri x u.
Definition made_analysis (a : vuln_analysis) : Prop := exists s j r, a = analysis_new s j r
  /\ when s (fun s => forall t, s <> ASUndefined t) /\ when j (fun j => forall t, j <> AJUndefined t)
  /\ when r (all (fun r => forall t, r <> ARUndefined t)).
Definition made_version (s : version_status) : Prop := exists a b, s = version_new a b
  /\ In b ["affected"; "unaffected"; "unknown"].
Definition made_target (t : vuln_target) : Prop := exists r l, t = mkTarget r l /\ when l (all made_version).
Inductive made_vulnerability : vulnerability -> Prop :=
| vulnerability_made r : made_vulnerability (vulnerability_new r)
| vulnerability_id u s : made_vulnerability u -> made_vulnerability (with_vulnerability_id u (normalize s))
| vulnerability_source u s : made_vulnerability u -> made_vsource s -> made_vulnerability (with_vulnerability_source u s)
| vulnerability_references u l : made_vulnerability u -> all made_vreference l ->
    made_vulnerability (with_vulnerability_references u l)
| vulnerability_ratings u l : made_vulnerability u -> all made_rating l ->
    made_vulnerability (with_vulnerability_ratings u l)
| vulnerability_description u s : made_vulnerability u -> made_vulnerability (with_vulnerability_description u s)
| vulnerability_advisories u l : made_vulnerability u -> all made_advisory l ->
    made_vulnerability (with_vulnerability_advisories u l)
| vulnerability_analysis u a : made_vulnerability u -> made_analysis a ->
    made_vulnerability (with_vulnerability_analysis u a)
| vulnerability_targets u l : made_vulnerability u -> all made_target l ->
    made_vulnerability (with_vulnerability_targets u l)
| vulnerability_properties u l : made_vulnerability u -> all made_property l ->
    made_vulnerability (with_vulnerability_properties u l).

(** *** Metadata and the whole BOM *)
Inductive made_metadata : metadata -> Prop :=
| metadata_made now m : metadata_new now = Some m -> when now (is_time x) -> made_metadata m
| metadata_tools m l : made_metadata m -> all made_tool l -> made_metadata (with_metadata_tools m (TList l))
| metadata_authors m l : made_metadata m -> all made_contact l -> made_metadata (with_metadata_authors m l)
| metadata_component m c : made_metadata m -> made_component c -> made_metadata (with_metadata_component m c)
| metadata_manufacture m e : made_metadata m -> made_entity e -> made_metadata (with_metadata_manufacture m e)
| metadata_supplier m e : made_metadata m -> made_entity e -> made_metadata (with_metadata_supplier m e)
| metadata_licenses m l : made_metadata m -> made_licenses l -> made_metadata (with_metadata_licenses m l)
| metadata_properties m l : made_metadata m -> all made_property l -> made_metadata (with_metadata_properties m l).

Inductive made_bom : bom -> Prop :=
| bom_made uuid : String.length uuid = 16 -> made_bom (bom_default uuid)
| bom_metadata b m : made_bom b -> made_metadata m -> made_bom (with_bom_metadata b m)
| bom_components b l : made_bom b -> all made_component l -> made_bom (with_bom_components b l)
| bom_services b l : made_bom b -> all made_service l -> made_bom (with_bom_services b l)
| bom_external_references b l : made_bom b -> all made_ext_ref l -> made_bom (with_bom_external_references b l)
| bom_dependencies b l : made_bom b -> made_bom (with_bom_dependencies b l)
(** JSON documents have properties of their own from version 1.5 on *)
| bom_properties b l : made_bom b -> v = V1_5 -> all made_property l -> made_bom (with_bom_properties b l)
(** version 1.3 has no vulnerabilities *)
| bom_vulnerabilities b l : made_bom b -> v <> V1_3 -> all made_vulnerability l ->
    made_bom (with_bom_vulnerabilities b l).
End Made.

(** [b] as a document of version [v] *)
Definition at_version (v : spec_version) (b : bom) : bom :=
  mkBom (b_version b) (b_serial_number b) (b_metadata b) (b_components b) (b_services b)
    (b_external_references b) (b_dependencies b) (b_compositions b) (b_properties b) (b_vulnerabilities b)
    (b_signature b) (b_annotations b) (b_formulation b) v.

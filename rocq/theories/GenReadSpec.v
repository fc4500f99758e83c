(** What is left of a generated SBOM when the file is read again (C57).  JSON keeps everything; XML keeps
    everything but the blanks around texts. *)
From Verif Require Import Base Strings ModelTypes GenModel Xml.
Open Scope string_scope.
Open Scope list_scope.

(** the same BOM, said to be of version [v] *)
Definition as_version (v : spec_version) (b : bom) : bom := {|
  b_version := b_version b; b_serial_number := b_serial_number b; b_metadata := b_metadata b;
  b_components := b_components b; b_services := b_services b; b_external_references := b_external_references b;
  b_dependencies := b_dependencies b; b_compositions := b_compositions b; b_properties := b_properties b;
  b_vulnerabilities := b_vulnerabilities b; b_signature := b_signature b; b_annotations := b_annotations b;
  b_formulation := b_formulation b; b_spec_version := v |}.

(** [xtrim s]: [s] without the blanks at its ends *)
Definition t_opt (o : option string) : option string := option_map xtrim o.
Definition t_uri (x : reference_uri) : reference_uri :=
  uri_of (xtrim (match x with RUrl s => s | RBomLink s => s end)).
Definition t_reference (x : external_reference) : external_reference :=
  mkExtRef (er_type x) (t_uri (er_url x)) (er_comment x) (er_hashes x).
Definition t_hash (x : hash) : hash := mkHash (h_alg x) (xtrim (h_content x)).
Definition t_license (x : license_choice) : license_choice :=
  match x with
  | LicExpression r e => LicExpression r (xtrim e)
  | LicLicense l =>
      LicLicense (mkLicense (l_bom_ref l)
        (match l_identifier l with LSpdxId s => LSpdxId (xtrim s) | LName s => LName (xtrim s) end)
        (l_text l) (l_url l) (l_licensing l) (l_properties l))
  end.
Definition t_component_with (subs : option (list component)) (c : component) : component := {|
  c_type := c_type c; c_mime_type := c_mime_type c; c_bom_ref := c_bom_ref c; c_supplier := c_supplier c;
  c_author := t_opt (c_author c); c_publisher := c_publisher c; c_group := c_group c; c_name := xtrim (c_name c);
  c_version := t_opt (c_version c); c_description := t_opt (c_description c); c_scope := c_scope c;
  c_hashes := option_map (map t_hash) (c_hashes c); c_licenses := option_map (map t_license) (c_licenses c);
  c_copyright := c_copyright c; c_cpe := c_cpe c; c_purl := t_opt (c_purl c); c_swid := c_swid c;
  c_modified := c_modified c; c_pedigree := c_pedigree c;
  c_external_references := option_map (map t_reference) (c_external_references c); c_properties := c_properties c;
  c_components := subs; c_evidence := c_evidence c; c_signature := c_signature c; c_model_card := c_model_card c;
  c_data := c_data c |}.
(** the components of a generated SBOM are nested at most once *)
Definition t_leaf (c : component) : component := t_component_with (c_components c) c.
Definition t_component (c : component) : component := t_component_with (option_map (map t_leaf) (c_components c)) c.
Definition t_tools (x : tools) : tools :=
  match x with
  | TList l => TList (map (fun t => mkTool (t_opt (t_vendor t)) (t_opt (t_name t)) (t_opt (t_version t)) (t_hashes t) (t_external_references t)) l)
  | TObject s c => TObject s c
  end.
Definition t_metadata (m : metadata) : metadata := {|
  m_timestamp := t_opt (m_timestamp m); m_tools := option_map t_tools (m_tools m);
  m_authors := option_map (map (fun c => mkContact (ct_bom_ref c) (t_opt (ct_name c)) (t_opt (ct_email c)) (ct_phone c))) (m_authors m);
  m_component := option_map t_component (m_component m); m_manufacture := m_manufacture m; m_supplier := m_supplier m;
  m_licenses := m_licenses m; m_properties := option_map (map (fun p => mkProp (p_name p) (xtrim (p_value p)))) (m_properties m);
  m_lifecycles := m_lifecycles m |}.
Definition trimmed (b : bom) : bom := {|
  b_version := b_version b; b_serial_number := b_serial_number b; b_metadata := option_map t_metadata (b_metadata b);
  b_components := option_map (map t_component) (b_components b); b_services := b_services b;
  b_external_references := b_external_references b;
  b_dependencies := b_dependencies b; b_compositions := b_compositions b; b_properties := b_properties b;
  b_vulnerabilities := b_vulnerabilities b; b_signature := b_signature b; b_annotations := b_annotations b;
  b_formulation := b_formulation b; b_spec_version := b_spec_version b |}.

(** No package has a blank license name, or an empty license file that would be used instead *)
Definition blank (s : string) : bool := forallb (fun a => xml_space a) (list_ascii_of_string s).
Definition licenses_written_down (w : world) (meta : cargo_metadata) : Prop :=
  forall p, In p (cm_packages meta) ->
    (forall l, pk_license p = Some l -> blank l = false) /\
    (forall f s, pk_license p = None -> pk_license_file p = Some f -> w_read_file w (removelast (pk_manifest p)) f = Some s -> s <> "").

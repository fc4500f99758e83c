(** The CycloneDX XML format, as the schema's own example documents in
    cyclonedx-bom/tests/spec/1.3, 1.4 and 1.5 show it: [form_x x] is the element that says [x].
    This is a specification.  It does not mention the readers and writers of the library and covers
    what the library never writes (licensing, occurrences, call stack and identity of evidence,
    proofs of concept, annotations, the signature of the BOM) and what it writes in another form
    (attachments, data flows, tasks, external references to resources).

    [same_document] says which documents say the same: the order of attributes, the order of
    differently named children and white space do not matter.

    [said_x x] is the value an application should get from the document: [x] without the white space
    around texts, or [None] where [x] cannot be said: an attached text, an attachment or a license
    without text, a list of tools as an object before 1.5, and so on.  Also [None] are the few parts of the
    format the library does not support at all: references to datasets, considerations and properties of
    model cards, parameters as inputs, and components without a version before 1.4. *)
From Coq Require Import NArith.
From Verif Require Import Base ModelTypes Strings Enums Json Xml JsonSpec XmlSpec.
Open Scope string_scope.
Open Scope list_scope.

(** ** Elements *)
Definition words (n s : string) : xml := Elem n [] [Text s].
Definition perhaps {A} (f : A -> xml) (o : option A) : list xml := match o with Some a => [f a] | None => [] end.
Definition group {A} (n : string) (f : A -> xml) (l : list A) : xml := Elem n [] (map f l).
Definition perhaps_group {A} (n : string) (f : A -> xml) (o : option (list A)) : list xml := perhaps (group n f) o.
Definition loose {A} (f : A -> xml) (o : option (list A)) : list xml := match o with Some l => map f l | None => [] end.
Definition with_attr (k : string) (o : option string) : attrs := match o with Some s => [(k, s)] | None => [] end.
Definition in_version {A} (a v : spec_version) (l : list A) : list A := if version_leb a v then l else [].
Definition named {A} (t : A -> string) (n : string) (a : A) : xml := words n (t a).
Definition yes_no (b : bool) : string := if b then "true" else "false".
Definition number (n : u32) : string := string_of_N (u32_N n).
Definition pointer (n s : string) : xml := Elem n [("ref", s)] [].

(** ** Documents that say the same *)
Definition blank (x : xml) : bool := match x with Text s => String.eqb (xtrim s) "" | _ => false end.
Definition visible (l : list xml) : list xml := filter (fun x => negb (blank x)) l.
Definition name_of (x : xml) : option string := match x with Elem n _ _ => Some n | _ => None end.
Definition called (m : option string) (x : xml) : bool :=
  match m, name_of x with
  | Some a, Some b => String.eqb a b
  | None, None => true
  | _, _ => false
  end.
(** the same children of every name, in the same order *)
Definition shuffled (l l' : list xml) : Prop :=
  forall m, filter (called m) (visible l) = filter (called m) (visible l').
(** lists of items with different names *)
Definition mixed_list (n : string) : bool := String.eqb n "licenses" || String.eqb n "environmentVars".
Inductive same_document : xml -> xml -> Prop :=
| same_text s s' : xtrim s = xtrim s' -> same_document (Text s) (Text s')
| same_cdata s : same_document (CData s) (CData s)
| same_cdata_text s s' : xtrim s' = s -> same_document (CData s) (Text s')
| same_elem n ats ats' ks ks' ks'' :
    Permutation ats ats' ->
    Forall2 same_document ks ks' ->
    (if mixed_list n then visible ks' = visible ks'' else shuffled ks' ks'') ->
    same_document (Elem n ats ks) (Elem n ats' ks'').

Section FORM.
(** the text of a number with a fractional part *)
Context (show : f32 -> string).
Context (v : spec_version).

(** ** Building blocks *)
Definition form_attached_text (n : string) (x : attached_text) : xml :=
  Elem n (with_attr "content-type" (at_content_type x) ++ with_attr "encoding" (option_map text_encoding (at_encoding x)))
    [Text (at_content x)].
Definition said_attached_text (x : attached_text) : option attached_text :=
  let? c := nonblank (at_content x) in
  Some (mkText (at_content_type x) (option_map kept_encoding (at_encoding x)) c).
Definition form_attachment (n : string) (x : attachment) : xml :=
  Elem n (with_attr "content-type" (att_content_type x) ++ with_attr "encoding" (att_encoding x)) [Text (att_content x)].
Definition said_attachment (x : attachment) : option attachment :=
  let? c := nonblank (att_content x) in Some (mkAttachment c (att_content_type x) (att_encoding x)).
Definition form_property (x : property) : xml := Elem "property" [("name", p_name x)] [Text (p_value x)].
Definition form_properties : option (list property) -> list xml := perhaps_group "properties" form_property.
Definition said_properties : option (list property) -> option (list property) :=
  option_map (map (fun x => mkProp (p_name x) (xtrim (p_value x)))).
Definition form_hash (x : hash) : xml := Elem "hash" [("alg", text_hash_algorithm (h_alg x))] [Text (h_content x)].
Definition form_hashes : option (list hash) -> list xml := perhaps_group "hashes" form_hash.
Definition said_hash (x : hash) : hash := mkHash (kept_hash_algorithm (h_alg x)) (xtrim (h_content x)).
Definition said_hashes : option (list hash) -> option (list hash) := option_map (map said_hash).
Definition form_contact (n : string) (x : contact) : xml :=
  Elem n (with_attr "bom-ref" (ct_bom_ref x))
    (perhaps (words "name") (ct_name x) ++ perhaps (words "email") (ct_email x) ++ perhaps (words "phone") (ct_phone x)).
Definition said_contact (x : contact) : contact :=
  mkContact (ct_bom_ref x) (trimo (ct_name x)) (trimo (ct_email x)) (trimo (ct_phone x)).
Definition form_entity (n : string) (x : entity) : xml :=
  Elem n (with_attr "bom-ref" (oe_bom_ref x))
    (perhaps (words "name") (oe_name x) ++ loose (words "url") (oe_url x) ++ loose (form_contact "contact") (oe_contact x)).
Definition said_entity (x : entity) : entity :=
  mkEntity (oe_bom_ref x) (trimo (oe_name x)) (some_items xtrim (oe_url x)) (some_items said_contact (oe_contact x)).
Definition uri_words (x : reference_uri) : string := match x with RUrl s => s | RBomLink s => s end.
Definition said_uri (x : reference_uri) : reference_uri :=
  kept_uri (match x with RUrl s => RUrl (xtrim s) | RBomLink s => RBomLink (xtrim s) end).
Definition form_external_reference (n : string) (x : external_reference) : xml :=
  Elem n [("type", text_ext_ref_type (er_type x))]
    ([words "url" (uri_words (er_url x))] ++ perhaps (words "comment") (er_comment x) ++ form_hashes (er_hashes x)).
Definition said_external_reference (x : external_reference) : external_reference :=
  mkExtRef (kept_ext_ref_type (er_type x)) (said_uri (er_url x)) (trimo (er_comment x)) (said_hashes (er_hashes x)).
Definition form_external_references : option (list external_reference) -> list xml :=
  perhaps_group "externalReferences" (form_external_reference "reference").
Definition said_external_references := option_map (map said_external_reference).
(** The schema leaves signatures to other standards; this is the library's own form. *)
Definition form_signer (x : signer) : list xml :=
  [words "algorithm" (text_algorithm (sg_algorithm x))] ++ [words "value" (sg_value x)].
Definition said_signer (x : signer) : signer := mkSigner (kept_algorithm (sg_algorithm x)) (xtrim (sg_value x)).
Definition form_signature (x : signature) : xml :=
  Elem "signature" []
    match x with
    | SigSigners l => [group "signers" (fun s => Elem "signer" [] (form_signer s)) l]
    | SigChain l => [group "chain" (fun s => Elem "chain" [] (form_signer s)) l]
    | SigSingle s => form_signer s
    end.
Definition said_signature (x : signature) : signature :=
  match x with
  | SigSigners l => SigSigners (map said_signer l)
  | SigChain l => SigChain (map said_signer l)
  | SigSingle s => SigSingle (said_signer s)
  end.

(** ** Licenses *)
Definition form_license_contact (n : string) (x : license_contact) : xml :=
  Elem n [] match x with
            | LCOrganization o => [form_entity "organization" o]
            | LCContact c => [form_contact "individual" c]
            end.
Definition said_license_contact (x : license_contact) : license_contact :=
  match x with LCOrganization o => LCOrganization (said_entity o) | LCContact c => LCContact (said_contact c) end.
Definition said_license_type := in_text raw_license_type license_type_of_text.
Definition form_licensing (x : licensing) : xml :=
  Elem "licensing" []
    (perhaps_group "altIds" (words "altId") (lg_alt_ids x)
     ++ perhaps (form_license_contact "licensor") (lg_licensor x)
     ++ perhaps (form_license_contact "licensee") (lg_licensee x)
     ++ perhaps (form_license_contact "purchaser") (lg_purchaser x)
     ++ perhaps (words "purchaseOrder") (lg_purchase_order x)
     ++ perhaps_group "licenseTypes" (named text_license_type "licenseType") (lg_license_types x)
     ++ perhaps (words "lastRenewal") (lg_last_renewal x) ++ perhaps (words "expiration") (lg_expiration x)).
Definition said_licensing (x : licensing) : licensing :=
  mkLicensing (option_map (map xtrim) (lg_alt_ids x)) (option_map said_license_contact (lg_licensor x))
    (option_map said_license_contact (lg_licensee x)) (option_map said_license_contact (lg_purchaser x))
    (trimo (lg_purchase_order x)) (option_map (map said_license_type) (lg_license_types x))
    (trimo (lg_last_renewal x)) (trimo (lg_expiration x)).
Definition form_license_identifier (x : license_identifier) : list xml :=
  match x with LSpdxId s => [words "id" s] | LName s => [words "name" s] end.
Definition said_license_identifier (x : license_identifier) : option license_identifier :=
  match x with
  | LSpdxId s => let? s := nonblank s in Some (LSpdxId s)
  | LName s => let? s := nonblank s in Some (LName s)
  end.
Definition form_license (x : license) : xml :=
  Elem "license" (in_version V1_5 v (with_attr "bom-ref" (l_bom_ref x)))
    (form_license_identifier (l_identifier x)
     ++ perhaps (form_attached_text "text") (l_text x)
     ++ perhaps (words "url") (l_url x)
     ++ in_version V1_5 v (form_properties (l_properties x))
     ++ in_version V1_5 v (perhaps form_licensing (l_licensing x))).
Definition said_license (x : license) : option license :=
  let? i := said_license_identifier (l_identifier x) in
  let? t := maybe said_attached_text (l_text x) in
  Some (mkLicense (from V1_5 v (l_bom_ref x)) i t (trimo (l_url x))
          (from V1_5 v (option_map said_licensing (l_licensing x))) (from V1_5 v (said_properties (l_properties x)))).
Definition form_license_choice (x : license_choice) : xml :=
  match x with
  | LicLicense l => form_license l
  | LicExpression r e => Elem "expression" (with_attr "bom-ref" r) [Text e]
  end.
Definition said_license_choice (x : license_choice) : option license_choice :=
  match x with
  | LicLicense l => let? l := said_license l in Some (LicLicense l)
  | LicExpression r e => Some (LicExpression r (xtrim e))
  end.
Definition form_licenses : option (list license_choice) -> list xml := perhaps_group "licenses" form_license_choice.
Definition said_licenses : option (list license_choice) -> option (option (list license_choice)) :=
  maybe (each said_license_choice).

(** ** Pedigree *)
Definition form_action (n : string) (x : identifiable_action) : xml :=
  Elem n []
    (perhaps (words "timestamp") (ia_timestamp x) ++ perhaps (words "name") (ia_name x)
     ++ perhaps (words "email") (ia_email x)).
Definition said_action (x : identifiable_action) : identifiable_action :=
  mkAction (trimo (ia_timestamp x)) (trimo (ia_name x)) (trimo (ia_email x)).
Definition form_commit (x : commit) : xml :=
  Elem "commit" []
    (perhaps (words "uid") (cm_uid x) ++ perhaps (words "url") (cm_url x) ++ perhaps (form_action "author") (cm_author x)
     ++ perhaps (form_action "committer") (cm_committer x) ++ perhaps (words "message") (cm_message x)).
Definition said_commit (x : commit) : commit :=
  mkCommit (trimo (cm_uid x)) (trimo (cm_url x)) (option_map said_action (cm_author x))
    (option_map said_action (cm_committer x)) (trimo (cm_message x)).
Definition form_diff (x : diff) : xml :=
  Elem "diff" [] (perhaps (form_attached_text "text") (df_text x) ++ perhaps (words "url") (df_url x)).
Definition said_diff (x : diff) : option diff :=
  let? t := maybe said_attached_text (df_text x) in Some (mkDiff t (trimo (df_url x))).
Definition form_source (x : source) : xml :=
  Elem "source" [] (perhaps (words "name") (so_name x) ++ perhaps (words "url") (so_url x)).
Definition said_source (x : source) : source := mkSource (trimo (so_name x)) (trimo (so_url x)).
Definition form_issue (x : issue) : xml :=
  Elem "issue" [("type", text_issue_classification (is_type x))]
    (perhaps (words "id") (is_id x) ++ perhaps (words "name") (is_name x)
     ++ perhaps (words "description") (is_description x) ++ perhaps form_source (is_source x)
     ++ perhaps_group "references" (words "url") (is_references x)).
Definition said_issue (x : issue) : issue :=
  mkIssue (kept_issue_classification (is_type x)) (trimo (is_id x)) (trimo (is_name x)) (trimo (is_description x))
    (option_map said_source (is_source x)) (option_map (map xtrim) (is_references x)).
Definition form_patch (x : patch) : xml :=
  Elem "patch" [("type", text_patch_classification (pa_type x))]
    (perhaps form_diff (pa_diff x) ++ perhaps_group "resolves" form_issue (pa_resolves x)).
Definition said_patch (x : patch) : option patch :=
  let? d := maybe said_diff (pa_diff x) in
  Some (mkPatch (kept_patch_classification (pa_type x)) d (option_map (map said_issue) (pa_resolves x))).
Definition form_pedigree {C} (f : C -> xml) (x : pedigree_ C) : xml :=
  Elem "pedigree" []
    (perhaps_group "ancestors" f (pd_ancestors x) ++ perhaps_group "descendants" f (pd_descendants x)
     ++ perhaps_group "variants" f (pd_variants x) ++ perhaps_group "commits" form_commit (pd_commits x)
     ++ perhaps_group "patches" form_patch (pd_patches x) ++ perhaps (words "notes") (pd_notes x)).
Definition said_pedigree {C D} (k : C -> option D) (x : pedigree_ C) : option (pedigree_ D) :=
  let? a := maybe (each k) (pd_ancestors x) in
  let? d := maybe (each k) (pd_descendants x) in
  let? w := maybe (each k) (pd_variants x) in
  let? p := maybe (each said_patch) (pd_patches x) in
  Some (mkPedigree a d w (option_map (map said_commit) (pd_commits x)) p (trimo (pd_notes x))).

(** ** Component data and model cards *)
Definition form_responsible_party (n : string) (x : responsible_party) : xml :=
  Elem n [] match x with
            | RPOrganization o => [form_entity "organization" o]
            | RPContact c => [form_contact "contact" c]
            end.
Definition said_responsible_party (x : responsible_party) : responsible_party :=
  match x with RPOrganization o => RPOrganization (said_entity o) | RPContact c => RPContact (said_contact c) end.
Definition form_governance (x : data_governance) : xml :=
  Elem "governance" []
    (perhaps_group "owners" (form_responsible_party "owner") (dg_owners x)
     ++ perhaps_group "custodians" (form_responsible_party "custodian") (dg_custodians x)
     ++ perhaps_group "stewards" (form_responsible_party "steward") (dg_stewards x)).
Definition said_governance (x : data_governance) : data_governance :=
  mkGovernance (option_map (map said_responsible_party) (dg_custodians x))
    (option_map (map said_responsible_party) (dg_stewards x)) (option_map (map said_responsible_party) (dg_owners x)).
Definition form_graphic (x : graphic) : xml :=
  Elem "graphic" [] (perhaps (words "name") (g_name x) ++ perhaps (form_attachment "image") (g_image x)).
Definition said_graphic (x : graphic) : option graphic :=
  let? i := maybe said_attachment (g_image x) in Some (mkGraphic (trimo (g_name x)) i).
Definition form_graphics (x : graphics_collection) : xml :=
  Elem "graphics" []
    (perhaps (words "description") (gc_description x) ++ perhaps_group "collection" form_graphic (gc_collection x)).
Definition said_graphics (x : graphics_collection) : option graphics_collection :=
  let? c := maybe (each said_graphic) (gc_collection x) in Some (mkGraphics (trimo (gc_description x)) c).
Definition form_contents (x : data_contents) : xml :=
  Elem "contents" []
    (perhaps (form_attachment "attachment") (dc_attachment x) ++ perhaps (words "url") (dc_url x)
     ++ form_properties (dc_properties x)).
Definition said_contents (x : data_contents) : option data_contents :=
  let? a := maybe said_attachment (dc_attachment x) in
  Some (mkContents a (trimo (dc_url x)) (said_properties (dc_properties x))).
Definition form_component_data (n : string) (x : component_data) : xml :=
  Elem n (with_attr "bom-ref" (cd_bom_ref x))
    ([named text_component_data_type "type" (cd_type x)] ++ perhaps (words "name") (cd_name x)
     ++ perhaps form_contents (cd_contents x) ++ perhaps (words "classification") (cd_classification x)
     ++ perhaps (words "sensitiveData") (cd_sensitive_data x) ++ perhaps form_graphics (cd_graphics x)
     ++ perhaps (words "description") (cd_description x) ++ perhaps form_governance (cd_governance x)).
Definition said_component_data (x : component_data) : option component_data :=
  let? c := maybe said_contents (cd_contents x) in
  let? g := maybe said_graphics (cd_graphics x) in
  Some (mkComponentData (cd_bom_ref x) (kx_component_data_type (cd_type x)) (trimo (cd_name x)) c
          (trimo (cd_classification x)) (trimo (cd_sensitive_data x)) g (trimo (cd_description x))
          (option_map said_governance (cd_governance x))).
Definition form_dataset (x : dataset) : xml :=
  match x with
  | DSComponent c => form_component_data "dataset" c
  | DSReference s => pointer "dataset" s
  end.
Definition said_dataset (x : dataset) : option dataset :=
  match x with
  | DSComponent c => let? c := said_component_data c in Some (DSComponent c)
  | DSReference _ => None
  end.
Definition form_approach (x : approach) : xml :=
  Elem "approach" [] (perhaps (named text_approach_type "type") (ap_type x)).
Definition said_approach (x : approach) : approach := mkApproach (option_map kx_approach_type (ap_type x)).
Definition form_ml_parameter (n : string) (x : ml_parameter) : xml :=
  Elem n [] (perhaps (words "format") (ml_format x)).
Definition said_ml_parameter (x : ml_parameter) : ml_parameter := mkMLParameter (trimo (ml_format x)).
Definition form_model_parameters (x : model_parameters) : xml :=
  Elem "modelParameters" []
    (perhaps form_approach (mp_approach x) ++ perhaps (words "task") (mp_task x)
     ++ perhaps (words "architectureFamily") (mp_architecture_family x)
     ++ perhaps (words "modelArchitecture") (mp_model_architecture x)
     ++ perhaps_group "datasets" form_dataset (mp_datasets x)
     ++ perhaps_group "inputs" (form_ml_parameter "input") (mp_inputs x)
     ++ perhaps_group "outputs" (form_ml_parameter "output") (mp_outputs x)).
Definition said_model_parameters (x : model_parameters) : option model_parameters :=
  let? d := maybe (each said_dataset) (mp_datasets x) in
  Some (mkModelParameters (option_map said_approach (mp_approach x))
          (trimo (mp_task x)) (trimo (mp_architecture_family x)) (trimo (mp_model_architecture x)) d
          (option_map (map said_ml_parameter) (mp_inputs x)) (option_map (map said_ml_parameter) (mp_outputs x))).
Definition form_interval (x : confidence_interval) : xml :=
  Elem "confidenceInterval" []
    (perhaps (words "lowerBound") (ci_lower_bound x) ++ perhaps (words "upperBound") (ci_upper_bound x)).
Definition said_interval (x : confidence_interval) : confidence_interval :=
  mkInterval (trimo (ci_lower_bound x)) (trimo (ci_upper_bound x)).
Definition form_metric (x : performance_metric) : xml :=
  Elem "performanceMetric" []
    (perhaps (words "type") (pm_type x) ++ perhaps (words "value") (pm_value x) ++ perhaps (words "slice") (pm_slice x)
     ++ perhaps form_interval (pm_confidence_interval x)).
Definition said_metric (x : performance_metric) : performance_metric :=
  mkMetric (trimo (pm_type x)) (trimo (pm_value x)) (trimo (pm_slice x))
    (option_map said_interval (pm_confidence_interval x)).
Definition form_quantitative (x : quantitative_analysis) : xml :=
  Elem "quantitativeAnalysis" []
    (perhaps_group "performanceMetrics" form_metric (qa_performance_metrics x)
     ++ perhaps form_graphics (qa_graphics x)).
Definition said_quantitative (x : quantitative_analysis) : option quantitative_analysis :=
  let? g := maybe said_graphics (qa_graphics x) in
  Some (mkQuantitative (option_map (map said_metric) (qa_performance_metrics x)) g).
Definition form_model_card (x : model_card) : xml :=
  Elem "modelCard" (with_attr "bom-ref" (mc_bom_ref x))
    (perhaps form_model_parameters (mc_model_parameters x) ++ perhaps form_quantitative (mc_quantitative_analysis x)
     ++ perhaps (fun _ => Elem "considerations" [] []) (mc_considerations x) ++ form_properties (mc_properties x)).
Definition said_model_card (x : model_card) : option model_card :=
  let? p := maybe said_model_parameters (mc_model_parameters x) in
  let? q := maybe said_quantitative (mc_quantitative_analysis x) in
  match mc_considerations x, mc_properties x with
  | None, None => Some (mkModelCard (mc_bom_ref x) p q None None)
  | _, _ => None
  end.

(** ** Evidence *)
Definition form_occurrence (x : occurrence) : xml :=
  Elem "occurrence" (with_attr "bom-ref" (oc_bom_ref x)) [words "location" (oc_location x)].
Definition said_occurrence (x : occurrence) : occurrence := mkOccurrence (oc_bom_ref x) (xtrim (oc_location x)).
Definition form_frame (x : frame) : xml :=
  Elem "frame" []
    (perhaps (words "package") (fr_package x) ++ [words "module" (fr_module x)] ++ perhaps (words "function") (fr_function x)
     ++ perhaps_group "parameters" (words "parameter") (fr_parameters x) ++ perhaps (named number "line") (fr_line x)
     ++ perhaps (named number "column") (fr_column x) ++ perhaps (words "fullFilename") (fr_full_filename x)).
Definition said_frame (x : frame) : frame :=
  mkFrame (trimo (fr_package x)) (xtrim (fr_module x)) (trimo (fr_function x)) (option_map (map xtrim) (fr_parameters x))
    (fr_line x) (fr_column x) (trimo (fr_full_filename x)).
Definition form_callstack (l : list frame) : xml := Elem "callstack" [] [group "frames" form_frame l].
Definition form_method (x : method) : xml :=
  Elem "method" []
    ([words "technique" (me_technique x)] ++ [named show "confidence" (me_confidence x)]
     ++ perhaps (words "value") (me_value x)).
Definition said_method (x : method) : method := mkMethod (xtrim (me_technique x)) (me_confidence x) (trimo (me_value x)).
(** the document has the text of an unknown field itself *)
Definition field_words (x : identity_field) : string := match x with IFUnknown s => s | _ => text_identity_field x end.
Definition said_identity_field := in_text raw_identity_field identity_field_of_text.
Definition form_identity (x : identity) : xml :=
  Elem "identity" []
    ([named field_words "field" (id_field x)] ++ perhaps (named show "confidence") (id_confidence x)
     ++ perhaps_group "methods" form_method (id_methods x) ++ perhaps_group "tools" (pointer "tool") (id_tools x)).
Definition said_identity (x : identity) : identity :=
  mkIdentity (said_identity_field (id_field x)) (id_confidence x) (option_map (map said_method) (id_methods x)) (id_tools x).
Definition form_evidence (x : evidence) : xml :=
  Elem "evidence" []
    (form_licenses (ev_licenses x)
     ++ perhaps_group "copyright" (fun s => Elem "text" [] [CData s]) (ev_copyright x)
     ++ in_version V1_5 v (perhaps_group "occurrences" form_occurrence (ev_occurrences x))
     ++ in_version V1_5 v (perhaps form_callstack (ev_callstack x))
     ++ in_version V1_5 v (perhaps form_identity (ev_identity x))).
Definition said_evidence (x : evidence) : option evidence :=
  let? l := said_licenses (ev_licenses x) in
  Some (mkEvidence l (ev_copyright x) (from V1_5 v (option_map (map said_occurrence) (ev_occurrences x)))
          (from V1_5 v (option_map (map said_frame) (ev_callstack x)))
          (from V1_5 v (option_map said_identity (ev_identity x)))).

(** ** Components *)
Definition form_swid (x : swid) : xml :=
  Elem "swid"
    ([("tagId", sw_tag_id x); ("name", sw_name x)] ++ with_attr "version" (sw_version x)
     ++ with_attr "tagVersion" (option_map number (sw_tag_version x))
     ++ with_attr "patch" (option_map yes_no (sw_patch x)))
    (perhaps (form_attached_text "text") (sw_text x) ++ perhaps (words "url") (sw_url x)).
Definition said_swid (x : swid) : option swid :=
  let? t := maybe said_attached_text (sw_text x) in
  Some (mkSwid (sw_tag_id x) (sw_name x) (sw_version x) (sw_tag_version x) (sw_patch x) t (trimo (sw_url x))).
Fixpoint form_component (x : component) : xml :=
  Elem "component"
    ([("type", text_classification (c_type x))] ++ with_attr "mime-type" (c_mime_type x)
     ++ with_attr "bom-ref" (c_bom_ref x))
    (perhaps (form_entity "supplier") (c_supplier x)
     ++ perhaps (words "author") (c_author x) ++ perhaps (words "publisher") (c_publisher x)
     ++ perhaps (words "group") (c_group x) ++ [words "name" (c_name x)]
     ++ perhaps (words "version") (c_version x) ++ perhaps (words "description") (c_description x)
     ++ perhaps (named text_scope "scope") (c_scope x) ++ form_hashes (c_hashes x) ++ form_licenses (c_licenses x)
     ++ perhaps (words "copyright") (c_copyright x) ++ perhaps (words "cpe") (c_cpe x)
     ++ perhaps (words "purl") (c_purl x) ++ perhaps form_swid (c_swid x)
     ++ perhaps (named yes_no "modified") (c_modified x)
     ++ perhaps (form_pedigree form_component) (c_pedigree x)
     ++ form_external_references (c_external_references x) ++ form_properties (c_properties x)
     ++ perhaps_group "components" form_component (c_components x)
     ++ perhaps form_evidence (c_evidence x)
     ++ in_version V1_4 v (perhaps form_signature (c_signature x))
     ++ in_version V1_5 v (perhaps form_model_card (c_model_card x))
     ++ in_version V1_5 v (perhaps (form_component_data "data") (c_data x))).
Fixpoint said_component (x : component) : option component :=
  let? li := said_licenses (c_licenses x) in
  let? sw := maybe said_swid (c_swid x) in
  let? pe := maybe (said_pedigree said_component) (c_pedigree x) in
  let? cs := maybe (each said_component) (c_components x) in
  let? ev := maybe said_evidence (c_evidence x) in
  let? mc := gate V1_5 v (maybe said_model_card (c_model_card x)) in
  let? da := gate V1_5 v (maybe said_component_data (c_data x)) in
  let? ve := match trimo (c_version x) with
             | None => if version_leb V1_4 v then Some None else None
             | Some s => Some (Some s)
             end in
  Some (mkComponent (kept_classification (c_type x)) (c_mime_type x) (c_bom_ref x)
          (option_map said_entity (c_supplier x))
          (trimo (c_author x)) (trimo (c_publisher x)) (trimo (c_group x)) (xtrim (c_name x)) ve
          (trimo (c_description x)) (option_map kx_scope (c_scope x)) (said_hashes (c_hashes x)) li
          (trimo (c_copyright x)) (trimo (c_cpe x)) (trimo (c_purl x)) sw (c_modified x) pe
          (said_external_references (c_external_references x)) (said_properties (c_properties x))
          cs ev (from V1_4 v (option_map said_signature (c_signature x))) mc da).

(** ** Services *)
Definition form_classification (x : data_classification) : xml :=
  Elem "classification" [("flow", text_data_flow_type (dcl_flow x))] [Text (dcl_classification x)].
Definition said_classification (x : data_classification) : data_classification :=
  mkDataClass (kept_data_flow_type (dcl_flow x)) (xtrim (dcl_classification x)).
Definition form_service_data (x : service_data) : xml :=
  Elem "dataflow" (with_attr "name" (sd_name x) ++ with_attr "description" (sd_description x))
    ([form_classification (sd_classification x)] ++ perhaps form_governance (sd_governance x)
     ++ perhaps_group "source" (words "url") (sd_source x) ++ perhaps_group "destination" (words "url") (sd_destination x)).
Definition said_service_data (x : service_data) : service_data :=
  mkServiceData (sd_name x) (sd_description x) (said_classification (sd_classification x))
    (option_map said_governance (sd_governance x)) (option_map (map xtrim) (sd_source x))
    (option_map (map xtrim) (sd_destination x)).
Definition form_data (x : data) : xml :=
  Elem "data" []
    match x with
    | DClassification l => map form_classification l
    | DServiceData l => map form_service_data l
    end.
Definition said_data (x : data) : option data :=
  match x with
  | DClassification l => Some (DClassification (map said_classification l))
  | DServiceData [] => Some (DClassification [])
  | DServiceData l => if version_leb V1_5 v then Some (DServiceData (map said_service_data l)) else None
  end.
Fixpoint form_service (x : service) : xml :=
  Elem "service" (with_attr "bom-ref" (s_bom_ref x))
    (perhaps (form_entity "provider") (s_provider x) ++ perhaps (words "group") (s_group x) ++ [words "name" (s_name x)]
     ++ perhaps (words "version") (s_version x) ++ perhaps (words "description") (s_description x)
     ++ perhaps_group "endpoints" (words "endpoint") (s_endpoints x)
     ++ perhaps (named yes_no "authenticated") (s_authenticated x)
     ++ perhaps (named yes_no "x-trust-boundary") (s_x_trust_boundary x)
     ++ perhaps form_data (s_data x) ++ form_licenses (s_licenses x)
     ++ form_external_references (s_external_references x) ++ form_properties (s_properties x)
     ++ perhaps_group "services" form_service (s_services x)
     ++ in_version V1_4 v (perhaps form_signature (s_signature x))
     ++ in_version V1_5 v (perhaps (words "trustZone") (s_trust_zone x))).
Fixpoint said_service (x : service) : option service :=
  let? da := maybe said_data (s_data x) in
  let? li := said_licenses (s_licenses x) in
  let? ss := maybe (each said_service) (s_services x) in
  Some (mkService (s_bom_ref x) (option_map said_entity (s_provider x)) (trimo (s_group x)) (xtrim (s_name x))
          (trimo (s_version x)) (trimo (s_description x)) (option_map (map xtrim) (s_endpoints x))
          (s_authenticated x) (s_x_trust_boundary x) da li
          (said_external_references (s_external_references x)) (said_properties (s_properties x)) ss
          (from V1_4 v (option_map said_signature (s_signature x))) (from V1_5 v (trimo (s_trust_zone x)))).

(** ** Metadata *)
Definition form_tool (x : tool) : xml :=
  Elem "tool" []
    (perhaps (words "vendor") (t_vendor x) ++ perhaps (words "name") (t_name x) ++ perhaps (words "version") (t_version x)
     ++ form_hashes (t_hashes x) ++ in_version V1_4 v (form_external_references (t_external_references x))).
Definition said_tool (x : tool) : tool :=
  mkTool (trimo (t_vendor x)) (trimo (t_name x)) (trimo (t_version x)) (said_hashes (t_hashes x))
    (from V1_4 v (said_external_references (t_external_references x))).
Definition form_tools (x : tools) : xml :=
  Elem "tools" []
    match x with
    | TList l => map form_tool l
    | TObject s c => perhaps_group "services" form_service s ++ perhaps_group "components" form_component c
    end.
(** in 1.5 an empty list of tools looks like an object without services and components *)
Definition said_tools (x : tools) : option tools :=
  match x with
  | TList [] => Some (if version_leb V1_5 v then TObject None None else TList [])
  | TList l => Some (TList (map said_tool l))
  | TObject s c =>
      if version_leb V1_5 v then
        let? s := maybe (each said_service) s in
        let? c := maybe (each said_component) c in
        Some (TObject s c)
      else None
  end.
Definition form_lifecycle (x : lifecycle) : xml :=
  Elem "lifecycle" []
    match x with
    | LPhase p => [named text_phase "phase" p]
    | LDescription n d => [words "name" n] ++ perhaps (words "description") d
    end.
Definition said_lifecycle (x : lifecycle) : lifecycle :=
  match x with LPhase p => LPhase (kx_phase p) | LDescription n d => LDescription (xtrim n) (trimo d) end.
Definition form_metadata (x : metadata) : xml :=
  Elem "metadata" []
    (perhaps (words "timestamp") (m_timestamp x) ++ perhaps form_tools (m_tools x)
     ++ perhaps_group "authors" (form_contact "author") (m_authors x)
     ++ perhaps form_component (m_component x) ++ perhaps (form_entity "manufacture") (m_manufacture x)
     ++ perhaps (form_entity "supplier") (m_supplier x) ++ form_licenses (m_licenses x) ++ form_properties (m_properties x)
     ++ in_version V1_5 v (perhaps_group "lifecycles" form_lifecycle (m_lifecycles x))).
Definition said_metadata (x : metadata) : option metadata :=
  let? t := maybe said_tools (m_tools x) in
  let? c := maybe said_component (m_component x) in
  let? l := said_licenses (m_licenses x) in
  Some (mkMetadata (trimo (m_timestamp x)) t (option_map (map said_contact) (m_authors x)) c
          (option_map said_entity (m_manufacture x)) (option_map said_entity (m_supplier x)) l
          (said_properties (m_properties x)) (from V1_5 v (option_map (map said_lifecycle) (m_lifecycles x)))).

(** ** Dependencies, compositions, annotations *)
Definition form_dependency (x : dependency) : xml :=
  Elem "dependency" [("ref", d_ref x)] (map (pointer "dependency") (d_dependencies x)).
Definition form_composition (x : composition) : xml :=
  Elem "composition" (in_version V1_5 v (with_attr "bom-ref" (co_bom_ref x)))
    ([named text_aggregate_type "aggregate" (co_aggregate x)]
     ++ perhaps_group "assemblies" (pointer "assembly") (co_assemblies x)
     ++ perhaps_group "dependencies" (pointer "dependency") (co_dependencies x)
     ++ in_version V1_5 v (perhaps_group "vulnerabilities" (pointer "vulnerability") (co_vulnerabilities x))
     ++ in_version V1_4 v (perhaps form_signature (co_signature x))).
Definition said_composition (x : composition) : composition :=
  mkComposition (from V1_5 v (co_bom_ref x)) (kx_aggregate_type (co_aggregate x)) (co_assemblies x) (co_dependencies x)
    (from V1_5 v (co_vulnerabilities x)) (from V1_4 v (option_map said_signature (co_signature x))).
Definition form_annotator (x : annotator) : xml :=
  Elem "annotator" []
    match x with
    | AnOrganization o => [form_entity "organization" o]
    | AnIndividual c => [form_contact "individual" c]
    | AnComponent c => [form_component c]
    | AnService s => [form_service s]
    end.
Definition said_annotator (x : annotator) : option annotator :=
  match x with
  | AnOrganization o => Some (AnOrganization (said_entity o))
  | AnIndividual c => Some (AnIndividual (said_contact c))
  | AnComponent c => let? c := said_component c in Some (AnComponent c)
  | AnService s => let? s := said_service s in Some (AnService s)
  end.
Definition form_annotation (x : annotation) : xml :=
  Elem "annotation" (with_attr "bom-ref" (an_bom_ref x))
    ([group "subjects" (pointer "subject") (an_subjects x)] ++ [form_annotator (an_annotator x)]
     ++ [words "timestamp" (an_timestamp x)] ++ [words "text" (an_text x)]
     ++ perhaps form_signature (an_signature x)).
Definition said_annotation (x : annotation) : option annotation :=
  let? a := said_annotator (an_annotator x) in
  Some (mkAnnotation (an_bom_ref x) (an_subjects x) a (xtrim (an_timestamp x)) (xtrim (an_text x))
          (option_map said_signature (an_signature x))).

(** ** Vulnerabilities *)
Definition form_vuln_source (x : vuln_source) : xml :=
  Elem "source" [] (perhaps (words "name") (vs_name x) ++ perhaps (words "url") (vs_url x)).
Definition said_vuln_source (x : vuln_source) : vuln_source := mkVSource (trimo (vs_name x)) (trimo (vs_url x)).
Definition form_vuln_reference (x : vuln_reference) : xml :=
  Elem "reference" [] ([words "id" (vr_id x)] ++ [form_vuln_source (vr_source x)]).
Definition said_vuln_reference (x : vuln_reference) : vuln_reference :=
  mkVReference (xtrim (vr_id x)) (said_vuln_source (vr_source x)).
Definition form_rating (x : vuln_rating) : xml :=
  Elem "rating" []
    (perhaps form_vuln_source (ra_source x) ++ perhaps (named show "score") (ra_score x)
     ++ perhaps (named text_severity "severity") (ra_severity x)
     ++ perhaps (named text_score_method "method") (ra_method x)
     ++ perhaps (words "vector") (ra_vector x) ++ perhaps (words "justification") (ra_justification x)).
Definition said_rating (x : vuln_rating) : vuln_rating :=
  mkRating (option_map said_vuln_source (ra_source x)) (ra_score x) (option_map kx_severity (ra_severity x))
    (option_map kx_score_method (ra_method x)) (trimo (ra_vector x)) (trimo (ra_justification x)).
Definition form_advisory (x : advisory) : xml :=
  Elem "advisory" [] (perhaps (words "title") (ad_title x) ++ [words "url" (ad_url x)]).
Definition said_advisory (x : advisory) : advisory := mkAdvisory (trimo (ad_title x)) (xtrim (ad_url x)).
Definition form_credits (x : vuln_credits) : xml :=
  Elem "credits" []
    (perhaps_group "organizations" (form_entity "organization") (vc_organizations x)
     ++ perhaps_group "individuals" (form_contact "individual") (vc_individuals x)).
Definition said_credits (x : vuln_credits) : vuln_credits :=
  mkCredits (option_map (map said_entity) (vc_organizations x)) (option_map (map said_contact) (vc_individuals x)).
Definition form_analysis (x : vuln_analysis) : xml :=
  Elem "analysis" []
    (perhaps (named text_analysis_state "state") (va_state x)
     ++ perhaps (named text_analysis_justification "justification") (va_justification x)
     ++ perhaps_group "responses" (named text_analysis_response "response") (va_responses x)
     ++ perhaps (words "detail") (va_detail x)
     ++ in_version V1_5 v (perhaps (words "firstIssued") (va_first_issued x))
     ++ in_version V1_5 v (perhaps (words "lastUpdated") (va_last_updated x))).
Definition said_analysis (x : vuln_analysis) : vuln_analysis :=
  mkAnalysis (option_map kx_analysis_state (va_state x)) (option_map kx_analysis_justification (va_justification x))
    (option_map (map kx_analysis_response) (va_responses x)) (trimo (va_detail x))
    (from V1_5 v (trimo (va_first_issued x))) (from V1_5 v (trimo (va_last_updated x))).
Definition form_version_status (x : version_status) : xml :=
  Elem "version" []
    (match ve_range x with VRVersion s => [words "version" s] | VRRange s => [words "range" s] | VRUndefined _ => [] end
     ++ [named text_status "status" (ve_status x)]).
Definition said_version_status (x : version_status) : option version_status :=
  let? r := match ve_range x with
            | VRVersion s => Some (VRVersion (xtrim s))
            | VRRange s => Some (VRRange (xtrim s))
            | VRUndefined _ => None
            end in
  Some (mkVersion r (kx_status (ve_status x))).
Definition form_target (x : vuln_target) : xml :=
  Elem "target" [] ([words "ref" (vt_bom_ref x)] ++ perhaps_group "versions" form_version_status (vt_versions x)).
Definition said_target (x : vuln_target) : option vuln_target :=
  let? l := maybe (each said_version_status) (vt_versions x) in Some (mkTarget (xtrim (vt_bom_ref x)) l).
Definition form_poc (x : proof_of_concept) : xml :=
  Elem "proofOfConcept" []
    (perhaps (words "reproductionSteps") (poc_reproduction_steps x) ++ perhaps (words "environment") (poc_environment x)
     ++ perhaps_group "supportingMaterial" (form_attachment "attachment") (poc_supporting_material x)).
Definition said_poc (x : proof_of_concept) : option proof_of_concept :=
  let? m := maybe (each said_attachment) (poc_supporting_material x) in
  Some (mkPoc (trimo (poc_reproduction_steps x)) (trimo (poc_environment x)) m).
Definition form_vulnerability (x : vulnerability) : xml :=
  Elem "vulnerability" (with_attr "bom-ref" (v_bom_ref x))
    (perhaps (words "id") (v_id x) ++ perhaps form_vuln_source (v_source x)
     ++ perhaps_group "references" form_vuln_reference (v_references x)
     ++ perhaps_group "ratings" form_rating (v_ratings x)
     ++ perhaps_group "cwes" (named number "cwe") (v_cwes x) ++ perhaps (words "description") (v_description x)
     ++ perhaps (words "detail") (v_detail x)
     ++ perhaps (words "recommendation") (v_recommendation x) ++ perhaps_group "advisories" form_advisory (v_advisories x)
     ++ perhaps (words "created") (v_created x) ++ perhaps (words "published") (v_published x)
     ++ perhaps (words "updated") (v_updated x) ++ in_version V1_5 v (perhaps (words "rejected") (v_rejected x))
     ++ perhaps form_credits (v_credits x) ++ perhaps form_tools (v_tools x) ++ perhaps form_analysis (v_analysis x)
     ++ perhaps_group "affects" form_target (v_targets x) ++ form_properties (v_properties x)
     ++ in_version V1_5 v (perhaps (words "workaround") (v_workaround x))
     ++ in_version V1_5 v (perhaps form_poc (v_proof_of_concept x))).
(** an empty [detail] says nothing *)
Definition said_vulnerability (x : vulnerability) : option vulnerability :=
  let? tl := maybe said_tools (v_tools x) in
  let? tg := maybe (each said_target) (v_targets x) in
  let? pc := gate V1_5 v (maybe said_poc (v_proof_of_concept x)) in
  Some (mkVulnerability (v_bom_ref x) (trimo (v_id x)) (option_map said_vuln_source (v_source x))
          (option_map (map said_vuln_reference) (v_references x)) (option_map (map said_rating) (v_ratings x)) (v_cwes x)
          (trimo (v_description x)) (bindo (v_detail x) nonblank) (trimo (v_recommendation x))
          (from V1_5 v (trimo (v_workaround x))) pc (option_map (map said_advisory) (v_advisories x))
          (trimo (v_created x)) (trimo (v_published x)) (trimo (v_updated x)) (from V1_5 v (trimo (v_rejected x)))
          (option_map said_credits (v_credits x)) tl (option_map said_analysis (v_analysis x)) tg
          (said_properties (v_properties x))).

(** ** Formulation *)
Definition form_resource (n : string) (x : resource_reference) : xml :=
  Elem n [] match x with
            | RRRef s => [words "ref" s]
            | RRExternal e => [form_external_reference "externalReference" e]
            end.
Definition said_resource (x : resource_reference) : resource_reference :=
  match x with RRRef s => RRRef (xtrim s) | RRExternal e => RRExternal (said_external_reference e) end.
Definition form_resources : option (list resource_reference) -> list xml :=
  perhaps_group "resourceReferences" (form_resource "resourceReference").
Definition said_resources := option_map (map said_resource).
Definition form_environment_var (x : environment_var) : xml :=
  match x with
  | EVProperty n s => Elem "environmentVar" [("name", n)] [Text s]
  | EVValue s => words "value" s
  end.
Definition said_environment_var (x : environment_var) : environment_var :=
  match x with EVProperty n s => EVProperty n (xtrim s) | EVValue s => EVValue (xtrim s) end.
Definition form_parameter (x : parameter) : xml :=
  Elem "parameter" []
    (perhaps (words "name") (pr_name x) ++ perhaps (words "value") (pr_value x)
     ++ perhaps (words "dataType") (pr_data_type x)).
Definition form_input (x : input) : xml :=
  Elem "input" []
    ([match in_required x with
      | RIResource r => form_resource "resource" r
      | RIParameters l => group "parameters" form_parameter l
      | RIEnvironmentVars l => group "environmentVars" form_environment_var l
      | RIData a => form_attachment "data" a
      end]
     ++ perhaps (form_resource "source") (in_source x) ++ perhaps (form_resource "target") (in_target x)
     ++ form_properties (in_properties x)).
Definition said_input (x : input) : option input :=
  let? r := match in_required x with
            | RIResource r => Some (RIResource (said_resource r))
            | RIParameters _ => None
            | RIEnvironmentVars l => Some (RIEnvironmentVars (map said_environment_var l))
            | RIData a => let? a := said_attachment a in Some (RIData a)
            end in
  Some (mkInput r (option_map said_resource (in_source x)) (option_map said_resource (in_target x))
          (said_properties (in_properties x))).
Definition form_output (x : output) : xml :=
  Elem "output" []
    ([match ou_required x with
      | ROResource r => form_resource "resource" r
      | ROEnvironmentVars l => group "environmentVars" form_environment_var l
      | ROData a => form_attachment "data" a
      end]
     ++ perhaps (named text_output_type "type") (ou_type x) ++ perhaps (form_resource "source") (ou_source x)
     ++ perhaps (form_resource "target") (ou_target x) ++ form_properties (ou_properties x)).
Definition said_output (x : output) : option output :=
  let? r := match ou_required x with
            | ROResource r => Some (ROResource (said_resource r))
            | ROEnvironmentVars l => Some (ROEnvironmentVars (map said_environment_var l))
            | ROData a => let? a := said_attachment a in Some (ROData a)
            end in
  Some (mkOutput r (option_map kx_output_type (ou_type x)) (option_map said_resource (ou_source x))
          (option_map said_resource (ou_target x)) (said_properties (ou_properties x))).
Definition form_command (x : command) : xml :=
  Elem "command" [] (perhaps (words "executed") (cmd_executed x) ++ form_properties (cmd_properties x)).
Definition said_command (x : command) : command := mkCommand (trimo (cmd_executed x)) (said_properties (cmd_properties x)).
Definition form_step (x : step) : xml :=
  Elem "step" []
    (perhaps_group "commands" form_command (st_commands x) ++ perhaps (words "description") (st_description x)
     ++ perhaps (words "name") (st_name x) ++ form_properties (st_properties x)).
Definition said_step (x : step) : step :=
  mkStep (option_map (map said_command) (st_commands x)) (trimo (st_description x)) (trimo (st_name x))
    (said_properties (st_properties x)).
Definition form_volume (x : volume) : xml :=
  Elem "volume" []
    (perhaps (words "uid") (vo_uid x) ++ perhaps (words "name") (vo_name x) ++ [named text_volume_mode "mode" (vo_mode x)]
     ++ perhaps (words "path") (vo_path x) ++ perhaps (words "sizeAllocated") (vo_size_allocated x)
     ++ perhaps (named yes_no "persistent") (vo_persistent x) ++ perhaps (named yes_no "remote") (vo_remote x)
     ++ form_properties (vo_properties x)).
Definition said_volume (x : volume) : volume :=
  mkVolume (trimo (vo_uid x)) (trimo (vo_name x)) (kx_volume_mode (vo_mode x)) (trimo (vo_path x))
    (trimo (vo_size_allocated x)) (vo_persistent x) (vo_remote x) (said_properties (vo_properties x)).
Definition form_workspace (x : workspace) : xml :=
  Elem "workspace" [("bom-ref", ws_bom_ref x)]
    ([words "uid" (ws_uid x)] ++ perhaps (words "name") (ws_name x)
     ++ perhaps_group "aliases" (words "alias") (ws_aliases x) ++ perhaps (words "description") (ws_description x)
     ++ form_resources (ws_resource_references x) ++ perhaps (named text_access_mode "accessMode") (ws_access_mode x)
     ++ perhaps (words "mountPath") (ws_mount_path x) ++ perhaps (words "managedDataType") (ws_managed_data_type x)
     ++ perhaps (words "volumeRequest") (ws_volume_request x) ++ perhaps form_volume (ws_volume x)
     ++ form_properties (ws_properties x)).
Definition said_workspace (x : workspace) : workspace :=
  mkWorkspace (ws_bom_ref x) (xtrim (ws_uid x)) (trimo (ws_name x)) (option_map (map xtrim) (ws_aliases x))
    (trimo (ws_description x)) (said_resources (ws_resource_references x)) (option_map kx_access_mode (ws_access_mode x))
    (trimo (ws_mount_path x)) (trimo (ws_managed_data_type x)) (trimo (ws_volume_request x))
    (option_map said_volume (ws_volume x)) (said_properties (ws_properties x)).
Definition form_condition (x : condition) : xml :=
  Elem "condition" []
    (perhaps (words "description") (cn_description x) ++ perhaps (words "expression") (cn_expression x)
     ++ form_properties (cn_properties x)).
Definition said_condition (x : condition) : condition :=
  mkCondition (trimo (cn_description x)) (trimo (cn_expression x)) (said_properties (cn_properties x)).
Definition form_event (x : ModelTypes.event) : xml :=
  Elem "event" []
    (perhaps (words "uid") (e_uid x) ++ perhaps (words "description") (e_description x)
     ++ perhaps (words "timeReceived") (e_time_received x) ++ perhaps (form_attachment "data") (e_data x)
     ++ perhaps (form_resource "source") (e_source x) ++ perhaps (form_resource "target") (e_target x)
     ++ form_properties (e_properties x)).
Definition said_event (x : ModelTypes.event) : option ModelTypes.event :=
  let? d := maybe said_attachment (e_data x) in
  Some (mkEvent (trimo (e_uid x)) (trimo (e_description x)) (trimo (e_time_received x)) d
          (option_map said_resource (e_source x)) (option_map said_resource (e_target x)) (said_properties (e_properties x))).
Definition form_trigger (x : trigger) : xml :=
  Elem "trigger" [("bom-ref", tr_bom_ref x)]
    ([words "uid" (tr_uid x)] ++ perhaps (words "name") (tr_name x) ++ perhaps (words "description") (tr_description x)
     ++ form_resources (tr_resource_references x) ++ [named text_trigger_type "type" (tr_type x)]
     ++ perhaps form_event (tr_event x) ++ perhaps_group "conditions" form_condition (tr_conditions x)
     ++ perhaps (words "timeActivated") (tr_time_activated x) ++ perhaps_group "inputs" form_input (tr_inputs x)
     ++ perhaps_group "outputs" form_output (tr_outputs x) ++ form_properties (tr_properties x)).
Definition said_trigger (x : trigger) : option trigger :=
  let? e := maybe said_event (tr_event x) in
  let? i := maybe (each said_input) (tr_inputs x) in
  let? o := maybe (each said_output) (tr_outputs x) in
  Some (mkTrigger (tr_bom_ref x) (xtrim (tr_uid x)) (trimo (tr_name x)) (trimo (tr_description x))
          (said_resources (tr_resource_references x)) (kx_trigger_type (tr_type x)) e
          (option_map (map said_condition) (tr_conditions x)) (trimo (tr_time_activated x)) i o
          (said_properties (tr_properties x))).
Definition form_task (x : task) : xml :=
  Elem "task" [("bom-ref", tk_bom_ref x)]
    ([words "uid" (tk_uid x)] ++ perhaps (words "name") (tk_name x) ++ perhaps (words "description") (tk_description x)
     ++ form_resources (tk_resource_references x) ++ perhaps form_trigger (tk_trigger x)
     ++ perhaps_group "steps" form_step (tk_steps x) ++ perhaps_group "inputs" form_input (tk_inputs x)
     ++ perhaps_group "outputs" form_output (tk_outputs x) ++ perhaps (words "timeStart") (tk_time_start x)
     ++ perhaps (words "timeEnd") (tk_time_end x) ++ perhaps_group "workspaces" form_workspace (tk_workspaces x)
     ++ perhaps_group "runtimeTopology" form_dependency (tk_runtime_topology x) ++ form_properties (tk_properties x)
     ++ [group "taskTypes" (named text_task_type "taskType") (tk_task_types x)]).
Definition said_task (x : task) : option task :=
  let? t := maybe said_trigger (tk_trigger x) in
  let? i := maybe (each said_input) (tk_inputs x) in
  let? o := maybe (each said_output) (tk_outputs x) in
  Some (mkTask (tk_bom_ref x) (xtrim (tk_uid x)) (trimo (tk_name x)) (trimo (tk_description x))
          (said_resources (tk_resource_references x)) (map kx_task_type (tk_task_types x)) t
          (option_map (map said_step) (tk_steps x)) i o (trimo (tk_time_start x)) (trimo (tk_time_end x))
          (option_map (map said_workspace) (tk_workspaces x)) (tk_runtime_topology x) (said_properties (tk_properties x))).
Definition form_workflow (x : workflow) : xml :=
  Elem "workflow" [("bom-ref", wf_bom_ref x)]
    ([words "uid" (wf_uid x)] ++ perhaps (words "name") (wf_name x) ++ perhaps (words "description") (wf_description x)
     ++ form_resources (wf_resource_references x) ++ perhaps_group "tasks" form_task (wf_tasks x)
     ++ perhaps_group "taskDependencies" form_dependency (wf_task_dependencies x)
     ++ [group "taskTypes" (named text_task_type "taskType") (wf_task_types x)] ++ perhaps form_trigger (wf_trigger x)
     ++ perhaps_group "steps" form_step (wf_steps x) ++ perhaps_group "inputs" form_input (wf_inputs x)
     ++ perhaps_group "outputs" form_output (wf_outputs x) ++ perhaps (words "timeStart") (wf_time_start x)
     ++ perhaps (words "timeEnd") (wf_time_end x) ++ perhaps_group "workspaces" form_workspace (wf_workspaces x)
     ++ perhaps_group "runtimeTopology" form_dependency (wf_runtime_topology x) ++ form_properties (wf_properties x)).
Definition said_workflow (x : workflow) : option workflow :=
  let? tk := maybe (each said_task) (wf_tasks x) in
  let? tg := maybe said_trigger (wf_trigger x) in
  let? i := maybe (each said_input) (wf_inputs x) in
  let? o := maybe (each said_output) (wf_outputs x) in
  Some (mkWorkflow (wf_bom_ref x) (xtrim (wf_uid x)) (trimo (wf_name x)) (trimo (wf_description x))
          (said_resources (wf_resource_references x)) tk (wf_task_dependencies x) (map kx_task_type (wf_task_types x)) tg
          (option_map (map said_step) (wf_steps x)) i o (trimo (wf_time_start x)) (trimo (wf_time_end x))
          (option_map (map said_workspace) (wf_workspaces x)) (wf_runtime_topology x) (said_properties (wf_properties x))).
Definition form_formula (x : formula) : xml :=
  Elem "formula" (with_attr "bom-ref" (fo_bom_ref x))
    (perhaps_group "components" form_component (fo_components x) ++ perhaps_group "services" form_service (fo_services x)
     ++ perhaps_group "workflows" form_workflow (fo_workflows x) ++ form_properties (fo_properties x)).
Definition said_formula (x : formula) : option formula :=
  let? c := maybe (each said_component) (fo_components x) in
  let? s := maybe (each said_service) (fo_services x) in
  let? w := maybe (each said_workflow) (fo_workflows x) in
  Some (mkFormula (fo_bom_ref x) c s w (said_properties (fo_properties x))).

(** ** The BOM *)
Definition form_bom (x : bom) : xml :=
  Elem "bom" (with_attr "serialNumber" (b_serial_number x) ++ [("version", number (b_version x))])
    (perhaps form_metadata (b_metadata x) ++ perhaps_group "components" form_component (b_components x)
     ++ perhaps_group "services" form_service (b_services x)
     ++ form_external_references (b_external_references x)
     ++ perhaps_group "dependencies" form_dependency (b_dependencies x)
     ++ perhaps_group "compositions" form_composition (b_compositions x)
     ++ in_version V1_5 v (form_properties (b_properties x))
     ++ in_version V1_4 v (perhaps_group "vulnerabilities" form_vulnerability (b_vulnerabilities x))
     ++ in_version V1_5 v (perhaps_group "formulation" form_formula (b_formulation x))
     ++ in_version V1_4 v (perhaps form_signature (b_signature x))
     ++ in_version V1_5 v (perhaps_group "annotations" form_annotation (b_annotations x))).
Definition said_bom (x : bom) : option bom :=
  let? m := maybe said_metadata (b_metadata x) in
  let? c := maybe (each said_component) (b_components x) in
  let? s := maybe (each said_service) (b_services x) in
  let? vu := gate V1_4 v (maybe (each said_vulnerability) (b_vulnerabilities x)) in
  let? f := gate V1_5 v (maybe (each said_formula) (b_formulation x)) in
  let? an := gate V1_5 v (maybe (each said_annotation) (b_annotations x)) in
  Some (mkBom (b_version x) (b_serial_number x) m c s
          (said_external_references (b_external_references x)) (b_dependencies x)
          (option_map (map said_composition) (b_compositions x)) (from V1_5 v (said_properties (b_properties x)))
          vu (from V1_4 v (option_map said_signature (b_signature x))) an f v).
End FORM.

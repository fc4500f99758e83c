(** The XML side of the library, [cyclonedx-bom/src/specs]: the [ToXml]/[ToInnerXml] and
    [FromXml] implementations of the version-specific structs, composed with the
    conversions from and to the public model.

    [wr_x] is conversion followed by [write_xml_element] (or [write_xml_named_element], which
    takes the tag), [rd_x] is [read_xml_element] followed by conversion.  As in JsonModel.v
    the intermediate structs are not represented, both halves being field by field.
    Comments give the lines of the writer and of the reader.

    The arms of a reader are listed in the order in which the writer emits the fields;
    arms for different tags can be exchanged.  Where a reader checks something before
    reading (a required attribute, a second [id]) the check comes after the reading here:
    both are errors either way.

    [v] is the version whose structs the [versioned] macro generates. *)
From Verif Require Import Base ModelTypes Strings Enums GenModel Json JsonModel Xml.
Open Scope string_scope.
Open Scope list_scope.
Open Scope nat_scope.
Open Scope shape_scope.

(** the state of a loop with the arms [a ** b ** c] *)
Notation "<< x ; .. ; y ; z >>" := (pair x .. (pair y z) ..) (at level 0).

(** ** Text, numbers, references *)
Definition txt {A} (t : A -> string) (tag : string) (a : A) : xml := simple tag (t a).
Definition d_enum {A} (of_text : string -> A) : desc A := d_text (fun s => Some (of_text s)).
(** [format!("{}", b)] of a boolean *)
Definition bool_text (b : bool) : string := if b then "true" else "false".
(** [format!("{}", n)] of a number *)
Definition u32_text (n : u32) : string := string_of_N (u32_N n).
(** models/external_reference.rs:54-79 *)
Definition uri_text (u : reference_uri) : string := match u with RUrl s => s | RBomLink s => s end.
(** [Option::is_some] *)
Definition some {A} (o : option A) : bool := match o with Some _ => true | None => false end.
(** [if let Some(x) = &self.x { if x.will_write() { .. } }] *)
Definition keep {A} (p : A -> bool) (o : option A) : option A :=
  match o with Some a => if p a then Some a else None | None => None end.
(** what is only written from some version on *)
Definition when {A} (b : bool) (l : list A) : list A := if b then l else [].
(** the items of an optional list, without an element of their own *)
Definition items {A} (f : A -> xml) (o : option (list A)) : list xml :=
  match o with Some l => map f l | None => [] end.
(** an optional list inside its own element *)
Definition opt_list {A} (n : string) (f : A -> xml) (o : option (list A)) : list xml := opt (list_tag n f) o.

(** an element [tag] whose reader's result is injected into a sum *)
Definition d_map {A B} (f : A -> B) (d : desc A) : desc B := DMap (fun _ _ a => Some (f a)) d.
(** an element that may only occur once *)
Definition single {A} (tag : string) (d : desc A) : shape (option A) :=
  SOn tag d None (fun a o => match o with None => Some (Some a) | Some _ => None end).
(** an optional list, read by [read_list_tag] ([Strict]) or [read_lax_validation_list_tag] ([Lax]) *)
Definition one_list {A} (p : policy) (n tag : string) (d : desc A) : shape (option (list A)) :=
  one n (list_of p tag d).

(** ** Floating point numbers: [Display] and [FromStr] of [f32] (std, not modelled) *)
Record float_text := mkFloatText { show_f32 : f32 -> string; read_f32 : string -> option f32 }.

Section XML.
Context (F : float_text) (v : spec_version).

(** specs/common/vulnerability_rating.rs:150-152, 210-216; xml.rs:425-443 *)
Definition d_score : desc f32 := d_text (read_f32 F).
(** xml.rs:530-557 ([read_f32_tag]) *)
Definition d_f32 : desc f32 := DMap (fun _ _ s => read_f32 F (trim s)) (DPrim PText).

(** specs/common/bom_reference.rs:64-77, 80-97 *)
Definition wr_ref (tag : string) (s : string) : xml := Elem tag [("ref", s)] [].
Definition rd_ref : desc string := DMap (fun _ ats _ => attr "ref" ats) (DPrim PEnd).

(** specs/common/attached_text.rs:63-90, 93-130 *)
Definition wr_attached_text (tag : string) (x : attached_text) : xml :=
  Elem tag (attr_opt "content-type" (at_content_type x)
            ++ attr_opt "encoding" (option_map text_encoding (at_encoding x)))
       [Text (at_content x)].
Definition rd_attached_text : desc attached_text :=
  DMap (fun _ ats s => Some (mkText (attr_last "content-type" ats)
                               (option_map encoding_of_text (attr_last "encoding" ats)) s))
       (DPrim PText).

(** specs/v1_5/attachment.rs:70-93, 95-137 *)
Definition wr_attachment (tag : string) (x : attachment) : xml :=
  Elem tag (attr_opt "encoding" (att_encoding x) ++ attr_opt "encoding" (att_content_type x))
       [Text (att_content x)].
Definition rd_attachment : desc attachment :=
  struct Open (SChars None (fun s _ => Some s)) (fun ats content =>
    let? content := content in
    Some (mkAttachment content (attr "content-type" ats) (attr "encoding" ats))).

(** specs/common/property.rs:107-124, 126-139 *)
Definition wr_property (x : property) : xml := Elem "property" [("name", p_name x)] [Text (p_value x)].
Definition rd_property : desc property :=
  DMap (fun _ ats s => let? n := attr "name" ats in Some (mkProp n s)) (DPrim PSimple).
(** specs/common/property.rs:49-64, 66-77 *)
Definition wr_properties (o : option (list property)) : list xml := opt_list "properties" wr_property o.
Definition rd_properties : shape (option (list property)) := one_list Lax "properties" "property" rd_property.

(** specs/common/hash.rs:107-125, 127-144 *)
Definition wr_hash (x : hash) : xml :=
  Elem "hash" [("alg", text_hash_algorithm (h_alg x))] [Text (h_content x)].
Definition rd_hash : desc hash :=
  DMap (fun _ ats s => let? a := attr "alg" ats in Some (mkHash (hash_algorithm_of_text a) s)) (DPrim PSimple).
(** specs/common/hash.rs:46-64, 66-77; [will_write] is the default, [true] *)
Definition wr_hashes (o : option (list hash)) : list xml := opt_list "hashes" wr_hash o.
Definition rd_hashes : shape (option (list hash)) := one_list Strict "hashes" "hash" rd_hash.

(** ** Organisations, references, signatures *)

(** specs/common/organization.rs:73-107, 109-157 *)
Definition contact_written (x : contact) : bool := some (ct_name x) || some (ct_email x) || some (ct_phone x).
Definition wr_contact (tag : string) (x : contact) : xml :=
  Elem tag (attr_opt "bom-ref" (ct_bom_ref x))
    (opt (simple "name") (ct_name x) ++ opt (simple "email") (ct_email x) ++ opt (simple "phone") (ct_phone x)).
Definition rd_contact : desc contact :=
  struct Lax (one "name" d_string ** one "email" d_string ** one "phone" d_string)
    (fun ats '<<a; b; c>> => Some (mkContact (attr "bom-ref" ats) a b c)).

(** specs/common/organization.rs:211-253, 255-313 *)
Definition entity_written (x : entity) : bool := some (oe_name x) || some (oe_url x) || some (oe_contact x).
Definition wr_entity (tag : string) (x : entity) : xml :=
  Elem tag (attr_opt "bom-ref" (oe_bom_ref x))
    (opt (simple "name") (oe_name x) ++ items (simple "url") (oe_url x)
     ++ items (wr_contact "contact") (option_map (filter contact_written) (oe_contact x))).
Definition rd_entity : desc entity :=
  struct Lax (one "name" d_string ** many_opt "url" d_string ** many_opt "contact" rd_contact)
    (fun ats '<<a; b; c>> => Some (mkEntity (attr "bom-ref" ats) a b c)).

(** specs/common/external_reference.rs:127-155, 159-211 *)
Definition wr_external_reference (x : external_reference) : xml :=
  Elem "reference" [("type", text_ext_ref_type (er_type x))]
    ([simple "url" (uri_text (er_url x))] ++ opt (simple "comment") (er_comment x) ++ wr_hashes (er_hashes x)).
Definition rd_external_reference : desc external_reference :=
  struct Strict (one "url" d_string ** one "comment" d_string ** rd_hashes)
    (fun ats '<<u; c; h>> =>
       let? t := attr "type" ats in
       let? u := u in
       Some (mkExtRef (ext_ref_type_of_text t) (uri_of u) c h)).
(** specs/common/external_reference.rs:55-70, 72-83 *)
Definition wr_external_references (o : option (list external_reference)) : list xml :=
  opt_list "externalReferences" wr_external_reference o.
Definition rd_external_references : shape (option (list external_reference)) :=
  one_list Strict "externalReferences" "reference" rd_external_reference.

(** specs/common/signature.rs:49-58, 61-109; the writer writes no element of its own *)
Definition wr_signer (x : signer) : list xml :=
  [simple "algorithm" (text_algorithm (sg_algorithm x))] ++ [simple "value" (sg_value x)].
Definition rd_signer : desc signer :=
  struct Strict (one "algorithm" d_string ** one "value" d_string)
    (fun _ '<<a; b>> => let? a := a in let? b := b in Some (mkSigner (algorithm_of_text a) b)).
(** specs/common/signature.rs:250-283 *)
Definition wr_signature (x : signature) : xml :=
  Elem "signature" []
    match x with
    | SigSigners l => [list_tag "signers" (fun s => Elem "signer" [] (wr_signer s)) l]
    | SigChain l => [list_tag "chain" (fun s => Elem "chain" [] (wr_signer s)) l]
    | SigSingle s => wr_signer s
    end.
(** specs/common/signature.rs:293-356 *)
Definition rd_signature : desc signature :=
  DMap (fun _ _ '<<sig; a; b>> =>
          match sig with
          | Some s => Some s
          | None => let? a := a in let? b := b in Some (SigSingle (mkSigner (algorithm_of_text a) b))
          end)
    (DOdd (SOr (one "signers" (d_map SigSigners (list_of Strict "signer" rd_signer)))
               (one "chain" (d_map SigChain (list_of Strict "chain" rd_signer)))
           ** one "algorithm" d_string ** one "value" d_string)
          rd_signer (fun s st => (Some (SigSingle s), snd st))).

(** ** Licenses *)

(** specs/v1_5/licensing.rs:150-201 *)
Definition rd_license_contact : desc license_contact :=
  struct Strict (SOr (one "organization" (d_map LCOrganization rd_entity))
                     (one "individual" (d_map LCContact rd_contact)))
    (fun _ c => c).
(** specs/v1_5/licensing.rs:272-372; the writer (215-270) is never called *)
Definition rd_licensing : desc licensing :=
  struct Strict
    (one_list Strict "altIds" "altId" d_string ** one "licensor" rd_license_contact
     ** one "licensee" rd_license_contact ** one "purchaser" rd_license_contact
     ** one "purchaseOrder" d_string ** one_list Strict "licenseTypes" "licenseType" (d_enum license_type_of_text)
     ** one "lastRenewal" d_string ** one "expiration" d_string)
    (fun _ '<<a; b; c; d; e; f; g; h>> => Some (mkLicensing a b c d e f g h)).

(** specs/common/license.rs:442-458, 460-502 *)
Definition wr_license_identifier (x : license_identifier) : list xml :=
  match x with LSpdxId s => [simple "id" s] | LName s => [simple "name" s] end.
Definition rd_license_identifier : shape (option license_identifier) :=
  SOr (single "id" (d_map LSpdxId (DPrim PText))) (single "name" (d_map LName (DPrim PText))).

(** specs/common/license.rs:263-303, 305-411 *)
Definition wr_license (x : license) : xml :=
  Elem "license" (when (since V1_5 v) (attr_opt "bom-ref" (l_bom_ref x)))
    (wr_license_identifier (l_identifier x)
     ++ opt (wr_attached_text "text") (l_text x)
     ++ opt (simple "url") (l_url x)
     ++ when (since V1_5 v) (wr_properties (l_properties x))).
Definition rd_license : desc license :=
  struct Lax (rd_license_identifier ** one "text" rd_attached_text ** one "url" d_string
              ** from (since V1_5 v) rd_properties ** from (since V1_5 v) (one "licensing" rd_licensing))
    (fun ats '<<i; t; u; p; l>> =>
       let? i := i in
       Some (mkLicense (if since V1_5 v then attr "bom-ref" ats else None) i t u l p)).

(** specs/common/license.rs:540-563, 565-582 *)
Definition wr_expression (r : option string) (e : string) : xml :=
  Elem "expression" (attr_opt "bom-ref" r) [Text e].
Definition rd_expression : desc license_choice :=
  DMap (fun _ ats e => Some (LicExpression (attr "bom-ref" ats) e)) (DPrim PSimple).

(** specs/common/license.rs:151-167, 169-194 *)
Definition wr_license_choice (x : license_choice) : xml :=
  match x with LicLicense l => wr_license l | LicExpression r e => wr_expression r e end.
(** specs/common/license.rs:64-82, 84-118 *)
Definition wr_licenses (o : option (list license_choice)) : list xml := opt_list "licenses" wr_license_choice o.
Definition rd_license_list : desc (list license_choice) :=
  DLoop Strict (SOr (many "license" (d_map LicLicense rd_license)) (many "expression" rd_expression)).
Definition rd_licenses : shape (option (list license_choice)) := one "licenses" rd_license_list.

(** ** Pedigree *)

(** specs/common/code.rs:269-297, 299-344 *)
Definition wr_action (tag : string) (x : identifiable_action) : xml :=
  Elem tag []
    (opt (simple "timestamp") (ia_timestamp x) ++ opt (simple "name") (ia_name x) ++ opt (simple "email") (ia_email x)).
Definition rd_action : desc identifiable_action :=
  struct Lax (one "timestamp" d_string ** one "name" d_string ** one "email" d_string)
    (fun _ '<<a; b; c>> => Some (mkAction a b c)).
(** specs/common/code.rs:131-166, 168-232 *)
Definition wr_commit (x : commit) : xml :=
  Elem "commit" []
    (opt (simple "uid") (cm_uid x) ++ opt (simple "url") (cm_url x) ++ opt (wr_action "author") (cm_author x)
     ++ opt (wr_action "committer") (cm_committer x) ++ opt (simple "message") (cm_message x)).
Definition rd_commit : desc commit :=
  struct Lax (one "uid" d_string ** one "url" d_string ** one "author" rd_action ** one "committer" rd_action
              ** one "message" d_string)
    (fun _ '<<a; b; c; d; e>> => Some (mkCommit a b c d e)).
(** specs/common/code.rs:543-570, 572-613 *)
Definition diff_written (x : diff) : bool := some (df_text x) || some (df_url x).
Definition wr_diff (x : diff) : xml :=
  Elem "diff" [] (opt (wr_attached_text "text") (df_text x) ++ opt (simple "url") (df_url x)).
Definition rd_diff : desc diff :=
  struct Lax (one "text" rd_attached_text ** one "url" d_string) (fun _ '<<a; b>> => Some (mkDiff a b)).
(** specs/common/code.rs:808-835, 837-871 *)
Definition source_written (x : source) : bool := some (so_name x) || some (so_url x).
Definition wr_source (x : source) : xml :=
  Elem "source" [] (opt (simple "name") (so_name x) ++ opt (simple "url") (so_url x)).
Definition rd_source : desc source :=
  struct Strict (one "name" d_string ** one "url" d_string) (fun _ '<<a; b>> => Some (mkSource a b)).
(** specs/common/code.rs:667-714, 716-777 *)
Definition wr_issue (x : issue) : xml :=
  Elem "issue" [("type", text_issue_classification (is_type x))]
    (opt (simple "id") (is_id x) ++ opt (simple "name") (is_name x) ++ opt (simple "description") (is_description x)
     ++ opt wr_source (keep source_written (is_source x))
     ++ opt_list "references" (simple "url") (is_references x)).
Definition rd_issue : desc issue :=
  struct Lax (one "id" d_string ** one "name" d_string ** one "description" d_string ** one "source" rd_source
              ** one_list Strict "references" "url" d_string)
    (fun ats '<<a; b; c; d; e>> =>
       let? t := attr "type" ats in Some (mkIssue (issue_classification_of_text t) a b c d e)).
(** specs/common/code.rs:432-467, 469-511 *)
Definition wr_patch (x : patch) : xml :=
  Elem "patch" [("type", text_patch_classification (pa_type x))]
    (opt wr_diff (keep diff_written (pa_diff x)) ++ opt_list "resolves" wr_issue (pa_resolves x)).
Definition rd_patch : desc patch :=
  struct Lax (one "diff" rd_diff ** one_list Strict "resolves" "issue" rd_issue)
    (fun ats '<<a; b>> =>
       let? t := attr "type" ats in Some (mkPatch (patch_classification_of_text t) a b)).
(** specs/common/component.rs:1133-1167, 1182-1264; specs/common/code.rs:52-83, 364-395.  The
    component's writer does not ask [will_write] *)
Definition wr_pedigree {C} (wc : C -> xml) (x : pedigree_ C) : xml :=
  Elem "pedigree" []
    (opt_list "ancestors" wc (pd_ancestors x) ++ opt_list "descendants" wc (pd_descendants x)
     ++ opt_list "variants" wc (pd_variants x) ++ opt_list "commits" wr_commit (pd_commits x)
     ++ opt_list "patches" wr_patch (pd_patches x) ++ opt (simple "notes") (pd_notes x)).
Definition rd_pedigree {C} (rc : desc C) : desc (pedigree_ C) :=
  struct Lax
    (one_list Lax "ancestors" "component" rc ** one_list Lax "descendants" "component" rc
     ** one_list Lax "variants" "component" rc ** one_list Lax "commits" "commit" rd_commit
     ** one_list Lax "patches" "patch" rd_patch ** one "notes" d_string)
    (fun _ '<<a; b; c; d; e; f>> => Some (mkPedigree a b c d e f)).

(** ** Component data and model cards *)

(** specs/v1_5/data_governance.rs:202-218, 220-269 *)
Definition wr_responsible_party (tag : string) (x : responsible_party) : xml :=
  Elem tag [] match x with
              | RPOrganization o => [wr_entity "organization" o]
              | RPContact c => [wr_contact "contact" c]
              end.
Definition rd_responsible_party : desc responsible_party :=
  struct Strict (SOr (one "organization" (d_map RPOrganization rd_entity))
                     (one "contact" (d_map RPContact rd_contact)))
    (fun _ p => p).
(** specs/v1_5/data_governance.rs:71-113, 115-163 *)
Definition wr_governance (tag : string) (x : data_governance) : xml :=
  Elem tag []
    (opt_list "owners" (wr_responsible_party "owner") (dg_owners x)
     ++ opt_list "custodians" (wr_responsible_party "custodian") (dg_custodians x)
     ++ opt_list "stewards" (wr_responsible_party "steward") (dg_stewards x)).
Definition rd_governance : desc data_governance :=
  struct Open (one_list Strict "owners" "owner" rd_responsible_party
               ** one_list Strict "custodians" "custodian" rd_responsible_party
               ** one_list Strict "stewards" "steward" rd_responsible_party)
    (fun _ '<<o; c; s>> => Some (mkGovernance c s o)).
(** specs/v1_5/component_data.rs:608-627, 629-673 *)
Definition wr_graphic (x : graphic) : xml :=
  Elem "graphic" [] (opt (simple "name") (g_name x) ++ opt (wr_attachment "image") (g_image x)).
Definition rd_graphic : desc graphic :=
  struct Open (one "name" d_string ** one "image" rd_attachment) (fun _ '<<a; b>> => Some (mkGraphic a b)).
(** specs/v1_5/component_data.rs:434-454, 458-503, 529-544, 546-578 *)
Definition wr_graphics (tag : string) (x : graphics_collection) : xml :=
  Elem tag [] (opt (simple "description") (gc_description x) ++ opt_list "collection" wr_graphic (gc_collection x)).
Definition rd_graphics : desc graphics_collection :=
  struct Open (one "description" d_string ** one_list Open "collection" "graphic" rd_graphic)
    (fun _ '<<a; b>> => Some (mkGraphics a b)).
(** specs/v1_5/component_data.rs:315-338, 343-401 *)
Definition wr_contents (x : data_contents) : xml :=
  Elem "contents" []
    (opt (wr_attachment "attachment") (dc_attachment x) ++ opt (simple "url") (dc_url x) ++ wr_properties (dc_properties x)).
Definition rd_contents : desc data_contents :=
  struct Open (one "attachment" rd_attachment ** one "url" d_string ** rd_properties)
    (fun _ '<<a; b; c>> => Some (mkContents a b c)).
(** specs/v1_5/component_data.rs:111-169, 173-280 *)
Definition wr_component_data (tag : string) (x : component_data) : xml :=
  Elem tag (attr_opt "bom-ref" (cd_bom_ref x))
    ([txt text_component_data_type "type" (cd_type x)] ++ opt (simple "name") (cd_name x)
     ++ opt wr_contents (cd_contents x) ++ opt (simple "classification") (cd_classification x)
     ++ opt (simple "sensitiveData") (cd_sensitive_data x) ++ opt (wr_graphics "graphics") (cd_graphics x)
     ++ opt (simple "description") (cd_description x) ++ opt (wr_governance "governance") (cd_governance x)).
Definition rd_component_data : desc component_data :=
  struct Open
    (one "type" (d_enum component_data_type_of_text) ** one "name" d_string ** one "contents" rd_contents
     ** one "classification" d_string ** one "sensitiveData" d_string ** one "graphics" rd_graphics
     ** one "description" d_string ** one "governance" rd_governance)
    (fun ats '<<t; n; c; cl; s; g; d; go>> =>
       let? t := t in Some (mkComponentData (attr "bom-ref" ats) t n c cl s g d go)).

(** specs/v1_5/modelcard.rs:393-407, 409-441 *)
Definition wr_approach (x : approach) : xml := Elem "approach" [] (opt (txt text_approach_type "type") (ap_type x)).
Definition rd_approach : desc approach :=
  struct Open (one "type" (d_enum approach_type_of_text)) (fun _ t => Some (mkApproach t)).
(** specs/v1_5/modelcard.rs:545-563, 565-583 *)
Definition wr_dataset (x : dataset) : xml :=
  match x with
  | DSComponent c => wr_component_data "dataset" c
  | DSReference s => Elem "dataset" [] [simple "ref" s]
  end.
Definition rd_dataset : desc dataset := d_map DSComponent rd_component_data.
(** specs/v1_5/modelcard.rs:1195-1206, 1208-1237 and the elements written around it by 1042-1046, 1114-1118 *)
Definition wr_ml_parameter (tag : string) (x : ml_parameter) : xml := Elem tag [] (opt (simple "format") (ml_format x)).
Definition rd_ml_parameter : desc ml_parameter :=
  struct Open (one "format" d_string) (fun _ f => Some (mkMLParameter f)).
(** specs/v1_5/modelcard.rs:233-272, 274-363; the lists 459-474, 476-510, 1035-1090, 1107-1162 *)
Definition wr_model_parameters (x : model_parameters) : xml :=
  Elem "modelParameters" []
    (opt wr_approach (mp_approach x) ++ opt (simple "task") (mp_task x)
     ++ opt (simple "architectureFamily") (mp_architecture_family x)
     ++ opt (simple "modelArchitecture") (mp_model_architecture x)
     ++ opt_list "datasets" wr_dataset (mp_datasets x)
     ++ opt_list "inputs" (wr_ml_parameter "input") (mp_inputs x)
     ++ opt_list "outputs" (wr_ml_parameter "output") (mp_outputs x)).
Definition rd_model_parameters : desc model_parameters :=
  struct Open
    (one "approach" rd_approach ** one "task" d_string ** one "architectureFamily" d_string
     ** one "modelArchitecture" d_string ** one_list Strict "datasets" "dataset" rd_dataset
     ** one_list Open "inputs" "input" rd_ml_parameter ** one_list Open "outputs" "output" rd_ml_parameter)
    (fun _ '<<a; b; c; d; e; f; g>> => Some (mkModelParameters a b c d e f g)).
(** specs/v1_5/modelcard.rs:920-939, 941-984 *)
Definition wr_interval (x : confidence_interval) : xml :=
  Elem "confidenceInterval" []
    (opt (simple "lowerBound") (ci_lower_bound x) ++ opt (simple "upperBound") (ci_upper_bound x)).
Definition rd_interval : desc confidence_interval :=
  struct Open (one "lowerBound" d_string ** one "upperBound" d_string) (fun _ '<<a; b>> => Some (mkInterval a b)).
(** specs/v1_5/modelcard.rs:801-828, 830-887 *)
Definition wr_metric (x : performance_metric) : xml :=
  Elem "performanceMetric" []
    (opt (simple "type") (pm_type x) ++ opt (simple "value") (pm_value x) ++ opt (simple "slice") (pm_slice x)
     ++ opt wr_interval (pm_confidence_interval x)).
Definition rd_metric : desc performance_metric :=
  struct Open (one "type" d_string ** one "value" d_string ** one "slice" d_string ** one "confidenceInterval" rd_interval)
    (fun _ '<<a; b; c; d>> => Some (mkMetric a b c d)).
(** specs/v1_5/modelcard.rs:615-634, 636-687, 706-761 *)
Definition wr_quantitative (x : quantitative_analysis) : xml :=
  Elem "quantitativeAnalysis" []
    (opt_list "performanceMetrics" wr_metric (qa_performance_metrics x) ++ opt (wr_graphics "graphics") (qa_graphics x)).
Definition rd_quantitative : desc quantitative_analysis :=
  struct Open (one_list Open "performanceMetrics" "performanceMetric" rd_metric ** one "graphics" rd_graphics)
    (fun _ '<<a; b>> => Some (mkQuantitative a b)).
(** specs/v1_5/modelcard.rs:83-116, 118-173, 1005-1016; considerations and properties are written but
    have no arm in the reader *)
Definition wr_model_card (x : model_card) : xml :=
  Elem "modelCard" (attr_opt "bom-ref" (mc_bom_ref x))
    (opt wr_model_parameters (mc_model_parameters x) ++ opt wr_quantitative (mc_quantitative_analysis x)
     ++ opt (fun _ => Elem "considerations" [] []) (mc_considerations x) ++ wr_properties (mc_properties x)).
Definition rd_model_card : desc model_card :=
  struct Open (one "modelParameters" rd_model_parameters ** one "quantitativeAnalysis" rd_quantitative)
    (fun ats '<<a; b>> => Some (mkModelCard (attr "bom-ref" ats) a b None None)).

(** ** Evidence *)

(** specs/v1_5/evidence.rs:145-178; the writers of this group (41-66, 122-143, 212-241, 356-397, 525-550,
    634-659, 725-744, 817-838) are never called *)
Definition rd_occurrence : desc occurrence :=
  struct Strict (one "location" d_string) (fun ats l => let? l := l in Some (mkOccurrence (attr "bom-ref" ats) l)).
(** specs/v1_5/evidence.rs:399-475 *)
Definition rd_frame : desc frame :=
  struct Open
    (one "package" d_string ** one "module" d_string ** one "function" d_string
     ** one_list Strict "parameters" "parameter" d_string ** one "line" d_u32 ** one "column" d_u32
     ** one "fullFilename" d_string)
    (fun _ '<<a; b; c; d; e; f; g>> => let? b := b in Some (mkFrame a b c d e f g)).
(** specs/v1_5/evidence.rs:746-798 *)
Definition rd_method : desc method :=
  struct Open (one "technique" d_string ** one "confidence" d_f32 ** one "value" d_string)
    (fun _ '<<a; b; c>> => let? a := a in let? b := b in Some (mkMethod a b c)).
(** specs/v1_5/evidence.rs:840-876: a start tag [tool] adds its reference, an end tag [tool] is
    ignored, so [tool] elements may be nested; [n] bounds the nesting.  (End tags without a start tag,
    which the loop would ignore as well, are errors of xml-rs.) *)
Fixpoint rd_tool_refs (n : nat) : desc (list string) :=
  match n with
  | 0 => DFuel
  | S n' =>
      DLoop Strict (SOn "tool" (DMap (fun _ ats l => let? r := attr "ref" ats in Some (r :: l)) (rd_tool_refs n'))
                        [] (fun l acc => Some (acc ++ l)))
  end.
(** specs/v1_5/evidence.rs:552-616, 661-694 *)
Definition rd_identity (n : nat) : desc identity :=
  struct Open
    (one "field" (d_enum identity_field_of_text) ** one "confidence" d_f32
     ** one_list Strict "methods" "method" rd_method ** one "tools" (rd_tool_refs n))
    (fun _ '<<a; b; c; d>> => let? a := a in Some (mkIdentity a b c d)).
(** specs/common/component.rs:954-977 (only licenses and copyright are written), 986-1080, 1283-1357;
    specs/v1_5/evidence.rs:68-79, 243-276 *)
Definition evidence_written (x : evidence) : bool := some (ev_licenses x) || some (ev_copyright x).
Definition wr_evidence (x : evidence) : xml :=
  Elem "evidence" []
    (wr_licenses (ev_licenses x)
     ++ opt_list "copyright" (fun s => Elem "text" [] [CData s]) (ev_copyright x)).
Definition rd_evidence (n : nat) : desc evidence :=
  struct Open
    (rd_licenses ** one_list Strict "copyright" "text" d_string
     ** from (since V1_5 v) (one_list Strict "occurrences" "occurrence" rd_occurrence)
     ** from (since V1_5 v) (one_list Open "callstack" "frame" rd_frame)
     ** from (since V1_5 v) (one "identity" (rd_identity n)))
    (fun _ '<<a; b; c; d; e>> => Some (mkEvidence a b c d e)).

(** ** Components *)

(** specs/common/component.rs:748-790, 792-857 *)
Definition wr_swid (x : swid) : xml :=
  Elem "swid"
    ([("tagId", sw_tag_id x); ("name", sw_name x)] ++ attr_opt "version" (sw_version x)
     ++ attr_opt "tagVersion" (option_map u32_text (sw_tag_version x))
     ++ attr_opt "patch" (option_map bool_text (sw_patch x)))
    (opt (wr_attached_text "text") (sw_text x) ++ opt (simple "url") (sw_url x)).
(** an optional attribute with a value that is parsed *)
Definition attr_of {A} (f : string -> option A) (k : string) (ats : attrs) : option (option A) :=
  match attr k ats with None => Some None | Some s => let? a := f s in Some (Some a) end.
Definition rd_swid : desc swid :=
  struct Lax (one "text" rd_attached_text ** one "url" d_string)
    (fun ats '<<t; u>> =>
       let? i := attr "tagId" ats in
       let? n := attr "name" ats in
       let? tv := attr_of xml_u32 "tagVersion" ats in
       let? p := attr_of xml_bool "patch" ats in
       Some (mkSwid i n (attr "version" ats) tv p t u)).

(** specs/common/component.rs:302-428.  In version 1.3 the version is a required field of the
    struct, see [check_component] (JsonModel.v) *)
Fixpoint wr_component (x : component) : xml :=
  Elem "component"
    ([("type", text_classification (c_type x))] ++ attr_opt "mime-type" (c_mime_type x)
     ++ attr_opt "bom-ref" (c_bom_ref x))
    (opt (wr_entity "supplier") (keep entity_written (c_supplier x))
     ++ opt (simple "author") (c_author x) ++ opt (simple "publisher") (c_publisher x)
     ++ opt (simple "group") (c_group x) ++ [simple "name" (c_name x)]
     ++ opt (simple "version") (c_version x) ++ opt (simple "description") (c_description x)
     ++ opt (txt text_scope "scope") (c_scope x) ++ wr_hashes (c_hashes x) ++ wr_licenses (c_licenses x)
     ++ opt (simple "copyright") (c_copyright x) ++ opt (simple "cpe") (c_cpe x)
     ++ opt (simple "purl") (c_purl x) ++ opt wr_swid (c_swid x)
     ++ opt (txt bool_text "modified") (c_modified x)
     ++ opt (wr_pedigree wr_component) (c_pedigree x)
     ++ wr_external_references (c_external_references x) ++ wr_properties (c_properties x)
     ++ opt_list "components" wr_component (c_components x)
     ++ opt wr_evidence (keep evidence_written (c_evidence x))
     ++ when (since V1_4 v) (opt wr_signature (c_signature x))
     ++ when (since V1_5 v) (opt wr_model_card (c_model_card x))
     ++ when (since V1_5 v) (opt (wr_component_data "data") (c_data x))).
(** specs/common/component.rs:437-692; 113-124 for the list; 885-896 for [cpe] *)
Fixpoint rd_component (n : nat) : desc component :=
  match n with
  | 0 => DFuel
  | S n' =>
      struct Lax
        (one "supplier" rd_entity ** one "author" d_string ** one "publisher" d_string
         ** one "group" d_string ** one "name" d_string ** one "version" d_string
         ** one "description" d_string ** one "scope" (d_enum scope_of_text) ** rd_hashes ** rd_licenses
         ** one "copyright" d_string ** one "cpe" d_string ** one "purl" d_string ** one "swid" rd_swid
         ** one "modified" d_bool ** one "pedigree" (rd_pedigree (rd_component n'))
         ** rd_external_references ** rd_properties
         ** one_list Lax "components" "component" (rd_component n') ** one "evidence" (rd_evidence n')
         ** from (since V1_4 v) (one "signature" rd_signature)
         ** from (since V1_5 v) (one "modelCard" rd_model_card)
         ** from (since V1_5 v) (one "data" rd_component_data))
        (fun ats '<<su; au; pu; gr; na; ve; de; sc; ha; li; co; cp; pl; sw; mo; pe; er; pr; cs; ev; sg; mc; da>> =>
           let? t := attr "type" ats in
           let? na := na in
           let? _ := if since V1_4 v then Some tt else let? _ := ve in Some tt in
           Some (mkComponent (classification_of_text t) (attr "mime-type" ats) (attr "bom-ref" ats)
                   su au pu gr na ve de sc ha li co cp pl sw mo pe er pr cs ev sg mc da))
  end.
(** specs/common/component.rs:84-111, 113-124 *)
Definition wr_components (o : option (list component)) : list xml := opt_list "components" wr_component o.
Definition rd_components (n : nat) : shape (option (list component)) :=
  one_list Lax "components" "component" (rd_component n).

(** ** Services *)

(** specs/common/service.rs:739-756, 758-774 *)
Definition wr_classification (x : data_classification) : xml :=
  Elem "classification" [("flow", text_data_flow_type (dcl_flow x))] [Text (dcl_classification x)].
Definition rd_classification : desc data_classification :=
  DMap (fun _ ats s => let? f := attr "flow" ats in Some (mkDataClass (data_flow_type_of_text f) s)) (DPrim PSimple).
(** specs/v1_5/service_data.rs:170-214, 94-168 *)
Definition wr_service_data (x : service_data) : xml :=
  Elem "dataflow" (attr_opt "name" (sd_name x) ++ attr_opt "name" (sd_description x))
    ([wr_classification (sd_classification x)] ++ opt (wr_governance "governance") (sd_governance x)
     ++ opt_list "source" (simple "url") (sd_source x) ++ opt_list "destination" (simple "url") (sd_destination x)).
Definition rd_service_data : desc service_data :=
  struct Open
    (one "classification" rd_classification ** one "governance" rd_governance
     ** one_list Strict "source" "url" d_string ** one_list Strict "destination" "url" d_string)
    (fun ats '<<c; g; s; d>> =>
       let? c := c in Some (mkServiceData (attr "name" ats) (attr "description" ats) c g s d)).
(** specs/common/service.rs:312-316, 549-565 (conversion), 583-621, 623-676, 678-698 *)
Definition wr_data (x : data) : xml :=
  Elem "data" []
    match x with
    | DClassification l => map wr_classification l
    | DServiceData l =>
        if since V1_5 v then map wr_service_data l else map wr_classification (map sd_classification l)
    end.
Definition rd_data : desc data :=
  struct Open (many "classification" rd_classification ** from (since V1_5 v) (many "dataflow" rd_service_data))
    (fun _ '<<c; s>> => Some (match s with [] => DClassification c | _ => DServiceData s end)).

(** specs/common/service.rs:257-350 *)
Fixpoint wr_service (x : service) : xml :=
  Elem "service" (attr_opt "bom-ref" (s_bom_ref x))
    (opt (wr_entity "provider") (s_provider x) ++ opt (simple "group") (s_group x) ++ [simple "name" (s_name x)]
     ++ opt (simple "version") (s_version x) ++ opt (simple "description") (s_description x)
     ++ opt_list "endpoints" (simple "endpoint") (s_endpoints x)
     ++ opt (txt bool_text "authenticated") (s_authenticated x)
     ++ opt (txt bool_text "x-trust-boundary") (s_x_trust_boundary x)
     ++ opt wr_data (s_data x) ++ wr_licenses (s_licenses x)
     ++ wr_external_references (s_external_references x) ++ wr_properties (s_properties x)
     ++ opt_list "services" wr_service (s_services x)
     ++ when (since V1_4 v) (opt wr_signature (s_signature x))
     ++ when (since V1_5 v) (opt (simple "trustZone") (s_trust_zone x))).
(** specs/common/service.rs:356-537; 100-111 for the list *)
Fixpoint rd_service (n : nat) : desc service :=
  match n with
  | 0 => DFuel
  | S n' =>
      struct Lax
        (one "provider" rd_entity ** one "group" d_string ** one "name" d_string ** one "version" d_string
         ** one "description" d_string ** one_list Strict "endpoints" "endpoint" d_string
         ** one "authenticated" d_bool ** one "x-trust-boundary" d_bool ** one "data" rd_data ** rd_licenses
         ** rd_external_references ** rd_properties ** one_list Lax "services" "service" (rd_service n')
         ** from (since V1_4 v) (one "signature" rd_signature)
         ** from (since V1_5 v) (one "trustZone" d_string))
        (fun ats '<<pr; gr; na; ve; de; en; au; xt; da; li; er; ps; ss; sg; tz>> =>
           let? na := na in
           Some (mkService (attr "bom-ref" ats) pr gr na ve de en au xt da li er ps ss sg tz))
  end.
(** specs/common/service.rs:83-98, 100-111 *)
Definition wr_services (o : option (list service)) : list xml := opt_list "services" wr_service o.
Definition rd_services (n : nat) : shape (option (list service)) := one_list Lax "services" "service" (rd_service n).

(** ** Metadata *)

(** specs/common/tool.rs:267-304, 318-385 *)
Definition wr_tool (x : tool) : xml :=
  Elem "tool" []
    (opt (simple "vendor") (t_vendor x) ++ opt (simple "name") (t_name x) ++ opt (simple "version") (t_version x)
     ++ wr_hashes (t_hashes x) ++ when (since V1_4 v) (wr_external_references (t_external_references x))).
Definition rd_tool : desc tool :=
  struct Lax (one "vendor" d_string ** one "name" d_string ** one "version" d_string ** rd_hashes
              ** from (since V1_4 v) rd_external_references)
    (fun _ '<<a; b; c; d; e>> => Some (mkTool a b c d e)).
(** specs/common/tool.rs:101-131, 133-215; before 1.5 an object is converted to an empty list (38-50) *)
Definition wr_tools (x : tools) : xml :=
  Elem "tools" []
    match x with
    | TList l => map wr_tool l
    | TObject s c => when (since V1_5 v) (wr_services s ++ wr_components c)
    end.
Definition rd_tools (n : nat) : desc tools :=
  struct Strict (many_opt "tool" rd_tool ** from (since V1_5 v) (rd_services n) ** from (since V1_5 v) (rd_components n))
    (fun _ '<<t; s; c>> =>
       match t with
       | Some l => if some c || some s then None else Some (TList l)
       | None => Some (if since V1_5 v then TObject s c else TList [])
       end).
(** specs/v1_5/lifecycles.rs:114-137, 139-192 *)
Definition wr_lifecycle (x : lifecycle) : xml :=
  Elem "lifecycle" []
    match x with
    | LPhase p => [txt text_phase "phase" p]
    | LDescription n d => [simple "name" n] ++ opt (simple "description") d
    end.
Definition rd_lifecycle : desc lifecycle :=
  struct Strict (one "phase" (d_enum phase_of_text) ** one "name" d_string ** one "description" d_string)
    (fun _ '<<p; n; d>> =>
       match p, n, d with
       | Some p, None, None => Some (LPhase p)
       | None, Some n, d => Some (LDescription n d)
       | _, _, _ => None
       end).
(** specs/common/metadata.rs:120-174, 196-315; specs/v1_5/lifecycles.rs:52-66, 74-85 *)
Definition wr_metadata (x : metadata) : xml :=
  Elem "metadata" []
    (opt (simple "timestamp") (m_timestamp x) ++ opt wr_tools (m_tools x)
     ++ opt_list "authors" (wr_contact "author") (option_map (filter contact_written) (m_authors x))
     ++ opt wr_component (m_component x) ++ opt (wr_entity "manufacture") (m_manufacture x)
     ++ opt (wr_entity "supplier") (m_supplier x) ++ wr_licenses (m_licenses x) ++ wr_properties (m_properties x)
     ++ when (since V1_5 v) (opt_list "lifecycles" wr_lifecycle (m_lifecycles x))).
Definition rd_metadata (n : nat) : desc metadata :=
  struct Lax
    (one "timestamp" d_string ** one "tools" (rd_tools n) ** one_list Strict "authors" "author" rd_contact
     ** one "component" (rd_component n) ** one "manufacture" rd_entity ** one "supplier" rd_entity
     ** rd_licenses ** rd_properties ** from (since V1_5 v) (one_list Strict "lifecycles" "lifecycle" rd_lifecycle))
    (fun _ '<<a; b; c; d; e; f; g; h; i>> => Some (mkMetadata a b c d e f g h i)).

(** ** Dependencies, compositions, annotations *)

(** specs/common/dependency.rs:108-133, 135-175 *)
Definition wr_dependency (x : dependency) : xml :=
  Elem "dependency" [("ref", d_ref x)] (map (wr_ref "dependency") (d_dependencies x)).
Definition rd_dependency : desc dependency :=
  struct Strict (many "dependency" rd_ref) (fun ats l => let? r := attr "ref" ats in Some (mkDependency r l)).
(** specs/common/composition.rs:160-220, 222-313 *)
Definition wr_composition (x : composition) : xml :=
  Elem "composition" (when (since V1_5 v) (attr_opt "bom-ref" (co_bom_ref x)))
    ([txt text_aggregate_type "aggregate" (co_aggregate x)]
     ++ opt_list "assemblies" (wr_ref "assembly") (co_assemblies x)
     ++ opt_list "dependencies" (wr_ref "dependency") (co_dependencies x)
     ++ when (since V1_5 v) (opt_list "vulnerabilities" (wr_ref "vulnerability") (co_vulnerabilities x))
     ++ when (since V1_4 v) (opt wr_signature (co_signature x))).
Definition rd_composition : desc composition :=
  struct Strict
    (one "aggregate" (d_enum aggregate_type_of_text) ** one_list Lax "assemblies" "assembly" rd_ref
     ** one_list Lax "dependencies" "dependency" rd_ref
     ** from (since V1_5 v) (one_list Lax "vulnerabilities" "vulnerability" rd_ref)
     ** from (since V1_4 v) (one "signature" rd_signature))
    (fun ats '<<a; b; c; d; e>> =>
       let? a := a in Some (mkComposition (if since V1_5 v then attr "bom-ref" ats else None) a b c d e)).
(** specs/v1_5/annotation.rs:207-275; the writers (277-344) are never called *)
Definition rd_annotator (n : nat) : desc annotator :=
  struct Strict
    (SOr (one "organization" (d_map AnOrganization rd_entity))
      (SOr (one "individual" (d_map AnIndividual rd_contact))
        (SOr (one "component" (d_map AnComponent (rd_component n)))
             (one "service" (d_map AnService (rd_service n))))))
    (fun _ a => a).
(** specs/v1_5/annotation.rs:353-389, 391-426, 428-516 *)
Definition rd_annotation (n : nat) : desc annotation :=
  struct Strict
    (SOn "subjects" (list_of Strict "subject" rd_ref) [] (fun l _ => Some l) ** one "annotator" (rd_annotator n)
     ** one "timestamp" d_string ** one "text" d_string ** one "signature" rd_signature)
    (fun ats '<<s; a; t; x; sg>> =>
       let? a := a in
       let? t := t in
       let? x := x in
       Some (mkAnnotation (attr "bom-ref" ats) s a t x sg)).

(** ** Vulnerabilities *)

(** specs/common/vulnerability_source.rs:62-87, 89-130 *)
Definition wr_vuln_source (x : vuln_source) : xml :=
  Elem "source" [] (opt (simple "name") (vs_name x) ++ opt (simple "url") (vs_url x)).
Definition rd_vuln_source : desc vuln_source :=
  struct Lax (one "name" d_string ** one "url" d_string) (fun _ '<<a; b>> => Some (mkVSource a b)).
(** specs/common/vulnerability_reference.rs:116-138, 140-198 *)
Definition wr_vuln_reference (x : vuln_reference) : xml :=
  Elem "reference" [] ([simple "id" (vr_id x)] ++ [wr_vuln_source (vr_source x)]).
Definition rd_vuln_reference : desc vuln_reference :=
  struct Lax (one "id" d_string ** one "source" rd_vuln_source)
    (fun _ '<<a; b>> => let? a := a in let? b := b in Some (mkVReference a b)).
(** specs/common/vulnerability_rating.rs:135-176, 178-257 *)
Definition wr_rating (x : vuln_rating) : xml :=
  Elem "rating" []
    (opt wr_vuln_source (ra_source x) ++ opt (txt (show_f32 F) "score") (ra_score x)
     ++ opt (txt text_severity "severity") (ra_severity x) ++ opt (txt text_score_method "method") (ra_method x)
     ++ opt (simple "vector") (ra_vector x) ++ opt (simple "justification") (ra_justification x)).
Definition rd_rating : desc vuln_rating :=
  struct Lax
    (one "source" rd_vuln_source ** one "score" d_score ** one "severity" (d_enum severity_of_text)
     ** one "method" (d_enum score_method_of_text) ** one "vector" d_string ** one "justification" d_string)
    (fun _ '<<a; b; c; d; e; f>> => Some (mkRating a b c d e f)).
(** specs/common/advisory.rs:111-134, 136-181 *)
Definition wr_advisory (x : advisory) : xml :=
  Elem "advisory" [] (opt (simple "title") (ad_title x) ++ [simple "url" (ad_url x)]).
Definition rd_advisory : desc advisory :=
  struct Lax (one "title" d_string ** one "url" d_string) (fun _ '<<a; b>> => let? b := b in Some (mkAdvisory a b)).
(** specs/common/vulnerability_credits.rs:66-101, 103-148 *)
Definition wr_credits (x : vuln_credits) : xml :=
  Elem "credits" []
    (opt_list "organizations" (wr_entity "organization") (option_map (filter entity_written) (vc_organizations x))
     ++ opt_list "individuals" (wr_contact "individual") (option_map (filter contact_written) (vc_individuals x))).
Definition rd_credits : desc vuln_credits :=
  struct Lax (one_list Strict "organizations" "organization" rd_entity
              ** one_list Strict "individuals" "individual" rd_contact)
    (fun _ '<<a; b>> => Some (mkCredits a b)).
(** specs/common/vulnerability_analysis.rs:103-146, 148-237 *)
Definition wr_analysis (x : vuln_analysis) : xml :=
  Elem "analysis" []
    (opt (txt text_analysis_state "state") (va_state x)
     ++ opt (txt text_analysis_justification "justification") (va_justification x)
     ++ opt_list "responses" (txt text_analysis_response "response") (va_responses x)
     ++ opt (simple "detail") (va_detail x)
     ++ when (since V1_5 v) (opt (simple "firstIssued") (va_first_issued x))
     ++ when (since V1_5 v) (opt (simple "lastUpdated") (va_last_updated x))).
Definition rd_analysis : desc vuln_analysis :=
  struct Lax
    (one "state" (d_enum analysis_state_of_text) ** one "justification" (d_enum analysis_justification_of_text)
     ** one_list Strict "responses" "response" (d_enum analysis_response_of_text) ** one "detail" d_string
     ** from (since V1_5 v) (one "firstIssued" d_string) ** from (since V1_5 v) (one "lastUpdated" d_string))
    (fun _ '<<a; b; c; d; e; f>> => Some (mkAnalysis a b c d e f)).
(** specs/common/vulnerability_target.rs:265-281, 283-340, 373-410, 439-458 *)
Definition wr_version_range (x : version_range) : list xml :=
  match x with VRVersion s => [simple "version" s] | VRRange s => [simple "range" s] | VRUndefined _ => [] end.
Definition wr_version_status (x : version_status) : xml :=
  Elem "version" [] (wr_version_range (ve_range x) ++ [txt text_status "status" (ve_status x)]).
Definition rd_version_status : desc version_status :=
  struct Lax (SOr (one "version" (d_map VRVersion d_string)) (one "range" (d_map VRRange d_string))
              ** one "status" d_string)
    (fun _ '<<r; s>> =>
       let? r := r in
       Some (mkVersion r (status_of_text (match s with Some s => s | None => "affected" end)))).
(** specs/common/vulnerability_target.rs:113-137, 139-189, 226-237 *)
Definition wr_target (x : vuln_target) : xml :=
  Elem "target" [] ([simple "ref" (vt_bom_ref x)] ++ opt_list "versions" wr_version_status (vt_versions x)).
Definition rd_target : desc vuln_target :=
  struct Lax (one "ref" d_string ** one_list Lax "versions" "version" rd_version_status)
    (fun _ '<<a; b>> => let? a := a in Some (mkTarget a b)).
(** specs/v1_5/proof_of_concept.rs:101-150; the writer (70-99) is never called *)
Definition rd_poc : desc proof_of_concept :=
  struct Open
    (one "reproductionSteps" d_string ** one "environment" d_string
     ** one_list Strict "supportingMaterial" "attachment" rd_attachment)
    (fun _ '<<a; b; c>> => Some (mkPoc a b c)).
(** specs/common/vulnerability.rs:254-361, 363-596.  [detail] is always written *)
Definition wr_vulnerability (x : vulnerability) : xml :=
  Elem "vulnerability" (attr_opt "bom-ref" (v_bom_ref x))
    (opt (simple "id") (v_id x) ++ opt wr_vuln_source (v_source x)
     ++ opt_list "references" wr_vuln_reference (v_references x) ++ opt_list "ratings" wr_rating (v_ratings x)
     ++ opt_list "cwes" (txt u32_text "cwe") (v_cwes x) ++ opt (simple "description") (v_description x)
     ++ [simple "detail" (match v_detail x with Some s => s | None => "" end)]
     ++ opt (simple "recommendation") (v_recommendation x) ++ opt_list "advisories" wr_advisory (v_advisories x)
     ++ opt (simple "created") (v_created x) ++ opt (simple "published") (v_published x)
     ++ opt (simple "updated") (v_updated x) ++ when (since V1_5 v) (opt (simple "rejected") (v_rejected x))
     ++ opt wr_credits (v_credits x) ++ opt wr_tools (v_tools x) ++ opt wr_analysis (v_analysis x)
     ++ opt_list "affects" wr_target (v_targets x) ++ wr_properties (v_properties x)
     ++ when (since V1_5 v) (opt (simple "workaround") (v_workaround x))).
Definition rd_vulnerability (n : nat) : desc vulnerability :=
  struct Lax
    (one "id" d_string ** one "source" rd_vuln_source
     ** one_list Lax "references" "reference" rd_vuln_reference ** one_list Lax "ratings" "rating" rd_rating
     ** one_list Strict "cwes" "cwe" d_u32 ** one "description" d_string
     ** SOn "detail" (DPrim POptional) None (fun a _ => Some a)
     ** one "recommendation" d_string ** one_list Lax "advisories" "advisory" rd_advisory
     ** one "created" d_string ** one "published" d_string ** one "updated" d_string
     ** from (since V1_5 v) (one "rejected" d_string) ** one "credits" rd_credits ** one "tools" (rd_tools n)
     ** one "analysis" rd_analysis ** one_list Lax "affects" "target" rd_target ** rd_properties
     ** from (since V1_5 v) (one "workaround" d_string) ** from (since V1_5 v) (one "proofOfConcept" rd_poc))
    (fun ats '<<id; so; re; ra; cw; de; dt; rc; ad; cr; pu; up; rj; cd; tl; an; tg; pr; wa; poc>> =>
       Some (mkVulnerability (attr "bom-ref" ats) id so re ra cw de dt rc wa poc ad cr pu up rj cd tl an tg pr)).

(** ** Formulation *)

(** specs/v1_5/formulation/workflow/resource_reference.rs:118-137, 139-195: an external reference is
    written as [reference], [externalReference] is what the reader expects *)
Definition wr_resource (tag : string) (x : resource_reference) : xml :=
  Elem tag [] match x with RRRef s => [simple "ref" s] | RRExternal e => [wr_external_reference e] end.
Definition rd_resource : desc resource_reference :=
  struct Strict (SOr (one "ref" (d_map RRRef d_string))
                     (one "externalReference" (d_map RRExternal rd_external_reference)))
    (fun _ r => r).
(** specs/v1_5/formulation/workflow/resource_reference.rs:19-34, 36-75 *)
Definition wr_resources (o : option (list resource_reference)) : list xml :=
  opt_list "resourceReferences" (wr_resource "resourceReference") o.
Definition rd_resources : shape (option (list resource_reference)) :=
  one_list Lax "resourceReferences" "resourceReference" rd_resource.
(** specs/v1_5/formulation/workflow/mod.rs:463-476, 478-519, 550-572 *)
Definition wr_environment_var (x : environment_var) : xml :=
  match x with
  | EVProperty n s => Elem "environmentVar" [("name", n)] [Text s]
  | EVValue s => simple "value" s
  end.
Definition wr_environment_vars (l : list environment_var) : xml := list_tag "environmentVars" wr_environment_var l.
Definition rd_environment_vars : desc (list environment_var) :=
  DLoop Lax (SOr (many "environmentVar"
                    (DMap (fun _ ats s => let? n := attr "name" ats in Some (EVProperty n s)) (DPrim PSimple)))
                 (many "value" (d_map EVValue d_string))).
(** specs/v1_5/formulation/workflow/input.rs:273-294; its reader (296-342) is never called *)
Definition wr_parameter (x : parameter) : xml :=
  Elem "parameter" []
    (opt (simple "name") (pr_name x) ++ opt (simple "value") (pr_value x) ++ opt (simple "dataType") (pr_data_type x)).
(** specs/v1_5/formulation/workflow/input.rs:97-133, 135-226 *)
Definition wr_input (x : input) : xml :=
  Elem "input" []
    ([match in_required x with
      | RIResource r => wr_resource "resource" r
      | RIParameters l => list_tag "parameters" wr_parameter l
      | RIEnvironmentVars l => wr_environment_vars l
      | RIData a => wr_attachment "data" a
      end]
     ++ opt (wr_resource "source") (in_source x) ++ opt (wr_resource "target") (in_target x)
     ++ wr_properties (in_properties x)).
Definition rd_input : desc input :=
  struct Strict
    (SOr (one "resource" (d_map RIResource rd_resource))
      (SOr (one "environmentVars" (d_map RIEnvironmentVars rd_environment_vars))
           (one "data" (d_map RIData rd_attachment)))
     ** one "source" rd_resource ** one "target" rd_resource ** rd_properties)
    (fun _ '<<r; s; t; p>> => let? r := r in Some (mkInput r s t p)).
(** specs/v1_5/formulation/workflow/output.rs:92-127, 129-223 *)
Definition wr_output (x : output) : xml :=
  Elem "output" []
    ([match ou_required x with
      | ROResource r => wr_resource "resource" r
      | ROEnvironmentVars l => wr_environment_vars l
      | ROData a => wr_attachment "data" a
      end]
     ++ opt (txt text_output_type "type") (ou_type x) ++ opt (wr_resource "source") (ou_source x)
     ++ opt (wr_resource "target") (ou_target x) ++ wr_properties (ou_properties x)).
Definition rd_output : desc output :=
  struct Strict
    (SOr (one "resource" (d_map ROResource rd_resource))
      (SOr (one "environmentVars" (d_map ROEnvironmentVars rd_environment_vars))
           (one "data" (d_map ROData rd_attachment)))
     ** one "type" (d_enum output_type_of_text) ** one "source" rd_resource ** one "target" rd_resource
     ** rd_properties)
    (fun _ '<<r; ty; s; t; p>> => let? r := r in Some (mkOutput r ty s t p)).
(** specs/v1_5/formulation/workflow/step.rs:162-175, 177-221 *)
Definition wr_command (x : command) : xml :=
  Elem "command" [] (opt (simple "executed") (cmd_executed x) ++ wr_properties (cmd_properties x)).
Definition rd_command : desc command :=
  struct Strict (one "executed" d_string ** rd_properties) (fun _ '<<a; b>> => Some (mkCommand a b)).
(** specs/v1_5/formulation/workflow/step.rs:54-73, 75-129 *)
Definition wr_step (x : step) : xml :=
  Elem "step" []
    (opt_list "commands" wr_command (st_commands x) ++ opt (simple "description") (st_description x)
     ++ opt (simple "name") (st_name x) ++ wr_properties (st_properties x)).
Definition rd_step : desc step :=
  struct Lax (one_list Strict "commands" "command" rd_command ** one "description" d_string ** one "name" d_string
              ** rd_properties)
    (fun _ '<<a; b; c; d>> => Some (mkStep a b c d)).
(** specs/v1_5/formulation/workflow/workspace/volume.rs:30-61 (conversions: the mode is always written and
    defaults to the first one), 73-116, 118-150 *)
Definition wr_volume (x : volume) : xml :=
  Elem "volume" []
    (opt (simple "uid") (vo_uid x) ++ opt (simple "name") (vo_name x) ++ [txt text_volume_mode "mode" (vo_mode x)]
     ++ opt (simple "path") (vo_path x) ++ opt (simple "sizeAllocated") (vo_size_allocated x)
     ++ opt (txt bool_text "persistent") (vo_persistent x) ++ opt (txt bool_text "remote") (vo_remote x)
     ++ wr_properties (vo_properties x)).
Definition rd_volume : desc volume :=
  struct Lax
    (one "uid" d_string ** one "name" d_string ** one "mode" (d_enum volume_mode_of_text) ** one "path" d_string
     ** one "sizeAllocated" d_string ** one "persistent" d_bool ** one "remote" d_bool ** rd_properties)
    (fun _ '<<a; b; c; d; e; f; g; h>> =>
       Some (mkVolume a b (match c with Some m => m | None => VMFilesystem end) d e f g h)).
(** specs/v1_5/formulation/workflow/workspace/mod.rs:107-134, 136-177 *)
Definition wr_workspace (x : workspace) : xml :=
  Elem "workspace" [("bom-ref", ws_bom_ref x)]
    ([simple "uid" (ws_uid x)] ++ opt (simple "name") (ws_name x)
     ++ opt_list "aliases" (simple "alias") (ws_aliases x) ++ opt (simple "description") (ws_description x)
     ++ wr_resources (ws_resource_references x) ++ opt (txt text_access_mode "accessMode") (ws_access_mode x)
     ++ opt (simple "mountPath") (ws_mount_path x) ++ opt (simple "managedDataType") (ws_managed_data_type x)
     ++ opt (simple "volumeRequest") (ws_volume_request x) ++ opt wr_volume (ws_volume x)
     ++ wr_properties (ws_properties x)).
Definition rd_workspace : desc workspace :=
  struct Lax
    (one "uid" d_string ** one "name" d_string ** one_list Strict "aliases" "alias" d_string
     ** one "description" d_string ** rd_resources ** one "accessMode" (d_enum access_mode_of_text)
     ** one "mountPath" d_string ** one "managedDataType" d_string ** one "volumeRequest" d_string
     ** one "volume" rd_volume ** rd_properties)
    (fun ats '<<u; n; a; d; r; m; mp; md; vr; vo; p>> =>
       let? b := attr "bom-ref" ats in
       let? u := u in
       Some (mkWorkspace b u n a d r m mp md vr vo p)).
(** specs/v1_5/formulation/workflow/trigger.rs:428-441, 443-492 *)
Definition wr_condition (x : condition) : xml :=
  Elem "condition" []
    (opt (simple "description") (cn_description x) ++ opt (simple "expression") (cn_expression x)
     ++ wr_properties (cn_properties x)).
Definition rd_condition : desc condition :=
  struct Strict (one "description" d_string ** one "expression" d_string ** rd_properties)
    (fun _ '<<a; b; c>> => Some (mkCondition a b c)).
(** specs/v1_5/formulation/workflow/trigger.rs:291-308, 310-391 *)
Definition wr_event (x : ModelTypes.event) : xml :=
  Elem "event" []
    (opt (simple "uid") (e_uid x) ++ opt (simple "description") (e_description x)
     ++ opt (simple "timeReceived") (e_time_received x) ++ opt (wr_attachment "data") (e_data x)
     ++ opt (wr_resource "source") (e_source x) ++ opt (wr_resource "target") (e_target x)
     ++ wr_properties (e_properties x)).
Definition rd_event : desc ModelTypes.event :=
  struct Lax
    (one "uid" d_string ** one "description" d_string ** one "timeReceived" d_string ** one "data" rd_attachment
     ** one "source" rd_resource ** one "target" rd_resource ** rd_properties)
    (fun _ '<<a; b; c; d; e; f; g>> => Some (mkEvent a b c d e f g)).
(** specs/v1_5/formulation/workflow/trigger.rs:101-130, 132-234 *)
Definition wr_trigger (x : trigger) : xml :=
  Elem "trigger" [("bom-ref", tr_bom_ref x)]
    ([simple "uid" (tr_uid x)] ++ opt (simple "name") (tr_name x) ++ opt (simple "description") (tr_description x)
     ++ wr_resources (tr_resource_references x) ++ [txt text_trigger_type "type" (tr_type x)]
     ++ opt wr_event (tr_event x) ++ opt_list "conditions" wr_condition (tr_conditions x)
     ++ opt (simple "timeActivated") (tr_time_activated x) ++ opt_list "inputs" wr_input (tr_inputs x)
     ++ opt_list "outputs" wr_output (tr_outputs x) ++ wr_properties (tr_properties x)).
Definition rd_trigger : desc trigger :=
  struct Lax
    (one "uid" d_string ** one "name" d_string ** one "description" d_string ** rd_resources
     ** one "type" (d_enum trigger_type_of_text) ** one "event" rd_event
     ** one_list Strict "conditions" "condition" rd_condition ** one "timeActivated" d_string
     ** one_list Strict "inputs" "input" rd_input ** one_list Strict "outputs" "output" rd_output ** rd_properties)
    (fun ats '<<u; n; d; r; t; e; c; ta; i; o; p>> =>
       let? b := attr "bom-ref" ats in
       let? u := u in
       let? t := t in
       Some (mkTrigger b u n d r t e c ta i o p)).
(** specs/v1_5/formulation/workflow/mod.rs:367-405 ([taskTypes] is not written), 407-456 *)
Definition wr_task (x : task) : xml :=
  Elem "task" [("bom-ref", tk_bom_ref x)]
    ([simple "uid" (tk_uid x)] ++ opt (simple "name") (tk_name x) ++ opt (simple "description") (tk_description x)
     ++ wr_resources (tk_resource_references x) ++ opt wr_trigger (tk_trigger x)
     ++ opt_list "steps" wr_step (tk_steps x) ++ opt_list "inputs" wr_input (tk_inputs x)
     ++ opt_list "outputs" wr_output (tk_outputs x) ++ opt (simple "timeStart") (tk_time_start x)
     ++ opt (simple "timeEnd") (tk_time_end x) ++ opt_list "workspaces" wr_workspace (tk_workspaces x)
     ++ opt_list "runtimeTopology" wr_dependency (tk_runtime_topology x) ++ wr_properties (tk_properties x)).
Definition rd_task : desc task :=
  struct Lax
    (one "uid" d_string ** one "name" d_string ** one "description" d_string ** rd_resources
     ** one "trigger" rd_trigger ** one_list Strict "steps" "step" rd_step
     ** one_list Strict "inputs" "input" rd_input ** one_list Strict "outputs" "output" rd_output
     ** one "timeStart" d_string ** one "timeEnd" d_string
     ** one_list Strict "workspaces" "workspace" rd_workspace
     ** one_list Strict "runtimeTopology" "dependency" rd_dependency ** rd_properties
     ** one_list Strict "taskTypes" "taskType" (d_enum task_type_of_text))
    (fun ats '<<u; n; d; r; tg; s; i; o; ts; te; w; rt; p; ty>> =>
       let? b := attr "bom-ref" ats in
       let? u := u in
       let? ty := ty in
       Some (mkTask b u n d r ty tg s i o ts te w rt p)).
(** specs/v1_5/formulation/workflow/mod.rs:154-199, 201-254, 259-279 *)
Definition wr_workflow (x : workflow) : xml :=
  Elem "workflow" [("bom-ref", wf_bom_ref x)]
    ([simple "uid" (wf_uid x)] ++ opt (simple "name") (wf_name x) ++ opt (simple "description") (wf_description x)
     ++ wr_resources (wf_resource_references x) ++ opt_list "tasks" wr_task (wf_tasks x)
     ++ opt_list "taskDependencies" wr_dependency (wf_task_dependencies x)
     ++ [list_tag "taskTypes" (txt text_task_type "taskType") (wf_task_types x)] ++ opt wr_trigger (wf_trigger x)
     ++ opt_list "steps" wr_step (wf_steps x) ++ opt_list "inputs" wr_input (wf_inputs x)
     ++ opt_list "outputs" wr_output (wf_outputs x) ++ opt (simple "timeStart") (wf_time_start x)
     ++ opt (simple "timeEnd") (wf_time_end x) ++ opt_list "workspaces" wr_workspace (wf_workspaces x)
     ++ opt_list "runtimeTopology" wr_dependency (wf_runtime_topology x) ++ wr_properties (wf_properties x)).
Definition rd_workflow : desc workflow :=
  struct Lax
    (one "uid" d_string ** one "name" d_string ** one "description" d_string ** rd_resources
     ** one_list Strict "tasks" "task" rd_task ** one_list Strict "taskDependencies" "dependency" rd_dependency
     ** one_list Strict "taskTypes" "taskType" (d_enum task_type_of_text)
     ** one "trigger" rd_trigger ** one_list Strict "steps" "step" rd_step
     ** one_list Strict "inputs" "input" rd_input ** one_list Strict "outputs" "output" rd_output
     ** one "timeStart" d_string ** one "timeEnd" d_string
     ** one_list Strict "workspaces" "workspace" rd_workspace
     ** one_list Strict "runtimeTopology" "dependency" rd_dependency ** rd_properties)
    (fun ats '<<u; n; d; r; tk; td; ty; tg; s; i; o; ts; te; w; rt; p>> =>
       let? b := attr "bom-ref" ats in
       let? u := u in
       let? ty := ty in
       Some (mkWorkflow b u n d r tk td ty tg s i o ts te w rt p)).
(** specs/v1_5/formulation/mod.rs:74-98, 100-127 *)
Definition wr_formula (x : formula) : xml :=
  Elem "formula" (attr_opt "bom-ref" (fo_bom_ref x))
    (wr_components (fo_components x) ++ wr_services (fo_services x)
     ++ opt_list "workflows" wr_workflow (fo_workflows x) ++ wr_properties (fo_properties x)).
Definition rd_formula (n : nat) : desc formula :=
  struct Strict
    (rd_components n ** rd_services n ** one_list Strict "workflows" "workflow" rd_workflow ** rd_properties)
    (fun ats '<<a; b; c; d>> => Some (mkFormula (attr "bom-ref" ats) a b c d)).

(** ** Whole documents *)

(** specs/common/bom.rs:66-77 *)
Definition namespace : string :=
  match v with
  | V1_3 => "http://cyclonedx.org/schema/bom/1.3"
  | V1_4 => "http://cyclonedx.org/schema/bom/1.4"
  | V1_5 => "http://cyclonedx.org/schema/bom/1.5"
  end.
(** specs/common/bom.rs:193-256; the default namespace is kept beside the tree, see [document] below *)
Definition wr_bom (x : bom) : xml :=
  Elem "bom" (attr_opt "serialNumber" (b_serial_number x) ++ [("version", u32_text (b_version x))])
    (opt wr_metadata (b_metadata x) ++ wr_components (b_components x) ++ wr_services (b_services x)
     ++ wr_external_references (b_external_references x)
     ++ opt_list "dependencies" wr_dependency (b_dependencies x)
     ++ opt_list "compositions" wr_composition (b_compositions x)
     ++ when (since V1_5 v) (wr_properties (b_properties x))
     ++ when (since V1_4 v) (opt_list "vulnerabilities" wr_vulnerability (b_vulnerabilities x))
     ++ when (since V1_5 v) (opt_list "formulation" wr_formula (b_formulation x))).
(** specs/common/bom.rs:301-320, 321-484: the attributes and the children of the root element *)
Definition rd_bom (n : nat) : desc bom :=
  struct Lax
    (one "metadata" (rd_metadata n) ** rd_components n ** rd_services n ** rd_external_references
     ** one_list Strict "dependencies" "dependency" rd_dependency
     ** one_list Lax "compositions" "composition" rd_composition
     ** from (since V1_5 v) rd_properties
     ** from (since V1_4 v) (one_list Lax "vulnerabilities" "vulnerability" (rd_vulnerability n))
     ** from (since V1_5 v) (one_list Strict "formulation" "formula" (rd_formula n))
     ** from (since V1_4 v) (one "signature" rd_signature)
     ** from (since V1_5 v) (one_list Strict "annotations" "annotation" (rd_annotation n)))
    (fun ats '<<m; c; s; er; de; co; p; vu; f; sg; an>> =>
       let? ver := attr_of xml_u32 "version" ats in
       Some (mkBom (match ver with Some n => n | None => u32_1 end) (attr "serialNumber" ats)
               m c s er de co p vu sg an f v)).
End XML.

(** *** Documents
    A well-formed document for the reader: the default namespace in scope at the root element, and the
    events from the root element's start tag on.  The events before it (xml-rs reports
    [StartDocument] first) are not represented.  A document that is not well-formed somewhere
    has [EBad] in the place where xml-rs notices. *)
Record document := mkDocument { doc_namespace : option string; doc_events : list event }.

(** xml.rs:296-313; specs/common/bom.rs:277-484 ([read_xml_document]); models/bom.rs:178-187, 218-225, 265-272,
    305-312 ([parse_from_xml_with_version], [parse_from_xml_v1_x]).  [XHang] is a call that does not return. *)
Definition parse_from_xml (F : float_text) (v : spec_version) (d : document) : xres bom :=
  match doc_events d with
  | EStart n ats :: rest =>
      if String.eqb n "bom" then
        match doc_namespace d with
        | Some ns =>
            if String.eqb ns (namespace v) then
              xbind (run (rd_bom F v (S (List.length rest))) "bom" ats rest) (fun b rest' =>
                match rest' with [] => XOk b [] | _ => XErr end)
            else XErr
        | None => XErr
        end
      else XErr
  | _ => XErr
  end.

(** models/bom.rs:190-200, 238-249, 285-296, 325-336 ([output_as_xml] and its versions): the conversion, which
    can fail, then the tree *)
Definition output_as_xml (F : float_text) (v : spec_version) (b : bom) : outcome (string * xml) :=
  do _ <- check_bom v b; Done (namespace v, wr_bom F v b).

(** What the reader sees of a document written by [output_as_xml]: see [reparse] in Xml.v.  A repeated
    attribute is an error of xml-rs's reader; it is noticed at the start tag in question, here at the
    beginning. *)
Definition written (w : string * xml) : document :=
  mkDocument (Some (fst w))
    (if attrs_ok (snd w) then flats (reparse (snd w)) else [EBad]).

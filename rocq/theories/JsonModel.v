(** The JSON side of the library, [cyclonedx-bom/src/specs]: what the derived
    [Serialize]/[Deserialize] code of the version-specific structs writes and
    reads, composed with the conversions from and to the public model.

    [to_json_x] is conversion followed by serialization, [of_json_x] is
    deserialization followed by conversion; the intermediate structs are not
    represented because both halves are field by field.  The only conversion that
    can fail is modelled separately ([check_component] below).  The parameter
    [v] is the version whose structs the [versioned] macro generates. *)
From Verif Require Import Base ModelTypes Strings Enums GenModel Json.
Open Scope string_scope.
Open Scope list_scope.

(** the fields a versioned struct has from version [a] on *)
Definition since (a v : spec_version) : bool := version_leb a v.
Definition sel (l : list (bool * string)) : list string :=
  map snd (filter (fun p => fst p) l).

(** an enumeration, converted to and from its text *)
Definition jtext {A} (t : A -> string) (a : A) : json := JStr (t a).
Definition dec_text {A} (p : string -> A) (j : json) : option A :=
  let? s := dec_str j in Some (p s).

(** models/external_reference.rs:54-79: [Display] of a reference URI, and the
    conversion of a [Uri] into one *)
Definition to_json_uri (u : reference_uri) : json :=
  match u with RUrl s => JStr s | RBomLink s => JStr s end.
Definition dec_uri (j : json) : option reference_uri := dec_text uri_of j.

(** an externally tagged enum holds its variant in an object with one member *)
Definition ext_tag (j : json) : option (string * json) :=
  match j with JObj [(k, x)] => Some (k, x) | _ => None end.
(** structs with a flattened field and untagged struct variants take objects only *)
Definition object_ok (ks : list string) (j : json) : bool :=
  match j with JObj _ => struct_ok ks j | _ => false end.
(** a flattened enum takes the first member that is named like one of its variants *)
Fixpoint first_member (ks : list string) (l : list (string * json)) : option (string * json) :=
  match l with
  | [] => None
  | (k, x) :: l' => if memb k ks then Some (k, x) else first_member ks l'
  end.
Definition first_of (ks : list string) (j : json) : option (string * json) :=
  match j with JObj l => first_member ks l | _ => None end.

(** specs/common/attached_text.rs:28-36, 38-60 *)
Definition keys_attached_text : list string := ["contentType"; "encoding"; "content"].
Definition to_json_attached_text (x : attached_text) : json := obj [
  ("contentType", opt JStr (at_content_type x));
  ("encoding", opt (jtext text_encoding) (at_encoding x));
  ("content", Some (JStr (at_content x)))].
Definition of_json_attached_text (j : json) : option attached_text :=
  if struct_ok keys_attached_text j then
    let? a1 := field_opt dec_str keys_attached_text "contentType" j in
    let? a2 := field_opt (dec_text encoding_of_text) keys_attached_text "encoding" j in
    let? a3 := field dec_str keys_attached_text "content" j in
    Some (mkText a1 a2 a3)
  else None.

(** specs/v1_5/attachment.rs:37-66 *)
Definition keys_attachment : list string := ["content"; "contentType"; "encoding"].
Definition to_json_attachment (x : attachment) : json := obj [
  ("content", Some (JStr (att_content x)));
  ("contentType", opt JStr (att_content_type x));
  ("encoding", opt JStr (att_encoding x))].
Definition of_json_attachment (j : json) : option attachment :=
  if struct_ok keys_attachment j then
    let? a1 := field dec_str keys_attachment "content" j in
    let? a2 := field_opt dec_str keys_attachment "contentType" j in
    let? a3 := field_opt dec_str keys_attachment "encoding" j in
    Some (mkAttachment a1 a2 a3)
  else None.

(** specs/common/hash.rs:79-103, 146-160 *)
Definition keys_hash : list string := ["alg"; "content"].
Definition to_json_hash (x : hash) : json := obj [
  ("alg", Some ((jtext text_hash_algorithm) (h_alg x)));
  ("content", Some (JStr (h_content x)))].
Definition of_json_hash (j : json) : option hash :=
  if struct_ok keys_hash j then
    let? a1 := field (dec_text hash_algorithm_of_text) keys_hash "alg" j in
    let? a2 := field dec_str keys_hash "content" j in
    Some (mkHash a1 a2)
  else None.

(** specs/common/property.rs:79-103 *)
Definition keys_property : list string := ["name"; "value"].
Definition to_json_property (x : property) : json := obj [
  ("name", Some (JStr (p_name x)));
  ("value", Some (JStr (p_value x)))].
Definition of_json_property (j : json) : option property :=
  if struct_ok keys_property j then
    let? a1 := field dec_str keys_property "name" j in
    let? a2 := field dec_str keys_property "value" j in
    Some (mkProp a1 a2)
  else None.

(** specs/common/organization.rs:33-66 *)
Definition keys_contact : list string := ["bomRef"; "name"; "email"; "phone"].
Definition to_json_contact (x : contact) : json := obj [
  ("bomRef", opt JStr (ct_bom_ref x));
  ("name", opt JStr (ct_name x));
  ("email", opt JStr (ct_email x));
  ("phone", opt JStr (ct_phone x))].
Definition of_json_contact (j : json) : option contact :=
  if struct_ok keys_contact j then
    let? a1 := field_opt dec_str keys_contact "bomRef" j in
    let? a2 := field_opt dec_str keys_contact "name" j in
    let? a3 := field_opt dec_str keys_contact "email" j in
    let? a4 := field_opt dec_str keys_contact "phone" j in
    Some (mkContact a1 a2 a3 a4)
  else None.

(** specs/common/organization.rs:159-208 *)
Definition keys_entity : list string := ["bomRef"; "name"; "url"; "contact"].
Definition to_json_entity (x : entity) : json := obj [
  ("bomRef", opt JStr (oe_bom_ref x));
  ("name", opt JStr (oe_name x));
  ("url", opt (arr JStr) (oe_url x));
  ("contact", opt (arr to_json_contact) (oe_contact x))].
Definition of_json_entity (j : json) : option entity :=
  if struct_ok keys_entity j then
    let? a1 := field_opt dec_str keys_entity "bomRef" j in
    let? a2 := field_opt dec_str keys_entity "name" j in
    let? a3 := field_opt (dec_list dec_str) keys_entity "url" j in
    let? a4 := field_opt (dec_list of_json_contact) keys_entity "contact" j in
    Some (mkEntity a1 a2 a3 a4)
  else None.

(** specs/common/external_reference.rs:85-120 *)
Definition keys_external_reference : list string := ["type"; "url"; "comment"; "hashes"].
Definition to_json_external_reference (x : external_reference) : json := obj [
  ("type", Some ((jtext text_ext_ref_type) (er_type x)));
  ("url", Some (to_json_uri (er_url x)));
  ("comment", opt JStr (er_comment x));
  ("hashes", opt (arr to_json_hash) (er_hashes x))].
Definition of_json_external_reference (j : json) : option external_reference :=
  if struct_ok keys_external_reference j then
    let? a1 := field (dec_text ext_ref_type_of_text) keys_external_reference "type" j in
    let? a2 := field dec_uri keys_external_reference "url" j in
    let? a3 := field_opt dec_str keys_external_reference "comment" j in
    let? a4 := field_opt (dec_list of_json_hash) keys_external_reference "hashes" j in
    Some (mkExtRef a1 a2 a3 a4)
  else None.

(** specs/common/signature.rs:197-250.  Both conversions go through [Display], which
    prints every unknown algorithm as ["Unknown"]; the derived form of the unknown
    variant is an object, of the others a string (or an object holding [null]). *)
Definition convert_algorithm (a : algorithm) : algorithm := algorithm_of_text (text_algorithm a).
Definition to_json_algorithm (a : algorithm) : json :=
  match convert_algorithm a with
  | AlgUnknown s => JObj [("Unknown", JStr s)]
  | a' => JStr (text_algorithm a')
  end.
Definition of_json_algorithm (j : json) : option algorithm :=
  let? a :=
    match j with
    | JStr s => match algorithm_of_text s with AlgUnknown _ => None | a => Some a end
    | JObj [(k, x)] =>
        if String.eqb k "Unknown" then let? s := dec_str x in Some (AlgUnknown s)
        else match x with
             | JNull => match algorithm_of_text k with AlgUnknown _ => None | a => Some a end
             | _ => None
             end
    | _ => None
    end in
  Some (convert_algorithm a).

(** specs/common/signature.rs:32-38, 164-180 *)
Definition keys_signer : list string := ["algorithm"; "value"].
Definition to_json_signer (x : signer) : json := obj [
  ("algorithm", Some (to_json_algorithm (sg_algorithm x)));
  ("value", Some (JStr (sg_value x)))].
Definition of_json_signer (j : json) : option signer :=
  if struct_ok keys_signer j then
    let? a1 := field of_json_algorithm keys_signer "algorithm" j in
    let? a2 := field dec_str keys_signer "value" j in
    Some (mkSigner a1 a2)
  else None.

(** specs/common/signature.rs:112-120, 150-195: untagged, so a list of signers is
    always read as [Signers], tried before [Chain] *)
Definition to_json_signature (x : signature) : json :=
  match x with
  | SigSigners l => arr to_json_signer l
  | SigChain l => arr to_json_signer l
  | SigSingle s => to_json_signer s
  end.
Definition of_json_signature (j : json) : option signature :=
  orelse (let? l := dec_list of_json_signer j in Some (SigSigners l))
  (orelse (let? l := dec_list of_json_signer j in Some (SigChain l))
   (let? s := of_json_signer j in Some (SigSingle s))).

(** specs/v1_5/licensing.rs:92-115 *)
Definition to_json_license_contact (x : license_contact) : json :=
  match x with
  | LCOrganization o => JObj [("organization", to_json_entity o)]
  | LCContact c => JObj [("individual", to_json_contact c)]
  end.
Definition of_json_license_contact (j : json) : option license_contact :=
  let? (k, x) := ext_tag j in
  if String.eqb k "organization" then let? o := of_json_entity x in Some (LCOrganization o)
  else if String.eqb k "individual" then let? c := of_json_contact x in Some (LCContact c)
  else None.

(** specs/v1_5/licensing.rs:36-90 *)
Definition keys_licensing : list string := ["altIds"; "licensor"; "licensee"; "purchaser";
  "purchaseOrder"; "licenseTypes"; "lastRenewal"; "expiration"].
Definition to_json_licensing (x : licensing) : json := obj [
  ("altIds", opt_null (arr JStr) (lg_alt_ids x));
  ("licensor", opt_null to_json_license_contact (lg_licensor x));
  ("licensee", opt_null to_json_license_contact (lg_licensee x));
  ("purchaser", opt_null to_json_license_contact (lg_purchaser x));
  ("purchaseOrder", opt_null JStr (lg_purchase_order x));
  ("licenseTypes", opt_null (arr (jtext text_license_type)) (lg_license_types x));
  ("lastRenewal", opt_null JStr (lg_last_renewal x));
  ("expiration", opt_null JStr (lg_expiration x))].
Definition of_json_licensing (j : json) : option licensing :=
  if struct_ok keys_licensing j then
    let? a1 := field_opt (dec_list dec_str) keys_licensing "altIds" j in
    let? a2 := field_opt of_json_license_contact keys_licensing "licensor" j in
    let? a3 := field_opt of_json_license_contact keys_licensing "licensee" j in
    let? a4 := field_opt of_json_license_contact keys_licensing "purchaser" j in
    let? a5 := field_opt dec_str keys_licensing "purchaseOrder" j in
    let? a6 := field_opt (dec_list (dec_text license_type_of_text)) keys_licensing "licenseTypes" j in
    let? a7 := field_opt dec_str keys_licensing "lastRenewal" j in
    let? a8 := field_opt dec_str keys_licensing "expiration" j in
    Some (mkLicensing a1 a2 a3 a4 a5 a6 a7 a8)
  else None.

(** specs/common/license.rs:197-262, 413-437: the identifier is flattened into the object *)
Definition keys_license (v : spec_version) : list string :=
  sel [((since V1_5 v), "bomRef"); (true, "text"); (true, "url"); ((since V1_5 v), "licensing");
  ((since V1_5 v), "properties")].
Definition license_identifier_member (x : license_identifier) : string * option json :=
  match x with
  | LSpdxId s => ("id", Some (JStr s))
  | LName s => ("name", Some (JStr s))
  end.
Definition of_json_license_identifier (j : json) : option license_identifier :=
  let? (k, x) := first_of ["id"; "name"] j in
  let? s := dec_str x in
  Some (if String.eqb k "id" then LSpdxId s else LName s).
Definition to_json_license (v : spec_version) (x : license) : json := obj [
  ("bomRef", when (since V1_5 v) (opt JStr (l_bom_ref x)));
  license_identifier_member (l_identifier x);
  ("text", opt to_json_attached_text (l_text x));
  ("url", opt JStr (l_url x));
  ("licensing", when (since V1_5 v) (opt to_json_licensing (l_licensing x)));
  ("properties", when (since V1_5 v) (opt (arr to_json_property) (l_properties x)))].
Definition of_json_license (v : spec_version) (j : json) : option license :=
  if object_ok (keys_license v) j then
    let? a1 := field_when (since V1_5 v) (field_opt dec_str (keys_license v) "bomRef" j) in
    let? a2 := of_json_license_identifier j in
    let? a3 := field_opt of_json_attached_text (keys_license v) "text" j in
    let? a4 := field_opt dec_str (keys_license v) "url" j in
    let? a5 := field_when (since V1_5 v) (field_opt of_json_licensing (keys_license v) "licensing" j) in
    let? a6 := field_when (since V1_5 v)
                 (field_opt (dec_list of_json_property) (keys_license v) "properties" j) in
    Some (mkLicense a1 a2 a3 a4 a5 a6)
  else None.

(** specs/common/license.rs:504-538 *)
Definition keys_expression : list string := ["bomRef"; "expression"].
(** specs/common/license.rs:122-146: [license] is externally tagged, the expression untagged *)
Definition to_json_license_choice (v : spec_version) (x : license_choice) : json :=
  match x with
  | LicLicense l => JObj [("license", to_json_license v l)]
  | LicExpression r e => obj [("bomRef", opt JStr r); ("expression", Some (JStr e))]
  end.
Definition of_json_license_choice (v : spec_version) (j : json) : option license_choice :=
  orelse
    (let? (k, x) := ext_tag j in
     if String.eqb k "license" then let? l := of_json_license v x in Some (LicLicense l) else None)
    (if struct_ok keys_expression j then
       let? a1 := field_opt dec_str keys_expression "bomRef" j in
       let? a2 := field dec_str keys_expression "expression" j in
       Some (LicExpression a1 a2)
     else None).

(** specs/common/code.rs:234-263 *)
Definition keys_identifiable_action : list string := ["timestamp"; "name"; "email"].
Definition to_json_identifiable_action (x : identifiable_action) : json := obj [
  ("timestamp", opt JStr (ia_timestamp x));
  ("name", opt JStr (ia_name x));
  ("email", opt JStr (ia_email x))].
Definition of_json_identifiable_action (j : json) : option identifiable_action :=
  if struct_ok keys_identifiable_action j then
    let? a1 := field_opt dec_str keys_identifiable_action "timestamp" j in
    let? a2 := field_opt dec_str keys_identifiable_action "name" j in
    let? a3 := field_opt dec_str keys_identifiable_action "email" j in
    Some (mkAction a1 a2 a3)
  else None.

(** specs/common/code.rs:85-122 *)
Definition keys_commit : list string := ["uid"; "url"; "author"; "committer"; "message"].
Definition to_json_commit (x : commit) : json := obj [
  ("uid", opt JStr (cm_uid x));
  ("url", opt JStr (cm_url x));
  ("author", opt to_json_identifiable_action (cm_author x));
  ("committer", opt to_json_identifiable_action (cm_committer x));
  ("message", opt JStr (cm_message x))].
Definition of_json_commit (j : json) : option commit :=
  if struct_ok keys_commit j then
    let? a1 := field_opt dec_str keys_commit "uid" j in
    let? a2 := field_opt dec_str keys_commit "url" j in
    let? a3 := field_opt of_json_identifiable_action keys_commit "author" j in
    let? a4 := field_opt of_json_identifiable_action keys_commit "committer" j in
    let? a5 := field_opt dec_str keys_commit "message" j in
    Some (mkCommit a1 a2 a3 a4 a5)
  else None.

(** specs/common/code.rs:513-539 *)
Definition keys_diff : list string := ["text"; "url"].
Definition to_json_diff (x : diff) : json := obj [
  ("text", opt to_json_attached_text (df_text x));
  ("url", opt JStr (df_url x))].
Definition of_json_diff (j : json) : option diff :=
  if struct_ok keys_diff j then
    let? a1 := field_opt of_json_attached_text keys_diff "text" j in
    let? a2 := field_opt dec_str keys_diff "url" j in
    Some (mkDiff a1 a2)
  else None.

(** specs/common/code.rs:779-805 *)
Definition keys_source : list string := ["name"; "url"].
Definition to_json_source (x : source) : json := obj [
  ("name", opt JStr (so_name x));
  ("url", opt JStr (so_url x))].
Definition of_json_source (j : json) : option source :=
  if struct_ok keys_source j then
    let? a1 := field_opt dec_str keys_source "name" j in
    let? a2 := field_opt dec_str keys_source "url" j in
    Some (mkSource a1 a2)
  else None.

(** specs/common/code.rs:615-662 *)
Definition keys_issue : list string := ["type"; "id"; "name"; "description"; "source";
  "references"].
Definition to_json_issue (x : issue) : json := obj [
  ("type", Some ((jtext text_issue_classification) (is_type x)));
  ("id", opt JStr (is_id x));
  ("name", opt JStr (is_name x));
  ("description", opt JStr (is_description x));
  ("source", opt to_json_source (is_source x));
  ("references", opt (arr JStr) (is_references x))].
Definition of_json_issue (j : json) : option issue :=
  if struct_ok keys_issue j then
    let? a1 := field (dec_text issue_classification_of_text) keys_issue "type" j in
    let? a2 := field_opt dec_str keys_issue "id" j in
    let? a3 := field_opt dec_str keys_issue "name" j in
    let? a4 := field_opt dec_str keys_issue "description" j in
    let? a5 := field_opt of_json_source keys_issue "source" j in
    let? a6 := field_opt (dec_list dec_str) keys_issue "references" j in
    Some (mkIssue a1 a2 a3 a4 a5 a6)
  else None.

(** specs/common/code.rs:397-427 *)
Definition keys_patch : list string := ["type"; "diff"; "resolves"].
Definition to_json_patch (x : patch) : json := obj [
  ("type", Some ((jtext text_patch_classification) (pa_type x)));
  ("diff", opt to_json_diff (pa_diff x));
  ("resolves", opt (arr to_json_issue) (pa_resolves x))].
Definition of_json_patch (j : json) : option patch :=
  if struct_ok keys_patch j then
    let? a1 := field (dec_text patch_classification_of_text) keys_patch "type" j in
    let? a2 := field_opt of_json_diff keys_patch "diff" j in
    let? a3 := field_opt (dec_list of_json_issue) keys_patch "resolves" j in
    Some (mkPatch a1 a2 a3)
  else None.

(** specs/v1_5/data_governance.rs:165-197 (the variant names are not renamed) *)
Definition to_json_responsible_party (x : responsible_party) : json :=
  match x with
  | RPOrganization o => JObj [("Organization", to_json_entity o)]
  | RPContact c => JObj [("Contact", to_json_contact c)]
  end.
Definition of_json_responsible_party (j : json) : option responsible_party :=
  let? (k, x) := ext_tag j in
  if String.eqb k "Organization" then let? o := of_json_entity x in Some (RPOrganization o)
  else if String.eqb k "Contact" then let? c := of_json_contact x in Some (RPContact c)
  else None.

(** specs/v1_5/data_governance.rs:34-62 *)
Definition keys_data_governance : list string := ["custodians"; "stewards"; "owners"].
Definition to_json_data_governance (x : data_governance) : json := obj [
  ("custodians", opt (arr to_json_responsible_party) (dg_custodians x));
  ("stewards", opt (arr to_json_responsible_party) (dg_stewards x));
  ("owners", opt (arr to_json_responsible_party) (dg_owners x))].
Definition of_json_data_governance (j : json) : option data_governance :=
  if struct_ok keys_data_governance j then
    let? a1 := field_opt (dec_list of_json_responsible_party) keys_data_governance "custodians" j in
    let? a2 := field_opt (dec_list of_json_responsible_party) keys_data_governance "stewards" j in
    let? a3 := field_opt (dec_list of_json_responsible_party) keys_data_governance "owners" j in
    Some (mkGovernance a1 a2 a3)
  else None.

(** specs/v1_5/component_data.rs:282-311 *)
Definition keys_data_contents : list string := ["attachment"; "url"; "properties"].
Definition to_json_data_contents (x : data_contents) : json := obj [
  ("attachment", opt to_json_attachment (dc_attachment x));
  ("url", opt JStr (dc_url x));
  ("properties", opt (arr to_json_property) (dc_properties x))].
Definition of_json_data_contents (j : json) : option data_contents :=
  if struct_ok keys_data_contents j then
    let? a1 := field_opt of_json_attachment keys_data_contents "attachment" j in
    let? a2 := field_opt dec_str keys_data_contents "url" j in
    let? a3 := field_opt (dec_list of_json_property) keys_data_contents "properties" j in
    Some (mkContents a1 a2 a3)
  else None.

(** specs/v1_5/component_data.rs:580-605 *)
Definition keys_graphic : list string := ["name"; "image"].
Definition to_json_graphic (x : graphic) : json := obj [
  ("name", opt JStr (g_name x));
  ("image", opt to_json_attachment (g_image x))].
Definition of_json_graphic (j : json) : option graphic :=
  if struct_ok keys_graphic j then
    let? a1 := field_opt dec_str keys_graphic "name" j in
    let? a2 := field_opt of_json_attachment keys_graphic "image" j in
    Some (mkGraphic a1 a2)
  else None.

(** specs/v1_5/component_data.rs:405-430, 506-526 *)
Definition keys_graphics_collection : list string := ["description"; "collection"].
Definition to_json_graphics_collection (x : graphics_collection) : json := obj [
  ("description", opt JStr (gc_description x));
  ("collection", opt (arr to_json_graphic) (gc_collection x))].
Definition of_json_graphics_collection (j : json) : option graphics_collection :=
  if struct_ok keys_graphics_collection j then
    let? a1 := field_opt dec_str keys_graphics_collection "description" j in
    let? a2 := field_opt (dec_list of_json_graphic) keys_graphics_collection "collection" j in
    Some (mkGraphics a1 a2)
  else None.

(** specs/v1_5/component_data.rs:46-102 *)
Definition keys_component_data : list string := ["bomRef"; "type"; "name"; "contents";
  "classification"; "sensitiveData"; "graphics"; "description"; "governance"].
Definition to_json_component_data (x : component_data) : json := obj [
  ("bomRef", opt JStr (cd_bom_ref x));
  ("type", Some ((jtext text_component_data_type) (cd_type x)));
  ("name", opt JStr (cd_name x));
  ("contents", opt to_json_data_contents (cd_contents x));
  ("classification", opt JStr (cd_classification x));
  ("sensitiveData", opt JStr (cd_sensitive_data x));
  ("graphics", opt to_json_graphics_collection (cd_graphics x));
  ("description", opt JStr (cd_description x));
  ("governance", opt to_json_data_governance (cd_governance x))].
Definition of_json_component_data (j : json) : option component_data :=
  if struct_ok keys_component_data j then
    let? a1 := field_opt dec_str keys_component_data "bomRef" j in
    let? a2 := field (dec_text component_data_type_of_text) keys_component_data "type" j in
    let? a3 := field_opt dec_str keys_component_data "name" j in
    let? a4 := field_opt of_json_data_contents keys_component_data "contents" j in
    let? a5 := field_opt dec_str keys_component_data "classification" j in
    let? a6 := field_opt dec_str keys_component_data "sensitiveData" j in
    let? a7 := field_opt of_json_graphics_collection keys_component_data "graphics" j in
    let? a8 := field_opt dec_str keys_component_data "description" j in
    let? a9 := field_opt of_json_data_governance keys_component_data "governance" j in
    Some (mkComponentData a1 a2 a3 a4 a5 a6 a7 a8 a9)
  else None.

(** specs/v1_5/modelcard.rs:366-389 *)
Definition keys_approach : list string := ["type"].
Definition to_json_approach (x : approach) : json := obj [
  ("type", opt (jtext text_approach_type) (ap_type x))].
Definition of_json_approach (j : json) : option approach :=
  if struct_ok keys_approach j then
    let? a1 := field_opt (dec_text approach_type_of_text) keys_approach "type" j in
    Some (mkApproach a1)
  else None.

(** specs/v1_5/modelcard.rs:513-538: untagged *)
Definition to_json_dataset (x : dataset) : json :=
  match x with DSComponent c => to_json_component_data c | DSReference s => JStr s end.
Definition of_json_dataset (j : json) : option dataset :=
  orelse (let? c := of_json_component_data j in Some (DSComponent c))
         (let? s := dec_str j in Some (DSReference s)).

(** specs/v1_5/modelcard.rs:1164-1194 *)
Definition keys_ml_parameter : list string := ["format"].
Definition to_json_ml_parameter (x : ml_parameter) : json := obj [
  ("format", opt JStr (ml_format x))].
Definition of_json_ml_parameter (j : json) : option ml_parameter :=
  if struct_ok keys_ml_parameter j then
    let? a1 := field_opt dec_str keys_ml_parameter "format" j in
    Some (mkMLParameter a1)
  else None.

(** specs/v1_5/modelcard.rs:176-221 *)
Definition keys_model_parameters : list string := ["approach"; "task"; "architectureFamily";
  "modelArchitecture"; "datasets"; "inputs"; "outputs"].
Definition to_json_model_parameters (x : model_parameters) : json := obj [
  ("approach", opt to_json_approach (mp_approach x));
  ("task", opt JStr (mp_task x));
  ("architectureFamily", opt JStr (mp_architecture_family x));
  ("modelArchitecture", opt JStr (mp_model_architecture x));
  ("datasets", opt (arr to_json_dataset) (mp_datasets x));
  ("inputs", opt (arr to_json_ml_parameter) (mp_inputs x));
  ("outputs", opt (arr to_json_ml_parameter) (mp_outputs x))].
Definition of_json_model_parameters (j : json) : option model_parameters :=
  if struct_ok keys_model_parameters j then
    let? a1 := field_opt of_json_approach keys_model_parameters "approach" j in
    let? a2 := field_opt dec_str keys_model_parameters "task" j in
    let? a3 := field_opt dec_str keys_model_parameters "architectureFamily" j in
    let? a4 := field_opt dec_str keys_model_parameters "modelArchitecture" j in
    let? a5 := field_opt (dec_list of_json_dataset) keys_model_parameters "datasets" j in
    let? a6 := field_opt (dec_list of_json_ml_parameter) keys_model_parameters "inputs" j in
    let? a7 := field_opt (dec_list of_json_ml_parameter) keys_model_parameters "outputs" j in
    Some (mkModelParameters a1 a2 a3 a4 a5 a6 a7)
  else None.

(** specs/v1_5/modelcard.rs:890-915 *)
Definition keys_confidence_interval : list string := ["lowerBound"; "upperBound"].
Definition to_json_confidence_interval (x : confidence_interval) : json := obj [
  ("lowerBound", opt JStr (ci_lower_bound x));
  ("upperBound", opt JStr (ci_upper_bound x))].
Definition of_json_confidence_interval (j : json) : option confidence_interval :=
  if struct_ok keys_confidence_interval j then
    let? a1 := field_opt dec_str keys_confidence_interval "lowerBound" j in
    let? a2 := field_opt dec_str keys_confidence_interval "upperBound" j in
    Some (mkInterval a1 a2)
  else None.

(** specs/v1_5/modelcard.rs:763-796 (no camelCase renaming here) *)
Definition keys_performance_metric : list string := ["type"; "value"; "slice";
  "confidence_interval"].
Definition to_json_performance_metric (x : performance_metric) : json := obj [
  ("type", opt JStr (pm_type x));
  ("value", opt JStr (pm_value x));
  ("slice", opt JStr (pm_slice x));
  ("confidence_interval", opt to_json_confidence_interval (pm_confidence_interval x))].
Definition of_json_performance_metric (j : json) : option performance_metric :=
  if struct_ok keys_performance_metric j then
    let? a1 := field_opt dec_str keys_performance_metric "type" j in
    let? a2 := field_opt dec_str keys_performance_metric "value" j in
    let? a3 := field_opt dec_str keys_performance_metric "slice" j in
    let? a4 := field_opt of_json_confidence_interval keys_performance_metric "confidence_interval" j in
    Some (mkMetric a1 a2 a3 a4)
  else None.

(** specs/v1_5/modelcard.rs:584-610 *)
Definition keys_quantitative_analysis : list string := ["performanceMetrics"; "graphics"].
Definition to_json_quantitative_analysis (x : quantitative_analysis) : json := obj [
  ("performanceMetrics", opt (arr to_json_performance_metric) (qa_performance_metrics x));
  ("graphics", opt to_json_graphics_collection (qa_graphics x))].
Definition of_json_quantitative_analysis (j : json) : option quantitative_analysis :=
  if struct_ok keys_quantitative_analysis j then
    let? a1 := field_opt (dec_list of_json_performance_metric) keys_quantitative_analysis "performanceMetrics" j in
    let? a2 := field_opt of_json_graphics_collection keys_quantitative_analysis "graphics" j in
    Some (mkQuantitative a1 a2)
  else None.

(** specs/v1_5/modelcard.rs:987-1002: a struct without fields *)
Definition to_json_considerations (x : considerations) : json := obj [].
Definition of_json_considerations (j : json) : option considerations :=
  if struct_ok [] j then Some mkConsiderations else None.

(** specs/v1_5/modelcard.rs:40-78 *)
Definition keys_model_card : list string := ["bomRef"; "modelParameters"; "quantitativeAnalysis";
  "considerations"; "properties"].
Definition to_json_model_card (x : model_card) : json := obj [
  ("bomRef", opt JStr (mc_bom_ref x));
  ("modelParameters", opt to_json_model_parameters (mc_model_parameters x));
  ("quantitativeAnalysis", opt to_json_quantitative_analysis (mc_quantitative_analysis x));
  ("considerations", opt to_json_considerations (mc_considerations x));
  ("properties", opt (arr to_json_property) (mc_properties x))].
Definition of_json_model_card (j : json) : option model_card :=
  if struct_ok keys_model_card j then
    let? a1 := field_opt dec_str keys_model_card "bomRef" j in
    let? a2 := field_opt of_json_model_parameters keys_model_card "modelParameters" j in
    let? a3 := field_opt of_json_quantitative_analysis keys_model_card "quantitativeAnalysis" j in
    let? a4 := field_opt of_json_considerations keys_model_card "considerations" j in
    let? a5 := field_opt (dec_list of_json_property) keys_model_card "properties" j in
    Some (mkModelCard a1 a2 a3 a4 a5)
  else None.

(** specs/v1_5/evidence.rs:93-118 *)
Definition keys_occurrence : list string := ["bomRef"; "location"].
Definition to_json_occurrence (x : occurrence) : json := obj [
  ("bomRef", opt JStr (oc_bom_ref x));
  ("location", Some (JStr (oc_location x)))].
Definition of_json_occurrence (j : json) : option occurrence :=
  if struct_ok keys_occurrence j then
    let? a1 := field_opt dec_str keys_occurrence "bomRef" j in
    let? a2 := field dec_str keys_occurrence "location" j in
    Some (mkOccurrence a1 a2)
  else None.

(** specs/v1_5/evidence.rs:294-347 *)
Definition keys_frame : list string := ["package"; "module"; "function"; "parameters"; "line";
  "column"; "fullFilename"].
Definition to_json_frame (x : frame) : json := obj [
  ("package", opt JStr (fr_package x));
  ("module", Some (JStr (fr_module x)));
  ("function", opt JStr (fr_function x));
  ("parameters", opt (arr JStr) (fr_parameters x));
  ("line", opt to_json_u32 (fr_line x));
  ("column", opt to_json_u32 (fr_column x));
  ("fullFilename", opt JStr (fr_full_filename x))].
Definition of_json_frame (j : json) : option frame :=
  if struct_ok keys_frame j then
    let? a1 := field_opt dec_str keys_frame "package" j in
    let? a2 := field dec_str keys_frame "module" j in
    let? a3 := field_opt dec_str keys_frame "function" j in
    let? a4 := field_opt (dec_list dec_str) keys_frame "parameters" j in
    let? a5 := field_opt dec_u32 keys_frame "line" j in
    let? a6 := field_opt dec_u32 keys_frame "column" j in
    let? a7 := field_opt dec_str keys_frame "fullFilename" j in
    Some (mkFrame a1 a2 a3 a4 a5 a6 a7)
  else None.

(** specs/v1_5/evidence.rs:180-208, 278-292 *)
Definition keys_callstack : list string := ["frames"].
Definition to_json_callstack (x : list frame) : json := obj [("frames", Some (arr to_json_frame x))].
Definition of_json_callstack (j : json) : option (list frame) :=
  if struct_ok keys_callstack j then field (dec_list of_json_frame) keys_callstack "frames" j
  else None.

(** specs/v1_5/evidence.rs:696-723 *)
Definition keys_method : list string := ["technique"; "confidence"; "value"].
Definition to_json_method (x : method) : json := obj [
  ("technique", Some (JStr (me_technique x)));
  ("confidence", Some (to_json_f32 (me_confidence x)));
  ("value", opt JStr (me_value x))].
Definition of_json_method (j : json) : option method :=
  if struct_ok keys_method j then
    let? a1 := field dec_str keys_method "technique" j in
    let? a2 := field dec_f32 keys_method "confidence" j in
    let? a3 := field_opt dec_str keys_method "value" j in
    Some (mkMethod a1 a2 a3)
  else None.

(** specs/v1_5/evidence.rs:477-512 *)
Definition keys_identity : list string := ["field"; "confidence"; "methods"; "tools"].
Definition to_json_identity (x : identity) : json := obj [
  ("field", Some ((jtext text_identity_field) (id_field x)));
  ("confidence", opt to_json_f32 (id_confidence x));
  ("methods", opt (arr to_json_method) (id_methods x));
  ("tools", opt (arr JStr) (id_tools x))].
Definition of_json_identity (j : json) : option identity :=
  if struct_ok keys_identity j then
    let? a1 := field (dec_text identity_field_of_text) keys_identity "field" j in
    let? a2 := field_opt dec_f32 keys_identity "confidence" j in
    let? a3 := field_opt (dec_list of_json_method) keys_identity "methods" j in
    let? a4 := field_opt (dec_list dec_str) keys_identity "tools" j in
    Some (mkIdentity a1 a2 a3 a4)
  else None.

(** specs/common/component.rs:1266-1283 *)
Definition keys_copyright : list string := ["text"].
Definition to_json_copyright (x : string) : json := obj [("text", Some (JStr x))].
Definition of_json_copyright (j : json) : option string :=
  if struct_ok keys_copyright j then field dec_str keys_copyright "text" j else None.

(** specs/common/component.rs:898-952 *)
Definition keys_evidence (v : spec_version) : list string := sel [(true, "licenses"); (true,
  "copyright"); ((since V1_5 v), "occurrences"); ((since V1_5 v), "callstack"); ((since V1_5 v),
  "identity")].
Definition to_json_evidence (v : spec_version) (x : evidence) : json := obj [
  ("licenses", opt (arr (to_json_license_choice v)) (ev_licenses x));
  ("copyright", opt (arr to_json_copyright) (ev_copyright x));
  ("occurrences", when (since V1_5 v) (opt (arr to_json_occurrence) (ev_occurrences x)));
  ("callstack", when (since V1_5 v) (opt to_json_callstack (ev_callstack x)));
  ("identity", when (since V1_5 v) (opt to_json_identity (ev_identity x)))].
Definition of_json_evidence (v : spec_version) (j : json) : option evidence :=
  if struct_ok (keys_evidence v) j then
    let? a1 := field_opt (dec_list (of_json_license_choice v)) (keys_evidence v) "licenses" j in
    let? a2 := field_opt (dec_list of_json_copyright) (keys_evidence v) "copyright" j in
    let? a3 := field_when (since V1_5 v) (field_opt (dec_list of_json_occurrence) (keys_evidence v) "occurrences" j) in
    let? a4 := field_when (since V1_5 v) (field_opt of_json_callstack (keys_evidence v) "callstack" j) in
    let? a5 := field_when (since V1_5 v) (field_opt of_json_identity (keys_evidence v) "identity" j) in
    Some (mkEvidence a1 a2 a3 a4 a5)
  else None.

(** specs/common/component.rs:694-737 *)
Definition keys_swid : list string := ["tagId"; "name"; "version"; "tagVersion"; "patch"; "text";
  "url"].
Definition to_json_swid (x : swid) : json := obj [
  ("tagId", Some (JStr (sw_tag_id x)));
  ("name", Some (JStr (sw_name x)));
  ("version", opt JStr (sw_version x));
  ("tagVersion", opt to_json_u32 (sw_tag_version x));
  ("patch", opt JBool (sw_patch x));
  ("text", opt to_json_attached_text (sw_text x));
  ("url", opt JStr (sw_url x))].
Definition of_json_swid (j : json) : option swid :=
  if struct_ok keys_swid j then
    let? a1 := field dec_str keys_swid "tagId" j in
    let? a2 := field dec_str keys_swid "name" j in
    let? a3 := field_opt dec_str keys_swid "version" j in
    let? a4 := field_opt dec_u32 keys_swid "tagVersion" j in
    let? a5 := field_opt dec_bool keys_swid "patch" j in
    let? a6 := field_opt of_json_attached_text keys_swid "text" j in
    let? a7 := field_opt dec_str keys_swid "url" j in
    Some (mkSwid a1 a2 a3 a4 a5 a6 a7)
  else None.

(** specs/common/component.rs:1082-1126; [to] and [of] handle the components it holds *)
Definition keys_pedigree : list string :=
  ["ancestors"; "descendants"; "variants"; "commits"; "patches"; "notes"].
Definition to_json_pedigree (to : component -> json) (x : pedigree) : json := obj [
  ("ancestors", opt (arr to) (pd_ancestors x));
  ("descendants", opt (arr to) (pd_descendants x));
  ("variants", opt (arr to) (pd_variants x));
  ("commits", opt (arr to_json_commit) (pd_commits x));
  ("patches", opt (arr to_json_patch) (pd_patches x));
  ("notes", opt JStr (pd_notes x))].
Definition of_json_pedigree (of : json -> option component) (j : json) : option pedigree :=
  if struct_ok keys_pedigree j then
    let? a1 := field_opt (dec_list of) keys_pedigree "ancestors" j in
    let? a2 := field_opt (dec_list of) keys_pedigree "descendants" j in
    let? a3 := field_opt (dec_list of) keys_pedigree "variants" j in
    let? a4 := field_opt (dec_list of_json_commit) keys_pedigree "commits" j in
    let? a5 := field_opt (dec_list of_json_patch) keys_pedigree "patches" j in
    let? a6 := field_opt dec_str keys_pedigree "notes" j in
    Some (mkPedigree a1 a2 a3 a4 a5 a6)
  else None.

(** specs/common/component.rs:126-284.  A component without version never gets to
    the writer of 1.3, see [check_component]. *)
Definition keys_component (v : spec_version) : list string :=
  ["type"; "mime-type"; "bom-ref"; "supplier"; "author"; "publisher"; "group"; "name"; "version";
   "description"; "scope"; "hashes"; "licenses"; "copyright"; "cpe"; "purl"; "swid"; "modified";
   "pedigree"; "externalReferences"; "properties"; "components"; "evidence"] ++
  sel [((since V1_4 v), "signature"); ((since V1_5 v), "modelCard"); ((since V1_5 v), "data")].
Fixpoint to_json_component (v : spec_version) (x : component) : json := obj [
  ("type", Some (jtext text_classification (c_type x)));
  ("mime-type", opt JStr (c_mime_type x));
  ("bom-ref", opt JStr (c_bom_ref x));
  ("supplier", opt to_json_entity (c_supplier x));
  ("author", opt JStr (c_author x));
  ("publisher", opt JStr (c_publisher x));
  ("group", opt JStr (c_group x));
  ("name", Some (JStr (c_name x)));
  ("version", opt JStr (c_version x));
  ("description", opt JStr (c_description x));
  ("scope", opt (jtext text_scope) (c_scope x));
  ("hashes", opt (arr to_json_hash) (c_hashes x));
  ("licenses", opt (arr (to_json_license_choice v)) (c_licenses x));
  ("copyright", opt JStr (c_copyright x));
  ("cpe", opt JStr (c_cpe x));
  ("purl", opt JStr (c_purl x));
  ("swid", opt to_json_swid (c_swid x));
  ("modified", opt JBool (c_modified x));
  ("pedigree", opt (to_json_pedigree (to_json_component v)) (c_pedigree x));
  ("externalReferences", opt (arr to_json_external_reference) (c_external_references x));
  ("properties", opt (arr to_json_property) (c_properties x));
  ("components", opt (arr (to_json_component v)) (c_components x));
  ("evidence", opt (to_json_evidence v) (c_evidence x));
  ("signature", when (since V1_4 v) (opt to_json_signature (c_signature x)));
  ("modelCard", when (since V1_5 v) (opt to_json_model_card (c_model_card x)));
  ("data", when (since V1_5 v) (opt to_json_component_data (c_data x)))].
Fixpoint of_json_component (v : spec_version) (j : json) : option component :=
  if struct_ok (keys_component v) j then
    let? a1 := field (dec_text classification_of_text) (keys_component v) "type" j in
    let? a2 := field_opt dec_str (keys_component v) "mime-type" j in
    let? a3 := field_opt dec_str (keys_component v) "bom-ref" j in
    let? a4 := field_opt of_json_entity (keys_component v) "supplier" j in
    let? a5 := field_opt dec_str (keys_component v) "author" j in
    let? a6 := field_opt dec_str (keys_component v) "publisher" j in
    let? a7 := field_opt dec_str (keys_component v) "group" j in
    let? a8 := field dec_str (keys_component v) "name" j in
    let? a9 := (if since V1_4 v then field_opt dec_str (keys_component v) "version" j
                else let? s := field dec_str (keys_component v) "version" j in Some (Some s)) in
    let? a10 := field_opt dec_str (keys_component v) "description" j in
    let? a11 := field_opt (dec_text scope_of_text) (keys_component v) "scope" j in
    let? a12 := field_opt (dec_list of_json_hash) (keys_component v) "hashes" j in
    let? a13 := field_opt (dec_list (of_json_license_choice v)) (keys_component v) "licenses" j in
    let? a14 := field_opt dec_str (keys_component v) "copyright" j in
    let? a15 := field_opt dec_str (keys_component v) "cpe" j in
    let? a16 := field_opt dec_str (keys_component v) "purl" j in
    let? a17 := field_opt of_json_swid (keys_component v) "swid" j in
    let? a18 := field_opt dec_bool (keys_component v) "modified" j in
    let? a19 := field_opt (of_json_pedigree (of_json_component v)) (keys_component v) "pedigree" j in
    let? a20 := field_opt (dec_list of_json_external_reference) (keys_component v)
                  "externalReferences" j in
    let? a21 := field_opt (dec_list of_json_property) (keys_component v) "properties" j in
    let? a22 := field_opt (dec_list (of_json_component v)) (keys_component v) "components" j in
    let? a23 := field_opt (of_json_evidence v) (keys_component v) "evidence" j in
    let? a24 := field_when (since V1_4 v)
                  (field_opt of_json_signature (keys_component v) "signature" j) in
    let? a25 := field_when (since V1_5 v)
                  (field_opt of_json_model_card (keys_component v) "modelCard" j) in
    let? a26 := field_when (since V1_5 v)
                  (field_opt of_json_component_data (keys_component v) "data" j) in
    Some (mkComponent a1 a2 a3 a4 a5 a6 a7 a8 a9 a10 a11 a12 a13 a14 a15 a16 a17 a18 a19 a20 a21
            a22 a23 a24 a25 a26)
  else None.

(** specs/common/service.rs:701-735 *)
Definition keys_data_classification : list string := ["flow"; "classification"].
Definition to_json_data_classification (x : data_classification) : json := obj [
  ("flow", Some ((jtext text_data_flow_type) (dcl_flow x)));
  ("classification", Some (JStr (dcl_classification x)))].
Definition of_json_data_classification (j : json) : option data_classification :=
  if struct_ok keys_data_classification j then
    let? a1 := field (dec_text data_flow_type_of_text) keys_data_classification "flow" j in
    let? a2 := field dec_str keys_data_classification "classification" j in
    Some (mkDataClass a1 a2)
  else None.

(** specs/v1_5/service_data.rs:36-90: flow and classification are flattened into the object *)
Definition keys_service_data : list string :=
  ["name"; "description"; "flow"; "classification"; "governance"; "source"; "destination"].
Definition to_json_service_data (x : service_data) : json := obj [
  ("name", opt JStr (sd_name x));
  ("description", opt JStr (sd_description x));
  ("flow", Some (jtext text_data_flow_type (dcl_flow (sd_classification x))));
  ("classification", Some (JStr (dcl_classification (sd_classification x))));
  ("governance", opt to_json_data_governance (sd_governance x));
  ("source", opt (arr JStr) (sd_source x));
  ("destination", opt (arr JStr) (sd_destination x))].
Definition of_json_service_data (j : json) : option service_data :=
  if object_ok keys_service_data j then
    let? a1 := field_opt dec_str keys_service_data "name" j in
    let? a2 := field_opt dec_str keys_service_data "description" j in
    let? a3 := field (dec_text data_flow_type_of_text) keys_service_data "flow" j in
    let? a4 := field dec_str keys_service_data "classification" j in
    let? a5 := field_opt of_json_data_governance keys_service_data "governance" j in
    let? a6 := field_opt (dec_list dec_str) keys_service_data "source" j in
    let? a7 := field_opt (dec_list dec_str) keys_service_data "destination" j in
    Some (mkServiceData a1 a2 (mkDataClass a3 a4) a5 a6 a7)
  else None.

(** specs/common/service.rs:541-579: untagged, classifications first; before 1.5
    only classifications exist and service data is reduced to them *)
Definition to_json_data (v : spec_version) (x : data) : json :=
  match x with
  | DClassification l => arr to_json_data_classification l
  | DServiceData l =>
      if since V1_5 v then arr to_json_service_data l
      else arr to_json_data_classification (map sd_classification l)
  end.
Definition of_json_data (v : spec_version) (j : json) : option data :=
  orelse (let? l := dec_list of_json_data_classification j in Some (DClassification l))
         (if since V1_5 v then let? l := dec_list of_json_service_data j in Some (DServiceData l)
          else None).

(** specs/common/service.rs:113-243 *)
Definition keys_service (v : spec_version) : list string :=
  ["bom-ref"; "provider"; "group"; "name"; "version"; "description"; "endpoints"; "authenticated";
   "x-trust-boundary"; "data"; "licenses"; "externalReferences"; "properties"; "services"] ++
  sel [((since V1_4 v), "signature"); ((since V1_5 v), "trustZone")].
Fixpoint to_json_service (v : spec_version) (x : service) : json := obj [
  ("bom-ref", opt JStr (s_bom_ref x));
  ("provider", opt to_json_entity (s_provider x));
  ("group", opt JStr (s_group x));
  ("name", Some (JStr (s_name x)));
  ("version", opt JStr (s_version x));
  ("description", opt JStr (s_description x));
  ("endpoints", opt (arr JStr) (s_endpoints x));
  ("authenticated", opt JBool (s_authenticated x));
  ("x-trust-boundary", opt JBool (s_x_trust_boundary x));
  ("data", opt (to_json_data v) (s_data x));
  ("licenses", opt (arr (to_json_license_choice v)) (s_licenses x));
  ("externalReferences", opt (arr to_json_external_reference) (s_external_references x));
  ("properties", opt (arr to_json_property) (s_properties x));
  ("services", opt (arr (to_json_service v)) (s_services x));
  ("signature", when (since V1_4 v) (opt to_json_signature (s_signature x)));
  ("trustZone", when (since V1_5 v) (opt JStr (s_trust_zone x)))].
Fixpoint of_json_service (v : spec_version) (j : json) : option service :=
  if struct_ok (keys_service v) j then
    let? a1 := field_opt dec_str (keys_service v) "bom-ref" j in
    let? a2 := field_opt of_json_entity (keys_service v) "provider" j in
    let? a3 := field_opt dec_str (keys_service v) "group" j in
    let? a4 := field dec_str (keys_service v) "name" j in
    let? a5 := field_opt dec_str (keys_service v) "version" j in
    let? a6 := field_opt dec_str (keys_service v) "description" j in
    let? a7 := field_opt (dec_list dec_str) (keys_service v) "endpoints" j in
    let? a8 := field_opt dec_bool (keys_service v) "authenticated" j in
    let? a9 := field_opt dec_bool (keys_service v) "x-trust-boundary" j in
    let? a10 := field_opt (of_json_data v) (keys_service v) "data" j in
    let? a11 := field_opt (dec_list (of_json_license_choice v)) (keys_service v) "licenses" j in
    let? a12 := field_opt (dec_list of_json_external_reference) (keys_service v)
                  "externalReferences" j in
    let? a13 := field_opt (dec_list of_json_property) (keys_service v) "properties" j in
    let? a14 := field_opt (dec_list (of_json_service v)) (keys_service v) "services" j in
    let? a15 := field_when (since V1_4 v)
                  (field_opt of_json_signature (keys_service v) "signature" j) in
    let? a16 := field_when (since V1_5 v) (field_opt dec_str (keys_service v) "trustZone" j) in
    Some (mkService a1 a2 a3 a4 a5 a6 a7 a8 a9 a10 a11 a12 a13 a14 a15 a16)
  else None.

(** specs/common/tool.rs:218-261 *)
Definition keys_tool (v : spec_version) : list string := sel [(true, "vendor"); (true, "name");
  (true, "version"); (true, "hashes"); ((since V1_4 v), "externalReferences")].
Definition to_json_tool (v : spec_version) (x : tool) : json := obj [
  ("vendor", opt JStr (t_vendor x));
  ("name", opt JStr (t_name x));
  ("version", opt JStr (t_version x));
  ("hashes", opt (arr to_json_hash) (t_hashes x));
  ("externalReferences", when (since V1_4 v) (opt (arr to_json_external_reference) (t_external_references x)))].
Definition of_json_tool (v : spec_version) (j : json) : option tool :=
  if struct_ok (keys_tool v) j then
    let? a1 := field_opt dec_str (keys_tool v) "vendor" j in
    let? a2 := field_opt dec_str (keys_tool v) "name" j in
    let? a3 := field_opt dec_str (keys_tool v) "version" j in
    let? a4 := field_opt (dec_list of_json_hash) (keys_tool v) "hashes" j in
    let? a5 := field_when (since V1_4 v) (field_opt (dec_list of_json_external_reference) (keys_tool v) "externalReferences" j) in
    Some (mkTool a1 a2 a3 a4 a5)
  else None.

(** specs/common/tool.rs:44-95: untagged; the object form is a struct variant that
    exists from 1.5 on and becomes an empty list before *)
Definition keys_tools : list string := ["services"; "components"].
Definition to_json_tools (v : spec_version) (x : tools) : json :=
  match x with
  | TList l => arr (to_json_tool v) l
  | TObject s c =>
      if since V1_5 v then obj [
        ("services", opt (arr (to_json_service v)) s);
        ("components", opt (arr (to_json_component v)) c)]
      else JArr []
  end.
Definition of_json_tools (v : spec_version) (j : json) : option tools :=
  orelse (let? l := dec_list (of_json_tool v) j in Some (TList l))
    (if since V1_5 v then
       if object_ok keys_tools j then
         let? a1 := field_opt (dec_list (of_json_service v)) keys_tools "services" j in
         let? a2 := field_opt (dec_list (of_json_component v)) keys_tools "components" j in
         Some (TObject a1 a2)
       else None
     else None).

(** specs/v1_5/lifecycles.rs:88-112, 195-243: [phase] is externally tagged, the
    description untagged *)
Definition keys_lifecycle : list string := ["name"; "description"].
Definition to_json_lifecycle (x : lifecycle) : json :=
  match x with
  | LPhase p => JObj [("phase", jtext text_phase p)]
  | LDescription n d => obj [("name", Some (JStr n)); ("description", opt JStr d)]
  end.
Definition of_json_lifecycle (j : json) : option lifecycle :=
  orelse
    (let? (k, x) := ext_tag j in
     if String.eqb k "phase" then let? p := dec_text phase_of_text x in Some (LPhase p) else None)
    (if struct_ok keys_lifecycle j then
       let? a1 := field dec_str keys_lifecycle "name" j in
       let? a2 := field_opt dec_str keys_lifecycle "description" j in
       Some (LDescription a1 a2)
     else None).

(** specs/common/metadata.rs:51-112 *)
Definition keys_metadata (v : spec_version) : list string := sel [(true, "timestamp"); (true,
  "tools"); (true, "authors"); (true, "component"); (true, "manufacture"); (true, "supplier");
  (true, "licenses"); (true, "properties"); ((since V1_5 v), "lifecycles")].
Definition to_json_metadata (v : spec_version) (x : metadata) : json := obj [
  ("timestamp", opt JStr (m_timestamp x));
  ("tools", opt (to_json_tools v) (m_tools x));
  ("authors", opt (arr to_json_contact) (m_authors x));
  ("component", opt (to_json_component v) (m_component x));
  ("manufacture", opt to_json_entity (m_manufacture x));
  ("supplier", opt to_json_entity (m_supplier x));
  ("licenses", opt (arr (to_json_license_choice v)) (m_licenses x));
  ("properties", opt (arr to_json_property) (m_properties x));
  ("lifecycles", when (since V1_5 v) (opt (arr to_json_lifecycle) (m_lifecycles x)))].
Definition of_json_metadata (v : spec_version) (j : json) : option metadata :=
  if struct_ok (keys_metadata v) j then
    let? a1 := field_opt dec_str (keys_metadata v) "timestamp" j in
    let? a2 := field_opt (of_json_tools v) (keys_metadata v) "tools" j in
    let? a3 := field_opt (dec_list of_json_contact) (keys_metadata v) "authors" j in
    let? a4 := field_opt (of_json_component v) (keys_metadata v) "component" j in
    let? a5 := field_opt of_json_entity (keys_metadata v) "manufacture" j in
    let? a6 := field_opt of_json_entity (keys_metadata v) "supplier" j in
    let? a7 := field_opt (dec_list (of_json_license_choice v)) (keys_metadata v) "licenses" j in
    let? a8 := field_opt (dec_list of_json_property) (keys_metadata v) "properties" j in
    let? a9 := field_when (since V1_5 v) (field_opt (dec_list of_json_lifecycle) (keys_metadata v) "lifecycles" j) in
    Some (mkMetadata a1 a2 a3 a4 a5 a6 a7 a8 a9)
  else None.

(** specs/common/dependency.rs:78-104 *)
Definition keys_dependency : list string := ["ref"; "dependsOn"].
Definition to_json_dependency (x : dependency) : json := obj [
  ("ref", Some (JStr (d_ref x)));
  ("dependsOn", match d_dependencies x with [] => None | l => Some ((arr JStr) l) end)].
Definition of_json_dependency (j : json) : option dependency :=
  if struct_ok keys_dependency j then
    let? a1 := field dec_str keys_dependency "ref" j in
    let? a2 := field_default [] (dec_list dec_str) keys_dependency "dependsOn" j in
    Some (mkDependency a1 a2)
  else None.

(** specs/common/composition.rs:88-145 *)
Definition keys_composition (v : spec_version) : list string := sel [((since V1_5 v), "bomRef");
  (true, "aggregate"); (true, "assemblies"); (true, "dependencies"); ((since V1_5 v),
  "vulnerabilities"); ((since V1_4 v), "signature")].
Definition to_json_composition (v : spec_version) (x : composition) : json := obj [
  ("bomRef", when (since V1_5 v) (opt JStr (co_bom_ref x)));
  ("aggregate", Some ((jtext text_aggregate_type) (co_aggregate x)));
  ("assemblies", opt (arr JStr) (co_assemblies x));
  ("dependencies", opt (arr JStr) (co_dependencies x));
  ("vulnerabilities", when (since V1_5 v) (opt (arr JStr) (co_vulnerabilities x)));
  ("signature", when (since V1_4 v) (opt to_json_signature (co_signature x)))].
Definition of_json_composition (v : spec_version) (j : json) : option composition :=
  if struct_ok (keys_composition v) j then
    let? a1 := field_when (since V1_5 v) (field_opt dec_str (keys_composition v) "bomRef" j) in
    let? a2 := field (dec_text aggregate_type_of_text) (keys_composition v) "aggregate" j in
    let? a3 := field_opt (dec_list dec_str) (keys_composition v) "assemblies" j in
    let? a4 := field_opt (dec_list dec_str) (keys_composition v) "dependencies" j in
    let? a5 := field_when (since V1_5 v) (field_opt (dec_list dec_str) (keys_composition v) "vulnerabilities" j) in
    let? a6 := field_when (since V1_4 v) (field_opt of_json_signature (keys_composition v) "signature" j) in
    Some (mkComposition a1 a2 a3 a4 a5 a6)
  else None.

(** specs/v1_5/annotation.rs:161-203 *)
Definition to_json_annotator (v : spec_version) (x : annotator) : json :=
  match x with
  | AnOrganization o => JObj [("organization", to_json_entity o)]
  | AnIndividual c => JObj [("individual", to_json_contact c)]
  | AnComponent c => JObj [("component", to_json_component v c)]
  | AnService s => JObj [("service", to_json_service v s)]
  end.
Definition of_json_annotator (v : spec_version) (j : json) : option annotator :=
  let? (k, x) := ext_tag j in
  if String.eqb k "organization" then let? o := of_json_entity x in Some (AnOrganization o)
  else if String.eqb k "individual" then let? c := of_json_contact x in Some (AnIndividual c)
  else if String.eqb k "component" then let? c := of_json_component v x in Some (AnComponent c)
  else if String.eqb k "service" then let? s := of_json_service v x in Some (AnService s)
  else None.

(** specs/v1_5/annotation.rs:113-159 *)
Definition keys_annotation : list string := ["bom-ref"; "subjects"; "annotator"; "timestamp";
  "text"; "signature"].
Definition to_json_annotation (v : spec_version) (x : annotation) : json := obj [
  ("bom-ref", opt JStr (an_bom_ref x));
  ("subjects", Some ((arr JStr) (an_subjects x)));
  ("annotator", Some ((to_json_annotator v) (an_annotator x)));
  ("timestamp", Some (JStr (an_timestamp x)));
  ("text", Some (JStr (an_text x)));
  ("signature", opt to_json_signature (an_signature x))].
Definition of_json_annotation (v : spec_version) (j : json) : option annotation :=
  if struct_ok keys_annotation j then
    let? a1 := field_opt dec_str keys_annotation "bom-ref" j in
    let? a2 := field (dec_list dec_str) keys_annotation "subjects" j in
    let? a3 := field (of_json_annotator v) keys_annotation "annotator" j in
    let? a4 := field dec_str keys_annotation "timestamp" j in
    let? a5 := field dec_str keys_annotation "text" j in
    let? a6 := field_opt of_json_signature keys_annotation "signature" j in
    Some (mkAnnotation a1 a2 a3 a4 a5 a6)
  else None.

(** specs/common/vulnerability_source.rs:31-56 *)
Definition keys_vuln_source : list string := ["name"; "url"].
Definition to_json_vuln_source (x : vuln_source) : json := obj [
  ("name", opt JStr (vs_name x));
  ("url", opt JStr (vs_url x))].
Definition of_json_vuln_source (j : json) : option vuln_source :=
  if struct_ok keys_vuln_source j then
    let? a1 := field_opt dec_str keys_vuln_source "name" j in
    let? a2 := field_opt dec_str keys_vuln_source "url" j in
    Some (mkVSource a1 a2)
  else None.

(** specs/common/vulnerability_reference.rs:84-111 *)
Definition keys_vuln_reference : list string := ["id"; "source"].
Definition to_json_vuln_reference (x : vuln_reference) : json := obj [
  ("id", Some (JStr (vr_id x)));
  ("source", Some (to_json_vuln_source (vr_source x)))].
Definition of_json_vuln_reference (j : json) : option vuln_reference :=
  if struct_ok keys_vuln_reference j then
    let? a1 := field dec_str keys_vuln_reference "id" j in
    let? a2 := field of_json_vuln_source keys_vuln_reference "source" j in
    Some (mkVReference a1 a2)
  else None.

(** specs/common/vulnerability_rating.rs:84-125, 259-290 *)
Definition keys_vuln_rating : list string := ["source"; "score"; "severity"; "method"; "vector";
  "justification"].
Definition to_json_vuln_rating (x : vuln_rating) : json := obj [
  ("source", opt to_json_vuln_source (ra_source x));
  ("score", opt to_json_f32 (ra_score x));
  ("severity", opt (jtext text_severity) (ra_severity x));
  ("method", opt (jtext text_score_method) (ra_method x));
  ("vector", opt JStr (ra_vector x));
  ("justification", opt JStr (ra_justification x))].
Definition of_json_vuln_rating (j : json) : option vuln_rating :=
  if struct_ok keys_vuln_rating j then
    let? a1 := field_opt of_json_vuln_source keys_vuln_rating "source" j in
    let? a2 := field_opt dec_f32 keys_vuln_rating "score" j in
    let? a3 := field_opt (dec_text severity_of_text) keys_vuln_rating "severity" j in
    let? a4 := field_opt (dec_text score_method_of_text) keys_vuln_rating "method" j in
    let? a5 := field_opt dec_str keys_vuln_rating "vector" j in
    let? a6 := field_opt dec_str keys_vuln_rating "justification" j in
    Some (mkRating a1 a2 a3 a4 a5 a6)
  else None.

(** specs/common/advisory.rs:81-105 *)
Definition keys_advisory : list string := ["title"; "url"].
Definition to_json_advisory (x : advisory) : json := obj [
  ("title", opt JStr (ad_title x));
  ("url", Some (JStr (ad_url x)))].
Definition of_json_advisory (j : json) : option advisory :=
  if struct_ok keys_advisory j then
    let? a1 := field_opt dec_str keys_advisory "title" j in
    let? a2 := field dec_str keys_advisory "url" j in
    Some (mkAdvisory a1 a2)
  else None.

(** specs/common/vulnerability_credits.rs:33-58 *)
Definition keys_vuln_credits : list string := ["organizations"; "individuals"].
Definition to_json_vuln_credits (x : vuln_credits) : json := obj [
  ("organizations", opt (arr to_json_entity) (vc_organizations x));
  ("individuals", opt (arr to_json_contact) (vc_individuals x))].
Definition of_json_vuln_credits (j : json) : option vuln_credits :=
  if struct_ok keys_vuln_credits j then
    let? a1 := field_opt (dec_list of_json_entity) keys_vuln_credits "organizations" j in
    let? a2 := field_opt (dec_list of_json_contact) keys_vuln_credits "individuals" j in
    Some (mkCredits a1 a2)
  else None.

(** specs/common/vulnerability_analysis.rs:39-92, 240-288 *)
Definition keys_vuln_analysis (v : spec_version) : list string := sel [(true, "state"); (true,
  "justification"); (true, "responses"); (true, "detail"); ((since V1_5 v), "firstIssued"); ((since
  V1_5 v), "lastUpdated")].
Definition to_json_vuln_analysis (v : spec_version) (x : vuln_analysis) : json := obj [
  ("state", opt (jtext text_analysis_state) (va_state x));
  ("justification", opt (jtext text_analysis_justification) (va_justification x));
  ("responses", opt (arr (jtext text_analysis_response)) (va_responses x));
  ("detail", opt JStr (va_detail x));
  ("firstIssued", when (since V1_5 v) (opt JStr (va_first_issued x)));
  ("lastUpdated", when (since V1_5 v) (opt JStr (va_last_updated x)))].
Definition of_json_vuln_analysis (v : spec_version) (j : json) : option vuln_analysis :=
  if struct_ok (keys_vuln_analysis v) j then
    let? a1 := field_opt (dec_text analysis_state_of_text) (keys_vuln_analysis v) "state" j in
    let? a2 := field_opt (dec_text analysis_justification_of_text) (keys_vuln_analysis v) "justification" j in
    let? a3 := field_opt (dec_list (dec_text analysis_response_of_text)) (keys_vuln_analysis v) "responses" j in
    let? a4 := field_opt dec_str (keys_vuln_analysis v) "detail" j in
    let? a5 := field_when (since V1_5 v) (field_opt dec_str (keys_vuln_analysis v) "firstIssued" j) in
    let? a6 := field_when (since V1_5 v) (field_opt dec_str (keys_vuln_analysis v) "lastUpdated" j) in
    Some (mkAnalysis a1 a2 a3 a4 a5 a6)
  else None.

(** specs/common/vulnerability_target.rs:239-265, 343-370, 412-436: the range is
    flattened into the object *)
Definition keys_version_status : list string := ["status"].
Definition version_range_member (x : version_range) : string * option json :=
  match x with
  | VRVersion s => ("version", Some (JStr s))
  | VRRange s => ("range", Some (JStr s))
  | VRUndefined s => ("undefinedVersionRange", Some (JStr s))
  end.
Definition of_json_version_range (j : json) : option version_range :=
  let? (k, x) := first_of ["version"; "range"; "undefinedVersionRange"] j in
  let? s := dec_str x in
  Some (if String.eqb k "version" then VRVersion s
        else if String.eqb k "range" then VRRange s else VRUndefined s).
Definition to_json_version_status (x : version_status) : json := obj [
  version_range_member (ve_range x);
  ("status", Some (jtext text_status (ve_status x)))].
Definition of_json_version_status (j : json) : option version_status :=
  if object_ok keys_version_status j then
    let? a1 := of_json_version_range j in
    let? a2 := field (dec_text status_of_text) keys_version_status "status" j in
    Some (mkVersion a1 a2)
  else None.

(** specs/common/vulnerability_target.rs:82-107 *)
Definition keys_vuln_target : list string := ["ref"; "versions"].
Definition to_json_vuln_target (x : vuln_target) : json := obj [
  ("ref", Some (JStr (vt_bom_ref x)));
  ("versions", opt (arr to_json_version_status) (vt_versions x))].
Definition of_json_vuln_target (j : json) : option vuln_target :=
  if struct_ok keys_vuln_target j then
    let? a1 := field dec_str keys_vuln_target "ref" j in
    let? a2 := field_opt (dec_list of_json_version_status) keys_vuln_target "versions" j in
    Some (mkTarget a1 a2)
  else None.

(** specs/v1_5/proof_of_concept.rs:33-62 *)
Definition keys_proof_of_concept : list string := ["reproductionSteps"; "environment";
  "supportingMaterial"].
Definition to_json_proof_of_concept (x : proof_of_concept) : json := obj [
  ("reproductionSteps", opt JStr (poc_reproduction_steps x));
  ("environment", opt JStr (poc_environment x));
  ("supportingMaterial", opt (arr to_json_attachment) (poc_supporting_material x))].
Definition of_json_proof_of_concept (j : json) : option proof_of_concept :=
  if struct_ok keys_proof_of_concept j then
    let? a1 := field_opt dec_str keys_proof_of_concept "reproductionSteps" j in
    let? a2 := field_opt dec_str keys_proof_of_concept "environment" j in
    let? a3 := field_opt (dec_list of_json_attachment) keys_proof_of_concept "supportingMaterial" j in
    Some (mkPoc a1 a2 a3)
  else None.

(** specs/common/vulnerability.rs:107-227 (1.4 and 1.5 only) *)
Definition keys_vulnerability (v : spec_version) : list string := sel [(true, "bom-ref"); (true,
  "id"); (true, "source"); (true, "references"); (true, "ratings"); (true, "cwes"); (true,
  "description"); (true, "detail"); (true, "recommendation"); ((since V1_5 v), "workaround");
  ((since V1_5 v), "proofOfConcept"); (true, "advisories"); (true, "created"); (true, "published");
  (true, "updated"); ((since V1_5 v), "rejected"); (true, "credits"); (true, "tools"); (true,
  "analysis"); (true, "affects"); (true, "properties")].
Definition to_json_vulnerability (v : spec_version) (x : vulnerability) : json := obj [
  ("bom-ref", opt JStr (v_bom_ref x));
  ("id", opt JStr (v_id x));
  ("source", opt to_json_vuln_source (v_source x));
  ("references", opt (arr to_json_vuln_reference) (v_references x));
  ("ratings", opt (arr to_json_vuln_rating) (v_ratings x));
  ("cwes", opt (arr to_json_u32) (v_cwes x));
  ("description", opt JStr (v_description x));
  ("detail", opt JStr (v_detail x));
  ("recommendation", opt JStr (v_recommendation x));
  ("workaround", when (since V1_5 v) (opt JStr (v_workaround x)));
  ("proofOfConcept", when (since V1_5 v) (opt to_json_proof_of_concept (v_proof_of_concept x)));
  ("advisories", opt (arr to_json_advisory) (v_advisories x));
  ("created", opt JStr (v_created x));
  ("published", opt JStr (v_published x));
  ("updated", opt JStr (v_updated x));
  ("rejected", when (since V1_5 v) (opt JStr (v_rejected x)));
  ("credits", opt to_json_vuln_credits (v_credits x));
  ("tools", opt (to_json_tools v) (v_tools x));
  ("analysis", opt (to_json_vuln_analysis v) (v_analysis x));
  ("affects", opt (arr to_json_vuln_target) (v_targets x));
  ("properties", opt (arr to_json_property) (v_properties x))].
Definition of_json_vulnerability (v : spec_version) (j : json) : option vulnerability :=
  if struct_ok (keys_vulnerability v) j then
    let? a1 := field_opt dec_str (keys_vulnerability v) "bom-ref" j in
    let? a2 := field_opt dec_str (keys_vulnerability v) "id" j in
    let? a3 := field_opt of_json_vuln_source (keys_vulnerability v) "source" j in
    let? a4 := field_opt (dec_list of_json_vuln_reference) (keys_vulnerability v) "references" j in
    let? a5 := field_opt (dec_list of_json_vuln_rating) (keys_vulnerability v) "ratings" j in
    let? a6 := field_opt (dec_list dec_u32) (keys_vulnerability v) "cwes" j in
    let? a7 := field_opt dec_str (keys_vulnerability v) "description" j in
    let? a8 := field_opt dec_str (keys_vulnerability v) "detail" j in
    let? a9 := field_opt dec_str (keys_vulnerability v) "recommendation" j in
    let? a10 := field_when (since V1_5 v) (field_opt dec_str (keys_vulnerability v) "workaround" j) in
    let? a11 := field_when (since V1_5 v) (field_opt of_json_proof_of_concept (keys_vulnerability v) "proofOfConcept" j) in
    let? a12 := field_opt (dec_list of_json_advisory) (keys_vulnerability v) "advisories" j in
    let? a13 := field_opt dec_str (keys_vulnerability v) "created" j in
    let? a14 := field_opt dec_str (keys_vulnerability v) "published" j in
    let? a15 := field_opt dec_str (keys_vulnerability v) "updated" j in
    let? a16 := field_when (since V1_5 v) (field_opt dec_str (keys_vulnerability v) "rejected" j) in
    let? a17 := field_opt of_json_vuln_credits (keys_vulnerability v) "credits" j in
    let? a18 := field_opt (of_json_tools v) (keys_vulnerability v) "tools" j in
    let? a19 := field_opt (of_json_vuln_analysis v) (keys_vulnerability v) "analysis" j in
    let? a20 := field_opt (dec_list of_json_vuln_target) (keys_vulnerability v) "affects" j in
    let? a21 := field_opt (dec_list of_json_property) (keys_vulnerability v) "properties" j in
    Some (mkVulnerability a1 a2 a3 a4 a5 a6 a7 a8 a9 a10 a11 a12 a13 a14 a15 a16 a17 a18 a19 a20
      a21)
  else None.

(** specs/v1_5/formulation/workflow/resource_reference.rs:77-115: untagged struct variants *)
Definition to_json_resource_reference (x : resource_reference) : json :=
  match x with
  | RRRef s => obj [("ref", Some (JStr s))]
  | RRExternal e => obj [("externalReference", Some (to_json_external_reference e))]
  end.
Definition of_json_resource_reference (j : json) : option resource_reference :=
  orelse
    (if object_ok ["ref"] j then let? s := field dec_str ["ref"] "ref" j in Some (RRRef s) else None)
    (if object_ok ["externalReference"] j then
       let? e := field of_json_external_reference ["externalReference"] "externalReference" j in
       Some (RRExternal e)
     else None).

(** specs/v1_5/formulation/workflow/mod.rs:521-545: untagged *)
Definition to_json_environment_var (x : environment_var) : json :=
  match x with
  | EVProperty n s => obj [("name", Some (JStr n)); ("value", Some (JStr s))]
  | EVValue s => JStr s
  end.
Definition of_json_environment_var (j : json) : option environment_var :=
  orelse
    (if object_ok ["name"; "value"] j then
       let? n := field dec_str ["name"; "value"] "name" j in
       let? s := field dec_str ["name"; "value"] "value" j in
       Some (EVProperty n s)
     else None)
    (let? s := dec_str j in Some (EVValue s)).

(** specs/v1_5/formulation/workflow/input.rs:237-266 *)
Definition keys_parameter : list string := ["name"; "value"; "dataType"].
Definition to_json_parameter (x : parameter) : json := obj [
  ("name", opt JStr (pr_name x));
  ("value", opt JStr (pr_value x));
  ("dataType", opt JStr (pr_data_type x))].
Definition of_json_parameter (j : json) : option parameter :=
  if struct_ok keys_parameter j then
    let? a1 := field_opt dec_str keys_parameter "name" j in
    let? a2 := field_opt dec_str keys_parameter "value" j in
    let? a3 := field_opt dec_str keys_parameter "dataType" j in
    Some (mkParameter a1 a2 a3)
  else None.

(** specs/v1_5/formulation/workflow/input.rs:17-91, 228-235: the required field is an
    untagged enum of one-field structs, flattened into the object *)
Definition required_input_member (x : required_input) : string * option json :=
  match x with
  | RIResource r => ("resource", Some (to_json_resource_reference r))
  | RIParameters l => ("parameters", Some (arr to_json_parameter l))
  | RIEnvironmentVars l => ("environmentVars", Some (arr to_json_environment_var l))
  | RIData a => ("data", Some (to_json_attachment a))
  end.
Definition variant {A B} (k : string) (f : json -> option A) (c : A -> B) (j : json) : option B :=
  if object_ok [k] j then let? a := field f [k] k j in Some (c a) else None.
Definition of_json_required_input (j : json) : option required_input :=
  orelse (variant "resource" of_json_resource_reference RIResource j)
  (orelse (variant "parameters" (dec_list of_json_parameter) RIParameters j)
  (orelse (variant "environmentVars" (dec_list of_json_environment_var) RIEnvironmentVars j)
          (variant "data" of_json_attachment RIData j))).
Definition keys_input : list string := ["source"; "target"; "properties"].
Definition to_json_input (x : input) : json := obj [
  required_input_member (in_required x);
  ("source", opt to_json_resource_reference (in_source x));
  ("target", opt to_json_resource_reference (in_target x));
  ("properties", opt (arr to_json_property) (in_properties x))].
Definition of_json_input (j : json) : option input :=
  if object_ok keys_input j then
    let? a1 := of_json_required_input j in
    let? a2 := field_opt of_json_resource_reference keys_input "source" j in
    let? a3 := field_opt of_json_resource_reference keys_input "target" j in
    let? a4 := field_opt (dec_list of_json_property) keys_input "properties" j in
    Some (mkInput a1 a2 a3 a4)
  else None.

(** specs/v1_5/formulation/workflow/output.rs:16-85, 225-231 *)
Definition required_output_member (x : required_output) : string * option json :=
  match x with
  | ROResource r => ("resource", Some (to_json_resource_reference r))
  | ROEnvironmentVars l => ("environmentVars", Some (arr to_json_environment_var l))
  | ROData a => ("data", Some (to_json_attachment a))
  end.
Definition of_json_required_output (j : json) : option required_output :=
  orelse (variant "resource" of_json_resource_reference ROResource j)
  (orelse (variant "environmentVars" (dec_list of_json_environment_var) ROEnvironmentVars j)
          (variant "data" of_json_attachment ROData j)).
Definition keys_output : list string := ["type"; "source"; "target"; "properties"].
Definition to_json_output (x : output) : json := obj [
  required_output_member (ou_required x);
  ("type", opt (jtext text_output_type) (ou_type x));
  ("source", opt to_json_resource_reference (ou_source x));
  ("target", opt to_json_resource_reference (ou_target x));
  ("properties", opt (arr to_json_property) (ou_properties x))].
Definition of_json_output (j : json) : option output :=
  if object_ok keys_output j then
    let? a1 := of_json_required_output j in
    let? a2 := field_opt (dec_text output_type_of_text) keys_output "type" j in
    let? a3 := field_opt of_json_resource_reference keys_output "source" j in
    let? a4 := field_opt of_json_resource_reference keys_output "target" j in
    let? a5 := field_opt (dec_list of_json_property) keys_output "properties" j in
    Some (mkOutput a1 a2 a3 a4 a5)
  else None.

(** specs/v1_5/formulation/workflow/step.rs:132-156 *)
Definition keys_command : list string := ["executed"; "properties"].
Definition to_json_command (x : command) : json := obj [
  ("executed", opt JStr (cmd_executed x));
  ("properties", opt (arr to_json_property) (cmd_properties x))].
Definition of_json_command (j : json) : option command :=
  if struct_ok keys_command j then
    let? a1 := field_opt dec_str keys_command "executed" j in
    let? a2 := field_opt (dec_list of_json_property) keys_command "properties" j in
    Some (mkCommand a1 a2)
  else None.

(** specs/v1_5/formulation/workflow/step.rs:15-48 *)
Definition keys_step : list string := ["commands"; "description"; "name"; "properties"].
Definition to_json_step (x : step) : json := obj [
  ("commands", opt (arr to_json_command) (st_commands x));
  ("description", opt JStr (st_description x));
  ("name", opt JStr (st_name x));
  ("properties", opt (arr to_json_property) (st_properties x))].
Definition of_json_step (j : json) : option step :=
  if struct_ok keys_step j then
    let? a1 := field_opt (dec_list of_json_command) keys_step "commands" j in
    let? a2 := field_opt dec_str keys_step "description" j in
    let? a3 := field_opt dec_str keys_step "name" j in
    let? a4 := field_opt (dec_list of_json_property) keys_step "properties" j in
    Some (mkStep a1 a2 a3 a4)
  else None.

(** specs/v1_5/formulation/workflow/workspace/volume.rs:10-62 (no camelCase renaming
    here); the mode is always written and defaults when absent *)
Definition keys_volume : list string :=
  ["uid"; "name"; "mode"; "path"; "size_allocated"; "persistent"; "remote"; "properties"].
Definition to_json_volume (x : volume) : json := obj [
  ("uid", opt JStr (vo_uid x));
  ("name", opt JStr (vo_name x));
  ("mode", opt (jtext text_volume_mode) (Some (vo_mode x)));
  ("path", opt JStr (vo_path x));
  ("size_allocated", opt JStr (vo_size_allocated x));
  ("persistent", opt JBool (vo_persistent x));
  ("remote", opt JBool (vo_remote x));
  ("properties", opt (arr to_json_property) (vo_properties x))].
Definition of_json_volume (j : json) : option volume :=
  if struct_ok keys_volume j then
    let? a1 := field_opt dec_str keys_volume "uid" j in
    let? a2 := field_opt dec_str keys_volume "name" j in
    let? a3 := field_opt (dec_text volume_mode_of_text) keys_volume "mode" j in
    let? a4 := field_opt dec_str keys_volume "path" j in
    let? a5 := field_opt dec_str keys_volume "size_allocated" j in
    let? a6 := field_opt dec_bool keys_volume "persistent" j in
    let? a7 := field_opt dec_bool keys_volume "remote" j in
    let? a8 := field_opt (dec_list of_json_property) keys_volume "properties" j in
    Some (mkVolume a1 a2 (match a3 with Some m => m | None => VMFilesystem end) a4 a5 a6 a7 a8)
  else None.

(** specs/v1_5/formulation/workflow/workspace/mod.rs:21-93 *)
Definition keys_workspace : list string := ["bom-ref"; "uid"; "name"; "aliases"; "description";
  "resourceReferences"; "accessMode"; "mountPath"; "managedDataType"; "volumeRequest"; "volume";
  "properties"].
Definition to_json_workspace (x : workspace) : json := obj [
  ("bom-ref", Some (JStr (ws_bom_ref x)));
  ("uid", Some (JStr (ws_uid x)));
  ("name", opt JStr (ws_name x));
  ("aliases", opt (arr JStr) (ws_aliases x));
  ("description", opt JStr (ws_description x));
  ("resourceReferences", opt (arr to_json_resource_reference) (ws_resource_references x));
  ("accessMode", opt (jtext text_access_mode) (ws_access_mode x));
  ("mountPath", opt JStr (ws_mount_path x));
  ("managedDataType", opt JStr (ws_managed_data_type x));
  ("volumeRequest", opt JStr (ws_volume_request x));
  ("volume", opt to_json_volume (ws_volume x));
  ("properties", opt (arr to_json_property) (ws_properties x))].
Definition of_json_workspace (j : json) : option workspace :=
  if struct_ok keys_workspace j then
    let? a1 := field dec_str keys_workspace "bom-ref" j in
    let? a2 := field dec_str keys_workspace "uid" j in
    let? a3 := field_opt dec_str keys_workspace "name" j in
    let? a4 := field_opt (dec_list dec_str) keys_workspace "aliases" j in
    let? a5 := field_opt dec_str keys_workspace "description" j in
    let? a6 := field_opt (dec_list of_json_resource_reference) keys_workspace "resourceReferences" j in
    let? a7 := field_opt (dec_text access_mode_of_text) keys_workspace "accessMode" j in
    let? a8 := field_opt dec_str keys_workspace "mountPath" j in
    let? a9 := field_opt dec_str keys_workspace "managedDataType" j in
    let? a10 := field_opt dec_str keys_workspace "volumeRequest" j in
    let? a11 := field_opt of_json_volume keys_workspace "volume" j in
    let? a12 := field_opt (dec_list of_json_property) keys_workspace "properties" j in
    Some (mkWorkspace a1 a2 a3 a4 a5 a6 a7 a8 a9 a10 a11 a12)
  else None.

(** specs/v1_5/formulation/workflow/trigger.rs:394-423 *)
Definition keys_condition : list string := ["description"; "expression"; "properties"].
Definition to_json_condition (x : condition) : json := obj [
  ("description", opt JStr (cn_description x));
  ("expression", opt JStr (cn_expression x));
  ("properties", opt (arr to_json_property) (cn_properties x))].
Definition of_json_condition (j : json) : option condition :=
  if struct_ok keys_condition j then
    let? a1 := field_opt dec_str keys_condition "description" j in
    let? a2 := field_opt dec_str keys_condition "expression" j in
    let? a3 := field_opt (dec_list of_json_property) keys_condition "properties" j in
    Some (mkCondition a1 a2 a3)
  else None.

(** specs/v1_5/formulation/workflow/trigger.rs:236-282 *)
Definition keys_event : list string := ["uid"; "description"; "timeReceived"; "data"; "source";
  "target"; "properties"].
Definition to_json_event (x : event) : json := obj [
  ("uid", opt JStr (e_uid x));
  ("description", opt JStr (e_description x));
  ("timeReceived", opt JStr (e_time_received x));
  ("data", opt to_json_attachment (e_data x));
  ("source", opt to_json_resource_reference (e_source x));
  ("target", opt to_json_resource_reference (e_target x));
  ("properties", opt (arr to_json_property) (e_properties x))].
Definition of_json_event (j : json) : option event :=
  if struct_ok keys_event j then
    let? a1 := field_opt dec_str keys_event "uid" j in
    let? a2 := field_opt dec_str keys_event "description" j in
    let? a3 := field_opt dec_str keys_event "timeReceived" j in
    let? a4 := field_opt of_json_attachment keys_event "data" j in
    let? a5 := field_opt of_json_resource_reference keys_event "source" j in
    let? a6 := field_opt of_json_resource_reference keys_event "target" j in
    let? a7 := field_opt (dec_list of_json_property) keys_event "properties" j in
    Some (mkEvent a1 a2 a3 a4 a5 a6 a7)
  else None.

(** specs/v1_5/formulation/workflow/trigger.rs:23-88 *)
Definition keys_trigger : list string := ["bom-ref"; "uid"; "name"; "description";
  "resourceReferences"; "type"; "event"; "conditions"; "timeActivated"; "inputs"; "outputs";
  "properties"].
Definition to_json_trigger (x : trigger) : json := obj [
  ("bom-ref", Some (JStr (tr_bom_ref x)));
  ("uid", Some (JStr (tr_uid x)));
  ("name", opt JStr (tr_name x));
  ("description", opt JStr (tr_description x));
  ("resourceReferences", opt (arr to_json_resource_reference) (tr_resource_references x));
  ("type", Some ((jtext text_trigger_type) (tr_type x)));
  ("event", opt to_json_event (tr_event x));
  ("conditions", opt (arr to_json_condition) (tr_conditions x));
  ("timeActivated", opt JStr (tr_time_activated x));
  ("inputs", opt (arr to_json_input) (tr_inputs x));
  ("outputs", opt (arr to_json_output) (tr_outputs x));
  ("properties", opt (arr to_json_property) (tr_properties x))].
Definition of_json_trigger (j : json) : option trigger :=
  if struct_ok keys_trigger j then
    let? a1 := field dec_str keys_trigger "bom-ref" j in
    let? a2 := field dec_str keys_trigger "uid" j in
    let? a3 := field_opt dec_str keys_trigger "name" j in
    let? a4 := field_opt dec_str keys_trigger "description" j in
    let? a5 := field_opt (dec_list of_json_resource_reference) keys_trigger "resourceReferences" j in
    let? a6 := field (dec_text trigger_type_of_text) keys_trigger "type" j in
    let? a7 := field_opt of_json_event keys_trigger "event" j in
    let? a8 := field_opt (dec_list of_json_condition) keys_trigger "conditions" j in
    let? a9 := field_opt dec_str keys_trigger "timeActivated" j in
    let? a10 := field_opt (dec_list of_json_input) keys_trigger "inputs" j in
    let? a11 := field_opt (dec_list of_json_output) keys_trigger "outputs" j in
    let? a12 := field_opt (dec_list of_json_property) keys_trigger "properties" j in
    Some (mkTrigger a1 a2 a3 a4 a5 a6 a7 a8 a9 a10 a11 a12)
  else None.

(** specs/v1_5/formulation/workflow/mod.rs:281-367 *)
Definition keys_task : list string := ["bom-ref"; "uid"; "name"; "description";
  "resourceReferences"; "taskTypes"; "trigger"; "steps"; "inputs"; "outputs"; "timeStart";
  "timeEnd"; "workspaces"; "runtimeTopology"; "properties"].
Definition to_json_task (x : task) : json := obj [
  ("bom-ref", Some (JStr (tk_bom_ref x)));
  ("uid", Some (JStr (tk_uid x)));
  ("name", opt JStr (tk_name x));
  ("description", opt JStr (tk_description x));
  ("resourceReferences", opt (arr to_json_resource_reference) (tk_resource_references x));
  ("taskTypes", Some ((arr (jtext text_task_type)) (tk_task_types x)));
  ("trigger", opt to_json_trigger (tk_trigger x));
  ("steps", opt (arr to_json_step) (tk_steps x));
  ("inputs", opt (arr to_json_input) (tk_inputs x));
  ("outputs", opt (arr to_json_output) (tk_outputs x));
  ("timeStart", opt JStr (tk_time_start x));
  ("timeEnd", opt JStr (tk_time_end x));
  ("workspaces", opt (arr to_json_workspace) (tk_workspaces x));
  ("runtimeTopology", opt (arr to_json_dependency) (tk_runtime_topology x));
  ("properties", opt (arr to_json_property) (tk_properties x))].
Definition of_json_task (j : json) : option task :=
  if struct_ok keys_task j then
    let? a1 := field dec_str keys_task "bom-ref" j in
    let? a2 := field dec_str keys_task "uid" j in
    let? a3 := field_opt dec_str keys_task "name" j in
    let? a4 := field_opt dec_str keys_task "description" j in
    let? a5 := field_opt (dec_list of_json_resource_reference) keys_task "resourceReferences" j in
    let? a6 := field (dec_list (dec_text task_type_of_text)) keys_task "taskTypes" j in
    let? a7 := field_opt of_json_trigger keys_task "trigger" j in
    let? a8 := field_opt (dec_list of_json_step) keys_task "steps" j in
    let? a9 := field_opt (dec_list of_json_input) keys_task "inputs" j in
    let? a10 := field_opt (dec_list of_json_output) keys_task "outputs" j in
    let? a11 := field_opt dec_str keys_task "timeStart" j in
    let? a12 := field_opt dec_str keys_task "timeEnd" j in
    let? a13 := field_opt (dec_list of_json_workspace) keys_task "workspaces" j in
    let? a14 := field_opt (dec_list of_json_dependency) keys_task "runtimeTopology" j in
    let? a15 := field_opt (dec_list of_json_property) keys_task "properties" j in
    Some (mkTask a1 a2 a3 a4 a5 a6 a7 a8 a9 a10 a11 a12 a13 a14 a15)
  else None.

(** specs/v1_5/formulation/workflow/mod.rs:32-126 *)
Definition keys_workflow : list string := ["bom-ref"; "uid"; "name"; "description";
  "resourceReferences"; "tasks"; "taskDependencies"; "taskTypes"; "trigger"; "steps"; "inputs";
  "outputs"; "timeStart"; "timeEnd"; "workspaces"; "runtimeTopology"; "properties"].
Definition to_json_workflow (x : workflow) : json := obj [
  ("bom-ref", Some (JStr (wf_bom_ref x)));
  ("uid", Some (JStr (wf_uid x)));
  ("name", opt JStr (wf_name x));
  ("description", opt JStr (wf_description x));
  ("resourceReferences", opt (arr to_json_resource_reference) (wf_resource_references x));
  ("tasks", opt (arr to_json_task) (wf_tasks x));
  ("taskDependencies", opt (arr to_json_dependency) (wf_task_dependencies x));
  ("taskTypes", Some ((arr (jtext text_task_type)) (wf_task_types x)));
  ("trigger", opt to_json_trigger (wf_trigger x));
  ("steps", opt (arr to_json_step) (wf_steps x));
  ("inputs", opt (arr to_json_input) (wf_inputs x));
  ("outputs", opt (arr to_json_output) (wf_outputs x));
  ("timeStart", opt JStr (wf_time_start x));
  ("timeEnd", opt JStr (wf_time_end x));
  ("workspaces", opt (arr to_json_workspace) (wf_workspaces x));
  ("runtimeTopology", opt (arr to_json_dependency) (wf_runtime_topology x));
  ("properties", opt (arr to_json_property) (wf_properties x))].
Definition of_json_workflow (j : json) : option workflow :=
  if struct_ok keys_workflow j then
    let? a1 := field dec_str keys_workflow "bom-ref" j in
    let? a2 := field dec_str keys_workflow "uid" j in
    let? a3 := field_opt dec_str keys_workflow "name" j in
    let? a4 := field_opt dec_str keys_workflow "description" j in
    let? a5 := field_opt (dec_list of_json_resource_reference) keys_workflow "resourceReferences" j in
    let? a6 := field_opt (dec_list of_json_task) keys_workflow "tasks" j in
    let? a7 := field_opt (dec_list of_json_dependency) keys_workflow "taskDependencies" j in
    let? a8 := field (dec_list (dec_text task_type_of_text)) keys_workflow "taskTypes" j in
    let? a9 := field_opt of_json_trigger keys_workflow "trigger" j in
    let? a10 := field_opt (dec_list of_json_step) keys_workflow "steps" j in
    let? a11 := field_opt (dec_list of_json_input) keys_workflow "inputs" j in
    let? a12 := field_opt (dec_list of_json_output) keys_workflow "outputs" j in
    let? a13 := field_opt dec_str keys_workflow "timeStart" j in
    let? a14 := field_opt dec_str keys_workflow "timeEnd" j in
    let? a15 := field_opt (dec_list of_json_workspace) keys_workflow "workspaces" j in
    let? a16 := field_opt (dec_list of_json_dependency) keys_workflow "runtimeTopology" j in
    let? a17 := field_opt (dec_list of_json_property) keys_workflow "properties" j in
    Some (mkWorkflow a1 a2 a3 a4 a5 a6 a7 a8 a9 a10 a11 a12 a13 a14 a15 a16 a17)
  else None.

(** specs/v1_5/formulation/mod.rs:24-63 *)
Definition keys_formula : list string := ["bom-ref"; "components"; "services"; "workflows";
  "properties"].
Definition to_json_formula (v : spec_version) (x : formula) : json := obj [
  ("bom-ref", opt JStr (fo_bom_ref x));
  ("components", opt (arr (to_json_component v)) (fo_components x));
  ("services", opt (arr (to_json_service v)) (fo_services x));
  ("workflows", opt (arr to_json_workflow) (fo_workflows x));
  ("properties", opt (arr to_json_property) (fo_properties x))].
Definition of_json_formula (v : spec_version) (j : json) : option formula :=
  if struct_ok keys_formula j then
    let? a1 := field_opt dec_str keys_formula "bom-ref" j in
    let? a2 := field_opt (dec_list (of_json_component v)) keys_formula "components" j in
    let? a3 := field_opt (dec_list (of_json_service v)) keys_formula "services" j in
    let? a4 := field_opt (dec_list of_json_workflow) keys_formula "workflows" j in
    let? a5 := field_opt (dec_list of_json_property) keys_formula "properties" j in
    Some (mkFormula a1 a2 a3 a4 a5)
  else None.

(** models/bom.rs:48-61 and 70-81: the derived names of the versions, and [FromStr] *)
Definition version_text (v : spec_version) : string :=
  match v with V1_3 => "1.3" | V1_4 => "1.4" | V1_5 => "1.5" end.
Definition version_of_text (s : string) : option spec_version :=
  if String.eqb s "1.3" then Some V1_3
  else if String.eqb s "1.4" then Some V1_4
  else if String.eqb s "1.5" then Some V1_5
  else None.
(** a derived enum of unit variants: a string, or an object holding [null] *)
Definition dec_unit_variant {A} (f : string -> option A) (j : json) : option A :=
  match j with
  | JStr s => f s
  | JObj [(k, JNull)] => f k
  | _ => None
  end.

(** specs/common/bom.rs:79-114, 487-508 *)
Definition keys_bom (v : spec_version) : list string :=
  ["bomFormat"; "specVersion"; "version"; "serialNumber"; "metadata"; "components"; "services";
   "externalReferences"; "dependencies"; "compositions"] ++
  sel [((since V1_4 v), "vulnerabilities"); ((since V1_4 v), "signature");
       ((since V1_5 v), "annotations"); ((since V1_5 v), "properties");
       ((since V1_5 v), "formulation")].
Definition to_json_bom (v : spec_version) (x : bom) : json := obj [
  ("bomFormat", Some (JStr "CycloneDX"));
  ("specVersion", Some (JStr (version_text v)));
  ("version", Some (to_json_u32 (b_version x)));
  ("serialNumber", opt JStr (b_serial_number x));
  ("metadata", opt (to_json_metadata v) (b_metadata x));
  ("components", opt (arr (to_json_component v)) (b_components x));
  ("services", opt (arr (to_json_service v)) (b_services x));
  ("externalReferences", opt (arr to_json_external_reference) (b_external_references x));
  ("dependencies", opt (arr to_json_dependency) (b_dependencies x));
  ("compositions", opt (arr (to_json_composition v)) (b_compositions x));
  ("vulnerabilities", when (since V1_4 v) (opt (arr (to_json_vulnerability v)) (b_vulnerabilities x)));
  ("signature", when (since V1_4 v) (opt to_json_signature (b_signature x)));
  ("annotations", when (since V1_5 v) (opt (arr (to_json_annotation v)) (b_annotations x)));
  ("properties", when (since V1_5 v) (opt (arr to_json_property) (b_properties x)));
  ("formulation", when (since V1_5 v) (opt (arr (to_json_formula v)) (b_formulation x)))].
Definition of_json_bom (v : spec_version) (j : json) : option bom :=
  if struct_ok (keys_bom v) j then
    let? _ := field (dec_unit_variant (fun s => if String.eqb s "CycloneDX" then Some tt else None))
                (keys_bom v) "bomFormat" j in
    let? a0 := field (dec_unit_variant version_of_text) (keys_bom v) "specVersion" j in
    let? a1 := field dec_u32 (keys_bom v) "version" j in
    let? a2 := field_opt dec_str (keys_bom v) "serialNumber" j in
    let? a3 := field_opt (of_json_metadata v) (keys_bom v) "metadata" j in
    let? a4 := field_opt (dec_list (of_json_component v)) (keys_bom v) "components" j in
    let? a5 := field_opt (dec_list (of_json_service v)) (keys_bom v) "services" j in
    let? a6 := field_opt (dec_list of_json_external_reference) (keys_bom v) "externalReferences" j in
    let? a7 := field_opt (dec_list of_json_dependency) (keys_bom v) "dependencies" j in
    let? a8 := field_opt (dec_list (of_json_composition v)) (keys_bom v) "compositions" j in
    let? a9 := field_when (since V1_4 v)
                 (field_opt (dec_list (of_json_vulnerability v)) (keys_bom v) "vulnerabilities" j) in
    let? a10 := field_when (since V1_4 v)
                  (field_opt of_json_signature (keys_bom v) "signature" j) in
    let? a11 := field_when (since V1_5 v)
                  (field_opt (dec_list (of_json_annotation v)) (keys_bom v) "annotations" j) in
    let? a12 := field_when (since V1_5 v)
                  (field_opt (dec_list of_json_property) (keys_bom v) "properties" j) in
    let? a13 := field_when (since V1_5 v)
                  (field_opt (dec_list (of_json_formula v)) (keys_bom v) "formulation" j) in
    Some (mkBom a1 a2 a3 a4 a5 a6 a7 a8 a12 a9 a10 a11 a13 a0)
  else None.

(** ** Conversions that can fail *)

(** specs/common/component.rs:188-233 ([TryFrom<Component>]): 1.3 requires a version;
    the components inside (1099-1112 for the pedigree) are converted too.  The
    conversions of everything else a component holds always succeed. *)
Definition missing_version : string := 
  "Failed to convert Bom: Failed to serialize BOM with version V1_3: version missing".
Definition check_list {A} (f : A -> outcome unit) (l : list A) : outcome unit :=
  (fix go (l : list A) : outcome unit :=
     match l with [] => Done tt | x :: l' => do _ <- f x; go l' end) l.
Definition check_opt {A} (f : A -> outcome unit) (o : option A) : outcome unit :=
  match o with Some x => f x | None => Done tt end.
Definition check_pedigree (f : component -> outcome unit) (p : pedigree) : outcome unit :=
  do _ <- check_opt (check_list f) (pd_ancestors p);
  do _ <- check_opt (check_list f) (pd_descendants p);
  check_opt (check_list f) (pd_variants p).
Fixpoint check_component (v : spec_version) (c : component) : outcome unit :=
  do _ <- (if since V1_4 v then Done tt
           else match c_version c with Some _ => Done tt | None => Fail missing_version end);
  do _ <- check_opt (check_pedigree (check_component v)) (c_pedigree c);
  check_opt (check_list (check_component v)) (c_components c).
(** specs/common/tool.rs:59-77: before 1.5 the components of the object form are dropped *)
Definition check_tools (v : spec_version) (t : tools) : outcome unit :=
  match t with
  | TList _ => Done tt
  | TObject _ c => if since V1_5 v then check_opt (check_list (check_component v)) c else Done tt
  end.
(** specs/common/metadata.rs:75-92 *)
Definition check_metadata (v : spec_version) (m : metadata) : outcome unit :=
  do _ <- check_opt (check_tools v) (m_tools m);
  check_opt (check_component v) (m_component m).
(** specs/common/vulnerability.rs:157-188 *)
Definition check_vulnerability (v : spec_version) (x : vulnerability) : outcome unit :=
  check_opt (check_tools v) (v_tools x).
(** specs/v1_5/annotation.rs:132-145, 170-185 *)
Definition check_annotation (v : spec_version) (a : annotation) : outcome unit :=
  match an_annotator a with AnComponent c => check_component v c | _ => Done tt end.
(** specs/v1_5/formulation/mod.rs:39-51 *)
Definition check_formula (v : spec_version) (f : formula) : outcome unit :=
  check_opt (check_list (check_component v)) (fo_components f).
(** specs/common/bom.rs:116-151 ([TryFrom<Bom>]) *)
Definition check_bom (v : spec_version) (b : bom) : outcome unit :=
  do _ <- check_opt (check_metadata v) (b_metadata b);
  do _ <- check_opt (check_list (check_component v)) (b_components b);
  do _ <- (if since V1_4 v then check_opt (check_list (check_vulnerability v)) (b_vulnerabilities b)
           else Done tt);
  do _ <- (if since V1_5 v then check_opt (check_list (check_annotation v)) (b_annotations b)
           else Done tt);
  if since V1_5 v then check_opt (check_list (check_formula v)) (b_formulation b) else Done tt.

(** ** The public entry points *)

(** models/bom.rs:163-173, 247-254, 291-298, 327-334 ([output_as_json] and its versions).  Writing
    to the given writer can fail for reasons outside the model; pretty printing
    is part of the trusted text layer. *)
Definition output_as_json (v : spec_version) (b : bom) : outcome json :=
  do _ <- check_bom v b; Done (to_json_bom v b).

Definition deserialize (v : spec_version) (j : json) : outcome bom :=
  match of_json_bom v j with
  | Some b => Done b
  | None => Fail "Failed to deserialize JSON"
  end.
(** models/bom.rs:151-161, 221-226, 272-277, 309-314 ([parse_from_json_with_version] and its
    versions): [from_reader] straight into the structs of [v] *)
Definition parse_from_json_with_version (v : spec_version) (j : json) : outcome bom := deserialize v j.
(** models/bom.rs:230-233, 280-284 ([parse_from_json_value_v1_3], [..._v1_4]) *)
Definition parse_from_json_value_version (v : spec_version) (j : json) : outcome bom :=
  deserialize v (to_value j).
(** models/bom.rs:126-148 ([parse_from_json], [parse_json_value]): reads a [Value] and looks
    at [specVersion].  The text of a version that is not a string is left out of
    the message. *)
Definition parse_from_json (j : json) : outcome bom :=
  match to_value j with
  | JObj l =>
      match assoc "specVersion" l with
      | Some (JStr s) =>
          match version_of_text s with
          | Some v => deserialize v (to_value j)
          | None => Fail ("Invalid input format found: Unsupported Spec Version '" ++ s ++ "'")
          end
      | Some _ => Fail "Invalid input format found: Unsupported Spec Version"
      | None => Fail "Invalid input format found: Unsupported Spec Version 'No field 'specVersion' found'"
      end
  | _ => Fail "Invalid input format found: Unsupported Spec Version 'No field 'specVersion' found'"
  end.

(** What the findings of the validator say (C76): for every field with a rule of its own, the entry that stands under its
    name when the rule is broken.  Which fields break their rules is in ValLocSpec.v.  This file does not refer to the
    validators. *)
From Verif Require Import Base ModelTypes Strings Enums ValModel.
Open Scope string_scope.
Open Scope list_scope.

(** the entry is a message about the field, a message about an enumerated value, or the same message about each of
    the elements it lists *)
Definition field_says (m : string) (e : verr) : Prop := e = ErrField [m].
Definition enum_says (m : string) (e : verr) : Prop := e = ErrEnum m.
Definition each_says (m : string) (e : verr) : Prop :=
  exists l, e = ErrList l /\ l <> [] /\ forall i r, In (i, r) l -> r = [("", ErrCustom [m])].
(** … with a message that quotes the element *)
Definition each_quotes {A} (l : option (list A)) (m : A -> string) (e : verr) : Prop :=
  exists f, e = ErrList f /\ f <> [] /\
    forall i r, In (i, r) f -> exists es a, l = Some es /\ nth_error es i = Some a /\ r = [("", ErrCustom [m a])].
(** the message quotes the value of the field *)
Definition quotes {A} (o : option A) (m : A -> string) (e : verr) : Prop := exists a, o = Some a /\ e = ErrField [m a].
Definition wording := list (string * (verr -> Prop)).
Definition worded (r : vresult) (w : wording) : Prop := forall k P e, In (k, P) w -> error r k = Some e -> P e.

(** the messages *)
Definition msg_line := "NormalizedString contains invalid characters \r \n \t or \r\n".
Definition msg_time := "DateTime does not conform to ISO 8601".
Definition msg_uri := "Uri does not conform to RFC 3986".
Definition msg_bom_ref := "Attribute 'bom-ref' not supported in this format version".
Definition line := field_says msg_line.
Definition time := field_says msg_time.
Definition uri := field_says msg_uri.
Definition old_ref := field_says msg_bom_ref.

Section WORDS.
Variable x : parsers.
Variable v : spec_version.
Definition say_property : wording := [("value", line)].
Definition say_attached_text : wording :=
  [("content_type", line); ("content", field_says "Content is not Base64 encoded"); ("encoding", field_says "Unknown encoding")].
Definition say_attachment : wording := [("encoding", field_says "Unsupported encoding found.")].
Definition say_hash : wording :=
  [("alg", field_says "Unknown HashAlgorithm"); ("content", field_says "HashValue does not match regular expression")].
Definition say_contact : wording := [("bom-ref", old_ref); ("name", line); ("email", line); ("phone", line)].
Definition say_entity : wording := [("name", line); ("url", each_says msg_uri)].
(** a link that is no BOM link is a URI *)
Definition say_external_reference (e : external_reference) : wording :=
  [("external_reference_type", field_says "Unknown external reference type");
   ("url", match er_url e with
           | RUrl _ => uri
           | RBomLink _ => field_says (match v with V1_5 => "Invalid BOM-Link" | _ => "BOM-Link not supported before version 1.5" end)
           end)].
Definition say_signer (s : signer) : wording :=
  [("algorithm", fun e => exists t, sg_algorithm s = AlgUnknown t /\ field_says ("Unknown algorithm '" ++ t ++ "'") e)].
Definition say_license_identifier : wording := [("Name", enum_says msg_line); ("SpdxId", enum_says "SPDX identifier is not valid")].
Definition say_licensing (l : licensing) : wording :=
  [("alt_ids", each_says msg_line);
   ("license_types", each_quotes (lg_license_types l) (fun t => "Unknown license type '" ++ text_license_type t ++ "'")%string);
   ("last_renewal", time); ("expiration", time)].
Definition say_license : wording := [("url", uri)].
Definition say_license_choice (c : license_choice) : wording :=
  match c with LicLicense _ => [] | LicExpression _ e => [("expression", enum_says ("SPDX expression `" ++ e ++ "` is not valid"))] end.
Definition say_licenses (l : list license_choice) : wording :=
  [("licenses", fun e => e = ErrCustom [if forallb (fun c => negb (is_license c)) l then "More than one 'expression' entry found."
                                        else "Use either array of 'license' or a single 'expression', but not both."])].
Definition say_identifiable_action : wording := [("timestamp", time); ("name", line); ("email", line)].
Definition say_commit : wording := [("uid", line); ("url", uri); ("message", line)].
Definition say_diff : wording := [("url", uri)].
Definition say_source : wording := [("name", line); ("url", uri)].
Definition say_issue : wording :=
  [("issue_type", field_says "Unknown issue classification"); ("id", line); ("name", line); ("description", line);
   ("references", each_says msg_uri)].
Definition say_patch : wording := [("patch_type", enum_says "Unknown patch classification")].
Definition say_data_contents : wording := [("url", uri)].
Definition say_component_data : wording := [("type", field_says "Unknown component data type found")].
Definition say_approach (a : approach) : wording :=
  [("type", quotes (ap_type a) (fun t => "Unknown approach type '" ++ text_approach_type t ++ "'")%string)].
Definition say_occurrence : wording := [("bom-ref", old_ref)].
Definition say_frame : wording :=
  [("package", line); ("module", line); ("function", line); ("parameters", each_says msg_line); ("full_filename", line)].
Definition say_identity (i : identity) : wording :=
  [("field", fun e => exists t, id_field i = IFUnknown t /\ field_says ("Unknown identity found '" ++ t ++ "' given") e);
   ("confidence", field_says "Confidence score outside range 0.0 - 1.0")].
Definition say_swid : wording := [("url", uri)].
Definition say_component (c : component) : wording :=
  [("component_type", field_says "Unknown classification"); ("mime_type", field_says "MimeType does not match regular expression");
   ("author", line); ("publisher", line); ("group", line); ("name", line); ("version", line); ("description", line);
   ("scope", enum_says "Unknown scope"); ("copyright", line); ("cpe", field_says "Cpe does not match regular expression");
   ("purl", fun e => exists p why, c_purl c = Some p /\ x_purl x p = Some why
                       /\ field_says ("Purl does not conform to Package URL spec: " ++ why) e)].
Definition say_data_classification : wording := [("flow", enum_says "Unknown data flow type"); ("classification", enum_says msg_line)].
Definition say_service_data : wording :=
  [("name", line); ("description", line); ("source", each_says msg_uri); ("destination", each_says msg_uri)].
Definition say_service : wording :=
  [("group", line); ("name", line); ("version", line); ("description", line); ("endpoints", each_says msg_uri); ("trust_zone", line)].
Definition say_tool : wording := [("vendor", line); ("name", line); ("version", line)].
Definition say_tools (t : tools) : wording :=
  match t with
  | TObject _ _ => match v with V1_5 => [] | _ => [("inner", fun e => e = ErrCustom ["Unsupported tools type found."])] end
  | TList _ => []
  end.
Definition say_metadata : wording := [("timestamp", time)].
Definition say_composition : wording := [("aggregate", field_says "Unknown aggregate type")].
Definition say_annotation : wording := [("timestamp", time)].
Definition say_vuln_source : wording := [("name", line); ("url", uri)].
Definition say_vuln_reference : wording := [("id", line)].
Definition say_rating (r : vuln_rating) : wording :=
  [("severity", enum_says "Undefined severity");
   ("score_method", quotes (ra_method r) (fun m => "Unknown score method '" ++ text_score_method m ++ "'")%string); ("vector", line)].
Definition say_advisory : wording := [("title", line); ("url", uri)].
Definition say_analysis : wording :=
  [("state", enum_says "Undefined impact analysis state"); ("justification", enum_says "Undefined impact analysis justification");
   ("responses", each_says "Undefined response"); ("first_issued", time); ("last_updated", time)].
Definition say_version_status : wording :=
  [("version_range", enum_says "Undefined version range"); ("status", enum_says "Undefined status")].
Definition say_vulnerability : wording := [("id", line); ("created", time); ("published", time); ("updated", time)].
Definition say_bom : wording := [("serial_number", field_says "UrnUuid does not match regular expression")].
(** parts of formulas *)
Definition say_output : wording := [("type", fun e => e = ErrStruct [("", ErrCustom ["unknown output type"])])].
Definition say_volume : wording := [("mode", field_says "Unknown mode")].
Definition say_workspace : wording := [("access_mode", field_says "Unknown access mode")].
Definition say_event : wording := [("time_received", time)].
Definition say_trigger : wording :=
  [("bom_ref", old_ref); ("type", fun e => e = ErrStruct [("", ErrCustom ["unknown trigger type"])]); ("time_activated", time)].
Definition say_task : wording :=
  [("task_types", each_says "unknown task type"); ("time_start", time); ("time_end", time)].
End WORDS.

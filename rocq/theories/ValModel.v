(** Validation: [cyclonedx-bom/src/validation.rs] and every [Validate]
    implementation of [cyclonedx-bom/src/models]. *)
From Verif Require Import Base ModelTypes Strings Base64 Regex Enums.
From Coq Require Import ZArith.
Open Scope string_scope.
Open Scope list_scope.
Open Scope nat_scope.

(** ** The result of a validation *)

(** validation.rs:386-402 ([ValidationErrorsKind]); a [ValidationError] is its message.
    [ErrList] is the [BTreeMap<usize, ValidationResult>], in key order. *)
Inductive verr :=
| ErrStruct (r : list (string * verr))
| ErrList (l : list (nat * list (string * verr)))
| ErrField (msgs : list string)
| ErrEnum (msg : string)
| ErrCustom (msgs : list string).
(** validation.rs:33-36: an [IndexMap], in insertion order *)
Definition vresult := list (string * verr).

(** validation.rs:78-80 *)
Definition passed (r : vresult) : bool := match r with [] => true | _ => false end.
(** validation.rs:83-85 *)
Definition has_errors (r : vresult) : bool := negb (passed r).
(** validation.rs:88-90 *)
Fixpoint error (r : vresult) (k : string) : option verr :=
  match r with
  | [] => None
  | (k', e) :: r' => if String.eqb k' k then Some e else error r' k
  end.

(** [Result<(), ValidationError>]: [None] is [Ok(())], [Some m] an error with message [m]. *)
Definition check := option string.
(** validation.rs:58-69 *)
Definition from_check (c : check) : vresult :=
  match c with None => [] | Some m => [("", ErrCustom [m])] end.

(** [entry] of the map replaced by [f]; at the end if absent *)
Fixpoint update (k : string) (e : verr) (r : vresult) : vresult :=
  match r with
  | [] => [(k, e)]
  | (k', e') :: r' => if String.eqb k' k then (k', e) :: r' else (k', e') :: update k e r'
  end.

(** validation.rs:103-109 *)
Definition r_add_nested (k : string) (e : verr) (r : vresult) : outcome vresult :=
  match error r k with
  | None => Done (r ++ [(k, e)])
  | Some _ => Panic "Attempt to replace non-empty nested entry"
  end.
(** validation.rs:112-118 *)
Definition r_add_enum (k m : string) (r : vresult) : outcome vresult :=
  match error r k with
  | None => Done (r ++ [(k, ErrEnum m)])
  | Some _ => Panic "Attempt to replace non-empty enum entry"
  end.
(** validation.rs:121-131 *)
Definition r_add_field (k m : string) (r : vresult) : outcome vresult :=
  match error r k with
  | None => Done (r ++ [(k, ErrField [m])])
  | Some (ErrField l) => Done (update k (ErrField (l ++ [m])) r)
  | Some _ => Panic "Found a non-field ValidationErrorsKind"
  end.
(** validation.rs:134-144 *)
Definition r_add_custom (k m : string) (r : vresult) : outcome vresult :=
  match error r k with
  | None => Done (r ++ [(k, ErrCustom [m])])
  | Some (ErrCustom l) => Done (update k (ErrCustom (l ++ [m])) r)
  | Some _ => Panic "Found a non-custom ValidationErrorsKind"
  end.

(** ** [ValidationContext], validation.rs:148-349
    One builder call is a name and a [slot] saying which method is called and
    what the callbacks return; [Skip] is a [.._option] call with [None]. *)
Inductive slot :=
| Skip
| Field (c : check)
| Enum (c : check)
| Struct (r : outcome vresult)
| Items (l : list (outcome vresult)).

(** the [(index, result)] pairs with errors, validation.rs:225-234 *)
Fixpoint failing (i : nat) (l : list vresult) : list (nat * vresult) :=
  match l with
  | [] => []
  | r :: l' => if has_errors r then (i, r) :: failing (S i) l' else failing (S i) l'
  end.

(** validation.rs:161-171 (add_field), 185-195 (add_enum), 212-242 (add_list),
    308-324 (add_struct) *)
Definition add_slot (k : string) (s : slot) (r : vresult) : outcome vresult :=
  match s with
  | Skip => Done r
  | Field None | Enum None => Done r
  | Field (Some m) => r_add_field k m r
  | Enum (Some m) => r_add_enum k m r
  | Struct o => do x <- o; if has_errors x then r_add_nested k (ErrStruct x) r else Done r
  | Items l =>
      do xs <- mapM (fun o => o) l;
      match failing 0 xs with
      | [] => Done r
      | es => r_add_nested k (ErrList es) r
      end
  end.

(** the builder chain *)
Fixpoint run_from (sl : list (string * slot)) (r : vresult) : outcome vresult :=
  match sl with
  | [] => Done r
  | (k, s) :: sl' => do r' <- add_slot k s r; run_from sl' r'
  end.
Definition run (sl : list (string * slot)) : outcome vresult := run_from sl [].

(** validation.rs:343-349, several calls in order *)
Fixpoint add_customs (l : list (string * string)) (r : vresult) : outcome vresult :=
  match l with
  | [] => Done r
  | (k, m) :: l' => do r' <- r_add_custom k m r; add_customs l' r'
  end.

(** any sequence of builder calls, [add_custom] (343-349) included *)
Inductive call := Check (s : slot) | Custom (m : string).
Definition add_call (k : string) (c : call) (r : vresult) : outcome vresult :=
  match c with Check s => add_slot k s r | Custom m => r_add_custom k m r end.
Fixpoint build (cs : list (string * call)) (r : vresult) : outcome vresult :=
  match cs with
  | [] => Done r
  | (k, c) :: cs' => do r' <- add_call k c r; build cs' r'
  end.

(** the [_option] variants: 173-183, 197-207, 277-290, 326-336 *)
Definition field {A} (f : A -> check) (a : A) : slot := Field (f a).
Definition field_opt {A} (f : A -> check) (o : option A) : slot :=
  match o with Some a => Field (f a) | None => Skip end.
Definition enum {A} (f : A -> check) (a : A) : slot := Enum (f a).
Definition enum_opt {A} (f : A -> check) (o : option A) : slot :=
  match o with Some a => Enum (f a) | None => Skip end.
Definition struct {A} (f : A -> outcome vresult) (a : A) : slot := Struct (f a).
Definition struct_opt {A} (f : A -> outcome vresult) (o : option A) : slot :=
  match o with Some a => Struct (f a) | None => Skip end.
Definition items {A} (f : A -> outcome vresult) (l : list A) : slot := Items (map f l).
Definition items_opt {A} (f : A -> outcome vresult) (o : option (list A)) : slot :=
  match o with Some l => Items (map f l) | None => Skip end.
(** [add_list] over an [Option] field: an [Option] is iterated as a list of at most one element *)
Definition items_of_option {A} (f : A -> outcome vresult) (o : option A) : slot :=
  Items (map f (match o with Some a => [a] | None => [] end)).
(** a [Result]-returning element check used with [add_list] *)
Definition lift {A} (f : A -> check) (a : A) : outcome vresult := Done (from_check (f a)).

(** validation.rs:243-275: [set.insert] fails on an element equal to an earlier one *)
Fixpoint unique_items {A} (eqb : A -> A -> bool) (f : A -> outcome vresult) (seen l : list A)
  : list (outcome vresult) :=
  match l with
  | [] => []
  | a :: l' =>
      (if existsb (eqb a) seen then Done (from_check (Some "repeated element")) else f a)
      :: unique_items eqb f (a :: seen) l'
  end.
Definition unique {A} (eqb : A -> A -> bool) (f : A -> outcome vresult) (l : list A) : slot :=
  Items (unique_items eqb f [] l).
Definition unique_opt {A} (eqb : A -> A -> bool) (f : A -> outcome vresult) (o : option (list A)) : slot :=
  match o with Some l => unique eqb f l | None => Skip end.

(** ** Leaf checks *)

(** What external parsers answer (crates time, fluent_uri, purl, spdx). *)
Record parsers := mkParsers {
  x_date_time : string -> bool;       (* OffsetDateTime::parse(_, Iso8601::DEFAULT) is Ok *)
  x_uri : string -> bool;             (* fluent_uri::UriRef::parse is Ok *)
  x_purl : string -> option string;   (* GenericPurl::from_str: None = Ok, Some e = error text *)
  x_spdx_id : string -> bool;         (* spdx::license_id is Some *)
  x_spdx_expr : string -> bool }.     (* spdx::Expression::parse_mode, strict + deprecated, is Ok *)

Definition require (b : bool) (m : string) : check := if b then None else Some m.

(** external_models/normalized_string.rs:85-101 *)
Definition validate_normalized (s : string) : check :=
  require (normalized_ok s) "NormalizedString contains invalid characters \r \n \t or \r\n".

(** models/bom.rs:82-88 *)
Definition validate_bom_ref (v : spec_version) (_ : string) : check :=
  require (negb (version_leb v V1_4)) "Attribute 'bom-ref' not supported in this format version".

(** models/bom.rs:617-623 *)
Definition urn_uuid_re : re :=
  let h n := rep n (RSet hex_lower) in
  full (seqs [lit "urn:uuid:"; h 8; lit "-"; h 4; lit "-"; h 4; lit "-"; h 4; lit "-"; h 12]).
(** models/bom.rs:602-607 *)
Definition validate_urn_uuid (s : string) : check :=
  require (is_match urn_uuid_re s) "UrnUuid does not match regular expression".

(** crate uuid, [Display for Uuid]: the 16 bytes in hexadecimal, lowercase, with
    hyphens after the 4th, 6th, 8th and 10th byte (trusted) *)
Definition hex_digit (n : nat) : ascii :=
  ascii_of_nat (if n <? 10 then nat_of_ascii "0" + n else nat_of_ascii "a" + (n - 10)).
Fixpoint hex_text (bytes : string) : string :=
  match bytes with
  | EmptyString => EmptyString
  | String c s => String (hex_digit (nat_of_ascii c / 16)) (String (hex_digit (nat_of_ascii c mod 16)) (hex_text s))
  end.
Definition uuid_text (u : string) : string :=
  (hex_text (substring 0 4 u) ++ "-" ++ hex_text (substring 4 2 u) ++ "-" ++ hex_text (substring 6 2 u)
   ++ "-" ++ hex_text (substring 8 2 u) ++ "-" ++ hex_text (substring 10 6 u))%string.
(** models/bom.rs:596-600, [From<uuid::Uuid>]; [generate] (585-587) passes it a random UUID *)
Definition urn_uuid_from (u : string) : string := ("urn:uuid:" ++ uuid_text u)%string.

(** models/component.rs:270-281 *)
Definition mime_char (c : ascii) : bool := one_of "-+." c || lower c || digit c.
Definition mime_re : re := full (RSeq (plus (RSet mime_char)) (RSeq (lit "/") (plus (RSet mime_char)))).
Definition validate_mime_type (s : string) : check :=
  require (is_match mime_re s) "MimeType does not match regular expression".

(** models/component.rs:306-320.  [$$] inside the class is just [$]. *)
Definition cpe_special : string := "\*?!""#$%&'()+,/:;<=>@[]^`{|}~".
Definition cpe_part : re :=
  let q := RAlt (RStar (lit "?")) (opt_re (lit "*")) in
  let ch := RAlt (RSet (fun c => lower c || upper c || digit c || one_of "-._" c))
                 (RSeq (lit "\") (RSet (one_of cpe_special))) in
  RAlt (RSeq q (RSeq (plus ch) q)) (RSet (one_of "*-")).
Definition cpe_lang_part : re :=
  let alpha n := rep n (RSet (fun c => lower c || upper c)) in
  RAlt (RSeq (RAlt (alpha 3) (alpha 2))
             (opt_re (RSeq (lit "-") (RAlt (alpha 2) (rep 3 (RSet digit))))))
       (RSet (one_of "*-")).
Definition cpe22_re : re :=
  RSeq (lit "c") (RSeq (RSet (one_of "pP")) (RSeq (RSet (one_of "eE")) (RSeq (lit ":/")
    (RSeq (opt_re (RSet (one_of "AHOaho")))
       (upto 6 (RSeq (lit ":") (RStar (RSet (fun c => upper c || lower c || digit c || one_of "._-~%" c))))))))).
Definition cpe23_re : re :=
  RSeq (lit "cpe:2.3:") (RSeq (RSet (one_of "aho*-"))
    (RSeq (rep 5 (RSeq (lit ":") cpe_part)) (RSeq (RSeq (lit ":") cpe_lang_part)
       (rep 4 (RSeq (lit ":") cpe_part))))).
Definition cpe_re : re := RAlt cpe22_re cpe23_re.
Definition validate_cpe (s : string) : check :=
  require (is_match cpe_re s) "Cpe does not match regular expression".

(** models/hash.rs:109-123: the anchors bind to the first and last alternative only *)
Definition hash_value_re : re :=
  let h n := rep n (RSet hex_any) in
  RAlt (RSeq RBegin (h 32)) (RAlt (h 40) (RAlt (h 64) (RAlt (h 96) (RSeq (h 128) REnd)))).
Definition validate_hash_value (s : string) : check :=
  require (is_match hash_value_re s) "HashValue does not match regular expression".

(** models/external_reference.rs:231-245 *)
Definition not_lf (c : ascii) : bool := negb (Ascii.eqb c LF).
Definition bom_link_re : re :=
  let h n := rep n (RSet hex_lower) in
  full (seqs [lit "urn:cdx:"; h 8; lit "-"; h 4; lit "-"; h 4; lit "-"; h 4; lit "-"; h 12; lit "/";
              RSet (in_range "1" "9"); RStar (RSet digit); opt_re (RSeq (lit "#") (plus (RSet not_lf)))]).
Definition validate_bom_link (v : spec_version) (s : string) : check :=
  if negb (version_leb V1_5 v) then Some "BOM-Link not supported before version 1.5"
  else require (is_match bom_link_re s) "Invalid BOM-Link".

(** models/vulnerability_target.rs:142-147 *)
Definition version_range_re : re := full (RSeq (lit "vers:") (RStar (RSet not_lf))).
(** models/vulnerability_target.rs:133-140 *)
Definition version_range_new (s : string) : version_range :=
  if is_match version_range_re s then VRRange (normalize s) else VRVersion (normalize s).

Section Validators.
Variable x : parsers.

(** external_models/date_time.rs:29-34 *)
Definition validate_date_time (s : string) : check :=
  require (x_date_time x s) "DateTime does not conform to ISO 8601".
(** external_models/uri.rs:66-71 *)
Definition validate_uri (s : string) : check :=
  require (x_uri x s) "Uri does not conform to RFC 3986".
(** external_models/uri.rs:27-32 *)
Definition validate_purl (s : string) : check :=
  match x_purl x s with
  | None => None
  | Some e => Some ("Purl does not conform to Package URL spec: " ++ e)%string
  end.
(** external_models/spdx.rs:80-85 *)
Definition validate_spdx_identifier (s : string) : check :=
  require (x_spdx_id x s) "SPDX identifier is not valid".
(** external_models/spdx.rs:200-213 *)
Definition validate_spdx_expression (e : option string * string) : check :=
  require (x_spdx_expr x (snd e)) ("SPDX expression `" ++ snd e ++ "` is not valid")%string.

(** *** Enumerated values *)

(** models/component.rs:178-193; [<] is the derived order, by position of the variant *)
Definition classification_rank (c : classification) : nat :=
  match c with
  | CApplication => 1 | CFramework => 2 | CLibrary => 3 | CContainer => 4 | COperatingSystem => 5
  | CDevice => 6 | CFirmware => 7 | CFile => 8 | CPlatform => 9 | CDeviceDriver => 10
  | CMachineLearningModel => 11 | CData => 12 | CUnknown _ => 13
  end.
Definition validate_classification (v : spec_version) (c : classification) : check :=
  if version_leb V1_3 v && version_leb v V1_4 then
    require (negb (classification_rank CFile <? classification_rank c)) "Unknown classification"
  else
    require (negb (version_leb V1_5 v && match c with CUnknown _ => true | _ => false end))
            "Unknown classification".
(** models/component.rs:240-245 *)
Definition validate_scope (s : scope) : check :=
  match s with ScUnknown _ => Some "Unknown scope" | _ => None end.
(** models/component.rs:512-517 *)
Definition validate_identity_field (f : identity_field) : check :=
  match f with
  | IFUnknown s => Some ("Unknown identity found '" ++ s ++ "' given")%string
  | _ => None
  end.
(** models/hash.rs:55-60 *)
Definition validate_hash_algorithm (a : hash_algorithm) : check :=
  match a with UnknownHash _ => Some "Unknown HashAlgorithm" | _ => None end.
(** models/license.rs:255-261 *)
Definition validate_license_type (t : license_type) : check :=
  match t with LTUnknown s => Some ("Unknown license type '" ++ s ++ "'")%string | _ => None end.
(** models/composition.rs:61-75 *)
Definition aggregate_rank (a : aggregate_type) : nat :=
  match a with
  | AComplete => 1 | AIncomplete => 2 | AIncompleteFirstPartyOnly => 3
  | AIncompleteThirdPartyOnly => 4 | AUnknown => 5 | ANotSpecified => 6
  | AIncompleteFirstPartyProprietaryOnly => 7 | AIncompleteFirstPartyOpensourceOnly => 8
  | AIncompleteThirdPartyProprietaryOnly => 9 | AIncompleteThirdPartyOpensourceOnly => 10
  | AUnknownType _ => 11
  end.
Definition validate_aggregate_type (v : spec_version) (a : aggregate_type) : check :=
  if version_leb v V1_4 then
    require (negb (aggregate_rank AIncompleteFirstPartyProprietaryOnly <? aggregate_rank a))
            "Unknown aggregate type"
  else
    require (negb (version_leb v V1_5 && match a with AUnknownType _ => true | _ => false end))
            "Unknown aggregate type".
(** models/code.rs:126-136, 194-204 *)
Definition validate_issue_classification (c : issue_classification) : check :=
  match c with ICUnknown _ => Some "Unknown issue classification" | _ => None end.
Definition validate_patch_classification (c : patch_classification) : check :=
  match c with PCUnknown _ => Some "Unknown patch classification" | _ => None end.
(** models/service.rs:176-181 *)
Definition validate_data_flow_type (d : data_flow_type) : check :=
  match d with DFUnknownFlow _ => Some "Unknown data flow type" | _ => None end.
(** models/external_reference.rs:87-97 *)
Definition validate_external_reference_type (t : ext_ref_type) : check :=
  match t with ERUnknown _ => Some "Unknown external reference type" | _ => None end.
(** models/attached_text.rs:77-82 *)
Definition validate_encoding (e : encoding) : check :=
  match e with EncUnknown _ => Some "Unknown encoding" | _ => None end.
(** models/component_data.rs:57-62 *)
Definition validate_datatype (t : component_data_type) : check :=
  match t with CDUnknown _ => Some "Unknown component data type found" | _ => None end.
(** models/signature.rs:125-130 *)
Definition validate_algorithm (a : algorithm) : check :=
  match a with AlgUnknown s => Some ("Unknown algorithm '" ++ s ++ "'")%string | _ => None end.
(** models/vulnerability_analysis.rs:95-100, 133-143, 182-189 *)
Definition validate_state (s : analysis_state) : check :=
  match s with ASUndefined _ => Some "Undefined impact analysis state" | _ => None end.
Definition validate_justification (j : analysis_justification) : check :=
  match j with AJUndefined _ => Some "Undefined impact analysis justification" | _ => None end.
Definition validate_response (r : analysis_response) : check :=
  match r with ARUndefined _ => Some "Undefined response" | _ => None end.
(** models/vulnerability_rating.rs:128-133 *)
Definition validate_severity (s : severity) : check :=
  match s with SevUndefined _ => Some "Undefined severity" | _ => None end.
(** models/vulnerability_rating.rs:168-182 *)
Definition score_rank (m : score_method) : nat :=
  match m with
  | CVSSv2 => 1 | CVSSv3 => 2 | CVSSv31 => 3 | OWASP => 4 | CVSSv4 => 5 | SSVC => 6 | SMUnknown _ => 7
  end.
Definition validate_score_method (v : spec_version) (m : score_method) : check :=
  if version_leb v V1_4 then
    require (negb (score_rank OWASP <? score_rank m))
            ("Unknown score method '" ++ text_score_method m ++ "'")%string
  else if version_leb v V1_5 then
    match m with SMUnknown s => Some ("Unknown score method '" ++ s ++ "'")%string | _ => None end
  else None.
(** models/vulnerability_target.rs:149-154, 111-116 *)
Definition validate_status (s : status) : check :=
  match s with StUndefined _ => Some "Undefined status" | _ => None end.
Definition validate_version_range (r : version_range) : check :=
  match r with VRUndefined _ => Some "Undefined version range" | _ => None end.
(** models/modelcard.rs:104-109 *)
Definition validate_approach_type (a : approach_type) : check :=
  match a with ApUnknown s => Some ("Unknown approach type '" ++ s ++ "'")%string | _ => None end.

(** [f32] comparison [<] (IEEE: false whenever a NaN is involved).  Only the
    comparisons against 0.0 and 1.0 of models/component.rs:493 are needed. *)
Definition f32_scaled (neg : bool) (m : N) (e k : Z) : Z :=
  (let a := Z.of_N m * 2 ^ (e - k) in if neg then - a else a)%Z.
Definition f32_ltb (a b : f32) : bool :=
  match a, b with
  | F_nan, _ | _, F_nan => false
  | F_inf true, F_inf true => false
  | F_inf true, _ => true
  | F_inf false, _ => false
  | F_fin _ _ _, F_inf n => negb n
  | F_fin n1 m1 e1, F_fin n2 m2 e2 =>
      let k := Z.min e1 e2 in (f32_scaled n1 m1 e1 k <? f32_scaled n2 m2 e2 k)%Z
  end.
Definition f32_zero : f32 := F_fin false 0 0.
Definition f32_one : f32 := F_fin false 1 0.
(** models/component.rs:492-497 *)
Definition validate_confidence (c : f32) : check :=
  require (negb (f32_ltb c f32_zero && f32_ltb c f32_one)) "Confidence score outside range 0.0 - 1.0".

(** *** Structures *)

(** models/attached_text.rs:49-74 *)
Definition validate_attached_text (t : attached_text) : outcome vresult :=
  run [ ("content_type", field_opt validate_normalized (at_content_type t));
        ("content",
          match at_encoding t with
          | Some EncBase64 => field (fun c => require (b64_ok c) "Content is not Base64 encoded") (at_content t)
          | _ => Skip
          end);
        ("encoding",
          match at_encoding t with
          | Some (EncUnknown s) => field validate_encoding (EncUnknown s)
          | _ => Skip
          end) ].

(** models/attachment.rs:33-46 *)
Definition validate_attachment (a : attachment) : outcome vresult :=
  run [ ("encoding", field_opt (fun e => require (String.eqb e "base64") "Unsupported encoding found.") (att_encoding a)) ].

(** models/hash.rs:35-42, 47-53 *)
Definition validate_hash (h : hash) : outcome vresult :=
  run [ ("alg", field validate_hash_algorithm (h_alg h)); ("content", field validate_hash_value (h_content h)) ].
Definition validate_hashes (l : list hash) : outcome vresult := run [ ("inner", items validate_hash l) ].

(** models/property.rs:68-74, 34-42 *)
Definition validate_property (p : property) : outcome vresult :=
  run [ ("value", field validate_normalized (p_value p)) ].
Definition validate_properties (l : list property) : outcome vresult :=
  run [ ("inner", items validate_property l) ].

(** models/organization.rs:57-68, 92-102 *)
Definition validate_contact (v : spec_version) (c : contact) : outcome vresult :=
  run [ ("bom-ref", field_opt (validate_bom_ref v) (ct_bom_ref c));
        ("name", field_opt validate_normalized (ct_name c));
        ("email", field_opt validate_normalized (ct_email c));
        ("phone", field_opt validate_normalized (ct_phone c)) ].
Definition validate_entity (v : spec_version) (e : entity) : outcome vresult :=
  run [ ("name", field_opt validate_normalized (oe_name e));
        ("url", items_opt (lift validate_uri) (oe_url e));
        ("contact", items_opt (validate_contact v) (oe_contact e)) ].

(** models/external_reference.rs:201-206 *)
Definition validate_reference_uri (v : spec_version) (u : reference_uri) : check :=
  match u with RUrl s => validate_uri s | RBomLink s => validate_bom_link v s end.
(** models/external_reference.rs:58-72, 77-85 *)
Definition validate_external_reference (v : spec_version) (e : external_reference) : outcome vresult :=
  run [ ("external_reference_type", field validate_external_reference_type (er_type e));
        ("url", field (validate_reference_uri v) (er_url e));
        ("hashes", items_of_option validate_hashes (er_hashes e)) ].
Definition validate_external_references (v : spec_version) (l : list external_reference) : outcome vresult :=
  run [ ("inner", items (validate_external_reference v) l) ].

(** models/signature.rs:70-76, 35-50 *)
Definition validate_signer (s : signer) : outcome vresult :=
  run [ ("algorithm", field validate_algorithm (sg_algorithm s)) ].
Definition validate_signature (s : signature) : outcome vresult :=
  match s with
  | SigSigners l => run [ ("Signers", items validate_signer l) ]
  | SigChain l => run [ ("Chain", items validate_signer l) ]
  | SigSingle g => run [ ("Single", struct validate_signer g) ]
  end.

(** models/license.rs:190-201 *)
Definition validate_license_identifier (i : license_identifier) : outcome vresult :=
  match i with
  | LName n => run [ ("Name", enum validate_normalized n) ]
  | LSpdxId s => run [ ("SpdxId", enum validate_spdx_identifier s) ]
  end.
(** models/license.rs:246-253 *)
Definition validate_license_contact (v : spec_version) (c : license_contact) : outcome vresult :=
  match c with LCOrganization o => validate_entity v o | LCContact c => validate_contact v c end.
(** models/license.rs:218-238 *)
Definition validate_licensing (v : spec_version) (l : licensing) : outcome vresult :=
  run [ ("alt_ids", items_opt (lift validate_normalized) (lg_alt_ids l));
        ("licensor", struct_opt (validate_license_contact v) (lg_licensor l));
        ("licensee", struct_opt (validate_license_contact v) (lg_licensee l));
        ("purchaser", struct_opt (validate_license_contact v) (lg_purchaser l));
        ("license_types", items_opt (lift validate_license_type) (lg_license_types l));
        ("last_renewal", field_opt validate_date_time (lg_last_renewal l));
        ("expiration", field_opt validate_date_time (lg_expiration l)) ].
(** models/license.rs:131-141 *)
Definition validate_license (v : spec_version) (l : license) : outcome vresult :=
  run [ ("license_identifier", struct validate_license_identifier (l_identifier l));
        ("text", struct_opt validate_attached_text (l_text l));
        ("url", field_opt validate_uri (l_url l));
        ("licensing", struct_opt (validate_licensing v) (l_licensing l));
        ("properties", struct_opt validate_properties (l_properties l)) ].
(** models/license.rs:64-79 *)
Definition validate_license_choice (v : spec_version) (c : license_choice) : outcome vresult :=
  match c with
  | LicLicense l => run [ ("license", struct (validate_license v) l) ]
  | LicExpression b e => run [ ("expression", enum validate_spdx_expression (b, e)) ]
  end.
(** models/license.rs:48-56 *)
Definition is_license (c : license_choice) : bool :=
  match c with LicLicense _ => true | LicExpression _ _ => false end.
(** models/license.rs:146-173 *)
Definition validate_licenses (v : spec_version) (l : list license_choice) : outcome vresult :=
  do r <- run [ ("inner", items (validate_license_choice v) l) ];
  if version_leb V1_5 v then
    let n := List.length (filter is_license l) in
    let e := List.length (filter (fun c => negb (is_license c)) l) in
    if (n =? 0) && (1 <? e) then
      add_customs [("licenses", "More than one 'expression' entry found.")] r
    else if (0 <? n) && (0 <? e) then
      add_customs [("licenses", "Use either array of 'license' or a single 'expression', but not both.")] r
    else Done r
  else Done r.

(** models/code.rs:85-93, 40-50, 55-61 *)
Definition validate_identifiable_action (a : identifiable_action) : outcome vresult :=
  run [ ("timestamp", field_opt validate_date_time (ia_timestamp a));
        ("name", field_opt validate_normalized (ia_name a));
        ("email", field_opt validate_normalized (ia_email a)) ].
Definition validate_commit (c : commit) : outcome vresult :=
  run [ ("uid", field_opt validate_normalized (cm_uid c));
        ("url", field_opt validate_uri (cm_url c));
        ("author", struct_opt validate_identifiable_action (cm_author c));
        ("committer", struct_opt validate_identifiable_action (cm_committer c));
        ("message", field_opt validate_normalized (cm_message c)) ].
Definition validate_commits (l : list commit) : outcome vresult := run [ ("inner", items validate_commit l) ].
(** models/code.rs:69-76, 236-243 *)
Definition validate_diff (d : diff) : outcome vresult :=
  run [ ("text", struct_opt validate_attached_text (df_text d)); ("url", field_opt validate_uri (df_url d)) ].
Definition validate_source (s : source) : outcome vresult :=
  run [ ("name", field_opt validate_normalized (so_name s)); ("url", field_opt validate_uri (so_url s)) ].
(** models/code.rs:105-124 *)
Definition validate_issue (i : issue) : outcome vresult :=
  run [ ("issue_type", field validate_issue_classification (is_type i));
        ("id", field_opt validate_normalized (is_id i));
        ("name", field_opt validate_normalized (is_name i));
        ("description", field_opt validate_normalized (is_description i));
        ("source", struct_opt validate_source (is_source i));
        ("references", items_opt (lift validate_uri) (is_references i)) ].
(** models/code.rs:167-181, 186-192 *)
Definition validate_patch (p : patch) : outcome vresult :=
  run [ ("patch_type", enum validate_patch_classification (pa_type p));
        ("diff", struct_opt validate_diff (pa_diff p));
        ("resolves", items_opt validate_issue (pa_resolves p)) ].
Definition validate_patches (l : list patch) : outcome vresult := run [ ("inner", items validate_patch l) ].

(** models/data_governance.rs:58-65, 36-50 *)
Definition validate_party (v : spec_version) (p : responsible_party) : outcome vresult :=
  match p with RPOrganization o => validate_entity v o | RPContact c => validate_contact v c end.
Definition validate_governance (v : spec_version) (g : data_governance) : outcome vresult :=
  run [ ("custodians", items_opt (validate_party v) (dg_custodians g));
        ("stewards", items_opt (validate_party v) (dg_stewards g));
        ("owners", items_opt (validate_party v) (dg_owners g)) ].
(** models/component_data.rs:91-99, 125-131, 108-116, 46-55 *)
Definition validate_data_contents (c : data_contents) : outcome vresult :=
  run [ ("attachment", struct_opt validate_attachment (dc_attachment c));
        ("url", field_opt validate_uri (dc_url c));
        ("properties", struct_opt validate_properties (dc_properties c)) ].
Definition validate_graphic (g : graphic) : outcome vresult :=
  run [ ("image", struct_opt validate_attachment (g_image g)) ].
Definition validate_graphics (g : graphics_collection) : outcome vresult :=
  run [ ("collection", items_opt validate_graphic (gc_collection g)) ].
Definition validate_component_data (v : spec_version) (d : component_data) : outcome vresult :=
  run [ ("type", field validate_datatype (cd_type d));
        ("contents", struct_opt validate_data_contents (cd_contents d));
        ("graphics", struct_opt validate_graphics (cd_graphics d));
        ("governance", struct_opt (validate_governance v) (cd_governance d)) ].

(** models/modelcard.rs:87-93, 152-160, 169-176, 181-202, 71-80 *)
Definition validate_approach (a : approach) : outcome vresult :=
  run [ ("type", field_opt validate_approach_type (ap_type a)) ].
Definition validate_dataset (v : spec_version) (d : dataset) : outcome vresult :=
  match d with DSComponent c => validate_component_data v c | DSReference _ => run [] end.
Definition validate_datasets (v : spec_version) (l : list dataset) : outcome vresult :=
  run [ ("inner", items (validate_dataset v) l) ].
Definition validate_ml_parameters (l : list ml_parameter) : outcome vresult :=
  run [ ("inner", items (lift (fun _ : ml_parameter => None)) l) ].
Definition validate_model_parameters (v : spec_version) (p : model_parameters) : outcome vresult :=
  run [ ("approach", struct_opt validate_approach (mp_approach p));
        ("datasets", struct_opt (validate_datasets v) (mp_datasets p));
        ("inputs", struct_opt validate_ml_parameters (mp_inputs p));
        ("outputs", struct_opt validate_ml_parameters (mp_outputs p)) ].
(** models/modelcard.rs:255-259, 239-245, 223-234, 271-275, 42-55 *)
Definition validate_metrics (l : list performance_metric) : outcome vresult :=
  run [ ("inner", items (fun _ : performance_metric => run []) l) ].
Definition validate_quantitative (q : quantitative_analysis) : outcome vresult :=
  run [ ("performance_metrics", struct_opt validate_metrics (qa_performance_metrics q));
        ("graphics", struct_opt validate_graphics (qa_graphics q)) ].
Definition validate_considerations (c : considerations) : outcome vresult := run [].
Definition validate_model_card (v : spec_version) (c : model_card) : outcome vresult :=
  run [ ("model_parameters", struct_opt (validate_model_parameters v) (mc_model_parameters c));
        ("quantitative_analysis", struct_opt validate_quantitative (mc_quantitative_analysis c));
        ("considerations", struct_opt validate_considerations (mc_considerations c));
        ("properties", struct_opt validate_properties (mc_properties c)) ].

(** models/component.rs:416-424, 391-399, 468-490, 446-452, 560-567, 606-622, 373-383 *)
Definition validate_occurrence (v : spec_version) (o : occurrence) : outcome vresult :=
  run [ ("bom-ref", field_opt (validate_bom_ref v) (oc_bom_ref o)) ].
Definition validate_occurrences (v : spec_version) (l : list occurrence) : outcome vresult :=
  run [ ("inner", items (validate_occurrence v) l) ].
Definition validate_frame (f : frame) : outcome vresult :=
  run [ ("package", field_opt validate_normalized (fr_package f));
        ("module", field validate_normalized (fr_module f));
        ("function", field_opt validate_normalized (fr_function f));
        ("parameters", items_opt (lift validate_normalized) (fr_parameters f));
        ("full_filename", field_opt validate_normalized (fr_full_filename f)) ].
Definition validate_callstack (l : list frame) : outcome vresult := run [ ("frames", items validate_frame l) ].
Definition validate_identity (i : identity) : outcome vresult :=
  run [ ("field", field validate_identity_field (id_field i));
        ("confidence", field_opt validate_confidence (id_confidence i)) ].
Definition validate_copyright_texts (l : list string) : outcome vresult :=
  run [ ("inner", items (lift (fun _ : string => None)) l) ].
Definition validate_evidence (v : spec_version) (e : evidence) : outcome vresult :=
  run [ ("licenses", struct_opt (validate_licenses v) (ev_licenses e));
        ("copyright", struct_opt validate_copyright_texts (ev_copyright e));
        ("occurrences", struct_opt (validate_occurrences v) (ev_occurrences e));
        ("callstack", struct_opt validate_callstack (ev_callstack e));
        ("identity", struct_opt validate_identity (ev_identity e)) ].
(** models/component.rs:297-304 *)
Definition validate_swid (s : swid) : outcome vresult :=
  run [ ("text", struct_opt validate_attached_text (sw_text s)); ("url", field_opt validate_uri (sw_url s)) ].

(** models/component.rs:594-604 (pedigree) and 119-163, 168-176 (component) *)
Definition validate_pedigree_with (vc : component -> outcome vresult) (p : pedigree) : outcome vresult :=
  run [ ("ancestors", struct_opt (fun l => run [ ("inner", items vc l) ]) (pd_ancestors p));
        ("descendants", struct_opt (fun l => run [ ("inner", items vc l) ]) (pd_descendants p));
        ("variants", struct_opt (fun l => run [ ("inner", items vc l) ]) (pd_variants p));
        ("commits", struct_opt validate_commits (pd_commits p));
        ("patches", struct_opt validate_patches (pd_patches p)) ].
Fixpoint validate_component (v : spec_version) (c : component) {struct c} : outcome vresult :=
  run [ ("component_type", field (validate_classification v) (c_type c));
        ("mime_type", field_opt validate_mime_type (c_mime_type c));
        ("supplier", struct_opt (validate_entity v) (c_supplier c));
        ("author", field_opt validate_normalized (c_author c));
        ("publisher", field_opt validate_normalized (c_publisher c));
        ("group", field_opt validate_normalized (c_group c));
        ("name", field validate_normalized (c_name c));
        ("version", field_opt validate_normalized (c_version c));
        ("description", field_opt validate_normalized (c_description c));
        ("scope", enum_opt validate_scope (c_scope c));
        ("hashes", struct_opt validate_hashes (c_hashes c));
        ("licenses", struct_opt (validate_licenses v) (c_licenses c));
        ("copyright", field_opt validate_normalized (c_copyright c));
        ("cpe", field_opt validate_cpe (c_cpe c));
        ("purl", field_opt validate_purl (c_purl c));
        ("swid", struct_opt validate_swid (c_swid c));
        ("pedigree", struct_opt (validate_pedigree_with (validate_component v)) (c_pedigree c));
        ("external_references", struct_opt (validate_external_references v) (c_external_references c));
        ("properties", struct_opt validate_properties (c_properties c));
        ("components", struct_opt (fun l => run [ ("inner", items (validate_component v) l) ]) (c_components c));
        ("evidence", struct_opt (validate_evidence v) (c_evidence c)) ].
Definition validate_components (v : spec_version) (l : list component) : outcome vresult :=
  run [ ("inner", items (validate_component v) l) ].

(** models/service.rs:192-203, 159-174, 136-147, 86-115, 120-128 *)
Definition validate_data_classification (d : data_classification) : outcome vresult :=
  run [ ("flow", enum validate_data_flow_type (dcl_flow d));
        ("classification", enum validate_normalized (dcl_classification d)) ].
Definition validate_service_data (v : spec_version) (d : service_data) : outcome vresult :=
  run [ ("name", field_opt validate_normalized (sd_name d));
        ("description", field_opt validate_normalized (sd_description d));
        ("classification", struct validate_data_classification (sd_classification d));
        ("governance", struct_opt (validate_governance v) (sd_governance d));
        ("source", items_opt (lift validate_uri) (sd_source d));
        ("destination", items_opt (lift validate_uri) (sd_destination d)) ].
Definition validate_data (v : spec_version) (d : data) : outcome vresult :=
  match d with
  | DServiceData l => run [ ("inner", items (validate_service_data v) l) ]
  | DClassification l => run [ ("inner", items validate_data_classification l) ]
  end.
Fixpoint validate_service (v : spec_version) (s : service) {struct s} : outcome vresult :=
  run [ ("provider", struct_opt (validate_entity v) (s_provider s));
        ("group", field_opt validate_normalized (s_group s));
        ("name", field validate_normalized (s_name s));
        ("version", field_opt validate_normalized (s_version s));
        ("description", field_opt validate_normalized (s_description s));
        ("endpoints", items_opt (lift validate_uri) (s_endpoints s));
        ("data", struct_opt (validate_data v) (s_data s));
        ("licenses", struct_opt (validate_licenses v) (s_licenses s));
        ("external_references", struct_opt (validate_external_references v) (s_external_references s));
        ("properties", struct_opt validate_properties (s_properties s));
        ("services", struct_opt (fun l => run [ ("inner", items (validate_service v) l) ]) (s_services s));
        ("trust_zone", field_opt validate_normalized (s_trust_zone s)) ].
Definition validate_services (v : spec_version) (l : list service) : outcome vresult :=
  run [ ("inner", items (validate_service v) l) ].

(** models/tool.rs:102-118, 44-69 *)
Definition validate_tool (v : spec_version) (t : tool) : outcome vresult :=
  run [ ("vendor", field_opt validate_normalized (t_vendor t));
        ("name", field_opt validate_normalized (t_name t));
        ("version", field_opt validate_normalized (t_version t));
        ("hashes", items_of_option validate_hashes (t_hashes t));
        ("external_references", struct_opt (validate_external_references v) (t_external_references t)) ].
Definition validate_tools (v : spec_version) (t : tools) : outcome vresult :=
  match t with
  | TList l => run [ ("inner", items (validate_tool v) l) ]
  | TObject ss cs =>
      if version_leb v V1_4 then add_customs [("inner", "Unsupported tools type found.")] []
      else run [ ("components", struct_opt (validate_components v) cs);
                 ("services", struct_opt (validate_services v) ss) ]
  end.

(** models/metadata.rs:72-93 *)
Definition validate_metadata (v : spec_version) (m : metadata) : outcome vresult :=
  run [ ("timestamp", field_opt validate_date_time (m_timestamp m));
        ("tools", items_of_option (validate_tools v) (m_tools m));
        ("authors", items_opt (validate_contact v) (m_authors m));
        ("component", struct_opt (validate_component v) (m_component m));
        ("manufacture", struct_opt (validate_entity v) (m_manufacture m));
        ("supplier", struct_opt (validate_entity v) (m_supplier m));
        ("licenses", items_of_option (validate_licenses v) (m_licenses m));
        ("properties", items_of_option validate_properties (m_properties m)) ].

(** models/composition.rs:36-45, 50-58 *)
Definition validate_composition (v : spec_version) (c : composition) : outcome vresult :=
  run [ ("aggregate", field (validate_aggregate_type v) (co_aggregate c));
        ("signature", struct_opt validate_signature (co_signature c)) ].
Definition validate_compositions (v : spec_version) (l : list composition) : outcome vresult :=
  run [ ("composition", items (validate_composition v) l) ].

(** models/annotation.rs:74-93, 56-63, 36-44 *)
Definition validate_annotator (v : spec_version) (a : annotator) : outcome vresult :=
  match a with
  | AnOrganization o => run [ ("organization", struct (validate_entity v) o) ]
  | AnIndividual c => run [ ("contact", struct (validate_contact v) c) ]
  | AnComponent c => run [ ("component", struct (validate_component v) c) ]
  | AnService s => run [ ("service", struct (validate_service v) s) ]
  end.
Definition validate_annotation (v : spec_version) (a : annotation) : outcome vresult :=
  run [ ("timestamp", field validate_date_time (an_timestamp a));
        ("annotator", struct (validate_annotator v) (an_annotator a)) ].
Definition validate_annotations (v : spec_version) (l : list annotation) : outcome vresult :=
  run [ ("inner", items (validate_annotation v) l) ].

(** models/vulnerability_source.rs:57-64 *)
Definition validate_vuln_source (s : vuln_source) : outcome vresult :=
  run [ ("name", field_opt validate_normalized (vs_name s)); ("url", field_opt validate_uri (vs_url s)) ].
(** models/vulnerability_reference.rs:56-63, 68-76 *)
Definition validate_vuln_reference (r : vuln_reference) : outcome vresult :=
  run [ ("id", field validate_normalized (vr_id r));
        ("vulnerability_source", struct validate_vuln_source (vr_source r)) ].
Definition validate_vuln_references (l : list vuln_reference) : outcome vresult :=
  run [ ("inner", items validate_vuln_reference l) ].
(** models/vulnerability_rating.rs:64-79, 84-90 *)
Definition validate_rating (v : spec_version) (r : vuln_rating) : outcome vresult :=
  run [ ("vulnerability_source", struct_opt validate_vuln_source (ra_source r));
        ("severity", enum_opt validate_severity (ra_severity r));
        ("score_method", field_opt (validate_score_method v) (ra_method r));
        ("vector", field_opt validate_normalized (ra_vector r)) ].
Definition validate_ratings (v : spec_version) (l : list vuln_rating) : outcome vresult :=
  run [ ("inner", items (validate_rating v) l) ].
(** models/advisory.rs:51-58, 63-71 *)
Definition validate_advisory (a : advisory) : outcome vresult :=
  run [ ("title", field_opt validate_normalized (ad_title a)); ("url", field validate_uri (ad_url a)) ].
Definition validate_advisories (l : list advisory) : outcome vresult :=
  run [ ("inner", items validate_advisory l) ].
(** models/vulnerability_credits.rs:31-42 *)
Definition validate_credits (v : spec_version) (c : vuln_credits) : outcome vresult :=
  run [ ("organizations", items_opt (validate_entity v) (vc_organizations c));
        ("individuals", items_opt (validate_contact v) (vc_individuals c)) ].
(** models/vulnerability_analysis.rs:69-93: the check named [last_updated] looks at [first_issued] *)
Definition validate_analysis (a : vuln_analysis) : outcome vresult :=
  run [ ("state", enum_opt validate_state (va_state a));
        ("justification", enum_opt validate_justification (va_justification a));
        ("responses", items_opt (lift validate_response) (va_responses a));
        ("first_issued", field_opt validate_date_time (va_first_issued a));
        ("last_updated", field_opt validate_date_time (va_first_issued a)) ].
(** models/vulnerability_target.rs:102-109, 73-79, 51-57, 62-68 *)
Definition validate_version_status (s : version_status) : outcome vresult :=
  run [ ("version_range", enum validate_version_range (ve_range s));
        ("status", enum validate_status (ve_status s)) ].
Definition validate_versions (l : list version_status) : outcome vresult :=
  run [ ("inner", items validate_version_status l) ].
Definition validate_target (t : vuln_target) : outcome vresult :=
  run [ ("versions", struct_opt validate_versions (vt_versions t)) ].
Definition validate_targets (l : list vuln_target) : outcome vresult :=
  run [ ("inner", items validate_target l) ].
(** models/vulnerability.rs:98-142, 147-155 *)
Definition validate_vulnerability (v : spec_version) (u : vulnerability) : outcome vresult :=
  run [ ("id", field_opt validate_normalized (v_id u));
        ("vulnerability_source", struct_opt validate_vuln_source (v_source u));
        ("vulnerability_references", items_of_option validate_vuln_references (v_references u));
        ("vulnerability_ratings", items_of_option (validate_ratings v) (v_ratings u));
        ("advisories", items_of_option validate_advisories (v_advisories u));
        ("created", field_opt validate_date_time (v_created u));
        ("published", field_opt validate_date_time (v_published u));
        ("updated", field_opt validate_date_time (v_updated u));
        ("vulnerability_credits", struct_opt (validate_credits v) (v_credits u));
        ("tools", struct_opt (validate_tools v) (v_tools u));
        ("vulnerability_analysis", struct_opt validate_analysis (v_analysis u));
        ("vulnerability_targets", struct_opt validate_targets (v_targets u));
        ("properties", struct_opt validate_properties (v_properties u)) ].
Definition validate_vulnerabilities (v : spec_version) (l : list vulnerability) : outcome vresult :=
  run [ ("inner", items (validate_vulnerability v) l) ].

(** ** References inside a BOM, models/bom.rs:461-569
    [BomReferencesContext] is the list of references met so far (its three sets
    are only ever consulted together); the traversal returns the messages of
    the [add_custom] calls. *)
Definition refs_contain (seen : list string) (r : string) : bool := existsb (String.eqb r) seen.

(** models/bom.rs:491-507, 536-543, 560-568: one element's own reference *)
Definition visit_ref (o : option string) (st : list string * list (string * string))
  : list string * list (string * string) :=
  match o with
  | None => st
  | Some r =>
      let '(seen, msgs) := st in
      (r :: seen,
       if refs_contain seen r
       then msgs ++ [("bom_ref", "Bom ref """ ++ r ++ """ is not unique")%string]
       else msgs)
  end.
(** models/bom.rs:491-517 *)
Fixpoint visit_component (c : component) (st : list string * list (string * string))
  : list string * list (string * string) :=
  let st := visit_ref (c_bom_ref c) st in
  match c_components c with
  | None => st
  | Some l => fold_left (fun st c => visit_component c st) l st
  end.
Definition visit_components (l : list component) st := fold_left (fun st c => visit_component c st) l st.
(** models/bom.rs:519-548 *)
Fixpoint visit_service (s : service) (st : list string * list (string * string))
  : list string * list (string * string) :=
  let st := visit_ref (s_bom_ref s) st in
  match s_services s with
  | None => st
  | Some l => fold_left (fun st s => visit_service s st) l st
  end.
Definition visit_services (l : list service) st := fold_left (fun st s => visit_service s st) l st.
(** models/bom.rs:550-569 *)
Definition visit_vulnerabilities (l : list vulnerability) st :=
  fold_left (fun st u => visit_ref (v_bom_ref u) st) l st.

Definition on_some {A S} (f : A -> S -> S) (o : option A) (s : S) : S :=
  match o with Some a => f a s | None => s end.

(** models/bom.rs:381-400 *)
Definition visit_bom (b : bom) : list string * list (string * string) :=
  on_some visit_vulnerabilities (b_vulnerabilities b)
    (on_some visit_services (b_services b)
       (on_some visit_components (b_components b)
          (on_some (fun m => on_some visit_component (m_component m)) (b_metadata b) ([], [])))).

(** models/bom.rs:402-428 *)
Definition dependency_msg (r : string) : string := ("Dependency ref '" ++ r ++ "' does not exist in the BOM")%string.
Definition dependency_errors (seen : list string) (l : list dependency) : list (string * string) :=
  flat_map (fun d =>
    (if refs_contain seen (d_ref d) then [] else [("dependency_ref", dependency_msg (d_ref d))])
    ++ flat_map (fun r => if refs_contain seen r then [] else [("sub dependency_ref", dependency_msg r)])
                (d_dependencies d)) l.
(** models/bom.rs:430-453 *)
Definition composition_msg (r : string) : string :=
  ("Composition reference '" ++ r ++ "' does not exist in the BOM")%string.
Definition opt_list {A} (o : option (list A)) : list A := match o with Some l => l | None => [] end.
Definition composition_errors (seen : list string) (l : list composition) : list (string * string) :=
  flat_map (fun c =>
    flat_map (fun r => if refs_contain seen r then [] else [("composition ref", composition_msg r)])
             (opt_list (co_assemblies c) ++ opt_list (co_dependencies c))) l.

(** models/bom.rs:360-456 *)
Definition validate_bom (v : spec_version) (b : bom) : outcome vresult :=
  do r <- run [ ("serial_number", field_opt validate_urn_uuid (b_serial_number b));
                ("metadata", struct_opt (validate_metadata v) (b_metadata b));
                ("components", struct_opt (validate_components v) (b_components b));
                ("services", struct_opt (validate_services v) (b_services b));
                ("external_references", struct_opt (validate_external_references v) (b_external_references b));
                ("compositions", struct_opt (validate_compositions v) (b_compositions b));
                ("properties", struct_opt validate_properties (b_properties b));
                ("vulnerabilities", struct_opt (validate_vulnerabilities v) (b_vulnerabilities b)) ];
  let '(seen, dups) := visit_bom b in
  add_customs (dups ++ dependency_errors seen (opt_list (b_dependencies b))
                    ++ composition_errors seen (opt_list (b_compositions b))) r.
(** models/bom.rs:458-460 *)
Definition validate (b : bom) : outcome vresult := validate_bom (b_spec_version b) b.

(** ** Constructors that check their argument *)
(** [Some] is [Ok], [None] an error; all keep the text unchanged *)
Definition checked (ok : string -> bool) (s : string) : option string := if ok s then Some s else None.
(** external_models/date_time.rs:45-57 *)
Definition date_time_try_from : string -> option string := checked (x_date_time x).
(** external_models/uri.rs:88-99 *)
Definition uri_try_from : string -> option string := checked (x_uri x).
(** external_models/spdx.rs:58-70, 158-180 *)
Definition spdx_id_try_from : string -> option string := checked (x_spdx_id x).
Definition spdx_expr_try_from : string -> option string := checked (x_spdx_expr x).
(** models/bom.rs:575-582 *)
Definition urn_uuid_new : string -> option string := checked (is_match urn_uuid_re).

End Validators.

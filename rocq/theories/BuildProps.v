(** C71: BOMs put together with the constructors of the library are valid, and survive being saved as JSON. *)
From Verif Require Import Base Strings Base64 ModelTypes Enums Regex ValModel ValSpec ValProofs ValProofs2 ValProofs3
  ValProofs4 ValProps GenModel BuildModel BuildSpec BuildProofs.
From Verif Require Import Json JsonLemmas JsonModel JsonSpec JsonProofs4 JsonProps Xml XmlModel XmlSpec XmlRead XmlProofs3 XmlProps XmlFitSpec XmlFitProps.
From Coq Require Import NArith ZArith.
Open Scope string_scope.
Open Scope list_scope.

(** ** Each constructor, for arbitrary texts *)
Theorem C71_constructors x v :
  (forall t name version r, validate_component x v (component_new t name version r) = Done []
     <-> classification_in v t)
  /\ (forall s, validate_license x v (named_license s) = Done [])
  /\ (forall s, validate_license x v (license_id s) = Done [] <-> x_spdx_id x s = true)
  /\ (forall s, validate_license_choice x v (choice_license s) = Done [])
  /\ (forall s, validate_license_choice x v (choice_expression s) = Done [] <-> x_spdx_expr x s = true)
  /\ (forall n e, validate_contact v (contact_new n e) = Done [])
  /\ (forall a b c, validate_tool x v (tool_new a b c) = Done [])
  /\ (forall n s, validate_property (mkProp n (normalize s)) = Done [])
  /\ (forall n u, validate_vuln_source x (vsource_new n u) = Done [] <-> ValSpec.when u (is_uri x))
  /\ (forall i s, validate_vuln_reference x (vreference_new i s) = Done [] <-> validate_vuln_source x s = Done [])
  /\ (forall u, validate_advisory x (advisory_new u) = Done [] <-> is_uri x u)
  /\ (forall a b, validate_version_status (version_new a b) = Done [] <-> In b ["affected"; "unaffected"; "unknown"])
  /\ (forall r, validate_target (target_new r) = Done [])
  /\ (forall r, validate_vulnerability x v (vulnerability_new r) = Done [])
  /\ (forall t u, validate_external_reference x v (ext_ref_new t u) = Done [] <->
        (forall s, t <> ERUnknown s) /\ (if is_bomlink u then v = V1_5 /\ bom_link_shape u else is_uri x u)).
Proof.
  split; [|split; [|split; [|split; [|split; [|split; [|split; [|split; [|split; [|split; [|split; [|split; [|split; [|split]]]]]]]]]]]]].
  - intros t name version r. rewrite component_iff. split; [intros H; rewrite valid_component_eq in H; apply H|].
    intros H. apply ok_component. now constructor.
  - intros s. apply license_iff. apply (ok_choice x v (choice_license s)). left. now exists s.
  - intros s. rewrite license_iff. split; [intros H; apply H|]. intros H. repeat split; try exact I. exact H.
  - intros s. apply license_choice_iff, ok_choice. left. now exists s.
  - intros s. apply (license_choice_iff x v (choice_expression s)).
  - intros n e. apply contact_iff, ok_contact. now exists n, e.
  - intros a b c. apply tool_iff, ok_tool. now exists a, b, c.
  - intros n s. apply property_iff, ok_property. now exists n, s.
  - intros n u. rewrite vuln_source_iff. split.
    + destruct n; intros H; apply H.
    + intros H. apply ok_vsource. now exists n, u.
  - intros i s. rewrite vuln_reference_iff, vuln_source_iff. split; [intros H; apply H|].
    intros H. split; [apply normal|exact H].
  - intros u. rewrite advisory_iff. split; [intros H; apply H|]. intros H. split; [exact I|exact H].
  - intros a b. rewrite version_status_iff. split.
    + intros [_ H]. cbn [version_new ve_status] in H. revert H. unfold status_of_text, tbl_status.
      cbn [of_table]. repeat match goal with |- context [String.eqb ?p ?q] =>
        destruct (String.eqb_spec p q) as [<-|?]; [intros _; cbn [In]; tauto|] end.
      intros H. now destruct (H b).
    + intros H. apply ok_version. now exists a, b.
  - intros r. apply target_iff. exact I.
  - intros r. apply vulnerability_iff. repeat split; exact I.
  - intros t u. rewrite ext_ref_iff. unfold valid_ext_ref, ext_ref_new, uri_of, is_bomlink. cbn [er_type er_url er_hashes].
    destruct (starts_with "urn:cdx" u); cbn [valid_ref_uri every_in ValSpec.when]; tauto.
Qed.

(** [AttachedText::new] encodes any bytes so that they can be had back *)
Theorem C71_attached_text ct bytes :
  b64_decode (at_content (attached_text_new ct bytes)) = Some bytes
  /\ (validate_attached_text (attached_text_new ct bytes) = Done [] <-> ValSpec.when ct single_line).
Proof.
  split; [apply b64_roundtrip|]. rewrite attached_text_iff. split; [intros H; apply H|].
  intros H. split; [exact H|]. exists bytes. apply b64_roundtrip.
Qed.
(** ** What the constructors carry, seen in the JSON of what they make: the texts given, with line breaks and tabs
    replaced by blanks where the constructor does that, and nothing else *)
Definition given (k : string) (o : option string) : list (string * json) :=
  match o with Some s => [(k, JStr s)] | None => [] end.
Ltac faithful_of := let P := fresh in pose proof C33_faithful_texts_partial as P;
  repeat match type of P with _ /\ _ => let A := fresh in destruct P as [A P] end;
  match goal with H : faithful_text ?w _ _ |- ?w _ = _ => apply (proj1 H) end.
Theorem C71_carried v :
  (forall t name version r name' version', flattened name name' -> flattened version version' ->
     to_json_component v (component_new t name version r)
     = JObj ([("type", JStr (text_classification t))] ++ given "bom-ref" r ++ [("name", JStr name'); ("version", JStr version')]))
  /\ (forall name r, to_json_service v (service_new name r) = JObj (given "bom-ref" r ++ [("name", JStr name)]))
  /\ (forall s s', flattened s s' -> to_json_license_choice v (choice_license s) = JObj [("license", JObj [("name", JStr s')])])
  /\ (forall s, to_json_license v (license_id s) = JObj [("id", JStr s)])
  /\ (forall s, to_json_license_choice v (choice_expression s) = JObj [("expression", JStr s)])
  /\ (forall s, to_json_entity (entity_new s) = JObj [("name", JStr s)])
  /\ (forall s s', flattened s s' -> to_json_contact (contact_new s None) = JObj [("name", JStr s')]
        /\ forall e e', flattened e e' -> to_json_contact (contact_new s (Some e)) = JObj [("name", JStr s'); ("email", JStr e')])
  /\ (forall a b c a' b' c', flattened a a' -> flattened b b' -> flattened c c' ->
        to_json_tool v (tool_new a b c) = JObj [("vendor", JStr a'); ("name", JStr b'); ("version", JStr c')])
  /\ (forall n s s', flattened s s' -> to_json_property (property_new n s) = JObj [("name", JStr n); ("value", JStr s')])
  /\ (forall t u, to_json_external_reference (ext_ref_new t u) = JObj [("type", JStr (text_ext_ref_type t)); ("url", JStr u)])
  /\ (forall u, to_json_vuln_source (vsource_new None u) = JObj (given "url" u)
        /\ forall n n', flattened n n' -> to_json_vuln_source (vsource_new (Some n) u) = JObj (("name", JStr n') :: given "url" u))
  /\ (forall i i' s, flattened i i' -> to_json_vuln_reference (vreference_new i s)
        = JObj [("id", JStr i'); ("source", to_json_vuln_source s)])
  /\ (forall u, to_json_advisory (advisory_new u) = JObj [("url", JStr u)])
  /\ (forall a a' s, flattened a a' ->
        (version_range_shape a -> to_json_version_status (version_new a s) = JObj [("range", JStr a'); ("status", JStr s)])
        /\ (~ version_range_shape a -> to_json_version_status (version_new a s) = JObj [("version", JStr a'); ("status", JStr s)]))
  /\ (forall r, to_json_vuln_target (target_new r) = JObj [("ref", JStr r)])
  /\ (forall r, to_json_vulnerability v (vulnerability_new r) = JObj (given "bom-ref" r))
  /\ (forall a s, to_json_signature (signature_single a s) = JObj [("algorithm", to_json_algorithm a); ("value", JStr s)])
  /\ (forall l, to_json_signature (signature_chain l)
        = JArr (map (fun p => JObj [("algorithm", to_json_algorithm (fst p)); ("value", JStr (snd p))]) l)
        /\ to_json_signature (signature_signers l) = to_json_signature (signature_chain l))
  /\ (forall l, exists k k', signature_chain l = SigChain k /\ signature_signers l = SigSigners k'
        /\ map (fun s => (sg_algorithm s, sg_value s)) k = l /\ map (fun s => (sg_algorithm s, sg_value s)) k' = l)
  /\ (forall s, to_json_approach (approach_new s) = JObj [("type", JStr s)])
  /\ (forall s, to_json_ml_parameter (ml_parameter_new s) = JObj [("format", JStr s)])
  /\ (forall s, to_json_occurrence (occurrence_new s) = JObj [("location", JStr s)])
  /\ (forall t, option_map (to_json_metadata v) (metadata_new t) = option_map (fun s => JObj [("timestamp", JStr s)]) t)
  /\ (forall a b c, to_json_vuln_rating (rating_new a b c)
        = JObj (match a with Some f => [("score", to_json_f32 f)] | None => [] end
                ++ given "severity" (option_map text_severity b) ++ given "method" (option_map text_score_method c)))
  /\ (forall a b c, to_json_vuln_analysis v (analysis_new a b c)
        = JObj (given "state" (option_map text_analysis_state a)
                ++ given "justification" (option_map text_analysis_justification b)
                ++ match c with Some l => [("responses", JArr (map (fun r => JStr (text_analysis_response r)) l))] | None => [] end))
  /\ (forall bytes, String.length bytes = 16%nat -> exists serial, serial_shape serial /\ output_as_json v (bom_default bytes)
        = Done (JObj [("bomFormat", JStr "CycloneDX"); ("specVersion", JStr (version_text v)); ("version", JInt 1);
                      ("serialNumber", JStr serial)])).
Proof.
  repeat split; intros;
    repeat match goal with H : flattened _ _ |- _ => apply C21_new_flattens in H; subst end;
    repeat match goal with o : option _ |- _ => destruct o end;
    try reflexivity; try (destruct v; reflexivity).
  - unfold ext_ref_new, uri_of, to_json_external_reference. cbn [er_type er_url er_comment er_hashes].
    destruct (starts_with "urn:cdx" u); reflexivity.
  - assert (T : text_status (status_of_text s) = s) by faithful_of.
    unfold version_new, version_range_new. rewrite (proj2 (version_range_iff a)) by assumption.
    unfold to_json_version_status, jtext. cbn [ve_range ve_status version_range_member]. now rewrite T.
  - assert (T : text_status (status_of_text s) = s) by faithful_of.
    unfold version_new, version_range_new. destruct (is_match version_range_re a) eqn:E.
    { now apply version_range_iff in E. }
    unfold to_json_version_status, jtext. cbn [ve_range ve_status version_range_member]. now rewrite T.
  - unfold signature_chain, to_json_signature, arr. rewrite map_map. reflexivity.
  - do 2 eexists. split; [reflexivity|]. split; [reflexivity|]. rewrite !map_map.
    split; (rewrite <- (map_id l) at 2; apply map_ext; intros []; reflexivity).
  - assert (T : text_approach_type (approach_type_of_text s) = s) by faithful_of.
    change (obj [("type", Some (JStr (text_approach_type (approach_type_of_text s))))] = JObj [("type", JStr s)]). now rewrite T.
  - exists (urn_uuid_from bytes). split; [now apply C28_generated|]. destruct v; reflexivity.
Qed.


(** ** Assignments, seen in the JSON: [sets k x j j']: [j'] is [j] with the member [k] given the value [x] *)
Fixpoint member_of (k : string) (l : list (string * json)) : option json :=
  match l with [] => None | (k', x) :: r => if String.eqb k k' then Some x else member_of k r end.
Definition sets (k : string) (x : json) (j j' : json) : Prop :=
  exists l l', j = JObj l /\ j' = JObj l' /\ member_of k l' = Some x
    /\ forall k', k' <> k -> member_of k' l' = member_of k' l.
Fixpoint same_but (k : string) (x : json) (fs fs' : list (string * option json)) : Prop :=
  match fs, fs' with
  | (a, o) :: r, (b, o') :: r' => a = b /\ if String.eqb a k then o' = Some x /\ r = r' else o = o' /\ same_but k x r r'
  | _, _ => False
  end.
Lemma sets_obj k x fs fs' : same_but k x fs fs' -> sets k x (obj fs) (obj fs').
Proof.
  intros H. exists (members fs), (members fs'). split; [reflexivity|]. split; [reflexivity|].
  revert fs' H. induction fs as [|[a o] r IH]; intros [|[b o'] r'] H; cbn [same_but] in H; try now destruct H.
  destruct H as [<- H]. destruct (String.eqb_spec a k) as [->|N].
  - destruct H as [-> <-]. cbn [members member_of]. rewrite String.eqb_refl. split; [reflexivity|].
    intros k' N. destruct o; cbn [members member_of]; apply String.eqb_neq in N; now rewrite ?N.
  - destruct H as [<- H]. destruct (IH _ H) as [G1 G2]. destruct o; cbn [members member_of]; [|now split].
    split.
    + assert (E : String.eqb k a = false) by (apply String.eqb_neq; congruence). now rewrite E.
    + intros k' N'. destruct (String.eqb k' a); auto.
Qed.
Theorem C71_component_assignments v c :
  (forall x, sets "supplier" (to_json_entity x) (to_json_component v c) (to_json_component v (with_component_supplier c x)))
  /\ (forall x, sets "author" (JStr x) (to_json_component v c) (to_json_component v (with_component_author c x)))
  /\ (forall x, sets "publisher" (JStr x) (to_json_component v c) (to_json_component v (with_component_publisher c x)))
  /\ (forall x, sets "group" (JStr x) (to_json_component v c) (to_json_component v (with_component_group c x)))
  /\ (forall x, sets "description" (JStr x) (to_json_component v c) (to_json_component v (with_component_description c x)))
  /\ (forall x, sets "scope" (JStr (text_scope x)) (to_json_component v c) (to_json_component v (with_component_scope c x)))
  /\ (forall x, sets "hashes" (arr to_json_hash x) (to_json_component v c) (to_json_component v (with_component_hashes c x)))
  /\ (forall x, sets "licenses" (arr (to_json_license_choice v) x) (to_json_component v c) (to_json_component v (with_component_licenses c x)))
  /\ (forall x, sets "copyright" (JStr x) (to_json_component v c) (to_json_component v (with_component_copyright c x)))
  /\ (forall x, sets "cpe" (JStr x) (to_json_component v c) (to_json_component v (with_component_cpe c x)))
  /\ (forall x, sets "purl" (JStr x) (to_json_component v c) (to_json_component v (with_component_purl c x)))
  /\ (forall x, sets "externalReferences" (arr to_json_external_reference x) (to_json_component v c) (to_json_component v (with_component_external_references c x)))
  /\ (forall x, sets "properties" (arr to_json_property x) (to_json_component v c) (to_json_component v (with_component_properties c x)))
  /\ (forall x, sets "components" (arr (to_json_component v) x) (to_json_component v c) (to_json_component v (with_component_components c x))).
Proof.
  repeat match goal with |- _ /\ _ => split end; intros; destruct c; apply sets_obj;
    cbn [same_but String.eqb Ascii.eqb Bool.eqb]; repeat split; reflexivity.
Qed.
Theorem C71_service_assignments v s :
  (forall x, sets "provider" (to_json_entity x) (to_json_service v s) (to_json_service v (with_service_provider s x)))
  /\ (forall x, sets "version" (JStr x) (to_json_service v s) (to_json_service v (with_service_version s x)))
  /\ (forall x, sets "description" (JStr x) (to_json_service v s) (to_json_service v (with_service_description s x)))
  /\ (forall x, sets "endpoints" (arr JStr x) (to_json_service v s) (to_json_service v (with_service_endpoints s x)))
  /\ (forall x, sets "licenses" (arr (to_json_license_choice v) x) (to_json_service v s) (to_json_service v (with_service_licenses s x)))
  /\ (forall x, sets "externalReferences" (arr to_json_external_reference x) (to_json_service v s) (to_json_service v (with_service_external_references s x)))
  /\ (forall x, sets "properties" (arr to_json_property x) (to_json_service v s) (to_json_service v (with_service_properties s x)))
  /\ (forall x, sets "services" (arr (to_json_service v) x) (to_json_service v s) (to_json_service v (with_service_services s x))).
Proof.
  repeat match goal with |- _ /\ _ => split end; intros; destruct s; apply sets_obj;
    cbn [same_but String.eqb Ascii.eqb Bool.eqb]; repeat split; reflexivity.
Qed.
Theorem C71_vulnerability_assignments v u :
  (forall x, sets "id" (JStr x) (to_json_vulnerability v u) (to_json_vulnerability v (with_vulnerability_id u x)))
  /\ (forall x, sets "source" (to_json_vuln_source x) (to_json_vulnerability v u) (to_json_vulnerability v (with_vulnerability_source u x)))
  /\ (forall x, sets "references" (arr to_json_vuln_reference x) (to_json_vulnerability v u) (to_json_vulnerability v (with_vulnerability_references u x)))
  /\ (forall x, sets "ratings" (arr to_json_vuln_rating x) (to_json_vulnerability v u) (to_json_vulnerability v (with_vulnerability_ratings u x)))
  /\ (forall x, sets "description" (JStr x) (to_json_vulnerability v u) (to_json_vulnerability v (with_vulnerability_description u x)))
  /\ (forall x, sets "advisories" (arr to_json_advisory x) (to_json_vulnerability v u) (to_json_vulnerability v (with_vulnerability_advisories u x)))
  /\ (forall x, sets "analysis" (to_json_vuln_analysis v x) (to_json_vulnerability v u) (to_json_vulnerability v (with_vulnerability_analysis u x)))
  /\ (forall x, sets "affects" (arr to_json_vuln_target x) (to_json_vulnerability v u) (to_json_vulnerability v (with_vulnerability_targets u x)))
  /\ (forall x, sets "properties" (arr to_json_property x) (to_json_vulnerability v u) (to_json_vulnerability v (with_vulnerability_properties u x))).
Proof.
  repeat match goal with |- _ /\ _ => split end; intros; destruct u; apply sets_obj;
    cbn [same_but String.eqb Ascii.eqb Bool.eqb]; repeat split; reflexivity.
Qed.
Theorem C71_metadata_assignments v m :
  (forall x, sets "tools" (to_json_tools v x) (to_json_metadata v m) (to_json_metadata v (with_metadata_tools m x)))
  /\ (forall x, sets "authors" (arr to_json_contact x) (to_json_metadata v m) (to_json_metadata v (with_metadata_authors m x)))
  /\ (forall x, sets "component" (to_json_component v x) (to_json_metadata v m) (to_json_metadata v (with_metadata_component m x)))
  /\ (forall x, sets "manufacture" (to_json_entity x) (to_json_metadata v m) (to_json_metadata v (with_metadata_manufacture m x)))
  /\ (forall x, sets "supplier" (to_json_entity x) (to_json_metadata v m) (to_json_metadata v (with_metadata_supplier m x)))
  /\ (forall x, sets "licenses" (arr (to_json_license_choice v) x) (to_json_metadata v m) (to_json_metadata v (with_metadata_licenses m x)))
  /\ (forall x, sets "properties" (arr to_json_property x) (to_json_metadata v m) (to_json_metadata v (with_metadata_properties m x))).
Proof.
  repeat match goal with |- _ /\ _ => split end; intros; destruct m; apply sets_obj;
    cbn [same_but String.eqb Ascii.eqb Bool.eqb]; repeat split; reflexivity.
Qed.
Theorem C71_bom_assignments v b :
  (forall x, sets "metadata" (to_json_metadata v x) (to_json_bom v b) (to_json_bom v (with_bom_metadata b x)))
  /\ (forall x, sets "components" (arr (to_json_component v) x) (to_json_bom v b) (to_json_bom v (with_bom_components b x)))
  /\ (forall x, sets "services" (arr (to_json_service v) x) (to_json_bom v b) (to_json_bom v (with_bom_services b x)))
  /\ (forall x, sets "externalReferences" (arr to_json_external_reference x) (to_json_bom v b) (to_json_bom v (with_bom_external_references b x)))
  /\ (forall x, sets "dependencies" (arr to_json_dependency x) (to_json_bom v b) (to_json_bom v (with_bom_dependencies b x)))
  /\ (forall x, version_leb V1_5 v = true -> sets "properties" (arr to_json_property x) (to_json_bom v b) (to_json_bom v (with_bom_properties b x)))
  /\ (forall x, version_leb V1_4 v = true -> sets "vulnerabilities" (arr (to_json_vulnerability v) x) (to_json_bom v b) (to_json_bom v (with_bom_vulnerabilities b x))).
Proof.
  repeat match goal with |- _ /\ _ => split end; intros; destruct b; destruct v; try discriminate; apply sets_obj;
    cbn [same_but String.eqb Ascii.eqb Bool.eqb]; repeat split; reflexivity.
Qed.
(** Two constructors take a text as it is where the others replace line breaks and tabs: what they make is invalid
    if the text has one. *)
Theorem C71_service_refuted : exists name, forall x v r, validate_service x v (service_new name r) <> Done [].
Proof.
  exists (String "a" (String LF "b")). intros x v r H. apply service_iff in H. rewrite valid_service_eq in H.
  destruct H as (_ & _ & (_ & N & _) & _). apply N. exists "a", "b". reflexivity.
Qed.
Theorem C71_entity_refuted : exists name, forall x v, validate_entity x v (entity_new name) <> Done [].
Proof.
  exists (String "a" (String LF "b")). intros x v H. apply entity_iff in H. destruct H as ((_ & N & _) & _). apply N.
  exists "a", "b". reflexivity.
Qed.
Theorem C71_service_partial x v name r : validate_service x v (service_new name r) = Done [] <-> single_line name.
Proof.
  rewrite service_iff. split; [intros H; rewrite valid_service_eq in H; apply H|]. intros H. apply ok_service. now constructor.
Qed.
Theorem C71_entity_partial x v name : validate_entity x v (entity_new name) = Done [] <-> single_line name.
Proof. rewrite entity_iff. split; [intros H; apply H|]. intros H. apply ok_entity. now exists name. Qed.

(** ** Whole BOMs *)
(** validation has nothing to report but references *)
Theorem C71_validation x v b : made_bom x v b ->
  (exists r, validate_bom x v b = Done r /\ passed r = true) <-> valid_references b.
Proof.
  intros M. rewrite C25_passes_iff_valid. unfold valid_bom. split; [intros H; apply H|].
  intros H. split; [now apply ok_bom|exact H].
Qed.
(** saving as JSON succeeds, and reading gives back the BOM as it was *)
Theorem C71_json x v b : made_bom x v b -> exists j, output_as_json v b = Done j
  /\ (forall j', like j j' -> parse_from_json j' = Done (at_version v b)
        /\ parse_from_json_with_version v j' = Done (at_version v b)).
Proof.
  intros M.
  destruct (proj2 (C43_json_output_fails_iff v b)) as [j O].
  { intros _ c C. apply (pedigree_none x v c). eapply bom_components_made; eauto. }
  exists j. split; [exact O|]. intros j' L.
  assert (F : forall c, bom_component v b c -> methods_finite v c).
  { intros c C _ e i m E. rewrite (proj1 (proj2 (proj2 (pedigree_none x v c (bom_components_made x v b c M C))))) in E.
    discriminate. }
  rewrite <- (keep_bom x v b M). split; [eapply output_then_parse_any|eapply output_then_parse]; eauto.
Qed.
(** saving as XML succeeds, and the document can be read if no licence has a blank name *)
Theorem C71_xml F x v b : float_text_ok F -> made_bom x v b ->
  exists w, output_as_xml F v b = Done w
  /\ ((exists b', parse_from_xml F v (written w) = XOk b' [])
      <-> forall i, In (PLicense i) (parts_bom v b) -> not_blank (match i with LSpdxId s => s | LName s => s end)).
Proof.
  intros HF M. destruct (proj2 (C43_xml_output_fails_iff F v b)) as [w O].
  { intros _ c C. apply (pedigree_none x v c). eapply bom_components_made; eauto. }
  exists w. split; [exact O|]. rewrite (C64_readable_iff F v b w) by auto. split.
  - intros H i I. specialize (H _ I). destruct i; exact H.
  - intros H p I. pose proof (simple_bom x v b M p I) as S. destruct p as [| [] | | | [] | | | | |]; try (now destruct S);
      try exact Logic.I; try (apply (H _ I)).
    + exfalso. eapply S. reflexivity.
    + intros _. exact S.
Qed.

(** ** A BOM that a program could put together *)
Definition sample_component (name r : string) : component :=
  with_component_licenses
    (with_component_author (component_new CLibrary name (String "1" (String TAB "0")) (Some r)) (normalize "J. Doe"))
    [choice_license ("My" ++ String LF "licence")%string].
Definition sample_vulnerability : vulnerability :=
  with_vulnerability_targets
    (with_vulnerability_ratings (vulnerability_new (Some "v")) [rating_new (Some (F_fin false 5%N 0%Z)) (Some SevHigh) (Some CVSSv3)])
    [mkTarget "a" (Some [version_new "vers:cargo/<1" "affected"; version_new "2" "unaffected"])].
Definition sample_bom : bom :=
  with_bom_vulnerabilities
    (with_bom_dependencies
      (with_bom_services
        (with_bom_components (bom_default "0123456789abcdef")
          [with_component_components (sample_component "a" "a") [sample_component "b" "b"]])
        [service_new "web" (Some "s")])
      [mkDependency "a" ["b"; "s"]])
    [sample_vulnerability].
Lemma sample_component_made x n r : made_component x V1_4 (sample_component n r).
Proof.
  apply component_licenses; [apply component_author, component_made; exact I|].
  split; [|discriminate]. intros c [<-|[]]. left. eauto.
Qed.
Example C71_case x : made_bom x V1_4 sample_bom /\ valid_references sample_bom
  /\ (exists r, validate_bom x V1_4 sample_bom = Done r /\ passed r = true)
  /\ exists j, output_as_json V1_4 sample_bom = Done j /\ parse_from_json j = Done (at_version V1_4 sample_bom).
Proof.
  assert (M : made_bom x V1_4 sample_bom).
  { apply bom_vulnerabilities; [|discriminate|].
    - apply bom_dependencies, bom_services; [apply bom_components; [now apply bom_made|]|].
      + intros c [<-|[]]. apply component_components; [apply sample_component_made|].
        intros d [<-|[]]. apply sample_component_made.
      + intros s [<-|[]]. apply service_made. apply normalized_iff. vm_compute. reflexivity.
    - intros u [<-|[]]. apply vulnerability_targets; [apply vulnerability_ratings; [apply vulnerability_made|]|].
      + intros r [<-|[]]. eexists _, _, _. split; [reflexivity|]. repeat split. discriminate.
      + intros t [<-|[]]. eexists _, _. split; [reflexivity|]. intros s [<-|[<-|[]]]; eexists _, _; (split; [reflexivity|]); cbn; tauto. }
  assert (R : valid_references sample_bom).
  { split.
    - vm_compute. repeat constructor; cbn; intuition discriminate.
    - intros r. vm_compute. intuition. }
  split; [exact M|]. split; [exact R|]. split; [now apply C71_validation|].
  destruct (C71_json x V1_4 _ M) as (j & O & H). exists j. split; [exact O|]. apply H, like_refl.
Qed.
Print Assumptions C71_constructors.
Print Assumptions C71_carried.
Print Assumptions C71_component_assignments.
Print Assumptions C71_service_assignments.
Print Assumptions C71_vulnerability_assignments.
Print Assumptions C71_metadata_assignments.
Print Assumptions C71_bom_assignments.
Print Assumptions C71_attached_text.
Print Assumptions C71_service_refuted.
Print Assumptions C71_entity_refuted.
Print Assumptions C71_service_partial.
Print Assumptions C71_entity_partial.
Print Assumptions C71_validation.
Print Assumptions C71_json.
Print Assumptions C71_xml.

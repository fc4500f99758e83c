(** Proofs for BuildProps.v: what was made with the constructors is valid, and is kept by JSON. *)
From Verif Require Import Base Strings Base64 ModelTypes Enums Regex ValModel ValSpec ValProofs ValProofs2 ValProofs3
  ValProofs4 ValProps GenModel BuildModel BuildSpec JsonSpec XmlFitSpec.
Open Scope string_scope.
Open Scope list_scope.

Lemma all_every {A} (P : A -> Prop) l : all P l -> every P l.
Proof. intros H. apply every_Forall, Forall_forall. exact H. Qed.
Lemma all_weaken {A} (P Q : A -> Prop) l : (forall a, P a -> Q a) -> all P l -> every Q l.
Proof. intros I H. apply all_every. intros a J. auto. Qed.
Lemma map_all {A} (P : A -> Prop) f l : (forall a, P a -> f a = a) -> all P l -> map f l = l.
Proof.
  intros I H. induction l as [|a l' IH]; [reflexivity|]. cbn [map]. rewrite I by (apply H; now left).
  f_equal. apply IH. intros b J. apply H. now right.
Qed.

Section Made.
Variable x : parsers.
Variable v : spec_version.

(** *** Parts are valid *)
Lemma normal s : single_line (normalize s).
Proof. apply normalize_single_line. Qed.
Lemma ok_property p : made_property p -> valid_property p.
Proof. intros (n & s & ->). apply normal. Qed.
Lemma ok_contact c : made_contact c -> valid_contact v c.
Proof.
  intros (n & [e|] & ->); unfold valid_contact; cbn [contact_new ct_bom_ref ct_name ct_email ct_phone when option_map];
    auto using normal.
Qed.
Lemma ok_entity e : made_entity e -> valid_entity x v e.
Proof. intros (n & -> & H). split; [exact H|]. split; exact I. Qed.
Lemma ok_hash h : made_hash h -> valid_hash h.
Proof.
  intros [A B]. split; [exact A|]. apply C29_hash_accepted_partial, C29_well_formed_accepted_partial, B.
Qed.
Lemma ok_ext_ref e : made_ext_ref x v e -> valid_ext_ref x v e.
Proof.
  intros (t & u & -> & K & _ & U). split; [exact K|]. split; [|exact I].
  unfold ext_ref_new, uri_of, valid_ref_uri. cbn [er_url]. unfold is_bomlink in U.
  destruct (starts_with "urn:cdx" u); exact U.
Qed.
Lemma ok_choice c : made_choice x c -> valid_license_choice x v c.
Proof.
  intros [(s & ->)|[(s & -> & H)|(s & -> & H)]].
  - repeat split; cbn [when every_in]; try exact I; apply (normal s).
  - repeat split; cbn [when every_in]; try exact I; exact H.
  - exact H.
Qed.
Lemma ok_licenses l : made_licenses x v l -> valid_licenses x v l.
Proof.
  intros [A B]. split; [eapply all_weaken; [apply ok_choice|exact A]|].
  intros E. destruct (B E) as [C|C]; [left|right; exact C].
  intros c H. specialize (C c H). destruct c as [k|]; [eauto|discriminate].
Qed.
Lemma ok_tool t : made_tool t -> valid_tool x v t.
Proof. intros (a & b & c & ->). repeat apply conj; try exact I; apply normal. Qed.

Lemma valid_component_eq c : valid_component x v c =
  (classification_in v (c_type c)
  /\ when (c_mime_type c) mime_shape /\ when (c_supplier c) (valid_entity x v)
  /\ when (c_author c) single_line /\ when (c_publisher c) single_line /\ when (c_group c) single_line
  /\ single_line (c_name c) /\ when (c_version c) single_line /\ when (c_description c) single_line
  /\ when (c_scope c) (fun s => forall t, s <> ScUnknown t)
  /\ every_in (c_hashes c) valid_hash /\ when (c_licenses c) (valid_licenses x v)
  /\ when (c_copyright c) single_line /\ when (c_cpe c) cpe_accepted /\ when (c_purl c) (is_purl x)
  /\ when (c_swid c) (valid_swid x)
  /\ when (c_pedigree c) (valid_pedigree_with x (valid_component x v))
  /\ every_in (c_external_references c) (valid_ext_ref x v) /\ every_in (c_properties c) valid_property
  /\ every_in (c_components c) (valid_component x v)
  /\ when (c_evidence c) (valid_evidence x v)).
Proof. destruct c; reflexivity. Qed.
Lemma valid_service_eq s : valid_service x v s =
  (when (s_provider s) (valid_entity x v) /\ when (s_group s) single_line /\ single_line (s_name s)
  /\ when (s_version s) single_line /\ when (s_description s) single_line
  /\ every_in (s_endpoints s) (is_uri x) /\ when (s_data s) (valid_data x v)
  /\ when (s_licenses s) (valid_licenses x v) /\ every_in (s_external_references s) (valid_ext_ref x v)
  /\ every_in (s_properties s) valid_property /\ every_in (s_services s) (valid_service x v)
  /\ when (s_trust_zone s) single_line).
Proof. destruct s; reflexivity. Qed.

Ltac part :=
  first [ exact I | assumption | apply normal
        | match goal with |- when (Some _) _ => cbn [when] end; part
        | match goal with |- every_in (Some _) _ => unfold every_in; cbn [when] end; part
        | match goal with |- every _ _ => eapply all_weaken; [|eassumption] end;
            first [apply ok_property | apply ok_contact | apply ok_hash | apply ok_ext_ref | apply ok_tool]
        | match goal with |- every _ _ => apply all_every; assumption end
        | apply ok_entity; assumption | apply ok_licenses; assumption ].
Ltac parts := repeat match goal with |- _ /\ _ => split end; try part.

Lemma ok_component c : made_component x v c -> valid_component x v c.
Proof.
  induction 1; rewrite valid_component_eq in *.
  1: { unfold component_new; cbn [c_type c_mime_type c_supplier c_author c_publisher c_group c_name c_version
         c_description c_scope c_hashes c_licenses c_copyright c_cpe c_purl c_swid c_pedigree
         c_external_references c_properties c_components c_evidence]. parts. }
  all: repeat match goal with H : _ /\ _ |- _ => destruct H end;
    cbv delta [with_component_supplier with_component_author with_component_publisher with_component_group
      with_component_description with_component_scope with_component_hashes with_component_licenses
      with_component_copyright with_component_cpe with_component_purl with_component_external_references
      with_component_properties with_component_components] beta;
    cbn [c_type c_mime_type c_supplier c_author c_publisher c_group c_name c_version
         c_description c_scope c_hashes c_licenses c_copyright c_cpe c_purl c_swid c_pedigree
         c_external_references c_properties c_components c_evidence]; parts.
  - (* cpe *) cbn [when]. exists "", s, "". split; [|assumption].
    cbn [append]. clear. induction s as [|a s IH]; [reflexivity|cbn [append]; now rewrite <- IH].
Qed.
Lemma ok_service s : made_service x v s -> valid_service x v s.
Proof.
  induction 1; rewrite valid_service_eq in *.
  1: { unfold service_new; cbn [s_provider s_group s_name s_version s_description s_endpoints s_data s_licenses
         s_external_references s_properties s_services s_trust_zone]. parts. }
  all: repeat match goal with H : _ /\ _ |- _ => destruct H end;
    cbv delta [with_service_provider with_service_version with_service_description with_service_endpoints
      with_service_licenses with_service_external_references with_service_properties with_service_services] beta;
    cbn [s_provider s_group s_name s_version s_description s_endpoints s_data s_licenses
         s_external_references s_properties s_services s_trust_zone]; parts.
Qed.

Lemma ok_vsource s : made_vsource x s -> valid_vuln_source x s.
Proof. intros ([n|] & u & -> & H); split; try exact H; try exact I. apply normal. Qed.
Lemma ok_vreference r : made_vreference x r -> valid_vuln_reference x r.
Proof. intros (i & s & -> & H). split; [apply normal|]. apply ok_vsource, H. Qed.
Lemma ok_rating r : made_rating v r -> valid_rating x v r.
Proof. intros (c & s & m & -> & _ & S & M). repeat apply conj; try exact I; assumption. Qed.
Lemma ok_advisory a : made_advisory x a -> valid_advisory x a.
Proof. intros (u & -> & H). split; [exact I|exact H]. Qed.
Lemma ok_analysis a : made_analysis a -> valid_analysis x a.
Proof.
  intros (s & j & r & -> & S & J & R). repeat apply conj; try exact I; try assumption.
  cbn [analysis_new va_responses]. destruct r as [l|]; [|exact I]. apply all_every, R.
Qed.
Lemma ok_version s : made_version s -> valid_version_status s.
Proof.
  intros (a & b & -> & H). split.
  - intros t. cbn [version_new ve_range]. unfold version_range_new. destruct (is_match _ _); discriminate.
  - intros t. cbn [version_new ve_status]. destruct H as [<-|[<-|[<-|[]]]]; vm_compute; discriminate.
Qed.
Lemma ok_target t : made_target t -> valid_target t.
Proof.
  intros (r & l & -> & H). unfold valid_target. cbn [vt_versions]. destruct l as [l|]; [|exact I].
  eapply all_weaken; [apply ok_version|exact H].
Qed.
Ltac vpart :=
  first [ part
        | match goal with |- when (Some _) _ => cbn [when] end; vpart
        | match goal with |- every_in (Some _) _ => unfold every_in; cbn [when] end; vpart
        | match goal with |- every _ _ => eapply all_weaken; [|eassumption] end;
            first [apply ok_vreference | apply ok_rating | apply ok_advisory | apply ok_target]
        | apply ok_vsource; assumption | apply ok_analysis; assumption ].
Lemma ok_vulnerability u : made_vulnerability x v u -> valid_vulnerability x v u.
Proof.
  unfold valid_vulnerability. induction 1;
    repeat match goal with H : _ /\ _ |- _ => destruct H end;
    cbv delta [vulnerability_new with_vulnerability_id with_vulnerability_source with_vulnerability_references
      with_vulnerability_ratings with_vulnerability_description with_vulnerability_advisories
      with_vulnerability_analysis with_vulnerability_targets with_vulnerability_properties] beta;
    cbn [v_id v_source v_references v_ratings v_advisories v_created v_published v_updated v_credits v_tools
      v_analysis v_targets v_properties];
    repeat match goal with |- _ /\ _ => split end; try vpart.
Qed.
Ltac mpart :=
  first [ part | match goal with |- when (Some _) _ => cbn [when] end; mpart
        | apply ok_component; assumption ].
Lemma ok_metadata m : made_metadata x v m -> valid_metadata x v m.
Proof.
  unfold valid_metadata. induction 1 as [[t|] m E T| | | | | | |]; [|discriminate| | | | | | |].
  1: { injection E as <-. cbn [m_timestamp m_tools m_authors m_component m_manufacture m_supplier m_licenses
         m_properties when every_in]. repeat split; assumption. }
  all: repeat match goal with H : _ /\ _ |- _ => destruct H end;
    cbv delta [with_metadata_tools with_metadata_authors with_metadata_component with_metadata_manufacture
      with_metadata_supplier with_metadata_licenses with_metadata_properties] beta;
    cbn [m_timestamp m_tools m_authors m_component m_manufacture m_supplier m_licenses m_properties];
    repeat match goal with |- _ /\ _ => split end; try mpart.
  cbn [when valid_tools]. eapply all_weaken; [apply ok_tool|eassumption].
Qed.
Ltac bpart :=
  first [ part
        | match goal with |- when (Some _) _ => cbn [when] end; bpart
        | match goal with |- every_in (Some _) _ => unfold every_in; cbn [when] end; bpart
        | match goal with |- every _ _ => eapply all_weaken; [|eassumption] end;
            first [apply ok_component | apply ok_service | apply ok_vulnerability]
        | apply ok_metadata; assumption ].
Lemma ok_bom b : made_bom x v b -> valid_fields x v b.
Proof.
  unfold valid_fields. induction 1;
    repeat match goal with H : _ /\ _ |- _ => destruct H end;
    cbv delta [bom_default with_bom_metadata with_bom_components with_bom_services with_bom_external_references
      with_bom_dependencies with_bom_properties with_bom_vulnerabilities] beta;
    cbn [b_serial_number b_metadata b_components b_services b_external_references b_compositions b_properties
      b_vulnerabilities];
    repeat match goal with |- _ /\ _ => split end; try bpart.
  cbn [when]. now apply urn_uuid_from_shape.
Qed.

(** *** JSON keeps what was made *)
Lemma keep_hash h : made_hash h -> kept_hash h = h.
Proof.
  intros [A _]. destruct h as [a t]. unfold kept_hash. cbn [h_alg h_content] in *. f_equal.
  destruct a; try reflexivity. exfalso; eapply A; reflexivity.
Qed.
Lemma keep_ext_ref e : made_ext_ref x v e -> kept_external_reference e = e.
Proof.
  intros (t & u & -> & K & N & _). unfold kept_external_reference, ext_ref_new. cbn [er_type er_url er_comment er_hashes option_map].
  f_equal.
  - destruct t; try reflexivity; exfalso; first [eapply K; reflexivity | apply N; reflexivity].
  - unfold uri_of, kept_uri. destruct (starts_with "urn:cdx" u) eqn:E; now rewrite E.
Qed.
Lemma keep_choice c : made_choice x c -> kept_license_choice v c = c.
Proof.
  intros [(s & ->)|[(s & -> & _)|(s & -> & _)]]; [| |reflexivity];
    unfold choice_license, named_license, license_id, kept_license_choice, kept_license, from;
    cbn [l_bom_ref l_identifier l_text l_url l_licensing l_properties option_map]; now destruct (version_leb V1_5 v).
Qed.
Lemma keep_licenses l : made_licenses x v l -> map (kept_license_choice v) l = l.
Proof. intros [A _]. eapply map_all; [apply keep_choice|exact A]. Qed.
Lemma keep_tool t : made_tool t -> kept_tool v t = t.
Proof.
  intros (a & b & c & ->). unfold kept_tool, tool_new, from.
  cbn [t_vendor t_name t_version t_hashes t_external_references option_map]. now destruct (version_leb V1_4 v).
Qed.
Lemma from_none {A} a : from a v (@None A) = None.
Proof. unfold from. now destruct (version_leb a v). Qed.
Lemma kept_component_eq c : kept_component v c = mkComponent
    (kept_classification (c_type c)) (c_mime_type c) (c_bom_ref c) (c_supplier c) (c_author c) (c_publisher c)
    (c_group c) (c_name c) (c_version c) (c_description c) (option_map kept_scope (c_scope c))
    (option_map (map kept_hash) (c_hashes c)) (option_map (map (kept_license_choice v)) (c_licenses c))
    (c_copyright c) (c_cpe c) (c_purl c) (option_map kept_swid (c_swid c)) (c_modified c)
    (option_map (kept_pedigree (kept_component v)) (c_pedigree c))
    (option_map (map kept_external_reference) (c_external_references c)) (c_properties c)
    (option_map (map (kept_component v)) (c_components c)) (option_map (kept_evidence v) (c_evidence c))
    (from V1_4 v (option_map kept_signature (c_signature c)))
    (from V1_5 v (option_map kept_model_card (c_model_card c)))
    (from V1_5 v (option_map kept_component_data (c_data c))).
Proof. destruct c; reflexivity. Qed.
Lemma keep_component c : made_component x v c -> kept_component v c = c.
Proof.
  induction 1.
  { rewrite kept_component_eq. unfold component_new.
    cbn [c_type c_mime_type c_bom_ref c_supplier c_author c_publisher c_group c_name c_version c_description c_scope
      c_hashes c_licenses c_copyright c_cpe c_purl c_swid c_modified c_pedigree c_external_references c_properties
      c_components c_evidence c_signature c_model_card c_data option_map]. rewrite !from_none.
    assert (E : kept_classification t = t) by (destruct t; try reflexivity; contradiction). rewrite E. reflexivity. }
  - replace (kept_component v (with_component_supplier c e)) with (with_component_supplier (kept_component v c) e) by (destruct c; reflexivity). congruence.
  - replace (kept_component v (with_component_author c (normalize s))) with (with_component_author (kept_component v c) (normalize s)) by (destruct c; reflexivity). congruence.
  - replace (kept_component v (with_component_publisher c (normalize s))) with (with_component_publisher (kept_component v c) (normalize s)) by (destruct c; reflexivity). congruence.
  - replace (kept_component v (with_component_group c (normalize s))) with (with_component_group (kept_component v c) (normalize s)) by (destruct c; reflexivity). congruence.
  - replace (kept_component v (with_component_description c (normalize s))) with (with_component_description (kept_component v c) (normalize s)) by (destruct c; reflexivity). congruence.
  - replace (kept_component v (with_component_scope c s)) with (with_component_scope (kept_component v c) (kept_scope s)) by (destruct c; reflexivity).
    assert (E : kept_scope s = s) by (destruct s; try reflexivity; exfalso; eapply H0; reflexivity).
    now rewrite IHmade_component, E.
  - replace (kept_component v (with_component_hashes c l)) with (with_component_hashes (kept_component v c) (map kept_hash l)) by (destruct c; reflexivity).
    rewrite IHmade_component, (map_all made_hash); auto using keep_hash.
  - replace (kept_component v (with_component_licenses c l))
      with (with_component_licenses (kept_component v c) (map (kept_license_choice v) l)) by (destruct c; reflexivity).
    now rewrite IHmade_component, keep_licenses.
  - replace (kept_component v (with_component_copyright c (normalize s))) with (with_component_copyright (kept_component v c) (normalize s)) by (destruct c; reflexivity). congruence.
  - replace (kept_component v (with_component_cpe c s)) with (with_component_cpe (kept_component v c) s) by (destruct c; reflexivity). congruence.
  - replace (kept_component v (with_component_purl c s)) with (with_component_purl (kept_component v c) s) by (destruct c; reflexivity). congruence.
  - replace (kept_component v (with_component_external_references c l))
      with (with_component_external_references (kept_component v c) (map kept_external_reference l)) by (destruct c; reflexivity).
    rewrite IHmade_component, (map_all (made_ext_ref x v)); auto using keep_ext_ref.
  - replace (kept_component v (with_component_properties c l)) with (with_component_properties (kept_component v c) l) by (destruct c; reflexivity). congruence.
  - replace (kept_component v (with_component_components c l))
      with (with_component_components (kept_component v c) (map (kept_component v) l)) by (destruct c; reflexivity).
    rewrite IHmade_component, (map_all (fun d => kept_component v d = d)); auto.
Qed.
Lemma kept_service_eq s : kept_service v s = mkService
    (s_bom_ref s) (s_provider s) (s_group s) (s_name s) (s_version s) (s_description s) (s_endpoints s)
    (s_authenticated s) (s_x_trust_boundary s) (option_map kept_data (s_data s))
    (option_map (map (kept_license_choice v)) (s_licenses s))
    (option_map (map kept_external_reference) (s_external_references s)) (s_properties s)
    (option_map (map (kept_service v)) (s_services s)) (from V1_4 v (option_map kept_signature (s_signature s)))
    (from V1_5 v (s_trust_zone s)).
Proof. destruct s; reflexivity. Qed.
Lemma keep_service s : made_service x v s -> kept_service v s = s.
Proof.
  induction 1.
  { rewrite kept_service_eq. unfold service_new.
    cbn [s_bom_ref s_provider s_group s_name s_version s_description s_endpoints s_authenticated s_x_trust_boundary
      s_data s_licenses s_external_references s_properties s_services s_signature s_trust_zone option_map].
    now rewrite !from_none. }
  - replace (kept_service v (with_service_provider s e)) with (with_service_provider (kept_service v s) e)
      by (destruct s; reflexivity). congruence.
  - replace (kept_service v (with_service_version s (normalize t)))
      with (with_service_version (kept_service v s) (normalize t)) by (destruct s; reflexivity). congruence.
  - replace (kept_service v (with_service_description s (normalize t)))
      with (with_service_description (kept_service v s) (normalize t)) by (destruct s; reflexivity). congruence.
  - replace (kept_service v (with_service_endpoints s l)) with (with_service_endpoints (kept_service v s) l)
      by (destruct s; reflexivity). congruence.
  - replace (kept_service v (with_service_licenses s l))
      with (with_service_licenses (kept_service v s) (map (kept_license_choice v) l)) by (destruct s; reflexivity).
    now rewrite IHmade_service, keep_licenses.
  - replace (kept_service v (with_service_external_references s l))
      with (with_service_external_references (kept_service v s) (map kept_external_reference l)) by (destruct s; reflexivity).
    rewrite IHmade_service, (map_all (made_ext_ref x v)); auto using keep_ext_ref.
  - replace (kept_service v (with_service_properties s l)) with (with_service_properties (kept_service v s) l)
      by (destruct s; reflexivity). congruence.
  - replace (kept_service v (with_service_services s l))
      with (with_service_services (kept_service v s) (map (kept_service v) l)) by (destruct s; reflexivity).
    rewrite IHmade_service, (map_all (fun d => kept_service v d = d)); auto.
Qed.

Lemma keep_rating r : made_rating v r -> kept_vuln_rating r = r.
Proof.
  intros (c & s & m & -> & C & S & M). unfold kept_vuln_rating, rating_new.
  cbn [ra_source ra_score ra_severity ra_method ra_vector ra_justification].
  assert (E1 : finite_only c = c) by (destruct c as [c|]; [cbn [finite_only]; now rewrite C|reflexivity]).
  assert (E2 : option_map kept_severity s = s).
  { destruct s as [s|]; [|reflexivity]. cbn [option_map]. f_equal. destruct s; try reflexivity. exfalso; eapply S; reflexivity. }
  assert (E3 : option_map kept_score_method m = m).
  { destruct m as [m|]; [|reflexivity]. cbn [option_map]. f_equal. destruct m; try reflexivity. destruct M. }
  now rewrite E1, E2, E3.
Qed.
Lemma keep_analysis a : made_analysis a -> kept_vuln_analysis v a = a.
Proof.
  intros (s & j & r & -> & S & J & R). unfold kept_vuln_analysis, analysis_new.
  cbn [va_state va_justification va_responses va_detail va_first_issued va_last_updated]. rewrite !from_none.
  assert (E1 : option_map kept_analysis_state s = s).
  { destruct s as [s|]; [|reflexivity]. cbn [option_map]. f_equal. destruct s; try reflexivity. exfalso; eapply S; reflexivity. }
  assert (E2 : option_map kept_analysis_justification j = j).
  { destruct j as [j|]; [|reflexivity]. cbn [option_map]. f_equal. destruct j; try reflexivity. exfalso; eapply J; reflexivity. }
  assert (E3 : option_map (map kept_analysis_response) r = r).
  { destruct r as [r|]; [|reflexivity]. cbn [option_map]. f_equal. eapply map_all; [|exact R].
    intros a N. destruct a; try reflexivity. exfalso; eapply N; reflexivity. }
  now rewrite E1, E2, E3.
Qed.
Lemma keep_version s : made_version s -> kept_version_status s = s.
Proof.
  intros (a & b & -> & H). unfold kept_version_status, version_new. cbn [ve_range ve_status]. f_equal.
  destruct H as [<-|[<-|[<-|[]]]]; reflexivity.
Qed.
Lemma keep_target t : made_target t -> kept_vuln_target t = t.
Proof.
  intros (r & l & -> & H). unfold kept_vuln_target. cbn [vt_bom_ref vt_versions]. f_equal.
  destruct l as [l|]; [|reflexivity]. cbn [option_map]. f_equal. eapply map_all; [apply keep_version|exact H].
Qed.
Lemma keep_vulnerability u : made_vulnerability x v u -> kept_vulnerability v u = u.
Proof.
  induction 1.
  { unfold kept_vulnerability, vulnerability_new.
    cbn [v_bom_ref v_id v_source v_references v_ratings v_cwes v_description v_detail v_recommendation v_workaround
      v_proof_of_concept v_advisories v_created v_published v_updated v_rejected v_credits v_tools v_analysis
      v_targets v_properties option_map]. now rewrite !from_none. }
  - change (kept_vulnerability v (with_vulnerability_id u (normalize s)))
      with (with_vulnerability_id (kept_vulnerability v u) (normalize s)). congruence.
  - change (kept_vulnerability v (with_vulnerability_source u s))
      with (with_vulnerability_source (kept_vulnerability v u) s). congruence.
  - change (kept_vulnerability v (with_vulnerability_references u l))
      with (with_vulnerability_references (kept_vulnerability v u) l). congruence.
  - change (kept_vulnerability v (with_vulnerability_ratings u l))
      with (with_vulnerability_ratings (kept_vulnerability v u) (map kept_vuln_rating l)).
    rewrite IHmade_vulnerability, (map_all (made_rating v)); auto using keep_rating.
  - change (kept_vulnerability v (with_vulnerability_description u s))
      with (with_vulnerability_description (kept_vulnerability v u) s). congruence.
  - change (kept_vulnerability v (with_vulnerability_advisories u l))
      with (with_vulnerability_advisories (kept_vulnerability v u) l). congruence.
  - change (kept_vulnerability v (with_vulnerability_analysis u a))
      with (with_vulnerability_analysis (kept_vulnerability v u) (kept_vuln_analysis v a)).
    now rewrite IHmade_vulnerability, keep_analysis.
  - change (kept_vulnerability v (with_vulnerability_targets u l))
      with (with_vulnerability_targets (kept_vulnerability v u) (map kept_vuln_target l)).
    rewrite IHmade_vulnerability, (map_all made_target); auto using keep_target.
  - change (kept_vulnerability v (with_vulnerability_properties u l))
      with (with_vulnerability_properties (kept_vulnerability v u) l). congruence.
Qed.
Lemma keep_metadata m : made_metadata x v m -> kept_metadata v m = m.
Proof.
  induction 1 as [[t|] m E T|m l H IH L|m l H IH L|m c H IH C|m e H IH L|m e H IH L|m l H IH L|m l H IH L]; try discriminate.
  { injection E as <-. unfold kept_metadata. cbn [m_timestamp m_tools m_authors m_component m_manufacture m_supplier
      m_licenses m_properties m_lifecycles option_map]. now rewrite from_none. }
  - change (kept_metadata v (with_metadata_tools m (TList l)))
      with (with_metadata_tools (kept_metadata v m) (TList (map (kept_tool v) l))).
    rewrite IH, (map_all made_tool); auto using keep_tool.
  - change (kept_metadata v (with_metadata_authors m l)) with (with_metadata_authors (kept_metadata v m) l). congruence.
  - change (kept_metadata v (with_metadata_component m c))
      with (with_metadata_component (kept_metadata v m) (kept_component v c)). now rewrite IH, keep_component.
  - change (kept_metadata v (with_metadata_manufacture m e)) with (with_metadata_manufacture (kept_metadata v m) e). congruence.
  - change (kept_metadata v (with_metadata_supplier m e)) with (with_metadata_supplier (kept_metadata v m) e). congruence.
  - change (kept_metadata v (with_metadata_licenses m l))
      with (with_metadata_licenses (kept_metadata v m) (map (kept_license_choice v) l)). now rewrite IH, keep_licenses.
  - change (kept_metadata v (with_metadata_properties m l)) with (with_metadata_properties (kept_metadata v m) l). congruence.
Qed.
Lemma keep_bom b : made_bom x v b -> kept_bom v b = at_version v b.
Proof.
  induction 1 as [u L|b m H IH M|b l H IH L|b l H IH L|b l H IH L|b l H IH|b l H IH E L|b l H IH N L].
  { unfold kept_bom, bom_default, at_version.
    cbn [b_version b_serial_number b_metadata b_components b_services b_external_references b_dependencies
      b_compositions b_properties b_vulnerabilities b_signature b_annotations b_formulation option_map].
    now rewrite !from_none. }
  - change (kept_bom v (with_bom_metadata b m)) with (with_bom_metadata (kept_bom v b) (kept_metadata v m)).
    now rewrite IH, keep_metadata.
  - change (kept_bom v (with_bom_components b l)) with (with_bom_components (kept_bom v b) (map (kept_component v) l)).
    rewrite IH, (map_all (made_component x v)); auto using keep_component.
  - change (kept_bom v (with_bom_services b l)) with (with_bom_services (kept_bom v b) (map (kept_service v) l)).
    rewrite IH, (map_all (made_service x v)); auto using keep_service.
  - change (kept_bom v (with_bom_external_references b l))
      with (with_bom_external_references (kept_bom v b) (map kept_external_reference l)).
    rewrite IH, (map_all (made_ext_ref x v)); auto using keep_ext_ref.
  - change (kept_bom v (with_bom_dependencies b l)) with (with_bom_dependencies (kept_bom v b) l). now rewrite IH.
  - subst v. change (kept_bom V1_5 (with_bom_properties b l)) with (with_bom_properties (kept_bom V1_5 b) l). now rewrite IH.
  - assert (F : forall A (o : option A), from V1_4 v o = o) by (intros; unfold from; destruct v; [congruence|reflexivity|reflexivity]).
    replace (kept_bom v (with_bom_vulnerabilities b l))
      with (with_bom_vulnerabilities (kept_bom v b) (map (kept_vulnerability v) l)).
    + rewrite IH, (map_all (made_vulnerability x v)); auto using keep_vulnerability.
    + unfold kept_bom, with_bom_vulnerabilities. cbn [b_version b_serial_number b_metadata b_components b_services
        b_external_references b_dependencies b_compositions b_properties b_vulnerabilities b_signature b_annotations
        b_formulation b_spec_version option_map]. now rewrite !F.
Qed.

(** *** ... and can write it *)
Lemma pedigree_none c : made_component x v c -> c_pedigree c = None /\ c_version c <> None /\ c_evidence c = None
  /\ forall d, In d (olist (c_components c)) -> made_component x v d.
Proof.
  induction 1; try exact IHmade_component.
  - split; [reflexivity|]. split; [discriminate|]. split; [reflexivity|]. intros d [].
  - destruct IHmade_component as (A & B & C & _). split; [exact A|]. split; [exact B|]. split; [exact C|]. exact H0.
Qed.
Lemma within_made c d : within c d -> made_component x v c -> made_component x v d.
Proof.
  induction 1 as [c|c d e I W IH|c p d e P I W IH]; intros M; [exact M| |].
  - apply IH, (pedigree_none c M), I.
  - rewrite (proj1 (pedigree_none c M)) in P. discriminate.
Qed.
Lemma metadata_parts m : made_metadata x v m ->
  (forall c, m_component m = Some c -> made_component x v c) /\ forall t, m_tools m = Some t -> exists l, t = TList l.
Proof.
  induction 1 as [[t|] m E T|m l H IH L|m l H IH L|m c H IH C|m e H IH L|m e H IH L|m l H IH L|m l H IH L]; try discriminate;
    try exact IH.
  - injection E as <-. split; intros ? [=].
  - split; [apply IH|]. intros t [= <-]. eauto.
  - split; [intros d [= <-]; exact C|apply IH].
Qed.
Lemma vulnerability_tools u : made_vulnerability x v u -> v_tools u = None.
Proof. induction 1; auto. Qed.
Lemma bom_parts b : made_bom x v b ->
  (forall m, b_metadata b = Some m -> made_metadata x v m) /\ all (made_component x v) (olist (b_components b))
  /\ all (made_vulnerability x v) (olist (b_vulnerabilities b)) /\ b_annotations b = None /\ b_formulation b = None.
Proof.
  induction 1 as [u L|b m H IH M|b l H IH L|b l H IH L|b l H IH L|b l H IH|b l H IH E L|b l H IH N L]; try exact IH.
  - split; [discriminate|]. split; [intros a []|]. split; [intros a []|]. auto.
  - destruct IH as (_ & IH). split; [intros m' [= <-]; exact M|exact IH].
  - destruct IH as (A & _ & IH). split; [exact A|]. split; [exact L|exact IH].
  - destruct IH as (A & B & _ & IH). split; [exact A|]. split; [exact B|]. split; [exact L|exact IH].
Qed.
Lemma bom_components_made b c : made_bom x v b -> bom_component v b c -> made_component x v c.
Proof.
  intros M (r & I & W). apply (within_made _ _ W). clear W. destruct (bom_parts b M) as (A & B & C & D & E).
  unfold bom_roots in I. rewrite D, E in I. rewrite !in_app_iff in I. destruct I as [I|[I|[I|[I|I]]]].
  - destruct (b_metadata b) as [m|]; [|destruct I]. destruct (metadata_parts m (A m eq_refl)) as [F G].
    cbn [one flat_map] in I. rewrite app_nil_r in I. apply in_app_iff in I. destruct I as [I|I].
    + destruct (m_tools m) as [t|]; [|destruct I]. destruct (G t eq_refl) as [l ->]. destruct I.
    + destruct (m_component m) as [k|]; [|destruct I]. destruct I as [<-|[]]. auto.
  - auto.
  - unfold from_list in I. destruct (version_leb V1_4 v); [|destruct I]. apply in_flat_map in I. destruct I as (u & U & I).
    rewrite (vulnerability_tools u (C u U)) in I. destruct I.
  - unfold from_list in I. destruct (version_leb V1_5 v); destruct I.
  - unfold from_list in I. destruct (version_leb V1_5 v); destruct I.
Qed.

(** *** The parts an XML document has to have in a form that can be read *)
Definition simple (p : part) : Prop :=
  match p with
  | PLicense _ => True
  | PVersion o => o <> None
  | PRange r => forall s, r <> VRUndefined s
  | _ => False
  end.
Definition simples (l : list part) : Prop := forall p, In p l -> simple p.
Lemma simples_nil : simples [].
Proof. intros p []. Qed.
Lemma simples_app a b : simples a -> simples b -> simples (a ++ b).
Proof. intros A B p I. apply in_app_iff in I. destruct I; auto. Qed.
Lemma simples_all {A} (P : A -> Prop) f l : (forall a, P a -> simples (f a)) -> all P l -> simples (flat_map f l).
Proof. intros H L p I. apply in_flat_map in I. destruct I as (a & J & I). eapply H; eauto. Qed.
Lemma simples_licenses l : made_licenses x v l -> simples (parts_licenses (Some l)).
Proof.
  intros [L _]. apply (simples_all (made_choice x)); [|exact L].
  intros c [(s & ->)|[(s & -> & _)|(s & -> & _)]] p I; cbn [choice_license choice_expression parts_license_choice
    parts_license named_license license_id l_text l_identifier in_some] in I;
    repeat match goal with H : In _ _ |- _ => destruct H as [<-|H] end; try exact Logic.I; try contradiction.
Qed.
Lemma parts_component_eq c : parts_component v c =
  parts_licenses (c_licenses c) ++ in_some parts_swid (c_swid c)
  ++ in_some (parts_pedigree (parts_component v)) (c_pedigree c) ++ in_all (parts_component v) (c_components c)
  ++ in_some (fun e => parts_licenses (ev_licenses e)) (c_evidence c)
  ++ new v (in_some parts_model_card (c_model_card c)) ++ new v (in_some parts_component_data (c_data c))
  ++ [PVersion (c_version c)].
Proof. destruct c; reflexivity. Qed.
Lemma new_nil : simples (new v []).
Proof. unfold new. destruct (version_leb V1_5 v); apply simples_nil. Qed.
Lemma component_plain c : made_component x v c ->
  c_swid c = None /\ c_pedigree c = None /\ c_evidence c = None /\ c_model_card c = None /\ c_data c = None
  /\ c_version c <> None.
Proof. induction 1; try exact IHmade_component. repeat split; try reflexivity. discriminate. Qed.
Lemma simple_component c : made_component x v c -> simples (parts_component v c).
Proof.
  assert (S : forall c, made_component x v c -> simples (parts_licenses (c_licenses c)) ->
    simples (in_all (parts_component v) (c_components c)) -> simples (parts_component v c)).
  { clear c. intros c M L I. pose proof (component_plain c M) as (A & B & C & D & E & V).
    rewrite parts_component_eq, A, B, C, D, E. cbn [in_some].
    repeat apply simples_app; auto using simples_nil, new_nil. intros p [<-|[]]. exact V. }
  intros M. assert (X : simples (parts_licenses (c_licenses c)) /\ simples (in_all (parts_component v) (c_components c)));
    [|destruct X; auto].
  induction M; try exact IHM.
  - split; apply simples_nil.
  - split; [apply simples_licenses; assumption|apply IHM].
  - split; [apply IHM|]. unfold with_component_components. cbn [c_components]. unfold in_all. cbn [in_some].
    apply (simples_all (fun d => In d l)); [|intros d J; exact J]. intros d J. destruct (H0 d J). auto.
Qed.
Lemma parts_service_eq s : parts_service v s =
  in_some (parts_data v) (s_data s) ++ parts_licenses (s_licenses s) ++ in_all (parts_service v) (s_services s).
Proof. destruct s; reflexivity. Qed.
Lemma simple_service s : made_service x v s -> simples (parts_service v s).
Proof.
  assert (S : forall s, s_data s = None -> simples (parts_licenses (s_licenses s)) ->
    simples (in_all (parts_service v) (s_services s)) -> simples (parts_service v s)).
  { clear s. intros s D L I. rewrite parts_service_eq, D. cbn [in_some].
    repeat apply simples_app; auto using simples_nil. }
  intros M. assert (X : s_data s = None /\ simples (parts_licenses (s_licenses s))
    /\ simples (in_all (parts_service v) (s_services s))); [|destruct X as (? & ? & ?); auto].
  induction M; try exact IHM.
  - split; [reflexivity|]. split; apply simples_nil.
  - split; [apply IHM|]. split; [apply simples_licenses; assumption|apply IHM].
  - split; [apply IHM|]. split; [apply IHM|]. unfold with_service_services. cbn [s_services]. unfold in_all. cbn [in_some].
    apply (simples_all (fun d => In d l)); [|intros d J; exact J]. intros d J. destruct (H0 d J) as (? & ? & ?). auto.
Qed.
Lemma simple_metadata m : made_metadata x v m -> simples (parts_metadata v m).
Proof.
  unfold parts_metadata. intros M. destruct (metadata_parts m M) as [C T].
  assert (L : simples (parts_licenses (m_licenses m))).
  { clear C T. induction M as [[t|] m E T|m l H IH L|m l H IH L|m c H IH C|m e H IH L|m e H IH L|m l H IH L|m l H IH L];
      try discriminate; try exact IH.
    - injection E as <-. apply simples_nil.
    - now apply simples_licenses. }
  repeat apply simples_app; [| |exact L].
  - destruct (m_tools m) as [t|]; [|apply simples_nil]. destruct (T t eq_refl) as [l ->]. apply simples_nil.
  - destruct (m_component m) as [c|]; [|apply simples_nil]. apply simple_component; auto.
Qed.
Lemma simple_vulnerability u : made_vulnerability x v u -> simples (parts_vulnerability v u).
Proof.
  intros M. unfold parts_vulnerability. rewrite (vulnerability_tools u M). cbn [in_some app].
  induction M; try exact IHM.
  - apply simples_nil.
  - cbn [with_vulnerability_targets v_targets]. unfold in_all at 1. cbn [in_some].
    apply (simples_all made_target); [|exact H]. intros t (r & vs & -> & W). cbn [vt_versions].
    destruct vs as [vs|]; [|apply simples_nil]. unfold in_all. cbn [in_some].
    apply (simples_all made_version); [|exact W]. intros s (a & b & -> & _) p [<-|[]] t.
    cbn [version_new ve_range]. unfold version_range_new. destruct (is_match _ _); discriminate.
Qed.
Lemma simple_bom b : made_bom x v b -> simples (parts_bom v b).
Proof.
  intros M. destruct (bom_parts b M) as (A & B & C & _ & E). unfold parts_bom. rewrite E. cbn [in_some in_all].
  assert (S : simples (in_all (parts_service v) (b_services b))).
  { clear A B C E. induction M as [u L|b m H IH M|b l H IH L|b l H IH L|b l H IH L|b l H IH|b l H IH E L|b l H IH N L];
      try exact IH; [apply simples_nil|]. unfold in_all, with_bom_services. cbn [b_services in_some].
    apply (simples_all (made_service x v)); [apply simple_service|exact L]. }
  repeat apply simples_app; auto using new_nil.
  - destruct (b_metadata b) as [m|]; [|apply simples_nil]. apply simple_metadata; auto.
  - destruct (b_components b) as [l|]; [|apply simples_nil]. unfold in_all. cbn [in_some].
    apply (simples_all (made_component x v)); [apply simple_component|exact B].
  - destruct (version_leb V1_4 v); [|apply simples_nil]. destruct (b_vulnerabilities b) as [l|]; [|apply simples_nil].
    unfold in_all. cbn [in_some]. apply (simples_all (made_vulnerability x v)); [apply simple_vulnerability|exact C].
Qed.
End Made.

(** C54: what is written as JSON conforms to the official CycloneDX JSON schema - apart from
    the exceptions listed in SchemaSpec.v, each of which is shown here to be one. *)
From Verif Require Import Base Strings ModelTypes ConfigModel GenModel GenSpec GenProofs GenExample
  Regex Enums Json JsonModel JsonProofs ValModel ValSpec ValProofs ValProofs2 ValProofs3 ValProofs4 ValProps
  GenValProofs GenValProps Schema SchemaText SchemaLemmas SchemaSpec SchemaProofs5 SchemaGen.
From Coq Require Import NArith ZArith Lia.
Open Scope string_scope.
Open Scope list_scope.

(** ** Validated BOMs *)
Theorem C54_validated_output_conforms x fmt v b j :
  formats_agree x fmt ->
  (exists r, validate_bom x v b = Done r /\ passed r = true) -> tame_bom x fmt v b ->
  output_as_json v b = Done j -> conforms_to fmt v j.
Proof.
  intros FA V T J. apply C25_passes_iff_valid in V. unfold conforms_to.
  eapply ok_bom; eauto. exact (proj1 V).
Qed.
(** a document does not both conform to a schema and violate it *)
Theorem C54_conforming_is_not_violating fmt v j : conforms_to fmt v j -> violates_schema fmt v j -> False.
Proof. apply not_both. Qed.

(** ** The SBOMs of cargo-cyclonedx *)
Theorem C54_generated_sboms_conform w x fmt fuel meta nodes cfg m g files f :
  well_formed meta nodes -> tidy_metadata meta nodes -> sbom_of w fuel meta cfg m g ->
  (forall p n, In p (cm_packages meta) -> pk_id p <> sub_ref m n) ->
  same_libraries w x -> emails_agree w fmt -> no_bom_links meta -> formats_agree x fmt ->
  write_plan g = Done files -> In f files ->
  forall v j, output_as_json v (f_bom f) = Done j -> conforms_to fmt v j.
Proof.
  intros wf tm Hg fresh sl mails links FA P I v j J.
  eapply C54_validated_output_conforms; eauto.
  - eapply C50_generated_sboms_are_valid; eauto.
  - eapply file_tame; eauto.
Qed.

(** ** The exceptions: each violates the schema wherever it occurs *)
Lemma one_member k j : JObj [(k, j)] = obj [(k, Some j)].
Proof. reflexivity. Qed.
Lemma bad_member fmt D ks ps fs k j s : In (KProperties ps) ks -> In (k, Some j) fs -> assoc k ps = Some s ->
  violates fmt D s j -> violates fmt D (Sch ks) (obj fs).
Proof. intros K I A V. eapply violates_intro; [exact K|]. eapply fails_properties; eauto. Qed.
Lemma bad_element {A} fmt D ks s (f : A -> json) l a : In (KItems s) ks -> In a l -> violates fmt D s (f a) ->
  violates fmt D (Sch ks) (arr f l).
Proof. intros K I V. eapply violates_intro; [exact K|]. unfold arr. eapply fails_items; [apply in_map|]; eauto. Qed.
Lemma unknown_member fmt D ks l fs k j : In (KOnly l) ks -> In (k, Some j) fs -> existsb (String.eqb k) l = false ->
  violates fmt D (Sch ks) (obj fs).
Proof. intros K I V. eapply violates_intro; [exact K|]. eapply fails_only; eauto. Qed.
Lemma no_alternative fmt D ks ss j : In (KOneOf ss) ks -> Forall (fun s => violates fmt D s j) ss ->
  violates fmt D (Sch ks) j.
Proof. intros K I. eapply violates_intro; [exact K|]. now apply fails_one. Qed.
Lemma too_many fmt D ks n l : In (KMaxItems n) ks -> (n < N.of_nat (List.length l))%N -> violates fmt D (Sch ks) (JArr l).
Proof. intros K I. eapply violates_intro; [exact K|]. now apply fails_max_items. Qed.
Lemma bad_first fmt D ks s ss x l : In (KTuple (s :: ss)) ks -> violates fmt D s x -> violates fmt D (Sch ks) (JArr (x :: l)).
Proof. intros K I. eapply violates_intro; [exact K|]. now apply fails_tuple. Qed.
Lemma wrong_type fmt D ks t j : In (KType t) ks -> has_type t j = false -> violates fmt D (Sch ks) j.
Proof. intros K I. eapply violates_intro; [exact K|]. now apply fails_type. Qed.
Lemma unknown_text fmt D ks l s : In (KEnum l) ks -> existsb (String.eqb s) l = false -> violates fmt D (Sch ks) (JStr s).
Proof.
  intros K I. eapply violates_intro; [exact K|]. apply fails_enum. rewrite <- existsb_eqb, I. discriminate.
Qed.
Ltac pick := cbn [In]; repeat first [left; reflexivity | right].
Ltac into q := eapply bad_member with (k := q); [pick|pick|reflexivity|].
Ltac deref := eapply violates_ref; [reflexivity|].
Ltac element H := eapply bad_element; [pick|exact H|].
Ltac unknown q := eapply unknown_member with (k := q); [pick|pick|reflexivity].
Ltac wrong_type := eapply wrong_type; [pick|reflexivity].

Section Exceptions.
Variable fmt : string -> string -> bool.
Local Notation bad v b := (forall j, output_as_json v b = Done j -> violates_schema fmt v j).
Ltac start := let j := fresh "j" in let J := fresh in intros j J; unfold output_as_json in J;
  match type of J with context [check_bom ?v ?b] => destruct (check_bom v b) as [[]| | |] end; try discriminate J;
  injection J as <-; unfold violates_schema, to_json_bom.

(** *** "bomRef" instead of "bom-ref" *)
Theorem C54_composition_bom_ref b l c r :
  b_compositions b = Some l -> In c l -> co_bom_ref c = Some r -> bad V1_5 b.
Proof.
  intros E I R. start. rewrite E. into "compositions". element I. deref. unfold to_json_composition. rewrite R.
  unknown "bomRef".
Qed.
Theorem C54_author_bom_ref b m l c r v : v <> V1_3 ->
  b_metadata b = Some m -> m_authors m = Some l -> In c l -> ct_bom_ref c = Some r -> bad v b.
Proof.
  intros V E L I R. start. rewrite E. destruct v; [congruence| |];
    (into "metadata"; deref; unfold to_json_metadata; rewrite L; into "authors"; element I; deref;
     unfold to_json_contact; rewrite R; unknown "bomRef").
Qed.
Theorem C54_supplier_bom_ref b m e r v : v <> V1_3 ->
  b_metadata b = Some m -> m_supplier m = Some e -> oe_bom_ref e = Some r -> bad v b.
Proof.
  intros V E L R. start. rewrite E. destruct v; [congruence| |];
    (into "metadata"; deref; unfold to_json_metadata; rewrite L; into "supplier"; deref;
     unfold to_json_entity; rewrite R; unknown "bomRef").
Qed.
Theorem C54_license_bom_ref b m l i r :
  b_metadata b = Some m -> m_licenses m = Some l -> In (LicLicense i) l -> l_bom_ref i = Some r -> bad V1_5 b.
Proof.
  intros E L I R. start. rewrite E. into "metadata"; deref; unfold to_json_metadata; rewrite L. into "licenses". deref.
  eapply no_alternative; [pick|]. apply Forall_cons; [|apply Forall_cons; [|constructor]].
  - element I. cbn [to_json_license_choice]. rewrite one_member. into "license". deref. unfold to_json_license. rewrite R. unknown "bomRef".
  - destruct l as [|a [|a' l]]; [destruct I| |].
    + destruct I as [->|[]]. unfold arr. cbn [map]. eapply bad_first; [pick|].
      cbn [to_json_license_choice]. rewrite one_member. unknown "license".
    + unfold arr. cbn [map]. eapply too_many; [pick|]. cbn [List.length]. lia.
Qed.
Theorem C54_license_expression_bom_ref b m l r e v : v <> V1_3 ->
  b_metadata b = Some m -> m_licenses m = Some l -> In (LicExpression (Some r) e) l -> bad v b.
Proof.
  intros V E L I. start. rewrite E. destruct v; [congruence| |];
    (into "metadata"; deref; unfold to_json_metadata; rewrite L; into "licenses").
  - element I. deref. cbn [to_json_license_choice]. unknown "bomRef".
  - deref. eapply no_alternative; [pick|]. apply Forall_cons; [|apply Forall_cons; [|constructor]].
    + element I. cbn [to_json_license_choice]. unknown "bomRef".
    + destruct l as [|a [|a' l]]; [destruct I| |].
      * destruct I as [->|[]]. unfold arr. cbn [map]. eapply bad_first; [pick|]. unknown "bomRef".
      * unfold arr. cbn [map]. eapply too_many; [pick|]. cbn [List.length]. lia.
Qed.
Ltac component E I := rewrite E; into "components"; element I; deref; rewrite to_json_component_eq.
Theorem C54_model_card_bom_ref b l c m r :
  b_components b = Some l -> In c l -> c_model_card c = Some m -> mc_bom_ref m = Some r -> bad V1_5 b.
Proof.
  intros E I M R. start. component E I. rewrite M. into "modelCard". deref. unfold to_json_model_card. rewrite R.
  unknown "bomRef".
Qed.
Theorem C54_occurrence_bom_ref b l c e os o r :
  b_components b = Some l -> In c l -> c_evidence c = Some e -> ev_occurrences e = Some os -> In o os ->
  oc_bom_ref o = Some r -> bad V1_5 b.
Proof.
  intros E I M O J R. start. component E I. rewrite M. into "evidence". deref. unfold to_json_evidence. rewrite O.
  into "occurrences". element J. unfold to_json_occurrence. rewrite R. unknown "bomRef".
Qed.
Theorem C54_data_set_bom_ref b l c m p ds d r :
  b_components b = Some l -> In c l -> c_model_card c = Some m -> mc_model_parameters m = Some p ->
  mp_datasets p = Some ds -> In (DSComponent d) ds -> cd_bom_ref d = Some r -> bad V1_5 b.
Proof.
  intros E I M P S J R. start. component E I. rewrite M. into "modelCard". deref. unfold to_json_model_card. rewrite P.
  into "modelParameters". unfold to_json_model_parameters. rewrite S. into "datasets". element J.
  eapply no_alternative; [pick|]. apply Forall_cons; [|apply Forall_cons; [|constructor]]; cbn [to_json_dataset];
    unfold to_json_component_data; rewrite R; [deref|]; unknown "bomRef".
Qed.

(** *** Other names *)
Theorem C54_analysis_responses b l u a r v : v <> V1_3 ->
  b_vulnerabilities b = Some l -> In u l -> v_analysis u = Some a -> va_responses a = Some r -> bad v b.
Proof.
  intros V E I A R. start. rewrite E. destruct v; [congruence| |];
    (into "vulnerabilities"; element I; deref; unfold to_json_vulnerability; rewrite A; into "analysis";
     unfold to_json_vuln_analysis; rewrite R; unknown "responses").
Qed.
Theorem C54_codified_infrastructure b l e v :
  b_external_references b = Some l -> In e l -> er_type e = ERCondifiedInfrastructure -> bad v b.
Proof.
  intros E I T. start. rewrite E. destruct v;
    (into "externalReferences"; element I; deref; unfold to_json_external_reference; rewrite T; into "type";
     eapply unknown_text; [pick|reflexivity]).
Qed.
Theorem C54_governance_parties b l s ds d g ps v : v = V1_5 ->
  b_services b = Some l -> In s l -> s_data s = Some (DServiceData ds) -> In d ds -> sd_governance d = Some g ->
  In (Some ps) [dg_custodians g; dg_stewards g; dg_owners g] -> ps <> [] -> bad v b.
Proof.
  intros -> E I D J G P N. start. rewrite E. into "services". element I. deref. rewrite to_json_service_eq. rewrite D.
  into "data". change (to_json_data V1_5 (DServiceData ds)) with (arr to_json_service_data ds). element J. deref.
  unfold to_json_service_data. rewrite G. into "governance". deref. unfold to_json_data_governance.
  destruct ps as [|p ps]; [congruence|]. assert (K : In p (p :: ps)) by now left.
  assert (W : violates fmt (schema_definitions V1_5) s15_dataGovernanceResponsibleParty (to_json_responsible_party p)).
  { destruct p; cbn [to_json_responsible_party]; rewrite one_member; [unknown "Organization"|unknown "Contact"]. }
  destruct P as [P|[P|[P|[]]]]; rewrite P; [into "custodians"|into "stewards"|into "owners"]; element K; deref; exact W.
Qed.
Theorem C54_confidence_interval b l c m q ms t i :
  b_components b = Some l -> In c l -> c_model_card c = Some m -> mc_quantitative_analysis m = Some q ->
  qa_performance_metrics q = Some ms -> In t ms -> pm_confidence_interval t = Some i -> bad V1_5 b.
Proof.
  intros E I M Q S J R. start. component E I. rewrite M. into "modelCard". deref. unfold to_json_model_card. rewrite Q.
  into "quantitativeAnalysis". unfold to_json_quantitative_analysis. rewrite S. into "performanceMetrics". element J. deref.
  unfold to_json_performance_metric. rewrite R. unknown "confidence_interval".
Qed.
Theorem C54_volume_size b l f ws w ks k o n :
  b_formulation b = Some l -> In f l -> fo_workflows f = Some ws -> In w ws -> wf_workspaces w = Some ks -> In k ks ->
  ws_volume k = Some o -> vo_size_allocated o = Some n -> bad V1_5 b.
Proof.
  intros E I W J K H O N. start. rewrite E. into "formulation". element I. deref. unfold to_json_formula. rewrite W.
  into "workflows". element J. deref. unfold to_json_workflow. rewrite K. into "workspaces". element H. deref.
  unfold to_json_workspace. rewrite O. into "volume". deref. unfold to_json_volume. rewrite N. unknown "size_allocated".
Qed.

(** *** Other shapes *)
Theorem C54_component_data b l c d :
  b_components b = Some l -> In c l -> c_data c = Some d -> bad V1_5 b.
Proof. intros E I D. start. component E I. rewrite D. into "data". wrong_type. Qed.
Theorem C54_signature_list b s v : v <> V1_3 ->
  b_signature b = Some s -> (forall g, s <> SigSingle g) -> bad v b.
Proof.
  intros V E S. start. rewrite E. destruct v; [congruence| |]; (into "signature"; deref; destruct s;
    [deref; wrong_type|deref; wrong_type|edestruct S; reflexivity]).
Qed.
Theorem C54_data_set_reference b l c m p ds r :
  b_components b = Some l -> In c l -> c_model_card c = Some m -> mc_model_parameters m = Some p ->
  mp_datasets p = Some ds -> In (DSReference r) ds -> bad V1_5 b.
Proof.
  intros E I M P S J. start. component E I. rewrite M. into "modelCard". deref. unfold to_json_model_card. rewrite P.
  into "modelParameters". unfold to_json_model_parameters. rewrite S. into "datasets". element J.
  eapply no_alternative; [pick|]. apply Forall_cons; [|apply Forall_cons; [|constructor]]; cbn [to_json_dataset];
    [deref|]; wrong_type.
Qed.
Theorem C54_sensitive_data b l c m p ds d t :
  b_components b = Some l -> In c l -> c_model_card c = Some m -> mc_model_parameters m = Some p ->
  mp_datasets p = Some ds -> In (DSComponent d) ds -> cd_sensitive_data d = Some t -> bad V1_5 b.
Proof.
  intros E I M P S J R. start. component E I. rewrite M. into "modelCard". deref. unfold to_json_model_card. rewrite P.
  into "modelParameters". unfold to_json_model_parameters. rewrite S. into "datasets". element J.
  eapply no_alternative; [pick|]. apply Forall_cons; [|apply Forall_cons; [|constructor]]; cbn [to_json_dataset];
    unfold to_json_component_data; rewrite R.
  - deref. into "sensitiveData". wrong_type.
  - unknown "sensitiveData".
Qed.
(** a licensing with any member missing *)
Theorem C54_licensing_null b m l i g :
  b_metadata b = Some m -> m_licenses m = Some l -> In (LicLicense i) l -> l_licensing i = Some g ->
  (lg_alt_ids g = None \/ lg_licensor g = None \/ lg_licensee g = None \/ lg_purchaser g = None
   \/ lg_purchase_order g = None \/ lg_license_types g = None \/ lg_last_renewal g = None \/ lg_expiration g = None) ->
  bad V1_5 b.
Proof.
  intros E L I R N. start. rewrite E. into "metadata"; deref; unfold to_json_metadata; rewrite L. into "licenses". deref.
  eapply no_alternative; [pick|]. apply Forall_cons; [|apply Forall_cons; [|constructor]].
  - element I. cbn [to_json_license_choice]. rewrite one_member. into "license". deref. unfold to_json_license. rewrite R.
    into "licensing". unfold to_json_licensing, opt_null.
    decompose [or] N; match goal with H : _ = None |- _ => rewrite H end;
      [into "altIds"|into "licensor"|into "licensee"|into "purchaser"|into "purchaseOrder"|into "licenseTypes"|into "lastRenewal"|into "expiration"];
      wrong_type.
  - destruct l as [|a [|a' l]]; [destruct I| |].
    + destruct I as [->|[]]. unfold arr. cbn [map]. eapply bad_first; [pick|].
      cbn [to_json_license_choice]. rewrite one_member. unknown "license".
    + unfold arr. cbn [map]. eapply too_many; [pick|]. cbn [List.length]. lia.
Qed.
End Exceptions.

(** ** Validation alone does not ensure conformance: BOMs that pass validation whose JSON form
    violates the schema, whatever the parsers and formats *)
Definition with_data (d : component_data) : component :=
  let c := plain_component (Some "a") "a" None in
  mkComponent (c_type c) None (c_bom_ref c) None None None None (c_name c) None None None None None None None None None
    None None None None None None None None (Some d).
Definition plain_data : component_data := mkComponentData None CDOther None None None None None None None.
Definition with_composition (c : composition) : bom := plain_bom None None (Some [c]) None.
Definition with_metadata (m : metadata) : bom :=
  mkBom u32_1 None (Some m) None None None None None None None None None None V1_5.
Definition only_supplier (e : entity) : metadata := mkMetadata None None None None None (Some e) None None None.
Definition only_authors (l : list contact) : metadata := mkMetadata None None (Some l) None None None None None None.
Definition only_licenses (l : list license_choice) : metadata := mkMetadata None None None None None None (Some l) None None.
Definition with_analysis (a : vuln_analysis) : bom := plain_bom None None None (Some [
  mkVulnerability None None None None None None None None None None None None None None None None None None
    (Some a) None None]).
Definition with_ext_ref (e : external_reference) : bom :=
  mkBom u32_1 None None None None (Some [e]) None None None None None None None V1_5.

Definition exceptions : list (spec_version * bom) := [
  (V1_5, with_composition (mkComposition (Some "r") AComplete None None None None));
  (V1_5, with_metadata (only_authors [mkContact (Some "r") (Some "A") None None]));
  (V1_5, with_metadata (only_supplier (mkEntity (Some "r") (Some "A") None None)));
  (V1_4, with_metadata (only_supplier (mkEntity (Some "r") (Some "A") None None)));
  (V1_5, with_metadata (only_licenses [LicLicense (mkLicense (Some "r") (LName "L") None None None None)]));
  (V1_5, with_metadata (only_licenses [LicLicense (mkLicense None (LName "L") None None
     (Some (mkLicensing None None None None None None None None)) None)]));
  (V1_5, with_analysis (mkAnalysis None None (Some []) None None None));
  (V1_4, with_analysis (mkAnalysis None None (Some []) None None None));
  (V1_5, plain_bom (Some [with_data plain_data]) None None None);
  (V1_5, with_ext_ref (mkExtRef ERCondifiedInfrastructure (RBomLink "urn:cdx:f08a6ccd-4dce-4759-bd84-c626675d60a7/1") None None))].
Ltac witness T := match goal with |- violates_schema ?f ?v (to_json_bom _ ?b) =>
  eapply (T f b); first [reflexivity | discriminate | now left] end.
Theorem C54_validation_alone_refuted x fmt : Forall (fun p =>
  exists r j, validate_bom x (fst p) (snd p) = Done r /\ passed r = true
  /\ output_as_json (fst p) (snd p) = Done j /\ violates_schema fmt (fst p) j) exceptions.
Proof.
  unfold exceptions.
  repeat (apply Forall_cons; [match goal with |- context [fst ?p] => eexists; exists (to_json_bom (fst p) (snd p)) end;
    split; [vm_compute; reflexivity|split; [reflexivity|split; [reflexivity|]]]; cbn [fst snd]|]); [..|constructor].
  - witness C54_composition_bom_ref.
  - witness C54_author_bom_ref.
  - witness C54_supplier_bom_ref.
  - witness C54_supplier_bom_ref.
  - witness C54_license_bom_ref.
  - witness C54_licensing_null.
  - witness C54_analysis_responses.
  - witness C54_analysis_responses.
  - witness C54_component_data.
  - witness C54_codified_infrastructure.
Qed.
(** Rules of the schema which validation does not check *)
Definition with_hash (h : hash) : component :=
  mkComponent CLibrary None None None None None None "a" None None None (Some [h]) None None None None None
    None None None None None None None None None.
Definition with_evidence (e : evidence) : component :=
  mkComponent CLibrary None None None None None None "a" None None None None None None None None None
    None None None None None (Some e) None None None.
Definition unchecked : list (spec_version * bom) := [
  (* the version of the BOM is at least 1 *)
  (V1_5, mkBom (mkU32 0 eq_refl) None None None None None None None None None None None None V1_5);
  (* a reference has at least one character *)
  (V1_5, plain_bom (Some [plain_component (Some "") "a" None]) None None None);
  (* components are listed once *)
  (V1_4, plain_bom (Some [plain_component None "a" None; plain_component None "a" None]) None None None);
  (* dependencies are listed once *)
  (V1_4, plain_bom (Some [plain_component (Some "a") "a" None]) (Some [mkDependency "a" ["a"; "a"]]) None None);
  (* hash values have one of five lengths *)
  (V1_4, plain_bom (Some [with_hash (mkHash MD5 "d41d8cd98f00b204e9800998ecf8427e0")]) None None None);
  (* a CWE number is at least 1 *)
  (V1_4, plain_bom None None None (Some [mkVulnerability None None None None None (Some [mkU32 0 eq_refl]) None None None
     None None None None None None None None None None None None]));
  (* a confidence is at most 1 *)
  (V1_5, plain_bom (Some [with_evidence (mkEvidence None None None None
     (Some (mkIdentity IFName (Some (F_fin false 2 0%Z)) None None)))]) None None None)].
Theorem C54_unchecked_rules_refuted x fmt : Forall (fun p =>
  exists r j, validate_bom x (fst p) (snd p) = Done r /\ passed r = true
  /\ output_as_json (fst p) (snd p) = Done j /\ violates_schema fmt (fst p) j) unchecked.
Proof.
  unfold unchecked.
  repeat (apply Forall_cons; [eexists; eexists; split; [vm_compute; reflexivity|split; [reflexivity|split; [reflexivity|]]];
    cbn [fst snd]; exists 12; vm_compute; reflexivity|]). constructor.
Qed.

(** ** The theorems apply *)
Definition a_reference : external_reference :=
  mkExtRef ERWebsite (RUrl "https://example.org") (Some "home") (Some [mkHash MD5 "d41d8cd98f00b204e9800998ecf8427e"]).
Definition a_component : component :=
  mkComponent CLibrary (Some "text/plain") (Some "a") (Some (mkEntity None (Some "Acme") (Some ["https://example.org"])
      (Some [mkContact None (Some "A") (Some "a@example.org") None]))) None None None "lib" (Some "1.0") None None
    (Some [mkHash MD5 "d41d8cd98f00b204e9800998ecf8427e"])
    (Some [LicLicense (mkLicense None (LSpdxId "MIT") None None None None)]) None None (Some "pkg:cargo/lib@1.0") None (Some false)
    None (Some [a_reference]) (Some [mkProp "k" "v"]) (Some [plain_component (Some "b") "b" None])
    None (Some (SigSingle (mkSigner ES256 "c2ln"))) None None.
Definition a_vulnerability : vulnerability :=
  mkVulnerability (Some "w") (Some "CVE-2024-1") (Some (mkVSource (Some "NVD") (Some "https://nvd.nist.gov"))) None
    (Some [mkRating None (Some (F_fin false 15 (-1)%Z)) (Some SevHigh) (Some CVSSv31) None None])
    (Some [mkU32 79 eq_refl]) (Some "text") None None None None None (Some "2024-01-01T00:00:00Z") None None None None None None
    (Some [mkTarget "a" (Some [mkVersion (VRVersion "1.0") StAffected])]) None.
Definition a_bom : bom :=
  mkBom u32_1 (Some "urn:uuid:3e671687-395b-41f5-a30f-a58921a69b79")
    (Some (mkMetadata (Some "2024-01-01T00:00:00Z") (Some (TList [mkTool (Some "v") (Some "n") (Some "1") None None]))
       None (Some (plain_component (Some "root") "root" None)) None None None None None))
    (Some [a_component]) (Some [mkService (Some "s") None None "svc" None None (Some ["https://example.org"]) None None
       (Some (DClassification [mkDataClass DFInbound "PII"])) None None None None None None])
    (Some [a_reference]) (Some [mkDependency "root" ["a"; "b"]; mkDependency "a" ["b"]])
    (Some [mkComposition None AComplete (Some ["a"]) None None None]) (Some [mkProp "k" "v"]) (Some [a_vulnerability])
    None None None V1_5.
Definition ex_formats (f s : string) : bool := negb (String.eqb f "uri").
Definition schema_parsers : parsers :=
  mkParsers (x_date_time ex_parsers) (x_uri ex_parsers) (x_purl ex_parsers)
    (fun s => existsb (String.eqb s) spdx_ids) (x_spdx_expr ex_parsers).
Lemma ex_formats_agree : formats_agree schema_parsers ex_formats.
Proof. constructor; try reflexivity. intros s H. apply existsb_eqb. exact H. Qed.
Example C54_generated_example : tidy_metadata ex_meta ex_nodes /\ same_libraries ex_world schema_parsers
  /\ emails_agree ex_world ex_formats
  /\ exists f j, write_plan ex_gen = Done [f] /\ output_as_json V1_5 (f_bom f) = Done j /\ conforms_to ex_formats V1_5 j.
Proof.
  assert (TM : tidy_metadata ex_meta ex_nodes).
  { constructor.
    - intros p H. repeat (destruct H as [<-|H]; [vm_compute; discriminate|]). destruct H.
    - intros n H. repeat (destruct H as [<-|H]; [nodup|]). destruct H. }
  assert (SL : same_libraries ex_world schema_parsers).
  { destruct (proj1 C50_example). constructor; auto. }
  split; [exact TM|]. split; [exact SL|]. split; [intros e _; reflexivity|].
  eexists. eexists. split; [vm_compute; reflexivity|]. 
  split; [reflexivity|].
  eapply (C54_generated_sboms_conform ex_world schema_parsers ex_formats 100 ex_meta ex_nodes ex_cfg ex_id_app ex_gen).
  - exact ex_wf.
  - exact TM.
  - exact ex_sbom_of.
  - apply C50_example.
  - exact SL.
  - intros e _. reflexivity.
  - apply C50_example.
  - exact ex_formats_agree.
  - vm_compute; reflexivity.
  - now left.
  - reflexivity.
Qed.

Ltac tame Hh := lazymatch goal with
  | |- tame_hash _ => exact Hh
  | |- NoDup _ => nodup
  | |- _ /\ _ => split; tame Hh
  | |- (_ <= _)%N => vm_compute; discriminate
  | |- True => exact Logic.I
  | |- _ = _ => vm_compute; reflexivity
  | |- False => discriminate
  | |- _ \/ _ => first [left; solve [tame Hh] | right; tame Hh]
  | |- exists _, _ => do 3 eexists; reflexivity
  | |- forall _, _ => intro; first [discriminate | tame Hh]
  | |- _ => hnf; tame Hh
  end.
Example C54_example : Forall (fun v => 
  (exists r, validate_bom schema_parsers v a_bom = Done r /\ passed r = true)
  /\ tame_bom schema_parsers ex_formats v a_bom
  /\ exists j, output_as_json v a_bom = Done j /\ conforms_to ex_formats v j) [V1_4; V1_5].
Proof.
  assert (H : forall v, In v [V1_4; V1_5] ->
    (exists r, validate_bom schema_parsers v a_bom = Done r /\ passed r = true)
    /\ tame_bom schema_parsers ex_formats v a_bom /\ exists j, output_as_json v a_bom = Done j).
  { intros v I. split; [|split].
    - destruct I as [<-|[<-|[]]]; (eexists; split; [vm_compute; reflexivity|reflexivity]).
    - assert (Hh : tame_hash (mkHash MD5 "d41d8cd98f00b204e9800998ecf8427e")) by apply C29_example.
      destruct I as [<-|[<-|[]]]; tame Hh.
    - destruct I as [<-|[<-|[]]]; eexists; reflexivity. }
  apply Forall_forall. intros v I. destruct (H v I) as (V & T & j & J). split; [exact V|]. split; [exact T|].
  exists j. split; [exact J|]. eapply C54_validated_output_conforms; eauto using ex_formats_agree.
Qed.
Print Assumptions C54_validated_output_conforms.
Print Assumptions C54_generated_sboms_conform.
Print Assumptions C54_validation_alone_refuted.
Print Assumptions C54_unchecked_rules_refuted.

(** Reading and writing JSON documents in the form of the standard (C68). *)
From Coq Require Import NArith ZArith.
From Verif Require Import Base ModelTypes Enums Json JsonLemmas JsonModel JsonSpec JsonProofs JsonProps JsonForm JsonFormProofs
  Schema SchemaText SchemaSpec.
Open Scope string_scope.
Open Scope list_scope.
Open Scope nat_scope.

(** ** C68: the library writes and reads the form of the format, in its own dialect of it
    [jf_bom true v b] is the document for the BOM [b] in the standard, [jf_bom false v b] the one in the dialect of the
    library (JsonForm.v).  [like] allows any order of members, [kept_bom] (JsonSpec.v) is what the version has of a BOM. *)
Theorem C68_writes_the_dialect v b j : output_as_json v b = Done j -> j = jf_bom false v b.
Proof. unfold output_as_json. destruct (check_bom v b); try discriminate. intros [= <-]. apply bom_form. Qed.
Theorem C68_reads_the_dialect v b j :
  (v = V1_3 -> forall c, bom_component v b c -> c_version c <> None) ->
  (forall c e i m, v = V1_5 -> bom_component v b c -> c_evidence c = Some e -> ev_identity e = Some i ->
     In m (olist (id_methods i)) -> is_finite (me_confidence m) = true) ->
  like (jf_bom false v b) j ->
  parse_from_json_with_version v j = Done (kept_bom v b) /\ parse_from_json_value_version v j = Done (kept_bom v b)
  /\ parse_from_json j = Done (kept_bom v b).
Proof.
  intros V F L. destruct (proj2 (C43_json_output_fails_iff v b) V) as [j0 O].
  rewrite <- (C68_writes_the_dialect v b j0 O) in L.
  destruct v; [eapply C37_json_round_trip|eapply C38_json_round_trip|eapply C39_json_round_trip]; eauto.
Qed.
(** So a document in the form of the standard is written, and one is read as what it says, if the dialects agree on the BOM. *)
Corollary C68_writes_the_standard v b j : output_as_json v b = Done j -> jf_bom false v b = jf_bom true v b -> j = jf_bom true v b.
Proof. intros O <-. now apply C68_writes_the_dialect. Qed.
Corollary C68_reads_the_standard v b j :
  jf_bom false v b = jf_bom true v b ->
  (v = V1_3 -> forall c, bom_component v b c -> c_version c <> None) ->
  (forall c e i m, v = V1_5 -> bom_component v b c -> c_evidence c = Some e -> ev_identity e = Some i ->
     In m (olist (id_methods i)) -> is_finite (me_confidence m) = true) ->
  like (jf_bom true v b) j ->
  parse_from_json_with_version v j = Done (kept_bom v b) /\ parse_from_json_value_version v j = Done (kept_bom v b)
  /\ parse_from_json j = Done (kept_bom v b).
Proof. intros D V F L. rewrite <- D in L. now apply C68_reads_the_dialect. Qed.

(** ** The hypotheses are met *)
Definition js_component (n : string) : component :=
  mkComponent CLibrary None (Some n) None None None None n (Some "1") None None None None None None None None
    None None None None None None None None None.
Definition js_workflow (v : option volume) (i : option (list input)) : workflow :=
  {| wf_bom_ref := "w"; wf_uid := "u"; wf_name := None; wf_description := None; wf_resource_references := Some [RRRef "a"];
     wf_tasks := Some [mkTask "t" "u" None None None [TTBuild] None (Some [mkStep (Some [mkCommand (Some "make") None]) None None None])
                         None None None None None None None];
     wf_task_dependencies := None; wf_task_types := [TTBuild]; wf_trigger := None; wf_steps := None; wf_inputs := i;
     wf_outputs := None; wf_time_start := None; wf_time_end := None;
     wf_workspaces := Some [mkWorkspace "ws" "u" None None None None None None None None v None];
     wf_runtime_topology := None; wf_properties := None |}.
Definition js_bom (cs : list component) (ss : option (list service)) (co : option (list composition))
  (vs : option (list vulnerability)) (sg : option signature) (ws : list workflow) : bom :=
  {| b_version := u32_1; b_serial_number := None;
     b_metadata := Some (mkMetadata (Some "2024-01-01T00:00:00Z") (Some (TList [mkTool (Some "v") (Some "n") (Some "1") None None]))
       (Some [mkContact None (Some "A") None None]) (Some (js_component "root")) None None None None (Some [LPhase PhBuild]));
     b_components := Some cs; b_services := ss; b_external_references := Some [mkExtRef ERWebsite (RUrl "https://example.com") None None];
     b_dependencies := Some [mkDependency "root" ["a"]; mkDependency "a" []]; b_compositions := co; b_properties := None;
     b_vulnerabilities := vs; b_signature := sg;
     b_annotations := Some [mkAnnotation (Some "an") ["a"] (AnIndividual (mkContact None (Some "Sam") None None))
                              "2024-01-01T00:00:00Z" "Good." None];
     b_formulation := Some [mkFormula None None None (Some ws) None]; b_spec_version := V1_5 |}.
Definition js_case : bom :=
  js_bom [js_component "a"] (Some [mkService (Some "s") None None "svc" None None (Some ["https://example.org"]) None None
       (Some (DClassification [mkDataClass DFInbound "PII"])) None None None None None None])
    (Some [mkComposition None AComplete (Some ["a"]) None None None])
    (Some [mkVulnerability (Some "w") (Some "CVE-2024-1") (Some (mkVSource (Some "NVD") (Some "https://nvd.nist.gov"))) None
    (Some [mkRating None (Some (F_fin false 15 (-1)%Z)) (Some SevHigh) (Some CVSSv31) None None])
    (Some [mkU32 79 eq_refl]) (Some "text") None None None None None (Some "2024-01-01T00:00:00Z") None None None None None None
    (Some [mkTarget "a" (Some [mkVersion (VRVersion "1.0") StAffected])]) None])
    (Some (SigSingle (mkSigner ES256 "c2ln"))) [js_workflow None (Some [mkInput (RIResource (RRRef "a")) None None None])].
(** what has a format, for the examples: only addresses are URIs *)
Definition any_format (f s : string) : bool := if String.eqb f "uri" then String.prefix "https:" s else true.
Ltac valid := exists 24; vm_compute; reflexivity.
Example C68_case :
  jf_bom false V1_5 js_case = jf_bom true V1_5 js_case /\ kept_bom V1_5 js_case = js_case
  /\ conforms_to any_format V1_5 (jf_bom true V1_5 js_case)
  /\ parse_from_json (jf_bom true V1_5 js_case) = Done js_case.
Proof. split; [vm_compute; reflexivity|]. split; [vm_compute; reflexivity|]. split; [valid|]. vm_compute; reflexivity. Qed.

(** ** Where the dialects differ, documents of the standard are refused, or something is not read *)
Definition js_with (mc : option model_card) (d : option component_data) (l : option (list license_choice)) (e : option evidence)
  : component :=
  mkComponent CMachineLearningModel None (Some "a") None None None None "a" (Some "1") None None None l None None None None
    None None None None None e None mc d.
Definition js_data (r sensitive : option string) (g : option data_governance) : component_data :=
  mkComponentData r CDDataset (Some "d") None None sensitive None None g.
Definition js_model (d : dataset) : option model_card :=
  Some (mkModelCard None (Some (mkModelParameters None None None None (Some [d]) None None)) None None None).
Definition js_one (c : component) : bom := js_bom [c] None None None None [].
Definition acme_party : responsible_party := RPOrganization (mkEntity None (Some "Acme") None None).
(** documents that conform to the schema and cannot be read: *)
Definition refused : list bom := [
  (* data of a component *)
  js_one (js_with None (Some (js_data None None None)) None None);
  (* sensitive data *)
  js_one (js_with (js_model (DSComponent (js_data None (Some "PII") None))) None None None);
  (* a reference to a data set *)
  js_one (js_with (js_model (DSReference "d")) None None None);
  (* the owner of data *)
  js_one (js_with (js_model (DSComponent (js_data None None (Some (mkGovernance None None (Some [acme_party])))))) None None None);
  (* several signers, and a chain of signers *)
  js_bom [] None None None (Some (SigSigners [mkSigner ES256 "c2ln"; mkSigner HS256 "c2ln"])) [];
  js_bom [] None None None (Some (SigChain [mkSigner ES256 "c2ln"; mkSigner HS256 "c2ln"])) [];
  (* a signature with another algorithm *)
  js_bom [] None None None (Some (SigSingle (mkSigner (AlgUnknown "https://example.com/alg") "c2ln"))) []].
Theorem C68_always_read_refuted : Forall (fun b => conforms_to any_format V1_5 (jf_bom true V1_5 b)
  /\ exists m, parse_from_json (jf_bom true V1_5 b) = Fail m) refused.
Proof. unfold refused. repeat (apply Forall_cons; [split; [valid|eexists; vm_compute; reflexivity]|]). constructor. Qed.

(** documents that conform to the schema and are read as another BOM, which the library does not write alike: *)
Definition js_responses : vulnerability :=
  mkVulnerability None (Some "CVE-2024-1") None None None None None None None None None None None None None None None None
    (Some (mkAnalysis None None (Some [ARUpdate]) None None None)) None None.
Definition misread : list bom := [
  (* the reference of a composition, *)
  js_bom [] None (Some [mkComposition (Some "r") AComplete None None None None]) None None [];
  (* of a license, of an expression, *)
  js_one (js_with None None (Some [LicLicense (mkLicense (Some "r") (LName "own") None None None None)]) None);
  js_one (js_with None None (Some [LicExpression (Some "r") "MIT"]) None);
  (* of an occurrence, *)
  js_one (js_with None None None (Some (mkEvidence None None (Some [mkOccurrence (Some "r") "/lib"]) None None)));
  (* of a data set, and of a model card *)
  js_one (js_with (js_model (DSComponent (js_data (Some "r") None None))) None None None);
  js_one (js_with (Some (mkModelCard (Some "r") None None None None)) None None None);
  (* the responses to a vulnerability *)
  js_bom [] None None (Some [js_responses]) None [];
  (* the confidence interval of a metric *)
  js_one (js_with (Some (mkModelCard None None (Some (mkQuantitative (Some [mkMetric (Some "t") (Some "1") None
    (Some (mkInterval (Some "0") (Some "2")))]) None)) None None)) None None None);
  (* the size of a volume *)
  js_bom [] None None None None [js_workflow (Some (mkVolume None None VMFilesystem None (Some "10GB") None None None)) None]].
Theorem C68_always_read_right_refuted : Forall (fun b => conforms_to any_format V1_5 (jf_bom true V1_5 b)
  /\ exists b', parse_from_json (jf_bom true V1_5 b) = Done b' /\ b' <> b /\ kept_bom V1_5 b = b) misread.
Proof.
  unfold misread.
  repeat (apply Forall_cons; [split; [valid|eexists; split; [vm_compute; reflexivity|split; [discriminate|vm_compute; reflexivity]]]|]).
  constructor.
Qed.

Print Assumptions C68_writes_the_dialect.
Print Assumptions C68_reads_the_dialect.
Print Assumptions C68_writes_the_standard.
Print Assumptions C68_reads_the_standard.
Print Assumptions C68_always_read_refuted.
Print Assumptions C68_always_read_right_refuted.

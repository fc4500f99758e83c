(** Writing and reading JSON documents: C37, C38, C39, C43, C44, C45, C47 and C53. *)
From Coq Require Import NArith ZArith.
From Verif Require Import Base ModelTypes Strings Enums GenModel Json JsonLemmas JsonModel JsonSpec
  JsonProofs JsonProofs2 JsonProofs3 JsonProofs4 JsonMore.
Open Scope string_scope.
Open Scope list_scope.

(** ** Example documents *)
Definition json_component (n : string) (ver : option string) (e : option evidence)
  (sub : option (list component)) : component :=
  {| c_type := CLibrary; c_mime_type := None; c_bom_ref := Some n; c_supplier := None; c_author := None;
     c_publisher := None; c_group := None; c_name := n; c_version := ver; c_description := None;
     c_scope := Some ScRequired; c_hashes := Some [mkHash SHA_256 "00"];
     c_licenses := Some [LicExpression None "MIT"]; c_copyright := None; c_cpe := None;
     c_purl := Some "pkg:cargo/a@1.0.0"; c_swid := None; c_modified := None; c_pedigree := None;
     c_external_references := Some [mkExtRef ERWebsite (RUrl "https://example.com") None None];
     c_properties := None; c_components := sub; c_evidence := e; c_signature := None;
     c_model_card := None; c_data := None |}.
Definition json_bom (v : spec_version) (cs : list component) : bom :=
  {| b_version := u32_1; b_serial_number := None; b_metadata := None; b_components := Some cs;
     b_services := None; b_external_references := None;
     b_dependencies := Some [mkDependency "a" ["b"]]; b_compositions := None; b_properties := None;
     b_vulnerabilities := None; b_signature := None; b_annotations := None; b_formulation := None;
     b_spec_version := v |}.
Definition nested_bom (v : spec_version) : bom :=
  json_bom v [json_component "a" (Some "1.0.0") None (Some [json_component "b" (Some "2.0.0") None None])].

(** ** C37, C38, C39: a document that was written reads back as what the version keeps of the BOM *)

(** [like j j'] says that [j'] is the written document up to the order of the members of its
    objects; [kept_bom] (JsonSpec.v) says what the version keeps.  The same holds for the three
    ways to read it: the parser of the version, the parser of the version on a [serde_json::Value],
    and the parser that looks at the declared version. *)
Theorem C37_json_round_trip b j j' :
  output_as_json V1_3 b = Done j -> like j j' ->
  parse_from_json_with_version V1_3 j' = Done (kept_bom V1_3 b)
  /\ parse_from_json_value_version V1_3 j' = Done (kept_bom V1_3 b)
  /\ parse_from_json j' = Done (kept_bom V1_3 b).
Proof.
  intros O L. assert (M : forall c, bom_component V1_3 b c -> methods_finite V1_3 c) by (intros c _ [=]).
  split; [|split]; [eapply output_then_parse | eapply output_then_parse_value | eapply output_then_parse_any]; eauto.
Qed.
Theorem C38_json_round_trip b j j' :
  output_as_json V1_4 b = Done j -> like j j' ->
  parse_from_json_with_version V1_4 j' = Done (kept_bom V1_4 b)
  /\ parse_from_json_value_version V1_4 j' = Done (kept_bom V1_4 b)
  /\ parse_from_json j' = Done (kept_bom V1_4 b).
Proof.
  intros O L. assert (M : forall c, bom_component V1_4 b c -> methods_finite V1_4 c) by (intros c _ [=]).
  split; [|split]; [eapply output_then_parse | eapply output_then_parse_value | eapply output_then_parse_any]; eauto.
Qed.
Theorem C39_json_round_trip b j j' :
  output_as_json V1_5 b = Done j -> like j j' ->
  (forall c e i m, bom_component V1_5 b c -> c_evidence c = Some e -> ev_identity e = Some i ->
     In m (olist (id_methods i)) -> is_finite (me_confidence m) = true) ->
  parse_from_json_with_version V1_5 j' = Done (kept_bom V1_5 b)
  /\ parse_from_json_value_version V1_5 j' = Done (kept_bom V1_5 b)
  /\ parse_from_json j' = Done (kept_bom V1_5 b).
Proof.
  intros O L F. assert (M : forall c, bom_component V1_5 b c -> methods_finite V1_5 c).
  { intros c B _ e i m. apply F. exact B. }
  split; [|split]; [eapply output_then_parse | eapply output_then_parse_value | eapply output_then_parse_any]; eauto.
Qed.
(** BOMs of which the version keeps everything are unchanged *)
Corollary C37_unchanged b j : output_as_json V1_3 b = Done j -> kept_bom V1_3 b = b ->
  parse_from_json j = Done b.
Proof. intros O K. rewrite <- K. apply (C37_json_round_trip b j j O (like_refl j)). Qed.
Corollary C38_unchanged b j : output_as_json V1_4 b = Done j -> kept_bom V1_4 b = b ->
  parse_from_json j = Done b.
Proof. intros O K. rewrite <- K. apply (C38_json_round_trip b j j O (like_refl j)). Qed.
Example C37_example : (exists j, output_as_json V1_3 (nested_bom V1_3) = Done j) /\ kept_bom V1_3 (nested_bom V1_3) = nested_bom V1_3.
Proof. split; [eexists|]; vm_compute; reflexivity. Qed.
Example C38_example : (exists j, output_as_json V1_4 (nested_bom V1_4) = Done j) /\ kept_bom V1_4 (nested_bom V1_4) = nested_bom V1_4.
Proof. split; [eexists|]; vm_compute; reflexivity. Qed.
Definition identified (f : f32) : component :=
  json_component "a" None
    (Some (mkEvidence None None None None
       (Some (mkIdentity IFPurl None (Some [mkMethod "source-code-analysis" f None]) None)))) None.
Example C39_example : exists j, output_as_json V1_5 (json_bom V1_5 [identified (F_fin false 1%N 0%Z)]) = Done j
  /\ kept_bom V1_5 (json_bom V1_5 [identified (F_fin false 1%N 0%Z)]) = json_bom V1_5 [identified (F_fin false 1%N 0%Z)]
  /\ parse_from_json j = Done (json_bom V1_5 [identified (F_fin false 1%N 0%Z)]).
Proof. eexists. repeat split; vm_compute; reflexivity. Qed.
(** Without the condition on confidences the claim for 1.5 is false: the document is written but no
    parser accepts it. *)
Theorem C39_confidence_refuted : exists b j, output_as_json V1_5 b = Done j
  /\ (exists m, parse_from_json_with_version V1_5 j = Fail m) /\ (exists m, parse_from_json j = Fail m).
Proof.
  exists (json_bom V1_5 [identified F_nan]). eexists.
  split; [vm_compute; reflexivity|]. split; eexists; vm_compute; reflexivity.
Qed.
(** Rewriting is stable, but only from the second time on... *)
Theorem C37_rewriting_settles v b : kept_bom v (kept_bom v (kept_bom v b)) = kept_bom v (kept_bom v b).
Proof. apply idem_bom. Qed.
(** ... because a reference of type ["codified-infrastructure"] that was read is written with
    another text, which is read as an unknown type. *)
Theorem C37_first_rewriting_refuted : forall v, exists b, b_spec_version b = v
  /\ kept_bom v (kept_bom v b) <> kept_bom v b.
Proof.
  intros v.
  exists (let b := json_bom v [] in
    {| b_version := b_version b; b_serial_number := None; b_metadata := None; b_components := None;
       b_services := None;
       b_external_references := Some [mkExtRef (ERUnknown "codified-infrastructure") (RUrl "u") None None];
       b_dependencies := None; b_compositions := None; b_properties := None; b_vulnerabilities := None;
       b_signature := None; b_annotations := None; b_formulation := None; b_spec_version := v |}).
  split; [reflexivity|]. destruct v; vm_compute; discriminate.
Qed.
(** what every version keeps in any case *)
Theorem C37_always_kept v b :
  b_version (kept_bom v b) = b_version b /\ b_serial_number (kept_bom v b) = b_serial_number b
  /\ b_dependencies (kept_bom v b) = b_dependencies b
  /\ b_spec_version (kept_bom v b) = v
  /\ (forall c, c_name (kept_component v c) = c_name c /\ c_bom_ref (kept_component v c) = c_bom_ref c
        /\ c_version (kept_component v c) = c_version c /\ c_purl (kept_component v c) = c_purl c
        /\ map c_name (olist (c_components (kept_component v c))) = map c_name (olist (c_components c)))
  /\ map c_name (olist (b_components (kept_bom v b))) = map c_name (olist (b_components b))
  /\ map s_name (olist (b_services (kept_bom v b))) = map s_name (olist (b_services b)).
Proof.
  assert (N : forall l, map c_name (map (kept_component v) l) = map c_name l).
  { intros l. rewrite map_map. apply map_ext. intros []; reflexivity. }
  repeat (split; [reflexivity|]). split; [|split].
  - intros c. repeat (split; [destruct c; reflexivity|]). rewrite kept_component_eq. cbn [c_components].
    destruct (c_components c); cbn; auto.
  - cbn. destruct (b_components b); cbn; auto.
  - cbn. destruct (b_services b) as [l|]; cbn; auto. rewrite map_map. apply map_ext. intros []; reflexivity.
Qed.
Print Assumptions C37_json_round_trip.
Print Assumptions C38_json_round_trip.
Print Assumptions C39_json_round_trip.
Print Assumptions C37_rewriting_settles.
Print Assumptions C37_always_kept.

(** ** C43: when writing fails *)
Theorem C43_json_output_fails_iff v b :
  (exists j, output_as_json v b = Done j) <->
  (v = V1_3 -> forall c, bom_component v b c -> c_version c <> None).
Proof.
  destruct (output_as_json_iff v b) as [[E H]|[E H]]; rewrite E; split; intros; eauto; try tauto.
  match goal with X : exists _, _ |- _ => destruct X; discriminate end.
Qed.
Theorem C43_json_output_error v b :
  (exists j, output_as_json v b = Done j)
  \/ (output_as_json v b = Fail "Failed to convert Bom: Failed to serialize BOM with version V1_3: version missing"
      /\ v = V1_3 /\ exists c, bom_component v b c /\ c_version c = None).
Proof.
  destruct (output_as_json_iff v b) as [[E H]|[E H]]; [left; eauto|right].
  split; [exact E|]. exact (output_fails v b _ E).
Qed.
Example C43_example :
  (exists j, output_as_json V1_4 (json_bom V1_4 [identified F_nan]) = Done j)
  /\ output_as_json V1_3 (json_bom V1_4 [identified F_nan]) = Fail missing_version
  /\ bom_component V1_3 (json_bom V1_4 [identified F_nan]) (identified F_nan).
Proof.
  split; [eexists; vm_compute; reflexivity|]. split; [vm_compute; reflexivity|].
  exists (identified F_nan). split; [now left|constructor].
Qed.
Print Assumptions C43_json_output_fails_iff.
Print Assumptions C43_json_output_error.

(** ** C44: the declared version selects the parser *)

(** the value of the last member named [k], as [serde_json::Value] keeps it *)
Fixpoint last_named (k : string) (l : list (string * json)) : option json :=
  match l with
  | [] => None
  | (k', x) :: l' =>
      match last_named k l' with Some y => Some y | None => if String.eqb k k' then Some x else None end
  end.
Lemma assoc_put k k' x l : assoc k (put k' x l) = if String.eqb k k' then Some x else assoc k l.
Proof.
  induction l as [|[k1 x1] l IH]; cbn [put assoc]; auto.
  destruct (String.compare k' k1) eqn:C; cbn [assoc].
  - apply String.compare_eq_iff in C. subst k1. destruct (String.eqb k k'); auto.
  - destruct (String.eqb k k'); auto.
  - rewrite IH. destruct (String.eqb_spec k k1) as [->|]; auto.
    destruct (String.eqb_spec k1 k') as [->|]; auto.
    pose proof (String.compare_antisym k' k') as S. rewrite C in S. discriminate.
Qed.
Lemma assoc_to_value k l : exists l', to_value (JObj l) = JObj l' /\ assoc k l' = option_map to_value (last_named k l).
Proof.
  cbn [to_value]. eexists. split; [reflexivity|].
  enough (G : forall acc, assoc k (fold_left (fun m p => put (fst p) (to_value (snd p)) m) l acc) =
     match last_named k l with Some x => Some (to_value x) | None => assoc k acc end).
  { rewrite G. destruct (last_named k l); reflexivity. }
  induction l as [|[k1 x1] l IH]; intros acc; cbn [fold_left last_named fst snd]; auto.
  rewrite IH. destruct (last_named k l); auto. rewrite assoc_put. destruct (String.eqb k k1); auto.
Qed.
Theorem C44_declared_version_selects l v :
  last_named "specVersion" l = Some (JStr (version_text v)) ->
  parse_from_json (JObj l) = parse_from_json_value_version v (JObj l).
Proof.
  intros H. destruct (assoc_to_value "specVersion" l) as [l' [E A]]. unfold parse_from_json, parse_from_json_value_version.
  rewrite E, A, H. cbn [option_map to_value]. replace (version_of_text (version_text v)) with (Some v) by now destruct v.
  reflexivity.
Qed.
Theorem C44_otherwise_rejected j :
  (forall l s, j = JObj l -> last_named "specVersion" l = Some (JStr s) -> s <> "1.3" /\ s <> "1.4" /\ s <> "1.5") ->
  exists m, parse_from_json j = Fail m.
Proof.
  intros H. unfold parse_from_json.
  destruct j as [| | | | |l|l]; try (eexists; reflexivity).
  destruct (assoc_to_value "specVersion" l) as [l' [E A]]. rewrite E, A.
  destruct (last_named "specVersion" l) as [y|] eqn:N; cbn [option_map]; [|eexists; reflexivity].
  destruct y as [| | | |s|ya|yl]; try (eexists; reflexivity); cbn [to_value].
  destruct (H l s eq_refl N) as [H3 [H4 H5]].
  unfold version_of_text. rewrite (proj2 (String.eqb_neq _ _) H3), (proj2 (String.eqb_neq _ _) H4), (proj2 (String.eqb_neq _ _) H5).
  eexists; reflexivity.
Qed.
(** the parsed BOM carries the declared version, whichever parser reads it *)
Theorem C44_version_of_result v b j :
  of_json_bom v j = Some b -> forall l, j = JObj l ->
  exists x, assoc "specVersion" l = Some x /\ dec_unit_variant version_of_text x = Some (b_spec_version b).
Proof.
  intros H l ->. unfold of_json_bom in H. destruct (struct_ok (keys_bom v) (JObj l)); [|discriminate].
  unfold field in H at 1 2. rewrite !get_JObj in H.
  destruct (assoc "bomFormat" l) as [f|]; [|discriminate].
  destruct (dec_unit_variant _ f) in H; [|discriminate]. cbn [bindo] in H.
  destruct (assoc "specVersion" l) as [x|]; [|discriminate]. exists x. split; [reflexivity|].
  destruct (dec_unit_variant version_of_text x) as [w|]; [|discriminate]. cbn [bindo] in H.
  repeat match type of H with (let? _ := ?e in _) = _ => destruct e; [cbn [bindo] in H|discriminate] end.
  injection H as <-. reflexivity.
Qed.
Theorem C44_output_version v b j : output_as_json v b = Done j ->
  (forall c, bom_component v b c -> methods_finite v c) ->
  exists b', parse_from_json j = Done b' /\ b_spec_version b' = v.
Proof.
  intros O M. exists (kept_bom v b). split; [|reflexivity].
  exact (output_then_parse_any v b j j O (like_refl j) M).
Qed.
Example C44_example :
  parse_from_json (JObj [("bomFormat", JStr "CycloneDX"); ("specVersion", JStr "1.4"); ("version", JInt 1%Z)])
    = Done (kept_bom V1_4 {| b_version := u32_1; b_serial_number := None; b_metadata := None; b_components := None;
       b_services := None; b_external_references := None; b_dependencies := None; b_compositions := None;
       b_properties := None; b_vulnerabilities := None; b_signature := None; b_annotations := None;
       b_formulation := None; b_spec_version := V1_4 |})
  /\ exists m, parse_from_json (JObj [("bomFormat", JStr "CycloneDX"); ("specVersion", JStr "1.6"); ("version", JInt 1%Z)]) = Fail m.
Proof. split; [vm_compute; reflexivity|]. eexists. vm_compute. reflexivity. Qed.
Print Assumptions C44_declared_version_selects.
Print Assumptions C44_otherwise_rejected.
Print Assumptions C44_version_of_result.
Print Assumptions C44_output_version.

(** ** C45: the parsers of one version *)

(** The JSON parser of a version does not check that the document declares this version. *)
Theorem C45_json_version_refuted : forall v v', exists j b,
  parse_from_json_with_version v j = Done b /\ b_spec_version b = v'
  /\ exists l, j = JObj l /\ assoc "specVersion" l = Some (JStr (version_text v')).
Proof.
  intros v v'. exists (JObj [("bomFormat", JStr "CycloneDX"); ("specVersion", JStr (version_text v')); ("version", JInt 1%Z)]).
  destruct v, v'; eexists; (split; [vm_compute; reflexivity|]); (split; [reflexivity|]); eexists; (split; reflexivity).
Qed.
(** What it does check: the document declares one of the three versions, and that one becomes the
    version of the BOM. *)
Theorem C45_json_declares_some_version_partial v l b :
  parse_from_json_with_version v (JObj l) = Done b ->
  exists x, assoc "specVersion" l = Some x
    /\ (x = JStr (version_text (b_spec_version b)) \/ x = JObj [(version_text (b_spec_version b), JNull)]).
Proof.
  unfold parse_from_json_with_version, deserialize. destruct (of_json_bom v (JObj l)) as [b'|] eqn:E; [|discriminate].
  intros [= <-]. destruct (C44_version_of_result v b' _ E l eq_refl) as [x [A D]]. exists x. split; [exact A|].
  assert (T : forall s w, version_of_text s = Some w -> s = version_text w).
  { intros s w. unfold version_of_text.
    destruct (String.eqb_spec s "1.3") as [->|]; [now intros [= <-]|].
    destruct (String.eqb_spec s "1.4") as [->|]; [now intros [= <-]|].
    destruct (String.eqb_spec s "1.5") as [->|]; [now intros [= <-]|discriminate]. }
  destruct x as [| | | |s|a|[|[k [| | | | | |]] [|? ?]]]; try discriminate; cbn in D; apply T in D; subst; auto.
Qed.
Print Assumptions C45_json_version_refuted.
Print Assumptions C45_json_declares_some_version_partial.

(** ** C47: other members are ignored, repeated ones rejected *)

(** [ignores_others ks r]: adding a member not named in [ks] anywhere in the object does not change
    what [r] reads.  [rejects_repeated ks r]: [r] refuses an object with two members of the same
    name from [ks].  One theorem for each struct of the format, with its names. *)
Theorem C47_unknown_members_ignored_partial v :
  ignores_others ["contentType"; "encoding"; "content"] of_json_attached_text /\
  ignores_others ["content"; "contentType"; "encoding"] of_json_attachment /\
  ignores_others ["alg"; "content"] of_json_hash /\
  ignores_others ["name"; "value"] of_json_property /\
  ignores_others ["bomRef"; "name"; "email"; "phone"] of_json_contact /\
  ignores_others ["bomRef"; "name"; "url"; "contact"] of_json_entity /\
  ignores_others ["type"; "url"; "comment"; "hashes"] of_json_external_reference /\
  ignores_others ["altIds"; "licensor"; "licensee"; "purchaser"; "purchaseOrder"; "licenseTypes";
    "lastRenewal"; "expiration"] of_json_licensing /\
  ignores_others ["timestamp"; "name"; "email"] of_json_identifiable_action /\
  ignores_others ["uid"; "url"; "author"; "committer"; "message"] of_json_commit /\
  ignores_others ["text"; "url"] of_json_diff /\
  ignores_others ["name"; "url"] of_json_source /\
  ignores_others ["type"; "id"; "name"; "description"; "source"; "references"] of_json_issue /\
  ignores_others ["type"; "diff"; "resolves"] of_json_patch /\
  ignores_others ["custodians"; "stewards"; "owners"] of_json_data_governance /\
  ignores_others ["attachment"; "url"; "properties"] of_json_data_contents /\
  ignores_others ["name"; "image"] of_json_graphic /\
  ignores_others ["description"; "collection"] of_json_graphics_collection /\
  ignores_others ["bomRef"; "type"; "name"; "contents"; "classification"; "sensitiveData"; "graphics";
    "description"; "governance"] of_json_component_data /\
  ignores_others ["type"] of_json_approach /\
  ignores_others ["format"] of_json_ml_parameter /\
  ignores_others ["approach"; "task"; "architectureFamily"; "modelArchitecture"; "datasets"; "inputs";
    "outputs"] of_json_model_parameters /\
  ignores_others ["lowerBound"; "upperBound"] of_json_confidence_interval /\
  ignores_others ["type"; "value"; "slice"; "confidence_interval"] of_json_performance_metric /\
  ignores_others ["performanceMetrics"; "graphics"] of_json_quantitative_analysis /\
  ignores_others ["bomRef"; "modelParameters"; "quantitativeAnalysis"; "considerations"; "properties"]
    of_json_model_card /\
  ignores_others ["bomRef"; "location"] of_json_occurrence /\
  ignores_others ["package"; "module"; "function"; "parameters"; "line"; "column"; "fullFilename"]
    of_json_frame /\
  ignores_others ["technique"; "confidence"; "value"] of_json_method /\
  ignores_others ["field"; "confidence"; "methods"; "tools"] of_json_identity /\
  ignores_others ["licenses"; "copyright"] (of_json_evidence V1_3) /\
  ignores_others ["licenses"; "copyright"] (of_json_evidence V1_4) /\
  ignores_others ["licenses"; "copyright"; "occurrences"; "callstack"; "identity"] (of_json_evidence V1_5) /\
  ignores_others ["tagId"; "name"; "version"; "tagVersion"; "patch"; "text"; "url"] of_json_swid /\
  ignores_others ["flow"; "classification"] of_json_data_classification /\
  ignores_others ["vendor"; "name"; "version"; "hashes"] (of_json_tool V1_3) /\
  ignores_others ["vendor"; "name"; "version"; "hashes"; "externalReferences"] (of_json_tool V1_4) /\
  ignores_others ["vendor"; "name"; "version"; "hashes"; "externalReferences"] (of_json_tool V1_5) /\
  ignores_others ["timestamp"; "tools"; "authors"; "component"; "manufacture"; "supplier"; "licenses";
    "properties"] (of_json_metadata V1_3) /\
  ignores_others ["timestamp"; "tools"; "authors"; "component"; "manufacture"; "supplier"; "licenses";
    "properties"] (of_json_metadata V1_4) /\
  ignores_others ["timestamp"; "tools"; "authors"; "component"; "manufacture"; "supplier"; "licenses";
    "properties"; "lifecycles"] (of_json_metadata V1_5) /\
  ignores_others ["ref"; "dependsOn"] of_json_dependency /\
  ignores_others ["aggregate"; "assemblies"; "dependencies"] (of_json_composition V1_3) /\
  ignores_others ["aggregate"; "assemblies"; "dependencies"; "signature"] (of_json_composition V1_4) /\
  ignores_others ["bomRef"; "aggregate"; "assemblies"; "dependencies"; "vulnerabilities"; "signature"]
    (of_json_composition V1_5) /\
  ignores_others ["bom-ref"; "subjects"; "annotator"; "timestamp"; "text"; "signature"] (of_json_annotation v) /\
  ignores_others ["name"; "url"] of_json_vuln_source /\
  ignores_others ["id"; "source"] of_json_vuln_reference /\
  ignores_others ["source"; "score"; "severity"; "method"; "vector"; "justification"] of_json_vuln_rating /\
  ignores_others ["title"; "url"] of_json_advisory /\
  ignores_others ["organizations"; "individuals"] of_json_vuln_credits /\
  ignores_others ["state"; "justification"; "responses"; "detail"] (of_json_vuln_analysis V1_3) /\
  ignores_others ["state"; "justification"; "responses"; "detail"] (of_json_vuln_analysis V1_4) /\
  ignores_others ["state"; "justification"; "responses"; "detail"; "firstIssued"; "lastUpdated"]
    (of_json_vuln_analysis V1_5) /\
  ignores_others ["ref"; "versions"] of_json_vuln_target /\
  ignores_others ["reproductionSteps"; "environment"; "supportingMaterial"] of_json_proof_of_concept /\
  ignores_others ["bom-ref"; "id"; "source"; "references"; "ratings"; "cwes"; "description"; "detail";
    "recommendation"; "advisories"; "created"; "published"; "updated"; "credits"; "tools"; "analysis";
    "affects"; "properties"] (of_json_vulnerability V1_3) /\
  ignores_others ["bom-ref"; "id"; "source"; "references"; "ratings"; "cwes"; "description"; "detail";
    "recommendation"; "advisories"; "created"; "published"; "updated"; "credits"; "tools"; "analysis";
    "affects"; "properties"] (of_json_vulnerability V1_4) /\
  ignores_others ["bom-ref"; "id"; "source"; "references"; "ratings"; "cwes"; "description"; "detail";
    "recommendation"; "workaround"; "proofOfConcept"; "advisories"; "created"; "published"; "updated";
    "rejected"; "credits"; "tools"; "analysis"; "affects"; "properties"] (of_json_vulnerability V1_5) /\
  ignores_others ["name"; "value"; "dataType"] of_json_parameter /\
  ignores_others ["executed"; "properties"] of_json_command /\
  ignores_others ["commands"; "description"; "name"; "properties"] of_json_step /\
  ignores_others ["bom-ref"; "uid"; "name"; "aliases"; "description"; "resourceReferences"; "accessMode";
    "mountPath"; "managedDataType"; "volumeRequest"; "volume"; "properties"] of_json_workspace /\
  ignores_others ["description"; "expression"; "properties"] of_json_condition /\
  ignores_others ["uid"; "description"; "timeReceived"; "data"; "source"; "target"; "properties"]
    of_json_event /\
  ignores_others ["bom-ref"; "uid"; "name"; "description"; "resourceReferences"; "type"; "event";
    "conditions"; "timeActivated"; "inputs"; "outputs"; "properties"] of_json_trigger /\
  ignores_others ["bom-ref"; "uid"; "name"; "description"; "resourceReferences"; "taskTypes"; "trigger";
    "steps"; "inputs"; "outputs"; "timeStart"; "timeEnd"; "workspaces"; "runtimeTopology"; "properties"]
    of_json_task /\
  ignores_others ["bom-ref"; "uid"; "name"; "description"; "resourceReferences"; "tasks"; "taskDependencies";
    "taskTypes"; "trigger"; "steps"; "inputs"; "outputs"; "timeStart"; "timeEnd"; "workspaces";
    "runtimeTopology"; "properties"] of_json_workflow /\
  ignores_others ["bom-ref"; "components"; "services"; "workflows"; "properties"] (of_json_formula v) /\
  ignores_others ["algorithm"; "value"] of_json_signer /\
  ignores_others [] of_json_considerations /\
  ignores_others ["frames"] of_json_callstack /\
  ignores_others ["text"] of_json_copyright /\
  ignores_others ["uid"; "name"; "mode"; "path"; "size_allocated"; "persistent"; "remote"; "properties"]
    of_json_volume /\
  ignores_others ["bomFormat"; "specVersion"; "version"; "serialNumber"; "metadata"; "components"; "services";
    "externalReferences"; "dependencies"; "compositions"] (of_json_bom V1_3) /\
  ignores_others ["bomFormat"; "specVersion"; "version"; "serialNumber"; "metadata"; "components"; "services";
    "externalReferences"; "dependencies"; "compositions"; "vulnerabilities"; "signature"] (of_json_bom V1_4) /\
  ignores_others ["bomFormat"; "specVersion"; "version"; "serialNumber"; "metadata"; "components"; "services";
    "externalReferences"; "dependencies"; "compositions"; "vulnerabilities"; "signature"; "annotations";
    "properties"; "formulation"] (of_json_bom V1_5) /\
  ignores_others ["type"; "mime-type"; "bom-ref"; "supplier"; "author"; "publisher"; "group"; "name";
    "version"; "description"; "scope"; "hashes"; "licenses"; "copyright"; "cpe"; "purl"; "swid"; "modified";
    "pedigree"; "externalReferences"; "properties"; "components"; "evidence"] (of_json_component V1_3) /\
  ignores_others ["type"; "mime-type"; "bom-ref"; "supplier"; "author"; "publisher"; "group"; "name";
    "version"; "description"; "scope"; "hashes"; "licenses"; "copyright"; "cpe"; "purl"; "swid"; "modified";
    "pedigree"; "externalReferences"; "properties"; "components"; "evidence"; "signature"] (of_json_component
    V1_4) /\
  ignores_others ["type"; "mime-type"; "bom-ref"; "supplier"; "author"; "publisher"; "group"; "name";
    "version"; "description"; "scope"; "hashes"; "licenses"; "copyright"; "cpe"; "purl"; "swid"; "modified";
    "pedigree"; "externalReferences"; "properties"; "components"; "evidence"; "signature"; "modelCard";
    "data"] (of_json_component V1_5) /\
  ignores_others ["bom-ref"; "provider"; "group"; "name"; "version"; "description"; "endpoints";
    "authenticated"; "x-trust-boundary"; "data"; "licenses"; "externalReferences"; "properties"; "services"]
    (of_json_service V1_3) /\
  ignores_others ["bom-ref"; "provider"; "group"; "name"; "version"; "description"; "endpoints";
    "authenticated"; "x-trust-boundary"; "data"; "licenses"; "externalReferences"; "properties"; "services";
    "signature"] (of_json_service V1_4) /\
  ignores_others ["bom-ref"; "provider"; "group"; "name"; "version"; "description"; "endpoints";
    "authenticated"; "x-trust-boundary"; "data"; "licenses"; "externalReferences"; "properties"; "services";
    "signature"; "trustZone"] (of_json_service V1_5).
Proof.
  split; [exact (others_attached_text)|].
  split; [exact (others_attachment)|].
  split; [exact (others_hash)|].
  split; [exact (others_property)|].
  split; [exact (others_contact)|].
  split; [exact (others_entity)|].
  split; [exact (others_external_reference)|].
  split; [exact (others_licensing)|].
  split; [exact (others_identifiable_action)|].
  split; [exact (others_commit)|].
  split; [exact (others_diff)|].
  split; [exact (others_source)|].
  split; [exact (others_issue)|].
  split; [exact (others_patch)|].
  split; [exact (others_data_governance)|].
  split; [exact (others_data_contents)|].
  split; [exact (others_graphic)|].
  split; [exact (others_graphics_collection)|].
  split; [exact (others_component_data)|].
  split; [exact (others_approach)|].
  split; [exact (others_ml_parameter)|].
  split; [exact (others_model_parameters)|].
  split; [exact (others_confidence_interval)|].
  split; [exact (others_performance_metric)|].
  split; [exact (others_quantitative_analysis)|].
  split; [exact (others_model_card)|].
  split; [exact (others_occurrence)|].
  split; [exact (others_frame)|].
  split; [exact (others_method)|].
  split; [exact (others_identity)|].
  split; [exact (others_evidence_1_3)|].
  split; [exact (others_evidence_1_4)|].
  split; [exact (others_evidence_1_5)|].
  split; [exact (others_swid)|].
  split; [exact (others_data_classification)|].
  split; [exact (others_tool_1_3)|].
  split; [exact (others_tool_1_4)|].
  split; [exact (others_tool_1_5)|].
  split; [exact (others_metadata_1_3)|].
  split; [exact (others_metadata_1_4)|].
  split; [exact (others_metadata_1_5)|].
  split; [exact (others_dependency)|].
  split; [exact (others_composition_1_3)|].
  split; [exact (others_composition_1_4)|].
  split; [exact (others_composition_1_5)|].
  split; [exact (others_annotation v)|].
  split; [exact (others_vuln_source)|].
  split; [exact (others_vuln_reference)|].
  split; [exact (others_vuln_rating)|].
  split; [exact (others_advisory)|].
  split; [exact (others_vuln_credits)|].
  split; [exact (others_vuln_analysis_1_3)|].
  split; [exact (others_vuln_analysis_1_4)|].
  split; [exact (others_vuln_analysis_1_5)|].
  split; [exact (others_vuln_target)|].
  split; [exact (others_proof_of_concept)|].
  split; [exact (others_vulnerability_1_3)|].
  split; [exact (others_vulnerability_1_4)|].
  split; [exact (others_vulnerability_1_5)|].
  split; [exact (others_parameter)|].
  split; [exact (others_command)|].
  split; [exact (others_step)|].
  split; [exact (others_workspace)|].
  split; [exact (others_condition)|].
  split; [exact (others_event)|].
  split; [exact (others_trigger)|].
  split; [exact (others_task)|].
  split; [exact (others_workflow)|].
  split; [exact (others_formula v)|].
  split; [exact (others_signer)|].
  split; [exact (others_considerations)|].
  split; [exact (others_callstack)|].
  split; [exact (others_copyright)|].
  split; [exact (others_volume)|].
  split; [exact (others_bom_1_3)|].
  split; [exact (others_bom_1_4)|].
  split; [exact (others_bom_1_5)|].
  split; [exact (others_component_1_3)|].
  split; [exact (others_component_1_4)|].
  split; [exact (others_component_1_5)|].
  split; [exact (others_service_1_3)|].
  split; [exact (others_service_1_4)|].
  exact (others_service_1_5).
Qed.
Theorem C47_repeated_members_rejected_partial v :
  rejects_repeated ["contentType"; "encoding"; "content"] of_json_attached_text /\
  rejects_repeated ["content"; "contentType"; "encoding"] of_json_attachment /\
  rejects_repeated ["alg"; "content"] of_json_hash /\
  rejects_repeated ["name"; "value"] of_json_property /\
  rejects_repeated ["bomRef"; "name"; "email"; "phone"] of_json_contact /\
  rejects_repeated ["bomRef"; "name"; "url"; "contact"] of_json_entity /\
  rejects_repeated ["type"; "url"; "comment"; "hashes"] of_json_external_reference /\
  rejects_repeated ["altIds"; "licensor"; "licensee"; "purchaser"; "purchaseOrder"; "licenseTypes";
    "lastRenewal"; "expiration"] of_json_licensing /\
  rejects_repeated ["timestamp"; "name"; "email"] of_json_identifiable_action /\
  rejects_repeated ["uid"; "url"; "author"; "committer"; "message"] of_json_commit /\
  rejects_repeated ["text"; "url"] of_json_diff /\
  rejects_repeated ["name"; "url"] of_json_source /\
  rejects_repeated ["type"; "id"; "name"; "description"; "source"; "references"] of_json_issue /\
  rejects_repeated ["type"; "diff"; "resolves"] of_json_patch /\
  rejects_repeated ["custodians"; "stewards"; "owners"] of_json_data_governance /\
  rejects_repeated ["attachment"; "url"; "properties"] of_json_data_contents /\
  rejects_repeated ["name"; "image"] of_json_graphic /\
  rejects_repeated ["description"; "collection"] of_json_graphics_collection /\
  rejects_repeated ["bomRef"; "type"; "name"; "contents"; "classification"; "sensitiveData"; "graphics";
    "description"; "governance"] of_json_component_data /\
  rejects_repeated ["type"] of_json_approach /\
  rejects_repeated ["format"] of_json_ml_parameter /\
  rejects_repeated ["approach"; "task"; "architectureFamily"; "modelArchitecture"; "datasets"; "inputs";
    "outputs"] of_json_model_parameters /\
  rejects_repeated ["lowerBound"; "upperBound"] of_json_confidence_interval /\
  rejects_repeated ["type"; "value"; "slice"; "confidence_interval"] of_json_performance_metric /\
  rejects_repeated ["performanceMetrics"; "graphics"] of_json_quantitative_analysis /\
  rejects_repeated ["bomRef"; "modelParameters"; "quantitativeAnalysis"; "considerations"; "properties"]
    of_json_model_card /\
  rejects_repeated ["bomRef"; "location"] of_json_occurrence /\
  rejects_repeated ["package"; "module"; "function"; "parameters"; "line"; "column"; "fullFilename"]
    of_json_frame /\
  rejects_repeated ["technique"; "confidence"; "value"] of_json_method /\
  rejects_repeated ["field"; "confidence"; "methods"; "tools"] of_json_identity /\
  rejects_repeated ["licenses"; "copyright"] (of_json_evidence V1_3) /\
  rejects_repeated ["licenses"; "copyright"] (of_json_evidence V1_4) /\
  rejects_repeated ["licenses"; "copyright"; "occurrences"; "callstack"; "identity"] (of_json_evidence V1_5) /\
  rejects_repeated ["tagId"; "name"; "version"; "tagVersion"; "patch"; "text"; "url"] of_json_swid /\
  rejects_repeated ["flow"; "classification"] of_json_data_classification /\
  rejects_repeated ["vendor"; "name"; "version"; "hashes"] (of_json_tool V1_3) /\
  rejects_repeated ["vendor"; "name"; "version"; "hashes"; "externalReferences"] (of_json_tool V1_4) /\
  rejects_repeated ["vendor"; "name"; "version"; "hashes"; "externalReferences"] (of_json_tool V1_5) /\
  rejects_repeated ["timestamp"; "tools"; "authors"; "component"; "manufacture"; "supplier"; "licenses";
    "properties"] (of_json_metadata V1_3) /\
  rejects_repeated ["timestamp"; "tools"; "authors"; "component"; "manufacture"; "supplier"; "licenses";
    "properties"] (of_json_metadata V1_4) /\
  rejects_repeated ["timestamp"; "tools"; "authors"; "component"; "manufacture"; "supplier"; "licenses";
    "properties"; "lifecycles"] (of_json_metadata V1_5) /\
  rejects_repeated ["ref"; "dependsOn"] of_json_dependency /\
  rejects_repeated ["aggregate"; "assemblies"; "dependencies"] (of_json_composition V1_3) /\
  rejects_repeated ["aggregate"; "assemblies"; "dependencies"; "signature"] (of_json_composition V1_4) /\
  rejects_repeated ["bomRef"; "aggregate"; "assemblies"; "dependencies"; "vulnerabilities"; "signature"]
    (of_json_composition V1_5) /\
  rejects_repeated ["bom-ref"; "subjects"; "annotator"; "timestamp"; "text"; "signature"] (of_json_annotation
    v) /\
  rejects_repeated ["name"; "url"] of_json_vuln_source /\
  rejects_repeated ["id"; "source"] of_json_vuln_reference /\
  rejects_repeated ["source"; "score"; "severity"; "method"; "vector"; "justification"] of_json_vuln_rating /\
  rejects_repeated ["title"; "url"] of_json_advisory /\
  rejects_repeated ["organizations"; "individuals"] of_json_vuln_credits /\
  rejects_repeated ["state"; "justification"; "responses"; "detail"] (of_json_vuln_analysis V1_3) /\
  rejects_repeated ["state"; "justification"; "responses"; "detail"] (of_json_vuln_analysis V1_4) /\
  rejects_repeated ["state"; "justification"; "responses"; "detail"; "firstIssued"; "lastUpdated"]
    (of_json_vuln_analysis V1_5) /\
  rejects_repeated ["ref"; "versions"] of_json_vuln_target /\
  rejects_repeated ["reproductionSteps"; "environment"; "supportingMaterial"] of_json_proof_of_concept /\
  rejects_repeated ["bom-ref"; "id"; "source"; "references"; "ratings"; "cwes"; "description"; "detail";
    "recommendation"; "advisories"; "created"; "published"; "updated"; "credits"; "tools"; "analysis";
    "affects"; "properties"] (of_json_vulnerability V1_3) /\
  rejects_repeated ["bom-ref"; "id"; "source"; "references"; "ratings"; "cwes"; "description"; "detail";
    "recommendation"; "advisories"; "created"; "published"; "updated"; "credits"; "tools"; "analysis";
    "affects"; "properties"] (of_json_vulnerability V1_4) /\
  rejects_repeated ["bom-ref"; "id"; "source"; "references"; "ratings"; "cwes"; "description"; "detail";
    "recommendation"; "workaround"; "proofOfConcept"; "advisories"; "created"; "published"; "updated";
    "rejected"; "credits"; "tools"; "analysis"; "affects"; "properties"] (of_json_vulnerability V1_5) /\
  rejects_repeated ["name"; "value"; "dataType"] of_json_parameter /\
  rejects_repeated ["executed"; "properties"] of_json_command /\
  rejects_repeated ["commands"; "description"; "name"; "properties"] of_json_step /\
  rejects_repeated ["bom-ref"; "uid"; "name"; "aliases"; "description"; "resourceReferences"; "accessMode";
    "mountPath"; "managedDataType"; "volumeRequest"; "volume"; "properties"] of_json_workspace /\
  rejects_repeated ["description"; "expression"; "properties"] of_json_condition /\
  rejects_repeated ["uid"; "description"; "timeReceived"; "data"; "source"; "target"; "properties"]
    of_json_event /\
  rejects_repeated ["bom-ref"; "uid"; "name"; "description"; "resourceReferences"; "type"; "event";
    "conditions"; "timeActivated"; "inputs"; "outputs"; "properties"] of_json_trigger /\
  rejects_repeated ["bom-ref"; "uid"; "name"; "description"; "resourceReferences"; "taskTypes"; "trigger";
    "steps"; "inputs"; "outputs"; "timeStart"; "timeEnd"; "workspaces"; "runtimeTopology"; "properties"]
    of_json_task /\
  rejects_repeated ["bom-ref"; "uid"; "name"; "description"; "resourceReferences"; "tasks";
    "taskDependencies"; "taskTypes"; "trigger"; "steps"; "inputs"; "outputs"; "timeStart"; "timeEnd";
    "workspaces"; "runtimeTopology"; "properties"] of_json_workflow /\
  rejects_repeated ["bom-ref"; "components"; "services"; "workflows"; "properties"] (of_json_formula v) /\
  rejects_repeated ["algorithm"; "value"] of_json_signer /\
  rejects_repeated [] of_json_considerations /\
  rejects_repeated ["frames"] of_json_callstack /\
  rejects_repeated ["text"] of_json_copyright /\
  rejects_repeated ["uid"; "name"; "mode"; "path"; "size_allocated"; "persistent"; "remote"; "properties"]
    of_json_volume /\
  rejects_repeated ["bomFormat"; "specVersion"; "version"; "serialNumber"; "metadata"; "components";
    "services"; "externalReferences"; "dependencies"; "compositions"] (of_json_bom V1_3) /\
  rejects_repeated ["bomFormat"; "specVersion"; "version"; "serialNumber"; "metadata"; "components";
    "services"; "externalReferences"; "dependencies"; "compositions"; "vulnerabilities"; "signature"]
    (of_json_bom V1_4) /\
  rejects_repeated ["bomFormat"; "specVersion"; "version"; "serialNumber"; "metadata"; "components";
    "services"; "externalReferences"; "dependencies"; "compositions"; "vulnerabilities"; "signature";
    "annotations"; "properties"; "formulation"] (of_json_bom V1_5) /\
  rejects_repeated ["type"; "mime-type"; "bom-ref"; "supplier"; "author"; "publisher"; "group"; "name";
    "version"; "description"; "scope"; "hashes"; "licenses"; "copyright"; "cpe"; "purl"; "swid"; "modified";
    "pedigree"; "externalReferences"; "properties"; "components"; "evidence"] (of_json_component V1_3) /\
  rejects_repeated ["type"; "mime-type"; "bom-ref"; "supplier"; "author"; "publisher"; "group"; "name";
    "version"; "description"; "scope"; "hashes"; "licenses"; "copyright"; "cpe"; "purl"; "swid"; "modified";
    "pedigree"; "externalReferences"; "properties"; "components"; "evidence"; "signature"] (of_json_component
    V1_4) /\
  rejects_repeated ["type"; "mime-type"; "bom-ref"; "supplier"; "author"; "publisher"; "group"; "name";
    "version"; "description"; "scope"; "hashes"; "licenses"; "copyright"; "cpe"; "purl"; "swid"; "modified";
    "pedigree"; "externalReferences"; "properties"; "components"; "evidence"; "signature"; "modelCard";
    "data"] (of_json_component V1_5) /\
  rejects_repeated ["bom-ref"; "provider"; "group"; "name"; "version"; "description"; "endpoints";
    "authenticated"; "x-trust-boundary"; "data"; "licenses"; "externalReferences"; "properties"; "services"]
    (of_json_service V1_3) /\
  rejects_repeated ["bom-ref"; "provider"; "group"; "name"; "version"; "description"; "endpoints";
    "authenticated"; "x-trust-boundary"; "data"; "licenses"; "externalReferences"; "properties"; "services";
    "signature"] (of_json_service V1_4) /\
  rejects_repeated ["bom-ref"; "provider"; "group"; "name"; "version"; "description"; "endpoints";
    "authenticated"; "x-trust-boundary"; "data"; "licenses"; "externalReferences"; "properties"; "services";
    "signature"; "trustZone"] (of_json_service V1_5).
Proof.
  split; [exact (repeated_attached_text)|].
  split; [exact (repeated_attachment)|].
  split; [exact (repeated_hash)|].
  split; [exact (repeated_property)|].
  split; [exact (repeated_contact)|].
  split; [exact (repeated_entity)|].
  split; [exact (repeated_external_reference)|].
  split; [exact (repeated_licensing)|].
  split; [exact (repeated_identifiable_action)|].
  split; [exact (repeated_commit)|].
  split; [exact (repeated_diff)|].
  split; [exact (repeated_source)|].
  split; [exact (repeated_issue)|].
  split; [exact (repeated_patch)|].
  split; [exact (repeated_data_governance)|].
  split; [exact (repeated_data_contents)|].
  split; [exact (repeated_graphic)|].
  split; [exact (repeated_graphics_collection)|].
  split; [exact (repeated_component_data)|].
  split; [exact (repeated_approach)|].
  split; [exact (repeated_ml_parameter)|].
  split; [exact (repeated_model_parameters)|].
  split; [exact (repeated_confidence_interval)|].
  split; [exact (repeated_performance_metric)|].
  split; [exact (repeated_quantitative_analysis)|].
  split; [exact (repeated_model_card)|].
  split; [exact (repeated_occurrence)|].
  split; [exact (repeated_frame)|].
  split; [exact (repeated_method)|].
  split; [exact (repeated_identity)|].
  split; [exact (repeated_evidence_1_3)|].
  split; [exact (repeated_evidence_1_4)|].
  split; [exact (repeated_evidence_1_5)|].
  split; [exact (repeated_swid)|].
  split; [exact (repeated_data_classification)|].
  split; [exact (repeated_tool_1_3)|].
  split; [exact (repeated_tool_1_4)|].
  split; [exact (repeated_tool_1_5)|].
  split; [exact (repeated_metadata_1_3)|].
  split; [exact (repeated_metadata_1_4)|].
  split; [exact (repeated_metadata_1_5)|].
  split; [exact (repeated_dependency)|].
  split; [exact (repeated_composition_1_3)|].
  split; [exact (repeated_composition_1_4)|].
  split; [exact (repeated_composition_1_5)|].
  split; [exact (repeated_annotation v)|].
  split; [exact (repeated_vuln_source)|].
  split; [exact (repeated_vuln_reference)|].
  split; [exact (repeated_vuln_rating)|].
  split; [exact (repeated_advisory)|].
  split; [exact (repeated_vuln_credits)|].
  split; [exact (repeated_vuln_analysis_1_3)|].
  split; [exact (repeated_vuln_analysis_1_4)|].
  split; [exact (repeated_vuln_analysis_1_5)|].
  split; [exact (repeated_vuln_target)|].
  split; [exact (repeated_proof_of_concept)|].
  split; [exact (repeated_vulnerability_1_3)|].
  split; [exact (repeated_vulnerability_1_4)|].
  split; [exact (repeated_vulnerability_1_5)|].
  split; [exact (repeated_parameter)|].
  split; [exact (repeated_command)|].
  split; [exact (repeated_step)|].
  split; [exact (repeated_workspace)|].
  split; [exact (repeated_condition)|].
  split; [exact (repeated_event)|].
  split; [exact (repeated_trigger)|].
  split; [exact (repeated_task)|].
  split; [exact (repeated_workflow)|].
  split; [exact (repeated_formula v)|].
  split; [exact (repeated_signer)|].
  split; [exact (repeated_considerations)|].
  split; [exact (repeated_callstack)|].
  split; [exact (repeated_copyright)|].
  split; [exact (repeated_volume)|].
  split; [exact (repeated_bom_1_3)|].
  split; [exact (repeated_bom_1_4)|].
  split; [exact (repeated_bom_1_5)|].
  split; [exact (repeated_component_1_3)|].
  split; [exact (repeated_component_1_4)|].
  split; [exact (repeated_component_1_5)|].
  split; [exact (repeated_service_1_3)|].
  split; [exact (repeated_service_1_4)|].
  exact (repeated_service_1_5).
Qed.
(** pedigrees, licenses and affected versions; the last two take one of several members, so that two
    different ones of these are not a repetition *)
Theorem C47_flattened_members_partial v f :
  ignores_others ["ancestors"; "descendants"; "variants"; "commits"; "patches"; "notes"] (of_json_pedigree f)
  /\ rejects_repeated ["ancestors"; "descendants"; "variants"; "commits"; "patches"; "notes"] (of_json_pedigree f)
  /\ ignores_others ["bomRef"; "text"; "url"; "licensing"; "properties"; "id"; "name"] (of_json_license v)
  /\ ignores_others ["version"; "range"; "undefinedVersionRange"; "status"] of_json_version_status.
Proof.
  split; [apply others_pedigree|]. split; [apply repeated_pedigree|].
  split; [apply others_license | apply others_version_status].
Qed.
(** Where a value is one of several alternatives named by its only member, another member makes it
    unreadable. *)
Theorem C47_tagged_members_refuted :
  (forall v, exists l k x, of_json_license_choice v (JObj l) <> None /\ k <> "license" /\ k <> "expression" /\ k <> "bomRef"
     /\ of_json_license_choice v (JObj (l ++ [(k, x)])) = None)
  /\ (exists l k x, of_json_lifecycle (JObj l) <> None /\ k <> "phase" /\ k <> "name" /\ k <> "description"
     /\ of_json_lifecycle (JObj (l ++ [(k, x)])) = None)
  /\ (forall v, exists l k x, of_json_annotator v (JObj l) <> None
     /\ ~ In k ["organization"; "individual"; "component"; "service"]
     /\ of_json_annotator v (JObj (l ++ [(k, x)])) = None).
Proof.
  split; [|split].
  - intros v. exists [("license", JObj [("id", JStr "MIT")])], "x", JNull.
    destruct v; vm_compute; repeat split; discriminate.
  - exists [("phase", JStr "build")], "x", JNull. vm_compute. repeat split; discriminate.
  - intros v. exists [("organization", JObj [("name", JStr "o")])], "x", JNull.
    destruct v; vm_compute; (split; [discriminate|split; [|reflexivity]]);
      intros H; repeat (destruct H as [H|H]; [discriminate|]); exact H.
Qed.
(** Reading through a [serde_json::Value] accepts repeated members. *)
Theorem C47_repeated_members_refuted : exists l b,
  parse_from_json_with_version V1_5 (JObj l) = Fail "Failed to deserialize JSON" /\ parse_from_json (JObj l) = Done b.
Proof.
  exists [("bomFormat", JStr "CycloneDX"); ("specVersion", JStr "1.5"); ("version", JInt 1%Z); ("version", JInt 2%Z)].
  eexists. split; vm_compute; reflexivity.
Qed.
Example C47_example :
  of_json_hash (JObj [("alg", JStr "MD5"); ("content", JStr "00")]) = Some (mkHash MD5 "00")
  /\ of_json_hash (JObj [("alg", JStr "MD5"); ("x", JNull); ("content", JStr "00")]) = Some (mkHash MD5 "00")
  /\ of_json_hash (JObj [("alg", JStr "MD5"); ("content", JStr "00"); ("alg", JStr "MD5")]) = None.
Proof. repeat split. Qed.
Print Assumptions C47_unknown_members_ignored_partial.
Print Assumptions C47_repeated_members_rejected_partial.
Print Assumptions C47_flattened_members_partial.
Print Assumptions C47_tagged_members_refuted.
Print Assumptions C47_repeated_members_refuted.

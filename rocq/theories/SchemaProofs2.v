(** The JSON form of valid, tame values conforms to the schema: components and services. *)
From Verif Require Import Base ModelTypes Strings Regex Enums Json JsonModel JsonProofs JsonProofs2 JsonProofs4 JsonSpec Schema SchemaText SchemaLemmas ValModel ValSpec ValProofs SchemaSpec SchemaProofs.
From Coq Require Import ZArith Lia.
Open Scope string_scope.
Open Scope list_scope.

Section Conform.
Variable x : parsers.
Variable fmt : string -> string -> bool.
Hypothesis FA : formats_agree x fmt.
Notation ok v := (conforms fmt (schema_definitions v)).
Notation named r := (Sch [KRef r]).

Lemma ok_party_none (l : list responsible_party) : l = [] ->
  ok V1_5 (Sch [KType Ty_array; KItems (named "dataGovernanceResponsibleParty")]) (arr to_json_responsible_party l).
Proof. intros ->. apply conforms_intro. foralls; [kw|]. apply meets_arr. intros a []. Qed.
Lemma ok_governance g : tame_governance g -> ok V1_5 (named "dataGovernance") (to_json_data_governance g).
Proof.
  intros (A & B & C). unfold to_json_data_governance. open_hyps.
  apply (conforms_ref _ _ _ s15_dataGovernance); [reflexivity|]. apply conforms_intro. foralls; [kw|kw|].
  apply meets_properties; foralls; member; apply ok_party_none; auto.
Qed.
Hint Resolve ok_governance : sch.
Lemma ok_contents c : valid_contents x c -> ok V1_5 (sub "contents" s15_componentData) (to_json_data_contents c).
Proof. unfold valid_contents. intros. unfold to_json_data_contents. open_hyps. go. Qed.
Hint Extern 1 (conforms _ _ _ (to_json_data_contents _)) => apply ok_contents : sch.
Lemma ok_graphic p : when (g_image p) valid_attachment -> ok V1_5 (named "graphic") (to_json_graphic p).
Proof. intros. unfold to_json_graphic. open_hyps. go. Qed.
Hint Resolve ok_graphic : sch.
Lemma ok_graphics g : valid_graphics g -> ok V1_5 (named "graphicsCollection") (to_json_graphics_collection g).
Proof. unfold valid_graphics. intros. unfold to_json_graphics_collection. open_hyps. go. Qed.
Hint Resolve ok_graphics : sch.
Lemma ok_component_data d : tame_component_data x V1_5 d -> ok V1_5 (named "componentData") (to_json_component_data d).
Proof.
  unfold tame_component_data, valid_component_data. intros. unfold to_json_component_data, jtext. open_hyps. go.
Qed.
Hint Resolve ok_component_data : sch.
Lemma ok_dataset d : tame_dataset x V1_5 d ->
  ok V1_5 (Sch [KOneOf [named "componentData"; Sch [KType Ty_object; KOnly ["ref"];
    KProperties [("ref", Sch [KAnyOf [named "refLinkType"; named "bomLinkElementType"]])]]]]) (to_json_dataset d).
Proof.
  destruct d as [c|s]; [|intros []]. intros T. unfold tame_dataset in T. unfold to_json_dataset. apply conforms_intro. foralls. apply (meets_one _ _ 0). split.
  - go.
  - foralls. eapply violates_intro; [right; left; reflexivity|].
    eapply fails_only; [right; left; reflexivity|reflexivity].
Qed.
Lemma ok_model_parameters p : valid_model_parameters x V1_5 p -> every_in (mp_datasets p) (tame_dataset x V1_5) ->
  ok V1_5 (sub "modelParameters" s15_modelCard) (to_json_model_parameters p).
Proof.
  unfold valid_model_parameters. intros (A & _) D. unfold to_json_model_parameters.
  destruct (mp_approach p) as [[t]|]; cbn in A; unfold to_json_approach, jtext; open_hyps; reduce_schema;
    (apply conforms_intro; foralls; [kw|kw|]); apply meets_properties; foralls; member;
    try (apply conforms_intro; foralls; [kw|]; apply meets_arr; intros d I; apply ok_dataset; eapply D0; eassumption);
    try (injection E as <-); unfold to_json_ml_parameter; go.
Qed.
Hint Extern 1 (conforms _ _ _ (to_json_model_parameters _)) => apply ok_model_parameters : sch.
Lemma ok_metric m : tame_metric m -> ok V1_5 (named "performanceMetric") (to_json_performance_metric m).
Proof. unfold tame_metric. intros. unfold to_json_performance_metric. open_hyps. go. Qed.
Hint Resolve ok_metric : sch.
Lemma ok_quantitative q : when (qa_graphics q) valid_graphics -> every_in (qa_performance_metrics q) tame_metric ->
  ok V1_5 (sub "quantitativeAnalysis" s15_modelCard) (to_json_quantitative_analysis q).
Proof. intros. unfold to_json_quantitative_analysis. open_hyps. go. Qed.
Hint Extern 1 (conforms _ _ _ (to_json_quantitative_analysis _)) => apply ok_quantitative : sch.
Lemma ok_considerations c : ok V1_5 (sub "considerations" s15_modelCard) (to_json_considerations c).
Proof. unfold to_json_considerations. go. Qed.
Hint Extern 1 (conforms _ _ _ (to_json_considerations _)) => apply ok_considerations : sch.
Lemma ok_model_card c : tame_model_card x V1_5 c -> ok V1_5 (named "modelCard") (to_json_model_card c).
Proof.
  unfold tame_model_card, valid_model_card. intros. unfold to_json_model_card. open_hyps. go.
Qed.
Hint Resolve ok_model_card : sch.

Lemma refs_different v l : tame_refs v l -> all_different (map JStr l) = true.
Proof. intros [H _]. apply different_texts, H. Qed.
Lemma refs_each l a : tame_refs V1_5 l -> In a l -> (1 <= chars a)%N.
Proof. intros [_ H] I. apply (every_elim _ _ H a I). reflexivity. Qed.
Hint Resolve refs_different refs_each : sch.

Lemma unit_interval f : between_0_and_1 f ->
  ok V1_5 (Sch [KType Ty_number; KMinimum 0%Z; KMaximum 1%Z]) (to_json_f32 f).
Proof.
  destruct f as [|n|n m e]; try contradiction. intros [S L]. apply conforms_intro. foralls.
  - kw.
  - apply meets_minimum. intros p E. cbn in E. injection E as <-. unfold at_least. cbn [fst snd]. apply Z.leb_le.
    assert (0 <= 2 ^ Z.max e 0)%Z by (apply Z.pow_nonneg; lia).
    destruct S as [->| ->]; [|destruct n]; nia.
  - apply meets_maximum. intros p E. cbn in E. injection E as <-. unfold at_most. cbn [fst snd]. apply Z.leb_le.
    destruct S as [->| ->]; [|destruct n]; nia.
Qed.
Hint Resolve unit_interval : sch.
Lemma ok_method m : tame_method m ->
  ok V1_5 (Sch [KType Ty_object; KRequired ["technique"; "confidence"]; KOnly ["technique"; "confidence"; "value"];
    KProperties [("technique", Sch [KType Ty_string; KEnum techniques]);
      ("confidence", Sch [KType Ty_number; KMinimum 0%Z; KMaximum 1%Z]); ("value", Sch [KType Ty_string])]])
    (to_json_method m).
Proof.
  unfold tame_method. intros [T C]. unfold to_json_method. apply conforms_intro; foralls; [kw|kw|kw|].
  apply meets_properties; foralls; member; [go; exact T|apply unit_interval; exact C|go].
Qed.
Hint Extern 1 (conforms _ _ _ (to_json_method _)) => apply ok_method : sch.
Lemma ok_identity i : valid_identity i -> tame_identity V1_5 i ->
  ok V1_5 (sub "identity" s15_componentEvidence) (to_json_identity i).
Proof.
  unfold valid_identity, tame_identity. intros. unfold to_json_identity, jtext. open_hyps.
  reduce_schema. apply conforms_intro; foralls; [kw|kw|kw|].
  apply meets_properties; foralls; member; [go|apply unit_interval; auto|go|go].
Qed.
Hint Extern 1 (conforms _ _ _ (to_json_identity _)) => apply ok_identity : sch.
Lemma ok_occurrence o : absent (oc_bom_ref o) ->
  ok V1_5 (Sch [KType Ty_object; KRequired ["location"]; KOnly ["bom-ref"; "location"]; KProperties
     [("bom-ref", named "refType"); ("location", Sch [KType Ty_string])]]) (to_json_occurrence o).
Proof. intros. unfold to_json_occurrence. open_hyps. go. Qed.
Hint Extern 1 (conforms _ _ _ (to_json_occurrence _)) => apply ok_occurrence : sch.
Lemma ok_callstack l : ok V1_5 (sub "callstack" s15_componentEvidence) (to_json_callstack l).
Proof. unfold to_json_callstack, to_json_frame. go. Qed.
Hint Extern 1 (conforms _ _ _ (to_json_callstack _)) => apply ok_callstack : sch.
Lemma ok_copyright v s : ok v (named "copyright") (to_json_copyright s).
Proof. unfold to_json_copyright. destruct v; go. Qed.
Hint Resolve ok_copyright : sch.
Lemma licenses_13 l c : valid_licenses x V1_3 l -> In c l -> valid_license_choice x V1_3 c.
Proof. intros [H _]. apply every_elim, H. Qed.
Lemma licenses_14 l c : valid_licenses x V1_4 l -> In c l -> valid_license_choice x V1_4 c.
Proof. intros [H _]. apply every_elim, H. Qed.
Lemma every_tame_in {A} (P : A -> Prop) o l : (forall l, o = Some l -> forall a, In a l -> P a) -> o = Some l -> every P l.
Proof.
  intros H E. specialize (H l E). clear E. induction l as [|a l IH]; cbn; [exact I|].
  split; [apply H; left; reflexivity|]. apply IH. intros b B. apply H. right. exact B.
Qed.
Hint Resolve licenses_13 licenses_14 every_tame_in : sch.

Lemma ok_evidence v e : valid_evidence x v e -> tame_evidence fmt v e -> ok v (named "componentEvidence") (to_json_evidence v e).
Proof.
  unfold valid_evidence, tame_evidence. intros. unfold to_json_evidence. destruct v; open_hyps; go.
Qed.
Hint Resolve ok_evidence : sch.

(** ** Components *)
Lemma versioned_nested v c l d : versioned v c -> c_components c = Some l -> In d l -> versioned v d.
Proof. intros H E I e W. apply H. eapply within_nested; [rewrite E; exact I|exact W]. Qed.
Lemma versioned_pedigree v c p d : versioned v c -> c_pedigree c = Some p -> In d (pedigree_members p) -> versioned v d.
Proof. intros H E I e W. apply H. eapply within_pedigree; eauto. Qed.

Lemma ok_pedigree v p :
  (forall l d, pd_ancestors p = Some l \/ pd_descendants p = Some l \/ pd_variants p = Some l -> In d l ->
     ok v (named "component") (to_json_component v d)) ->
  every_in (pd_commits p) (valid_commit x) -> every_in (pd_commits p) (tame_commit fmt) ->
  every_in (pd_patches p) (valid_patch x) ->
  ok v (sub "pedigree" (defn "component" v)) (to_json_pedigree (to_json_component v) p).
Proof.
  intros C V T P. unfold to_json_pedigree. open_hyps.
  assert (C1 : forall l d, pd_ancestors p = Some l -> In d l -> ok v (named "component") (to_json_component v d)) by eauto.
  assert (C2 : forall l d, pd_descendants p = Some l -> In d l -> ok v (named "component") (to_json_component v d)) by eauto.
  assert (C3 : forall l d, pd_variants p = Some l -> In d l -> ok v (named "component") (to_json_component v d)) by eauto.
  clear C. destruct v; go.
Qed.

Lemma valid_component_open v c : valid_component x v c ->
  classification_in v (c_type c)
  /\ when (c_mime_type c) mime_shape /\ when (c_supplier c) (valid_entity x v)
  /\ when (c_scope c) (fun s => forall t, s <> ScUnknown t)
  /\ every_in (c_hashes c) valid_hash /\ when (c_licenses c) (valid_licenses x v)
  /\ when (c_swid c) (valid_swid x)
  /\ when (c_pedigree c) (valid_pedigree_with x (valid_component x v))
  /\ every_in (c_external_references c) (valid_ext_ref x v)
  /\ every_in (c_components c) (valid_component x v)
  /\ when (c_evidence c) (valid_evidence x v).
Proof. destruct c. cbn. tauto. Qed.
Lemma tame_component_open v c : tame_component x fmt v c ->
  when (c_bom_ref c) (tame_ref v) /\ when (c_supplier c) (tame_entity fmt v)
  /\ every_in (c_hashes c) tame_hash /\ every_in (c_licenses c) (tame_license_choice fmt v)
  /\ when (c_pedigree c) (tame_pedigree_with fmt (tame_component x fmt v))
  /\ every_in (c_external_references c) (tame_ext_ref fmt v)
  /\ every_in (c_components c) (tame_component x fmt v)
  /\ when (c_components c) (written_once (to_json_component v))
  /\ when (c_evidence c) (tame_evidence fmt v)
  /\ (~ before_1_4 v -> when (c_signature c) tame_signature)
  /\ later v (c_model_card c) (tame_model_card x v)
  /\ (in_1_5 v -> absent (c_data c)).
Proof. destruct c. exact (fun H => H). Qed.

Lemma ok_component v c : versioned v c -> valid_component x v c -> tame_component x fmt v c ->
  ok v (named "component") (to_json_component v c).
Proof.
  induction c as [c IHc IHp] using component_ind'. intros W V T.
  assert (Vn : v = V1_3 -> exists s, c_version c = Some s).
  { intros E. destruct (c_version c) eqn:Q; [eauto|]. destruct (W c (within_self c) E Q). }
  assert (C : forall l d, c_components c = Some l -> In d l -> ok v (named "component") (to_json_component v d)).
  { intros l d E I. apply valid_component_open in V. apply tame_component_open in T. open_hyps.
    apply IHc; [rewrite E; exact I|eapply versioned_nested; eauto|eauto|eauto]. }
  assert (P : forall p, c_pedigree c = Some p ->
     ok v (sub "pedigree" (defn "component" v)) (to_json_pedigree (to_json_component v) p)).
  { intros p E. apply valid_component_open in V. apply tame_component_open in T.
    assert (V' : valid_pedigree_with x (valid_component x v) p).
    { destruct V as (_ & _ & _ & _ & _ & _ & _ & V & _). rewrite E in V. exact V. }
    assert (T' : tame_pedigree_with fmt (tame_component x fmt v) p).
    { destruct T as (_ & _ & _ & _ & T & _). rewrite E in T. exact T. }
    clear V T. unfold valid_pedigree_with, tame_pedigree_with in *. destruct (IHp p E) as (I1 & I2 & I3).
    destruct V' as (V1 & V2 & V3 & V4 & V5), T' as (T1 & T2 & T3 & T4).
    apply ok_pedigree; try assumption. intros l d Q I.
    assert (M : In d (pedigree_members p)).
    { unfold pedigree_members. rewrite !in_app_iff. destruct Q as [Q|[Q|Q]]; rewrite Q; cbn; tauto. }
    pose proof (versioned_pedigree _ _ _ _ W E M) as Wd. open_hyps.
    destruct Q as [Q|[Q|Q]]; [apply I1|apply I2|apply I3]; try (rewrite Q; exact I); eauto. }
  clear IHc IHp W. apply valid_component_open in V. apply tame_component_open in T.
  rewrite to_json_component_eq. unfold jtext.
  destruct v; [destruct (Vn eq_refl) as [s ->]; change (opt JStr (Some s)) with (Some (JStr s))| |];
    clear Vn; open_hyps; go.
Qed.

(** ** Services *)
Lemma ok_data_class v d : v <> V1_5 -> valid_data_class d -> ok v (named "dataClassification") (to_json_data_classification d).
Proof.
  unfold valid_data_class. intros N [F _]. unfold to_json_data_classification, jtext. destruct v; [| |congruence]; go.
Qed.
Lemma ok_data_old v d : v <> V1_5 -> valid_data x v d ->
  ok v (Sch [KType Ty_array; KItems (named "dataClassification")]) (to_json_data v d).
Proof.
  intros N V. destruct d as [l|l]; cbn in V; pose proof (every_elim _ _ V) as V'; unfold to_json_data.
  - replace (since V1_5 v) with false by (destruct v; [reflexivity|reflexivity|congruence]).
    apply conforms_intro. foralls; [kw|]. apply meets_arr. intros d I. apply in_map_iff in I as (s & <- & I).
    apply ok_data_class; [exact N|]. apply V' in I. apply I.
  - apply conforms_intro. foralls; [kw|]. apply meets_arr. intros d I. apply ok_data_class; auto.
Qed.
Lemma ok_service_data d : valid_service_data x V1_5 d -> when (sd_governance d) tame_governance ->
  ok V1_5 (named "serviceData") (to_json_service_data d).
Proof.
  unfold valid_service_data, valid_data_class. intros. unfold to_json_service_data, jtext. open_hyps. go.
Qed.
Lemma ok_data_class_15 d : valid_data_class d -> ok V1_5 (named "serviceData") (to_json_data_classification d).
Proof. unfold valid_data_class. intros [F _]. unfold to_json_data_classification, jtext. go. Qed.
Lemma ok_data_15 d : valid_data x V1_5 d -> tame_data V1_5 d ->
  ok V1_5 (Sch [KType Ty_array; KItems (named "serviceData")]) (to_json_data V1_5 d).
Proof.
  intros V T. destruct d as [l|l]; cbn in V, T; pose proof (every_elim _ _ V) as V'; unfold to_json_data.
  - apply conforms_intro. foralls; [kw|]. apply meets_arr. intros d I. apply ok_service_data; [auto|].
    exact (every_elim _ _ (T eq_refl) d I).
  - apply conforms_intro. foralls; [kw|]. apply meets_arr. intros d I. apply ok_data_class_15; auto.
Qed.

Lemma ok_data_13 d : valid_data x V1_3 d ->
  ok V1_3 (Sch [KType Ty_array; KItems (named "dataClassification")]) (to_json_data V1_3 d).
Proof. apply ok_data_old. discriminate. Qed.
Lemma ok_data_14 d : valid_data x V1_4 d ->
  ok V1_4 (Sch [KType Ty_array; KItems (named "dataClassification")]) (to_json_data V1_4 d).
Proof. apply ok_data_old. discriminate. Qed.
Hint Resolve ok_data_13 ok_data_14 ok_data_15 : sch.

Lemma valid_service_open v s : valid_service x v s ->
  when (s_provider s) (valid_entity x v) /\ every_in (s_endpoints s) (is_uri x)
  /\ when (s_data s) (valid_data x v) /\ when (s_licenses s) (valid_licenses x v)
  /\ every_in (s_external_references s) (valid_ext_ref x v)
  /\ every_in (s_services s) (valid_service x v).
Proof. destruct s. cbn. tauto. Qed.
Lemma tame_service_open v s : tame_service fmt v s ->
  when (s_bom_ref s) (tame_ref v) /\ when (s_provider s) (tame_entity fmt v)
  /\ when (s_data s) (tame_data v) /\ every_in (s_licenses s) (tame_license_choice fmt v)
  /\ every_in (s_external_references s) (tame_ext_ref fmt v)
  /\ every_in (s_services s) (tame_service fmt v)
  /\ when (s_services s) (written_once (to_json_service v))
  /\ (~ before_1_4 v -> when (s_signature s) tame_signature).
Proof. destruct s. exact (fun H => H). Qed.

Lemma ok_service v s : valid_service x v s -> tame_service fmt v s -> ok v (named "service") (to_json_service v s).
Proof.
  induction s as [s IH] using service_ind'. intros V T.
  apply valid_service_open in V. apply tame_service_open in T.
  assert (C : forall l d, s_services s = Some l -> In d l -> ok v (named "service") (to_json_service v d)).
  { intros l d E I. open_hyps. apply IH; [rewrite E; exact I|eauto|eauto]. }
  clear IH. rewrite to_json_service_eq.
  destruct v; open_hyps; [| |]; go.
Qed.
End Conform.

#[global] Hint Resolve refs_different refs_each licenses_13 licenses_14 every_tame_in ok_component ok_service : sch.

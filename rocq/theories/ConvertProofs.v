(** From XML to JSON: proofs. *)
From Verif Require Import Base ModelTypes Strings Enums GenModel Json JsonLemmas JsonModel JsonSpec JsonProofs JsonProofs3
  Xml XmlLemmas XmlModel XmlSpec XmlGeneral XmlYield ResaveSpec ConvertSpec.
Open Scope string_scope.
Open Scope list_scope.
Open Scope nat_scope.

Definition turns {A B} (f g : A -> B) (a : A) : Prop := f a = g a.
Definition fixes {A} (f : A -> A) (a : A) : Prop := f a = a.

(** ** Texts *)
Lemma settle_text {A} (raw : A -> option string) (U : string -> A) t s :
  (forall s, raw (U s) = Some s) -> Forall (fun a => raw a = None) (map snd t) ->
  settle raw (of_table U t) (of_table U t s) = of_table U t s.
Proof.
  intros H F. unfold settle. destruct (of_table_cases U t s) as [C|C].
  - rewrite C, H. exact C.
  - rewrite Forall_forall in F. now rewrite (F _ C).
Qed.
Lemma settled_access_mode s : kept_access_mode (access_mode_of_text s) = access_mode_of_text s.
Proof. apply settle_text; [reflexivity | repeat constructor]. Qed.
Lemma settled_analysis_justification s : kept_analysis_justification (analysis_justification_of_text s) = analysis_justification_of_text s.
Proof. apply settle_text; [reflexivity | repeat constructor]. Qed.
Lemma settled_analysis_response s : kept_analysis_response (analysis_response_of_text s) = analysis_response_of_text s.
Proof. apply settle_text; [reflexivity | repeat constructor]. Qed.
Lemma settled_analysis_state s : kept_analysis_state (analysis_state_of_text s) = analysis_state_of_text s.
Proof. apply settle_text; [reflexivity | repeat constructor]. Qed.
Lemma settled_approach_type s : kept_approach_type (approach_type_of_text s) = approach_type_of_text s.
Proof. apply settle_text; [reflexivity | repeat constructor]. Qed.
Lemma settled_classification s : kept_classification (classification_of_text s) = classification_of_text s.
Proof. apply settle_text; [reflexivity | repeat constructor]. Qed.
Lemma settled_component_data_type s : kept_component_data_type (component_data_type_of_text s) = component_data_type_of_text s.
Proof. apply settle_text; [reflexivity | repeat constructor]. Qed.
Lemma settled_data_flow_type s : kept_data_flow_type (data_flow_type_of_text s) = data_flow_type_of_text s.
Proof. apply settle_text; [reflexivity | repeat constructor]. Qed.
Lemma settled_encoding s : kept_encoding (encoding_of_text s) = encoding_of_text s.
Proof. apply settle_text; [reflexivity | repeat constructor]. Qed.
Lemma settled_hash_algorithm s : kept_hash_algorithm (hash_algorithm_of_text s) = hash_algorithm_of_text s.
Proof. apply settle_text; [reflexivity | repeat constructor]. Qed.
Lemma settled_issue_classification s : kept_issue_classification (issue_classification_of_text s) = issue_classification_of_text s.
Proof. apply settle_text; [reflexivity | repeat constructor]. Qed.
Lemma settled_license_type s : kept_license_type (license_type_of_text s) = license_type_of_text s.
Proof. apply settle_text; [reflexivity | repeat constructor]. Qed.
Lemma settled_output_type s : kept_output_type (output_type_of_text s) = output_type_of_text s.
Proof. apply settle_text; [reflexivity | repeat constructor]. Qed.
Lemma settled_patch_classification s : kept_patch_classification (patch_classification_of_text s) = patch_classification_of_text s.
Proof. apply settle_text; [reflexivity | repeat constructor]. Qed.
Lemma settled_phase s : kept_phase (phase_of_text s) = phase_of_text s.
Proof. apply settle_text; [reflexivity | repeat constructor]. Qed.
Lemma settled_scope s : kept_scope (scope_of_text s) = scope_of_text s.
Proof. apply settle_text; [reflexivity | repeat constructor]. Qed.
Lemma settled_score_method s : kept_score_method (score_method_of_text s) = score_method_of_text s.
Proof. apply settle_text; [reflexivity | repeat constructor]. Qed.
Lemma settled_severity s : kept_severity (severity_of_text s) = severity_of_text s.
Proof. apply settle_text; [reflexivity | repeat constructor]. Qed.
Lemma settled_status s : kept_status (status_of_text s) = status_of_text s.
Proof. apply settle_text; [reflexivity | repeat constructor]. Qed.
Lemma settled_task_type s : kept_task_type (task_type_of_text s) = task_type_of_text s.
Proof. apply settle_text; [reflexivity | repeat constructor]. Qed.
Lemma settled_trigger_type s : kept_trigger_type (trigger_type_of_text s) = trigger_type_of_text s.
Proof. apply settle_text; [reflexivity | repeat constructor]. Qed.
Lemma settled_volume_mode s : kept_volume_mode (volume_mode_of_text s) = volume_mode_of_text s.
Proof. apply settle_text; [reflexivity | repeat constructor]. Qed.
Lemma settled_ext_ref_type s : kept_ext_ref_type (ext_ref_type_of_text s) = respell_ext_ref_type (ext_ref_type_of_text s).
Proof.
  unfold ext_ref_type_of_text. destruct (of_table_cases ERUnknown tbl_ext_ref_type s) as [C|C].
  - rewrite C. exact C.
  - cbn [map snd tbl_ext_ref_type In] in C. decompose [or] C; try tauto;
      match goal with H : ?a = of_table _ _ _ |- _ => rewrite <- H; reflexivity end.
Qed.
Lemma settled_aggregate_type s : kept_aggregate_type (aggregate_type_of_text s) = respell_aggregate_type (aggregate_type_of_text s).
Proof.
  unfold aggregate_type_of_text. destruct (of_table_cases AUnknownType tbl_aggregate_type s) as [C|C].
  - rewrite C. exact C.
  - cbn [map snd tbl_aggregate_type In] in C. decompose [or] C; try tauto;
      match goal with H : ?a = of_table _ _ _ |- _ => rewrite <- H; reflexivity end.
Qed.
Lemma settled_uri s : kept_uri (uri_of s) = uri_of s.
Proof. unfold uri_of. destruct (starts_with "urn:cdx" s) eqn:P; unfold kept_uri; now rewrite P. Qed.
Lemma settled_encodings o : option_map kept_encoding (option_map encoding_of_text o) = option_map encoding_of_text o.
Proof. destruct o as [s|]; [|reflexivity]. exact (f_equal Some (settled_encoding s)). Qed.
Lemma signers x : kept_signer x = as_json_signer x.
Proof. destruct x as [[] s]; reflexivity. Qed.
Lemma signatures x : kept_signature x = as_json_signature x.
Proof.
  destruct x as [l|l|s]; cbn [kept_signature as_json_signature]; rewrite ?signers; f_equal; apply map_ext, signers.
Qed.
Lemma numbers x : finite_only x = as_json_number x.
Proof. destruct x as [[]|]; reflexivity. Qed.

Local Arguments kept_access_mode _ : simpl never.
Local Arguments kept_analysis_justification _ : simpl never.
Local Arguments kept_analysis_response _ : simpl never.
Local Arguments kept_analysis_state _ : simpl never.
Local Arguments kept_approach_type _ : simpl never.
Local Arguments kept_classification _ : simpl never.
Local Arguments kept_component_data_type _ : simpl never.
Local Arguments kept_data_flow_type _ : simpl never.
Local Arguments kept_encoding _ : simpl never.
Local Arguments kept_hash_algorithm _ : simpl never.
Local Arguments kept_issue_classification _ : simpl never.
Local Arguments kept_license_type _ : simpl never.
Local Arguments kept_output_type _ : simpl never.
Local Arguments kept_patch_classification _ : simpl never.
Local Arguments kept_phase _ : simpl never.
Local Arguments kept_scope _ : simpl never.
Local Arguments kept_score_method _ : simpl never.
Local Arguments kept_severity _ : simpl never.
Local Arguments kept_status _ : simpl never.
Local Arguments kept_task_type _ : simpl never.
Local Arguments kept_trigger_type _ : simpl never.
Local Arguments kept_volume_mode _ : simpl never.
Local Arguments kept_ext_ref_type _ : simpl never.
Local Arguments kept_aggregate_type _ : simpl never.
Local Arguments kept_identity_field _ : simpl never.
Local Arguments kept_uri _ : simpl never.
Local Arguments kept_signature _ : simpl never.
Local Arguments access_mode_of_text _ : simpl never.
Local Arguments analysis_justification_of_text _ : simpl never.
Local Arguments analysis_response_of_text _ : simpl never.
Local Arguments analysis_state_of_text _ : simpl never.
Local Arguments approach_type_of_text _ : simpl never.
Local Arguments classification_of_text _ : simpl never.
Local Arguments component_data_type_of_text _ : simpl never.
Local Arguments data_flow_type_of_text _ : simpl never.
Local Arguments encoding_of_text _ : simpl never.
Local Arguments hash_algorithm_of_text _ : simpl never.
Local Arguments issue_classification_of_text _ : simpl never.
Local Arguments license_type_of_text _ : simpl never.
Local Arguments output_type_of_text _ : simpl never.
Local Arguments patch_classification_of_text _ : simpl never.
Local Arguments phase_of_text _ : simpl never.
Local Arguments scope_of_text _ : simpl never.
Local Arguments score_method_of_text _ : simpl never.
Local Arguments severity_of_text _ : simpl never.
Local Arguments status_of_text _ : simpl never.
Local Arguments task_type_of_text _ : simpl never.
Local Arguments trigger_type_of_text _ : simpl never.
Local Arguments volume_mode_of_text _ : simpl never.
Local Arguments ext_ref_type_of_text _ : simpl never.
Local Arguments aggregate_type_of_text _ : simpl never.
Local Arguments identity_field_of_text _ : simpl never.
Local Arguments uri_of _ : simpl never.
Local Arguments since _ _ : simpl never.
Local Arguments JsonSpec.from {A} _ _ _ : simpl never.
Local Arguments finite_only _ : simpl never.
Local Arguments as_json_number _ : simpl never.
Create HintDb cv.
Section CONVERT.
  Variables (v w : spec_version) (F : float_text).
  Hypothesis later : version_leb v w = true.
  Let E (e : event) := True.
  Notation yields := (yields E).
  Notation keeps := (keeps E).

  Lemma y_all {A} tag (d : desc A) (P : A -> Prop) : (forall a, P a) -> yields tag d P.
  Proof. intros H ? ? ? ? ? ? ?. apply H. Qed.
  Lemma one_fixes {A} tag (d : desc A) f : yields tag d (fixes f) -> keeps (Xml.one tag d) (fixes (option_map f)).
  Proof. intros H. apply (keep_on E tag d _ _ _ (fixes f)); [exact H|reflexivity|]. intros a st st' Ha _ [= <-]. unfold fixes in *. cbn. congruence. Qed.
  Lemma one_turns {A B} tag (d : desc A) (f g : A -> B) : yields tag d (turns f g) -> keeps (Xml.one tag d) (turns (option_map f) (option_map g)).
  Proof. intros H. apply (keep_on E tag d _ _ _ (turns f g)); [exact H|reflexivity|]. intros a st st' Ha _ [= <-]. unfold turns in *. cbn. congruence. Qed.
  Lemma many_fixes {A} tag (d : desc A) f : yields tag d (fixes f) -> keeps (many tag d) (fixes (map f)).
  Proof.
    intros H. apply (keep_on E tag d _ _ _ (fixes f)); [exact H|reflexivity|]. intros a st st' Ha Hs [= <-].
    unfold fixes in *. rewrite map_app. cbn. congruence.
  Qed.
  Lemma many_turns {A B} tag (d : desc A) (f g : A -> B) : yields tag d (turns f g) -> keeps (many tag d) (turns (map f) (map g)).
  Proof.
    intros H. apply (keep_on E tag d _ _ _ (turns f g)); [exact H|reflexivity|]. intros a st st' Ha Hs [= <-].
    unfold turns in *. rewrite !map_app. cbn. congruence.
  Qed.
  Lemma many_opt_turns {A B} tag (d : desc A) (f g : A -> B) : yields tag d (turns f g) -> keeps (many_opt tag d) (turns (option_map (map f)) (option_map (map g))).
  Proof.
    intros H. apply (keep_on E tag d _ _ _ (turns f g)); [exact H|reflexivity|]. intros a st st' Ha Hs [= <-].
    unfold turns in *. destruct st as [l|]; cbn in *; [|congruence]. rewrite !map_app. cbn. injection Hs as ->. congruence.
  Qed.
  Lemma list_fixes {A} n p tag (d : desc A) f : yields tag d (fixes f) -> keeps (one_list p n tag d) (fixes (option_map (map f))).
  Proof. intros H. apply one_fixes, yields_loop, many_fixes, H. Qed.
  Lemma list_turns {A B} n p tag (d : desc A) (f g : A -> B) : yields tag d (turns f g) -> keeps (one_list p n tag d) (turns (option_map (map f)) (option_map (map g))).
  Proof. intros H. apply one_turns, yields_loop, many_turns, H. Qed.
  Lemma since_false V : since V v = false \/ version_leb V w = true.
  Proof. clear - later. destruct V, v, w; try discriminate later; auto. Qed.
  Lemma since_turns {A B} V (sh : shape (option A)) (f g : option A -> option B) :
    init sh = None -> f None = None -> g None = None -> keeps sh (turns f g) ->
    keeps (Xml.from (since V v) sh) (turns (fun o => JsonSpec.from V w (f o)) g).
  Proof.
    intros I Hf Hg H. destruct (since_false V) as [L|L].
    - rewrite L. split; [|split; [discriminate|intros m r ats evs u rest st st' R; discriminate R]].
      unfold turns. cbn [init Xml.from]. rewrite I, Hf, Hg. unfold JsonSpec.from. now destruct (version_leb V w).
    - apply keep_from. destruct H as (a & b & c). unfold turns, JsonSpec.from. rewrite L. repeat split; assumption.
  Qed.
  Lemma since_fixes {A} V (sh : shape (option A)) (f : option A -> option A) :
    init sh = None -> f None = None -> keeps sh (fixes f) ->
    keeps (Xml.from (since V v) sh) (fixes (fun o => JsonSpec.from V w (f o))).
  Proof. intros I Hf H. exact (since_turns V sh f (fun o => o) I Hf eq_refl H). Qed.
  Lemma since_plain {A} V (sh : shape (option A)) : init sh = None -> keeps (Xml.from (since V v) sh) (fixes (JsonSpec.from V w)).
  Proof.
    intros I. apply (since_fixes V sh (fun o => o) I eq_refl). unfold fixes.
    repeat split; intros; auto.
  Qed.
  Lemma since_attr {A} V (o : option A) : JsonSpec.from V w (if since V v then o else None) = if since V v then o else None.
  Proof. unfold JsonSpec.from. destruct (since_false V) as [L|L]; rewrite L; [now destruct (version_leb V w)|reflexivity]. Qed.

  Ltac plain := first
    [ eapply list_fixes; solve [eauto 3 with cv nocore]
    | eapply list_turns; solve [eauto 3 with cv nocore]
    | eapply one_fixes; solve [eauto 3 with cv nocore]
    | eapply one_turns; solve [eauto 3 with cv nocore]
    | eapply many_fixes; solve [eauto 3 with cv nocore]
    | eapply many_turns; solve [eauto 3 with cv nocore]
    | eapply many_opt_turns; solve [eauto 3 with cv nocore]
    | solve [eauto 3 with cv nocore] ].
  Ltac arm := lazymatch goal with
    | |- XmlYield.keeps _ (Xml.from _ _) _ => first
        [ eapply since_fixes; cycle 2; [plain|reflexivity|reflexivity]
        | eapply since_turns; cycle 3; [plain|reflexivity|reflexivity|reflexivity]
        | eapply since_plain; reflexivity ]
    | _ => first [ plain | apply keep_true ]
    end.
  Ltac arms := lazymatch goal with |- XmlYield.keeps _ (SPair _ _) _ => eapply keep_pair; [arm|arms] | _ => arm end.
  Ltac opens H :=
    repeat match type of H with
    | bindo ?e _ = Some _ => let b := fresh "b" in let Q := fresh "Q" in destruct e as [b|] eqn:Q; [cbn [bindo] in H|discriminate H]
    end.
  Ltac all_rewrite := repeat match goal with H : ?l = ?r |- context [?l] => rewrite H; clear H end.
  Ltac start :=
    let ats := fresh "ats" in let st := fresh "st" in let b := fresh "b" in let He := fresh "He" in let H := fresh "H" in let R := fresh "R" in
    intros ats st b He H R;
    repeat match goal with s : (_ * _)%type |- _ => destruct s end; cbn [fst snd] in *;
    repeat match goal with H : _ /\ _ |- _ => destruct H end;
    unfold fixes, turns in *;
    opens R; injection R as <-;
    repeat match goal with
    | H : option_map _ (Some _) = _ |- _ => cbn [option_map] in H; injection H as H
    | H : True |- _ => clear H
    end.
  Ltac texts := rewrite ?settled_ext_ref_type, ?settled_aggregate_type, ?settled_uri, ?settled_encodings, ?numbers, ?settled_classification, ?settled_data_flow_type, ?settled_encoding, ?settled_hash_algorithm, ?settled_issue_classification, ?settled_patch_classification, ?settled_status.
  Ltac fin := start; cbn; all_rewrite; texts; reflexivity.
  Tactic Notation "reads" constr(rd) "with" constr(k) := unfold rd; eapply yields_struct; [arms|start; unfold k; cbn; all_rewrite; texts; reflexivity].
  Tactic Notation "reads" constr(rd) "with" constr(k) constr(g) := unfold rd; eapply yields_struct; [arms|start; unfold k, g; cbn; all_rewrite; texts; rewrite ?since_attr; reflexivity].

  Lemma y_enum {A} tag (f : string -> A) k : (forall s, k (f s) = f s) -> yields tag (d_enum f) (fixes k).
  Proof. intros H. eapply yields_map; [apply yields_true|]. intros ats a b _ _ [= <-]. apply H. Qed.
  Lemma y_enum_turns {A B} tag (f : string -> A) (k g : A -> B) : (forall s, k (f s) = g (f s)) -> yields tag (d_enum f) (turns k g).
  Proof. intros H. eapply yields_map; [apply yields_true|]. intros ats a b _ _ [= <-]. apply H. Qed.
  Lemma e_access_mode tag : yields tag (d_enum access_mode_of_text) (fixes kept_access_mode).
  Proof. apply y_enum, settled_access_mode. Qed.
  Lemma e_analysis_justification tag : yields tag (d_enum analysis_justification_of_text) (fixes kept_analysis_justification).
  Proof. apply y_enum, settled_analysis_justification. Qed.
  Lemma e_analysis_response tag : yields tag (d_enum analysis_response_of_text) (fixes kept_analysis_response).
  Proof. apply y_enum, settled_analysis_response. Qed.
  Lemma e_analysis_state tag : yields tag (d_enum analysis_state_of_text) (fixes kept_analysis_state).
  Proof. apply y_enum, settled_analysis_state. Qed.
  Lemma e_approach_type tag : yields tag (d_enum approach_type_of_text) (fixes kept_approach_type).
  Proof. apply y_enum, settled_approach_type. Qed.
  Lemma e_classification tag : yields tag (d_enum classification_of_text) (fixes kept_classification).
  Proof. apply y_enum, settled_classification. Qed.
  Lemma e_component_data_type tag : yields tag (d_enum component_data_type_of_text) (fixes kept_component_data_type).
  Proof. apply y_enum, settled_component_data_type. Qed.
  Lemma e_data_flow_type tag : yields tag (d_enum data_flow_type_of_text) (fixes kept_data_flow_type).
  Proof. apply y_enum, settled_data_flow_type. Qed.
  Lemma e_license_type tag : yields tag (d_enum license_type_of_text) (fixes kept_license_type).
  Proof. apply y_enum, settled_license_type. Qed.
  Lemma e_output_type tag : yields tag (d_enum output_type_of_text) (fixes kept_output_type).
  Proof. apply y_enum, settled_output_type. Qed.
  Lemma e_phase tag : yields tag (d_enum phase_of_text) (fixes kept_phase).
  Proof. apply y_enum, settled_phase. Qed.
  Lemma e_scope tag : yields tag (d_enum scope_of_text) (fixes kept_scope).
  Proof. apply y_enum, settled_scope. Qed.
  Lemma e_score_method tag : yields tag (d_enum score_method_of_text) (fixes kept_score_method).
  Proof. apply y_enum, settled_score_method. Qed.
  Lemma e_severity tag : yields tag (d_enum severity_of_text) (fixes kept_severity).
  Proof. apply y_enum, settled_severity. Qed.
  Lemma e_task_type tag : yields tag (d_enum task_type_of_text) (fixes kept_task_type).
  Proof. apply y_enum, settled_task_type. Qed.
  Lemma e_trigger_type tag : yields tag (d_enum trigger_type_of_text) (fixes kept_trigger_type).
  Proof. apply y_enum, settled_trigger_type. Qed.
  Lemma e_volume_mode tag : yields tag (d_enum volume_mode_of_text) (fixes kept_volume_mode).
  Proof. apply y_enum, settled_volume_mode. Qed.
  Hint Resolve e_access_mode e_analysis_justification e_analysis_response e_analysis_state e_approach_type e_classification e_component_data_type e_data_flow_type e_license_type e_output_type e_phase e_scope e_score_method e_severity e_task_type e_trigger_type e_volume_mode : cv.
  Lemma e_aggregate_type tag : yields tag (d_enum aggregate_type_of_text) (turns kept_aggregate_type respell_aggregate_type).
  Proof. apply y_enum_turns, settled_aggregate_type. Qed.
  Lemma e_identity_field tag : yields tag (d_enum identity_field_of_text) (turns kept_identity_field respell_identity_field).
  Proof. apply y_enum_turns. reflexivity. Qed.
  Lemma cv_signature tag : yields tag rd_signature (turns kept_signature as_json_signature).
  Proof. apply y_all. exact signatures. Qed.
  Hint Resolve e_aggregate_type e_identity_field cv_signature : cv.

  Lemma cv_attached_text tag : yields tag rd_attached_text (fixes kept_attached_text).
  Proof. eapply yields_map; [apply yields_true|]. intros ats a b _ _ [= <-]. unfold fixes, kept_attached_text. cbn. texts. reflexivity. Qed.
  Lemma cv_hash tag : yields tag rd_hash (fixes kept_hash).
  Proof. eapply yields_map; [apply yields_true|]. intros ats a b _ _ R. opens R. injection R as <-. unfold fixes, kept_hash. cbn. texts. reflexivity. Qed.
  Hint Resolve cv_attached_text cv_hash : cv.
  Lemma ck_hashes : keeps rd_hashes (fixes (option_map (map kept_hash))).
  Proof. unfold rd_hashes. plain. Qed.
  Hint Resolve ck_hashes : cv.
  Lemma cv_external_reference tag : yields tag rd_external_reference (turns kept_external_reference respell_reference).
  Proof. reads rd_external_reference with kept_external_reference respell_reference. Qed.
  Hint Resolve cv_external_reference : cv.
  Lemma ck_external_references : keeps rd_external_references (turns (option_map (map kept_external_reference)) respell_references).
  Proof. unfold rd_external_references. plain. Qed.
  Hint Resolve ck_external_references : cv.
  Lemma cv_licensing tag : yields tag rd_licensing (fixes kept_licensing).
  Proof. reads rd_licensing with kept_licensing. Qed.
  Hint Resolve cv_licensing : cv.
  Lemma cv_license tag : yields tag (rd_license v) (fixes (kept_license w)).
  Proof. reads rd_license with kept_license kept_license. Qed.
  Hint Resolve cv_license : cv.
  Lemma ck_licenses : keeps (rd_licenses v) (fixes (option_map (map (kept_license_choice w)))).
  Proof.
    unfold rd_licenses. apply one_fixes, yields_loop, keep_or; apply many_fixes.
    - eapply yields_map; [apply cv_license|]. intros ats l b _ Hl [= <-]. unfold fixes in *. cbn. now rewrite Hl.
    - eapply yields_map; [apply yields_true|]. intros ats e b _ _ [= <-]. reflexivity.
  Qed.
  Hint Resolve ck_licenses : cv.
  Lemma cv_diff tag : yields tag rd_diff (fixes kept_diff).
  Proof. reads rd_diff with kept_diff. Qed.
  Lemma cv_issue tag : yields tag rd_issue (fixes kept_issue).
  Proof. reads rd_issue with kept_issue. Qed.
  Hint Resolve cv_diff cv_issue : cv.
  Lemma cv_patch tag : yields tag rd_patch (fixes kept_patch).
  Proof. reads rd_patch with kept_patch. Qed.
  Hint Resolve cv_patch : cv.
  Lemma cv_pedigree tag (rc : desc component) (f g : component -> component) :
    (forall t, yields t rc (turns f g)) -> yields tag (rd_pedigree rc) (turns (kept_pedigree f) (respell_pedigree g)).
  Proof. intros H. reads @rd_pedigree with kept_pedigree respell_pedigree. Qed.
  Lemma cv_component_data tag : yields tag rd_component_data (fixes kept_component_data).
  Proof. reads rd_component_data with kept_component_data. Qed.
  Lemma cv_approach tag : yields tag rd_approach (fixes kept_approach).
  Proof. reads rd_approach with kept_approach. Qed.
  Hint Resolve cv_component_data cv_approach : cv.
  Lemma cv_dataset tag : yields tag rd_dataset (fixes kept_dataset).
  Proof. eapply yields_map; [apply cv_component_data|]. intros ats l b _ Hl [= <-]. unfold fixes in *. cbn. now rewrite Hl. Qed.
  Hint Resolve cv_dataset : cv.
  Lemma cv_model_parameters tag : yields tag rd_model_parameters (fixes kept_model_parameters).
  Proof. reads rd_model_parameters with kept_model_parameters. Qed.
  Hint Resolve cv_model_parameters : cv.
  Lemma cv_model_card tag : yields tag rd_model_card (fixes kept_model_card).
  Proof. reads rd_model_card with kept_model_card. Qed.
  Lemma cv_identity n tag : yields tag (rd_identity F n) (turns kept_identity as_json_identity).
  Proof. reads rd_identity with kept_identity as_json_identity. Qed.
  Hint Resolve cv_model_card cv_identity : cv.
  Lemma cv_evidence n tag : yields tag (rd_evidence F v n) (turns (kept_evidence w) as_json_evidence).
  Proof. reads rd_evidence with kept_evidence as_json_evidence. Qed.
  Lemma cv_swid tag : yields tag rd_swid (fixes kept_swid).
  Proof. reads rd_swid with kept_swid. Qed.
  Hint Resolve cv_evidence cv_swid : cv.
  Lemma as_json_component_eq x : as_json_component x =
    mkComponent (c_type x) (c_mime_type x) (c_bom_ref x) (c_supplier x) (c_author x) (c_publisher x) (c_group x)
      (c_name x) (c_version x) (c_description x) (c_scope x) (c_hashes x) (c_licenses x) (c_copyright x) (c_cpe x)
      (c_purl x) (c_swid x) (c_modified x) (option_map (respell_pedigree as_json_component) (c_pedigree x))
      (respell_references (c_external_references x)) (c_properties x)
      (option_map (map as_json_component) (c_components x)) (option_map as_json_evidence (c_evidence x))
      (option_map as_json_signature (c_signature x)) (c_model_card x) (c_data x).
  Proof. now destruct x. Qed.
  Lemma cv_component n : forall tag, yields tag (rd_component F v n) (turns (kept_component w) as_json_component).
  Proof.
    induction n as [|n IH]; intros tag; [apply yields_fuel|]. cbn [rd_component].
    pose proof (cv_pedigree "pedigree" (rd_component F v n) (kept_component w) as_json_component IH) as YP.
    eapply yields_struct; [arms|]. start.
    rewrite kept_component_eq, as_json_component_eq. cbn [c_type c_mime_type c_bom_ref c_supplier c_author c_publisher c_group
      c_name c_version c_description c_scope c_hashes c_licenses c_copyright c_cpe c_purl c_swid c_modified c_pedigree
      c_external_references c_properties c_components c_evidence c_signature c_model_card c_data].
    all_rewrite. texts. reflexivity.
  Qed.
  Hint Resolve cv_component : cv.
  Lemma ck_components n : keeps (rd_components F v n) (turns (option_map (map (kept_component w))) (option_map (map as_json_component))).
  Proof. unfold rd_components. plain. Qed.
  Hint Resolve ck_components : cv.

  Lemma cv_classification tag : yields tag rd_classification (fixes kept_data_classification).
  Proof. eapply yields_map; [apply yields_true|]. intros ats a b _ _ R. opens R. injection R as <-. unfold fixes, kept_data_classification. cbn. texts. reflexivity. Qed.
  Hint Resolve cv_classification : cv.
  Lemma cv_service_data tag : yields tag rd_service_data (turns (fun d => kept_data_classification (sd_classification d)) sd_classification).
  Proof. unfold rd_service_data. eapply yields_struct; [arms|]. start. cbn. assumption. Qed.
  Hint Resolve cv_service_data : cv.
  Lemma cv_data tag : yields tag (rd_data v) (turns kept_data as_json_data).
  Proof.
    unfold rd_data. eapply yields_struct; [eapply keep_pair; [plain|apply keep_from; plain]|].
    intros ats [c s] b _ [Hc Hs] [= <-]. unfold fixes, turns in *. cbn [fst snd] in *.
    destruct s as [|d s]; cbn [kept_data as_json_data]; [now rewrite Hc|now rewrite Hs].
  Qed.
  Hint Resolve cv_data : cv.
  Lemma as_json_service_eq x : as_json_service x =
    mkService (s_bom_ref x) (s_provider x) (s_group x) (s_name x) (s_version x) (s_description x) (s_endpoints x)
      (s_authenticated x) (s_x_trust_boundary x) (option_map as_json_data (s_data x)) (s_licenses x)
      (respell_references (s_external_references x)) (s_properties x)
      (option_map (map as_json_service) (s_services x)) (option_map as_json_signature (s_signature x)) (s_trust_zone x).
  Proof. now destruct x. Qed.
  Lemma cv_service n : forall tag, yields tag (rd_service v n) (turns (kept_service w) as_json_service).
  Proof.
    induction n as [|n IH]; intros tag; [apply yields_fuel|]. cbn [rd_service].
    eapply yields_struct; [arms|]. start.
    rewrite kept_service_eq, as_json_service_eq. cbn [s_bom_ref s_provider s_group s_name s_version s_description s_endpoints
      s_authenticated s_x_trust_boundary s_data s_licenses s_external_references s_properties s_services s_signature s_trust_zone].
    all_rewrite. reflexivity.
  Qed.
  Hint Resolve cv_service : cv.
  Lemma ck_services n : keeps (rd_services v n) (turns (option_map (map (kept_service w))) (option_map (map as_json_service))).
  Proof. unfold rd_services. plain. Qed.
  Hint Resolve ck_services : cv.

  Lemma cv_tool tag : yields tag (rd_tool v) (turns (kept_tool w) respell_tool).
  Proof. reads rd_tool with kept_tool respell_tool. Qed.
  Hint Resolve cv_tool : cv.
  Lemma cv_tools n tag : yields tag (rd_tools F v n) (turns (kept_tools w) as_json_tools).
  Proof.
    unfold rd_tools. eapply yields_struct; [eapply keep_pair; [plain|eapply keep_pair; apply keep_from; plain]|].
    intros ats (t & s & c) b _ (Ht & Hs & Hc) R. unfold turns in *. cbn [fst snd] in *. destruct t as [l|].
    - destruct (some c || some s); [discriminate R|]. injection R as <-. cbn in *. congruence.
    - destruct (since V1_5 v) eqn:L; injection R as <-; [|reflexivity]. cbn [kept_tools as_json_tools].
      destruct (since_false V1_5) as [X|X]; [congruence|]. rewrite X, Hs, Hc. reflexivity.
  Qed.
  Lemma cv_lifecycle tag : yields tag rd_lifecycle (fixes kept_lifecycle).
  Proof.
    unfold rd_lifecycle. eapply yields_struct; [arms|]. intros ats (p & n & d) b _ (Hp & _) R. unfold fixes in *. cbn [fst snd] in *.
    destruct p as [p|], n as [n|], d as [d|]; try discriminate R; injection R as <-; try reflexivity. cbn in *. congruence.
  Qed.
  Hint Resolve cv_tools cv_lifecycle : cv.
  Lemma cv_metadata n tag : yields tag (rd_metadata F v n) (turns (kept_metadata w) as_json_metadata).
  Proof. reads rd_metadata with kept_metadata as_json_metadata. Qed.
  Lemma cv_composition tag : yields tag (rd_composition v) (turns (kept_composition w) as_json_composition).
  Proof. reads rd_composition with kept_composition as_json_composition. Qed.
  Lemma cv_annotator n tag : yields tag (rd_annotator F v n) (turns (kept_annotator w) as_json_annotator).
  Proof.
    unfold rd_annotator. eapply (yields_struct E tag _ _ _ (turns (option_map (kept_annotator w)) (option_map as_json_annotator))).
    - repeat apply keep_or; apply one_turns; (eapply yields_map; [first [apply cv_component|apply cv_service|apply yields_true]|]);
        intros ats a b _ Ha [= <-]; unfold turns in *; cbn; congruence.
    - intros ats st b _ H ->. unfold turns in *. cbn in H. congruence.
  Qed.
  Hint Resolve cv_metadata cv_composition cv_annotator : cv.
  Lemma cv_annotation n tag : yields tag (rd_annotation F v n) (turns (kept_annotation w) as_json_annotation).
  Proof. reads rd_annotation with kept_annotation as_json_annotation. Qed.
  Lemma cv_rating tag : yields tag (rd_rating F) (turns kept_vuln_rating as_json_rating).
  Proof. reads rd_rating with kept_vuln_rating as_json_rating. Qed.
  Lemma cv_analysis tag : yields tag (rd_analysis v) (fixes (kept_vuln_analysis w)).
  Proof. reads rd_analysis with kept_vuln_analysis. Qed.
  Lemma cv_version_status tag : yields tag rd_version_status (fixes kept_version_status).
  Proof. reads rd_version_status with kept_version_status. Qed.
  Hint Resolve cv_annotation cv_rating cv_analysis cv_version_status : cv.
  Lemma cv_target tag : yields tag rd_target (fixes kept_vuln_target).
  Proof. reads rd_target with kept_vuln_target. Qed.
  Hint Resolve cv_target : cv.
  Lemma cv_vulnerability n tag : yields tag (rd_vulnerability F v n) (turns (kept_vulnerability w) as_json_vulnerability).
  Proof. reads rd_vulnerability with kept_vulnerability as_json_vulnerability. Qed.
  Hint Resolve cv_vulnerability : cv.

  Lemma cv_resource tag : yields tag rd_resource (turns kept_resource_reference respell_resource).
  Proof.
    unfold rd_resource. eapply (yields_struct E tag _ _ _ (turns (option_map kept_resource_reference) (option_map respell_resource))).
    - apply keep_or; apply one_turns; (eapply yields_map; [first [apply cv_external_reference|apply yields_true]|]);
        intros ats a b _ Ha [= <-]; unfold turns in *; cbn; congruence.
    - intros ats st b _ H ->. unfold turns in *. cbn in H. congruence.
  Qed.
  Hint Resolve cv_resource : cv.
  Lemma ck_resources : keeps rd_resources (turns (option_map (map kept_resource_reference)) respell_resources).
  Proof. unfold rd_resources. plain. Qed.
  Hint Resolve ck_resources : cv.
  Definition kept_required (r : required_input) := match r with RIResource r => RIResource (kept_resource_reference r) | r => r end.
  Definition respell_required (r : required_input) := match r with RIResource r => RIResource (respell_resource r) | r => r end.
  Definition kept_required_out (r : required_output) := match r with ROResource r => ROResource (kept_resource_reference r) | r => r end.
  Definition respell_required_out (r : required_output) := match r with ROResource r => ROResource (respell_resource r) | r => r end.
  Ltac choices := repeat apply keep_or; apply one_turns; (eapply yields_map; [first [apply cv_resource|apply yields_true]|]);
        intros ats a b _ Ha [= <-]; unfold turns in *; cbn; congruence.
  Lemma cv_input tag : yields tag rd_input (turns kept_input respell_input).
  Proof.
    unfold rd_input. eapply yields_struct;
      [eapply keep_pair; [instantiate (1 := turns (option_map kept_required) (option_map respell_required)); choices|arms]|].
    start. unfold kept_input, respell_input. cbn [in_required in_source in_target in_properties].
    match goal with H : kept_required _ = _ |- _ => revert H end. all_rewrite. intros H'. f_equal. match type of H' with _ ?r = _ => destruct r; exact H' end.
  Qed.
  Lemma cv_output tag : yields tag rd_output (turns kept_output respell_output).
  Proof.
    unfold rd_output. eapply yields_struct;
      [eapply keep_pair; [instantiate (1 := turns (option_map kept_required_out) (option_map respell_required_out)); choices|arms]|].
    start. unfold kept_output, respell_output. cbn [ou_required ou_type ou_source ou_target ou_properties].
    match goal with H : kept_required_out _ = _ |- _ => revert H end. all_rewrite. intros H'. f_equal. match type of H' with _ ?r = _ => destruct r; exact H' end.
  Qed.
  Lemma cv_volume tag : yields tag rd_volume (fixes kept_volume).
  Proof.
    unfold rd_volume. eapply yields_struct; [arms|]. start. unfold kept_volume. cbn.
    match goal with H : option_map kept_volume_mode ?o = _ |- _ => destruct o; cbn in H; [injection H as H|]; all_rewrite; reflexivity end.
  Qed.
  Hint Resolve cv_input cv_output cv_volume : cv.
  Lemma cv_workspace tag : yields tag rd_workspace (turns kept_workspace respell_workspace).
  Proof. reads rd_workspace with kept_workspace respell_workspace. Qed.
  Lemma cv_event tag : yields tag rd_event (turns kept_event respell_event).
  Proof. reads rd_event with kept_event respell_event. Qed.
  Hint Resolve cv_workspace cv_event : cv.
  Lemma cv_trigger tag : yields tag rd_trigger (turns kept_trigger respell_trigger).
  Proof. reads rd_trigger with kept_trigger respell_trigger. Qed.
  Hint Resolve cv_trigger : cv.
  Lemma cv_task tag : yields tag rd_task (turns kept_task respell_task).
  Proof. reads rd_task with kept_task respell_task. Qed.
  Hint Resolve cv_task : cv.
  Lemma cv_workflow tag : yields tag rd_workflow (turns kept_workflow respell_workflow).
  Proof. reads rd_workflow with kept_workflow respell_workflow. Qed.
  Hint Resolve cv_workflow : cv.
  Lemma cv_formula n tag : yields tag (rd_formula F v n) (turns (kept_formula w) as_json_formula).
  Proof. reads rd_formula with kept_formula as_json_formula. Qed.
  Hint Resolve cv_formula : cv.
  Theorem cv_bom n tag : yields tag (rd_bom F v n) (turns (kept_bom w) (as_json_bom w)).
  Proof. reads rd_bom with kept_bom as_json_bom. Qed.
End CONVERT.

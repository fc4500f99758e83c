(** Rewriting JSON documents that were read: proofs *)
From Coq Require Import ZArith.
From Verif Require Import Base ModelTypes Strings Enums GenModel Json JsonLemmas JsonModel JsonSpec JsonProofs JsonProofs2 JsonProofs3 JsonProofs4
  GrammarSpec GrammarProofs ResaveSpec.
Open Scope string_scope.
Open Scope list_scope.
Open Scope bool_scope.
Open Scope nat_scope.

Definition turned {A} (N : nat) (r : json -> option A) (f g : A -> A) : Prop :=
  forall j x, numbers_fit j -> size j < N -> r j = Some x -> f x = g x.
Definition fixed {A} (N : nat) (r : json -> option A) (f : A -> A) : Prop :=
  forall j x, numbers_fit j -> size j < N -> r j = Some x -> f x = x.

Lemma fit_arr l x : numbers_fit (JArr l) -> In x l -> numbers_fit x.
Proof. induction l as [|y l IH]; intros H []; cbn in H; [subst; tauto|]. apply IH; [apply H|assumption]. Qed.
Lemma fit_obj l k x : numbers_fit (JObj l) -> In (k, x) l -> numbers_fit x.
Proof. induction l as [|[k' y] l IH]; intros H []; cbn in H; [congruence||(injection H0 as <- <-; tauto)|]. apply IH; [apply H|assumption]. Qed.

(** the value of a field comes from a part of the document *)
Lemma get_part {A} (r : json -> option A) ks k j a : get r ks k j = Some (Some a) ->
  exists y, r y = Some a /\ size y < size j /\ (numbers_fit j -> numbers_fit y).
Proof.
  destruct j as [| | | | |l|l]; try discriminate; cbn [get]; intros H.
  - assert (P : exists y, r y = Some a /\ In y l).
    { revert ks H. induction l as [|x l IH]; intros [|k' ks] H; try discriminate.
      destruct (String.eqb k k').
      - destruct (r x) as [b|] eqn:E; [|discriminate]. injection H as <-. exists x. split; [exact E|now left].
      - destruct (IH ks H) as (y & E & I). exists y. split; [exact E|now right]. }
    destruct P as (y & E & I). exists y. split; [exact E|]. split; [now apply size_arr|]. intros F. eapply fit_arr; eauto.
  - assert (P : exists k' y, r y = Some a /\ In (k', y) l).
    { induction l as [|[k' x] l IH]; try discriminate.
      destruct (String.eqb k k').
      - destruct (r x) as [b|] eqn:E; [|discriminate]. injection H as <-. exists k', x. split; [exact E|now left].
      - destruct (IH H) as (k1 & y & E & I). exists k1, y. split; [exact E|now right]. }
    destruct P as (k1 & y & E & I). exists y. split; [exact E|]. split; [eapply size_obj; eauto|].
    intros F. eapply fit_obj; eauto.
Qed.
Lemma field_part {A} (r : json -> option A) ks k j a : field r ks k j = Some a ->
  exists y, r y = Some a /\ size y < size j /\ (numbers_fit j -> numbers_fit y).
Proof.
  unfold field. destruct (get r ks k j) as [[b|]|] eqn:E; try discriminate. cbn. intros [= <-]. eapply get_part; eauto.
Qed.
Lemma opt_part {A} (r : json -> option A) ks k j a : field_opt r ks k j = Some (Some a) ->
  exists y, r y = Some a /\ size y < size j /\ (numbers_fit j -> numbers_fit y).
Proof.
  unfold field_opt. destruct (get (nullable r) ks k j) as [[b|]|] eqn:E; try discriminate; cbn.
  - intros [= ->]. apply get_part in E. destruct E as (y & E & S & F). exists y. split; [|now split].
    unfold nullable in E. destruct y; try discriminate; destruct (r _) in E |- *; try discriminate; injection E as <-; reflexivity.
  - destruct j; discriminate.
Qed.
Lemma list_part {A} (r : json -> option A) j l a : dec_list r j = Some l -> In a l ->
  exists y, r y = Some a /\ size y < size j /\ (numbers_fit j -> numbers_fit y).
Proof.
  destruct j as [| | | | |js|]; try discriminate. cbn [dec_list]. intros H I.
  assert (P : exists y, r y = Some a /\ In y js).
  { revert l H I. induction js as [|x js IH]; intros l H I.
    - injection H as <-. destruct I.
    - destruct (r x) as [b|] eqn:E; [|discriminate]. cbn [bindo] in H.
      match type of H with bindo ?e _ = _ => destruct e as [l'|] eqn:G; [|discriminate] end. injection H as <-.
      destruct I as [<-|I]; [exists x; split; [exact E|now left]|].
      destruct (IH l' eq_refl I) as (y & Ey & Iy). exists y. split; [exact Ey|now right]. }
  destruct P as (y & E & I'). exists y. split; [exact E|]. split; [now apply size_arr|]. intros F. eapply fit_arr; eauto.
Qed.

Lemma list_turned {A} N (r : json -> option A) f g : turned N r f g -> turned N (dec_list r) (map f) (map g).
Proof.
  intros T j l F S H. apply map_ext_in. intros a I. destruct (list_part r j l a H I) as (y & E & Sy & Fy).
  apply (T y); auto. lia.
Qed.
Lemma list_fixed {A} N (r : json -> option A) f : fixed N r f -> fixed N (dec_list r) (map f).
Proof.
  intros T j l F S H. rewrite <- (map_id l) at 2. apply map_ext_in. intros a I. destruct (list_part r j l a H I) as (y & E & Sy & Fy).
  apply (T y); auto. lia.
Qed.
Lemma field_turned {A} (r : json -> option A) ks k j a f g : field r ks k j = Some a -> turned (size j) r f g -> numbers_fit j -> f a = g a.
Proof. intros H T F. destruct (field_part r ks k j a H) as (y & E & S & Fy). apply (T y a); auto. Qed.
Lemma field_fixed {A} (r : json -> option A) ks k j a f : field r ks k j = Some a -> fixed (size j) r f -> numbers_fit j -> f a = a.
Proof. intros H T F. destruct (field_part r ks k j a H) as (y & E & S & Fy). apply (T y a); auto. Qed.
Lemma opt_turned {A} (r : json -> option A) ks k j a f g : field_opt r ks k j = Some a -> turned (size j) r f g -> numbers_fit j ->
  option_map f a = option_map g a.
Proof.
  intros H T F. destruct a as [a|]; [|reflexivity]. destruct (opt_part r ks k j a H) as (y & E & S & Fy). cbn. f_equal. apply (T y a); auto.
Qed.
Lemma opt_fixed {A} (r : json -> option A) ks k j a f : field_opt r ks k j = Some a -> fixed (size j) r f -> numbers_fit j ->
  option_map f a = a.
Proof.
  intros H T F. destruct a as [a|]; [|reflexivity]. destruct (opt_part r ks k j a H) as (y & E & S & Fy). cbn. f_equal. apply (T y a); auto.
Qed.
Create HintDb reread.
Global Hint Resolve list_turned list_fixed : reread.

(** ** Enumerations *)
Lemma settle_fixed {A} N (raw : A -> option string) (U : string -> A) t :
  (forall s, raw (U s) = Some s) -> Forall (fun a => raw a = None) (map snd t) ->
  fixed N (dec_text (of_table U t)) (settle raw (of_table U t)).
Proof.
  intros H F j x _ _ E. unfold dec_text in E. destruct (dec_str j) as [s|]; [|discriminate]. injection E as <-.
  unfold settle. destruct (of_table_cases U t s) as [C|C].
  - rewrite C, H. exact C.
  - rewrite Forall_forall in F. now rewrite (F _ C).
Qed.
Lemma kept_classification_fixed N : fixed N (dec_text classification_of_text) kept_classification.
Proof. apply settle_fixed; [reflexivity | repeat constructor]. Qed.
Global Hint Resolve kept_classification_fixed : reread.
Lemma kept_scope_fixed N : fixed N (dec_text scope_of_text) kept_scope.
Proof. apply settle_fixed; [reflexivity | repeat constructor]. Qed.
Global Hint Resolve kept_scope_fixed : reread.
Lemma kept_hash_algorithm_fixed N : fixed N (dec_text hash_algorithm_of_text) kept_hash_algorithm.
Proof. apply settle_fixed; [reflexivity | repeat constructor]. Qed.
Global Hint Resolve kept_hash_algorithm_fixed : reread.
Lemma kept_license_type_fixed N : fixed N (dec_text license_type_of_text) kept_license_type.
Proof. apply settle_fixed; [reflexivity | repeat constructor]. Qed.
Global Hint Resolve kept_license_type_fixed : reread.
Lemma kept_issue_classification_fixed N : fixed N (dec_text issue_classification_of_text) kept_issue_classification.
Proof. apply settle_fixed; [reflexivity | repeat constructor]. Qed.
Global Hint Resolve kept_issue_classification_fixed : reread.
Lemma kept_patch_classification_fixed N : fixed N (dec_text patch_classification_of_text) kept_patch_classification.
Proof. apply settle_fixed; [reflexivity | repeat constructor]. Qed.
Global Hint Resolve kept_patch_classification_fixed : reread.
Lemma kept_data_flow_type_fixed N : fixed N (dec_text data_flow_type_of_text) kept_data_flow_type.
Proof. apply settle_fixed; [reflexivity | repeat constructor]. Qed.
Global Hint Resolve kept_data_flow_type_fixed : reread.
Lemma kept_encoding_fixed N : fixed N (dec_text encoding_of_text) kept_encoding.
Proof. apply settle_fixed; [reflexivity | repeat constructor]. Qed.
Global Hint Resolve kept_encoding_fixed : reread.
Lemma kept_component_data_type_fixed N : fixed N (dec_text component_data_type_of_text) kept_component_data_type.
Proof. apply settle_fixed; [reflexivity | repeat constructor]. Qed.
Global Hint Resolve kept_component_data_type_fixed : reread.
Lemma kept_phase_fixed N : fixed N (dec_text phase_of_text) kept_phase.
Proof. apply settle_fixed; [reflexivity | repeat constructor]. Qed.
Global Hint Resolve kept_phase_fixed : reread.
Lemma kept_analysis_state_fixed N : fixed N (dec_text analysis_state_of_text) kept_analysis_state.
Proof. apply settle_fixed; [reflexivity | repeat constructor]. Qed.
Global Hint Resolve kept_analysis_state_fixed : reread.
Lemma kept_analysis_justification_fixed N : fixed N (dec_text analysis_justification_of_text) kept_analysis_justification.
Proof. apply settle_fixed; [reflexivity | repeat constructor]. Qed.
Global Hint Resolve kept_analysis_justification_fixed : reread.
Lemma kept_analysis_response_fixed N : fixed N (dec_text analysis_response_of_text) kept_analysis_response.
Proof. apply settle_fixed; [reflexivity | repeat constructor]. Qed.
Global Hint Resolve kept_analysis_response_fixed : reread.
Lemma kept_severity_fixed N : fixed N (dec_text severity_of_text) kept_severity.
Proof. apply settle_fixed; [reflexivity | repeat constructor]. Qed.
Global Hint Resolve kept_severity_fixed : reread.
Lemma kept_score_method_fixed N : fixed N (dec_text score_method_of_text) kept_score_method.
Proof. apply settle_fixed; [reflexivity | repeat constructor]. Qed.
Global Hint Resolve kept_score_method_fixed : reread.
Lemma kept_status_fixed N : fixed N (dec_text status_of_text) kept_status.
Proof. apply settle_fixed; [reflexivity | repeat constructor]. Qed.
Global Hint Resolve kept_status_fixed : reread.
Lemma kept_approach_type_fixed N : fixed N (dec_text approach_type_of_text) kept_approach_type.
Proof. apply settle_fixed; [reflexivity | repeat constructor]. Qed.
Global Hint Resolve kept_approach_type_fixed : reread.
Lemma kept_task_type_fixed N : fixed N (dec_text task_type_of_text) kept_task_type.
Proof. apply settle_fixed; [reflexivity | repeat constructor]. Qed.
Global Hint Resolve kept_task_type_fixed : reread.
Lemma kept_output_type_fixed N : fixed N (dec_text output_type_of_text) kept_output_type.
Proof. apply settle_fixed; [reflexivity | repeat constructor]. Qed.
Global Hint Resolve kept_output_type_fixed : reread.
Lemma kept_trigger_type_fixed N : fixed N (dec_text trigger_type_of_text) kept_trigger_type.
Proof. apply settle_fixed; [reflexivity | repeat constructor]. Qed.
Global Hint Resolve kept_trigger_type_fixed : reread.
Lemma kept_access_mode_fixed N : fixed N (dec_text access_mode_of_text) kept_access_mode.
Proof. apply settle_fixed; [reflexivity | repeat constructor]. Qed.
Global Hint Resolve kept_access_mode_fixed : reread.
Lemma kept_volume_mode_fixed N : fixed N (dec_text volume_mode_of_text) kept_volume_mode.
Proof. apply settle_fixed; [reflexivity | repeat constructor]. Qed.
Global Hint Resolve kept_volume_mode_fixed : reread.

(** ** Structs *)
Lemma uri_fixed N : fixed N dec_uri kept_uri.
Proof.
  intros j x _ _ E. unfold dec_uri, dec_text in E. destruct (dec_str j) as [s|]; [|discriminate]. injection E as <-.
  unfold uri_of. destruct (starts_with "urn:cdx" s) eqn:P; unfold kept_uri; now rewrite P.
Qed.
Global Hint Resolve uri_fixed : reread.
Lemma f32_finite j f : numbers_fit j -> dec_f32 j = Some f -> is_finite f = true.
Proof.
  destruct j as [| |z|f'| | |]; try discriminate; cbn [dec_f32]; intros F [= <-]; [reflexivity|].
  destruct f'; cbn in F; tauto.
Qed.
Lemma f32_opt ks k j a : field_opt dec_f32 ks k j = Some a -> numbers_fit j -> finite_only a = a.
Proof.
  intros H F. destruct a as [a|]; [|reflexivity]. destruct (opt_part _ _ _ _ _ H) as (y & E & _ & Fy).
  unfold finite_only. now rewrite (f32_finite y a (Fy F) E).
Qed.
Ltac each_field F :=
  repeat match goal with
  | E : field_when false _ = Some _ |- _ => injection E as <-
  | E : field_when true ?x = Some ?a |- _ => change (x = Some a) in E
  | E : field_opt dec_f32 _ _ _ = Some ?a |- _ => apply f32_opt in E; [|exact F]
  | E : field_opt _ _ _ _ = Some ?a |- _ =>
      first [ eapply opt_fixed in E; [|solve [eauto 3 with reread]|exact F]
            | eapply opt_turned in E; [|solve [eauto 3 with reread]|exact F]
            | clear E ]
  | E : field _ _ _ _ = Some ?a |- _ =>
      first [ eapply field_fixed in E; [|solve [eauto 3 with reread]|exact F]
            | eapply field_turned in E; [|solve [eauto 3 with reread]|exact F]
            | clear E ]
  end.
Ltac lets H :=
  repeat match type of H with bindo ?e _ = Some _ => let E := fresh "E" in destruct e eqn:E; [cbn [bindo] in H|discriminate H] end.
Ltac all_rewrite :=
  repeat match goal with E : ?l = ?r |- context [?l] => rewrite E; clear E end.
Ltac opened H F :=
  match type of H with (if ?b then _ else None) = Some _ => destruct b; [|discriminate H] end;
  lets H; injection H as <-; each_field F.

Lemma attached_text_fixed N : fixed N of_json_attached_text kept_attached_text.
Proof. intros j x F _ H. unfold of_json_attached_text in H. opened H F. unfold kept_attached_text. cbn. all_rewrite. reflexivity. Qed.
Global Hint Resolve attached_text_fixed : reread.
Lemma hash_fixed N : fixed N of_json_hash kept_hash.
Proof. intros j x F _ H. unfold of_json_hash in H. opened H F. unfold kept_hash. cbn. all_rewrite. reflexivity. Qed.
Global Hint Resolve hash_fixed : reread.
Lemma algorithm_fixed N : fixed N of_json_algorithm kept_algorithm.
Proof.
  intros j x _ _ H. unfold of_json_algorithm in H. lets H. injection H as <-. unfold convert_algorithm.
  match goal with |- _ = algorithm_of_text (text_algorithm ?a) => destruct a; reflexivity end.
Qed.
Global Hint Resolve algorithm_fixed : reread.
Lemma signer_fixed N : fixed N of_json_signer kept_signer.
Proof. intros j x F _ H. unfold of_json_signer in H. opened H F. unfold kept_signer. cbn. all_rewrite. reflexivity. Qed.
Global Hint Resolve signer_fixed : reread.
Lemma signature_fixed N : fixed N of_json_signature kept_signature.
Proof.
  intros j x F S H. unfold of_json_signature in H. destruct (dec_list of_json_signer j) as [l|] eqn:E.
  - injection H as <-. cbn. f_equal. exact (list_fixed N _ _ (signer_fixed N) j l F S E).
  - cbn in H. destruct (of_json_signer j) as [s|] eqn:E'; [|discriminate]. injection H as <-. cbn. f_equal.
    exact (signer_fixed N j s F S E').
Qed.
Global Hint Resolve signature_fixed : reread.
Lemma licensing_fixed N : fixed N of_json_licensing kept_licensing.
Proof. intros j x F _ H. unfold of_json_licensing in H. opened H F. unfold kept_licensing. cbn. all_rewrite. reflexivity. Qed.
Global Hint Resolve licensing_fixed : reread.
Lemma license_fixed N v w : version_leb v w = true -> fixed N (of_json_license v) (kept_license w).
Proof.
  intros L j x F _ H. unfold of_json_license in H.
  destruct v, w; try discriminate L; cbn [since version_leb] in H; opened H F; unfold kept_license, from; cbn; all_rewrite; reflexivity.
Qed.
Global Hint Resolve license_fixed : reread.
Lemma tag_part j k x : ext_tag j = Some (k, x) -> size x < size j /\ (numbers_fit j -> numbers_fit x).
Proof.
  destruct j as [| | | | | |[|[k' y] [|? ?]]]; try discriminate. intros [= <- <-]. split; [cbn; lia|]. cbn. tauto.
Qed.
Lemma license_choice_fixed N v w : version_leb v w = true -> fixed N (of_json_license_choice v) (kept_license_choice w).
Proof.
  intros L j x F S H. unfold of_json_license_choice, orelse in H.
  match type of H with (match ?e with _ => _ end) = _ => destruct e as [c|] eqn:E end.
  - injection H as <-. destruct (ext_tag j) as [[k y]|] eqn:T; [|discriminate]. cbn [bindo] in E.
    destruct (String.eqb k "license"); [|discriminate]. lets E. injection E as <-. cbn. f_equal.
    destruct (tag_part j k y T) as [Sy Fy]. apply (license_fixed N v w L y); auto. lia.
  - opened H F. reflexivity.
Qed.
Global Hint Resolve license_choice_fixed : reread.
Lemma diff_fixed N : fixed N of_json_diff kept_diff.
Proof. intros j x F _ H. unfold of_json_diff in H. opened H F. unfold kept_diff. cbn. all_rewrite. reflexivity. Qed.
Global Hint Resolve diff_fixed : reread.
Lemma issue_fixed N : fixed N of_json_issue kept_issue.
Proof. intros j x F _ H. unfold of_json_issue in H. opened H F. unfold kept_issue. cbn. all_rewrite. reflexivity. Qed.
Global Hint Resolve issue_fixed : reread.
Lemma patch_fixed N : fixed N of_json_patch kept_patch.
Proof. intros j x F _ H. unfold of_json_patch in H. opened H F. unfold kept_patch. cbn. all_rewrite. reflexivity. Qed.
Global Hint Resolve patch_fixed : reread.
Lemma component_data_fixed N : fixed N of_json_component_data kept_component_data.
Proof. intros j x F _ H. unfold of_json_component_data in H. opened H F. unfold kept_component_data. cbn. all_rewrite. reflexivity. Qed.
Global Hint Resolve component_data_fixed : reread.
Lemma approach_fixed N : fixed N of_json_approach kept_approach.
Proof. intros j x F _ H. unfold of_json_approach in H. opened H F. unfold kept_approach. cbn. all_rewrite. reflexivity. Qed.
Global Hint Resolve approach_fixed : reread.
Lemma dataset_fixed N : fixed N of_json_dataset kept_dataset.
Proof.
  intros j x F S H. unfold of_json_dataset in H. destruct (of_json_component_data j) as [c|] eqn:E.
  - injection H as <-. cbn. f_equal. exact (component_data_fixed N j c F S E).
  - cbn [bindo orelse] in H. lets H. injection H as <-. reflexivity.
Qed.
Global Hint Resolve dataset_fixed : reread.
Lemma model_parameters_fixed N : fixed N of_json_model_parameters kept_model_parameters.
Proof. intros j x F _ H. unfold of_json_model_parameters in H. opened H F. unfold kept_model_parameters. cbn. all_rewrite. reflexivity. Qed.
Global Hint Resolve model_parameters_fixed : reread.
Lemma model_card_fixed N : fixed N of_json_model_card kept_model_card.
Proof. intros j x F _ H. unfold of_json_model_card in H. opened H F. unfold kept_model_card. cbn. all_rewrite. reflexivity. Qed.
Global Hint Resolve model_card_fixed : reread.
Lemma swid_fixed N : fixed N of_json_swid kept_swid.
Proof. intros j x F _ H. unfold of_json_swid in H. opened H F. unfold kept_swid. cbn. all_rewrite. reflexivity. Qed.
Global Hint Resolve swid_fixed : reread.
Lemma data_classification_fixed N : fixed N of_json_data_classification kept_data_classification.
Proof. intros j x F _ H. unfold of_json_data_classification in H. opened H F. unfold kept_data_classification. cbn. all_rewrite. reflexivity. Qed.
Global Hint Resolve data_classification_fixed : reread.
Lemma ext_ref_type_turned N : turned N (dec_text ext_ref_type_of_text) kept_ext_ref_type respell_ext_ref_type.
Proof.
  intros j x _ _ E. unfold dec_text in E. destruct (dec_str j) as [s|]; [|discriminate]. injection E as <-.
  unfold ext_ref_type_of_text. destruct (of_table_cases ERUnknown tbl_ext_ref_type s) as [C|C].
  - rewrite C. cbn. exact C.
  - cbn [map snd tbl_ext_ref_type In] in C. decompose [or] C; try tauto;
      match goal with H : ?a = of_table _ _ _ |- _ => rewrite <- H; reflexivity end.
Qed.
Lemma aggregate_type_turned N : turned N (dec_text aggregate_type_of_text) kept_aggregate_type respell_aggregate_type.
Proof.
  intros j x _ _ E. unfold dec_text in E. destruct (dec_str j) as [s|]; [|discriminate]. injection E as <-.
  unfold aggregate_type_of_text. destruct (of_table_cases AUnknownType tbl_aggregate_type s) as [C|C].
  - rewrite C. cbn. exact C.
  - cbn [map snd tbl_aggregate_type In] in C. decompose [or] C; try tauto;
      match goal with H : ?a = of_table _ _ _ |- _ => rewrite <- H; reflexivity end.
Qed.
Lemma identity_field_turned N : turned N (dec_text identity_field_of_text) kept_identity_field respell_identity_field.
Proof. intros j x _ _ _. destruct x; reflexivity. Qed.
Global Hint Resolve ext_ref_type_turned aggregate_type_turned identity_field_turned : reread.
Lemma external_reference_turned N : turned N of_json_external_reference kept_external_reference respell_reference.
Proof. intros j x F _ H. unfold of_json_external_reference in H. opened H F. unfold kept_external_reference, respell_reference. cbn. all_rewrite. reflexivity. Qed.
Global Hint Resolve external_reference_turned : reread.
Lemma identity_turned N : turned N of_json_identity kept_identity respell_identity.
Proof. intros j x F _ H. unfold of_json_identity in H. opened H F. unfold kept_identity, respell_identity. cbn. all_rewrite. reflexivity. Qed.
Global Hint Resolve identity_turned : reread.
Lemma evidence_turned N v w : version_leb v w = true -> turned N (of_json_evidence v) (kept_evidence w) respell_evidence.
Proof.
  intros L j x F _ H. unfold of_json_evidence in H.
  destruct v, w; try discriminate L; cbn [since version_leb] in H; opened H F; unfold kept_evidence, respell_evidence, from; cbn; all_rewrite; reflexivity.
Qed.
Global Hint Resolve evidence_turned : reread.
Lemma pedigree_turned N of f g : turned N of f g -> turned N (of_json_pedigree of) (kept_pedigree f) (respell_pedigree g).
Proof.
  intros T j x F S H. assert (T' : turned (size j) of f g) by (intros y a Fy Sy; apply T; [exact Fy|lia]).
  unfold of_json_pedigree in H. opened H F. unfold kept_pedigree, respell_pedigree. cbn. all_rewrite. reflexivity.
Qed.
Global Hint Resolve pedigree_turned : reread.
Lemma respell_component_eq x : respell_component x =
  mkComponent (c_type x) (c_mime_type x) (c_bom_ref x) (c_supplier x) (c_author x) (c_publisher x) (c_group x)
    (c_name x) (c_version x) (c_description x) (c_scope x) (c_hashes x) (c_licenses x) (c_copyright x) (c_cpe x)
    (c_purl x) (c_swid x) (c_modified x) (option_map (respell_pedigree respell_component) (c_pedigree x))
    (respell_references (c_external_references x)) (c_properties x)
    (option_map (map respell_component) (c_components x)) (option_map respell_evidence (c_evidence x))
    (c_signature x) (c_model_card x) (c_data x).
Proof. destruct x; reflexivity. Qed.
Lemma component_turned v w : version_leb v w = true -> forall N, turned N (of_json_component v) (kept_component w) respell_component.
Proof.
  intros L. enough (G : forall n j, size j < n -> numbers_fit j -> forall x, of_json_component v j = Some x -> kept_component w x = respell_component x).
  { intros N j x F S H. eapply G; eauto. }
  induction n as [|n IHn]; intros j S F x H; [lia|].
  assert (IH : turned (size j) (of_json_component v) (kept_component w) respell_component).
  { intros y a Fy Sy. apply IHn; [lia|exact Fy]. }
  clear IHn S. rewrite of_json_component_eq in H. rewrite kept_component_eq, respell_component_eq.
  generalize dependent (of_json_component v). generalize (kept_component w), respell_component. intros f g of H IH.
  unfold component_step in H.
  destruct v, w; try discriminate L; cbn [since version_leb] in H; opened H F;
    unfold from, respell_references; cbn; all_rewrite; reflexivity.
Qed.
Global Hint Resolve component_turned : reread.
Lemma service_data_class j x : of_json_service_data j = Some x -> exists c, of_json_data_classification j = Some c.
Proof.
  unfold of_json_service_data, of_json_data_classification. destruct j as [| | | | | |l]; try discriminate. cbn [object_ok].
  destruct (struct_ok keys_service_data (JObj l)) eqn:O; [|discriminate]. intros H.
  assert (K : struct_ok keys_data_classification (JObj l) = true).
  { cbn [struct_ok keys_service_data keys_data_classification forallb] in O |- *. repeat (apply andb_prop in O; destruct O as [? O]).
    now repeat (apply andb_true_intro; split). }
  rewrite K. lets H.
  assert (Q : forall A (f : json -> option A) ks ks' k, field f ks k (JObj l) = field f ks' k (JObj l)) by reflexivity.
  rewrite (Q _ _ _ keys_service_data), (Q _ dec_str _ keys_service_data). rewrite E1, E2. cbn. eauto.
Qed.
Lemma data_fixed N v : fixed N (of_json_data v) kept_data.
Proof.
  intros j x F S H. unfold of_json_data in H. destruct (dec_list of_json_data_classification j) as [l|] eqn:E.
  - injection H as <-. cbn. f_equal. exact (list_fixed N _ _ (data_classification_fixed N) j l F S E).
  - exfalso. cbn [bindo orelse] in H. destruct (since V1_5 v); [|discriminate H]. lets H. clear H.
    destruct j as [| | | | |js|]; try discriminate. cbn [dec_list] in *. revert l E E0.
    induction js as [|y js IH]; intros l E E0; [discriminate|].
    destruct (of_json_service_data y) as [d|] eqn:Ey; [|discriminate].
    destruct (service_data_class y d Ey) as [c Ec]. rewrite Ec in E. cbn [bindo] in E, E0.
    match type of E with (let? _ := ?e in _) = _ => destruct e as [?|] eqn:G; [discriminate|] end.
    match type of E0 with (let? _ := ?e in _) = _ => destruct e as [l'|] eqn:G'; [|discriminate] end.
    cbn in F. eapply (IH (proj2 F)); eauto. cbn [size] in *. lia.
Qed.
Global Hint Resolve data_fixed : reread.
Lemma respell_service_eq x : respell_service x =
  mkService (s_bom_ref x) (s_provider x) (s_group x) (s_name x) (s_version x) (s_description x) (s_endpoints x)
    (s_authenticated x) (s_x_trust_boundary x) (s_data x) (s_licenses x)
    (respell_references (s_external_references x)) (s_properties x)
    (option_map (map respell_service) (s_services x)) (s_signature x) (s_trust_zone x).
Proof. destruct x; reflexivity. Qed.
Lemma service_turned v w : version_leb v w = true -> forall N, turned N (of_json_service v) (kept_service w) respell_service.
Proof.
  intros L. enough (G : forall n j, size j < n -> numbers_fit j -> forall x, of_json_service v j = Some x -> kept_service w x = respell_service x).
  { intros N j x F S H. eapply G; eauto. }
  induction n as [|n IHn]; intros j S F x H; [lia|].
  assert (IH : turned (size j) (of_json_service v) (kept_service w) respell_service).
  { intros y a Fy Sy. apply IHn; [lia|exact Fy]. }
  clear IHn S. rewrite of_json_service_eq in H. rewrite kept_service_eq, respell_service_eq.
  generalize dependent (of_json_service v). generalize (kept_service w), respell_service. intros f g of H IH.
  unfold service_step in H.
  destruct v, w; try discriminate L; cbn [since version_leb] in H; opened H F;
    unfold from, respell_references; cbn; all_rewrite; reflexivity.
Qed.
Global Hint Resolve service_turned : reread.
Lemma tool_turned N v w : version_leb v w = true -> turned N (of_json_tool v) (kept_tool w) respell_tool.
Proof.
  intros L j x F _ H. unfold of_json_tool in H.
  destruct v, w; try discriminate L; cbn [since version_leb] in H; opened H F; unfold kept_tool, respell_tool, respell_references, from; cbn; all_rewrite; reflexivity.
Qed.
Global Hint Resolve tool_turned : reread.
Lemma tools_turned N v w : version_leb v w = true -> turned N (of_json_tools v) (kept_tools w) respell_tools.
Proof.
  intros L j x F S H. unfold of_json_tools in H. destruct (dec_list (of_json_tool v) j) as [l|] eqn:E.
  - injection H as <-. cbn. f_equal. exact (list_turned N _ _ _ (tool_turned N v w L) j l F S E).
  - cbn in H. destruct v, w; try discriminate L; cbn [since version_leb] in H; try discriminate. opened H F.
    cbn. all_rewrite. reflexivity.
Qed.
Global Hint Resolve tools_turned : reread.
Lemma lifecycle_fixed N : fixed N of_json_lifecycle kept_lifecycle.
Proof.
  intros j x F S H. unfold of_json_lifecycle, orelse in H.
  match type of H with (match ?e with _ => _ end) = _ => destruct e as [c|] eqn:E end.
  - injection H as <-. destruct (ext_tag j) as [[k y]|] eqn:T; [|discriminate]. cbn [bindo] in E.
    destruct (String.eqb k "phase"); [|discriminate]. lets E. injection E as <-. cbn. f_equal.
    destruct (tag_part j k y T) as [Sy Fy]. apply (kept_phase_fixed N y); auto. lia.
  - opened H F. reflexivity.
Qed.
Global Hint Resolve lifecycle_fixed : reread.
Lemma metadata_turned N v w : version_leb v w = true -> turned N (of_json_metadata v) (kept_metadata w) respell_metadata.
Proof.
  intros L j x F _ H. unfold of_json_metadata in H.
  destruct v, w; try discriminate L; cbn [since version_leb] in H; opened H F; unfold kept_metadata, respell_metadata, from; cbn; all_rewrite; reflexivity.
Qed.
Global Hint Resolve metadata_turned : reread.
Lemma composition_turned N v w : version_leb v w = true -> turned N (of_json_composition v) (kept_composition w) respell_composition.
Proof.
  intros L j x F _ H. unfold of_json_composition in H.
  destruct v, w; try discriminate L; cbn [since version_leb] in H; opened H F; unfold kept_composition, respell_composition, from; cbn; all_rewrite; reflexivity.
Qed.
Global Hint Resolve composition_turned : reread.
Lemma annotator_turned N v w : version_leb v w = true -> turned N (of_json_annotator v) (kept_annotator w) respell_annotator.
Proof.
  intros L j x F S H. unfold of_json_annotator in H. destruct (ext_tag j) as [[k y]|] eqn:T; [|discriminate]. cbn [bindo] in H.
  destruct (tag_part j k y T) as [Sy Fy].
  destruct (String.eqb k "organization"); [lets H; injection H as <-; reflexivity|].
  destruct (String.eqb k "individual"); [lets H; injection H as <-; reflexivity|].
  destruct (String.eqb k "component").
  { lets H. injection H as <-. cbn. f_equal. apply (component_turned v w L N y); auto. lia. }
  destruct (String.eqb k "service"); [|discriminate].
  lets H. injection H as <-. cbn. f_equal. apply (service_turned v w L N y); auto. lia.
Qed.
Global Hint Resolve annotator_turned : reread.
Lemma annotation_turned N v w : version_leb v w = true -> turned N (of_json_annotation v) (kept_annotation w) respell_annotation.
Proof.
  intros L j x F _ H. unfold of_json_annotation in H.
  destruct v, w; try discriminate L; cbn [since version_leb] in H; opened H F; unfold kept_annotation, respell_annotation, from; cbn; all_rewrite; reflexivity.
Qed.
Global Hint Resolve annotation_turned : reread.
Lemma vuln_rating_fixed N : fixed N of_json_vuln_rating kept_vuln_rating.
Proof. intros j x F _ H. unfold of_json_vuln_rating in H. opened H F. unfold kept_vuln_rating. cbn. all_rewrite. reflexivity. Qed.
Global Hint Resolve vuln_rating_fixed : reread.
Lemma vuln_analysis_fixed N v w : version_leb v w = true -> fixed N (of_json_vuln_analysis v) (kept_vuln_analysis w).
Proof.
  intros L j x F _ H. unfold of_json_vuln_analysis in H.
  destruct v, w; try discriminate L; cbn [since version_leb] in H; opened H F; unfold kept_vuln_analysis, from; cbn; all_rewrite; reflexivity.
Qed.
Global Hint Resolve vuln_analysis_fixed : reread.
Lemma version_status_fixed N : fixed N of_json_version_status kept_version_status.
Proof. intros j x F _ H. unfold of_json_version_status in H. opened H F. unfold kept_version_status. cbn. all_rewrite. reflexivity. Qed.
Global Hint Resolve version_status_fixed : reread.
Lemma vuln_target_fixed N : fixed N of_json_vuln_target kept_vuln_target.
Proof. intros j x F _ H. unfold of_json_vuln_target in H. opened H F. unfold kept_vuln_target. cbn. all_rewrite. reflexivity. Qed.
Global Hint Resolve vuln_target_fixed : reread.
Lemma vulnerability_turned N v w : version_leb v w = true -> turned N (of_json_vulnerability v) (kept_vulnerability w) respell_vulnerability.
Proof.
  intros L j x F _ H. unfold of_json_vulnerability in H.
  destruct v, w; try discriminate L; cbn [since version_leb] in H; opened H F; unfold kept_vulnerability, respell_vulnerability, from; cbn; all_rewrite; reflexivity.
Qed.
Global Hint Resolve vulnerability_turned : reread.
Lemma resource_turned N : turned N of_json_resource_reference kept_resource_reference respell_resource.
Proof.
  intros j x F S H. unfold of_json_resource_reference, orelse in H.
  match type of H with (match ?e with _ => _ end) = _ => destruct e as [c|] eqn:E end.
  - injection H as <-. opened E F. reflexivity.
  - opened H F. cbn. all_rewrite. reflexivity.
Qed.
Global Hint Resolve resource_turned : reread.
Lemma variant_turned {A B} k (f : json -> option A) (c : A -> B) j b g h : variant k f c j = Some b -> numbers_fit j ->
  (forall N, turned N f g h) -> exists a, b = c a /\ g a = h a.
Proof.
  unfold variant. intros H F T. destruct (object_ok [k] j); [|discriminate]. lets H. injection H as <-.
  eexists. split; [reflexivity|]. eapply field_turned; eauto.
Qed.
Lemma variant_is {A B} k (f : json -> option A) (c : A -> B) j b : variant k f c j = Some b -> exists a, b = c a.
Proof. unfold variant. intros H. destruct (object_ok [k] j); [|discriminate]. lets H. injection H as <-. eauto. Qed.
Lemma required_input_turned j x : numbers_fit j -> of_json_required_input j = Some x ->
  match x with RIResource r => RIResource (kept_resource_reference r) | r => r end
  = match x with RIResource r => RIResource (respell_resource r) | r => r end.
Proof.
  intros F H. unfold of_json_required_input, orelse in H.
  destruct (variant "resource" _ _ j) as [b|] eqn:E.
  { injection H as <-. destruct (variant_turned _ _ _ _ _ _ _ E F resource_turned) as (a & -> & K). now rewrite K. }
  repeat match type of H with match ?e with _ => _ end = _ => destruct e eqn:?; [injection H as <-|] end.
  all: match goal with K : variant _ _ _ _ = Some _ |- _ => destruct (variant_is _ _ _ _ _ K) as (a & ->) end; reflexivity.
Qed.
Lemma required_output_turned j x : numbers_fit j -> of_json_required_output j = Some x ->
  match x with ROResource r => ROResource (kept_resource_reference r) | r => r end
  = match x with ROResource r => ROResource (respell_resource r) | r => r end.
Proof.
  intros F H. unfold of_json_required_output, orelse in H.
  destruct (variant "resource" _ _ j) as [b|] eqn:E.
  { injection H as <-. destruct (variant_turned _ _ _ _ _ _ _ E F resource_turned) as (a & -> & K). now rewrite K. }
  repeat match type of H with match ?e with _ => _ end = _ => destruct e eqn:?; [injection H as <-|] end.
  all: match goal with K : variant _ _ _ _ = Some _ |- _ => destruct (variant_is _ _ _ _ _ K) as (a & ->) end; reflexivity.
Qed.
Lemma input_turned N : turned N of_json_input kept_input respell_input.
Proof.
  intros j x F _ H. unfold of_json_input in H. opened H F. unfold kept_input, respell_input. cbn.
  match goal with K : of_json_required_input j = Some ?r |- _ => pose proof (required_input_turned j r F K) as Q; clear K end.
  match type of Q with match ?r with _ => _ end = _ => destruct r end; try rewrite Q; all_rewrite; reflexivity.
Qed.
Lemma output_turned N : turned N of_json_output kept_output respell_output.
Proof.
  intros j x F _ H. unfold of_json_output in H. opened H F. unfold kept_output, respell_output. cbn.
  match goal with K : of_json_required_output j = Some ?r |- _ => pose proof (required_output_turned j r F K) as Q; clear K end.
  match type of Q with match ?r with _ => _ end = _ => destruct r end; try rewrite Q; all_rewrite; reflexivity.
Qed.
Global Hint Resolve input_turned output_turned : reread.
Lemma volume_fixed N : fixed N of_json_volume kept_volume.
Proof. intros j x F _ H. unfold of_json_volume in H. opened H F. unfold kept_volume. cbn.
  match goal with E : option_map kept_volume_mode ?o = ?o |- _ => destruct o; [injection E as E; rewrite E|] end; reflexivity. Qed.
Global Hint Resolve volume_fixed : reread.
Lemma workspace_turned N : turned N of_json_workspace kept_workspace respell_workspace.
Proof. intros j x F _ H. unfold of_json_workspace in H. opened H F. unfold kept_workspace, respell_workspace, respell_resources, respell_inputs, respell_outputs, respell_workspaces. cbn. all_rewrite. reflexivity. Qed.
Global Hint Resolve workspace_turned : reread.
Lemma event_turned N : turned N of_json_event kept_event respell_event.
Proof. intros j x F _ H. unfold of_json_event in H. opened H F. unfold kept_event, respell_event, respell_resources, respell_inputs, respell_outputs, respell_workspaces. cbn. all_rewrite. reflexivity. Qed.
Global Hint Resolve event_turned : reread.
Lemma trigger_turned N : turned N of_json_trigger kept_trigger respell_trigger.
Proof. intros j x F _ H. unfold of_json_trigger in H. opened H F. unfold kept_trigger, respell_trigger, respell_resources, respell_inputs, respell_outputs, respell_workspaces. cbn. all_rewrite. reflexivity. Qed.
Global Hint Resolve trigger_turned : reread.
Lemma task_turned N : turned N of_json_task kept_task respell_task.
Proof. intros j x F _ H. unfold of_json_task in H. opened H F. unfold kept_task, respell_task, respell_resources, respell_inputs, respell_outputs, respell_workspaces. cbn. all_rewrite. reflexivity. Qed.
Global Hint Resolve task_turned : reread.
Lemma workflow_turned N : turned N of_json_workflow kept_workflow respell_workflow.
Proof. intros j x F _ H. unfold of_json_workflow in H. opened H F. unfold kept_workflow, respell_workflow, respell_resources, respell_inputs, respell_outputs, respell_workspaces. cbn. all_rewrite. reflexivity. Qed.
Global Hint Resolve workflow_turned : reread.
Lemma formula_turned N v w : version_leb v w = true -> turned N (of_json_formula v) (kept_formula w) respell_formula.
Proof.
  intros L j x F _ H. unfold of_json_formula in H.
  opened H F; unfold kept_formula, respell_formula, from; cbn; all_rewrite; reflexivity.
Qed.
Global Hint Resolve formula_turned : reread.
Theorem bom_turned v w j b : version_leb v w = true -> numbers_fit j -> of_json_bom v j = Some b -> kept_bom w b = respell_bom w b.
Proof.
  intros L F H. unfold of_json_bom in H.
  destruct v, w; try discriminate L; cbn [since version_leb] in H; opened H F; unfold kept_bom, respell_bom, from, respell_references; cbn; all_rewrite; reflexivity.
Qed.

(** ** Every component that is read comes from a part of the document *)
Definition is_read {A} (r : json -> option A) (a : A) : Prop := exists y, numbers_fit y /\ r y = Some a.
Lemma opt_read {A} (r : json -> option A) ks k j o a : field_opt r ks k j = Some o -> numbers_fit j -> o = Some a -> is_read r a.
Proof. intros H F ->. destruct (opt_part r ks k j a H) as (y & E & _ & Fy). exists y. auto. Qed.
Lemma opt_list_read {A} (r : json -> option A) ks k j o a : field_opt (dec_list r) ks k j = Some o -> numbers_fit j -> In a (olist o) -> is_read r a.
Proof.
  intros H F I. destruct o as [l|]; [|destruct I]. destruct (opt_part _ ks k j l H) as (y & E & _ & Fy).
  destruct (list_part r y l a E I) as (z & Ez & _ & Fz). exists z. auto.
Qed.
Lemma when_list_read {A} c (r : json -> option A) ks k j o a : field_when c (field_opt (dec_list r) ks k j) = Some o -> numbers_fit j -> In a (olist o) -> is_read r a.
Proof. destruct c; [apply opt_list_read|]. intros [= <-] _ []. Qed.
Lemma when_read {A} c (r : json -> option A) ks k j o a : field_when c (field_opt r ks k j) = Some o -> numbers_fit j -> o = Some a -> is_read r a.
Proof. destruct c; [apply opt_read|]. intros [= <-] _ [=]. Qed.
Ltac from_list I F := match type of I with In _ (olist ?o) =>
  match goal with
  | E : field_opt (dec_list _) _ _ _ = Some o |- _ => exact (opt_list_read _ _ _ _ _ _ E F I)
  | E : field_when _ (field_opt (dec_list _) _ _ _) = Some o |- _ => exact (when_list_read _ _ _ _ _ _ _ E F I) end end.
Ltac parts H :=
  match type of H with (if ?b then _ else None) = Some _ => destruct b; [|discriminate H] end;
  lets H; injection H as <-.

Lemma pedigree_read of j p c : of_json_pedigree of j = Some p -> numbers_fit j -> In c (pedigree_members p) -> is_read of c.
Proof.
  unfold of_json_pedigree. intros H F I. parts H. unfold pedigree_members in I. cbn in I.
  rewrite !in_app_iff in I. destruct I as [I|[I|I]]; from_list I F.
Qed.
Lemma component_read v c d : is_read (of_json_component v) c -> within c d -> is_read (of_json_component v) d.
Proof.
  intros R W. induction W as [c|c d e I W IH|c p d e P I W IH]; [assumption| |]; apply IH; clear IH W;
    destruct R as (j & F & H); rewrite of_json_component_eq in H; unfold component_step in H; parts H.
  - cbn in I. from_list I F.
  - cbn in P. match goal with E : field_opt (of_json_pedigree _) _ _ _ = Some _ |- _ => destruct (opt_read _ _ _ _ _ _ E F P) as (y & Fy & Ey) end.
    exact (pedigree_read _ _ _ _ Ey Fy I).
Qed.
Lemma tools_read v w j t c : of_json_tools v j = Some t -> numbers_fit j -> In c (tools_components w t) -> is_read (of_json_component v) c.
Proof.
  unfold of_json_tools. intros H F I. destruct (dec_list (of_json_tool v) j) as [l|]; cbn [bindo orelse] in H.
  - injection H as <-. destruct I.
  - destruct (since V1_5 v); [|discriminate H]. parts H. cbn [tools_components] in I. destruct (version_leb V1_5 w); [|destruct I].
    from_list I F.
Qed.
Lemma in_one {A} (o : option A) a : In a (one o) -> o = Some a.
Proof. destruct o; cbn; [intros [->|[]]; reflexivity | intros []]. Qed.
Lemma in_from_list {A} a v (l : list A) x : In x (from_list a v l) -> In x l.
Proof. unfold from_list. destruct (version_leb a v); [auto|intros []]. Qed.
Lemma roots_read v w j b c : of_json_bom v j = Some b -> numbers_fit j -> In c (bom_roots w b) -> is_read (of_json_component v) c.
Proof.
  intros H F I. unfold of_json_bom in H. parts H. unfold bom_roots in I.
  cbn [b_metadata b_components b_vulnerabilities b_annotations b_formulation] in I. rewrite !in_app_iff in I.
  destruct I as [I|[I|[I|[I|I]]]].
  - apply in_flat_map in I. destruct I as (m & M & I). apply in_one in M.
    match goal with E : field_opt (of_json_metadata _) _ _ _ = Some _ |- _ => destruct (opt_read _ _ _ _ _ _ E F M) as (y & Fy & Ey) end.
    unfold of_json_metadata in Ey. parts Ey. cbn in I. rewrite in_app_iff in I. destruct I as [I|I].
    + apply in_flat_map in I. destruct I as (t & T & I). apply in_one in T.
      match goal with E : field_opt (of_json_tools _) _ _ _ = Some _ |- _ => destruct (opt_read _ _ _ _ _ _ E Fy T) as (z & Fz & Ez) end.
      exact (tools_read _ _ _ _ _ Ez Fz I).
    + apply in_one in I. match goal with E : field_opt (of_json_component _) _ _ _ = Some _ |- _ => exact (opt_read _ _ _ _ _ _ E Fy I) end.
  - from_list I F.
  - apply in_from_list, in_flat_map in I. destruct I as (x & X & I).
    match goal with E : field_when _ (field_opt (dec_list (of_json_vulnerability _)) _ _ _) = Some _ |- _ => destruct (when_list_read _ _ _ _ _ _ _ E F X) as (y & Fy & Ey) end.
    unfold of_json_vulnerability in Ey. parts Ey. cbn in I. apply in_flat_map in I. destruct I as (t & T & I). apply in_one in T.
    match goal with E : field_opt (of_json_tools _) _ _ _ = Some _ |- _ => destruct (opt_read _ _ _ _ _ _ E Fy T) as (z & Fz & Ez) end.
    exact (tools_read _ _ _ _ _ Ez Fz I).
  - apply in_from_list, in_flat_map in I. destruct I as (x & X & I).
    match goal with E : field_when _ (field_opt (dec_list (of_json_annotation _)) _ _ _) = Some _ |- _ => destruct (when_list_read _ _ _ _ _ _ _ E F X) as (y & Fy & Ey) end.
    unfold of_json_annotation in Ey. parts Ey. cbn in I.
    match goal with E : field (of_json_annotator v) _ _ _ = Some ?a |- _ => destruct (field_part _ _ _ _ _ E) as (z & Ez & _ & Fz); destruct a; try destruct I as [|[]]; try destruct I; subst end.
    specialize (Fz Fy). unfold of_json_annotator in Ez. destruct (ext_tag z) as [[k uu]|] eqn:T; [|discriminate]. cbn [bindo] in Ez.
    destruct (tag_part z k uu T) as [_ Fu].
    repeat match type of Ez with (if ?b then _ else _) = _ => destruct b end; lets Ez; try discriminate Ez. injection Ez as ->.
    exists uu. auto.
  - apply in_from_list, in_flat_map in I. destruct I as (x & X & I).
    match goal with E : field_when _ (field_opt (dec_list (of_json_formula _)) _ _ _) = Some _ |- _ => destruct (when_list_read _ _ _ _ _ _ _ E F X) as (y & Fy & Ey) end.
    unfold of_json_formula in Ey. parts Ey. cbn in I. from_list I Fy.
Qed.

(** what the writer needs of a component *)
Lemma read_finite v w c : is_read (of_json_component v) c -> methods_finite w c.
Proof.
  intros (j & F & H) _ e i m E I M. rewrite of_json_component_eq in H. unfold component_step in H. parts H. cbn in E.
  match goal with K : field_opt (of_json_evidence _) _ _ _ = Some _ |- _ => destruct (opt_read _ _ _ _ _ _ K F E) as (y & Fy & Ey) end.
  unfold of_json_evidence in Ey. parts Ey. cbn in I.
  match goal with K : field_when _ (field_opt of_json_identity _ _ _) = Some _ |- _ => destruct (when_read _ _ _ _ _ _ _ K Fy I) as (z & Fz & Ez) end.
  unfold of_json_identity in Ez. parts Ez. cbn in M.
  match goal with K : field_opt (dec_list of_json_method) _ _ _ = Some _ |- _ => destruct (opt_list_read _ _ _ _ _ _ K Fz M) as (u & Fu & Eu) end.
  unfold of_json_method in Eu. parts Eu. cbn.
  match goal with K : field dec_f32 _ _ _ = Some _ |- _ => destruct (field_part _ _ _ _ _ K) as (t & Et & _ & Ft) end.
  exact (f32_finite t _ (Ft Fu) Et).
Qed.
Lemma read_versioned c : is_read (of_json_component V1_3) c -> c_version c <> None.
Proof.
  intros (j & F & H). rewrite of_json_component_eq in H. unfold component_step in H. parts H. cbn.
  match goal with K : (if since V1_4 V1_3 then _ else _) = Some _ |- _ => cbn [since version_leb] in K; lets K; injection K as <- end. discriminate.
Qed.
Lemma read_writes v w b j : version_leb v w = true -> numbers_fit j -> of_json_bom v j = Some b -> exists j', output_as_json w b = Done j'.
Proof.
  intros L F H. destruct (output_as_json_iff w b) as [[E _]|[E _]]; [eauto|]. exfalso.
  destruct (output_fails w b _ E) as (-> & c & (r & I & W) & N). destruct v; try discriminate L.
  exact (read_versioned c (component_read _ _ _ (roots_read _ _ _ _ _ H F I) W) N).
Qed.
Lemma read_written v w b j : version_leb v w = true -> numbers_fit j -> of_json_bom v j = Some b ->
  exists j', output_as_json w b = Done j' /\ parse_from_json j' = Done (respell_bom w b)
    /\ parse_from_json_with_version w j' = Done (respell_bom w b) /\ parse_from_json_value_version w j' = Done (respell_bom w b).
Proof.
  intros L F H. destruct (read_writes v w b j L F H) as [j' O]. exists j'. split; [exact O|].
  rewrite <- (bom_turned v w j b L F H).
  assert (M : forall c, bom_component w b c -> methods_finite w c).
  { intros c (r & I & W). apply (read_finite v). exact (component_read _ _ _ (roots_read _ _ _ _ _ H F I) W). }
  split; [exact (output_then_parse_any w b j' j' O (like_refl j') M)|].
  split; [exact (output_then_parse w b j' j' O (like_refl j') M)|exact (output_then_parse_value w b j' j' O (like_refl j') M)].
Qed.

(** ** Values keep the numbers of the document *)
Lemma fit_list l : numbers_fit (JArr l) <-> Forall numbers_fit l.
Proof.
  induction l as [|x l IH]; cbn; [split; constructor|]. split.
  - intros [A B]. constructor; [exact A|]. apply IH, B.
  - intros K. inversion K; subst. split; [assumption|]. now apply IH.
Qed.
Lemma fit_members l : numbers_fit (JObj l) <-> Forall (fun p => numbers_fit (snd p)) l.
Proof.
  induction l as [|[k x] l IH]; cbn; [split; constructor|]. split.
  - intros [A B]. constructor; [exact A|]. apply IH, B.
  - intros K. inversion K; subst. split; [assumption|]. now apply IH.
Qed.
Lemma fit_put k x l : numbers_fit x -> Forall (fun p => numbers_fit (snd p)) l -> Forall (fun p => numbers_fit (snd p)) (put k x l).
Proof.
  intros X F. induction F as [|[k' y] l Y F IH]; cbn; [repeat constructor; assumption|].
  destruct (String.compare k k'); now repeat constructor.
Qed.
Lemma fit_value j : numbers_fit j -> numbers_fit (to_value j).
Proof.
  induction j as [| | | | |l IH|l IH] using json_ind'; intros F; try exact F; cbn [to_value].
  - apply fit_list in F. apply fit_list. rewrite Forall_map. rewrite Forall_forall in *. auto.
  - apply fit_members in F. apply fit_members.
    enough (G : forall m, Forall (fun p => numbers_fit (snd p)) m ->
      Forall (fun p => numbers_fit (snd p)) (fold_left (fun m p => put (fst p) (to_value (snd p)) m) l m)) by (apply G; constructor).
    induction l as [|[k x] l IHl]; intros m M; cbn [fold_left]; [exact M|]. inversion F; subst. inversion IH; subst.
    apply IHl; auto. apply fit_put; auto.
Qed.

(** ** Written documents have finite numbers, and the second writing changes nothing *)
Lemma plain_fit j : plain j -> numbers_fit j.
Proof.
  induction j as [| | | | |l IH|l IH] using json_ind'; intros P; try exact Logic.I.
  - inversion P. exact Logic.I.
  - apply fit_list. inversion P; subst. rewrite Forall_forall in *. auto.
  - apply fit_members. inversion P; subst. rewrite Forall_forall in *. auto.
Qed.
Lemma written_fit w b j : output_as_json w b = Done j -> numbers_fit j.
Proof. intros O. apply plain_fit. apply (output_plain w b j O). Qed.

Lemma om_idem {A} (f : A -> A) : (forall x, f (f x) = f x) -> forall o, option_map f (option_map f o) = option_map f o.
Proof. intros H [x|]; cbn; [now rewrite H|reflexivity]. Qed.
Lemma map_idem {A} (f : A -> A) : (forall x, f (f x) = f x) -> forall l, map f (map f l) = map f l.
Proof. intros H l. rewrite map_map. apply map_ext. exact H. Qed.
Lemma oml_idem {A} (f : A -> A) : (forall x, f (f x) = f x) -> forall o, option_map (map f) (option_map (map f) o) = option_map (map f) o.
Proof. intros H. apply om_idem, map_idem, H. Qed.
Lemma oml_idem_in {A} (f : A -> A) (o : option (list A)) : (forall x, In x (olist o) -> f (f x) = f x) ->
  option_map (map f) (option_map (map f) o) = option_map (map f) o.
Proof. intros H. destruct o as [l|]; [|reflexivity]. cbn. f_equal. rewrite map_map. apply map_ext_in. exact H. Qed.

Lemma twice_reference x : respell_reference (respell_reference x) = respell_reference x.
Proof. destruct x as [t u c h]; destruct t; reflexivity. Qed.
Lemma twice_references x : respell_references (respell_references x) = respell_references x.
Proof. apply oml_idem, twice_reference. Qed.
Lemma twice_evidence x : respell_evidence (respell_evidence x) = respell_evidence x.
Proof. destruct x as [a b c d [[[] ? ? ?]|]]; reflexivity. Qed.
Lemma twice_component x : respell_component (respell_component x) = respell_component x.
Proof.
  induction x as [x IHc IHp] using component_ind'. rewrite (respell_component_eq x), respell_component_eq. cbn.
  rewrite twice_references, oml_idem_in, (om_idem _ twice_evidence) by exact IHc.
  destruct (c_pedigree x) as [p|] eqn:E; [|reflexivity]. cbn. destruct (IHp p eq_refl) as (A & B & C).
  unfold respell_pedigree at 1 2. cbn. rewrite (oml_idem_in _ _ A), (oml_idem_in _ _ B), (oml_idem_in _ _ C). reflexivity.
Qed.
Lemma twice_service x : respell_service (respell_service x) = respell_service x.
Proof.
  induction x as [x IH] using service_ind'. rewrite (respell_service_eq x), respell_service_eq. cbn.
  rewrite twice_references, oml_idem_in by exact IH. reflexivity.
Qed.
Lemma twice_tool x : respell_tool (respell_tool x) = respell_tool x.
Proof. unfold respell_tool. cbn. now rewrite twice_references. Qed.
Lemma twice_tools x : respell_tools (respell_tools x) = respell_tools x.
Proof.
  destruct x; cbn; [now rewrite (map_idem _ twice_tool)|]. now rewrite (oml_idem _ twice_service), (oml_idem _ twice_component).
Qed.
Lemma twice_metadata x : respell_metadata (respell_metadata x) = respell_metadata x.
Proof. unfold respell_metadata. cbn. now rewrite (om_idem _ twice_tools), (om_idem _ twice_component). Qed.
Lemma twice_composition x : respell_composition (respell_composition x) = respell_composition x.
Proof. destruct x as [? [] ? ? ? ?]; reflexivity. Qed.
Lemma twice_annotation x : respell_annotation (respell_annotation x) = respell_annotation x.
Proof. unfold respell_annotation. cbn. destruct (an_annotator x); cbn; now rewrite ?twice_component, ?twice_service. Qed.
Lemma twice_vulnerability x : respell_vulnerability (respell_vulnerability x) = respell_vulnerability x.
Proof. unfold respell_vulnerability. cbn. now rewrite (om_idem _ twice_tools). Qed.
Lemma twice_resource x : respell_resource (respell_resource x) = respell_resource x.
Proof. destruct x; cbn; [reflexivity|]. now rewrite twice_reference. Qed.
Lemma twice_input x : respell_input (respell_input x) = respell_input x.
Proof. unfold respell_input. cbn. rewrite !(om_idem _ twice_resource). destruct (in_required x); now rewrite ?twice_resource. Qed.
Lemma twice_output x : respell_output (respell_output x) = respell_output x.
Proof. unfold respell_output. cbn. rewrite !(om_idem _ twice_resource). destruct (ou_required x); now rewrite ?twice_resource. Qed.
Lemma twice_resources x : respell_resources (respell_resources x) = respell_resources x.
Proof. apply oml_idem, twice_resource. Qed.
Lemma twice_inputs x : respell_inputs (respell_inputs x) = respell_inputs x.
Proof. apply oml_idem, twice_input. Qed.
Lemma twice_outputs x : respell_outputs (respell_outputs x) = respell_outputs x.
Proof. apply oml_idem, twice_output. Qed.
Lemma twice_workspace x : respell_workspace (respell_workspace x) = respell_workspace x.
Proof. unfold respell_workspace. cbn. now rewrite twice_resources. Qed.
Lemma twice_workspaces x : respell_workspaces (respell_workspaces x) = respell_workspaces x.
Proof. apply oml_idem, twice_workspace. Qed.
Lemma twice_event x : respell_event (respell_event x) = respell_event x.
Proof. unfold respell_event. cbn. now rewrite !(om_idem _ twice_resource). Qed.
Lemma twice_trigger x : respell_trigger (respell_trigger x) = respell_trigger x.
Proof. unfold respell_trigger. cbn. now rewrite twice_resources, twice_inputs, twice_outputs, (om_idem _ twice_event). Qed.
Lemma twice_task x : respell_task (respell_task x) = respell_task x.
Proof. unfold respell_task. cbn. now rewrite twice_resources, twice_inputs, twice_outputs, twice_workspaces, (om_idem _ twice_trigger). Qed.
Lemma twice_workflow x : respell_workflow (respell_workflow x) = respell_workflow x.
Proof.
  unfold respell_workflow. cbn.
  now rewrite twice_resources, twice_inputs, twice_outputs, twice_workspaces, (om_idem _ twice_trigger), (oml_idem _ twice_task).
Qed.
Lemma twice_formula x : respell_formula (respell_formula x) = respell_formula x.
Proof.
  unfold respell_formula. cbn. now rewrite (oml_idem _ twice_component), (oml_idem _ twice_service), (oml_idem _ twice_workflow).
Qed.
Lemma twice_bom w b : respell_bom w (respell_bom w b) = respell_bom w b.
Proof.
  unfold respell_bom. cbn.
  now rewrite (om_idem _ twice_metadata), (oml_idem _ twice_component), (oml_idem _ twice_service), twice_references,
    (oml_idem _ twice_composition), (oml_idem _ twice_vulnerability), (oml_idem _ twice_annotation), (oml_idem _ twice_formula).
Qed.

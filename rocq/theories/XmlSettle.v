(** Writing XML and reading it again, over and over: proofs. *)
From Verif Require Import Base ModelTypes Strings Enums GenModel Json JsonLemmas JsonModel JsonSpec JsonProofs JsonProofs3
  Xml XmlLemmas XmlModel XmlSpec XmlProofs2.
Open Scope string_scope.
Open Scope list_scope.
Open Scope nat_scope.

(** a function that changes nothing from the third time on; one that may fail, but only the first time *)
Definition sf {A} (f : A -> A) : Prop := forall x, f (f (f x)) = f (f x).
Definition st_at {A} (k : A -> option A) (x : A) : Prop := forall y, k x = Some y -> exists z, k y = Some z /\ k z = Some z.
Definition st {A} (k : A -> option A) : Prop := forall x, st_at k x.

Create HintDb sf.
Lemma sf_idem {A} (f : A -> A) : (forall x, f (f x) = f x) -> sf f.
Proof. intros H x. now rewrite !H. Qed.
Lemma sf_om {A} (f : A -> A) : sf f -> sf (option_map f).
Proof. intros H [x|]; cbn; [now rewrite H|reflexivity]. Qed.
Lemma sf_map {A} (f : A -> A) : sf f -> sf (map f).
Proof. intros H l. rewrite !map_map. apply map_ext. exact H. Qed.
Lemma sf_from {A} a v : sf (@JsonSpec.from A a v).
Proof. intros x. unfold JsonSpec.from. now destruct (version_leb a v). Qed.
Lemma sf_fromf {A} a v (f : option A -> option A) : f None = None -> sf f -> sf (fun o => JsonSpec.from a v (f o)).
Proof. intros N H x. unfold JsonSpec.from. destruct (version_leb a v); auto. Qed.
#[export] Hint Resolve sf_om sf_map sf_from : sf.

Lemma st_each_at {A} (k : A -> option A) l : (forall a, In a l -> st_at k a) -> st_at (each k) l.
Proof.
  induction l as [|a l IH]; intros H y E; cbn [each] in E.
  - injection E as <-. exists []. split; reflexivity.
  - destruct (k a) as [b|] eqn:Ka; [|discriminate]. cbn [bindo] in E. destruct (each k l) as [l'|] eqn:El; [|discriminate].
    injection E as <-. destruct (H a (or_introl eq_refl) b Ka) as (c & C1 & C2).
    destruct (IH (fun a I => H a (or_intror I)) l' El) as (m & M1 & M2).
    exists (c :: m). cbn [each]. rewrite C1, M1, C2, M2. split; reflexivity.
Qed.
Lemma st_maybe_at {A} (k : A -> option A) o : (forall a, o = Some a -> st_at k a) -> st_at (maybe k) o.
Proof.
  destruct o as [a|]; intros H y E; cbn [maybe] in E.
  - destruct (k a) as [b|] eqn:Ka; [|discriminate]. injection E as <-. destruct (H a eq_refl b Ka) as (c & C1 & C2).
    exists (Some c). cbn. rewrite C1, C2. split; reflexivity.
  - injection E as <-. exists None. split; reflexivity.
Qed.
Lemma st_each {A} (k : A -> option A) : st k -> st (each k).
Proof. intros H l. apply st_each_at. auto. Qed.
Lemma st_maybe {A} (k : A -> option A) : st k -> st (maybe k).
Proof. intros H o. apply st_maybe_at. auto. Qed.
Lemma st_gate {A} (k : A -> option A) a v : st k -> st (fun o => gate a v (maybe k o)).
Proof.
  intros H o. unfold gate. destruct (version_leb a v); [exact (st_maybe k H o)|]. intros y _. exists None. split; reflexivity.
Qed.
#[export] Hint Resolve st_each st_maybe st_gate : sf.

Lemma xtrim_start_fixed s : xtrim_start (xtrim_start s) = xtrim_start s.
Proof. induction s as [|a s IH]; [reflexivity|]. cbn. destruct (xml_space a) eqn:E; [exact IH|]. cbn. now rewrite E. Qed.
Lemma xtrim_end_fixed s : xtrim_end (xtrim_end s) = xtrim_end s.
Proof.
  induction s as [|a s IH]; [reflexivity|]. cbn. destruct (xtrim_end s) as [|b t] eqn:E.
  - destruct (xml_space a) eqn:X; [reflexivity|]. cbn. now rewrite X.
  - change (match xtrim_end (String b t) with "" => if xml_space a then "" else String a "" | u => String a u end = String a (String b t)).
    now rewrite IH.
Qed.
Lemma xtrim_start_end s : xtrim_start (xtrim_end (xtrim_start s)) = xtrim_end (xtrim_start s).
Proof.
  assert (H : match xtrim_start s with String a _ => xml_space a = false | "" => True end).
  { induction s as [|a s IH]; [exact Logic.I|]. cbn. destruct (xml_space a) eqn:E; [exact IH|exact E]. }
  destruct (xtrim_start s) as [|a t]; [reflexivity|]. cbn. destruct (xtrim_end t); cbn; now rewrite H; cbn; rewrite ?H.
Qed.
Lemma xtrim_twice s : xtrim (xtrim s) = xtrim s.
Proof. unfold xtrim. now rewrite xtrim_start_end, xtrim_end_fixed. Qed.
Lemma sf_xtrim : sf xtrim.
Proof. apply sf_idem, xtrim_twice. Qed.
Lemma sf_trimo : sf trimo.
Proof. apply (sf_om xtrim), sf_xtrim. Qed.
#[export] Hint Resolve sf_xtrim sf_trimo : sf.
Lemma st_nonblank : st nonblank.
Proof.
  intros x y E. unfold nonblank in *. destruct (xtrim x) as [|a t] eqn:T; [discriminate|]. injection E as <-.
  exists (String a t). rewrite <- T. rewrite !xtrim_twice. rewrite T. split; reflexivity.
Qed.
#[export] Hint Resolve st_nonblank : sf.

(** ** Enumerations *)
Lemma in_text_fixed {A} (raw : A -> option string) (U : string -> A) t x :
  (forall s, raw (U s) = Some s) -> Forall (fun a => raw a = None) (map snd t) ->
  in_text raw (of_table U t) (in_text raw (of_table U t) x) = in_text raw (of_table U t) x.
Proof.
  intros H F. unfold in_text at 2 3. destruct (raw x) as [s|] eqn:E; [|unfold in_text; now rewrite E].
  unfold in_text. destruct (of_table_cases U t (xtrim s)) as [C|C].
  - rewrite C, H, xtrim_twice. exact C.
  - rewrite Forall_forall in F. now rewrite (F _ C).
Qed.
Lemma sf_scope : sf kx_scope.
Proof. apply sf_idem. intros x. apply in_text_fixed; [reflexivity | repeat constructor]. Qed.
#[export] Hint Resolve sf_scope : sf.
Lemma sf_component_data_type : sf kx_component_data_type.
Proof. apply sf_idem. intros x. apply in_text_fixed; [reflexivity | repeat constructor]. Qed.
#[export] Hint Resolve sf_component_data_type : sf.
Lemma sf_phase : sf kx_phase.
Proof. apply sf_idem. intros x. apply in_text_fixed; [reflexivity | repeat constructor]. Qed.
#[export] Hint Resolve sf_phase : sf.
Lemma sf_analysis_state : sf kx_analysis_state.
Proof. apply sf_idem. intros x. apply in_text_fixed; [reflexivity | repeat constructor]. Qed.
#[export] Hint Resolve sf_analysis_state : sf.
Lemma sf_analysis_justification : sf kx_analysis_justification.
Proof. apply sf_idem. intros x. apply in_text_fixed; [reflexivity | repeat constructor]. Qed.
#[export] Hint Resolve sf_analysis_justification : sf.
Lemma sf_analysis_response : sf kx_analysis_response.
Proof. apply sf_idem. intros x. apply in_text_fixed; [reflexivity | repeat constructor]. Qed.
#[export] Hint Resolve sf_analysis_response : sf.
Lemma sf_severity : sf kx_severity.
Proof. apply sf_idem. intros x. apply in_text_fixed; [reflexivity | repeat constructor]. Qed.
#[export] Hint Resolve sf_severity : sf.
Lemma sf_score_method : sf kx_score_method.
Proof. apply sf_idem. intros x. apply in_text_fixed; [reflexivity | repeat constructor]. Qed.
#[export] Hint Resolve sf_score_method : sf.
Lemma sf_status : sf kx_status.
Proof. apply sf_idem. intros x. apply in_text_fixed; [reflexivity | repeat constructor]. Qed.
#[export] Hint Resolve sf_status : sf.
Lemma sf_approach_type : sf kx_approach_type.
Proof. apply sf_idem. intros x. apply in_text_fixed; [reflexivity | repeat constructor]. Qed.
#[export] Hint Resolve sf_approach_type : sf.
Lemma sf_task_type : sf kx_task_type.
Proof. apply sf_idem. intros x. apply in_text_fixed; [reflexivity | repeat constructor]. Qed.
#[export] Hint Resolve sf_task_type : sf.
Lemma sf_output_type : sf kx_output_type.
Proof. apply sf_idem. intros x. apply in_text_fixed; [reflexivity | repeat constructor]. Qed.
#[export] Hint Resolve sf_output_type : sf.
Lemma sf_trigger_type : sf kx_trigger_type.
Proof. apply sf_idem. intros x. apply in_text_fixed; [reflexivity | repeat constructor]. Qed.
#[export] Hint Resolve sf_trigger_type : sf.
Lemma sf_access_mode : sf kx_access_mode.
Proof. apply sf_idem. intros x. apply in_text_fixed; [reflexivity | repeat constructor]. Qed.
#[export] Hint Resolve sf_access_mode : sf.
Lemma sf_volume_mode : sf kx_volume_mode.
Proof. apply sf_idem. intros x. apply in_text_fixed; [reflexivity | repeat constructor]. Qed.
#[export] Hint Resolve sf_volume_mode : sf.
Lemma sfk_classification : sf kept_classification.
Proof. exact idem_classification. Qed.
#[export] Hint Resolve sfk_classification : sf.
Lemma sfk_hash_algorithm : sf kept_hash_algorithm.
Proof. exact idem_hash_algorithm. Qed.
#[export] Hint Resolve sfk_hash_algorithm : sf.
Lemma sfk_encoding : sf kept_encoding.
Proof. exact idem_encoding. Qed.
#[export] Hint Resolve sfk_encoding : sf.
Lemma sfk_issue_classification : sf kept_issue_classification.
Proof. exact idem_issue_classification. Qed.
#[export] Hint Resolve sfk_issue_classification : sf.
Lemma sfk_patch_classification : sf kept_patch_classification.
Proof. exact idem_patch_classification. Qed.
#[export] Hint Resolve sfk_patch_classification : sf.
Lemma sfk_data_flow_type : sf kept_data_flow_type.
Proof. exact idem_data_flow_type. Qed.
#[export] Hint Resolve sfk_data_flow_type : sf.
Lemma sfk_ext_ref_type : sf kept_ext_ref_type.
Proof. exact idem_ext_ref_type. Qed.
#[export] Hint Resolve sfk_ext_ref_type : sf.
Lemma sfk_algorithm : sf kept_algorithm.
Proof. exact idem_algorithm. Qed.
#[export] Hint Resolve sfk_algorithm : sf.
Lemma sf_aggregate_type : sf kx_aggregate_type.
Proof.
  intros x. destruct x; try reflexivity. cbn [kx_aggregate_type]. unfold aggregate_type_of_text.
  match goal with |- context [of_table AUnknownType ?t (xtrim ?s)] => destruct (of_table_cases AUnknownType t (xtrim s)) as [C|C] end.
  - rewrite C. cbn [kx_aggregate_type]. unfold aggregate_type_of_text. now rewrite !xtrim_twice, !C; cbn [kx_aggregate_type]; unfold aggregate_type_of_text; rewrite ?xtrim_twice, ?C.
  - repeat (destruct C as [<-|C]; [reflexivity|]). destruct C.
Qed.
#[export] Hint Resolve sf_aggregate_type : sf.

(** ** Values that can always be read back *)
Lemma from_thrice {A} a v (g : option A -> option A) x :
  g None = None -> sf g ->
  JsonSpec.from a v (g (JsonSpec.from a v (g (JsonSpec.from a v (g x))))) = JsonSpec.from a v (g (JsonSpec.from a v (g x))).
Proof. intros N H. exact (sf_fromf a v g N H x). Qed.

Arguments kept_classification : simpl never.
Arguments kept_hash_algorithm : simpl never.
Arguments kept_encoding : simpl never.
Arguments kept_issue_classification : simpl never.
Arguments kept_patch_classification : simpl never.
Arguments kept_data_flow_type : simpl never.
Arguments kept_ext_ref_type : simpl never.
Arguments kept_algorithm : simpl never.
Arguments kx_scope : simpl never.
Arguments kx_component_data_type : simpl never.
Arguments kx_phase : simpl never.
Arguments kx_analysis_state : simpl never.
Arguments kx_analysis_justification : simpl never.
Arguments kx_analysis_response : simpl never.
Arguments kx_severity : simpl never.
Arguments kx_score_method : simpl never.
Arguments kx_status : simpl never.
Arguments kx_approach_type : simpl never.
Arguments kx_task_type : simpl never.
Arguments kx_output_type : simpl never.
Arguments kx_trigger_type : simpl never.
Arguments kx_access_mode : simpl never.
Arguments kx_volume_mode : simpl never.
Arguments kx_aggregate_type : simpl never.
Arguments xtrim : simpl never.
Arguments trimo : simpl never.
Arguments some_items : simpl never.
Arguments only_if : simpl never.
Arguments JsonSpec.from : simpl never.

Ltac sfs :=
  repeat match goal with
  | |- context [?F (?F (?F ?x))] => let H := fresh in assert (H : sf F) by (auto with sf); rewrite (H x); clear H
  | |- context [JsonSpec.from ?a ?v (?G (JsonSpec.from ?a ?v (?G (JsonSpec.from ?a ?v (?G ?x)))))] =>
      rewrite (from_thrice a v G x eq_refl) by (auto with sf)
  end.
Ltac sfr k := let x := fresh in intros x; unfold k; destruct x; cbn; sfs; reflexivity.

Lemma sf_property : sf kx_property. Proof. sfr kx_property. Qed.
#[export] Hint Resolve sf_property : sf.
Lemma sf_properties : sf kx_properties. Proof. unfold kx_properties. auto with sf. Qed.
#[export] Hint Resolve sf_properties : sf.
Arguments kx_properties : simpl never.
Lemma sf_hash : sf kx_hash. Proof. sfr kx_hash. Qed.
#[export] Hint Resolve sf_hash : sf.
Lemma contact_fixed x : kx_contact (kx_contact x) = kx_contact x.
Proof. unfold kx_contact. cbn. unfold trimo. destruct x as [r [] [] []]; cbn; now rewrite ?xtrim_twice. Qed.
Lemma contact_data x : contact_has_data (kx_contact x) = contact_has_data x.
Proof. now destruct x as [r [] [] []]. Qed.
Lemma sf_contact : sf kx_contact. Proof. apply sf_idem, contact_fixed. Qed.
#[export] Hint Resolve sf_contact : sf.
Lemma filter_fixed {A} (f : A -> A) (p : A -> bool) l :
  (forall x, f (f x) = f x) -> (forall x, p (f x) = p x) ->
  map f (filter p (map f (filter p l))) = map f (filter p l).
Proof.
  intros H P. induction l as [|a l IH]; [reflexivity|]. cbn [filter]. destruct (p a) eqn:E; [|exact IH].
  cbn [map filter]. rewrite P, E. cbn [map]. now rewrite H, IH.
Qed.
Definition kx_contacts l := map kx_contact (filter contact_has_data l).
Lemma sf_contacts : sf kx_contacts.
Proof. apply sf_idem. intros l. apply filter_fixed; [exact contact_fixed | exact contact_data]. Qed.
#[export] Hint Resolve sf_contacts : sf.
Lemma entity_fixed x : kx_entity (kx_entity x) = kx_entity x.
Proof.
  unfold kx_entity. cbn. destruct x as [r n u c]; cbn. unfold trimo, some_items. f_equal.
  - destruct n; cbn; now rewrite ?xtrim_twice.
  - destruct u as [[|a l]|]; try reflexivity. cbn. rewrite xtrim_twice, map_map. do 2 f_equal. apply map_ext, xtrim_twice.
  - destruct c as [l|]; [|reflexivity]. cbn. pose proof (filter_fixed kx_contact contact_has_data l contact_fixed contact_data) as F.
    destruct (filter contact_has_data l) as [|a m]; [reflexivity|]. cbn [map] in *.
    destruct (filter contact_has_data (kx_contact a :: map kx_contact m)) as [|b n'] eqn:E; [discriminate F|].
    cbn [option_map]. rewrite E. now rewrite <- F.
Qed.
Lemma sf_entity : sf kx_entity. Proof. apply sf_idem, entity_fixed. Qed.
#[export] Hint Resolve sf_entity : sf.
Arguments kx_entity : simpl never.
Arguments kx_contact : simpl never.
Arguments entity_has_data : simpl never.
Definition kx_data_entity (o : option entity) := option_map kx_entity (only_if entity_has_data o).
Lemma sf_data_entity : sf kx_data_entity.
Proof.
  intros [e|]; [|reflexivity]. unfold kx_data_entity, only_if. destruct (entity_has_data e) eqn:E; [|reflexivity]. cbn [option_map].
  destruct (entity_has_data (kx_entity e)) eqn:E'; [|reflexivity]. cbn [option_map]. rewrite !entity_fixed, E'. cbn [option_map].
  now rewrite entity_fixed.
Qed.
#[export] Hint Resolve sf_data_entity : sf.
Lemma sf_filtered_entities : sf (fun l => map kx_entity (filter entity_has_data l)).
Proof.
  intros l. induction l as [|e l IH]; [reflexivity|]. cbn [filter]. destruct (entity_has_data e) eqn:E; [|exact IH].
  cbn [map filter]. destruct (entity_has_data (kx_entity e)) eqn:E'; [|exact IH].
  cbn [map filter]. rewrite entity_fixed, E'. cbn [map]. rewrite entity_fixed. f_equal. exact IH.
Qed.
#[export] Hint Resolve sf_filtered_entities : sf.

Lemma sf_uri : sf kx_uri.
Proof.
  apply sf_idem. intros x. unfold kx_uri, kept_uri.
  destruct x as [s|s]; destruct (starts_with "urn:cdx" (xtrim s)) eqn:E; now rewrite xtrim_twice, E.
Qed.
#[export] Hint Resolve sf_uri : sf.
Arguments kx_uri : simpl never.
Lemma sf_external_reference : sf kx_external_reference. Proof. sfr kx_external_reference. Qed.
Lemma sf_signer : sf kx_signer. Proof. sfr kx_signer. Qed.
#[export] Hint Resolve sf_external_reference sf_signer : sf.
Arguments kx_signer : simpl never.
Lemma sf_signature : sf kx_signature. Proof. sfr kx_signature. Qed.
Lemma sf_action : sf kx_action. Proof. sfr kx_action. Qed.
#[export] Hint Resolve sf_signature sf_action : sf.
Lemma sf_commit : sf kx_commit. Proof. sfr kx_commit. Qed.
Lemma sf_source : sf (fun o => option_map kx_source (only_if source_has_data o)).
Proof. apply sf_idem. unfold only_if, kx_source, trimo. intros [[[] []]|]; cbn; now rewrite ?xtrim_twice. Qed.
#[export] Hint Resolve sf_commit sf_source : sf.
Definition kx_sources (o : option source) := option_map kx_source (only_if source_has_data o).
Lemma sf_sources : sf kx_sources. Proof. exact sf_source. Qed.
#[export] Hint Resolve sf_sources : sf.
Arguments kx_sources : simpl never.
Lemma sf_issue : sf kx_issue.
Proof.
  intros x. unfold kx_issue. fold (kx_sources (is_source x)). destruct x; cbn.
  repeat match goal with |- context [option_map kx_source (only_if source_has_data ?o)] => fold (kx_sources o) end. sfs. reflexivity.
Qed.
#[export] Hint Resolve sf_issue : sf.
Lemma sf_responsible_party : sf kx_responsible_party. Proof. sfr kx_responsible_party. Qed.
#[export] Hint Resolve sf_responsible_party : sf.
Lemma sf_governance : sf kx_governance. Proof. sfr kx_governance. Qed.
Lemma sf_approach : sf kx_approach. Proof. sfr kx_approach. Qed.
Lemma sf_ml_parameter : sf kx_ml_parameter. Proof. sfr kx_ml_parameter. Qed.
Lemma sf_interval : sf kx_interval. Proof. sfr kx_interval. Qed.
#[export] Hint Resolve sf_governance sf_approach sf_ml_parameter sf_interval : sf.
Lemma sf_metric : sf kx_metric. Proof. sfr kx_metric. Qed.
Lemma sf_dclassification : sf kx_classification. Proof. sfr kx_classification. Qed.
#[export] Hint Resolve sf_metric sf_dclassification : sf.
Arguments kx_classification : simpl never.
Lemma sf_tool v : sf (kx_tool v). Proof. sfr kx_tool. Qed.
Arguments kx_phase : simpl never.
Lemma sf_lifecycle : sf kx_lifecycle. Proof. sfr kx_lifecycle. Qed.
Arguments kx_aggregate_type : simpl never.
Lemma sf_composition v : sf (kx_composition v). Proof. sfr kx_composition. Qed.
Lemma sf_vuln_source : sf kx_vuln_source. Proof. sfr kx_vuln_source. Qed.
#[export] Hint Resolve sf_tool sf_lifecycle sf_composition sf_vuln_source : sf.
Arguments kx_vuln_source : simpl never.
Lemma sf_vuln_reference : sf kx_vuln_reference. Proof. sfr kx_vuln_reference. Qed.
Lemma sf_rating : sf kx_rating. Proof. sfr kx_rating. Qed.
Lemma sf_advisory : sf kx_advisory. Proof. sfr kx_advisory. Qed.
#[export] Hint Resolve sf_vuln_reference sf_rating sf_advisory : sf.
Lemma sf_credits : sf kx_credits.
Proof.
  intros x. unfold kx_credits. destruct x as [o i]; cbn. f_equal; [exact (sf_om _ sf_filtered_entities o)|exact (sf_om _ sf_contacts i)].
Qed.
Lemma sf_analysis v : sf (kx_analysis v). Proof. sfr kx_analysis. Qed.
#[export] Hint Resolve sf_credits sf_analysis : sf.
Lemma sf_environment_var : sf kx_environment_var. Proof. sfr kx_environment_var. Qed.
Lemma sf_command : sf kx_command. Proof. sfr kx_command. Qed.
#[export] Hint Resolve sf_environment_var sf_command : sf.
Lemma sf_step : sf kx_step. Proof. sfr kx_step. Qed.
Arguments kx_volume_mode : simpl never.
Lemma sf_volume : sf kx_volume. Proof. sfr kx_volume. Qed.
Lemma sf_condition : sf kx_condition. Proof. sfr kx_condition. Qed.
#[export] Hint Resolve sf_step sf_volume sf_condition : sf.

(** ** Values that may not be read back *)
Arguments each : simpl never.
Arguments maybe : simpl never.
Arguments gate : simpl never.
Arguments nonblank : simpl never.
Lemma st_pure {A} (f : A -> A) : sf f -> st (fun x => Some (f x)).
Proof. intros H x y E. injection E as <-. exists (f (f x)). now rewrite H. Qed.
Lemma st_data {A} (k : A -> option A) (p : A -> bool) :
  (forall x y, k x = Some y -> p y = p x) -> st k -> st (fun o => maybe k (only_if p o)).
Proof.
  intros P H [x|] y E; [|injection E as <-; exists None; split; reflexivity].
  cbn [only_if] in E. unfold only_if in E. destruct (p x) eqn:Px; [|injection E as <-; exists None; split; reflexivity].
  unfold maybe in E. destruct (k x) as [x1|] eqn:K; [|discriminate]. injection E as <-.
  destruct (H x x1 K) as (z & Z1 & Z2). exists (Some z). unfold only_if.
  rewrite (P x x1 K), Px. unfold maybe. rewrite Z1. cbn. rewrite (P x1 z Z1), (P x x1 K), Px. cbn. now rewrite Z2.
Qed.
Ltac lets H :=
  repeat match type of H with
  | bindo ?e _ = Some _ => let b := fresh "b" in let E := fresh "E" in destruct e as [b|] eqn:E; [cbn [bindo] in H|discriminate H]
  end; injection H as <-.
Ltac sd := fail.
Ltac step E :=
  let z := fresh "z" in let Z1 := fresh "Z1" in let Z2 := fresh "Z2" in
  match type of E with
  | maybe ?k (only_if ?p ?o) = Some ?b =>
      let HS := fresh in assert (HS : st (fun w => maybe k (only_if p w))) by sd;
      destruct (HS o b E) as (z & Z1 & Z2); cbv beta in Z1, Z2; clear HS E; revert Z1 Z2
  | gate ?a ?v (maybe ?k ?o) = Some ?b =>
      let HS := fresh in assert (HS : st (fun w => gate a v (maybe k w))) by (apply st_gate; auto with sf);
      destruct (HS o b E) as (z & Z1 & Z2); cbv beta in Z1, Z2; clear HS E; revert Z1 Z2
  | ?k ?x = Some ?b =>
      let HS := fresh in assert (HS : st k) by (auto with sf);
      destruct (HS x b E) as (z & Z1 & Z2); clear HS E; revert Z1 Z2
  end.
Ltac steps := repeat match goal with E : _ = Some _ |- _ => step E end; intros.
Ltac zs := repeat match goal with H : ?l = Some _ |- context [?l] => rewrite H; cbn [bindo] end.
Ltac str k :=
  let x := fresh in let y := fresh in let E := fresh in
  intros x y E; unfold k in E; lets E; steps; unfold k; destruct x; cbn in *;
  eexists; split; [zs; reflexivity|]; cbn; zs; sfs; reflexivity.

Lemma st_attached_text : st kx_attached_text. Proof. str kx_attached_text. Qed.
#[export] Hint Resolve st_attached_text : sf.
Lemma st_attachment : st kx_attachment.
Proof.
  intros [c e t] y E. unfold kx_attachment in E. cbn in E. destruct (nonblank c) as [d|] eqn:N; [|destruct e, t; discriminate].
  step N. intros. unfold kx_attachment.
  destruct e as [e|], t as [t|]; try discriminate; injection E as <-; cbn; zs; eexists; split; try reflexivity; cbn; zs; reflexivity.
Qed.
#[export] Hint Resolve st_attachment : sf.
Lemma st_license_identifier : st kx_license_identifier.
Proof.
  intros [s|s] y E; cbn in E; lets E; steps; cbn; zs; eexists; split; try reflexivity; cbn; zs; reflexivity.
Qed.
#[export] Hint Resolve st_license_identifier : sf.
Lemma st_license v : st (kx_license v). Proof. str kx_license. Qed.
#[export] Hint Resolve st_license : sf.
Arguments kx_license : simpl never.
Lemma st_license_choice v : st (kx_license_choice v).
Proof.
  intros [l|r s] y E; cbn in E; [lets E; steps|injection E as <-]; cbn; zs; eexists; split; try reflexivity; cbn; zs; sfs; reflexivity.
Qed.
#[export] Hint Resolve st_license_choice : sf.
Lemma st_licenses v : st (kx_licenses v).
Proof. unfold kx_licenses. apply st_maybe, st_each, st_license_choice. Qed.
#[export] Hint Resolve st_licenses : sf.
Arguments kx_licenses : simpl never.
Lemma st_diff : st kx_diff. Proof. str kx_diff. Qed.
#[export] Hint Resolve st_diff : sf.
Lemma st_data_diff : st (fun o => maybe kx_diff (only_if diff_has_data o)).
Proof.
  apply st_data; [|exact st_diff]. intros [t u] y E. unfold kx_diff in E. cbn in E. unfold maybe in E.
  destruct t as [t|]; [destruct (kx_attached_text t); [|discriminate]|]; injection E as <-; [reflexivity|]. now destruct u.
Qed.
Ltac sd ::= exact st_data_diff.
Lemma st_patch : st kx_patch. Proof. str kx_patch. Qed.
#[export] Hint Resolve st_patch : sf.
Lemma st_graphic : st kx_graphic. Proof. str kx_graphic. Qed.
#[export] Hint Resolve st_graphic : sf.
Lemma st_graphics : st kx_graphics. Proof. str kx_graphics. Qed.
Lemma st_contents : st kx_contents. Proof. str kx_contents. Qed.
#[export] Hint Resolve st_graphics st_contents : sf.
Lemma st_component_data : st kx_component_data. Proof. str kx_component_data. Qed.
#[export] Hint Resolve st_component_data : sf.
Arguments kx_component_data : simpl never.
Lemma st_dataset : st kx_dataset.
Proof. intros [c|s] y E; cbn in E; [|discriminate]; lets E; steps; cbn; zs; eexists; split; try reflexivity; cbn; zs; reflexivity. Qed.
#[export] Hint Resolve st_dataset : sf.
Lemma st_model_parameters : st kx_model_parameters. Proof. str kx_model_parameters. Qed.
Lemma st_quantitative : st kx_quantitative. Proof. str kx_quantitative. Qed.
#[export] Hint Resolve st_model_parameters st_quantitative : sf.
Lemma st_model_card : st kx_model_card. Proof. str kx_model_card. Qed.
#[export] Hint Resolve st_model_card : sf.
Lemma st_evidence v : st (kx_evidence v). Proof. str kx_evidence. Qed.
#[export] Hint Resolve st_evidence : sf.
Lemma st_data_evidence v : st (fun o => maybe (kx_evidence v) (only_if evidence_has_data o)).
Proof.
  apply st_data; [|exact (st_evidence v)]. intros [l c o s i] y E. unfold kx_evidence in E. cbn in E. unfold kx_licenses, maybe in E.
  destruct l as [l|]; [destruct (each _ l); [|discriminate]|]; injection E as <-; reflexivity.
Qed.
Lemma st_swid : st kx_swid. Proof. str kx_swid. Qed.
Ltac sd ::= exact (st_data_evidence _).
#[export] Hint Resolve st_swid : sf.
Lemma st_resource : st kx_resource.
Proof. intros [s|s] y E; cbn in E; [|discriminate]; injection E as <-; cbn; eexists; split; try reflexivity; cbn; sfs; reflexivity. Qed.
#[export] Hint Resolve st_resource : sf.
Arguments kx_resource : simpl never.
Arguments kx_attachment : simpl never.

Lemma st_input : st kx_input.
Proof.
  intros [r s t p] y E. unfold kx_input in E. cbn in E.
  destruct r as [r| |l|a]; cbn in E; try discriminate; [lets E; lets E0|lets E|lets E; lets E0]; steps; unfold kx_input; cbn; zs; eexists; split; try reflexivity; cbn; zs; sfs; reflexivity.
Qed.
Lemma st_output : st kx_output.
Proof.
  intros [r o s t p] y E. unfold kx_output in E. cbn in E.
  destruct r as [r|l|a]; cbn in E; try discriminate; [lets E; lets E0|lets E|lets E; lets E0]; steps; unfold kx_output; cbn; zs; eexists; split; try reflexivity; cbn; zs; sfs; reflexivity.
Qed.
#[export] Hint Resolve st_input st_output : sf.
Lemma st_workspace : st kx_workspace. Proof. str kx_workspace. Qed.
Lemma st_event : st kx_event. Proof. str kx_event. Qed.
#[export] Hint Resolve st_workspace st_event : sf.
Lemma st_trigger : st kx_trigger. Proof. str kx_trigger. Qed.
Lemma st_task : st kx_task. Proof. intros x y E. discriminate. Qed.
#[export] Hint Resolve st_trigger st_task : sf.
Lemma st_workflow : st kx_workflow. Proof. str kx_workflow. Qed.
#[export] Hint Resolve st_workflow : sf.
Lemma st_version_status : st kx_version_status.
Proof.
  intros [[s|s|s] t] y E; cbn in E; try discriminate; injection E as <-; cbn; eexists; split; try reflexivity; cbn; sfs; reflexivity.
Qed.
#[export] Hint Resolve st_version_status : sf.
Lemma st_target : st kx_target. Proof. str kx_target. Qed.
#[export] Hint Resolve st_target : sf.

(** ** Components and services *)
Arguments kx_component : simpl never.
Arguments version_leb : simpl never.
Arguments kx_service : simpl never.
Arguments kx_pedigree : simpl never.
Lemma st_list_at {A} (k : A -> option A) o : (forall a, In a (olist o) -> st_at k a) -> st_at (maybe (each k)) o.
Proof. intros H. apply st_maybe_at. intros l ->. apply st_each_at. exact H. Qed.
Lemma st_pedigree_at {C} (k : C -> option C) p :
  st_at (maybe (each k)) (pd_ancestors p) -> st_at (maybe (each k)) (pd_descendants p) ->
  st_at (maybe (each k)) (pd_variants p) -> st_at (kx_pedigree k) p.
Proof.
  intros HA HD HV y E. unfold kx_pedigree in E. lets E.
  destruct (HA _ E0) as (a & A1 & A2). destruct (HD _ E1) as (d & D1 & D2). destruct (HV _ E2) as (w & W1 & W2).
  clear E0 E1 E2. step E3. intros. clear HA HD HV. unfold kx_pedigree. destruct p; cbn in *.
  eexists; split; [zs; reflexivity|]; cbn; zs; sfs; reflexivity.
Qed.
Lemma version_settles v o b :
  match trimo o with None => if version_leb V1_4 v then Some None else None | Some s => Some (Some s) end = Some b ->
  match trimo b with None => if version_leb V1_4 v then Some None else None | Some s => Some (Some s) end = Some b.
Proof.
  unfold trimo. destruct o as [s|]; cbn [option_map]; [intros E; injection E as <-; cbn [option_map]; now rewrite xtrim_twice|].
  destruct (version_leb V1_4 v) eqn:V; [|discriminate]. intros E; injection E as <-. cbn [option_map]. now rewrite ?V.
Qed.
Lemma st_component v : st (kx_component v).
Proof.
  intros x. induction x as [x IHc IHp] using component_ind'. intros y E. rewrite kx_component_eq in E. lets E.
  destruct (st_list_at _ _ IHc _ E3) as (cs & Z1 & Z2).
  assert (HP : st_at (maybe (kx_pedigree (kx_component v))) (c_pedigree x)).
  { apply st_maybe_at. intros p Ep. destruct (IHp p Ep) as (A & D & W).
    apply st_pedigree_at; apply st_list_at; assumption. }
  destruct (HP _ E2) as (pe & P1 & P2). pose proof (version_settles _ _ _ E7) as V1.
  clear HP IHc IHp E2 E3 E7. revert Z1 Z2 P1 P2 V1.
  steps. destruct x.
  eexists; split; [rewrite kx_component_eq; cbn; zs; reflexivity|]. rewrite kx_component_eq; cbn; zs.
  fold (kx_data_entity c_supplier).
  repeat match goal with |- context [option_map kx_entity (only_if entity_has_data ?o)] => fold (kx_data_entity o) end.
  sfs. reflexivity.
Qed.
#[export] Hint Resolve st_component : sf.

Lemma st_service_data : st kx_service_data.
Proof.
  intros [n d c g s t] y E. unfold kx_service_data in *. cbn in *.
  destruct n as [n|], d as [d|]; cbn in E; try discriminate; injection E as <-; cbn; eexists; (split; [reflexivity|]); cbn; sfs; reflexivity.
Qed.
#[export] Hint Resolve st_service_data : sf.
Lemma each_empty {A B} (k : A -> option B) l : each k l = Some [] -> l = [].
Proof. unfold each. destruct l as [|a l]; [reflexivity|]. cbn. destruct (k a); [|discriminate]. cbn. destruct (_ l); discriminate. Qed.
Lemma st_sdata v : st (kx_data v).
Proof.
  intros [l|l] y E; cbn in E.
  2: { injection E as <-. cbn. eexists; split; [reflexivity|]. cbn. sfs. reflexivity. }
  - unfold kx_data in *. destruct (version_leb V1_5 v) eqn:V.
    + destruct (each kx_service_data l) as [m|] eqn:Em; [|discriminate]. cbn [bindo] in E. injection E as <-.
      destruct (st_each _ st_service_data _ _ Em) as (z & Z1 & Z2).
      destruct m as [|a m]; [exists (DClassification []); split; reflexivity|].
      destruct z as [|b z]; [apply each_empty in Z1; discriminate|].
      exists (DServiceData (b :: z)). rewrite Z1. cbn [bindo]. rewrite ?V, Z2. split; reflexivity.
    + injection E as <-. eexists; split; [reflexivity|]. cbn. rewrite !map_map. do 2 f_equal. apply map_ext.
      intros d. apply sf_dclassification.
Qed.
#[export] Hint Resolve st_sdata : sf.
Arguments kx_data : simpl never.
Lemma st_service v : st (kx_service v).
Proof.
  intros x. induction x as [x IH] using service_ind'. intros y E. rewrite kx_service_eq in E. lets E.
  destruct (st_list_at _ _ IH _ E2) as (ss & Z1 & Z2). clear IH E2. revert Z1 Z2.
  steps. destruct x.
  eexists; split; [rewrite kx_service_eq; cbn; zs; reflexivity|]. rewrite kx_service_eq; cbn; zs. sfs. reflexivity.
Qed.
#[export] Hint Resolve st_service : sf.

(** ** The rest *)
Lemma st_tools v : st (kx_tools v).
Proof.
  intros x y E. unfold kx_tools in *. destruct x as [[|t l]|s c].
  - destruct (version_leb V1_5 v) eqn:V; injection E as <-.
    + exists (TObject None None). rewrite ?V. split; reflexivity.
    + exists (TList []). rewrite ?V. split; reflexivity.
  - injection E as <-. eexists; split; [reflexivity|]. cbn [map]. f_equal. f_equal. exact (sf_map _ (sf_tool v) (t :: l)).
  - destruct (version_leb V1_5 v) eqn:V.
    + lets E. steps. exists (TObject z0 z). rewrite ?V. zs. split; reflexivity.
    + injection E as <-. exists (TList []). rewrite ?V. split; reflexivity.
Qed.
#[export] Hint Resolve st_tools : sf.
Lemma sf_om_contacts : sf (option_map (fun l => map kx_contact (filter contact_has_data l))).
Proof. exact (sf_om _ sf_contacts). Qed.
#[export] Hint Resolve sf_om_contacts : sf.
Lemma st_metadata v : st (kx_metadata v). Proof. str kx_metadata. Qed.
#[export] Hint Resolve st_metadata : sf.
Lemma detail_settles o : bindo (bindo (bindo o nonblank) nonblank) nonblank = bindo (bindo o nonblank) nonblank.
Proof.
  destruct o as [s|]; [|reflexivity]. cbn [bindo]. destruct (nonblank s) as [t|] eqn:E; [|reflexivity].
  destruct (st_nonblank s t E) as (z & Z1 & Z2). cbn [bindo]. rewrite Z1. exact Z2.
Qed.
Lemma st_vulnerability v : st (kx_vulnerability v).
Proof.
  intros x y E. unfold kx_vulnerability in E. lets E. steps. unfold kx_vulnerability. destruct x. cbn -[bindo] in *.
  eexists; split; [zs; reflexivity|]; cbn -[bindo]; zs; rewrite detail_settles; sfs; reflexivity.
Qed.
Lemma st_formula v : st (kx_formula v). Proof. str kx_formula. Qed.
#[export] Hint Resolve st_vulnerability st_formula : sf.
Theorem st_bom v : st (kx_bom v). Proof. str kx_bom. Qed.

(** Where a written JSON document has nulls, and that no object has a name twice: proofs. *)
From Verif Require Import Base ModelTypes Enums Json JsonLemmas JsonModel JsonSpec JsonProofs JsonForm JsonFormProofs NullSpec.
Open Scope string_scope.
Open Scope list_scope.

(** nulls only at the places [B], and no name twice in an object *)
Definition okB (B : list string -> Prop) (j : json) : Prop :=
  forall p x, found p j x -> (x = JNull -> B p) /\ (forall l, x = JObj l -> NoDup (map fst l)).

Fixpoint nodup_names (l : list string) : bool :=
  match l with [] => true | k :: r => negb (existsb (String.eqb k) r) && nodup_names r end.
Lemma nodup_names_ok l : nodup_names l = true -> NoDup l.
Proof.
  induction l as [|k l IH]; cbn; [constructor|]. intros H. apply andb_true_iff in H as [N H]. constructor; [|auto].
  apply negb_true_iff in N. intros I. assert (E : existsb (String.eqb k) l = true) by (apply existsb_exists; exists k; split; [assumption|apply String.eqb_refl]).
  rewrite E in N. discriminate N.
Qed.
Lemma present_nodup ms : NoDup (map fst ms) -> NoDup (map fst (flat_map (fun m : string * option json => match snd m with Some j => [(fst m, j)] | None => [] end) ms)).
Proof.
  induction ms as [|[k [j|]] ms IH]; cbn [map flat_map fst snd app]; intros H; [constructor| |].
  - inversion H; subst. constructor; [|auto]. intros I. apply H2. apply in_map_iff in I as ([k' j'] & E & I). cbn in E. subst k'.
    apply in_flat_map in I as ([k0 [j0|]] & I & F); cbn in F; [destruct F as [[= -> ->]|[]]|destruct F]. apply in_map_iff. now exists (k, Some j').
  - inversion H; auto.
Qed.

Lemma ok_weaken (B C : list string -> Prop) j : (forall p, B p -> C p) -> okB B j -> okB C j.
Proof. intros H K p x F. destruct (K p x F) as [K1 K2]. auto. Qed.
Lemma ok_leaf B j : match j with JNull | JArr _ | JObj _ => False | _ => True end -> okB B j.
Proof. intros H p x F. destruct j; try contradiction; inversion F; subst; split; discriminate. Qed.
Lemma ok_str B s : okB B (JStr s).
Proof. now apply ok_leaf. Qed.
Lemma ok_null (B : list string -> Prop) : B [] -> okB B JNull.
Proof. intros H p x F. inversion F; subst. split; [auto|discriminate]. Qed.
Lemma ok_each {A} B (f : A -> json) l : (forall a, In a l -> okB B (f a)) -> okB B (each f l).
Proof.
  intros H p x F. unfold each in F. inversion F as [| |y l' p' z I F']; subst; [split; discriminate|].
  apply in_map_iff in I as (a & <- & I). exact (H a I p x F').
Qed.
Definition ok_member (B : list string -> Prop) (m : string * option json) : Prop :=
  forall j, snd m = Some j -> okB (fun p => B (fst m :: p)) j.
Lemma ok_object B ms : nodup_names (map fst ms) = true -> Forall (ok_member B) ms -> okB B (object ms).
Proof.
  intros N H p x F. unfold object in F. inversion F as [j|k y l p' z I F'|]; subst.
  - split; [discriminate|]. intros l [= <-]. apply present_nodup. now apply nodup_names_ok.
  - apply in_flat_map in I as ([k0 [j0|]] & I & E); cbn in E; [destruct E as [[= <- <-]|[]]|destruct E].
    rewrite Forall_forall in H. exact (H _ I j0 eq_refl p' x F').
Qed.
Lemma ok_must B k j : okB (fun p => B (k :: p)) j -> ok_member B (must k j).
Proof. intros H j' [= <-]. exact H. Qed.
Lemma ok_may {A} B k (f : A -> json) o : (forall a, o = Some a -> okB (fun p => B (k :: p)) (f a)) -> ok_member B (may k f o).
Proof. intros H j E. destruct o as [a|]; [|discriminate]. injection E as <-. now apply H. Qed.
Lemma ok_since B v a m : (version_leb a v = true -> ok_member B m) -> ok_member B (since_ v a m).
Proof. intros H. unfold since_. destruct (version_leb a v); [now apply H|]. intros j E. discriminate E. Qed.
Lemma since_name v a m : fst (since_ v a m) = fst m.
Proof. unfold since_. now destruct (version_leb a v). Qed.
Lemma ok_number (B : list string -> Prop) f : B [] -> okB B (jf_f32 f).
Proof. intros H. destruct f; try (now apply ok_null). now apply ok_leaf. Qed.

Ltac weaken := eapply ok_weaken; [|solve [auto with nulls nocore]]; intros; repeat match goal with H : forall k p, ?A p -> ?A (k :: p) |- _ => apply H end; assumption.
Ltac value :=
  intros; cbv beta;
  first [ solve [apply ok_str] | solve [apply ok_leaf; exact I] | solve [weaken] | solve [eauto]
        | solve [apply ok_each; value] | idtac ].
Ltac member :=
  first [ apply ok_since; intros; member | apply ok_must; value | apply ok_may; value | idtac ].
Ltac members := rewrite ?since_name; apply ok_object; [cbn [map]; rewrite ?since_name; vm_compute; reflexivity|];
  repeat (apply Forall_cons; [member|]); try apply Forall_nil.

Section OK.
Variables (v : spec_version) (A : list string -> Prop).
Hypothesis closed : forall k p, A p -> A (k :: p).
Local Notation ok := (okB A).
#[local] Hint Resolve ok_str : nulls.

Lemma ok_attached_text x : ok (jf_attached_text x).
Proof. unfold jf_attached_text. members. Qed.
#[local] Hint Resolve ok_attached_text : nulls.
Lemma ok_attachment x : ok (jf_attachment x).
Proof. unfold jf_attachment. members. Qed.
#[local] Hint Resolve ok_attachment : nulls.
Lemma ok_hash x : ok (jf_hash x).
Proof. unfold jf_hash. members. Qed.
#[local] Hint Resolve ok_hash : nulls.
Lemma ok_property x : ok (jf_property x).
Proof. unfold jf_property. members. Qed.
#[local] Hint Resolve ok_property : nulls.
Lemma ok_contact x : ok (jf_contact false v x).
Proof. unfold jf_contact, later_ref. members. Qed.
#[local] Hint Resolve ok_contact : nulls.
Lemma ok_entity x : ok (jf_entity false v x).
Proof. unfold jf_entity, later_ref. members. Qed.
#[local] Hint Resolve ok_entity : nulls.
Lemma ok_uri x : ok (jf_uri x).
Proof. unfold jf_uri. destruct x; first [solve [value] | members]. Qed.
#[local] Hint Resolve ok_uri : nulls.
Lemma ok_external_reference x : ok (jf_external_reference false x).
Proof. unfold jf_external_reference. members. Qed.
#[local] Hint Resolve ok_external_reference : nulls.
Lemma ok_algorithm x : ok (jf_algorithm false x).
Proof. unfold jf_algorithm. destruct x; first [solve [value] | members]. Qed.
#[local] Hint Resolve ok_algorithm : nulls.
Lemma ok_signer x : ok (jf_signer false x).
Proof. unfold jf_signer. members. Qed.
#[local] Hint Resolve ok_signer : nulls.
Lemma ok_signature x : ok (jf_signature false x).
Proof. unfold jf_signature. destruct x; first [solve [value] | members]. Qed.
#[local] Hint Resolve ok_signature : nulls.
Lemma ok_license_contact x : ok (jf_license_contact false v x).
Proof. unfold jf_license_contact. destruct x; first [solve [value] | members]. Qed.
#[local] Hint Resolve ok_license_contact : nulls.
Lemma ok_identifiable_action x : ok (jf_identifiable_action x).
Proof. unfold jf_identifiable_action. members. Qed.
#[local] Hint Resolve ok_identifiable_action : nulls.
Lemma ok_commit x : ok (jf_commit x).
Proof. unfold jf_commit. members. Qed.
#[local] Hint Resolve ok_commit : nulls.
Lemma ok_diff x : ok (jf_diff x).
Proof. unfold jf_diff. members. Qed.
#[local] Hint Resolve ok_diff : nulls.
Lemma ok_source x : ok (jf_source x).
Proof. unfold jf_source. members. Qed.
#[local] Hint Resolve ok_source : nulls.
Lemma ok_issue x : ok (jf_issue x).
Proof. unfold jf_issue. members. Qed.
#[local] Hint Resolve ok_issue : nulls.
Lemma ok_patch x : ok (jf_patch x).
Proof. unfold jf_patch. members. Qed.
#[local] Hint Resolve ok_patch : nulls.
Lemma ok_responsible_party x : ok (jf_responsible_party false v x).
Proof. unfold jf_responsible_party. destruct x; first [solve [value] | members]. Qed.
#[local] Hint Resolve ok_responsible_party : nulls.
Lemma ok_data_governance x : ok (jf_data_governance false v x).
Proof. unfold jf_data_governance. members. Qed.
#[local] Hint Resolve ok_data_governance : nulls.
Lemma ok_data_contents x : ok (jf_data_contents x).
Proof. unfold jf_data_contents. members. Qed.
#[local] Hint Resolve ok_data_contents : nulls.
Lemma ok_graphic x : ok (jf_graphic x).
Proof. unfold jf_graphic. members. Qed.
#[local] Hint Resolve ok_graphic : nulls.
Lemma ok_graphics_collection x : ok (jf_graphics_collection x).
Proof. unfold jf_graphics_collection. members. Qed.
#[local] Hint Resolve ok_graphics_collection : nulls.
Lemma ok_component_data x : ok (jf_component_data false v x).
Proof. unfold jf_component_data, ref_name. members. Qed.
#[local] Hint Resolve ok_component_data : nulls.
Lemma ok_approach x : ok (jf_approach x).
Proof. unfold jf_approach. members. Qed.
#[local] Hint Resolve ok_approach : nulls.
Lemma ok_dataset x : ok (jf_dataset false v x).
Proof. unfold jf_dataset. destruct x; first [solve [value] | members]. Qed.
#[local] Hint Resolve ok_dataset : nulls.
Lemma ok_ml_parameter x : ok (jf_ml_parameter x).
Proof. unfold jf_ml_parameter. members. Qed.
#[local] Hint Resolve ok_ml_parameter : nulls.
Lemma ok_model_parameters x : ok (jf_model_parameters false v x).
Proof. unfold jf_model_parameters. members. Qed.
#[local] Hint Resolve ok_model_parameters : nulls.
Lemma ok_confidence_interval x : ok (jf_confidence_interval x).
Proof. unfold jf_confidence_interval. members. Qed.
#[local] Hint Resolve ok_confidence_interval : nulls.
Lemma ok_performance_metric x : ok (jf_performance_metric false x).
Proof. unfold jf_performance_metric. members. Qed.
#[local] Hint Resolve ok_performance_metric : nulls.
Lemma ok_quantitative_analysis x : ok (jf_quantitative_analysis false x).
Proof. unfold jf_quantitative_analysis. members. Qed.
#[local] Hint Resolve ok_quantitative_analysis : nulls.
Lemma ok_considerations x : ok (jf_considerations x).
Proof. unfold jf_considerations. members. Qed.
#[local] Hint Resolve ok_considerations : nulls.
Lemma ok_model_card x : ok (jf_model_card false v x).
Proof. unfold jf_model_card, ref_name. members. Qed.
#[local] Hint Resolve ok_model_card : nulls.
Lemma ok_occurrence x : ok (jf_occurrence false x).
Proof. unfold jf_occurrence, ref_name. members. Qed.
#[local] Hint Resolve ok_occurrence : nulls.
Lemma ok_frame x : ok (jf_frame x).
Proof. unfold jf_frame. members. Qed.
#[local] Hint Resolve ok_frame : nulls.
Lemma ok_callstack x : ok (jf_callstack x).
Proof. unfold jf_callstack. members. Qed.
#[local] Hint Resolve ok_callstack : nulls.
Lemma ok_copyright x : ok (jf_copyright x).
Proof. unfold jf_copyright. members. Qed.
#[local] Hint Resolve ok_copyright : nulls.
Lemma ok_swid x : ok (jf_swid x).
Proof. unfold jf_swid. members. Qed.
#[local] Hint Resolve ok_swid : nulls.
Lemma ok_data_classification x : ok (jf_data_classification x).
Proof. unfold jf_data_classification. members. Qed.
#[local] Hint Resolve ok_data_classification : nulls.
Lemma ok_service_data x : ok (jf_service_data false v x).
Proof. unfold jf_service_data. members. Qed.
#[local] Hint Resolve ok_service_data : nulls.
Lemma ok_tool x : ok (jf_tool false v x).
Proof. unfold jf_tool. members. Qed.
#[local] Hint Resolve ok_tool : nulls.
Lemma ok_lifecycle x : ok (jf_lifecycle x).
Proof. unfold jf_lifecycle. destruct x; first [solve [value] | members]. Qed.
#[local] Hint Resolve ok_lifecycle : nulls.
Lemma ok_dependency x : ok (jf_dependency x).
Proof. unfold jf_dependency. members. Qed.
#[local] Hint Resolve ok_dependency : nulls.
Lemma ok_composition x : ok (jf_composition false v x).
Proof. unfold jf_composition, ref_name. members. Qed.
#[local] Hint Resolve ok_composition : nulls.
Lemma ok_vuln_source x : ok (jf_vuln_source x).
Proof. unfold jf_vuln_source. members. Qed.
#[local] Hint Resolve ok_vuln_source : nulls.
Lemma ok_vuln_reference x : ok (jf_vuln_reference x).
Proof. unfold jf_vuln_reference. members. Qed.
#[local] Hint Resolve ok_vuln_reference : nulls.
Lemma ok_advisory x : ok (jf_advisory x).
Proof. unfold jf_advisory. members. Qed.
#[local] Hint Resolve ok_advisory : nulls.
Lemma ok_vuln_credits x : ok (jf_vuln_credits false v x).
Proof. unfold jf_vuln_credits. members. Qed.
#[local] Hint Resolve ok_vuln_credits : nulls.
Lemma ok_vuln_analysis x : ok (jf_vuln_analysis false v x).
Proof. unfold jf_vuln_analysis. members. Qed.
#[local] Hint Resolve ok_vuln_analysis : nulls.
Lemma ok_version_status x : ok (jf_version_status x).
Proof. unfold jf_version_status. destruct (ve_range x); cbn [jf_version_range]; members. Qed.
#[local] Hint Resolve ok_version_status : nulls.
Lemma ok_vuln_target x : ok (jf_vuln_target x).
Proof. unfold jf_vuln_target. members. Qed.
#[local] Hint Resolve ok_vuln_target : nulls.
Lemma ok_proof_of_concept x : ok (jf_proof_of_concept x).
Proof. unfold jf_proof_of_concept. members. Qed.
#[local] Hint Resolve ok_proof_of_concept : nulls.
Lemma ok_resource_reference x : ok (jf_resource_reference false x).
Proof. unfold jf_resource_reference. destruct x; first [solve [value] | members]. Qed.
#[local] Hint Resolve ok_resource_reference : nulls.
Lemma ok_environment_var x : ok (jf_environment_var x).
Proof. unfold jf_environment_var. destruct x; first [solve [value] | members]. Qed.
#[local] Hint Resolve ok_environment_var : nulls.
Lemma ok_parameter x : ok (jf_parameter x).
Proof. unfold jf_parameter. members. Qed.
#[local] Hint Resolve ok_parameter : nulls.
Lemma ok_input x : ok (jf_input false x).
Proof. unfold jf_input. destruct (in_required x); cbn [jf_required_input]; members. Qed.
#[local] Hint Resolve ok_input : nulls.
Lemma ok_output x : ok (jf_output false x).
Proof. unfold jf_output. destruct (ou_required x); cbn [jf_required_output]; members. Qed.
#[local] Hint Resolve ok_output : nulls.
Lemma ok_command x : ok (jf_command x).
Proof. unfold jf_command. members. Qed.
#[local] Hint Resolve ok_command : nulls.
Lemma ok_step x : ok (jf_step x).
Proof. unfold jf_step. members. Qed.
#[local] Hint Resolve ok_step : nulls.
Lemma ok_volume x : ok (jf_volume false x).
Proof. unfold jf_volume. members. Qed.
#[local] Hint Resolve ok_volume : nulls.
Lemma ok_workspace x : ok (jf_workspace false x).
Proof. unfold jf_workspace. members. Qed.
#[local] Hint Resolve ok_workspace : nulls.
Lemma ok_condition x : ok (jf_condition x).
Proof. unfold jf_condition. members. Qed.
#[local] Hint Resolve ok_condition : nulls.
Lemma ok_event x : ok (jf_event false x).
Proof. unfold jf_event. members. Qed.
#[local] Hint Resolve ok_event : nulls.
Lemma ok_trigger x : ok (jf_trigger false x).
Proof. unfold jf_trigger. members. Qed.
#[local] Hint Resolve ok_trigger : nulls.
Lemma ok_task x : ok (jf_task false x).
Proof. unfold jf_task. members. Qed.
#[local] Hint Resolve ok_task : nulls.
Lemma ok_workflow x : ok (jf_workflow false x).
Proof. unfold jf_workflow. members. Qed.
#[local] Hint Resolve ok_workflow : nulls.

Lemma ok_licensing x : (forall k, In k licensing_names -> A ["licensing"; k]) -> okB (fun p => A ("licensing" :: p)) (jf_licensing false v x).
Proof.
  intros H. unfold jf_licensing, may_null. apply ok_object; [vm_compute; reflexivity|].
  repeat (apply Forall_cons; [apply ok_must; match goal with |- okB _ (match ?o with _ => _ end) => destruct o; [value|apply ok_null, H; cbn; tauto] end|]).
  apply Forall_nil.
Qed.
Definition terms_allowed (o : option licensing) : Prop := o = None \/ (v = V1_5 -> forall k, In k licensing_names -> A ["licensing"; k]).
Lemma leb_1_5 : version_leb V1_5 v = true -> v = V1_5.
Proof. now destruct v. Qed.
Lemma leb_1_4 : version_leb V1_4 v = true -> v <> V1_3.
Proof. now destruct v. Qed.
Lemma ok_license x : terms_allowed (l_licensing x) -> ok (jf_license false v x).
Proof.
  intros T. unfold jf_license, ref_name. destruct (l_identifier x); cbn [jf_license_identifier]; members.
  all: intros; destruct T as [E|T]; [congruence|]; apply ok_licensing; apply T; now apply leb_1_5.
Qed.
Definition choice_allowed (x : license_choice) : Prop := match x with LicLicense l => terms_allowed (l_licensing l) | _ => True end.
Lemma ok_license_choice x : choice_allowed x -> ok (jf_license_choice false v x).
Proof.
  destruct x as [l|r e]; cbn [choice_allowed jf_license_choice]; intros T.
  - members. eapply ok_weaken; [|now apply ok_license]. auto.
  - unfold later_ref. members.
Qed.
(** components without pedigree and evidence *)
Lemma ok_flat_component x : c_pedigree x = None -> c_evidence x = None -> Forall choice_allowed (olist (c_licenses x)) ->
  (forall c, In c (olist (c_components x)) -> ok (jf_component false v c)) -> ok (jf_component false v x).
Proof.
  intros P E L C. rewrite jf_component_eq. members.
  - apply ok_each. intros y I. eapply ok_weaken; [|apply ok_license_choice]; [auto|]. rewrite Forall_forall in L. apply L. now rewrite H.
  - intros y I. congruence.
  - apply ok_each. intros y I. eapply ok_weaken; [|apply C]; [auto|]. now rewrite H.
  - intros y I. congruence.
Qed.
(** SBOMs of the shape the generator gives them *)
Lemma ok_flat_bom x : match b_metadata x with
    | Some m => Forall choice_allowed (olist (m_licenses m)) /\ (forall t, m_tools m = Some t -> exists l, t = TList l)
                /\ (forall c, m_component m = Some c -> ok (jf_component false v c))
    | None => True end ->
  (forall c, In c (olist (b_components x)) -> ok (jf_component false v c)) ->
  b_services x = None -> b_vulnerabilities x = None -> b_annotations x = None -> b_formulation x = None ->
  ok (jf_bom false v x).
Proof.
  intros M C S V N F. unfold jf_bom. members; try (intros; congruence).
  - rewrite H in M. destruct M as (ML & MT & MC). eapply ok_weaken; [apply closed|]. unfold jf_metadata. members; try (intros; congruence).
    + destruct (MT _ H0) as (l & ->). cbn [jf_tools]. value.
    + apply ok_each. intros y I. eapply ok_weaken; [|apply ok_license_choice]; [auto|]. rewrite Forall_forall in ML. apply ML. now rewrite H0.
  - apply ok_each. intros y I. eapply ok_weaken; [|apply C]; [auto|]. now rewrite H.
Qed.

(** Any BOM *)
Hypothesis terms : v = V1_5 -> forall k, In k licensing_names -> A ["licensing"; k].
Hypothesis score : v <> V1_3 -> A ["ratings"; "score"].
Hypothesis identity_confidence : v = V1_5 -> A ["identity"; "confidence"].
Hypothesis method_confidence : v = V1_5 -> A ["methods"; "confidence"].
Lemma ok_choice x : ok (jf_license_choice false v x).
Proof. apply ok_license_choice. destruct x; cbn; [now right|exact I]. Qed.
#[local] Hint Resolve ok_choice : nulls.
Lemma ok_method x : v = V1_5 -> okB (fun p => A ("methods" :: p)) (jf_method x).
Proof. intros E. unfold jf_method. members. apply ok_number. auto. Qed.
Lemma ok_identity x : v = V1_5 -> okB (fun p => A ("identity" :: p)) (jf_identity false x).
Proof.
  intros E. unfold jf_identity. members.
  - apply ok_number. auto.
  - apply ok_each. intros y I. eapply ok_weaken; [|now apply ok_method]. cbv beta. auto.
Qed.
Lemma ok_evidence x : ok (jf_evidence false v x).
Proof. unfold jf_evidence. members. apply ok_identity. now apply leb_1_5. Qed.
#[local] Hint Resolve ok_evidence : nulls.
Lemma ok_component x : ok (jf_component false v x).
Proof.
  induction x as [x IHc IHp] using component_ind'. rewrite jf_component_eq. members.
  - destruct (IHp _ H) as (P1 & P2 & P3). unfold jf_pedigree. members; intros; (apply ok_each; intros y I; eapply ok_weaken; [|first [solve [apply P1; rewrite H0; exact I]|solve [apply P2; rewrite H0; exact I]|solve [apply P3; rewrite H0; exact I]]]; auto).
  - apply ok_each. intros y I. eapply ok_weaken; [|apply IHc]; [auto|]. now rewrite H.
Qed.
#[local] Hint Resolve ok_component : nulls.
Lemma ok_data x : ok (jf_data false v x).
Proof. unfold jf_data. destruct x; [destruct (version_leb V1_5 v)|]; apply ok_each; intros; auto with nulls nocore. Qed.
#[local] Hint Resolve ok_data : nulls.
Lemma ok_service x : ok (jf_service false v x).
Proof.
  induction x as [x IH] using service_ind'. rewrite jf_service_eq. members.
  apply ok_each. intros y I. eapply ok_weaken; [|apply IH]; [auto|]. now rewrite H.
Qed.
#[local] Hint Resolve ok_service : nulls.
Lemma ok_tools x : ok (jf_tools false v x).
Proof. unfold jf_tools. destruct x; [value|]. destruct (version_leb V1_5 v); [members|]. apply (ok_each A (fun x : json => x) []). intros ? []. Qed.
#[local] Hint Resolve ok_tools : nulls.
Lemma ok_metadata x : ok (jf_metadata false v x).
Proof. unfold jf_metadata. members. Qed.
#[local] Hint Resolve ok_metadata : nulls.
Lemma ok_annotator x : ok (jf_annotator false v x).
Proof. unfold jf_annotator. destruct x; members. Qed.
#[local] Hint Resolve ok_annotator : nulls.
Lemma ok_annotation x : ok (jf_annotation false v x).
Proof. unfold jf_annotation. members. Qed.
#[local] Hint Resolve ok_annotation : nulls.
Lemma ok_rating x : v <> V1_3 -> okB (fun p => A ("ratings" :: p)) (jf_vuln_rating x).
Proof. intros N. unfold jf_vuln_rating. members. apply ok_number. auto. Qed.
Lemma ok_vulnerability x : v <> V1_3 -> ok (jf_vulnerability false v x).
Proof. intros N. unfold jf_vulnerability. members. apply ok_each. intros y I. now apply ok_rating. Qed.
Lemma ok_formula x : ok (jf_formula false v x).
Proof. unfold jf_formula. members. Qed.
#[local] Hint Resolve ok_formula : nulls.
Lemma ok_bom x : ok (jf_bom false v x).
Proof. unfold jf_bom. members. apply ok_each. intros y I. eapply ok_weaken; [|apply ok_vulnerability; now apply leb_1_4]. auto. Qed.
End OK.

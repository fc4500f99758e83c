(** C76: what the findings of the validator say.  The wordings are in ValMsgSpec.v. *)
From Verif Require Import Base ModelTypes Strings Base64 Regex Enums ValModel ValSpec ValLocSpec ValProofs ValProofs2 ValProofs3 ValLocate
  FormModel ValMsgSpec.
Open Scope string_scope.
Open Scope list_scope.
Open Scope nat_scope.

(** ** One builder chain *)
Lemma collect_slot sl r : nodupb (map fst sl) = true -> collect sl = Done r ->
  forall k s, In (k, s) sl -> slot_err s = Done (error r k).
Proof.
  revert r. induction sl as [|[k0 s0] sl IH]; intros r N C k s Hin; [destruct Hin|].
  cbn [collect] in C. inv_bind C. inv_bind C. injection C as <-. cbn [map fst nodupb] in N.
  apply andb_true_iff in N as [N1 N2]. apply negb_true_iff in N1.
  assert (Fresh : error v0 k0 = None).
  { eapply collect_keys; eauto. rewrite <- mem_In, N1. discriminate. }
  destruct Hin as [E|Hin].
  - injection E as -> ->. rewrite Hv. f_equal. destruct v as [e|]; cbn [error].
    + now rewrite String.eqb_refl.
    + now rewrite Fresh.
  - assert (K : k <> k0). { intros ->. rewrite <- not_true_iff_false, mem_In in N1. apply N1. apply in_map_iff. exists (k0, s). auto. }
    rewrite (IH _ N2 Hv0 _ _ Hin). f_equal. destruct v as [e|]; [|reflexivity]. cbn [error].
    destruct (String.eqb_spec k0 k); [congruence|reflexivity].
Qed.
(** what a slot reports is as worded *)
Definition slot_says (s : slot) (P : verr -> Prop) : Prop := forall e, slot_err s = Done (Some e) -> P e.
Fixpoint find_slot (k : string) (sl : list (string * slot)) : option slot :=
  match sl with [] => None | (k', s) :: sl' => if String.eqb k' k then Some s else find_slot k sl' end.
Lemma find_slot_in k sl s : find_slot k sl = Some s -> In (k, s) sl.
Proof.
  induction sl as [|[k' s'] sl IH]; cbn; [discriminate|]. destruct (String.eqb_spec k' k) as [->|_].
  - intros [= ->]. now left.
  - intros H. right. auto.
Qed.
Lemma run_worded sl r w : nodupb (map fst sl) = true -> run sl = Done r ->
  Forall (fun kp => exists s, find_slot (fst kp) sl = Some s /\ slot_says s (snd kp)) w -> worded r w.
Proof.
  intros N R F k P e Hin He. rewrite run_collect in R by exact N. rewrite Forall_forall in F.
  destruct (F _ Hin) as (s & Hs & S). cbn [fst snd] in Hs, S. apply find_slot_in in Hs.
  apply S. rewrite (collect_slot _ _ N R _ _ Hs). now rewrite He.
Qed.
(** ** One slot *)
Lemma says_field {A} (f : A -> check) a m : (f a = None \/ f a = Some m) -> slot_says (field f a) (field_says m).
Proof. intros H e. unfold field. destruct H as [-> | ->]; cbn; [discriminate|]. now intros [= <-]. Qed.
Lemma says_field_opt {A} (f : A -> check) o m : (forall a, f a = None \/ f a = Some m) -> slot_says (field_opt f o) (field_says m).
Proof. intros H. destruct o; cbn; [now apply says_field|]. intros e. discriminate. Qed.
Lemma says_enum {A} (f : A -> check) a m : (f a = None \/ f a = Some m) -> slot_says (enum f a) (enum_says m).
Proof. intros H e. unfold enum. destruct H as [-> | ->]; cbn; [discriminate|]. now intros [= <-]. Qed.
Lemma says_enum_opt {A} (f : A -> check) o m : (forall a, f a = None \/ f a = Some m) -> slot_says (enum_opt f o) (enum_says m).
Proof. intros H. destruct o; cbn; [now apply says_enum|]. intros e. discriminate. Qed.
Lemma failing_in i0 l i r : In (i, r) (failing i0 l) -> i0 <= i /\ nth_error l (i - i0) = Some r /\ r <> [].
Proof.
  revert i0. induction l as [|a l IH]; intros i0; cbn [failing]; [intros []|].
  assert (T : In (i, r) (failing (S i0) l) -> i0 <= i /\ nth_error (a :: l) (i - i0) = Some r /\ r <> []).
  { intros H. apply IH in H as (L & N & E). split; [lia|]. replace (i - i0) with (S (i - S i0)) by lia. auto. }
  destruct (has_errors a) eqn:E; [|exact T]. intros [[= <- <-]|H]; [|auto].
  split; [lia|]. rewrite Nat.sub_diag. split; [reflexivity|]. intros ->. discriminate.
Qed.
Lemma mapM_id_nth (l : list (outcome vresult)) xs i r : mapM (fun o => o) l = Done xs -> nth_error xs i = Some r ->
  nth_error l i = Some (Done r).
Proof.
  intros H. apply mapM_done in H. revert i. induction H as [|a b l l' E _ IH]; intros [|i]; cbn; try discriminate.
  - intros [= <-]. now rewrite E.
  - auto.
Qed.
Lemma says_items_quotes {A} (f : A -> check) o (m : A -> string) : (forall a, f a = None \/ f a = Some (m a)) ->
  slot_says (items_opt (lift f) o) (each_quotes o m).
Proof.
  intros H e. destruct o as [l|]; cbn [items_opt slot_err]; [|discriminate]. intros E. inv_bind E.
  destruct (failing 0 v) as [|a es] eqn:F; [discriminate|]. injection E as <-.
  exists (a :: es). split; [reflexivity|]. split; [discriminate|]. intros i r Hin. rewrite <- F in Hin.
  apply failing_in in Hin as (_ & N & NE). rewrite Nat.sub_0_r in N. eapply mapM_id_nth in N; [|eassumption].
  rewrite nth_error_map in N. destruct (nth_error l i) as [b|] eqn:B; [|discriminate]. cbn in N. injection N as N.
  exists l, b. split; [reflexivity|]. split; [exact B|]. subst r. destruct (H b) as [X|X]; rewrite X in *; [now elim NE|reflexivity].
Qed.
Lemma says_items_opt {A} (f : A -> check) o m : (forall a, f a = None \/ f a = Some m) -> slot_says (items_opt (lift f) o) (each_says m).
Proof.
  intros H e E. destruct (says_items_quotes f o (fun _ => m) H e E) as (l & -> & N & Q). exists l. split; [reflexivity|].
  split; [exact N|]. intros i r Hin. destruct (Q i r Hin) as (_ & _ & _ & _ & ->). reflexivity.
Qed.
Lemma says_items {A} (f : A -> check) l m : (forall a, f a = None \/ f a = Some m) -> slot_says (items (lift f) l) (each_says m).
Proof. intros H. apply (says_items_opt f (Some l) m H). Qed.
Lemma says_quotes {A} (f : A -> check) o (m : A -> string) : (forall a, f a = None \/ f a = Some (m a)) ->
  slot_says (field_opt f o) (quotes o m).
Proof.
  intros H e. destruct o as [a|]; cbn; [|discriminate]. destruct (H a) as [-> | ->]; [discriminate|]. intros [= <-]. exists a. auto.
Qed.
Lemma says_struct {A} (f : A -> check) a m : (f a = None \/ f a = Some m) ->
  slot_says (struct (lift f) a) (fun e => e = ErrStruct [("", ErrCustom [m])]).
Proof. intros H e. unfold struct, lift. destruct H as [-> | ->]; cbn; [discriminate|]. now intros [= <-]. Qed.
Lemma says_struct_opt {A} (f : A -> check) o m : (forall a, f a = None \/ f a = Some m) ->
  slot_says (struct_opt (lift f) o) (fun e => e = ErrStruct [("", ErrCustom [m])]).
Proof. intros H. destruct o; cbn; [now apply says_struct|]. intros e. discriminate. Qed.

(** ** Leaf checks *)
Definition one_message {A} (f : A -> check) (m : string) : Prop := forall a, f a = None \/ f a = Some m.
Lemma require_says b m : require b m = None \/ require b m = Some m.
Proof. destruct b; cbn; auto. Qed.
Ltac one_msg := intros a; first [apply require_says | destruct a; cbn; auto].

Section WORDED.
Variable x : parsers.
Variable v : spec_version.
Lemma line_msg a : validate_normalized a = None \/ validate_normalized a = Some msg_line. Proof. revert a. one_msg. Qed.
Lemma time_msg a : validate_date_time x a = None \/ validate_date_time x a = Some msg_time. Proof. revert a. one_msg. Qed.
Lemma uri_msg a : validate_uri x a = None \/ validate_uri x a = Some msg_uri. Proof. revert a. one_msg. Qed.
Lemma bom_ref_msg a : validate_bom_ref v a = None \/ validate_bom_ref v a = Some msg_bom_ref. Proof. revert a. one_msg. Qed.
Hint Resolve line_msg time_msg uri_msg bom_ref_msg : vmsg.
Ltac leaf_msg := intros; first [ solve [auto with vmsg nocore] | apply require_says
  | match goal with
    | |- ?f _ ?a = None \/ _ => destruct a; cbn; auto; fail
    | |- ?f ?a = None \/ _ => destruct a; cbn; auto; fail
    end ].
Ltac slot_word := first
  [ apply says_field; leaf_msg | apply says_field_opt; leaf_msg | apply says_enum; leaf_msg | apply says_enum_opt; leaf_msg
  | apply says_items_opt; leaf_msg | apply says_items; leaf_msg | apply says_quotes; leaf_msg | apply says_items_quotes; leaf_msg
  | apply says_struct; leaf_msg | apply says_struct_opt; leaf_msg ].
Ltac words := intros R; eapply run_worded; [|exact R|]; [reflexivity|];
  repeat (apply Forall_cons || apply Forall_nil); (eexists; split; [reflexivity|]); cbn [fst snd]; unfold line, time, uri, old_ref; try slot_word.

Lemma w_property a r : validate_property a = Done r -> worded r say_property.
Proof. unfold validate_property, say_property. words. Qed.
Lemma w_attached_text a r : validate_attached_text a = Done r -> worded r say_attached_text.
Proof.
  unfold validate_attached_text, say_attached_text. words.
  - destruct (at_encoding a) as [[]|]; try (intros e; discriminate). apply says_field. apply require_says.
  - destruct (at_encoding a) as [[]|]; try (intros e; discriminate). apply says_field. cbn. auto.
Qed.
Lemma w_attachment a r : validate_attachment a = Done r -> worded r say_attachment.
Proof. unfold validate_attachment, say_attachment. words. Qed.
Lemma w_hash a r : validate_hash a = Done r -> worded r say_hash.
Proof. unfold validate_hash, say_hash. words. Qed.
Lemma w_contact a r : validate_contact v a = Done r -> worded r say_contact.
Proof. unfold validate_contact, say_contact. words. Qed.
Lemma w_entity a r : validate_entity x v a = Done r -> worded r say_entity.
Proof. unfold validate_entity, say_entity. words. Qed.
Lemma w_external_reference a r : validate_external_reference x v a = Done r -> worded r (say_external_reference v a).
Proof.
  unfold validate_external_reference, say_external_reference. words.
  destruct (er_url a) as [s|s]; apply says_field; cbn [validate_reference_uri]; [leaf_msg|]. unfold validate_bom_link.
  destruct v; cbn [version_leb negb]; auto. apply require_says.
Qed.
Lemma w_signer a r : validate_signer a = Done r -> worded r (say_signer a).
Proof.
  unfold validate_signer, say_signer. words. intros e. destruct (sg_algorithm a); cbn; try discriminate.
  intros [= <-]. eexists. split; reflexivity.
Qed.
Lemma w_license_identifier a r : validate_license_identifier x a = Done r -> worded r say_license_identifier.
Proof.
  unfold validate_license_identifier, say_license_identifier. destruct a; intros R k P e Hin He.
  - assert (W : worded r [("SpdxId", enum_says "SPDX identifier is not valid")]) by (revert R; words).
    destruct Hin as [[= <- <-]|[[= <- <-]|[]]]; [|eapply W; [left; reflexivity|exact He]].
    exfalso. revert He. erewrite run_keys; [discriminate| |exact R|]; [reflexivity|]. cbn. intros [H|[]]. discriminate.
  - assert (W : worded r [("Name", enum_says msg_line)]) by (revert R; words).
    destruct Hin as [[= <- <-]|[[= <- <-]|[]]]; [eapply W; [left; reflexivity|exact He]|].
    exfalso. revert He. erewrite run_keys; [discriminate| |exact R|]; [reflexivity|]. cbn. intros [H|[]]. discriminate.
Qed.
Lemma w_licensing a r : validate_licensing x v a = Done r -> worded r (say_licensing a).
Proof. unfold validate_licensing, say_licensing. words. Qed.
Lemma w_license a r : validate_license x v a = Done r -> worded r say_license.
Proof. unfold validate_license, say_license. words. Qed.
Lemma w_license_choice a r : validate_license_choice x v a = Done r -> worded r (say_license_choice a).
Proof. unfold validate_license_choice, say_license_choice. destruct a; [intros _ ? ? ? []|]. words. Qed.
Lemma w_licenses a r : validate_licenses x v a = Done r -> worded r (say_licenses a).
Proof.
  rewrite licenses_eq. intros R. inv_bind R. injection R as <-.
  assert (K : error v0 "licenses" = None).
  { eapply run_keys; [|exact Hv|]; [reflexivity|]. cbn. intros [H|[]]. discriminate. }
  intros k P e [[= <- <-]|[]] He.
  assert (E : error (mix_findings v a) "licenses" = Some e).
  { rewrite <- He. clear He e Hv. induction v0 as [|[k e] l IH]; cbn [app error] in *; [reflexivity|].
    destruct (String.eqb k "licenses"); [discriminate|auto]. }
  revert E. unfold mix_findings. destruct (version_leb V1_5 v); [|discriminate]. cbv zeta.
  assert (F : forallb (fun c => negb (is_license c)) a = (List.length (filter is_license a) =? 0)).
  { clear. induction a as [|c a IH]; cbn [forallb filter]; [reflexivity|]. destruct (is_license c); cbn; auto. }
  rewrite F. destruct (_ =? 0) eqn:Z; cbn [andb].
  - apply Nat.eqb_eq in Z. rewrite Z. change (0 <? 0) with false. cbn [andb].
    match goal with |- context [1 <? ?n] => destruct (1 <? n) end; [|discriminate]. cbn. now intros [= <-].
  - destruct (_ && _); [|discriminate]. cbn. now intros [= <-].
Qed.
Lemma w_action a r : validate_identifiable_action x a = Done r -> worded r say_identifiable_action.
Proof. unfold validate_identifiable_action, say_identifiable_action. words. Qed.
Lemma w_commit a r : validate_commit x a = Done r -> worded r say_commit.
Proof. unfold validate_commit, say_commit. words. Qed.
Lemma w_diff a r : validate_diff x a = Done r -> worded r say_diff.
Proof. unfold validate_diff, say_diff. words. Qed.
Lemma w_source a r : validate_source x a = Done r -> worded r say_source.
Proof. unfold validate_source, say_source. words. Qed.
Lemma w_issue a r : validate_issue x a = Done r -> worded r say_issue.
Proof. unfold validate_issue, say_issue. words. Qed.
Lemma w_patch a r : validate_patch x a = Done r -> worded r say_patch.
Proof. unfold validate_patch, say_patch. words. Qed.
Lemma w_data_contents a r : validate_data_contents x a = Done r -> worded r say_data_contents.
Proof. unfold validate_data_contents, say_data_contents. words. Qed.
Lemma w_component_data a r : validate_component_data x v a = Done r -> worded r say_component_data.
Proof. unfold validate_component_data, say_component_data. words. Qed.
Lemma w_approach a r : validate_approach a = Done r -> worded r (say_approach a).
Proof. unfold validate_approach, say_approach. words. Qed.
Lemma w_occurrence a r : validate_occurrence v a = Done r -> worded r say_occurrence.
Proof. unfold validate_occurrence, say_occurrence. words. Qed.
Lemma w_frame a r : validate_frame a = Done r -> worded r say_frame.
Proof. unfold validate_frame, say_frame. words. Qed.
Lemma w_identity a r : validate_identity a = Done r -> worded r (say_identity a).
Proof.
  unfold validate_identity, say_identity. words. intros e. destruct (id_field a); cbn; try discriminate.
  intros [= <-]. eexists. split; reflexivity.
Qed.
Lemma w_swid a r : validate_swid x a = Done r -> worded r say_swid.
Proof. unfold validate_swid, say_swid. words. Qed.
Lemma w_component a r : validate_component x v a = Done r -> worded r (say_component x a).
Proof.
  destruct a. cbn [validate_component]. unfold say_component. words.
  - apply says_field. unfold validate_classification. destruct (_ && _); apply require_says.
  - intros e. cbn [ModelTypes.c_purl]. destruct c_purl as [s|]; cbn; [|discriminate]. unfold validate_purl. destruct (x_purl x s) as [s0|] eqn:E; [|discriminate].
    intros [= <-]. exists s, s0. repeat split; auto.
Qed.
Lemma w_data_classification a r : validate_data_classification a = Done r -> worded r say_data_classification.
Proof. unfold validate_data_classification, say_data_classification. words. Qed.
Lemma w_service_data a r : validate_service_data x v a = Done r -> worded r say_service_data.
Proof. unfold validate_service_data, say_service_data. words. Qed.
Lemma w_service a r : validate_service x v a = Done r -> worded r say_service.
Proof. destruct a. cbn [validate_service]. unfold say_service. words. Qed.
Lemma w_tool a r : validate_tool x v a = Done r -> worded r say_tool.
Proof. unfold validate_tool, say_tool. words. Qed.
Lemma w_tools a r : validate_tools x v a = Done r -> worded r (say_tools v a).
Proof.
  unfold validate_tools, say_tools. destruct a as [l|ss cs]; [intros _ ? ? ? []|].
  destruct v; cbn [version_leb]; [| |intros _ ? ? ? []]; cbn; intros [= <-] k P e [[= <- <-]|[]]; cbn; intros [= <-]; reflexivity.
Qed.
Lemma w_metadata a r : validate_metadata x v a = Done r -> worded r say_metadata.
Proof. unfold validate_metadata, say_metadata. words. Qed.
Lemma w_composition a r : validate_composition v a = Done r -> worded r say_composition.
Proof. unfold validate_composition, say_composition. words. apply says_field. unfold validate_aggregate_type. destruct (version_leb v V1_4); apply require_says. Qed.
Lemma w_annotation a r : validate_annotation x v a = Done r -> worded r say_annotation.
Proof. unfold validate_annotation, say_annotation. words. Qed.
Lemma w_vuln_source a r : validate_vuln_source x a = Done r -> worded r say_vuln_source.
Proof. unfold validate_vuln_source, say_vuln_source. words. Qed.
Lemma w_vuln_reference a r : validate_vuln_reference x a = Done r -> worded r say_vuln_reference.
Proof. unfold validate_vuln_reference, say_vuln_reference. words. Qed.
Lemma w_rating a r : validate_rating x v a = Done r -> worded r (say_rating a).
Proof.
  unfold validate_rating, say_rating. words. apply says_quotes. intros m. unfold validate_score_method.
  destruct (version_leb v V1_4); [apply require_says|]. destruct (version_leb v V1_5); [|auto]. destruct m; cbn; auto.
Qed.
Lemma w_advisory a r : validate_advisory x a = Done r -> worded r say_advisory.
Proof. unfold validate_advisory, say_advisory. words. Qed.
Lemma w_analysis a r : validate_analysis x a = Done r -> worded r say_analysis.
Proof. unfold validate_analysis, say_analysis. words. Qed.
Lemma w_version_status a r : validate_version_status a = Done r -> worded r say_version_status.
Proof. unfold validate_version_status, say_version_status. words. Qed.
Lemma w_vulnerability a r : validate_vulnerability x v a = Done r -> worded r say_vulnerability.
Proof. unfold validate_vulnerability, say_vulnerability. words. Qed.
Lemma w_output a r : validate_output x v a = Done r -> worded r say_output.
Proof. unfold validate_output, say_output. destruct (ou_required a); cbn [app]; words. Qed.
Lemma w_volume a r : validate_volume a = Done r -> worded r say_volume.
Proof. unfold validate_volume, say_volume. words. Qed.
Lemma w_event a r : validate_event x v a = Done r -> worded r say_event.
Proof. unfold validate_event, say_event. words. Qed.
Lemma w_workspace q a r : validate_workspace x q v a = Done r -> worded r say_workspace.
Proof. unfold validate_workspace, say_workspace. words. Qed.
Lemma w_trigger q a r : validate_trigger x q v a = Done r -> worded r say_trigger.
Proof. unfold validate_trigger, say_trigger. words. Qed.
Lemma w_task q a r : validate_task x q v a = Done r -> worded r say_task.
Proof. unfold validate_task, say_task. words. Qed.
Lemma w_workflow q a r : validate_workflow x q v a = Done r -> worded r say_task.
Proof. unfold validate_workflow, say_task. words. Qed.
End WORDED.

Lemma w_bom x v b r : validate_bom x v b = Done r -> worded r say_bom.
Proof.
  intros R. destruct (validate_bom_ok x v b) as (r0 & r1 & R0 & E & H & K). rewrite R in E. injection E as <-.
  intros k P e [[= <- <-]|[]] He. rewrite H in He.
  assert (M : messages "serial_number" (reference_findings b) = []).
  { pose proof (finding_keys b) as F. rewrite Forall_forall in F.
    assert (G : ~ In "serial_number" (map fst (reference_findings b))).
    { intros X. apply F in X. cbn in X. repeat (destruct X as [X|X]; [discriminate X|]). exact X. }
    revert G. generalize (reference_findings b) as l. induction l as [|[k' m] l IH]; cbn [messages map fst]; intros G; auto.
    destruct (String.eqb_spec k' "serial_number") as [->|N]; [exfalso; apply G; now left|]. apply IH. intros X; apply G; now right. }
  rewrite M in He. revert He. apply (run_worded _ _ say_bom) in R0; [|reflexivity|].
  - intros He. eapply R0; [left; reflexivity|exact He].
  - apply Forall_cons; [|apply Forall_nil]. eexists. split; [reflexivity|]. cbn [snd]. apply says_field_opt. intros a. apply require_says.
Qed.

(** ** C76 *)
Theorem C76_wording x v :
  (forall b r, validate_bom x v b = Done r -> worded r say_bom)
  /\ (forall a r, validate_metadata x v a = Done r -> worded r say_metadata)
  /\ (forall a r, validate_tool x v a = Done r -> worded r say_tool)
  /\ (forall a r, validate_tools x v a = Done r -> worded r (say_tools v a))
  /\ (forall a r, validate_component x v a = Done r -> worded r (say_component x a))
  /\ (forall a r, validate_hash a = Done r -> worded r say_hash)
  /\ (forall a r, validate_licenses x v a = Done r -> worded r (say_licenses a))
  /\ (forall a r, validate_license_choice x v a = Done r -> worded r (say_license_choice a))
  /\ (forall a r, validate_license x v a = Done r -> worded r say_license)
  /\ (forall a r, validate_license_identifier x a = Done r -> worded r say_license_identifier)
  /\ (forall a r, validate_licensing x v a = Done r -> worded r (say_licensing a))
  /\ (forall a r, validate_swid x a = Done r -> worded r say_swid)
  /\ (forall a r, validate_commit x a = Done r -> worded r say_commit)
  /\ (forall a r, validate_identifiable_action x a = Done r -> worded r say_identifiable_action)
  /\ (forall a r, validate_diff x a = Done r -> worded r say_diff)
  /\ (forall a r, validate_source x a = Done r -> worded r say_source)
  /\ (forall a r, validate_issue x a = Done r -> worded r say_issue)
  /\ (forall a r, validate_patch x a = Done r -> worded r say_patch)
  /\ (forall a r, validate_occurrence v a = Done r -> worded r say_occurrence)
  /\ (forall a r, validate_frame a = Done r -> worded r say_frame)
  /\ (forall a r, validate_identity a = Done r -> worded r (say_identity a))
  /\ (forall a r, validate_attached_text a = Done r -> worded r say_attached_text)
  /\ (forall a r, validate_property a = Done r -> worded r say_property)
  /\ (forall a r, validate_contact v a = Done r -> worded r say_contact)
  /\ (forall a r, validate_entity x v a = Done r -> worded r say_entity)
  /\ (forall a r, validate_external_reference x v a = Done r -> worded r (say_external_reference v a)).
Proof.
  repeat match goal with |- _ /\ _ => split end; intros a r.
  - apply w_bom.
  - apply w_metadata.
  - apply w_tool.
  - apply w_tools.
  - apply w_component.
  - apply w_hash.
  - apply w_licenses.
  - apply w_license_choice.
  - apply w_license.
  - apply w_license_identifier.
  - apply w_licensing.
  - apply w_swid.
  - apply w_commit.
  - apply w_action.
  - apply w_diff.
  - apply w_source.
  - apply w_issue.
  - apply w_patch.
  - apply w_occurrence.
  - apply w_frame.
  - apply w_identity.
  - apply w_attached_text.
  - apply w_property.
  - apply w_contact.
  - apply w_entity.
  - apply w_external_reference.
Qed.
Theorem C76_wording_rest x v :
  (forall a r, validate_service x v a = Done r -> worded r say_service)
  /\ (forall a r, validate_service_data x v a = Done r -> worded r say_service_data)
  /\ (forall a r, validate_data_classification a = Done r -> worded r say_data_classification)
  /\ (forall a r, validate_composition v a = Done r -> worded r say_composition)
  /\ (forall a r, validate_signer a = Done r -> worded r (say_signer a))
  /\ (forall a r, validate_annotation x v a = Done r -> worded r say_annotation)
  /\ (forall a r, validate_attachment a = Done r -> worded r say_attachment)
  /\ (forall a r, validate_data_contents x a = Done r -> worded r say_data_contents)
  /\ (forall a r, validate_component_data x v a = Done r -> worded r say_component_data)
  /\ (forall a r, validate_approach a = Done r -> worded r (say_approach a))
  /\ (forall a r, validate_vulnerability x v a = Done r -> worded r say_vulnerability)
  /\ (forall a r, validate_vuln_source x a = Done r -> worded r say_vuln_source)
  /\ (forall a r, validate_vuln_reference x a = Done r -> worded r say_vuln_reference)
  /\ (forall a r, validate_rating x v a = Done r -> worded r (say_rating a))
  /\ (forall a r, validate_advisory x a = Done r -> worded r say_advisory)
  /\ (forall a r, validate_analysis x a = Done r -> worded r say_analysis)
  /\ (forall a r, validate_version_status a = Done r -> worded r say_version_status).
Proof.
  repeat match goal with |- _ /\ _ => split end; intros a r.
  - apply w_service.
  - apply w_service_data.
  - apply w_data_classification.
  - apply w_composition.
  - apply w_signer.
  - apply w_annotation.
  - apply w_attachment.
  - apply w_data_contents.
  - apply w_component_data.
  - apply w_approach.
  - apply w_vulnerability.
  - apply w_vuln_source.
  - apply w_vuln_reference.
  - apply w_rating.
  - apply w_advisory.
  - apply w_analysis.
  - apply w_version_status.
Qed.
Theorem C76_wording_formulas x q v :
  (forall a r, validate_workflow x q v a = Done r -> worded r say_task)
  /\ (forall a r, validate_task x q v a = Done r -> worded r say_task)
  /\ (forall a r, validate_trigger x q v a = Done r -> worded r say_trigger)
  /\ (forall a r, validate_event x v a = Done r -> worded r say_event)
  /\ (forall a r, validate_workspace x q v a = Done r -> worded r say_workspace)
  /\ (forall a r, validate_volume a = Done r -> worded r say_volume)
  /\ (forall a r, validate_output x v a = Done r -> worded r say_output).
Proof.
  repeat match goal with |- _ /\ _ => split end; intros a r.
  - apply w_workflow.
  - apply w_task.
  - apply w_trigger.
  - apply w_event.
  - apply w_workspace.
  - apply w_volume.
  - apply w_output.
Qed.
(** a finding about a part, or about the elements of a list, is the result of validating that part or those elements *)
Theorem C76_parts {A} (f : A -> outcome vresult) (a : A) (l : list A) k r :
  (run [(k, struct f a)] = Done r -> f a = Done (match error r k with Some (ErrStruct r') => r' | _ => [] end))
  /\ (run [(k, items f l)] = Done r -> forall i b, nth_error l i = Some b ->
       f b = Done (match error r k with
                   | Some (ErrList es) => match find (fun e => fst e =? i) es with Some (_, r') => r' | None => [] end
                   | _ => [] end)).
Proof.
  split.
  - cbn. destruct (f a) as [r'| | |]; cbn; try discriminate. destruct r' as [|e r']; cbn; intros [= <-]; cbn; [reflexivity|].
    now rewrite String.eqb_refl.
  - unfold run, items. cbn [run_from add_slot]. intros R i b Hb. inv_bind R. inv_bind Hv. injection R as <-.
    assert (N : nth_error (map f l) i = Some (f b)) by (rewrite nth_error_map, Hb; reflexivity).
    assert (X : exists rb, f b = Done rb /\ nth_error v0 i = Some rb).
    { apply mapM_done in Hv0. clear -Hv0 N. revert i N. induction Hv0 as [|c d l1 l2 E _ IH]; intros [|i]; cbn; try discriminate.
      - intros [= ->]. eauto.
      - auto. }
    destruct X as (rb & -> & Xb). f_equal.
    assert (G : forall xs i0 j rj, nth_error xs j = Some rj ->
      match find (fun e : nat * vresult => fst e =? i0 + j) (failing i0 xs) with Some (_, r') => r' | None => [] end = rj).
    { clear. induction xs as [|y xs IH]; intros i0 [|j] rj; cbn [nth_error]; try discriminate.
      - intros [= ->]. rewrite Nat.add_0_r. cbn [failing]. destruct rj as [|e rj]; cbn [has_errors passed negb].
        + destruct (find _ _) as [[i' r']|] eqn:F; [|reflexivity]. apply find_some in F as [I E]. cbn [fst] in E.
          apply Nat.eqb_eq in E. apply failing_in in I as (L & _). lia.
        + cbn [find fst]. now rewrite Nat.eqb_refl.
      - intros H. specialize (IH (S i0) j rj H). rewrite Nat.add_succ_comm in IH. cbn [failing].
        destruct (has_errors y); [|exact IH]. cbn [find fst]. destruct (Nat.eqb_spec i0 (i0 + S j)); [lia|exact IH]. }
    specialize (G v0 0 i rb Xb). cbn [Nat.add] in G. rewrite <- G.
    destruct (failing 0 v0) as [|e es] eqn:F.
    + injection Hv as <-. reflexivity.
    + unfold r_add_nested in Hv. cbn in Hv. injection Hv as <-. cbn [error]. now rewrite String.eqb_refl.
Qed.

(** ** A BOM with several broken rules *)
Definition rough_component : component := mkComponent (CUnknown "gizmo") (Some "text") (Some "r")
  None None None None (String "a" (String TAB "")) (Some "1") None (Some ScRequired) None (Some [LicExpression None "MIT & X"]) None None (Some "a") None None None
  None None None None None None None.
Definition rough_bom : bom := mkBom u32_1 (Some "7") None (Some [rough_component]) None None None None None None None None None V1_5.
Definition strict_parsers : parsers :=
  mkParsers (fun _ => false) (fun _ => false) (fun _ => Some "no scheme") (fun _ => false) (fun _ => false).
Example C76_case : validate_bom strict_parsers V1_5 rough_bom =
  Done [ ("serial_number", ErrField ["UrnUuid does not match regular expression"]);
         ("components", ErrStruct [("inner", ErrList [(0,
            [ ("component_type", ErrField ["Unknown classification"]);
              ("mime_type", ErrField ["MimeType does not match regular expression"]);
              ("name", ErrField ["NormalizedString contains invalid characters \r \n \t or \r\n"]);
              ("licenses", ErrStruct [("inner", ErrList [(0, [("expression", ErrEnum "SPDX expression `MIT & X` is not valid")])])]);
              ("purl", ErrField ["Purl does not conform to Package URL spec: no scheme"])])])])].
Proof. vm_compute. reflexivity. Qed.

Print Assumptions C76_wording.
Print Assumptions C76_wording_rest.
Print Assumptions C76_wording_formulas.
Print Assumptions C76_parts.

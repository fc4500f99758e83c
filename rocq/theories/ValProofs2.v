(** Every validator is safe, and passes exactly on valid values. *)
From Verif Require Import Base ModelTypes Strings Base64 Regex Enums ValModel ValSpec ValProofs.
From Coq Require Import ZArith.
Open Scope string_scope.
Open Scope list_scope.
Open Scope nat_scope.

(** ** Induction over the nested types *)
Definition component_deep_ind (P : component -> Prop)
  (H : forall c, every_in (c_components c) P ->
     when (c_pedigree c) (fun p => every_in (pd_ancestors p) P /\ every_in (pd_descendants p) P
                                   /\ every_in (pd_variants p) P) -> P c) : forall c, P c :=
  fix F (c : component) : P c :=
    H c
      (match c_components c as o return every_in o P with
       | Some l => (fix G (l : list component) : every P l :=
                      match l with [] => I | a :: l' => conj (F a) (G l') end) l
       | None => I end)
      (match c_pedigree c as o return
         when o (fun p => every_in (pd_ancestors p) P /\ every_in (pd_descendants p) P
                          /\ every_in (pd_variants p) P) with
       | Some p =>
           conj (match pd_ancestors p as o return every_in o P with
                 | Some l => (fix G (l : list component) : every P l :=
                                match l with [] => I | a :: l' => conj (F a) (G l') end) l
                 | None => I end)
             (conj (match pd_descendants p as o return every_in o P with
                 | Some l => (fix G (l : list component) : every P l :=
                                match l with [] => I | a :: l' => conj (F a) (G l') end) l
                 | None => I end)
                (match pd_variants p as o return every_in o P with
                 | Some l => (fix G (l : list component) : every P l :=
                                match l with [] => I | a :: l' => conj (F a) (G l') end) l
                 | None => I end))
       | None => I end).

Definition service_deep_ind (P : service -> Prop)
  (H : forall s, every_in (s_services s) P -> P s) : forall s, P s :=
  fix F (s : service) : P s :=
    H s (match s_services s as o return every_in o P with
         | Some l => (fix G (l : list service) : every P l :=
                        match l with [] => I | a :: l' => conj (F a) (G l') end) l
         | None => I end).

(** ** Leaf checks *)
Ltac enum_iff := intros a; destruct a; cbn; split; intros H;
  first [ discriminate H | reflexivity | intros t; discriminate | exfalso; eapply H; reflexivity ].

Lemma bom_ref_iff v s : validate_bom_ref v s = None <-> v = V1_5.
Proof. unfold validate_bom_ref. rewrite require_none. destruct v; cbn; split; congruence. Qed.
Lemma classification_iff v c : validate_classification v c = None <-> classification_in v c.
Proof. destruct v, c; vm_compute; split; try congruence; tauto. Qed.
Lemma aggregate_iff v a : validate_aggregate_type v a = None <-> aggregate_accepted v a.
Proof.
  unfold aggregate_accepted.
  destruct v, a; vm_compute; split; intros H; try tauto; try discriminate H;
    try (destruct H as [[]|H]; discriminate H); try (destruct H as [H|H]; try discriminate H; tauto).
  all: try (left; reflexivity).
Qed.
Lemma score_method_iff v m : validate_score_method v m = None <-> score_method_in v m.
Proof. destruct v, m; cbn; split; try congruence; tauto. Qed.
Lemma scope_iff a : validate_scope a = None <-> (forall t, a <> ScUnknown t).
Proof. revert a. enum_iff. Qed.
Lemma identity_field_iff a : validate_identity_field a = None <-> (forall t, a <> IFUnknown t).
Proof. revert a. enum_iff. Qed.
Lemma hash_algorithm_iff a : validate_hash_algorithm a = None <-> (forall t, a <> UnknownHash t).
Proof. revert a. enum_iff. Qed.
Lemma license_type_iff a : validate_license_type a = None <-> (forall t, a <> LTUnknown t).
Proof. revert a. enum_iff. Qed.
Lemma issue_iff a : validate_issue_classification a = None <-> (forall t, a <> ICUnknown t).
Proof. revert a. enum_iff. Qed.
Lemma patch_class_iff a : validate_patch_classification a = None <-> (forall t, a <> PCUnknown t).
Proof. revert a. enum_iff. Qed.
Lemma data_flow_iff a : validate_data_flow_type a = None <-> (forall t, a <> DFUnknownFlow t).
Proof. revert a. enum_iff. Qed.
Lemma ext_ref_type_iff a : validate_external_reference_type a = None <-> (forall t, a <> ERUnknown t).
Proof. revert a. enum_iff. Qed.
Lemma datatype_iff a : validate_datatype a = None <-> (forall t, a <> CDUnknown t).
Proof. revert a. enum_iff. Qed.
Lemma algorithm_iff a : validate_algorithm a = None <-> (forall t, a <> AlgUnknown t).
Proof. revert a. enum_iff. Qed.
Lemma state_iff a : validate_state a = None <-> (forall t, a <> ASUndefined t).
Proof. revert a. enum_iff. Qed.
Lemma justification_iff a : validate_justification a = None <-> (forall t, a <> AJUndefined t).
Proof. revert a. enum_iff. Qed.
Lemma response_iff a : validate_response a = None <-> (forall t, a <> ARUndefined t).
Proof. revert a. enum_iff. Qed.
Lemma severity_iff a : validate_severity a = None <-> (forall t, a <> SevUndefined t).
Proof. revert a. enum_iff. Qed.
Lemma status_iff a : validate_status a = None <-> (forall t, a <> StUndefined t).
Proof. revert a. enum_iff. Qed.
Lemma range_iff a : validate_version_range a = None <-> (forall t, a <> VRUndefined t).
Proof. revert a. enum_iff. Qed.
Lemma approach_iff a : validate_approach_type a = None <-> (forall t, a <> ApUnknown t).
Proof. revert a. enum_iff. Qed.

Lemma f32_scaled_zero k : f32_scaled false 0 0 k = 0%Z.
Proof. unfold f32_scaled. cbn. reflexivity. Qed.
Lemma f32_lt_zero neg m e : f32_ltb (F_fin neg m e) f32_zero = true <-> neg = true /\ m <> 0%N.
Proof.
  unfold f32_ltb, f32_zero. rewrite f32_scaled_zero. rewrite Z.ltb_lt. unfold f32_scaled.
  assert (0 < 2 ^ (e - Z.min e 0))%Z by (apply Z.pow_pos_nonneg; lia).
  destruct neg; cbv zeta.
  - destruct (N.eq_dec m 0) as [->|N]; [cbn; split; [lia|tauto]|].
    assert (0 < Z.of_N m)%Z by lia. split; [auto|]. intros _. apply Z.opp_neg_pos. now apply Z.mul_pos_pos.
  - split; [|intros []; discriminate]. intros C. exfalso.
    assert (0 <= Z.of_N m * 2 ^ (e - Z.min e 0))%Z by (apply Z.mul_nonneg_nonneg; lia). lia.
Qed.
Lemma f32_lt_one_neg m e : f32_ltb (F_fin true m e) f32_one = true.
Proof.
  unfold f32_ltb, f32_one. apply Z.ltb_lt. unfold f32_scaled. cbv zeta.
  assert (0 < 2 ^ (0 - Z.min e 0))%Z by (apply Z.pow_pos_nonneg; lia).
  assert (0 < 2 ^ (e - Z.min e 0))%Z by (apply Z.pow_pos_nonneg; lia).
  assert (0 <= Z.of_N m * 2 ^ (e - Z.min e 0))%Z by (apply Z.mul_nonneg_nonneg; lia).
  change (Z.of_N 1) with 1%Z. lia.
Qed.
Lemma confidence_iff c : validate_confidence c = None <-> not_negative c.
Proof.
  unfold validate_confidence. rewrite require_none, negb_true_iff, andb_false_iff.
  destruct c as [|[]|neg m e]; [cbn; tauto|cbn; split; [intros [|]; discriminate|tauto]|cbn; tauto|].
  rewrite <- !not_true_iff_false, f32_lt_zero. cbn [not_negative]. destruct neg.
  - rewrite f32_lt_one_neg. split; [|intros ->; left; tauto].
    intros [H|H]; [|tauto]. destruct (N.eq_dec m 0); tauto.
  - split; [tauto|]. intros _. left. intros []; discriminate.
Qed.

Section WithParsers.
Variable x : parsers.

Lemma date_time_iff s : validate_date_time x s = None <-> is_time x s.
Proof. apply require_none. Qed.
Lemma uri_iff s : validate_uri x s = None <-> is_uri x s.
Proof. apply require_none. Qed.
Lemma purl_iff s : validate_purl x s = None <-> is_purl x s.
Proof. unfold validate_purl, is_purl. destruct (x_purl x s); split; congruence. Qed.
Lemma spdx_id_iff s : validate_spdx_identifier x s = None <-> x_spdx_id x s = true.
Proof. apply require_none. Qed.
Lemma urn_iff s : validate_urn_uuid s = None <-> serial_shape s.
Proof. unfold validate_urn_uuid. rewrite require_none. apply serial_iff. Qed.
Lemma mime_check_iff s : validate_mime_type s = None <-> mime_shape s.
Proof. unfold validate_mime_type. rewrite require_none. apply mime_iff. Qed.
Lemma cpe_check_iff s : validate_cpe s = None <-> cpe_accepted s.
Proof. unfold validate_cpe. rewrite require_none. apply cpe_iff. Qed.
Lemma hash_check_iff s : validate_hash_value s = None <-> hash_accepted s.
Proof. unfold validate_hash_value. rewrite require_none. apply hash_iff. Qed.
Lemma bom_link_check_iff v s : validate_bom_link v s = None <-> v = V1_5 /\ bom_link_shape s.
Proof.
  unfold validate_bom_link. destruct v; cbn [version_leb negb].
  - split; [discriminate|intros []; discriminate].
  - split; [discriminate|intros []; discriminate].
  - rewrite require_none, bom_link_iff. tauto.
Qed.
Lemma ref_uri_iff v u : validate_reference_uri x v u = None <-> valid_ref_uri x v u.
Proof. destruct u; [apply uri_iff|apply bom_link_check_iff]. Qed.

Create HintDb viff discriminated.
Hint Resolve normalized_iff bom_ref_iff classification_iff aggregate_iff score_method_iff scope_iff
  identity_field_iff hash_algorithm_iff license_type_iff issue_iff patch_class_iff data_flow_iff
  ext_ref_type_iff datatype_iff algorithm_iff state_iff justification_iff response_iff severity_iff
  status_iff range_iff approach_iff confidence_iff date_time_iff uri_iff purl_iff spdx_id_iff urn_iff
  mime_check_iff cpe_check_iff hash_check_iff ref_uri_iff : viff.

Ltac leaf := intros; first [ solve [auto with viff nocore] | apply lift_pass; solve [auto with viff nocore] ].
Ltac slot_tac := cbv beta; first
  [ apply pass_field; leaf | apply pass_enum; leaf | apply pass_struct; leaf
  | apply pass_field_opt; leaf | apply pass_enum_opt; leaf
  | apply pass_items_opt; leaf | apply pass_struct_opt; leaf
  | apply pass_items_of_option; leaf | apply pass_items; leaf ].
Ltac run_pass_tac := rewrite run_pass by reflexivity; cbn [map snd];
  repeat first [ apply pass_cons; [slot_tac|] | apply pass_one; slot_tac ].

(** ** Structures *)
Lemma attached_text_iff t : validate_attached_text t = Done [] <-> valid_text t.
Proof.
  unfold validate_attached_text, valid_text. rewrite run_pass by reflexivity. cbn [map snd].
  apply pass_cons; [slot_tac|]. destruct (at_encoding t) as [[|s]|].
  - assert (E : require (b64_ok (at_content t)) "Content is not Base64 encoded" = None
                <-> exists bytes, b64_decode (at_content t) = Some bytes).
    { rewrite require_none. unfold b64_ok.
      destruct (b64_decode (at_content t)); split; intros H; eauto; try discriminate. destruct H; discriminate. }
    rewrite <- E. split; [intros H; inversion H; auto|repeat constructor; auto].
  - split; [|tauto]. intros H. inversion H as [|? ? ? H1]; subst. inversion H1 as [|? ? H2]; discriminate H2.
  - split; auto.
Qed.
Lemma attachment_iff a : validate_attachment a = Done [] <-> valid_attachment a.
Proof.
  unfold validate_attachment, valid_attachment. rewrite run_pass by reflexivity. cbn [map snd].
  apply pass_one, pass_field_opt. intros e. rewrite require_none. apply String.eqb_eq.
Qed.
Lemma vhash_iff h : validate_hash h = Done [] <-> valid_hash h.
Proof. unfold validate_hash, valid_hash. run_pass_tac. Qed.
Hint Resolve attached_text_iff attachment_iff vhash_iff : viff.
Lemma hashes_iff l : validate_hashes l = Done [] <-> every valid_hash l.
Proof. unfold validate_hashes. run_pass_tac. Qed.
Lemma property_iff p : validate_property p = Done [] <-> valid_property p.
Proof. unfold validate_property, valid_property. run_pass_tac. Qed.
Hint Resolve hashes_iff property_iff : viff.
Lemma properties_iff l : validate_properties l = Done [] <-> every valid_property l.
Proof. unfold validate_properties. run_pass_tac. Qed.
Lemma contact_iff v c : validate_contact v c = Done [] <-> valid_contact v c.
Proof. unfold validate_contact, valid_contact. run_pass_tac. Qed.
Hint Resolve properties_iff contact_iff : viff.
Lemma entity_iff v e : validate_entity x v e = Done [] <-> valid_entity x v e.
Proof. unfold validate_entity, valid_entity. run_pass_tac. Qed.
Lemma ext_ref_iff v e : validate_external_reference x v e = Done [] <-> valid_ext_ref x v e.
Proof. unfold validate_external_reference, valid_ext_ref. run_pass_tac. Qed.
Hint Resolve entity_iff ext_ref_iff : viff.
Lemma ext_refs_iff v l : validate_external_references x v l = Done [] <-> every (valid_ext_ref x v) l.
Proof. unfold validate_external_references. run_pass_tac. Qed.
Lemma signer_iff s : validate_signer s = Done [] <-> valid_signer s.
Proof. unfold validate_signer, valid_signer. run_pass_tac. Qed.
Hint Resolve ext_refs_iff signer_iff : viff.
Lemma signature_iff s : validate_signature s = Done [] <-> valid_signature s.
Proof. destruct s; unfold validate_signature, valid_signature; run_pass_tac. Qed.
Hint Resolve signature_iff : viff.
Lemma license_id_iff i : validate_license_identifier x i = Done [] <-> valid_license_id x i.
Proof. destruct i; unfold validate_license_identifier, valid_license_id; run_pass_tac. Qed.
Lemma license_contact_iff v c : validate_license_contact x v c = Done [] <-> valid_license_contact x v c.
Proof. destruct c; cbn [validate_license_contact valid_license_contact]; leaf. Qed.
Hint Resolve license_id_iff license_contact_iff : viff.
Lemma licensing_iff v l : validate_licensing x v l = Done [] <-> valid_licensing x v l.
Proof. unfold validate_licensing, valid_licensing. run_pass_tac. Qed.
Hint Resolve licensing_iff : viff.
Lemma license_iff v l : validate_license x v l = Done [] <-> valid_license x v l.
Proof. unfold validate_license, valid_license. run_pass_tac. Qed.
Hint Resolve license_iff : viff.
Lemma license_choice_iff v c : validate_license_choice x v c = Done [] <-> valid_license_choice x v c.
Proof.
  destruct c as [l|b e]; unfold validate_license_choice, valid_license_choice; [run_pass_tac|].
  rewrite run_pass by reflexivity. cbn [map snd]. apply pass_one. apply require_none.
Qed.
Hint Resolve license_choice_iff : viff.

Lemma add_one_custom k m r : error r k = None -> add_customs [(k, m)] r = Done (r ++ [(k, ErrCustom [m])]).
Proof. intros E. cbn [add_customs]. unfold r_add_custom. rewrite E. reflexivity. Qed.
Lemma collect_keys sl r k : collect sl = Done r -> ~ In k (map fst sl) -> error r k = None.
Proof.
  revert r. induction sl as [|[k0 s0] sl IH]; intros r C N; cbn [collect] in C.
  - injection C as <-. reflexivity.
  - inv_bind C. inv_bind C. injection C as <-. cbn [map fst In] in N.
    assert (E : error v0 k = None) by (apply IH; auto).
    destruct v as [e|]; [|exact E]. cbn [error].
    destruct (String.eqb_spec k0 k) as [->|]; [tauto|exact E].
Qed.
Lemma run_keys sl r k : nodupb (map fst sl) = true -> run sl = Done r -> ~ In k (map fst sl) -> error r k = None.
Proof. intros N. rewrite run_collect by exact N. apply collect_keys. Qed.

(** what [validate_licenses] adds to the findings inside the list *)
Definition mix_findings (v : spec_version) (l : list license_choice) : vresult :=
  if version_leb V1_5 v then
    let n := List.length (filter is_license l) in
    let e := List.length (filter (fun c => negb (is_license c)) l) in
    if (n =? 0) && (1 <? e) then [("licenses", ErrCustom ["More than one 'expression' entry found."])]
    else if (0 <? n) && (0 <? e) then
      [("licenses", ErrCustom ["Use either array of 'license' or a single 'expression', but not both."])]
    else []
  else [].
Lemma licenses_eq v l : validate_licenses x v l =
  do r <- run [ ("inner", items (validate_license_choice x v) l) ]; Done (r ++ mix_findings v l).
Proof.
  unfold validate_licenses, mix_findings.
  destruct (run [ ("inner", items (validate_license_choice x v) l) ]) as [r| | |] eqn:R; cbn [bind]; try reflexivity.
  assert (K : error r "licenses" = None).
  { eapply run_keys; [|exact R|]; [reflexivity|]. cbn. intros [H|[]]. discriminate. }
  destruct (version_leb V1_5 v); [|now rewrite app_nil_r]. cbv zeta.
  destruct (_ && _); [now apply add_one_custom|].
  destruct (_ && _); [now apply add_one_custom|now rewrite app_nil_r].
Qed.
Lemma filter_length_split {A} (f : A -> bool) l :
  List.length (filter f l) + List.length (filter (fun a => negb (f a)) l) = List.length l.
Proof. induction l as [|a l IH]; cbn; [reflexivity|]. destruct (f a); cbn; lia. Qed.
Lemma filter_none {A} (f : A -> bool) l : List.length (filter f l) = 0 <-> forall a, In a l -> f a = false.
Proof.
  induction l as [|a l IH]; cbn; [split; [intros _ a []|auto]|]. destruct (f a) eqn:F; cbn.
  - split; [lia|]. intros H. rewrite (H a) in F; auto. discriminate.
  - rewrite IH. split; [intros H b [<-|I]; auto|auto].
Qed.
Lemma mix_iff v l : mix_findings v l = [] <-> license_mix_ok v l.
Proof.
  unfold mix_findings, license_mix_ok.
  pose proof (filter_length_split is_license l) as S.
  assert (E : List.length (filter (fun c => negb (is_license c)) l) = 0
              <-> forall c, In c l -> exists k, c = LicLicense k).
  { rewrite filter_none. split; intros H c I; specialize (H c I).
    - destruct c; [eauto|discriminate].
    - destruct H as [k ->]. reflexivity. }
  set (n := List.length (filter is_license l)) in *.
  set (e := List.length (filter (fun c => negb (is_license c)) l)) in *.
  destruct v; cbn [version_leb]; try (split; [intros _ H; discriminate H|reflexivity]).
  destruct (Nat.eqb_spec n 0), (Nat.ltb_spec 1 e), (Nat.ltb_spec 0 n), (Nat.ltb_spec 0 e); cbn [andb];
    (split; [intros M; try discriminate M; intros _; first [right; lia | left; apply E; lia]|]); try reflexivity;
    intros M; destruct (M eq_refl) as [M1|M1]; try apply E in M1; lia.
Qed.
Lemma licenses_iff v l : validate_licenses x v l = Done [] <-> valid_licenses x v l.
Proof.
  rewrite licenses_eq. unfold valid_licenses. rewrite <- mix_iff.
  assert (H : run [ ("inner", items (validate_license_choice x v) l) ] = Done []
              <-> every (valid_license_choice x v) l) by run_pass_tac.
  rewrite <- H. destruct (run _) as [r| | |]; cbn [bind]; split; try discriminate; try (intros []; discriminate).
  - intros E. injection E as E. apply app_eq_nil in E as [-> ->]. auto.
  - intros [E ->]. injection E as ->. reflexivity.
Qed.
Hint Resolve licenses_iff : viff.

Lemma action_iff a : validate_identifiable_action x a = Done [] <-> valid_action x a.
Proof. unfold validate_identifiable_action, valid_action. run_pass_tac. Qed.
Hint Resolve action_iff : viff.
Lemma commit_iff c : validate_commit x c = Done [] <-> valid_commit x c.
Proof. unfold validate_commit, valid_commit. run_pass_tac. Qed.
Hint Resolve commit_iff : viff.
Lemma commits_iff l : validate_commits x l = Done [] <-> every (valid_commit x) l.
Proof. unfold validate_commits. run_pass_tac. Qed.
Lemma diff_iff d : validate_diff x d = Done [] <-> valid_diff x d.
Proof. unfold validate_diff, valid_diff. run_pass_tac. Qed.
Lemma source_iff s : validate_source x s = Done [] <-> valid_source x s.
Proof. unfold validate_source, valid_source. run_pass_tac. Qed.
Hint Resolve commits_iff diff_iff source_iff : viff.
Lemma vissue_iff i : validate_issue x i = Done [] <-> valid_issue x i.
Proof. unfold validate_issue, valid_issue. run_pass_tac. Qed.
Hint Resolve vissue_iff : viff.
Lemma patch_iff p : validate_patch x p = Done [] <-> valid_patch x p.
Proof. unfold validate_patch, valid_patch. run_pass_tac. Qed.
Hint Resolve patch_iff : viff.
Lemma patches_iff l : validate_patches x l = Done [] <-> every (valid_patch x) l.
Proof. unfold validate_patches. run_pass_tac. Qed.
Hint Resolve patches_iff : viff.

Lemma party_iff v p : validate_party x v p = Done [] <-> valid_party x v p.
Proof. destruct p; cbn [validate_party valid_party]; leaf. Qed.
Hint Resolve party_iff : viff.
Lemma governance_iff v g : validate_governance x v g = Done [] <-> valid_governance x v g.
Proof. unfold validate_governance, valid_governance. run_pass_tac. Qed.
Lemma contents_iff c : validate_data_contents x c = Done [] <-> valid_contents x c.
Proof. unfold validate_data_contents, valid_contents. run_pass_tac. Qed.
Lemma graphic_iff g : validate_graphic g = Done [] <-> when (g_image g) valid_attachment.
Proof. unfold validate_graphic. run_pass_tac. Qed.
Hint Resolve governance_iff contents_iff graphic_iff : viff.
Lemma graphics_iff g : validate_graphics g = Done [] <-> valid_graphics g.
Proof. unfold validate_graphics, valid_graphics. run_pass_tac. Qed.
Hint Resolve graphics_iff : viff.
Lemma component_data_iff v d : validate_component_data x v d = Done [] <-> valid_component_data x v d.
Proof. unfold validate_component_data, valid_component_data. run_pass_tac. Qed.
Hint Resolve component_data_iff : viff.
Lemma dataset_iff v d : validate_dataset x v d = Done [] <-> valid_dataset x v d.
Proof. destruct d; cbn [validate_dataset valid_dataset]; [leaf|]. split; auto. Qed.
Hint Resolve dataset_iff : viff.
Lemma datasets_iff v l : validate_datasets x v l = Done [] <-> every (valid_dataset x v) l.
Proof. unfold validate_datasets. run_pass_tac. Qed.
Hint Resolve datasets_iff : viff.
Lemma vapproach_iff a : validate_approach a = Done [] <-> when (ap_type a) (fun t => forall s, t <> ApUnknown s).
Proof. unfold validate_approach. run_pass_tac. Qed.
Hint Resolve vapproach_iff : viff.
Lemma all_pass {A} (f : A -> outcome vresult) l k : (forall a, f a = Done []) -> run [ (k, items f l) ] = Done [].
Proof.
  intros H. apply run_pass; [reflexivity|]. repeat constructor. cbn. apply Forall_map, Forall_forall. auto.
Qed.
Lemma ml_parameters_pass l : validate_ml_parameters l = Done [].
Proof. apply all_pass. reflexivity. Qed.
Lemma metrics_pass l : validate_metrics l = Done [].
Proof. apply all_pass. reflexivity. Qed.
Lemma copyright_texts_pass l : validate_copyright_texts l = Done [].
Proof. apply all_pass. reflexivity. Qed.
Lemma pass_skip_last s l P : slot_pass s -> (Forall slot_pass l <-> P) -> (Forall slot_pass (l ++ [s]) <-> P).
Proof. intros H <-. rewrite Forall_app. split; [tauto|]. auto. Qed.
Lemma slot_always {A} (f : A -> outcome vresult) o : (forall a, f a = Done []) -> slot_pass (struct_opt f o).
Proof. intros H. destruct o; cbn; auto. Qed.
Lemma model_parameters_iff v p : validate_model_parameters x v p = Done [] <-> valid_model_parameters x v p.
Proof.
  unfold validate_model_parameters, valid_model_parameters. rewrite run_pass by reflexivity. cbn [map snd].
  apply pass_cons; [slot_tac|].
  apply (pass_skip_last _ [_; _]); [apply slot_always, ml_parameters_pass|].
  apply (pass_skip_last _ [_]); [apply slot_always, ml_parameters_pass|]. apply pass_one. slot_tac.
Qed.
Lemma quantitative_iff q : validate_quantitative q = Done [] <-> when (qa_graphics q) valid_graphics.
Proof.
  unfold validate_quantitative. rewrite run_pass by reflexivity. cbn [map snd].
  apply pass_skip; [apply slot_always, metrics_pass|]. apply pass_one. slot_tac.
Qed.
Hint Resolve model_parameters_iff quantitative_iff : viff.
Lemma model_card_iff v c : validate_model_card x v c = Done [] <-> valid_model_card x v c.
Proof.
  unfold validate_model_card, valid_model_card. rewrite run_pass by reflexivity. cbn [map snd].
  apply pass_cons; [slot_tac|]. apply pass_cons; [slot_tac|].
  apply pass_skip; [apply slot_always; reflexivity|]. apply pass_one. slot_tac.
Qed.

Lemma occurrence_iff v o : validate_occurrence v o = Done [] <-> when (oc_bom_ref o) (fun _ => v = V1_5).
Proof. unfold validate_occurrence. run_pass_tac. Qed.
Hint Resolve occurrence_iff : viff.
Lemma occurrences_iff v l :
  validate_occurrences v l = Done [] <-> every (fun o => when (oc_bom_ref o) (fun _ => v = V1_5)) l.
Proof. unfold validate_occurrences. run_pass_tac. Qed.
Lemma frame_iff f : validate_frame f = Done [] <-> valid_frame f.
Proof. unfold validate_frame, valid_frame. run_pass_tac. Qed.
Hint Resolve occurrences_iff frame_iff : viff.
Lemma callstack_iff l : validate_callstack l = Done [] <-> every valid_frame l.
Proof. unfold validate_callstack. run_pass_tac. Qed.
Lemma identity_iff i : validate_identity i = Done [] <-> valid_identity i.
Proof. unfold validate_identity, valid_identity. run_pass_tac. Qed.
Hint Resolve callstack_iff identity_iff : viff.
Lemma evidence_iff v e : validate_evidence x v e = Done [] <-> valid_evidence x v e.
Proof.
  unfold validate_evidence, valid_evidence. rewrite run_pass by reflexivity. cbn [map snd].
  apply pass_cons; [slot_tac|]. apply pass_skip; [apply slot_always, copyright_texts_pass|].
  repeat first [ apply pass_cons; [slot_tac|] | apply pass_one; slot_tac ].
Qed.
Lemma swid_iff s : validate_swid x s = Done [] <-> valid_swid x s.
Proof. unfold validate_swid, valid_swid. run_pass_tac. Qed.
Hint Resolve evidence_iff swid_iff : viff.

Lemma every_impl {A} (P Q : A -> Prop) l : (forall a, P a -> Q a) -> every P l -> every Q l.
Proof. intros H. rewrite !every_Forall. apply Forall_impl. exact H. Qed.
Lemma pass_struct_opt_in {A} (f : A -> outcome vresult) (P : A -> Prop) o :
  when o (fun a => f a = Done [] <-> P a) -> (slot_pass (struct_opt f o) <-> when o P).
Proof. destruct o; cbn; auto. tauto. Qed.
Lemma pass_nested {A} (f : A -> outcome vresult) (P : A -> Prop) o :
  every_in o (fun a => f a = Done [] <-> P a) ->
  (slot_pass (struct_opt (fun l => run [ ("inner", items f l) ]) o) <-> every_in o P).
Proof.
  intros H. apply pass_struct_opt_in. destruct o as [l|]; cbn [when every_in] in *; auto.
  rewrite run_pass by reflexivity. cbn [map snd]. apply pass_one. apply pass_map. now apply every_Forall.
Qed.
Lemma pedigree_iff f (P : component -> Prop) p :
  every_in (pd_ancestors p) (fun a => f a = Done [] <-> P a) ->
  every_in (pd_descendants p) (fun a => f a = Done [] <-> P a) ->
  every_in (pd_variants p) (fun a => f a = Done [] <-> P a) ->
  (validate_pedigree_with x f p = Done [] <-> valid_pedigree_with x P p).
Proof.
  intros H1 H2 H3. unfold validate_pedigree_with, valid_pedigree_with. rewrite run_pass by reflexivity. cbn [map snd].
  do 3 (apply pass_cons; [apply pass_nested; assumption|]).
  apply pass_cons; [slot_tac|]. apply pass_one; slot_tac.
Qed.
Lemma component_iff v c : validate_component x v c = Done [] <-> valid_component x v c.
Proof.
  induction c as [c IHc IHp] using component_deep_ind.
  destruct c. cbn [ModelTypes.c_components ModelTypes.c_pedigree] in IHc, IHp. cbn [validate_component valid_component].
  rewrite run_pass by reflexivity.
  cbn [map snd ModelTypes.c_type ModelTypes.c_mime_type ModelTypes.c_supplier ModelTypes.c_author ModelTypes.c_publisher ModelTypes.c_group ModelTypes.c_name ModelTypes.c_version ModelTypes.c_description ModelTypes.c_scope
       ModelTypes.c_hashes ModelTypes.c_licenses ModelTypes.c_copyright ModelTypes.c_cpe ModelTypes.c_purl ModelTypes.c_swid ModelTypes.c_pedigree ModelTypes.c_external_references ModelTypes.c_properties
       ModelTypes.c_components ModelTypes.c_evidence].
  do 16 (apply pass_cons; [slot_tac|]).
  apply pass_cons.
  { apply pass_struct_opt_in. match goal with |- when ?o _ => destruct o end; cbn [when] in *; auto.
    destruct IHp as (? & ? & ?). now apply pedigree_iff. }
  do 2 (apply pass_cons; [slot_tac|]).
  apply pass_cons; [now apply pass_nested|]. apply pass_one; slot_tac.
Qed.
Hint Resolve component_iff : viff.
Lemma components_iff v l : validate_components x v l = Done [] <-> every (valid_component x v) l.
Proof. unfold validate_components. run_pass_tac. Qed.
Hint Resolve components_iff : viff.

Lemma data_class_iff d : validate_data_classification d = Done [] <-> valid_data_class d.
Proof. unfold validate_data_classification, valid_data_class. run_pass_tac. Qed.
Hint Resolve data_class_iff : viff.
Lemma service_data_iff v d : validate_service_data x v d = Done [] <-> valid_service_data x v d.
Proof. unfold validate_service_data, valid_service_data. run_pass_tac. Qed.
Hint Resolve service_data_iff : viff.
Lemma data_iff v d : validate_data x v d = Done [] <-> valid_data x v d.
Proof. destruct d; cbn [validate_data valid_data]; run_pass_tac. Qed.
Hint Resolve data_iff : viff.
Lemma service_iff v s : validate_service x v s = Done [] <-> valid_service x v s.
Proof.
  induction s as [s IH] using service_deep_ind. destruct s. cbn [ModelTypes.s_services] in IH.
  cbn [validate_service valid_service]. rewrite run_pass by reflexivity.
  cbn [map snd ModelTypes.s_provider ModelTypes.s_group ModelTypes.s_name ModelTypes.s_version ModelTypes.s_description ModelTypes.s_endpoints ModelTypes.s_data ModelTypes.s_licenses
       ModelTypes.s_external_references ModelTypes.s_properties ModelTypes.s_services ModelTypes.s_trust_zone].
  do 10 (apply pass_cons; [slot_tac|]). apply pass_cons; [now apply pass_nested|]. apply pass_one; slot_tac.
Qed.
Hint Resolve service_iff : viff.
Lemma services_iff v l : validate_services x v l = Done [] <-> every (valid_service x v) l.
Proof. unfold validate_services. run_pass_tac. Qed.
Hint Resolve services_iff : viff.
Lemma tool_iff v t : validate_tool x v t = Done [] <-> valid_tool x v t.
Proof. unfold validate_tool, valid_tool. run_pass_tac. Qed.
Hint Resolve tool_iff : viff.
Lemma tools_iff v t : validate_tools x v t = Done [] <-> valid_tools x v t.
Proof.
  destruct t as [l|ss cs]; cbn [validate_tools valid_tools]; [run_pass_tac|].
  destruct v; cbn [version_leb].
  - split; [discriminate|intros [H _]; discriminate H].
  - split; [discriminate|intros [H _]; discriminate H].
  - rewrite run_pass by reflexivity. cbn [map snd].
    transitivity (every_in cs (valid_component x V1_5) /\ every_in ss (valid_service x V1_5)); [|tauto].
    apply pass_cons; [slot_tac|]. apply pass_one; slot_tac.
Qed.
Hint Resolve tools_iff : viff.
Lemma metadata_iff v m : validate_metadata x v m = Done [] <-> valid_metadata x v m.
Proof. unfold validate_metadata, valid_metadata. run_pass_tac. Qed.
Hint Resolve metadata_iff : viff.
Lemma composition_iff v c : validate_composition v c = Done [] <-> valid_composition v c.
Proof. unfold validate_composition, valid_composition. run_pass_tac. Qed.
Hint Resolve composition_iff : viff.
Lemma compositions_iff v l : validate_compositions v l = Done [] <-> every (valid_composition v) l.
Proof. unfold validate_compositions. run_pass_tac. Qed.
Lemma annotator_iff v a : validate_annotator x v a = Done [] <-> valid_annotator x v a.
Proof. destruct a; cbn [validate_annotator valid_annotator]; run_pass_tac. Qed.
Hint Resolve compositions_iff annotator_iff : viff.
Lemma annotation_iff v a : validate_annotation x v a = Done [] <-> valid_annotation x v a.
Proof. unfold validate_annotation, valid_annotation. run_pass_tac. Qed.
Hint Resolve annotation_iff : viff.
Lemma annotations_iff v l : validate_annotations x v l = Done [] <-> every (valid_annotation x v) l.
Proof. unfold validate_annotations. run_pass_tac. Qed.

Lemma vuln_source_iff s : validate_vuln_source x s = Done [] <-> valid_vuln_source x s.
Proof. unfold validate_vuln_source, valid_vuln_source. run_pass_tac. Qed.
Hint Resolve vuln_source_iff : viff.
Lemma vuln_reference_iff r : validate_vuln_reference x r = Done [] <-> valid_vuln_reference x r.
Proof. unfold validate_vuln_reference, valid_vuln_reference. run_pass_tac. Qed.
Lemma rating_iff v r : validate_rating x v r = Done [] <-> valid_rating x v r.
Proof. unfold validate_rating, valid_rating. run_pass_tac. Qed.
Lemma advisory_iff a : validate_advisory x a = Done [] <-> valid_advisory x a.
Proof. unfold validate_advisory, valid_advisory. run_pass_tac. Qed.
Lemma credits_iff v c : validate_credits x v c = Done [] <-> valid_credits x v c.
Proof. unfold validate_credits, valid_credits. run_pass_tac. Qed.
Lemma analysis_iff a : validate_analysis x a = Done [] <-> valid_analysis x a.
Proof.
  unfold validate_analysis, valid_analysis. rewrite run_pass by reflexivity. cbn [map snd].
  do 3 (apply pass_cons; [slot_tac|]).
  transitivity (when (va_first_issued a) (is_time x) /\ when (va_first_issued a) (is_time x)); [|tauto].
  apply pass_cons; [slot_tac|]. apply pass_one; slot_tac.
Qed.
Lemma version_status_iff s : validate_version_status s = Done [] <-> valid_version_status s.
Proof. unfold validate_version_status, valid_version_status. run_pass_tac. Qed.
Hint Resolve vuln_reference_iff rating_iff advisory_iff credits_iff analysis_iff version_status_iff : viff.
Lemma vuln_references_iff l : validate_vuln_references x l = Done [] <-> every (valid_vuln_reference x) l.
Proof. unfold validate_vuln_references. run_pass_tac. Qed.
Lemma ratings_iff v l : validate_ratings x v l = Done [] <-> every (valid_rating x v) l.
Proof. unfold validate_ratings. run_pass_tac. Qed.
Lemma advisories_iff l : validate_advisories x l = Done [] <-> every (valid_advisory x) l.
Proof. unfold validate_advisories. run_pass_tac. Qed.
Lemma versions_iff l : validate_versions l = Done [] <-> every valid_version_status l.
Proof. unfold validate_versions. run_pass_tac. Qed.
Hint Resolve vuln_references_iff ratings_iff advisories_iff versions_iff : viff.
Lemma target_iff t : validate_target t = Done [] <-> valid_target t.
Proof. unfold validate_target, valid_target. run_pass_tac. Qed.
Hint Resolve target_iff : viff.
Lemma targets_iff l : validate_targets l = Done [] <-> every valid_target l.
Proof. unfold validate_targets. run_pass_tac. Qed.
Hint Resolve targets_iff : viff.
Lemma vulnerability_iff v u : validate_vulnerability x v u = Done [] <-> valid_vulnerability x v u.
Proof. unfold validate_vulnerability, valid_vulnerability. run_pass_tac. Qed.
Hint Resolve vulnerability_iff : viff.
Lemma vulnerabilities_iff v l : validate_vulnerabilities x v l = Done [] <-> every (valid_vulnerability x v) l.
Proof. unfold validate_vulnerabilities. run_pass_tac. Qed.
Hint Resolve vulnerabilities_iff : viff.

(** the field checks of the whole BOM *)
Definition bom_slots (v : spec_version) (b : bom) : list (string * slot) :=
  [ ("serial_number", field_opt validate_urn_uuid (b_serial_number b));
    ("metadata", struct_opt (validate_metadata x v) (b_metadata b));
    ("components", struct_opt (validate_components x v) (b_components b));
    ("services", struct_opt (validate_services x v) (b_services b));
    ("external_references", struct_opt (validate_external_references x v) (b_external_references b));
    ("compositions", struct_opt (validate_compositions v) (b_compositions b));
    ("properties", struct_opt validate_properties (b_properties b));
    ("vulnerabilities", struct_opt (validate_vulnerabilities x v) (b_vulnerabilities b)) ].
Lemma bom_slots_iff v b : run (bom_slots v b) = Done [] <-> valid_fields x v b.
Proof. unfold bom_slots, valid_fields. run_pass_tac. Qed.
End WithParsers.

(** Every written value reads back as what [JsonSpec] says, whatever the order of the
    members of the objects. *)
From Verif Require Import Base ModelTypes Strings Enums GenModel Json JsonLemmas JsonModel JsonSpec.
Open Scope string_scope.
Open Scope list_scope.

Create HintDb codec.
Ltac nonnull := let x := fresh in intros x; first [discriminate | destruct x; discriminate].
Ltac cod :=
  intros;
  match goal with
  | L : like (JStr _) ?y |- dec_str ?y = _ => exact (dec_str_like _ _ L)
  | L : like (JBool _) ?y |- dec_bool ?y = _ => exact (dec_bool_like _ _ L)
  | L : like (to_json_u32 _) ?y |- dec_u32 ?y = _ => exact (dec_u32_like _ _ L)
  | L : like (arr _ _) ?y |- dec_list _ ?y = Some (map _ _) =>
      eapply dec_list_like; [exact L | clear L; cod]
  | L : like (arr _ _) ?y |- dec_list _ ?y = Some _ =>
      eapply dec_list_like_id; [exact L | clear L; cod]
  | |- _ => solve [eauto with codec]
  end.
Tactic Notation "fid" ident(L) tactic3(t) :=
  eapply bindo_intro; [eapply field_opt_written_id; [exact L | reflexivity | nonnull | t] |].
Tactic Notation "fmap" ident(L) uconstr(hh) tactic3(t) :=
  eapply bindo_intro; [eapply field_opt_written with (h := hh); [exact L | reflexivity | nonnull | t] |].
Tactic Notation "fnull_id" ident(L) tactic3(t) :=
  eapply bindo_intro; [eapply field_null_written_id; [exact L | reflexivity | nonnull | t] |].
Tactic Notation "fnull" ident(L) uconstr(hh) tactic3(t) :=
  eapply bindo_intro; [eapply field_null_written with (h := hh); [exact L | reflexivity | nonnull | t] |].
Tactic Notation "freq" ident(L) tactic3(t) :=
  eapply bindo_intro; [eapply field_written; [exact L | reflexivity | t] |].
Tactic Notation "freqv" ident(L) constr(a) tactic3(t) :=
  eapply (bindo_intro _ _ a); [eapply field_written; [exact L | reflexivity | t] |].
Tactic Notation "fdef" ident(L) tactic3(t) :=
  eapply bindo_intro; [eapply (field_default_written _ _ (arr JStr) _ _ _ _ (d_dependencies _)); [exact L | reflexivity | reflexivity | t] |].
Lemma field_f32_kept ks k fs j o : written fs j -> assoc k fs = Some (opt to_json_f32 o) ->
  field_opt dec_f32 ks k j = Some (finite_only o).
Proof. intros W A. rewrite (field_f32_written ks k fs j o W A). destruct o as [[]|]; reflexivity. Qed.
Ltac ff32 L := eapply bindo_intro; [eapply field_f32_kept; [exact L | reflexivity] |].
Ltac foff := eapply bindo_intro; [reflexivity |].
Ltac enum_codec x :=
  let L := fresh in intros L; inversion L; subst; destruct x; reflexivity.

Lemma of_to_uri x j : like (to_json_uri x) j -> dec_uri j = Some (kept_uri x).
Proof. intros L. destruct x; inversion L; subst; reflexivity. Qed.
#[export] Hint Resolve of_to_uri : codec.
Lemma finite_f32 x j : is_finite x = true -> like (to_json_f32 x) j -> dec_f32 j = Some x.
Proof. intros C L. destruct x; try discriminate. exact (dec_f32_like _ _ _ _ L). Qed.
Ltac finite_cod :=
  first [cod | intros; match goal with
  | C : is_finite (me_confidence ?x) = true, L : like (to_json_f32 (me_confidence ?x)) ?y |- _ =>
      exact (finite_f32 _ _ C L) end].

Lemma enum_classification x j : like (jtext text_classification x) j -> dec_text classification_of_text j = Some (kept_classification x).
Proof. enum_codec x. Qed.
#[export] Hint Resolve enum_classification : codec.
Lemma enum_scope x j : like (jtext text_scope x) j -> dec_text scope_of_text j = Some (kept_scope x).
Proof. enum_codec x. Qed.
#[export] Hint Resolve enum_scope : codec.
Lemma enum_identity_field x j : like (jtext text_identity_field x) j -> dec_text identity_field_of_text j = Some (kept_identity_field x).
Proof. enum_codec x. Qed.
#[export] Hint Resolve enum_identity_field : codec.
Lemma enum_hash_algorithm x j : like (jtext text_hash_algorithm x) j -> dec_text hash_algorithm_of_text j = Some (kept_hash_algorithm x).
Proof. enum_codec x. Qed.
#[export] Hint Resolve enum_hash_algorithm : codec.
Lemma enum_license_type x j : like (jtext text_license_type x) j -> dec_text license_type_of_text j = Some (kept_license_type x).
Proof. enum_codec x. Qed.
#[export] Hint Resolve enum_license_type : codec.
Lemma enum_aggregate_type x j : like (jtext text_aggregate_type x) j -> dec_text aggregate_type_of_text j = Some (kept_aggregate_type x).
Proof. enum_codec x. Qed.
#[export] Hint Resolve enum_aggregate_type : codec.
Lemma enum_issue_classification x j : like (jtext text_issue_classification x) j -> dec_text issue_classification_of_text j = Some (kept_issue_classification x).
Proof. enum_codec x. Qed.
#[export] Hint Resolve enum_issue_classification : codec.
Lemma enum_patch_classification x j : like (jtext text_patch_classification x) j -> dec_text patch_classification_of_text j = Some (kept_patch_classification x).
Proof. enum_codec x. Qed.
#[export] Hint Resolve enum_patch_classification : codec.
Lemma enum_data_flow_type x j : like (jtext text_data_flow_type x) j -> dec_text data_flow_type_of_text j = Some (kept_data_flow_type x).
Proof. enum_codec x. Qed.
#[export] Hint Resolve enum_data_flow_type : codec.
Lemma enum_ext_ref_type x j : like (jtext text_ext_ref_type x) j -> dec_text ext_ref_type_of_text j = Some (kept_ext_ref_type x).
Proof. enum_codec x. Qed.
#[export] Hint Resolve enum_ext_ref_type : codec.
Lemma enum_encoding x j : like (jtext text_encoding x) j -> dec_text encoding_of_text j = Some (kept_encoding x).
Proof. enum_codec x. Qed.
#[export] Hint Resolve enum_encoding : codec.
Lemma enum_component_data_type x j : like (jtext text_component_data_type x) j -> dec_text component_data_type_of_text j = Some (kept_component_data_type x).
Proof. enum_codec x. Qed.
#[export] Hint Resolve enum_component_data_type : codec.
Lemma enum_phase x j : like (jtext text_phase x) j -> dec_text phase_of_text j = Some (kept_phase x).
Proof. enum_codec x. Qed.
#[export] Hint Resolve enum_phase : codec.
Lemma enum_algorithm x j : like (jtext text_algorithm x) j -> dec_text algorithm_of_text j = Some (kept_algorithm x).
Proof. enum_codec x. Qed.
#[export] Hint Resolve enum_algorithm : codec.
Lemma enum_analysis_state x j : like (jtext text_analysis_state x) j -> dec_text analysis_state_of_text j = Some (kept_analysis_state x).
Proof. enum_codec x. Qed.
#[export] Hint Resolve enum_analysis_state : codec.
Lemma enum_analysis_justification x j : like (jtext text_analysis_justification x) j -> dec_text analysis_justification_of_text j = Some (kept_analysis_justification x).
Proof. enum_codec x. Qed.
#[export] Hint Resolve enum_analysis_justification : codec.
Lemma enum_analysis_response x j : like (jtext text_analysis_response x) j -> dec_text analysis_response_of_text j = Some (kept_analysis_response x).
Proof. enum_codec x. Qed.
#[export] Hint Resolve enum_analysis_response : codec.
Lemma enum_severity x j : like (jtext text_severity x) j -> dec_text severity_of_text j = Some (kept_severity x).
Proof. enum_codec x. Qed.
#[export] Hint Resolve enum_severity : codec.
Lemma enum_score_method x j : like (jtext text_score_method x) j -> dec_text score_method_of_text j = Some (kept_score_method x).
Proof. enum_codec x. Qed.
#[export] Hint Resolve enum_score_method : codec.
Lemma enum_status x j : like (jtext text_status x) j -> dec_text status_of_text j = Some (kept_status x).
Proof. enum_codec x. Qed.
#[export] Hint Resolve enum_status : codec.
Lemma enum_approach_type x j : like (jtext text_approach_type x) j -> dec_text approach_type_of_text j = Some (kept_approach_type x).
Proof. enum_codec x. Qed.
#[export] Hint Resolve enum_approach_type : codec.
Lemma enum_task_type x j : like (jtext text_task_type x) j -> dec_text task_type_of_text j = Some (kept_task_type x).
Proof. enum_codec x. Qed.
#[export] Hint Resolve enum_task_type : codec.
Lemma enum_output_type x j : like (jtext text_output_type x) j -> dec_text output_type_of_text j = Some (kept_output_type x).
Proof. enum_codec x. Qed.
#[export] Hint Resolve enum_output_type : codec.
Lemma enum_trigger_type x j : like (jtext text_trigger_type x) j -> dec_text trigger_type_of_text j = Some (kept_trigger_type x).
Proof. enum_codec x. Qed.
#[export] Hint Resolve enum_trigger_type : codec.
Lemma enum_access_mode x j : like (jtext text_access_mode x) j -> dec_text access_mode_of_text j = Some (kept_access_mode x).
Proof. enum_codec x. Qed.
#[export] Hint Resolve enum_access_mode : codec.
Lemma enum_volume_mode x j : like (jtext text_volume_mode x) j -> dec_text volume_mode_of_text j = Some (kept_volume_mode x).
Proof. enum_codec x. Qed.
#[export] Hint Resolve enum_volume_mode : codec.
Lemma of_to_attached_text x j : like (to_json_attached_text x) j -> of_json_attached_text j = Some (kept_attached_text x).
Proof.
  intros L. unfold to_json_attached_text in L. apply like_written in L; [|reflexivity].
  unfold of_json_attached_text. rewrite (written_ok _ _ _ L).
  fid L cod.
  fmap L kept_encoding cod.
  freq L cod.
  reflexivity.
Qed.
#[export] Hint Resolve of_to_attached_text : codec.

Lemma of_to_attachment x j : like (to_json_attachment x) j -> of_json_attachment j = Some x.
Proof.
  intros L. unfold to_json_attachment in L. apply like_written in L; [|reflexivity].
  unfold of_json_attachment. rewrite (written_ok _ _ _ L).
  freq L cod.
  fid L cod.
  fid L cod.
  destruct x; reflexivity.
Qed.
#[export] Hint Resolve of_to_attachment : codec.

Lemma of_to_hash x j : like (to_json_hash x) j -> of_json_hash j = Some (kept_hash x).
Proof.
  intros L. unfold to_json_hash in L. apply like_written in L; [|reflexivity].
  unfold of_json_hash. rewrite (written_ok _ _ _ L).
  freq L cod.
  freq L cod.
  reflexivity.
Qed.
#[export] Hint Resolve of_to_hash : codec.

Lemma of_to_property x j : like (to_json_property x) j -> of_json_property j = Some x.
Proof.
  intros L. unfold to_json_property in L. apply like_written in L; [|reflexivity].
  unfold of_json_property. rewrite (written_ok _ _ _ L).
  freq L cod.
  freq L cod.
  destruct x; reflexivity.
Qed.
#[export] Hint Resolve of_to_property : codec.

Lemma of_to_contact x j : like (to_json_contact x) j -> of_json_contact j = Some x.
Proof.
  intros L. unfold to_json_contact in L. apply like_written in L; [|reflexivity].
  unfold of_json_contact. rewrite (written_ok _ _ _ L).
  fid L cod.
  fid L cod.
  fid L cod.
  fid L cod.
  destruct x; reflexivity.
Qed.
#[export] Hint Resolve of_to_contact : codec.

Lemma of_to_entity x j : like (to_json_entity x) j -> of_json_entity j = Some x.
Proof.
  intros L. unfold to_json_entity in L. apply like_written in L; [|reflexivity].
  unfold of_json_entity. rewrite (written_ok _ _ _ L).
  fid L cod.
  fid L cod.
  fid L cod.
  fid L cod.
  destruct x; reflexivity.
Qed.
#[export] Hint Resolve of_to_entity : codec.

Lemma of_to_external_reference x j : like (to_json_external_reference x) j -> of_json_external_reference j = Some (kept_external_reference x).
Proof.
  intros L. unfold to_json_external_reference in L. apply like_written in L; [|reflexivity].
  unfold of_json_external_reference. rewrite (written_ok _ _ _ L).
  freq L cod.
  freq L cod.
  fid L cod.
  fmap L (map kept_hash) cod.
  reflexivity.
Qed.
#[export] Hint Resolve of_to_external_reference : codec.

Lemma of_to_algorithm x j : like (to_json_algorithm x) j -> of_json_algorithm j = Some (kept_algorithm x).
Proof.
  destruct x; intros L;
    try (cbv in L; inversion L; subst; reflexivity).
  apply like_single in L as [y [-> L]]. inversion L; subst. reflexivity.
Qed.
#[export] Hint Resolve of_to_algorithm : codec.
Lemma of_to_signer x j : like (to_json_signer x) j -> of_json_signer j = Some (kept_signer x).
Proof.
  intros L. unfold to_json_signer in L. apply like_written in L; [|reflexivity].
  unfold of_json_signer. rewrite (written_ok _ _ _ L).
  freq L cod. freq L cod. reflexivity.
Qed.
#[export] Hint Resolve of_to_signer : codec.
Lemma like_obj_not_list {A} (f : json -> option A) fs j : like (obj fs) j -> dec_list f j = None.
Proof. intros L. inversion L; subst. reflexivity. Qed.
Lemma of_to_signature x j : like (to_json_signature x) j -> of_json_signature j = Some (kept_signature x).
Proof.
  destruct x as [l|l|s]; cbn [to_json_signature]; intros L; unfold of_json_signature.
  1,2: rewrite (dec_list_like of_json_signer to_json_signer kept_signer l j L) by (intros; eauto with codec);
    reflexivity.
  rewrite (like_obj_not_list of_json_signer _ _ L). cbn [bindo orelse].
  now rewrite (of_to_signer _ _ L).
Qed.
#[export] Hint Resolve of_to_signature : codec.

Lemma of_to_license_contact x j : like (to_json_license_contact x) j -> of_json_license_contact j = Some x.
Proof.
  destruct x; intros L; apply like_single in L as [y [-> L]]; unfold of_json_license_contact; cbn;
    (eapply bindo_intro; [eauto with codec | reflexivity]).
Qed.
#[export] Hint Resolve of_to_license_contact : codec.

Lemma of_to_licensing x j : like (to_json_licensing x) j -> of_json_licensing j = Some (kept_licensing x).
Proof.
  intros L. unfold to_json_licensing in L. apply like_written in L; [|reflexivity].
  unfold of_json_licensing. rewrite (written_ok _ _ _ L).
  fnull_id L cod.
  fnull_id L cod.
  fnull_id L cod.
  fnull_id L cod.
  fnull_id L cod.
  fnull L (map kept_license_type) cod.
  fnull_id L cod.
  fnull_id L cod.
  reflexivity.
Qed.
#[export] Hint Resolve of_to_licensing : codec.

Lemma first_written ks fs j k x :
  written fs j -> memb k ks = true -> assoc k fs = Some (Some x) ->
  (forall k', memb k' ks = true -> k' <> k -> match assoc k' fs with Some (Some _) => False | _ => True end) ->
  exists y, first_of ks j = Some (k, y) /\ like x y.
Proof.
  intros [l [-> [N [_ G]]]] M A U. cbn [first_of].
  assert (Gk := G k). rewrite A in Gk. destruct Gk as [y [Gy Ly]]. exists y. split; [|exact Ly].
  assert (I : In (k, y) l) by now apply assoc_In.
  assert (O : forall k' y', In (k', y') l -> memb k' ks = true -> k' = k).
  { intros k' y' I' M'. destruct (String.eqb_spec k' k) as [E|E]; auto.
    specialize (U k' M' E). specialize (G k'). apply assoc_In in I'; [|exact N].
    destruct (assoc k' fs) as [[z|]|]; [tauto| |]; congruence. }
  clear - N I O M. induction l as [|[k' y'] l IH]; [destruct I|].
  cbn [first_member map fst] in *. apply NoDup_cons_iff in N as [N1 N2].
  destruct (memb k' ks) eqn:E.
  - assert (k' = k) by (eapply O; [now left|exact E]). subst k'.
    destruct I as [[= ->]|I]; [reflexivity|]. exfalso. apply N1. apply (in_map fst) in I. exact I.
  - destruct I as [[= -> ->]|I]; [congruence|]. apply IH; auto. intros k2 y2 I2 M2. apply (O k2 y2); [right; exact I2|exact M2].
Qed.
Lemma written_object_ok ks fs j : written fs j -> object_ok ks j = true.
Proof. intros [l [-> [N _]]]. unfold object_ok. now apply struct_ok_NoDup. Qed.
Ltac only_one :=
  let k := fresh "k" in let M := fresh "M" in let N := fresh "N" in
  intros k M N; cbn [memb] in M; rewrite !orb_true_iff, !String.eqb_eq in M;
  decompose [or] M; subst; first [discriminate | (exfalso; apply N; reflexivity) | (cbn; exact Logic.I)].

Lemma of_to_license_identifier x fs j : written fs j ->
  assoc (fst (license_identifier_member x)) fs = Some (snd (license_identifier_member x)) ->
  (forall k, memb k ["id"; "name"] = true -> k <> fst (license_identifier_member x) ->
     match assoc k fs with Some (Some _) => False | _ => True end) ->
  of_json_license_identifier j = Some x.
Proof.
  intros W A U. unfold of_json_license_identifier.
  destruct x as [s|s]; cbn [license_identifier_member fst snd] in A, U.
  - destruct (first_written ["id"; "name"] fs j "id" (JStr s) W eq_refl A U) as [y [-> L]].
    cbn [bindo]. inversion L; subst. reflexivity.
  - destruct (first_written ["id"; "name"] fs j "name" (JStr s) W eq_refl A U) as [y [-> L]].
    cbn [bindo]. inversion L; subst. reflexivity.
Qed.
Lemma of_to_license v x j : like (to_json_license v x) j -> of_json_license v j = Some (kept_license v x).
Proof.
  intros L. unfold to_json_license in L.
  apply like_written in L; [|destruct (l_identifier x); reflexivity].
  unfold of_json_license. rewrite (written_object_ok _ _ _ L).
  assert (I : of_json_license_identifier j = Some (l_identifier x)).
  { eapply of_to_license_identifier; [exact L | |].
    - destruct (l_identifier x); reflexivity.
    - destruct (l_identifier x); only_one. }
  destruct x as [r i t u g p]; cbn [l_bom_ref l_identifier l_text l_url l_licensing l_properties] in *.
  destruct v; cbn [since version_leb field_when] in *;
  destruct i; cbn [license_identifier_member] in L;
  (first [foff | fid L cod]);
  (eapply bindo_intro; [exact I|]);
  (fmap L kept_attached_text cod); (fid L cod);
  (first [foff | fmap L kept_licensing cod]);
  (first [foff | fid L cod]); reflexivity.
Qed.
#[export] Hint Resolve of_to_license : codec.
Lemma like_length_obj l j : like (JObj l) j -> exists l', j = JObj l' /\ List.length l' = List.length l.
Proof.
  intros L. inversion L as [| | | | | |l0 m l' F P]; subst. exists l'. split; auto.
  rewrite <- (Permutation_length P). clear - F. induction F; cbn; congruence.
Qed.
Lemma of_to_license_choice v x j :
  like (to_json_license_choice v x) j -> of_json_license_choice v j = Some (kept_license_choice v x).
Proof.
  destruct x as [l|r e]; cbn [to_json_license_choice]; intros L; unfold of_json_license_choice.
  - apply like_single in L as [y [-> L]]. cbn [ext_tag bindo]. rewrite String.eqb_refl.
    now rewrite (of_to_license _ _ _ L).
  - match goal with |- orelse ?a _ = _ => assert (Q : a = None) end.
    { destruct r as [r|].
      - apply like_length_obj in L as [l' [-> E]]. cbn in E.
        destruct l' as [|[k y] [|? ?]]; try discriminate. reflexivity.
      - apply like_single in L as [y [-> L]]. reflexivity. }
    rewrite Q. cbn [orelse]. apply like_written in L; [|reflexivity].
    rewrite (written_ok _ _ _ L). fid L cod. freq L cod. reflexivity.
Qed.
#[export] Hint Resolve of_to_license_choice : codec.

Lemma of_to_identifiable_action x j : like (to_json_identifiable_action x) j -> of_json_identifiable_action j = Some x.
Proof.
  intros L. unfold to_json_identifiable_action in L. apply like_written in L; [|reflexivity].
  unfold of_json_identifiable_action. rewrite (written_ok _ _ _ L).
  fid L cod.
  fid L cod.
  fid L cod.
  destruct x; reflexivity.
Qed.
#[export] Hint Resolve of_to_identifiable_action : codec.

Lemma of_to_commit x j : like (to_json_commit x) j -> of_json_commit j = Some x.
Proof.
  intros L. unfold to_json_commit in L. apply like_written in L; [|reflexivity].
  unfold of_json_commit. rewrite (written_ok _ _ _ L).
  fid L cod.
  fid L cod.
  fid L cod.
  fid L cod.
  fid L cod.
  destruct x; reflexivity.
Qed.
#[export] Hint Resolve of_to_commit : codec.

Lemma of_to_diff x j : like (to_json_diff x) j -> of_json_diff j = Some (kept_diff x).
Proof.
  intros L. unfold to_json_diff in L. apply like_written in L; [|reflexivity].
  unfold of_json_diff. rewrite (written_ok _ _ _ L).
  fmap L kept_attached_text cod.
  fid L cod.
  reflexivity.
Qed.
#[export] Hint Resolve of_to_diff : codec.

Lemma of_to_source x j : like (to_json_source x) j -> of_json_source j = Some x.
Proof.
  intros L. unfold to_json_source in L. apply like_written in L; [|reflexivity].
  unfold of_json_source. rewrite (written_ok _ _ _ L).
  fid L cod.
  fid L cod.
  destruct x; reflexivity.
Qed.
#[export] Hint Resolve of_to_source : codec.

Lemma of_to_issue x j : like (to_json_issue x) j -> of_json_issue j = Some (kept_issue x).
Proof.
  intros L. unfold to_json_issue in L. apply like_written in L; [|reflexivity].
  unfold of_json_issue. rewrite (written_ok _ _ _ L).
  freq L cod.
  fid L cod.
  fid L cod.
  fid L cod.
  fid L cod.
  fid L cod.
  reflexivity.
Qed.
#[export] Hint Resolve of_to_issue : codec.

Lemma of_to_patch x j : like (to_json_patch x) j -> of_json_patch j = Some (kept_patch x).
Proof.
  intros L. unfold to_json_patch in L. apply like_written in L; [|reflexivity].
  unfold of_json_patch. rewrite (written_ok _ _ _ L).
  freq L cod.
  fmap L kept_diff cod.
  fmap L (map kept_issue) cod.
  reflexivity.
Qed.
#[export] Hint Resolve of_to_patch : codec.

Lemma of_to_responsible_party x j : like (to_json_responsible_party x) j -> of_json_responsible_party j = Some x.
Proof.
  destruct x; intros L; apply like_single in L as [y [-> L]]; unfold of_json_responsible_party; cbn;
    (eapply bindo_intro; [eauto with codec | reflexivity]).
Qed.
#[export] Hint Resolve of_to_responsible_party : codec.

Lemma of_to_data_governance x j : like (to_json_data_governance x) j -> of_json_data_governance j = Some x.
Proof.
  intros L. unfold to_json_data_governance in L. apply like_written in L; [|reflexivity].
  unfold of_json_data_governance. rewrite (written_ok _ _ _ L).
  fid L cod.
  fid L cod.
  fid L cod.
  destruct x; reflexivity.
Qed.
#[export] Hint Resolve of_to_data_governance : codec.

Lemma of_to_data_contents x j : like (to_json_data_contents x) j -> of_json_data_contents j = Some x.
Proof.
  intros L. unfold to_json_data_contents in L. apply like_written in L; [|reflexivity].
  unfold of_json_data_contents. rewrite (written_ok _ _ _ L).
  fid L cod.
  fid L cod.
  fid L cod.
  destruct x; reflexivity.
Qed.
#[export] Hint Resolve of_to_data_contents : codec.

Lemma of_to_graphic x j : like (to_json_graphic x) j -> of_json_graphic j = Some x.
Proof.
  intros L. unfold to_json_graphic in L. apply like_written in L; [|reflexivity].
  unfold of_json_graphic. rewrite (written_ok _ _ _ L).
  fid L cod.
  fid L cod.
  destruct x; reflexivity.
Qed.
#[export] Hint Resolve of_to_graphic : codec.

Lemma of_to_graphics_collection x j : like (to_json_graphics_collection x) j -> of_json_graphics_collection j = Some x.
Proof.
  intros L. unfold to_json_graphics_collection in L. apply like_written in L; [|reflexivity].
  unfold of_json_graphics_collection. rewrite (written_ok _ _ _ L).
  fid L cod.
  fid L cod.
  destruct x; reflexivity.
Qed.
#[export] Hint Resolve of_to_graphics_collection : codec.

Lemma of_to_component_data x j : like (to_json_component_data x) j -> of_json_component_data j = Some (kept_component_data x).
Proof.
  intros L. unfold to_json_component_data in L. apply like_written in L; [|reflexivity].
  unfold of_json_component_data. rewrite (written_ok _ _ _ L).
  fid L cod.
  freq L cod.
  fid L cod.
  fid L cod.
  fid L cod.
  fid L cod.
  fid L cod.
  fid L cod.
  fid L cod.
  reflexivity.
Qed.
#[export] Hint Resolve of_to_component_data : codec.

Lemma of_to_approach x j : like (to_json_approach x) j -> of_json_approach j = Some (kept_approach x).
Proof.
  intros L. unfold to_json_approach in L. apply like_written in L; [|reflexivity].
  unfold of_json_approach. rewrite (written_ok _ _ _ L).
  fmap L kept_approach_type cod.
  reflexivity.
Qed.
#[export] Hint Resolve of_to_approach : codec.

Lemma of_to_dataset x j : like (to_json_dataset x) j -> of_json_dataset j = Some (kept_dataset x).
Proof.
  destruct x as [c|s]; cbn [to_json_dataset]; intros L; unfold of_json_dataset.
  - now rewrite (of_to_component_data _ _ L).
  - inversion L; subst. reflexivity.
Qed.
#[export] Hint Resolve of_to_dataset : codec.

Lemma of_to_ml_parameter x j : like (to_json_ml_parameter x) j -> of_json_ml_parameter j = Some x.
Proof.
  intros L. unfold to_json_ml_parameter in L. apply like_written in L; [|reflexivity].
  unfold of_json_ml_parameter. rewrite (written_ok _ _ _ L).
  fid L cod.
  destruct x; reflexivity.
Qed.
#[export] Hint Resolve of_to_ml_parameter : codec.

Lemma of_to_model_parameters x j : like (to_json_model_parameters x) j -> of_json_model_parameters j = Some (kept_model_parameters x).
Proof.
  intros L. unfold to_json_model_parameters in L. apply like_written in L; [|reflexivity].
  unfold of_json_model_parameters. rewrite (written_ok _ _ _ L).
  fmap L kept_approach cod.
  fid L cod.
  fid L cod.
  fid L cod.
  fmap L (map kept_dataset) cod.
  fid L cod.
  fid L cod.
  reflexivity.
Qed.
#[export] Hint Resolve of_to_model_parameters : codec.

Lemma of_to_confidence_interval x j : like (to_json_confidence_interval x) j -> of_json_confidence_interval j = Some x.
Proof.
  intros L. unfold to_json_confidence_interval in L. apply like_written in L; [|reflexivity].
  unfold of_json_confidence_interval. rewrite (written_ok _ _ _ L).
  fid L cod.
  fid L cod.
  destruct x; reflexivity.
Qed.
#[export] Hint Resolve of_to_confidence_interval : codec.

Lemma of_to_performance_metric x j : like (to_json_performance_metric x) j -> of_json_performance_metric j = Some x.
Proof.
  intros L. unfold to_json_performance_metric in L. apply like_written in L; [|reflexivity].
  unfold of_json_performance_metric. rewrite (written_ok _ _ _ L).
  fid L cod.
  fid L cod.
  fid L cod.
  fid L cod.
  destruct x; reflexivity.
Qed.
#[export] Hint Resolve of_to_performance_metric : codec.

Lemma of_to_quantitative_analysis x j : like (to_json_quantitative_analysis x) j -> of_json_quantitative_analysis j = Some x.
Proof.
  intros L. unfold to_json_quantitative_analysis in L. apply like_written in L; [|reflexivity].
  unfold of_json_quantitative_analysis. rewrite (written_ok _ _ _ L).
  fid L cod.
  fid L cod.
  destruct x; reflexivity.
Qed.
#[export] Hint Resolve of_to_quantitative_analysis : codec.

Lemma of_to_considerations x j : like (to_json_considerations x) j -> of_json_considerations j = Some x.
Proof.
  intros L. unfold to_json_considerations in L. apply like_written in L; [|reflexivity].
  unfold of_json_considerations. rewrite (written_ok _ _ _ L). now destruct x.
Qed.
#[export] Hint Resolve of_to_considerations : codec.

Lemma of_to_model_card x j : like (to_json_model_card x) j -> of_json_model_card j = Some (kept_model_card x).
Proof.
  intros L. unfold to_json_model_card in L. apply like_written in L; [|reflexivity].
  unfold of_json_model_card. rewrite (written_ok _ _ _ L).
  fid L cod.
  fmap L kept_model_parameters cod.
  fid L cod.
  fid L cod.
  fid L cod.
  reflexivity.
Qed.
#[export] Hint Resolve of_to_model_card : codec.

Lemma of_to_occurrence x j : like (to_json_occurrence x) j -> of_json_occurrence j = Some x.
Proof.
  intros L. unfold to_json_occurrence in L. apply like_written in L; [|reflexivity].
  unfold of_json_occurrence. rewrite (written_ok _ _ _ L).
  fid L cod.
  freq L cod.
  destruct x; reflexivity.
Qed.
#[export] Hint Resolve of_to_occurrence : codec.

Lemma of_to_frame x j : like (to_json_frame x) j -> of_json_frame j = Some x.
Proof.
  intros L. unfold to_json_frame in L. apply like_written in L; [|reflexivity].
  unfold of_json_frame. rewrite (written_ok _ _ _ L).
  fid L cod.
  freq L cod.
  fid L cod.
  fid L cod.
  fid L cod.
  fid L cod.
  fid L cod.
  destruct x; reflexivity.
Qed.
#[export] Hint Resolve of_to_frame : codec.

Lemma of_to_callstack x j : like (to_json_callstack x) j -> of_json_callstack j = Some x.
Proof.
  intros L. unfold to_json_callstack in L. apply like_written in L; [|reflexivity].
  unfold of_json_callstack. rewrite (written_ok _ _ _ L).
  eapply field_written; [exact L|reflexivity|]. cod.
Qed.
#[export] Hint Resolve of_to_callstack : codec.

Lemma of_to_method x j : is_finite (me_confidence x) = true -> like (to_json_method x) j -> of_json_method j = Some x.
Proof.
  intros C L. unfold to_json_method in L. apply like_written in L; [|reflexivity].
  unfold of_json_method. rewrite (written_ok _ _ _ L).
  freq L finite_cod.
  freq L finite_cod.
  fid L finite_cod.
  destruct x; reflexivity.
Qed.

Lemma of_to_identity x j :
  (forall m, In m (olist (id_methods x)) -> is_finite (me_confidence m) = true) ->
  like (to_json_identity x) j -> of_json_identity j = Some (kept_identity x).
Proof.
  intros C L. unfold to_json_identity in L. apply like_written in L; [|reflexivity].
  unfold of_json_identity. rewrite (written_ok _ _ _ L).
  freq L cod. ff32 L.
  fid L (intros l y E Ly; eapply dec_list_like_id; [exact Ly | intros m z I Lz; apply of_to_method;
    [apply C; rewrite E; exact I | exact Lz]]).
  fid L cod.
  reflexivity.
Qed.

Lemma of_to_copyright x j : like (to_json_copyright x) j -> of_json_copyright j = Some x.
Proof.
  intros L. unfold to_json_copyright in L. apply like_written in L; [|reflexivity].
  unfold of_json_copyright. rewrite (written_ok _ _ _ L).
  eapply field_written; [exact L|reflexivity|]. cod.
Qed.
#[export] Hint Resolve of_to_copyright : codec.

Lemma of_to_evidence v x j :
  (v = V1_5 -> forall i m, ev_identity x = Some i -> In m (olist (id_methods i)) ->
     is_finite (me_confidence m) = true) ->
  like (to_json_evidence v x) j -> of_json_evidence v j = Some (kept_evidence v x).
Proof.
  intros C L. unfold to_json_evidence in L. apply like_written in L; [|reflexivity].
  unfold of_json_evidence. rewrite (written_ok _ _ _ L).
  destruct v; cbn [since version_leb field_when].
  all: fmap L (map (kept_license_choice _)) cod.
  all: fid L cod.
  all: first [foff | fid L cod].
  all: first [foff | fid L cod].
  1,2: foff; reflexivity.
  fmap L kept_identity (intros i y E Ly; apply of_to_identity;
    [intros m I; exact (C eq_refl i m E I) | exact Ly]).
  reflexivity.
Qed.

Lemma of_to_swid x j : like (to_json_swid x) j -> of_json_swid j = Some (kept_swid x).
Proof.
  intros L. unfold to_json_swid in L. apply like_written in L; [|reflexivity].
  unfold of_json_swid. rewrite (written_ok _ _ _ L).
  freq L cod.
  freq L cod.
  fid L cod.
  fid L cod.
  fid L cod.
  fmap L kept_attached_text cod.
  fid L cod.
  reflexivity.
Qed.
#[export] Hint Resolve of_to_swid : codec.

(** ** Components *)

Definition all_in (P : component -> Prop) (o : option (list component)) : Prop :=
  forall c, In c (olist o) -> P c.
Section ComponentInd.
  Variable P : component -> Prop.
  Hypothesis H : forall c,
    all_in P (c_components c) ->
    (forall p, c_pedigree c = Some p ->
       all_in P (pd_ancestors p) /\ all_in P (pd_descendants p) /\ all_in P (pd_variants p)) ->
    P c.
  Fixpoint component_ind' (c : component) : P c.
  Proof.
    assert (G : forall l : list component, (forall d, In d l -> P d) -> True) by auto.
    destruct c as [c1 c2 c3 c4 c5 c6 c7 c8 c9 c10 c11 c12 c13 c14 c15 c16 c17 c18 ped c20 c21 comps
                   c23 c24 c25 c26].
    apply H; cbn [c_components c_pedigree].
    - unfold all_in, olist. destruct comps as [l|]; [|intros d []].
      induction l as [|d l IH]; [intros d []|]. intros e [<-|I]; [apply component_ind'|exact (IH e I)].
    - intros p E. destruct ped as [q|]; [|discriminate]. injection E as <-.
      destruct q as [a d v x y z]; cbn [pd_ancestors pd_descendants pd_variants].
      split; [|split].
      + unfold all_in, olist. destruct a as [l|]; [|intros e []].
        induction l as [|e l IH]; [intros e []|]. intros f [<-|I]; [apply component_ind'|exact (IH f I)].
      + unfold all_in, olist. destruct d as [l|]; [|intros e []].
        induction l as [|e l IH]; [intros e []|]. intros f [<-|I]; [apply component_ind'|exact (IH f I)].
      + unfold all_in, olist. destruct v as [l|]; [|intros e []].
        induction l as [|e l IH]; [intros e []|]. intros f [<-|I]; [apply component_ind'|exact (IH f I)].
  Defined.
End ComponentInd.

(** what a component must satisfy, with everything inside it, to be written and read again *)
Definition readable (v : spec_version) (c : component) : Prop :=
  forall d, within c d -> (v = V1_3 -> c_version d <> None) /\ methods_finite v d.

Lemma to_json_component_eq v x : to_json_component v x = obj [
  ("type", Some (jtext text_classification (c_type x)));
  ("mime-type", opt JStr (c_mime_type x));
  ("bom-ref", opt JStr (c_bom_ref x));
  ("supplier", opt to_json_entity (c_supplier x));
  ("author", opt JStr (c_author x));
  ("publisher", opt JStr (c_publisher x));
  ("group", opt JStr (c_group x));
  ("name", Some (JStr (c_name x)));
  ("version", opt JStr (c_version x));
  ("description", opt JStr (c_description x));
  ("scope", opt (jtext text_scope) (c_scope x));
  ("hashes", opt (arr to_json_hash) (c_hashes x));
  ("licenses", opt (arr (to_json_license_choice v)) (c_licenses x));
  ("copyright", opt JStr (c_copyright x));
  ("cpe", opt JStr (c_cpe x));
  ("purl", opt JStr (c_purl x));
  ("swid", opt to_json_swid (c_swid x));
  ("modified", opt JBool (c_modified x));
  ("pedigree", opt (to_json_pedigree (to_json_component v)) (c_pedigree x));
  ("externalReferences", opt (arr to_json_external_reference) (c_external_references x));
  ("properties", opt (arr to_json_property) (c_properties x));
  ("components", opt (arr (to_json_component v)) (c_components x));
  ("evidence", opt (to_json_evidence v) (c_evidence x));
  ("signature", when (since V1_4 v) (opt to_json_signature (c_signature x)));
  ("modelCard", when (since V1_5 v) (opt to_json_model_card (c_model_card x)));
  ("data", when (since V1_5 v) (opt to_json_component_data (c_data x)))].
Proof. destruct x; reflexivity. Qed.

Lemma kept_component_eq v x : kept_component v x =
  mkComponent
    (kept_classification (c_type x)) (c_mime_type x) (c_bom_ref x) (c_supplier x) (c_author x)
    (c_publisher x) (c_group x) (c_name x) (c_version x) (c_description x)
    (option_map kept_scope (c_scope x))
    (option_map (map kept_hash) (c_hashes x))
    (option_map (map (kept_license_choice v)) (c_licenses x))
    (c_copyright x) (c_cpe x) (c_purl x)
    (option_map kept_swid (c_swid x))
    (c_modified x)
    (option_map (kept_pedigree (kept_component v)) (c_pedigree x))
    (option_map (map kept_external_reference) (c_external_references x))
    (c_properties x)
    (option_map (map (kept_component v)) (c_components x))
    (option_map (kept_evidence v) (c_evidence x))
    (from V1_4 v (option_map kept_signature (c_signature x)))
    (from V1_5 v (option_map kept_model_card (c_model_card x)))
    (from V1_5 v (option_map kept_component_data (c_data x))).
Proof. destruct x; reflexivity. Qed.

Lemma readable_nested v c d : readable v c -> In d (olist (c_components c)) -> readable v d.
Proof. intros R I e W. apply R. eapply within_nested; eauto. Qed.
Lemma readable_pedigree v c p d :
  readable v c -> c_pedigree c = Some p -> In d (pedigree_members p) -> readable v d.
Proof. intros R E I e W. apply R. eapply within_pedigree; eauto. Qed.

Lemma of_to_pedigree (to : component -> json) of (kept : component -> component) x j :
  (forall c y, In c (pedigree_members x) -> like (to c) y -> of y = Some (kept c)) ->
  like (to_json_pedigree to x) j -> of_json_pedigree of j = Some (kept_pedigree kept x).
Proof.
  intros C L. unfold to_json_pedigree in L. apply like_written in L; [|reflexivity].
  unfold of_json_pedigree. rewrite (written_ok _ _ _ L).
  fmap L (map kept) (intros l y E Ly; eapply dec_list_like; [exact Ly | intros c z I Lz; apply C;
    [unfold pedigree_members; rewrite E; apply in_or_app; left; exact I | exact Lz]]).
  fmap L (map kept) (intros l y E Ly; eapply dec_list_like; [exact Ly | intros c z I Lz; apply C;
    [unfold pedigree_members; rewrite E; apply in_or_app; right; apply in_or_app; left; exact I | exact Lz]]).
  fmap L (map kept) (intros l y E Ly; eapply dec_list_like; [exact Ly | intros c z I Lz; apply C;
    [unfold pedigree_members; rewrite E; apply in_or_app; right; apply in_or_app; right; exact I | exact Lz]]).
  fid L cod.
  fmap L (map kept_patch) cod.
  fid L cod.
  reflexivity.
Qed.

Lemma of_json_component_unfold v j : of_json_component v j =
  if struct_ok (keys_component v) j then
    let? a1 := field (dec_text classification_of_text) (keys_component v) "type" j in
    let? a2 := field_opt dec_str (keys_component v) "mime-type" j in
    let? a3 := field_opt dec_str (keys_component v) "bom-ref" j in
    let? a4 := field_opt of_json_entity (keys_component v) "supplier" j in
    let? a5 := field_opt dec_str (keys_component v) "author" j in
    let? a6 := field_opt dec_str (keys_component v) "publisher" j in
    let? a7 := field_opt dec_str (keys_component v) "group" j in
    let? a8 := field dec_str (keys_component v) "name" j in
    let? a9 := (if since V1_4 v then field_opt dec_str (keys_component v) "version" j
                else let? s := field dec_str (keys_component v) "version" j in Some (Some s)) in
    let? a10 := field_opt dec_str (keys_component v) "description" j in
    let? a11 := field_opt (dec_text scope_of_text) (keys_component v) "scope" j in
    let? a12 := field_opt (dec_list of_json_hash) (keys_component v) "hashes" j in
    let? a13 := field_opt (dec_list (of_json_license_choice v)) (keys_component v) "licenses" j in
    let? a14 := field_opt dec_str (keys_component v) "copyright" j in
    let? a15 := field_opt dec_str (keys_component v) "cpe" j in
    let? a16 := field_opt dec_str (keys_component v) "purl" j in
    let? a17 := field_opt of_json_swid (keys_component v) "swid" j in
    let? a18 := field_opt dec_bool (keys_component v) "modified" j in
    let? a19 := field_opt (of_json_pedigree (of_json_component v)) (keys_component v) "pedigree" j in
    let? a20 := field_opt (dec_list of_json_external_reference) (keys_component v)
                  "externalReferences" j in
    let? a21 := field_opt (dec_list of_json_property) (keys_component v) "properties" j in
    let? a22 := field_opt (dec_list (of_json_component v)) (keys_component v) "components" j in
    let? a23 := field_opt (of_json_evidence v) (keys_component v) "evidence" j in
    let? a24 := field_when (since V1_4 v)
                  (field_opt of_json_signature (keys_component v) "signature" j) in
    let? a25 := field_when (since V1_5 v)
                  (field_opt of_json_model_card (keys_component v) "modelCard" j) in
    let? a26 := field_when (since V1_5 v)
                  (field_opt of_json_component_data (keys_component v) "data" j) in
    Some (mkComponent a1 a2 a3 a4 a5 a6 a7 a8 a9 a10 a11 a12 a13 a14 a15 a16 a17 a18 a19 a20 a21
            a22 a23 a24 a25 a26)
  else None.
Proof. destruct j; reflexivity. Qed.

Lemma of_to_component v x : forall j, readable v x ->
  like (to_json_component v x) j -> of_json_component v j = Some (kept_component v x).
Proof.
  induction x as [x IHc IHp] using component_ind'. intros j R L.
  rewrite to_json_component_eq in L. rewrite kept_component_eq.
  apply like_written in L; [|reflexivity].
  rewrite of_json_component_unfold. rewrite (written_ok _ _ _ L).
  destruct (R x (within_self x)) as [Rv Rm].
  freq L cod. fid L cod. fid L cod. fid L cod. fid L cod. fid L cod. fid L cod. freq L cod.
  eapply bindo_intro.
  { instantiate (1 := c_version x). destruct (since V1_4 v) eqn:Sv.
    - eapply field_opt_written_id; [exact L | reflexivity | nonnull | cod].
    - destruct v; try discriminate. destruct (c_version x) as [s|] eqn:E; [|now destruct Rv].
      eapply bindo_intro; [|reflexivity].
      eapply field_written; [exact L | cbn; reflexivity | cod]. }
  fid L cod. fmap L kept_scope cod. fmap L (map kept_hash) cod.
  fmap L (map (kept_license_choice v)) cod. fid L cod. fid L cod. fid L cod. fmap L kept_swid cod.
  fid L cod.
  fmap L (kept_pedigree (kept_component v)) (intros p y E Ly;
    eapply of_to_pedigree; [|exact Ly]; intros c z I Lz; pose proof (readable_pedigree _ _ _ _ R E I);
    destruct (IHp p E) as [I1 [I2 I3]]; unfold pedigree_members in I; rewrite !in_app_iff in I;
    destruct I as [I|[I|I]]; [apply I1|apply I2|apply I3]; assumption).
  fmap L (map kept_external_reference) cod. fid L cod.
  fmap L (map (kept_component v)) (intros l y E Ly; eapply dec_list_like; [exact Ly|];
    intros c z I Lz; assert (Ic : In c (olist (c_components x))) by (rewrite E; exact I);
    apply IHc; [exact Ic | exact (readable_nested _ _ _ R Ic) | exact Lz]).
  fmap L (kept_evidence v) (intros e y E Ly; apply of_to_evidence;
    [intros V i m Ei Im; exact (Rm V e i m E Ei Im) | exact Ly]).
  destruct v; cbn [since version_leb field_when] in *.
  all: first [foff | fmap L kept_signature cod].
  all: first [foff | fmap L kept_model_card cod].
  all: first [foff | fmap L kept_component_data cod].
  all: reflexivity.
Qed.

Lemma of_to_data_classification x j : like (to_json_data_classification x) j -> of_json_data_classification j = Some (kept_data_classification x).
Proof.
  intros L. unfold to_json_data_classification in L. apply like_written in L; [|reflexivity].
  unfold of_json_data_classification. rewrite (written_ok _ _ _ L).
  freq L cod.
  freq L cod.
  reflexivity.
Qed.
#[export] Hint Resolve of_to_data_classification : codec.

(** ** Services *)

Lemma of_to_service_classification x j : like (to_json_service_data x) j ->
  of_json_data_classification j = Some (kept_data_classification (sd_classification x)).
Proof.
  intros L. unfold to_json_service_data in L. apply like_written in L; [|reflexivity].
  unfold of_json_data_classification. rewrite (written_ok _ _ _ L). freq L cod. freq L cod. reflexivity.
Qed.
Lemma of_to_data v x j : like (to_json_data v x) j -> of_json_data v j = Some (kept_data x).
Proof.
  unfold of_json_data. destruct x as [l|l]; cbn [to_json_data kept_data].
  - destruct (since V1_5 v); intros L.
    + rewrite (dec_list_like of_json_data_classification to_json_service_data
                 (fun d => kept_data_classification (sd_classification d)) l j L); [reflexivity|].
      intros; now apply of_to_service_classification.
    + rewrite (dec_list_like of_json_data_classification to_json_data_classification
                 kept_data_classification _ j L); [cbn; now rewrite map_map|].
      intros; now apply of_to_data_classification.
  - intros L.
    rewrite (dec_list_like of_json_data_classification to_json_data_classification
               kept_data_classification _ j L); [reflexivity|].
    intros; now apply of_to_data_classification.
Qed.
#[export] Hint Resolve of_to_data : codec.
Lemma nonnull_data v x : to_json_data v x <> JNull.
Proof. destruct x, v; discriminate. Qed.

Section ServiceInd.
  Variable P : service -> Prop.
  Hypothesis H : forall s, (forall t, In t (olist (s_services s)) -> P t) -> P s.
  Fixpoint service_ind' (s : service) : P s.
  Proof.
    destruct s as [s1 s2 s3 s4 s5 s6 s7 s8 s9 s10 s11 s12 s13 subs s15 s16].
    apply H; cbn [s_services]. unfold olist. destruct subs as [l|]; [|intros t []].
    induction l as [|d l IH]; [intros d []|]. intros e [<-|I]; [apply service_ind'|exact (IH e I)].
  Defined.
End ServiceInd.
Lemma to_json_service_eq v x : to_json_service v x = obj [
  ("bom-ref", opt JStr (s_bom_ref x));
  ("provider", opt to_json_entity (s_provider x));
  ("group", opt JStr (s_group x));
  ("name", Some (JStr (s_name x)));
  ("version", opt JStr (s_version x));
  ("description", opt JStr (s_description x));
  ("endpoints", opt (arr JStr) (s_endpoints x));
  ("authenticated", opt JBool (s_authenticated x));
  ("x-trust-boundary", opt JBool (s_x_trust_boundary x));
  ("data", opt (to_json_data v) (s_data x));
  ("licenses", opt (arr (to_json_license_choice v)) (s_licenses x));
  ("externalReferences", opt (arr to_json_external_reference) (s_external_references x));
  ("properties", opt (arr to_json_property) (s_properties x));
  ("services", opt (arr (to_json_service v)) (s_services x));
  ("signature", when (since V1_4 v) (opt to_json_signature (s_signature x)));
  ("trustZone", when (since V1_5 v) (opt JStr (s_trust_zone x)))].
Proof. destruct x; reflexivity. Qed.
Lemma kept_service_eq v x : kept_service v x =
  mkService (s_bom_ref x) (s_provider x) (s_group x) (s_name x) (s_version x) (s_description x)
    (s_endpoints x) (s_authenticated x) (s_x_trust_boundary x)
    (option_map kept_data (s_data x))
    (option_map (map (kept_license_choice v)) (s_licenses x))
    (option_map (map kept_external_reference) (s_external_references x))
    (s_properties x)
    (option_map (map (kept_service v)) (s_services x))
    (from V1_4 v (option_map kept_signature (s_signature x)))
    (from V1_5 v (s_trust_zone x)).
Proof. destruct x; reflexivity. Qed.
Lemma of_json_service_unfold v j : of_json_service v j =
  if struct_ok (keys_service v) j then
    let? a1 := field_opt dec_str (keys_service v) "bom-ref" j in
    let? a2 := field_opt of_json_entity (keys_service v) "provider" j in
    let? a3 := field_opt dec_str (keys_service v) "group" j in
    let? a4 := field dec_str (keys_service v) "name" j in
    let? a5 := field_opt dec_str (keys_service v) "version" j in
    let? a6 := field_opt dec_str (keys_service v) "description" j in
    let? a7 := field_opt (dec_list dec_str) (keys_service v) "endpoints" j in
    let? a8 := field_opt dec_bool (keys_service v) "authenticated" j in
    let? a9 := field_opt dec_bool (keys_service v) "x-trust-boundary" j in
    let? a10 := field_opt (of_json_data v) (keys_service v) "data" j in
    let? a11 := field_opt (dec_list (of_json_license_choice v)) (keys_service v) "licenses" j in
    let? a12 := field_opt (dec_list of_json_external_reference) (keys_service v)
                  "externalReferences" j in
    let? a13 := field_opt (dec_list of_json_property) (keys_service v) "properties" j in
    let? a14 := field_opt (dec_list (of_json_service v)) (keys_service v) "services" j in
    let? a15 := field_when (since V1_4 v)
                  (field_opt of_json_signature (keys_service v) "signature" j) in
    let? a16 := field_when (since V1_5 v) (field_opt dec_str (keys_service v) "trustZone" j) in
    Some (mkService a1 a2 a3 a4 a5 a6 a7 a8 a9 a10 a11 a12 a13 a14 a15 a16)
  else None.
Proof. destruct j; reflexivity. Qed.
Lemma of_to_service v x : forall j,
  like (to_json_service v x) j -> of_json_service v j = Some (kept_service v x).
Proof.
  induction x as [x IH] using service_ind'. intros j L.
  rewrite to_json_service_eq in L. rewrite kept_service_eq.
  apply like_written in L; [|reflexivity].
  rewrite of_json_service_unfold. rewrite (written_ok _ _ _ L).
  fid L cod. fid L cod. fid L cod. freq L cod. fid L cod. fid L cod. fid L cod. fid L cod. fid L cod.
  eapply bindo_intro; [eapply field_opt_written with (h := kept_data);
    [exact L | reflexivity | apply nonnull_data | cod] |].
  fmap L (map (kept_license_choice v)) cod. fmap L (map kept_external_reference) cod. fid L cod.
  fmap L (map (kept_service v)) (intros l y E Ly; eapply dec_list_like; [exact Ly|];
    intros c z I Lz; apply IH; [rewrite E; exact I | exact Lz]).
  destruct v; cbn [since version_leb field_when] in *.
  all: first [foff | fmap L kept_signature cod].
  all: first [foff | fid L cod].
  all: reflexivity.
Qed.
#[export] Hint Resolve of_to_service : codec.

Lemma of_to_tool v x j : like (to_json_tool v x) j -> of_json_tool v j = Some (kept_tool v x).
Proof.
  intros L. unfold to_json_tool in L. apply like_written in L; [|reflexivity].
  unfold of_json_tool. rewrite (written_ok _ _ _ L).
  destruct v.
  all: cbn [since version_leb field_when].
  all: fid L cod.
  all: fid L cod.
  all: fid L cod.
  all: fmap L (map kept_hash) cod.
  all: first [foff | fmap L (map kept_external_reference) cod].
  all: reflexivity.
Qed.
#[export] Hint Resolve of_to_tool : codec.

Definition all_readable (v : spec_version) (l : list component) : Prop :=
  forall c, In c l -> readable v c.
Lemma nonnull_component v x : to_json_component v x <> JNull.
Proof. destruct x; discriminate. Qed.
Lemma of_to_tools v x j : all_readable v (tools_components v x) ->
  like (to_json_tools v x) j -> of_json_tools v j = Some (kept_tools v x).
Proof.
  intros C. unfold of_json_tools. destruct x as [l|s c]; cbn [to_json_tools kept_tools]; intros L.
  - rewrite (dec_list_like (of_json_tool v) (to_json_tool v) (kept_tool v) l j L); [reflexivity|].
    intros; now apply of_to_tool.
  - destruct v; cbn [since version_leb tools_components] in *.
    1,2: inversion L as [| | | | |l0 l' F|]; subst; inversion F; subst; reflexivity.
    rewrite (like_obj_not_list _ _ _ L). cbn [bindo orelse].
    apply like_written in L; [|reflexivity]. rewrite (written_object_ok _ _ _ L).
    fmap L (map (kept_service V1_5)) cod.
    fmap L (map (kept_component V1_5)) (intros l y E Ly; eapply dec_list_like; [exact Ly|];
      intros d z I Lz; apply of_to_component; [apply C; rewrite E; exact I | exact Lz]).
    reflexivity.
Qed.
Lemma nonnull_tools v x : to_json_tools v x <> JNull.
Proof. destruct x, v; discriminate. Qed.
Lemma of_to_lifecycle x j : like (to_json_lifecycle x) j -> of_json_lifecycle j = Some (kept_lifecycle x).
Proof.
  destruct x as [p|n d]; cbn [to_json_lifecycle]; intros L; unfold of_json_lifecycle.
  - apply like_single in L as [y [-> L]]. cbn [ext_tag bindo]. rewrite String.eqb_refl.
    now rewrite (enum_phase _ _ L).
  - match goal with |- orelse ?a _ = _ => assert (Q : a = None) end.
    { destruct d as [d|].
      - apply like_length_obj in L as [l' [-> E]]. cbn in E.
        destruct l' as [|[k y] [|? ?]]; try discriminate. reflexivity.
      - apply like_single in L as [y [-> L]]. reflexivity. }
    rewrite Q. cbn [orelse]. apply like_written in L; [|reflexivity].
    rewrite (written_ok _ _ _ L). freq L cod. fid L cod. reflexivity.
Qed.
#[export] Hint Resolve of_to_lifecycle : codec.

Lemma of_to_metadata v x j :
  all_readable v (flat_map (tools_components v) (one (m_tools x)) ++ one (m_component x)) ->
  like (to_json_metadata v x) j -> of_json_metadata v j = Some (kept_metadata v x).
Proof.
  intros C L. unfold to_json_metadata in L. apply like_written in L; [|reflexivity].
  unfold of_json_metadata. rewrite (written_ok _ _ _ L).
  fid L cod.
  eapply bindo_intro; [eapply field_opt_written with (h := kept_tools v);
    [exact L | reflexivity | apply nonnull_tools | ] |].
  { intros t y E Ly. apply of_to_tools; [|exact Ly]. intros c I. apply C. rewrite E. cbn.
    rewrite app_nil_r. apply in_or_app. now left. }
  fid L cod.
  eapply bindo_intro; [eapply field_opt_written with (h := kept_component v);
    [exact L | reflexivity | apply nonnull_component | ] |].
  { intros c y E Ly. apply of_to_component; [|exact Ly]. apply C. rewrite E.
    apply in_or_app. right. now left. }
  fid L cod. fid L cod. fmap L (map (kept_license_choice v)) cod. fid L cod.
  destruct v; cbn [since version_leb field_when].
  all: first [foff | fmap L (map kept_lifecycle) cod].
  all: reflexivity.
Qed.

Lemma of_to_dependency x j : like (to_json_dependency x) j -> of_json_dependency j = Some x.
Proof.
  intros L. unfold to_json_dependency in L. apply like_written in L; [|reflexivity].
  unfold of_json_dependency. rewrite (written_ok _ _ _ L).
  freq L cod.
  eapply bindo_intro.
  { eapply (field_default_written _ _ (arr JStr) _ _ _ _ (d_dependencies x));
      [exact L | destruct (d_dependencies x); reflexivity | reflexivity | cod]. }
  destruct x; reflexivity.
Qed.
#[export] Hint Resolve of_to_dependency : codec.

Lemma of_to_composition v x j : like (to_json_composition v x) j -> of_json_composition v j = Some (kept_composition v x).
Proof.
  intros L. unfold to_json_composition in L. apply like_written in L; [|reflexivity].
  unfold of_json_composition. rewrite (written_ok _ _ _ L).
  destruct v.
  all: cbn [since version_leb field_when].
  all: first [foff | fid L cod].
  all: freq L cod.
  all: fid L cod.
  all: fid L cod.
  all: first [foff | fid L cod].
  all: first [foff | fmap L kept_signature cod].
  all: reflexivity.
Qed.
#[export] Hint Resolve of_to_composition : codec.

Definition annotator_components (x : annotator) : list component :=
  match x with AnComponent c => [c] | _ => [] end.
Lemma of_to_annotator v x j : all_readable v (annotator_components x) ->
  like (to_json_annotator v x) j -> of_json_annotator v j = Some (kept_annotator v x).
Proof.
  intros C.
  destruct x; intros L; apply like_single in L as [y [-> L]]; unfold of_json_annotator; cbn;
    (eapply bindo_intro; [|reflexivity]); eauto with codec.
  apply of_to_component; [|exact L]. apply C. now left.
Qed.

Lemma of_to_annotation v x j : all_readable v (annotator_components (an_annotator x)) ->
  like (to_json_annotation v x) j -> of_json_annotation v j = Some (kept_annotation v x).
Proof.
  intros C L. unfold to_json_annotation in L. apply like_written in L; [|reflexivity].
  unfold of_json_annotation. rewrite (written_ok _ _ _ L).
  fid L cod. freq L cod.
  freq L (intros y Ly; apply of_to_annotator; [exact C|exact Ly]).
  freq L cod. freq L cod. fmap L kept_signature cod. reflexivity.
Qed.

Lemma of_to_vuln_source x j : like (to_json_vuln_source x) j -> of_json_vuln_source j = Some x.
Proof.
  intros L. unfold to_json_vuln_source in L. apply like_written in L; [|reflexivity].
  unfold of_json_vuln_source. rewrite (written_ok _ _ _ L).
  fid L cod.
  fid L cod.
  destruct x; reflexivity.
Qed.
#[export] Hint Resolve of_to_vuln_source : codec.

Lemma of_to_vuln_reference x j : like (to_json_vuln_reference x) j -> of_json_vuln_reference j = Some x.
Proof.
  intros L. unfold to_json_vuln_reference in L. apply like_written in L; [|reflexivity].
  unfold of_json_vuln_reference. rewrite (written_ok _ _ _ L).
  freq L cod.
  freq L cod.
  destruct x; reflexivity.
Qed.
#[export] Hint Resolve of_to_vuln_reference : codec.

Lemma of_to_vuln_rating x j : like (to_json_vuln_rating x) j -> of_json_vuln_rating j = Some (kept_vuln_rating x).
Proof.
  intros L. unfold to_json_vuln_rating in L. apply like_written in L; [|reflexivity].
  unfold of_json_vuln_rating. rewrite (written_ok _ _ _ L).
  fid L cod.
  ff32 L.
  fmap L kept_severity cod.
  fmap L kept_score_method cod.
  fid L cod.
  fid L cod.
  reflexivity.
Qed.
#[export] Hint Resolve of_to_vuln_rating : codec.

Lemma of_to_advisory x j : like (to_json_advisory x) j -> of_json_advisory j = Some x.
Proof.
  intros L. unfold to_json_advisory in L. apply like_written in L; [|reflexivity].
  unfold of_json_advisory. rewrite (written_ok _ _ _ L).
  fid L cod.
  freq L cod.
  destruct x; reflexivity.
Qed.
#[export] Hint Resolve of_to_advisory : codec.

Lemma of_to_vuln_credits x j : like (to_json_vuln_credits x) j -> of_json_vuln_credits j = Some x.
Proof.
  intros L. unfold to_json_vuln_credits in L. apply like_written in L; [|reflexivity].
  unfold of_json_vuln_credits. rewrite (written_ok _ _ _ L).
  fid L cod.
  fid L cod.
  destruct x; reflexivity.
Qed.
#[export] Hint Resolve of_to_vuln_credits : codec.

Lemma of_to_vuln_analysis v x j : like (to_json_vuln_analysis v x) j -> of_json_vuln_analysis v j = Some (kept_vuln_analysis v x).
Proof.
  intros L. unfold to_json_vuln_analysis in L. apply like_written in L; [|reflexivity].
  unfold of_json_vuln_analysis. rewrite (written_ok _ _ _ L).
  destruct v.
  all: cbn [since version_leb field_when].
  all: fmap L kept_analysis_state cod.
  all: fmap L kept_analysis_justification cod.
  all: fmap L (map kept_analysis_response) cod.
  all: fid L cod.
  all: first [foff | fid L cod].
  all: first [foff | fid L cod].
  all: reflexivity.
Qed.
#[export] Hint Resolve of_to_vuln_analysis : codec.

Lemma of_to_version_range x fs j : written fs j ->
  assoc (fst (version_range_member x)) fs = Some (snd (version_range_member x)) ->
  (forall k, memb k ["version"; "range"; "undefinedVersionRange"] = true ->
     k <> fst (version_range_member x) ->
     match assoc k fs with Some (Some _) => False | _ => True end) ->
  of_json_version_range j = Some x.
Proof.
  intros W A U. unfold of_json_version_range.
  destruct x as [s|s|s]; cbn [version_range_member fst snd] in A, U;
    match type of A with assoc ?k _ = _ =>
      destruct (first_written ["version"; "range"; "undefinedVersionRange"] fs j k (JStr s) W eq_refl A U)
        as [y [-> L]] end;
    cbn [bindo]; inversion L; subst; reflexivity.
Qed.
Lemma of_to_version_status x j :
  like (to_json_version_status x) j -> of_json_version_status j = Some (kept_version_status x).
Proof.
  destruct x as [r s]. intros L. unfold to_json_version_status in L. cbn [ve_range ve_status] in L.
  apply like_written in L; [|destruct r; reflexivity].
  unfold of_json_version_status. rewrite (written_object_ok _ _ _ L).
  eapply bindo_intro.
  { eapply of_to_version_range with (x := r); [exact L | |]; destruct r; first [reflexivity | only_one]. }
  destruct r; (freq L cod); reflexivity.
Qed.
#[export] Hint Resolve of_to_version_status : codec.

Lemma of_to_vuln_target x j : like (to_json_vuln_target x) j -> of_json_vuln_target j = Some (kept_vuln_target x).
Proof.
  intros L. unfold to_json_vuln_target in L. apply like_written in L; [|reflexivity].
  unfold of_json_vuln_target. rewrite (written_ok _ _ _ L).
  freq L cod.
  fmap L (map kept_version_status) cod.
  reflexivity.
Qed.
#[export] Hint Resolve of_to_vuln_target : codec.

Lemma of_to_proof_of_concept x j : like (to_json_proof_of_concept x) j -> of_json_proof_of_concept j = Some x.
Proof.
  intros L. unfold to_json_proof_of_concept in L. apply like_written in L; [|reflexivity].
  unfold of_json_proof_of_concept. rewrite (written_ok _ _ _ L).
  fid L cod.
  fid L cod.
  fid L cod.
  destruct x; reflexivity.
Qed.
#[export] Hint Resolve of_to_proof_of_concept : codec.

Lemma of_to_vulnerability v x j :
  all_readable v (flat_map (tools_components v) (one (v_tools x))) ->
  like (to_json_vulnerability v x) j -> of_json_vulnerability v j = Some (kept_vulnerability v x).
Proof.
  intros C L. unfold to_json_vulnerability in L. apply like_written in L; [|reflexivity].
  unfold of_json_vulnerability. rewrite (written_ok _ _ _ L).
  assert (T : field_opt (of_json_tools v) (keys_vulnerability v) "tools" j =
              Some (option_map (kept_tools v) (v_tools x))).
  { eapply field_opt_written with (h := kept_tools v);
      [exact L | reflexivity | apply nonnull_tools |].
    intros t y E Ly. apply of_to_tools; [|exact Ly]. intros c I. apply C. rewrite E. cbn.
    now rewrite app_nil_r. }
  destruct v; cbn [since version_leb field_when].
  all: fid L cod.
  all: fid L cod.
  all: fid L cod.
  all: fid L cod.
  all: fmap L (map kept_vuln_rating) cod.
  all: fid L cod.
  all: fid L cod.
  all: fid L cod.
  all: fid L cod.
  all: first [foff | fid L cod].
  all: first [foff | fid L cod].
  all: fid L cod.
  all: fid L cod.
  all: fid L cod.
  all: fid L cod.
  all: first [foff | fid L cod].
  all: fid L cod.
  all: eapply bindo_intro; [exact T|].
  all: fmap L (kept_vuln_analysis _) cod.
  all: fmap L (map kept_vuln_target) cod.
  all: fid L cod.
  all: reflexivity.
Qed.

Lemma of_to_resource_reference x j :
  like (to_json_resource_reference x) j -> of_json_resource_reference j = Some (kept_resource_reference x).
Proof.
  destruct x as [s|e]; cbn [to_json_resource_reference]; intros L; unfold of_json_resource_reference.
  - apply like_written in L; [|reflexivity]. rewrite (written_object_ok _ _ _ L).
    erewrite (field_written dec_str _ "ref" _ _ _ s L); [reflexivity | reflexivity | cod].
  - apply like_single in L as [y [-> L]]. cbn. unfold field. rewrite get_JObj. cbn.
    now rewrite (of_to_external_reference _ _ L).
Qed.
#[export] Hint Resolve of_to_resource_reference : codec.
Lemma of_to_environment_var x j :
  like (to_json_environment_var x) j -> of_json_environment_var j = Some x.
Proof.
  destruct x as [n s|s]; cbn [to_json_environment_var]; intros L; unfold of_json_environment_var.
  - apply like_written in L; [|reflexivity]. rewrite (written_object_ok _ _ _ L).
    erewrite (field_written dec_str _ "name" _ _ _ n L); [|reflexivity | cod].
    erewrite (field_written dec_str _ "value" _ _ _ s L); [reflexivity | reflexivity | cod].
  - inversion L; subst. reflexivity.
Qed.
#[export] Hint Resolve of_to_environment_var : codec.

Lemma of_to_parameter x j : like (to_json_parameter x) j -> of_json_parameter j = Some x.
Proof.
  intros L. unfold to_json_parameter in L. apply like_written in L; [|reflexivity].
  unfold of_json_parameter. rewrite (written_ok _ _ _ L).
  fid L cod.
  fid L cod.
  fid L cod.
  destruct x; reflexivity.
Qed.
#[export] Hint Resolve of_to_parameter : codec.

Lemma variant_here {A B} k (f : json -> option A) (c : A -> B) fs j x a :
  written fs j -> assoc k fs = Some (Some x) -> (forall y, like x y -> f y = Some a) ->
  variant k f c j = Some (c a).
Proof.
  intros W H F. unfold variant. rewrite (written_object_ok _ _ _ W).
  now rewrite (field_written f _ k _ _ _ _ W H F).
Qed.
Lemma variant_absent {A B} k (f : json -> option A) (c : A -> B) fs j :
  written fs j -> assoc k fs = None -> variant k f c j = None.
Proof.
  intros W H. unfold variant. rewrite (written_object_ok _ _ _ W).
  destruct W as [l [-> [N [_ G]]]]. specialize (G k). rewrite H in G.
  unfold field. now rewrite get_JObj, G.
Qed.
Definition kept_required_input (x : required_input) : required_input :=
  match x with RIResource r => RIResource (kept_resource_reference r) | _ => x end.
Definition kept_required_output (x : required_output) : required_output :=
  match x with ROResource r => ROResource (kept_resource_reference r) | _ => x end.
Ltac variants L :=
  repeat (rewrite (variant_absent _ _ _ _ _ L) by reflexivity; cbn [orelse]);
  erewrite variant_here; [reflexivity | exact L | reflexivity | cod].
Lemma of_to_input x j : like (to_json_input x) j -> of_json_input j = Some (kept_input x).
Proof.
  intros L. unfold to_json_input in L. destruct x as [r s t p]; cbn [in_required in_source in_target in_properties] in *.
  apply like_written in L; [|destruct r; reflexivity].
  unfold of_json_input. rewrite (written_object_ok _ _ _ L).
  eapply bindo_intro.
  { instantiate (1 := kept_required_input r). unfold of_json_required_input.
    destruct r; cbn [required_input_member] in L; variants L. }
  destruct r; cbn [required_input_member] in L.
  all: fmap L kept_resource_reference cod.
  all: fmap L kept_resource_reference cod.
  all: fid L cod.
  all: reflexivity.
Qed.
#[export] Hint Resolve of_to_input : codec.
Lemma of_to_output x j : like (to_json_output x) j -> of_json_output j = Some (kept_output x).
Proof.
  intros L. unfold to_json_output in L.
  destruct x as [r ty s t p]; cbn [ou_required ou_type ou_source ou_target ou_properties] in *.
  apply like_written in L; [|destruct r; reflexivity].
  unfold of_json_output. rewrite (written_object_ok _ _ _ L).
  eapply bindo_intro.
  { instantiate (1 := kept_required_output r). unfold of_json_required_output.
    destruct r; cbn [required_output_member] in L; variants L. }
  destruct r; cbn [required_output_member] in L.
  all: fmap L kept_output_type cod.
  all: fmap L kept_resource_reference cod.
  all: fmap L kept_resource_reference cod.
  all: fid L cod.
  all: reflexivity.
Qed.
#[export] Hint Resolve of_to_output : codec.

Lemma of_to_command x j : like (to_json_command x) j -> of_json_command j = Some x.
Proof.
  intros L. unfold to_json_command in L. apply like_written in L; [|reflexivity].
  unfold of_json_command. rewrite (written_ok _ _ _ L).
  fid L cod.
  fid L cod.
  destruct x; reflexivity.
Qed.
#[export] Hint Resolve of_to_command : codec.

Lemma of_to_step x j : like (to_json_step x) j -> of_json_step j = Some x.
Proof.
  intros L. unfold to_json_step in L. apply like_written in L; [|reflexivity].
  unfold of_json_step. rewrite (written_ok _ _ _ L).
  fid L cod.
  fid L cod.
  fid L cod.
  fid L cod.
  destruct x; reflexivity.
Qed.
#[export] Hint Resolve of_to_step : codec.

Lemma of_to_volume x j : like (to_json_volume x) j -> of_json_volume j = Some (kept_volume x).
Proof.
  intros L. unfold to_json_volume in L. apply like_written in L; [|reflexivity].
  unfold of_json_volume. rewrite (written_ok _ _ _ L).
  fid L cod. fid L cod. fmap L kept_volume_mode cod. fid L cod. fid L cod. fid L cod. fid L cod.
  fid L cod. reflexivity.
Qed.
#[export] Hint Resolve of_to_volume : codec.

Lemma of_to_workspace x j : like (to_json_workspace x) j -> of_json_workspace j = Some (kept_workspace x).
Proof.
  intros L. unfold to_json_workspace in L. apply like_written in L; [|reflexivity].
  unfold of_json_workspace. rewrite (written_ok _ _ _ L).
  freq L cod.
  freq L cod.
  fid L cod.
  fid L cod.
  fid L cod.
  fmap L (map kept_resource_reference) cod.
  fmap L kept_access_mode cod.
  fid L cod.
  fid L cod.
  fid L cod.
  fmap L kept_volume cod.
  fid L cod.
  reflexivity.
Qed.
#[export] Hint Resolve of_to_workspace : codec.

Lemma of_to_condition x j : like (to_json_condition x) j -> of_json_condition j = Some x.
Proof.
  intros L. unfold to_json_condition in L. apply like_written in L; [|reflexivity].
  unfold of_json_condition. rewrite (written_ok _ _ _ L).
  fid L cod.
  fid L cod.
  fid L cod.
  destruct x; reflexivity.
Qed.
#[export] Hint Resolve of_to_condition : codec.

Lemma of_to_event x j : like (to_json_event x) j -> of_json_event j = Some (kept_event x).
Proof.
  intros L. unfold to_json_event in L. apply like_written in L; [|reflexivity].
  unfold of_json_event. rewrite (written_ok _ _ _ L).
  fid L cod.
  fid L cod.
  fid L cod.
  fid L cod.
  fmap L kept_resource_reference cod.
  fmap L kept_resource_reference cod.
  fid L cod.
  reflexivity.
Qed.
#[export] Hint Resolve of_to_event : codec.

Lemma of_to_trigger x j : like (to_json_trigger x) j -> of_json_trigger j = Some (kept_trigger x).
Proof.
  intros L. unfold to_json_trigger in L. apply like_written in L; [|reflexivity].
  unfold of_json_trigger. rewrite (written_ok _ _ _ L).
  freq L cod.
  freq L cod.
  fid L cod.
  fid L cod.
  fmap L (map kept_resource_reference) cod.
  freq L cod.
  fmap L kept_event cod.
  fid L cod.
  fid L cod.
  fmap L (map kept_input) cod.
  fmap L (map kept_output) cod.
  fid L cod.
  reflexivity.
Qed.
#[export] Hint Resolve of_to_trigger : codec.

Lemma of_to_task x j : like (to_json_task x) j -> of_json_task j = Some (kept_task x).
Proof.
  intros L. unfold to_json_task in L. apply like_written in L; [|reflexivity].
  unfold of_json_task. rewrite (written_ok _ _ _ L).
  freq L cod.
  freq L cod.
  fid L cod.
  fid L cod.
  fmap L (map kept_resource_reference) cod.
  freqv L (map  kept_task_type (tk_task_types x)) cod.
  fmap L kept_trigger cod.
  fid L cod.
  fmap L (map kept_input) cod.
  fmap L (map kept_output) cod.
  fid L cod.
  fid L cod.
  fmap L (map kept_workspace) cod.
  fid L cod.
  fid L cod.
  reflexivity.
Qed.
#[export] Hint Resolve of_to_task : codec.

Lemma of_to_workflow x j : like (to_json_workflow x) j -> of_json_workflow j = Some (kept_workflow x).
Proof.
  intros L. unfold to_json_workflow in L. apply like_written in L; [|reflexivity].
  unfold of_json_workflow. rewrite (written_ok _ _ _ L).
  freq L cod.
  freq L cod.
  fid L cod.
  fid L cod.
  fmap L (map kept_resource_reference) cod.
  fmap L (map kept_task) cod.
  fid L cod.
  freqv L (map  kept_task_type (wf_task_types x)) cod.
  fmap L kept_trigger cod.
  fid L cod.
  fmap L (map kept_input) cod.
  fmap L (map kept_output) cod.
  fid L cod.
  fid L cod.
  fmap L (map kept_workspace) cod.
  fid L cod.
  fid L cod.
  reflexivity.
Qed.
#[export] Hint Resolve of_to_workflow : codec.

Lemma of_to_formula v x j : all_readable v (olist (fo_components x)) ->
  like (to_json_formula v x) j -> of_json_formula v j = Some (kept_formula v x).
Proof.
  intros C L. unfold to_json_formula in L. apply like_written in L; [|reflexivity].
  unfold of_json_formula. rewrite (written_ok _ _ _ L).
  fid L cod.
  fmap L (map (kept_component v)) (intros l y E Ly; eapply dec_list_like; [exact Ly|];
    intros d z I Lz; apply of_to_component; [apply C; rewrite E; exact I | exact Lz]).
  fmap L (map (kept_service v)) cod.
  fmap L (map kept_workflow) cod. fid L cod. reflexivity.
Qed.

Lemma of_to_bom v x j : all_readable v (bom_roots v x) ->
  like (to_json_bom v x) j -> of_json_bom v j = Some (kept_bom v x).
Proof.
  intros C L. unfold to_json_bom in L. apply like_written in L; [|reflexivity].
  unfold of_json_bom. rewrite (written_ok _ _ _ L).
  freq L (intros y Ly; inversion Ly; subst; reflexivity).
  freq L (intros y Ly; inversion Ly; subst; destruct v; reflexivity).
  freq L cod. fid L cod.
  fmap L (kept_metadata v) (intros m y E Ly; apply of_to_metadata; [|exact Ly];
    intros c I; apply C; unfold bom_roots; rewrite E; cbn [one flat_map]; rewrite app_nil_r;
    apply in_or_app; left; exact I).
  fmap L (map (kept_component v)) (intros l y E Ly; eapply dec_list_like; [exact Ly|];
    intros d z I Lz; apply of_to_component; [|exact Lz]; apply C; unfold bom_roots; rewrite E;
    apply in_or_app; right; apply in_or_app; left; exact I).
  fmap L (map (kept_service v)) cod.
  fmap L (map kept_external_reference) cod. fid L cod.
  fmap L (map (kept_composition v)) cod.
  assert (V : since V1_4 v = true -> field_opt (dec_list (of_json_vulnerability v)) (keys_bom v) "vulnerabilities" j
              = Some (option_map (map (kept_vulnerability v)) (b_vulnerabilities x))).
  { intros S. eapply field_opt_written with (h := map (kept_vulnerability v));
      [exact L | destruct v; try discriminate S; reflexivity | nonnull |].
    intros l y E Ly. eapply dec_list_like; [exact Ly|]. intros d z I Lz. apply of_to_vulnerability; [|exact Lz].
    intros c Ic. apply C. unfold bom_roots. rewrite E. unfold since in S.
    apply in_or_app; right; apply in_or_app; right; apply in_or_app; left.
    unfold from_list; rewrite S. apply in_flat_map. eauto. }
  assert (A : since V1_5 v = true -> field_opt (dec_list (of_json_annotation v)) (keys_bom v) "annotations" j
              = Some (option_map (map (kept_annotation v)) (b_annotations x))).
  { intros S. eapply field_opt_written with (h := map (kept_annotation v));
      [exact L | destruct v; try discriminate S; reflexivity | nonnull |].
    intros l y E Ly. eapply dec_list_like; [exact Ly|]. intros d z I Lz. apply of_to_annotation; [|exact Lz].
    intros c Ic. apply C. unfold bom_roots. rewrite E. unfold since in S.
    apply in_or_app; right; apply in_or_app; right; apply in_or_app; right; apply in_or_app; left.
    unfold from_list; rewrite S. apply in_flat_map. exists d. split; [exact I|exact Ic]. }
  assert (F : since V1_5 v = true -> field_opt (dec_list (of_json_formula v)) (keys_bom v) "formulation" j
              = Some (option_map (map (kept_formula v)) (b_formulation x))).
  { intros S. eapply field_opt_written with (h := map (kept_formula v));
      [exact L | destruct v; try discriminate S; reflexivity | nonnull |].
    intros l y E Ly. eapply dec_list_like; [exact Ly|]. intros d z I Lz. apply of_to_formula; [|exact Lz].
    intros c Ic. apply C. unfold bom_roots. rewrite E. unfold since in S.
    apply in_or_app; right; apply in_or_app; right; apply in_or_app; right; apply in_or_app; right.
    unfold from_list; rewrite S. apply in_flat_map. exists d. split; [exact I|exact Ic]. }
  destruct v; cbn [since version_leb field_when] in *.
  all: first [foff | eapply bindo_intro; [exact (V eq_refl)|]].
  all: first [foff | fmap L kept_signature cod].
  all: first [foff | eapply bindo_intro; [exact (A eq_refl)|]].
  all: first [foff | fid L cod].
  all: first [foff | eapply bindo_intro; [exact (F eq_refl)|]].
  all: reflexivity.
Qed.

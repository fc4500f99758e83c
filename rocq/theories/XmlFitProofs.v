(** Which BOMs can be read after they were saved as XML: proofs. *)
From Verif Require Import Base ModelTypes Strings Enums GenModel Json JsonLemmas JsonSpec JsonProofs
  Xml XmlLemmas XmlModel XmlSpec XmlProofs2 XmlFitSpec.
Open Scope string_scope.
Open Scope list_scope.

Section FIT.
  Context (w : spec_version).
  (** [o] is a value iff the parts [l] fit *)
  Definition same {B} (o : option B) (l : list part) : Prop := o <> None <-> Forall (part_fits w) l.

  Lemma same_some {B} (b : B) : same (Some b) [].
  Proof. split; [constructor|discriminate]. Qed.
  Lemma same_bind {A B} (e : option A) (f : A -> option B) l1 l2 :
    same e l1 -> (forall x, same (f x) l2) -> same (bindo e f) (l1 ++ l2).
  Proof.
    intros H G. unfold same in *. rewrite Forall_app, <- H. destruct e as [x|]; cbn [bindo].
    - rewrite (G x). split; [intros K; split; [discriminate|exact K]|tauto].
    - split; [intros K; now destruct K|tauto].
  Qed.
  Lemma same_last {A B} (e : option A) (f : A -> B) l : same e l -> same (bindo e (fun x => Some (f x))) l.
  Proof. intros H. rewrite <- (app_nil_r l). apply same_bind; [exact H|]. intros x. apply same_some. Qed.
  Lemma same_maybe {A B} (k : A -> option B) f o : (forall a, o = Some a -> same (k a) (f a)) -> same (maybe k o) (in_some f o).
  Proof. intros H. destruct o as [a|]; [|apply same_some]. cbn [maybe in_some]. apply same_last. now apply H. Qed.
  Lemma same_each {A B} (k : A -> option B) f l : (forall a, In a l -> same (k a) (f a)) -> same (each k l) (flat_map f l).
  Proof.
    induction l as [|a l IH]; intros H; [apply same_some|]. cbn [each flat_map]. apply same_bind; [apply H; now left|].
    intros b. apply same_last. apply IH. intros c I. apply H. now right.
  Qed.
  Lemma same_all {A B} (k : A -> option B) f o : (forall a, In a (olist o) -> same (k a) (f a)) -> same (maybe (each k) o) (in_all f o).
  Proof. intros H. apply same_maybe. intros l ->. now apply same_each. Qed.
  Lemma same_new {A} (r : option (option A)) l : same r l -> same (gate V1_5 w r) (new w l).
  Proof. intros H. unfold gate, new. destruct (version_leb V1_5 w); [exact H|apply same_some]. Qed.

  Lemma nonblank_iff s : nonblank s <> None <-> not_blank s.
  Proof. unfold nonblank, not_blank. destruct (xtrim s); split; congruence. Qed.
  Lemma same_one {B} (o : option B) p : (o <> None <-> part_fits w p) -> same o [p].
  Proof. intros H. unfold same. rewrite H. split; [now repeat constructor|]. intros K. now inversion K. Qed.
  Lemma bind_iff {A B} (e : option A) (f : A -> B) : bindo e (fun x => Some (f x)) <> None <-> e <> None.
  Proof. destruct e; cbn; split; congruence. Qed.

  Lemma f_text x : same (kx_attached_text x) [PText x].
  Proof. apply same_one. unfold kx_attached_text. rewrite bind_iff. apply nonblank_iff. Qed.
  Lemma f_identifier x : same (kx_license_identifier x) [PLicense x].
  Proof. apply same_one. destruct x; cbn; rewrite bind_iff; apply nonblank_iff. Qed.
  Lemma f_attachment x : same (kx_attachment x) [PAttachment x].
  Proof.
    apply same_one. unfold kx_attachment. cbn [part_fits]. destruct (att_encoding x), (att_content_type x); rewrite ?bind_iff, ?nonblank_iff;
      split; try tauto; intros H; try (split; [exact H|]; auto; fail). destruct H as [_ [H|H]]; discriminate H.
  Qed.
  Ltac fields := repeat first [apply same_bind; [|intros ?] | apply same_last | apply same_some].
  Ltac one_of L := apply same_maybe; intros ? _; apply L.
  Ltac all_of L := apply same_all; intros ? _; apply L.
  Lemma f_license x : same (kx_license w x) (parts_license x).
  Proof.
    unfold kx_license, parts_license. change (?p :: ?l) with ([p] ++ l). apply same_bind; [apply f_identifier|]. intros ?.
    apply same_last. one_of f_text.
  Qed.
  Lemma f_license_choice x : same (kx_license_choice w x) (parts_license_choice x).
  Proof. destruct x as [l|r e]; cbn; [apply same_last, f_license|apply same_some]. Qed.
  Lemma f_licenses o : same (kx_licenses w o) (parts_licenses o).
  Proof. all_of f_license_choice. Qed.
  Lemma f_diff x : same (kx_diff x) (parts_diff x).
  Proof. apply same_last. one_of f_text. Qed.
  Lemma f_patch x : same (kx_patch x) (parts_patch x).
  Proof.
    apply same_last. unfold parts_patch. destruct (pa_diff x) as [d|]; [|apply same_some]. cbn [only_if in_some].
    destruct (diff_has_data d) eqn:E; [apply same_last, f_diff|].
    unfold parts_diff. unfold diff_has_data in E. destruct (df_text d); [discriminate|]. apply same_some.
  Qed.
  Lemma f_pedigree {C D} (k : C -> option D) f x :
    (forall c, In c (olist (pd_ancestors x)) \/ In c (olist (pd_descendants x)) \/ In c (olist (pd_variants x)) -> same (k c) (f c)) ->
    same (kx_pedigree k x) (parts_pedigree f x).
  Proof.
    intros H. unfold kx_pedigree, parts_pedigree. apply same_bind; [apply same_all; auto|intros ?].
    apply same_bind; [apply same_all; auto|intros ?]. apply same_bind; [apply same_all; auto|intros ?].
    apply same_last. all_of f_patch.
  Qed.
  Lemma f_graphic x : same (kx_graphic x) (in_some (fun a => [PAttachment a]) (g_image x)).
  Proof. apply same_last. one_of f_attachment. Qed.
  Lemma f_graphics x : same (kx_graphics x) (parts_graphics x).
  Proof. apply same_last. all_of f_graphic. Qed.
  Lemma f_contents x : same (kx_contents x) (in_some (fun a => [PAttachment a]) (dc_attachment x)).
  Proof. apply same_last. one_of f_attachment. Qed.
  Lemma f_component_data x : same (kx_component_data x) (parts_component_data x).
  Proof.
    unfold kx_component_data, parts_component_data. apply same_bind; [one_of f_contents|intros ?]. apply same_last. one_of f_graphics.
  Qed.
  Lemma same_good {B} (o : option B) p l : part_fits w p -> same o l -> same o (p :: l).
  Proof. intros P H. unfold same in *. rewrite H. split; [now constructor|]. intros K. now inversion K. Qed.
  Lemma same_bad {B} p l : ~ part_fits w p -> @same B None (p :: l).
  Proof. intros P. split; [congruence|]. intros K. now inversion K. Qed.
  Lemma f_dataset x : same (kx_dataset x) (parts_dataset x).
  Proof.
    unfold parts_dataset. destruct x as [c|s]; cbn [kx_dataset].
    - apply same_good; [exact Logic.I|]. apply same_last, f_component_data.
    - apply same_bad. intros [].
  Qed.
  Lemma f_model_parameters x : same (kx_model_parameters x) (in_all parts_dataset (mp_datasets x)).
  Proof. apply same_last. all_of f_dataset. Qed.
  Lemma f_quantitative x : same (kx_quantitative x) (in_some parts_graphics (qa_graphics x)).
  Proof. apply same_last. one_of f_graphics. Qed.
  Lemma f_model_card x : same (kx_model_card x) (parts_model_card x).
  Proof.
    unfold kx_model_card, parts_model_card. apply same_bind; [one_of f_model_parameters|intros ?]. apply same_last. one_of f_quantitative.
  Qed.
  Lemma f_evidence o : same (maybe (kx_evidence w) (only_if evidence_has_data o)) (in_some (fun e => parts_licenses (ev_licenses e)) o).
  Proof.
    destruct o as [e|]; [|apply same_some]. cbn [only_if in_some]. destruct (evidence_has_data e) eqn:E.
    - cbn [maybe]. apply same_last. apply same_last. apply f_licenses.
    - unfold evidence_has_data in E. destruct (ev_licenses e); [discriminate|]. apply same_some.
  Qed.
  Lemma f_swid x : same (kx_swid x) (parts_swid x).
  Proof. apply same_last. one_of f_text. Qed.
  Lemma parts_component_eq x : parts_component w x =
    parts_licenses (c_licenses x) ++ in_some parts_swid (c_swid x)
    ++ in_some (parts_pedigree (parts_component w)) (c_pedigree x) ++ in_all (parts_component w) (c_components x)
    ++ in_some (fun e => parts_licenses (ev_licenses e)) (c_evidence x)
    ++ new w (in_some parts_model_card (c_model_card x)) ++ new w (in_some parts_component_data (c_data x))
    ++ [PVersion (c_version x)].
  Proof. destruct x; reflexivity. Qed.
  Lemma f_component x : same (kx_component w x) (parts_component w x).
  Proof.
    induction x as [x IHc IHp] using component_ind'. rewrite kx_component_eq, parts_component_eq.
    apply same_bind; [apply f_licenses|intros ?]. apply same_bind; [one_of f_swid|intros ?].
    apply same_bind.
    { apply same_maybe. intros p E. destruct (IHp p E) as (A & D & V). apply f_pedigree. intros c [I|[I|I]]; auto. }
    intros ?. apply same_bind; [apply same_all; auto|intros ?]. apply same_bind; [apply f_evidence|intros ?].
    apply same_bind; [apply same_new; one_of f_model_card|intros ?].
    apply same_bind; [apply same_new; one_of f_component_data|intros ?]. apply same_last. apply same_one. cbn [part_fits].
    unfold trimo. destruct (c_version x) as [s|]; cbn [option_map]; [split; discriminate|].
    destruct w; cbn [version_leb]; split; try congruence; try discriminate. intros H. now destruct (H eq_refl).
  Qed.
  Lemma f_service_data x : same (kx_service_data x) [PFlow x].
  Proof.
    apply same_one. unfold kx_service_data. cbn [part_fits]. destruct (sd_name x), (sd_description x); split; try tauto; try discriminate; auto.
    intros [H|H]; discriminate H.
  Qed.
  Lemma flat_single {A B} (f : A -> B) l : map f l = flat_map (fun a => [f a]) l.
  Proof. induction l as [|a l IH]; cbn; congruence. Qed.
  Lemma f_data x : same (kx_data w x) (parts_data w x).
  Proof.
    destruct x as [l|l]; cbn [kx_data parts_data]; [|apply same_some]. unfold new.
    destruct (version_leb V1_5 w); [|apply same_some]. apply same_last. rewrite flat_single. apply same_each. intros ? _. apply f_service_data.
  Qed.
  Lemma parts_service_eq x : parts_service w x =
    in_some (parts_data w) (s_data x) ++ parts_licenses (s_licenses x) ++ in_all (parts_service w) (s_services x).
  Proof. destruct x; reflexivity. Qed.
  Lemma f_service x : same (kx_service w x) (parts_service w x).
  Proof.
    induction x as [x IH] using service_ind'. rewrite kx_service_eq, parts_service_eq.
    apply same_bind; [one_of f_data|intros ?]. apply same_bind; [apply f_licenses|intros ?]. apply same_last. now apply same_all.
  Qed.
  Lemma f_tools x : same (kx_tools w x) (parts_tools w x).
  Proof.
    destruct x as [l|s c]; cbn [kx_tools parts_tools]; [destruct l; apply same_some|]. unfold new.
    destruct (version_leb V1_5 w); [|apply same_some]. apply same_bind; [all_of f_service|intros ?]. apply same_last. all_of f_component.
  Qed.
  Lemma f_metadata x : same (kx_metadata w x) (parts_metadata w x).
  Proof.
    unfold kx_metadata, parts_metadata. apply same_bind; [one_of f_tools|intros ?]. apply same_bind; [one_of f_component|intros ?].
    apply same_last, f_licenses.
  Qed.
  Lemma f_version_status x : same (kx_version_status x) [PRange (ve_range x)].
  Proof. apply same_last. destruct (ve_range x); [apply same_good; [exact Logic.I|apply same_some]..|]. apply same_bad. intros []. Qed.
  Lemma f_target x : same (kx_target x) (in_all (fun y => [PRange (ve_range y)]) (vt_versions x)).
  Proof. apply same_last. all_of f_version_status. Qed.
  Lemma f_vulnerability x : same (kx_vulnerability w x) (parts_vulnerability w x).
  Proof. apply same_bind; [one_of f_tools|intros ?]. apply same_last. all_of f_target. Qed.
  Lemma f_resource x : same (kx_resource x) [PResource x].
  Proof. destruct x; [apply same_good; [exact Logic.I|apply same_some]|]. apply same_bad. intros []. Qed.
  Lemma f_input x : same (kx_input x) (parts_input x).
  Proof.
    unfold kx_input, parts_input. apply same_bind.
    - destruct (in_required x); first [apply same_good; [exact Logic.I|]|apply same_bad; intros []].
      + apply same_last, f_resource. + apply same_some. + apply same_last, f_attachment.
    - intros ?. apply same_bind; [one_of f_resource|intros ?]. apply same_last. one_of f_resource.
  Qed.
  Lemma f_output x : same (kx_output x) (parts_output x).
  Proof.
    unfold kx_output, parts_output. apply same_bind.
    - destruct (ou_required x); [apply same_last, f_resource|apply same_some|apply same_last, f_attachment].
    - intros ?. apply same_bind; [one_of f_resource|intros ?]. apply same_last. one_of f_resource.
  Qed.
  Lemma f_workspace x : same (kx_workspace x) (parts_workspace x).
  Proof. apply same_last. all_of f_resource. Qed.
  Lemma f_event x : same (kx_event x) (parts_event x).
  Proof. apply same_bind; [one_of f_attachment|intros ?]. apply same_bind; [one_of f_resource|intros ?]. apply same_last. one_of f_resource. Qed.
  Lemma f_trigger x : same (kx_trigger x) (parts_trigger x).
  Proof.
    apply same_bind; [all_of f_resource|intros ?]. apply same_bind; [one_of f_event|intros ?]. apply same_bind; [all_of f_input|intros ?].
    apply same_last. all_of f_output.
  Qed.
  Lemma f_task x : same (kx_task x) [PTask x].
  Proof. apply same_bad. intros []. Qed.
  Lemma f_workflow x : same (kx_workflow x) (parts_workflow x).
  Proof.
    apply same_bind; [all_of f_resource|intros ?]. apply same_bind; [all_of f_task|intros ?]. apply same_bind; [one_of f_trigger|intros ?].
    apply same_bind; [all_of f_input|intros ?]. apply same_bind; [all_of f_output|intros ?]. apply same_last. all_of f_workspace.
  Qed.
  Lemma f_formula x : same (kx_formula w x) (parts_formula w x).
  Proof.
    apply same_bind; [all_of f_component|intros ?]. apply same_bind; [all_of f_service|intros ?]. apply same_last. all_of f_workflow.
  Qed.
  Theorem f_bom x : same (kx_bom w x) (parts_bom w x).
  Proof.
    apply same_bind; [one_of f_metadata|intros ?]. apply same_bind; [all_of f_component|intros ?].
    apply same_bind; [all_of f_service|intros ?].
    apply same_bind; [unfold gate; destruct (version_leb V1_4 w); [all_of f_vulnerability|apply same_some]|intros ?].
    apply same_last. apply same_new. all_of f_formula.
  Qed.
End FIT.

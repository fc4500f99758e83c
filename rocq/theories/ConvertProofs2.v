(** From JSON to XML: proofs. *)
From Coq Require Import ZArith.
From Verif Require Import Base ModelTypes Strings Enums GenModel Json JsonLemmas JsonModel JsonSpec JsonProofs JsonProofs2 JsonProofs3 JsonProofs4
  GrammarSpec GrammarProofs ResaveSpec ResaveProofs Xml XmlModel XmlFitSpec ConvertSpec.
Open Scope string_scope.
Open Scope list_scope.
Open Scope bool_scope.
Open Scope nat_scope.

(** ** Every component that is read comes from a part of the document (as in ResaveProofs.v, for any numbers) *)
Definition any_json (_ : json) : Prop := True.
Lemma field_part' {A} (r : json -> option A) ks k j a : field r ks k j = Some a ->
  exists y, r y = Some a /\ size y < size j /\ (any_json j -> any_json y).
Proof. intros H. destruct (field_part r ks k j a H) as (y & E & S & _). exists y. now repeat split. Qed.
Lemma opt_part' {A} (r : json -> option A) ks k j a : field_opt r ks k j = Some (Some a) ->
  exists y, r y = Some a /\ size y < size j /\ (any_json j -> any_json y).
Proof. intros H. destruct (opt_part r ks k j a H) as (y & E & S & _). exists y. now repeat split. Qed.
Lemma list_part' {A} (r : json -> option A) j l a : dec_list r j = Some l -> In a l ->
  exists y, r y = Some a /\ size y < size j /\ (any_json j -> any_json y).
Proof. intros H I. destruct (list_part r j l a H I) as (y & E & S & _). exists y. now repeat split. Qed.
Lemma tag_part' j k x : ext_tag j = Some (k, x) -> size x < size j /\ (any_json j -> any_json x).
Proof. intros H. destruct (tag_part j k x H) as [S _]. now split. Qed.
Definition is_read' {A} (r : json -> option A) (a : A) : Prop := exists y, any_json y /\ r y = Some a.
Lemma opt_read' {A} (r : json -> option A) ks k j o a : field_opt r ks k j = Some o -> any_json j -> o = Some a -> is_read' r a.
Proof. intros H F ->. destruct (opt_part' r ks k j a H) as (y & E & _ & Fy). exists y. auto. Qed.
Lemma opt_list_read' {A} (r : json -> option A) ks k j o a : field_opt (dec_list r) ks k j = Some o -> any_json j -> In a (olist o) -> is_read' r a.
Proof.
  intros H F I. destruct o as [l|]; [|destruct I]. destruct (opt_part' _ ks k j l H) as (y & E & _ & Fy).
  destruct (list_part' r y l a E I) as (z & Ez & _ & Fz). exists z. auto.
Qed.
Lemma when_list_read' {A} c (r : json -> option A) ks k j o a : field_when c (field_opt (dec_list r) ks k j) = Some o -> any_json j -> In a (olist o) -> is_read' r a.
Proof. destruct c; [apply opt_list_read'|]. intros [= <-] _ []. Qed.
Lemma when_read' {A} c (r : json -> option A) ks k j o a : field_when c (field_opt r ks k j) = Some o -> any_json j -> o = Some a -> is_read' r a.
Proof. destruct c; [apply opt_read'|]. intros [= <-] _ [=]. Qed.
Ltac from_list I F := match type of I with In _ (olist ?o) =>
  match goal with
  | E : field_opt (dec_list _) _ _ _ = Some o |- _ => exact (opt_list_read' _ _ _ _ _ _ E F I)
  | E : field_when _ (field_opt (dec_list _) _ _ _) = Some o |- _ => exact (when_list_read' _ _ _ _ _ _ _ E F I) end end.

Lemma pedigree_read' of j p c : of_json_pedigree of j = Some p -> any_json j -> In c (pedigree_members p) -> is_read' of c.
Proof.
  unfold of_json_pedigree. intros H F I. parts H. unfold pedigree_members in I. cbn in I.
  rewrite !in_app_iff in I. destruct I as [I|[I|I]]; from_list I F.
Qed.
Lemma component_read' v c d : is_read' (of_json_component v) c -> within c d -> is_read' (of_json_component v) d.
Proof.
  intros R W. induction W as [c|c d e I W IH|c p d e P I W IH]; [assumption| |]; apply IH; clear IH W;
    destruct R as (j & F & H); rewrite of_json_component_eq in H; unfold component_step in H; parts H.
  - cbn in I. from_list I F.
  - cbn in P. match goal with E : field_opt (of_json_pedigree _) _ _ _ = Some _ |- _ => destruct (opt_read' _ _ _ _ _ _ E F P) as (y & Fy & Ey) end.
    exact (pedigree_read' _ _ _ _ Ey Fy I).
Qed.
Lemma tools_read' v w j t c : of_json_tools v j = Some t -> any_json j -> In c (tools_components w t) -> is_read' (of_json_component v) c.
Proof.
  unfold of_json_tools. intros H F I. destruct (dec_list (of_json_tool v) j) as [l|]; cbn [bindo orelse] in H.
  - injection H as <-. destruct I.
  - destruct (since V1_5 v); [|discriminate H]. parts H. cbn [tools_components] in I. destruct (version_leb V1_5 w); [|destruct I].
    from_list I F.
Qed.
Lemma roots_read' v w j b c : of_json_bom v j = Some b -> any_json j -> In c (bom_roots w b) -> is_read' (of_json_component v) c.
Proof.
  intros H F I. unfold of_json_bom in H. parts H. unfold bom_roots in I.
  cbn [b_metadata b_components b_vulnerabilities b_annotations b_formulation] in I. rewrite !in_app_iff in I.
  destruct I as [I|[I|[I|[I|I]]]].
  - apply in_flat_map in I. destruct I as (m & M & I). apply in_one in M.
    match goal with E : field_opt (of_json_metadata _) _ _ _ = Some _ |- _ => destruct (opt_read' _ _ _ _ _ _ E F M) as (y & Fy & Ey) end.
    unfold of_json_metadata in Ey. parts Ey. cbn in I. rewrite in_app_iff in I. destruct I as [I|I].
    + apply in_flat_map in I. destruct I as (t & T & I). apply in_one in T.
      match goal with E : field_opt (of_json_tools _) _ _ _ = Some _ |- _ => destruct (opt_read' _ _ _ _ _ _ E Fy T) as (z & Fz & Ez) end.
      exact (tools_read' _ _ _ _ _ Ez Fz I).
    + apply in_one in I. match goal with E : field_opt (of_json_component _) _ _ _ = Some _ |- _ => exact (opt_read' _ _ _ _ _ _ E Fy I) end.
  - from_list I F.
  - apply in_from_list, in_flat_map in I. destruct I as (x & X & I).
    match goal with E : field_when _ (field_opt (dec_list (of_json_vulnerability _)) _ _ _) = Some _ |- _ => destruct (when_list_read' _ _ _ _ _ _ _ E F X) as (y & Fy & Ey) end.
    unfold of_json_vulnerability in Ey. parts Ey. cbn in I. apply in_flat_map in I. destruct I as (t & T & I). apply in_one in T.
    match goal with E : field_opt (of_json_tools _) _ _ _ = Some _ |- _ => destruct (opt_read' _ _ _ _ _ _ E Fy T) as (z & Fz & Ez) end.
    exact (tools_read' _ _ _ _ _ Ez Fz I).
  - apply in_from_list, in_flat_map in I. destruct I as (x & X & I).
    match goal with E : field_when _ (field_opt (dec_list (of_json_annotation _)) _ _ _) = Some _ |- _ => destruct (when_list_read' _ _ _ _ _ _ _ E F X) as (y & Fy & Ey) end.
    unfold of_json_annotation in Ey. parts Ey. cbn in I.
    match goal with E : field (of_json_annotator v) _ _ _ = Some ?a |- _ => destruct (field_part' _ _ _ _ _ E) as (z & Ez & _ & Fz); destruct a; try destruct I as [|[]]; try destruct I; subst end.
    specialize (Fz Fy). unfold of_json_annotator in Ez. destruct (ext_tag z) as [[k uu]|] eqn:T; [|discriminate]. cbn [bindo] in Ez.
    destruct (tag_part' z k uu T) as [_ Fu].
    repeat match type of Ez with (if ?b then _ else _) = _ => destruct b end; lets Ez; try discriminate Ez. injection Ez as ->.
    exists uu. auto.
  - apply in_from_list, in_flat_map in I. destruct I as (x & X & I).
    match goal with E : field_when _ (field_opt (dec_list (of_json_formula _)) _ _ _) = Some _ |- _ => destruct (when_list_read' _ _ _ _ _ _ _ E F X) as (y & Fy & Ey) end.
    unfold of_json_formula in Ey. parts Ey. cbn in I. from_list I Fy.
Qed.

Lemma read_versioned' c : is_read' (of_json_component V1_3) c -> c_version c <> None.
Proof.
  intros (j & F & H). rewrite of_json_component_eq in H. unfold component_step in H. parts H. cbn.
  match goal with K : (if since V1_4 V1_3 then _ else _) = Some _ |- _ => cbn [since version_leb] in K; lets K; injection K as <- end. discriminate.
Qed.
Lemma all_versioned j b c : of_json_bom V1_3 j = Some b -> bom_component V1_3 b c -> c_version c <> None.
Proof. intros H (r & I & W). exact (read_versioned' c (component_read' _ _ _ (roots_read' _ _ _ _ _ H Logic.I I) W)). Qed.

(** ** The parts of a BOM that was read from JSON *)
(** [v]: the version the document was read in *)
Definition json_part (v : spec_version) (p : part) : Prop :=
  match p with
  | PFlow _ => False
  | PAttachment _ | PDataset _ | PResource _ | PInput _ | PTask _ => v = V1_5
  | PVersion x => v = V1_3 -> x <> None
  | PText _ | PLicense _ | PRange _ => True
  end.
Definition good {A} (N : nat) (r : json -> option A) (P : A -> Prop) : Prop :=
  forall j x, size j < N -> r j = Some x -> P x.
Section READ.
  Context (v w : spec_version).
  Notation K := (json_part v).
  Definition only {A} (f : A -> list part) (a : A) : Prop := Forall K (f a).

  Lemma opt_good {A} (r : json -> option A) ks k j f o : good (size j) r (only f) -> field_opt r ks k j = Some o -> Forall K (in_some f o).
  Proof. intros G H. destruct o as [a|]; [|constructor]. destruct (opt_part r ks k j a H) as (y & E & S & _). exact (G y a S E). Qed.
  Lemma list_good {A} (r : json -> option A) N f : good N r (only f) -> good N (dec_list r) (only (flat_map f)).
  Proof.
    intros G j l S H. unfold only. apply Forall_flat_map, Forall_forall. intros a I.
    destruct (list_part r j l a H I) as (y & E & Sy & _). apply (G y a); [lia|exact E].
  Qed.
  Lemma all_good {A} (r : json -> option A) ks k j f o :
    good (size j) r (only f) -> field_opt (dec_list r) ks k j = Some o -> Forall K (in_all f o).
  Proof. intros G. apply opt_good. now apply list_good. Qed.
  Lemma when_good {A} (r : json -> option A) ks k j f o :
    (v = V1_5 -> good (size j) r (only f)) -> field_when (since V1_5 v) (field_opt r ks k j) = Some o -> Forall K (in_some f o).
  Proof.
    intros G. destruct (since V1_5 v) eqn:S; cbn [field_when]; [|intros [= <-]; constructor].
    apply opt_good. apply G. now destruct v.
  Qed.
  Lemma new_good l : Forall K l -> Forall K (new w l).
  Proof. unfold new. destruct (version_leb V1_5 w); [auto|constructor]. Qed.
  (** parts of kinds that there are in 1.5 only *)
  Lemma some_any {A} (f : A -> list part) o : (forall a, only f a) -> Forall K (in_some f o).
  Proof. intros H. destruct o; [apply H|constructor]. Qed.
  Lemma all_any {A} (f : A -> list part) o : (forall a, only f a) -> Forall K (in_all f o).
  Proof. intros H. apply some_any. intros l. apply Forall_flat_map, Forall_forall. intros a _. apply H. Qed.
  Ltac kinds := repeat first
    [ apply Forall_app; split | apply all_any; intros ? | apply some_any; intros ? | apply Forall_cons | apply Forall_nil
    | progress unfold only, parts_graphics, parts_component_data, parts_dataset, parts_model_card, parts_resource, parts_input,
        parts_output, parts_event, parts_trigger, parts_workspace, parts_workflow
    | progress cbn [json_part in_some] | assumption | exact Logic.I | discriminate | reflexivity
    | match goal with |- Forall _ (match ?x with _ => _ end) => destruct x end ].
  Lemma component_data_any : v = V1_5 -> forall x, only parts_component_data x.
  Proof. intros V x. kinds. Qed.
  Lemma model_card_any : v = V1_5 -> forall x, only parts_model_card x.
  Proof. intros V x. kinds. Qed.
  Lemma workflow_any : v = V1_5 -> forall x, only parts_workflow x.
  Proof. intros V x. kinds. Qed.
  (** parts of kinds that there always are *)
  Lemma license_any x : only parts_license x.
  Proof. unfold only, parts_license. kinds. Qed.
  Lemma licenses_any o : Forall K (parts_licenses o).
  Proof. apply all_any. intros [l|? ?]; [apply license_any|constructor]. Qed.
  Lemma swid_any x : only parts_swid x.
  Proof. apply some_any. intros ?. unfold only. kinds. Qed.
  Lemma patch_any x : only parts_patch x.
  Proof. apply some_any. intros ?. apply some_any. intros ?. unfold only. kinds. Qed.

  Lemma pedigree_good N of f : good N of (only f) -> good N (of_json_pedigree of) (only (parts_pedigree f)).
  Proof.
    intros G j x S H. assert (G' : good (size j) of (only f)) by (intros y a Sy; apply G; lia).
    unfold of_json_pedigree in H. parts H. unfold only, parts_pedigree. cbn. repeat (apply Forall_app; split);
      try (eapply all_good; eassumption). apply all_any. exact patch_any.
  Qed.
  Lemma parts_component_eq x : parts_component w x =
    parts_licenses (c_licenses x) ++ in_some parts_swid (c_swid x)
    ++ in_some (parts_pedigree (parts_component w)) (c_pedigree x) ++ in_all (parts_component w) (c_components x)
    ++ in_some (fun e => parts_licenses (ev_licenses e)) (c_evidence x)
    ++ new w (in_some parts_model_card (c_model_card x)) ++ new w (in_some parts_component_data (c_data x))
    ++ [PVersion (c_version x)].
  Proof. destruct x; reflexivity. Qed.
  Lemma component_good N : good N (of_json_component v) (only (parts_component w)).
  Proof.
    enough (G : forall n, good n (of_json_component v) (only (parts_component w))) by apply G.
    induction n as [|n IH]; intros j x S H; [lia|].
    assert (IH' : good (size j) (of_json_component v) (only (parts_component w))) by (intros y a Sy; apply IH; lia).
    clear IH S. unfold only. rewrite parts_component_eq. rewrite of_json_component_eq in H. generalize dependent (parts_component w).
    generalize dependent (of_json_component v). intros of H f G. unfold component_step in H. parts H.
    cbn [c_licenses c_swid c_pedigree c_components c_evidence c_model_card c_data c_version].
    repeat (apply Forall_app; split).
    - apply licenses_any.
    - apply some_any, swid_any.
    - eapply opt_good; [|eassumption]. now apply pedigree_good.
    - eapply all_good; eassumption.
    - apply some_any. intros e. apply licenses_any.
    - apply new_good. eapply when_good; [|eassumption]. intros V y a _ _. now apply model_card_any.
    - apply new_good. eapply when_good; [|eassumption]. intros V y a _ _. now apply component_data_any.
    - constructor; [|constructor]. intros V. rewrite V in *.
      match goal with E : (if since V1_4 V1_3 then _ else _) = Some _ |- _ => cbn [since version_leb] in E; lets E; injection E as <- end.
      discriminate.
  Qed.
  Lemma data_good j x : of_json_data v j = Some x -> parts_data w x = [].
  Proof.
    intros H. unfold of_json_data in H. destruct (dec_list of_json_data_classification j) as [l|] eqn:E.
    - injection H as <-. reflexivity.
    - exfalso. cbn [bindo orelse] in H. destruct (since V1_5 v); [|discriminate H]. lets H. clear H.
      destruct j as [| | | | |js|]; try discriminate. cbn [dec_list] in *. revert l E E0.
      induction js as [|y js IH]; intros l E E0; [discriminate|].
      destruct (of_json_service_data y) as [d|] eqn:Ey; [|discriminate].
      destruct (service_data_class y d Ey) as [c Ec]. rewrite Ec in E. cbn [bindo] in E, E0.
      match type of E with (let? _ := ?e in _) = _ => destruct e as [?|] eqn:G; [discriminate|] end.
      match type of E0 with (let? _ := ?e in _) = _ => destruct e as [l'|] eqn:G'; [|discriminate] end.
      eapply IH; eauto.
  Qed.
  Lemma parts_service_eq x : parts_service w x =
    in_some (parts_data w) (s_data x) ++ parts_licenses (s_licenses x) ++ in_all (parts_service w) (s_services x).
  Proof. destruct x; reflexivity. Qed.
  Lemma service_good N : good N (of_json_service v) (only (parts_service w)).
  Proof.
    enough (G : forall n, good n (of_json_service v) (only (parts_service w))) by apply G.
    induction n as [|n IH]; intros j x S H; [lia|].
    assert (IH' : good (size j) (of_json_service v) (only (parts_service w))) by (intros y a Sy; apply IH; lia).
    clear IH S. unfold only. rewrite parts_service_eq. rewrite of_json_service_eq in H. generalize dependent (parts_service w).
    generalize dependent (of_json_service v). intros of H f G. unfold service_step in H. parts H.
    cbn [s_data s_licenses s_services]. repeat (apply Forall_app; split).
    - eapply opt_good; [|eassumption]. intros y a _ Ey. unfold only. rewrite (data_good y a Ey). constructor.
    - apply licenses_any.
    - eapply all_good; eassumption.
  Qed.
  Lemma tools_good N : good N (of_json_tools v) (only (parts_tools w)).
  Proof.
    intros j x S H. unfold of_json_tools in H. destruct (dec_list (of_json_tool v) j) as [l|] eqn:E.
    - injection H as <-. constructor.
    - cbn [bindo orelse] in H. destruct (since V1_5 v); [|discriminate H]. parts H. unfold only. cbn [parts_tools].
      apply new_good. apply Forall_app. split; (eapply all_good; [|eassumption]); [apply service_good|apply component_good].
  Qed.
  Lemma metadata_good N : good N (of_json_metadata v) (only (parts_metadata w)).
  Proof.
    intros j x S H. unfold of_json_metadata in H. parts H. unfold only, parts_metadata. cbn [m_tools m_component m_licenses].
    repeat (apply Forall_app; split); [eapply opt_good; [apply tools_good|eassumption]|eapply opt_good; [apply component_good|eassumption]|apply licenses_any].
  Qed.
  Lemma vulnerability_good N : good N (of_json_vulnerability v) (only (parts_vulnerability w)).
  Proof.
    intros j x S H. unfold of_json_vulnerability in H. parts H. unfold only, parts_vulnerability. cbn [v_tools v_targets].
    apply Forall_app; split; [eapply opt_good; [apply tools_good|eassumption]|].
    apply all_any. intros t. apply all_any. intros y. unfold only. kinds.
  Qed.
  Lemma formula_good N : v = V1_5 -> good N (of_json_formula v) (only (parts_formula w)).
  Proof.
    intros V j x S H. unfold of_json_formula in H. parts H. unfold only, parts_formula. cbn [fo_components fo_services fo_workflows].
    repeat (apply Forall_app; split); [eapply all_good; [apply component_good|eassumption]|eapply all_good; [apply service_good|eassumption]|].
    apply all_any. now apply workflow_any.
  Qed.
  Theorem bom_good j b : of_json_bom v j = Some b -> Forall K (parts_bom w b).
  Proof.
    intros H. unfold of_json_bom in H. parts H. unfold parts_bom. cbn [b_metadata b_components b_services b_vulnerabilities b_formulation].
    repeat (apply Forall_app; split).
    - eapply opt_good; [apply metadata_good|eassumption].
    - eapply all_good; [apply component_good|eassumption].
    - eapply all_good; [apply service_good|eassumption].
    - destruct (version_leb V1_4 w); [|constructor].
      match goal with E : field_when (since V1_4 v) (field_opt (dec_list (of_json_vulnerability v)) _ _ _) = Some _ |- _ =>
        destruct (since V1_4 v); cbn [field_when] in E; [|injection E as <-; constructor]; eapply all_good; [apply vulnerability_good|exact E] end.
    - apply new_good. eapply when_good; [|eassumption]. intros V. apply list_good. now apply formula_good.
  Qed.
End READ.

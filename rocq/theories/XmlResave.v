(** Saving XML documents that were read: proofs. *)
From Verif Require Import Base ModelTypes Strings Enums GenModel Json JsonLemmas JsonModel JsonSpec JsonProofs
  Xml XmlLemmas XmlModel XmlSpec XmlProofs2 XmlGeneral XmlYield XmlResaveSpec.
Open Scope string_scope.
Open Scope list_scope.
Open Scope nat_scope.

Lemma ok_maybe {A B} (k : A -> option B) o : ok_item k o <-> ok (maybe k) o.
Proof.
  unfold ok_item. destruct o as [a|]; split.
  - intros H. destruct (H a eq_refl) as (b & Hb). exists (Some b). cbn. now rewrite Hb.
  - intros (b & Hb) a' [= <-]. cbn in Hb. destruct (k a) as [c|] eqn:K; [|discriminate]. now exists c.
  - intros _. now exists None.
  - discriminate.
Qed.
Lemma ok_some {A B} (k : A -> option B) a : ok (maybe k) (Some a) -> ok k a.
Proof. intros H. now apply (proj2 (ok_maybe k (Some a)) H). Qed.
Lemma ok_nil {A B} (k : A -> option B) : ok (each k) [].
Proof. now exists []. Qed.
Lemma ok_snoc {A B} (k : A -> option B) l a : ok (each k) l -> ok k a -> ok (each k) (l ++ [a]).
Proof.
  intros (m & Hm) (b & Hb). exists (m ++ [b]). revert m Hm. induction l as [|c l IH]; intros m Hm.
  - injection Hm as <-. cbn. now rewrite Hb.
  - cbn [each app] in *. destruct (k c) as [d|]; [|discriminate]. cbn [bindo] in *. destruct (each k l) as [m'|]; [|discriminate].
    injection Hm as <-. now rewrite (IH m' eq_refl).
Qed.
Lemma ok_only_if {A B} (k : A -> option B) p o : ok (maybe k) o -> ok (maybe k) (only_if p o).
Proof. intros H. destruct o as [a|]; [|exact H]. unfold only_if. destruct (p a); [exact H|now exists None]. Qed.
Lemma ok_gate {A B} (k : A -> option B) a v o : ok (maybe k) o -> ok (fun o => gate a v (maybe k o)) o.
Proof. intros (b & H). unfold ok, gate. destruct (version_leb a v); [exists b; exact H|now exists None]. Qed.

Lemma ex_bind {A B} (e : option A) (f : A -> option B) :
  (exists a, e = Some a) -> (forall a, e = Some a -> exists c, f a = Some c) -> exists c, bindo e f = Some c.
Proof. intros (a & ->) H. exact (H a eq_refl). Qed.

Create HintDb yl.
Section RESAVE.
  Variables (v w : spec_version) (F : float_text).
  Hypothesis later : version_leb v w = true.
  Let E := saves_well v.
  Notation yields := (yields E).
  Notation keeps := (keeps E).

  Lemma keep_one {A B} tag (d : desc A) (k : A -> option B) : yields tag d (ok k) -> keeps (Xml.one tag d) (ok (maybe k)).
  Proof.
    intros H. apply (keep_on E tag d _ _ _ (ok k)); [exact H|now exists None|]. intros a st st' Ha _ [= <-].
    apply ok_maybe. intros ? [= <-]. exact Ha.
  Qed.
  Lemma keep_many {A B} tag (d : desc A) (k : A -> option B) : yields tag d (ok k) -> keeps (many tag d) (ok (each k)).
  Proof.
    intros H. apply (keep_on E tag d _ _ _ (ok k)); [exact H|apply ok_nil|]. intros a st st' Ha Hs [= <-]. now apply ok_snoc.
  Qed.
  Lemma yields_list {A B} n p tag (d : desc A) (k : A -> option B) : yields tag d (ok k) -> yields n (list_of p tag d) (ok (each k)).
  Proof. intros H. apply yields_loop. now apply keep_many. Qed.
  Lemma keep_list {A B} n p tag (d : desc A) (k : A -> option B) : yields tag d (ok k) -> keeps (one_list p n tag d) (ok (maybe (each k))).
  Proof. intros H. apply keep_one. now apply yields_list. Qed.

  Ltac arm := first
    [ apply keep_from; arm
    | eapply keep_list; solve [eauto with yl]
    | eapply keep_one; solve [eauto with yl]
    | eapply keep_many; solve [eauto with yl]
    | solve [eauto with yl nocore]
    | apply keep_true ].
  Ltac arms := lazymatch goal with |- keeps (SPair _ _) _ => eapply keep_pair; [arm|arms] | _ => arm end.
  Ltac opens H :=
    repeat match type of H with
    | bindo ?e _ = Some _ => let b := fresh "b" in let Q := fresh "Q" in destruct e as [b|] eqn:Q; [cbn [bindo] in H|discriminate H]
    end.
  Ltac okay := solve [match goal with
    | H : ok _ _ |- _ => exact H
    | H : ok _ _ |- _ => exact (ok_only_if _ _ _ H)
    | H : ok _ _ |- _ => exact (ok_gate _ _ _ _ H)
    end].
  Ltac binds :=
    lazymatch goal with
    | |- exists c, bindo ?e _ = Some c => apply (ex_bind e); [okay|intros; binds]
    | _ => eexists; reflexivity
    end.
  Ltac fin k :=
    let ats := fresh "ats" in let st := fresh "st" in let b := fresh "b" in let He := fresh "He" in let H := fresh "H" in let R := fresh "R" in
    intros ats st b He H R;
    repeat match goal with s : (_ * _)%type |- _ => destruct s end; cbn [fst snd] in *;
    repeat match goal with H : _ /\ _ |- _ => destruct H end;
    opens R; injection R as <-;
    repeat match goal with H : ok (maybe _) (Some _) |- _ => apply ok_some in H end;
    unfold ok, k; binds.
  Ltac reads k rd := unfold rd; eapply yields_struct; [arms|fin k].

  Lemma y_text tag : yields tag (DPrim PText) (fun s => xtrim s <> "").
  Proof.
    intros ats evs a rest _ L R. cbn [run run_prim] in R. unfold read_text in R.
    destruct evs as [|[m ts|m|s|s| |] evs]; try discriminate R; inversion L as [|? ? He Le]; subst; cbn in He;
      unfold closing in R; destruct evs as [|[] evs]; try discriminate R; destruct (String.eqb _ _); try discriminate R;
      injection R as <- _; exact He.
  Qed.
  Lemma nonblank_ok s : xtrim s <> "" -> ok nonblank s.
  Proof. unfold ok, nonblank. destruct (xtrim s); [congruence|eauto]. Qed.
  Lemma y_attached_text tag : yields tag rd_attached_text (ok kx_attached_text).
  Proof.
    eapply yields_map; [apply y_text|]. intros ats s b _ Hs [= <-]. destruct (nonblank_ok s Hs) as (t & Ht).
    unfold ok, kx_attached_text. cbn. rewrite Ht. cbn. eauto.
  Qed.
  Hint Resolve y_attached_text : yl.
  Lemma k_license_identifier : keeps rd_license_identifier (ok (maybe kx_license_identifier)).
  Proof.
    unfold rd_license_identifier, single. apply keep_or.
    all: apply (keep_on E _ _ _ _ _ (ok kx_license_identifier)); [|now exists None|].
    all: try (intros a [o|] st' Ha _ [= <-]; apply ok_maybe; intros ? [= <-]; exact Ha).
    all: eapply yields_map; [apply y_text|]; intros ats s b _ Hs [= <-]; destruct (nonblank_ok s Hs) as (t & Ht);
      unfold ok; cbn; rewrite Ht; cbn; eauto.
  Qed.
  Hint Resolve k_license_identifier : yl.
  Lemma y_license tag : yields tag (rd_license v) (ok (kx_license w)).
  Proof. reads kx_license rd_license. Qed.
  Hint Resolve y_license : yl.
  Lemma y_license_list tag : yields tag (rd_license_list v) (ok (each (kx_license_choice w))).
  Proof.
    apply yields_loop, keep_or; apply keep_many.
    - eapply yields_map; [apply y_license|]. intros ats l b _ (l' & Hl) [= <-]. unfold ok. cbn. rewrite Hl. cbn. eauto.
    - eapply yields_map; [apply yields_true|]. intros ats e b _ _ [= <-]. unfold ok. cbn. eauto.
  Qed.
  Lemma k_licenses : keeps (rd_licenses v) (ok (kx_licenses w)).
  Proof. unfold rd_licenses, kx_licenses. apply keep_one, y_license_list. Qed.
  Hint Resolve k_licenses : yl.
  Lemma y_diff tag : yields tag rd_diff (ok kx_diff).
  Proof. reads kx_diff rd_diff. Qed.
  Hint Resolve y_diff : yl.
  Lemma y_patch tag : yields tag rd_patch (ok kx_patch).
  Proof. reads kx_patch rd_patch. Qed.
  Hint Resolve y_patch : yl.
  Lemma y_pedigree {C D} tag (rc : desc C) (k : C -> option D) :
    (forall t, yields t rc (ok k)) -> yields tag (rd_pedigree rc) (ok (kx_pedigree k)).
  Proof. intros H. reads @kx_pedigree @rd_pedigree. Qed.
  Lemma y_swid tag : yields tag rd_swid (ok kx_swid).
  Proof. reads kx_swid rd_swid. Qed.
  Hint Resolve y_swid : yl.
  Lemma y_evidence n tag : yields tag (rd_evidence F v n) (ok (kx_evidence w)).
  Proof. reads kx_evidence rd_evidence. Qed.
  Hint Resolve y_evidence : yl.

  (** from version 1.5 on *)
  Section LATE.
    Hypothesis late : v = V1_5.
    Lemma y_attachment tag : tag = "attachment" \/ tag = "image" \/ tag = "data" -> yields tag rd_attachment (ok kx_attachment).
    Proof.
      intros T. unfold rd_attachment. eapply (yields_struct E tag _ _ _ (fun o => forall s, o = Some s -> xtrim s <> "")).
      - split; [discriminate|]. split; [|intros m r ats evs u rest st st' R; discriminate R].
        intros u s st [= <-] He _ s' [= <-]. exact He.
      - intros ats st b He Hs R. destruct st as [s|]; [|discriminate R]. cbn [bindo] in R. injection R as <-.
        destruct (nonblank_ok s (Hs s eq_refl)) as (t & Ht). destruct (He late) as (H & _). specialize (H T).
        unfold ok, kx_attachment. cbn. unfold has_attr in H.
        destruct (attr "content-type" ats), (attr "encoding" ats); cbn; rewrite ?Ht; cbn; eauto.
        destruct H. split; discriminate.
    Qed.
    Hint Resolve y_attachment : yl.
    Lemma y_graphic tag : yields tag rd_graphic (ok kx_graphic).
    Proof. reads kx_graphic rd_graphic. Qed.
    Hint Resolve y_graphic : yl.
    Lemma y_graphics tag : yields tag rd_graphics (ok kx_graphics).
    Proof. reads kx_graphics rd_graphics. Qed.
    Lemma y_contents tag : yields tag rd_contents (ok kx_contents).
    Proof. reads kx_contents rd_contents. Qed.
    Hint Resolve y_graphics y_contents : yl.
    Lemma y_component_data tag : yields tag rd_component_data (ok kx_component_data).
    Proof. reads kx_component_data rd_component_data. Qed.
    Lemma y_dataset tag : yields tag rd_dataset (ok kx_dataset).
    Proof.
      eapply yields_map; [apply y_component_data|]. intros ats l b _ (l' & Hl) [= <-]. unfold ok. cbn. rewrite Hl. cbn. eauto.
    Qed.
    Hint Resolve y_dataset : yl.
    Lemma y_model_parameters tag : yields tag rd_model_parameters (ok kx_model_parameters).
    Proof. reads kx_model_parameters rd_model_parameters. Qed.
    Lemma y_quantitative tag : yields tag rd_quantitative (ok kx_quantitative).
    Proof. reads kx_quantitative rd_quantitative. Qed.
    Hint Resolve y_model_parameters y_quantitative : yl.
    Lemma y_model_card tag : yields tag rd_model_card (ok kx_model_card).
    Proof. reads kx_model_card rd_model_card. Qed.
    Lemma y_service_data : yields "dataflow" rd_service_data (ok kx_service_data).
    Proof.
      unfold rd_service_data. eapply yields_struct; [arms|]. intros ats st b He _ R.
      destruct (He late) as (_ & H & _). specialize (H eq_refl). unfold has_attr in H.
      destruct st as (c & g & s & d). destruct c as [c|]; [|discriminate R]. cbn [bindo] in R. injection R as <-.
      unfold ok, kx_service_data. cbn. destruct (attr "name" ats), (attr "description" ats); eauto.
      destruct H. split; discriminate.
    Qed.
    Lemma y_resource tag : yields tag rd_resource (ok kx_resource).
    Proof.
      unfold rd_resource. eapply (yields_struct E tag _ _ _ (ok (maybe kx_resource))).
      - apply keep_or; apply keep_one; [eapply yields_map; [apply yields_true|]; intros ats s b _ _ [= <-]; unfold ok; cbn; eauto|].
        intros ats evs a rest He. destruct (He late) as (_ & _ & _ & []). reflexivity.
      - intros ats st b _ H ->. now apply ok_some.
    Qed.
    Hint Resolve y_resource : yl.
    Definition kx_required_input (r : required_input) : option required_input :=
      match r with
      | RIResource r => let? r := kx_resource r in Some (RIResource r)
      | RIParameters _ => None
      | RIEnvironmentVars l => Some (RIEnvironmentVars (map kx_environment_var l))
      | RIData a => let? a := kx_attachment a in Some (RIData a)
      end.
    Definition kx_required_output (r : required_output) : option required_output :=
      match r with
      | ROResource r => let? r := kx_resource r in Some (ROResource r)
      | ROEnvironmentVars l => Some (ROEnvironmentVars (map kx_environment_var l))
      | ROData a => let? a := kx_attachment a in Some (ROData a)
      end.
    Ltac choices :=
      repeat apply keep_or; apply keep_one;
      [ eapply yields_map; [apply y_resource|]; intros ats x b _ (y & Hy) [= <-]; unfold ok; cbn; rewrite Hy; cbn; eauto
      | eapply yields_map; [apply yields_true|]; intros ats x b _ _ [= <-]; unfold ok; cbn; eauto
      | eapply yields_map; [apply y_attachment; auto|]; intros ats x b _ (y & Hy) [= <-]; unfold ok; cbn; rewrite Hy; cbn; eauto ].
    Lemma y_input tag : yields tag rd_input (ok kx_input).
    Proof.
      unfold rd_input. eapply yields_struct; [eapply keep_pair; [instantiate (1 := ok (maybe kx_required_input)); choices|arms]|].
      fin kx_input.
    Qed.
    Lemma y_output tag : yields tag rd_output (ok kx_output).
    Proof.
      unfold rd_output. eapply yields_struct; [eapply keep_pair; [instantiate (1 := ok (maybe kx_required_output)); choices|arms]|].
      fin kx_output.
    Qed.
    Lemma y_resources : keeps rd_resources (ok (maybe (each kx_resource))).
    Proof. unfold rd_resources. arm. Qed.
    Hint Resolve y_input y_output y_resources : yl.
    Lemma y_workspace tag : yields tag rd_workspace (ok kx_workspace).
    Proof. reads kx_workspace rd_workspace. Qed.
    Lemma y_event tag : yields tag rd_event (ok kx_event).
    Proof. reads kx_event rd_event. Qed.
    Hint Resolve y_workspace y_event : yl.
    Lemma y_trigger tag : yields tag rd_trigger (ok kx_trigger).
    Proof. reads kx_trigger rd_trigger. Qed.
    Hint Resolve y_trigger : yl.
    Lemma y_task : yields "task" rd_task (ok kx_task).
    Proof. intros ats evs a rest He. destruct (He late) as (_ & _ & [] & _). reflexivity. Qed.
    Hint Resolve y_task : yl.
    Lemma y_workflow tag : yields tag rd_workflow (ok kx_workflow).
    Proof. reads kx_workflow rd_workflow. Qed.
  End LATE.

  Lemma latest : since V1_5 v = true -> v = V1_5.
  Proof. unfold since. destruct v; [discriminate|discriminate|reflexivity]. Qed.
  Lemma k_model_card : keeps (Xml.from (since V1_5 v) (Xml.one "modelCard" rd_model_card)) (ok (maybe kx_model_card)).
  Proof. apply keep_gated; [|now exists None]. intros L. apply keep_one, y_model_card, latest, L. Qed.
  Lemma k_component_data : keeps (Xml.from (since V1_5 v) (Xml.one "data" rd_component_data)) (ok (maybe kx_component_data)).
  Proof. apply keep_gated; [|now exists None]. intros L. apply keep_one, y_component_data, latest, L. Qed.
  Lemma y_component n : forall tag, yields tag (rd_component F v n) (ok (kx_component w)).
  Proof.
    induction n as [|n IH]; intros tag; [apply yields_fuel|]. cbn [rd_component].
    pose proof (y_pedigree "pedigree" (rd_component F v n) (kx_component w) IH) as YP.
    eapply yields_struct.
    { repeat (eapply keep_pair; [first
        [exact k_model_card | apply keep_one; exact YP | apply keep_list; apply IH | arm]|]). exact k_component_data. }
    intros ats st b He H R.
    repeat match goal with s : (_ * _)%type |- _ => destruct s end; cbn [fst snd] in *;
    repeat match goal with H : _ /\ _ |- _ => destruct H end; opens R; injection R as <-.
    assert (HV : ok (fun o => match trimo o with None => if version_leb V1_4 w then Some None else None | Some s => Some (Some s) end) o4).
    { unfold ok. destruct o4 as [s|]; cbn [trimo option_map]; [eauto|]. clear - later Q1. unfold since in Q1.
      destruct v; [discriminate Q1| |]; destruct w; try discriminate later; eexists; reflexivity. }
    unfold ok. rewrite kx_component_eq. binds.
  Qed.
  Hint Resolve y_component : yl.
  Lemma k_components n : keeps (rd_components F v n) (ok (maybe (each (kx_component w)))).
  Proof. unfold rd_components. arm. Qed.
  Hint Resolve k_components : yl.

  Lemma y_data tag : yields tag (rd_data v) (ok (kx_data w)).
  Proof.
    unfold rd_data. eapply yields_struct.
    - eapply keep_pair; [apply keep_true|].
      instantiate (1 := fun l => (since V1_5 v = false -> l = []) /\ ok (each kx_service_data) l).
      destruct (since V1_5 v) eqn:L.
      + cbn [Xml.from]. pose proof (keep_many "dataflow" rd_service_data kx_service_data (y_service_data (latest L))) as (a & b & c).
        split; [split; [discriminate|exact a]|]. split; [intros u s st Hu; discriminate Hu|].
        intros m r ats evs u rest st st' H1 H2 H3 H4 [_ H5] H6. split; [discriminate|]. exact (c m r ats evs u rest st st' H1 H2 H3 H4 H5 H6).
      + split; [split; [reflexivity|apply ok_nil]|]. split; [discriminate|]. intros m r ats evs u rest st st' R. discriminate R.
    - intros ats [c s] b _ (_ & H0 & (m & Hm)) [= <-]. unfold ok. destruct s as [|x s]; [cbn; eauto|].
      destruct (since V1_5 v) eqn:L; [|discriminate (H0 eq_refl)].
      cbn [snd] in Hm. unfold kx_data. rewrite Hm. destruct (version_leb V1_5 w); cbn [bindo]; eauto.
  Qed.
  Hint Resolve y_data : yl.
  Lemma y_service n : forall tag, yields tag (rd_service v n) (ok (kx_service w)).
  Proof.
    induction n as [|n IH]; intros tag; [apply yields_fuel|]. cbn [rd_service].
    eapply yields_struct; [arms|].
    intros ats st b He H R.
    repeat match goal with s : (_ * _)%type |- _ => destruct s end; cbn [fst snd] in *;
    repeat match goal with H : _ /\ _ |- _ => destruct H end; opens R; injection R as <-.
    unfold ok. rewrite kx_service_eq. binds.
  Qed.
  Hint Resolve y_service : yl.
  Lemma k_services n : keeps (rd_services v n) (ok (maybe (each (kx_service w)))).
  Proof. unfold rd_services. arm. Qed.
  Hint Resolve k_services : yl.

  Lemma y_tools n tag : yields tag (rd_tools F v n) (ok (kx_tools w)).
  Proof.
    unfold rd_tools. eapply yields_struct; [arms|]. intros ats (t & s & c) b He H R. cbn [fst snd] in H. destruct H as (_ & (s' & Hs) & (c' & Hc)).
    destruct t as [l|].
    - destruct (some c || some s); [discriminate R|]. injection R as <-. unfold ok, kx_tools. destruct l; eauto.
    - destruct (since V1_5 v); injection R as <-; unfold ok, kx_tools; destruct (version_leb V1_5 w); eauto.
      cbn [snd fst] in Hs, Hc. rewrite Hs, Hc. cbn [bindo]. eauto.
  Qed.
  Hint Resolve y_tools : yl.
  Lemma y_metadata n tag : yields tag (rd_metadata F v n) (ok (kx_metadata w)).
  Proof. reads kx_metadata rd_metadata. Qed.
  Lemma y_version_status tag : yields tag rd_version_status (ok kx_version_status).
  Proof.
    unfold rd_version_status. eapply yields_struct.
    - eapply keep_pair; [|apply keep_true].
      instantiate (1 := ok (maybe (fun r => match r with VRVersion s => Some (VRVersion (xtrim s)) | VRRange s => Some (VRRange (xtrim s)) | VRUndefined _ => None end))).
      apply keep_or; apply keep_one; (eapply yields_map; [apply yields_true|]); intros ats s b _ _ [= <-]; unfold ok; eauto.
    - fin kx_version_status.
  Qed.
  Hint Resolve y_metadata y_version_status : yl.
  Lemma y_target tag : yields tag rd_target (ok kx_target).
  Proof. reads kx_target rd_target. Qed.
  Hint Resolve y_target : yl.
  Lemma y_vulnerability n tag : yields tag (rd_vulnerability F v n) (ok (kx_vulnerability w)).
  Proof. reads kx_vulnerability rd_vulnerability. Qed.
  Hint Resolve y_vulnerability : yl.
  Lemma y_formula n tag : v = V1_5 -> yields tag (rd_formula F v n) (ok (kx_formula w)).
  Proof. intros L. pose proof (y_workflow L) as YW. reads kx_formula rd_formula. Qed.
  Lemma k_formulation n : keeps (Xml.from (since V1_5 v) (one_list Strict "formulation" "formula" (rd_formula F v n))) (ok (maybe (each (kx_formula w)))).
  Proof. apply keep_gated; [|now exists None]. intros L. apply keep_list, y_formula, latest, L. Qed.
  Theorem y_bom n tag : yields tag (rd_bom F v n) (ok (kx_bom w)).
  Proof.
    unfold rd_bom. eapply yields_struct.
    { repeat (eapply keep_pair; [first [apply k_formulation | arm]|]). apply keep_true. }
    fin kx_bom.
  Qed.
End RESAVE.

(** ** Every component that was read in version 1.3 has a version *)
Section VERSIONS.
  Variable F : float_text.
  Let E (e : event) := True.
  Definition versions (c : component) : Prop := forall d, within c d -> c_version d <> None.
  Definition item {A} (P : A -> Prop) (o : option A) : Prop := match o with Some a => P a | None => True end.
  Lemma keep_item {A} tag (d : desc A) (P : A -> Prop) : yields E tag d P -> keeps E (Xml.one tag d) (item P).
  Proof. intros H. apply (keep_on E tag d _ _ _ P); [exact H|exact Logic.I|]. intros a st st' Ha _ [= <-]. exact Ha. Qed.
  Lemma keep_items {A} n p tag (d : desc A) (P : A -> Prop) : yields E tag d P -> keeps E (one_list p n tag d) (item (Forall P)).
  Proof.
    intros H. apply keep_item, yields_loop. apply (keep_on E tag d _ _ _ P); [exact H|constructor|].
    intros a st st' Ha Hs [= <-]. apply Forall_app. split; [exact Hs|]. constructor; [exact Ha|constructor].
  Qed.
  Definition pedigree_versions (p : pedigree) : Prop := forall d, In d (pedigree_members p) -> versions d.
  Lemma item_in {A} (P : A -> Prop) o a : item (Forall P) o -> In a (olist o) -> P a.
  Proof. destruct o as [l|]; [|intros _ []]. intros H I. exact (proj1 (Forall_forall _ _) H a I). Qed.
  Lemma v_pedigree tag rc : (forall t, yields E t rc versions) -> yields E tag (rd_pedigree rc) pedigree_versions.
  Proof.
    intros H. unfold rd_pedigree. eapply yields_struct.
    - do 3 (eapply keep_pair; [apply keep_items; apply H|]). apply keep_true.
    - intros ats st b _ (A & D & V & _) R. destruct st as (a & d & w & c & p & n). injection R as <-. cbn [fst snd] in *.
      intros x I. unfold pedigree_members in I. cbn in I. apply in_app_iff in I. destruct I as [I|I]; [exact (item_in _ _ _ A I)|].
      apply in_app_iff in I. destruct I as [I|I]; [exact (item_in _ _ _ D I)|exact (item_in _ _ _ V I)].
  Qed.
  Lemma v_component n : forall tag, yields E tag (rd_component F V1_3 n) versions.
  Proof.
    induction n as [|n IH]; intros tag; [apply yields_fuel|]. cbn [rd_component].
    pose proof (v_pedigree "pedigree" (rd_component F V1_3 n) IH) as YP.
    eapply yields_struct.
    { repeat (eapply keep_pair; [first [apply keep_item; exact YP | apply keep_items; apply IH | apply keep_true]|]). apply keep_true. }
    intros ats st b _ H R.
    repeat match goal with s : (_ * _)%type |- _ => destruct s end. cbn [fst snd] in *.
    repeat match goal with H : _ /\ _ |- _ => destruct H end.
    destruct (attr "type" ats) as [t|]; [|discriminate R]. cbn [bindo] in R.
    match type of R with bindo ?o _ = _ => destruct o as [na|]; [|discriminate R] end. cbn [bindo] in R.
    change (since V1_4 V1_3) with false in R. cbv iota in R.
    match type of R with bindo (bindo ?o _) _ = _ => destruct o as [ve|]; [|discriminate R] end. cbn [bindo] in R.
    injection R as <-. intros d W. inversion W as [|? d' ? I W'|? p d' ? Ep I W']; subst.
    - discriminate.
    - cbn in I. match goal with H : item (Forall versions) _ |- _ => exact (item_in _ _ _ H I d W') end.
    - cbn in Ep. subst. match goal with H : item pedigree_versions _ |- _ => exact (H d' I d W') end.
  Qed.
  Lemma v_bom n tag : yields E tag (rd_bom F V1_3 n) (fun b => forall c, bom_component V1_3 b c -> c_version c <> None).
  Proof.
    unfold rd_bom. eapply yields_struct.
    { eapply keep_pair.
      - instantiate (1 := item (fun m => item versions (m_component m) /\ forall s c, m_tools m <> Some (TObject s c))).
        apply keep_item. unfold rd_metadata. eapply yields_struct.
        + eapply keep_pair; [apply keep_true|]. eapply keep_pair.
          * instantiate (1 := item (fun t => forall s c, t <> TObject s c)). apply keep_item.
            unfold rd_tools. eapply yields_struct; [apply keep_true|]. intros ats (t & s & c) b _ _ R s' c' ->.
            destruct t as [l|]; [destruct (some c || some s); discriminate|discriminate].
          * eapply keep_pair; [apply keep_true|]. eapply keep_pair; [apply keep_item, v_component|apply keep_true].
        + intros ats (t & tl & au & co & ma & su & li & pr & lc) b _ (_ & T & _ & C & _) R. injection R as <-. cbn [fst snd m_component m_tools] in *.
          split; [exact C|]. intros s c ->. exact (T s c eq_refl).
      - eapply keep_pair; [apply keep_items, v_component|apply keep_true]. }
    intros ats (m & c & st) b _ (M & C & _) R. cbn [fst snd] in *.
    destruct st as (s & er & de & co & p & vu & f & sg & an).
    destruct (attr_of xml_u32 "version" ats) as [ver|]; [|discriminate R]. cbn [bindo] in R. injection R as <-.
    intros d (r & I & W). unfold bom_roots in I. cbn [b_metadata b_components b_vulnerabilities b_annotations b_formulation] in I.
    unfold from_list in I. cbn [version_leb] in I. rewrite !app_nil_r in I. apply in_app_iff in I. destruct I as [I|I].
    - destruct m as [m|]; [|destruct I]. cbn [JsonSpec.one flat_map] in I. rewrite app_nil_r in I.
      destruct M as [Mc Mt]. apply in_app_iff in I. destruct I as [I|I].
      + destruct (m_tools m) as [[l|s' c']|]; [destruct I|destruct (Mt s' c' eq_refl)|destruct I].
      + destruct (m_component m) as [x|]; [|destruct I]. destruct I as [<-|[]]. exact (Mc d W).
    - exact (item_in _ _ _ C I d W).
  Qed.
End VERSIONS.

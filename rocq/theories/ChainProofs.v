(** What is left after two conversions is what the earlier of the two versions leaves. *)
From Verif Require Import Base ModelTypes Strings Enums GenModel Json JsonLemmas JsonModel JsonSpec JsonProofs JsonProofs3
  JsonProofs4 JsonProps ResaveSpec ResaveProofs ResaveProps ChainSpec.
Open Scope string_scope.
Open Scope list_scope.

Create HintDb via.
Lemma option_via {A} (f g h : A -> A) o : (forall x, f (g x) = h (h x)) ->
  option_map f (option_map g o) = option_map h (option_map h o).
Proof. intros H. destruct o; cbn; congruence. Qed.
Lemma map_via_in {A} (f g h : A -> A) l : (forall x, In x l -> f (g x) = h (h x)) -> map f (map g l) = map h (map h l).
Proof. intros H. rewrite !map_map. apply map_ext_in. exact H. Qed.
Lemma map_via {A} (f g h : A -> A) l : (forall x, f (g x) = h (h x)) -> map f (map g l) = map h (map h l).
Proof. intros H. apply map_via_in. auto. Qed.
Ltac via :=
  match goal with
  | |- _ => reflexivity
  | |- option_map _ (option_map _ _) = _ => apply option_via; intros; via
  | |- map _ (map _ _) = _ => apply map_via; intros; via
  | |- _ => solve [auto with via nocore]
  end.



Lemma via_license v w x : kept_license v (kept_license w x) = kept_license (earlier v w) (kept_license (earlier v w) x).
Proof. destruct v, w; reflexivity. Qed.
#[export] Hint Resolve via_license : via.
Lemma via_license_choice v w x : kept_license_choice v (kept_license_choice w x) =
  kept_license_choice (earlier v w) (kept_license_choice (earlier v w) x).
Proof. destruct x; cbn [kept_license_choice]; f_equal; via. Qed.
#[export] Hint Resolve via_license_choice : via.
Lemma via_evidence v w x : kept_evidence v (kept_evidence w x) = kept_evidence (earlier v w) (kept_evidence (earlier v w) x).
Proof.
  unfold kept_evidence; cbn [ev_licenses ev_copyright ev_occurrences ev_callstack ev_identity]; f_equal;
    first [via | destruct v, w; reflexivity].
Qed.
#[export] Hint Resolve via_evidence : via.
Lemma via_pedigree (f g h : component -> component) p :
  (forall c, In c (pedigree_members p) -> f (g c) = h (h c)) ->
  kept_pedigree f (kept_pedigree g p) = kept_pedigree h (kept_pedigree h p).
Proof.
  intros H. unfold pedigree_members in H.
  assert (G : forall o, incl (olist o) (olist (pd_ancestors p) ++ olist (pd_descendants p) ++ olist (pd_variants p)) ->
    option_map (map f) (option_map (map g) o) = option_map (map h) (option_map (map h) o)).
  { intros [l|] I; cbn in *; [|reflexivity]. f_equal. apply map_via_in. auto. }
  unfold kept_pedigree. cbn [pd_ancestors pd_descendants pd_variants pd_commits pd_patches pd_notes].
  f_equal; [apply G|apply G|apply G]; intros c I; rewrite !in_app_iff; auto.
Qed.
Lemma via_component v w x : kept_component v (kept_component w x) = kept_component (earlier v w) (kept_component (earlier v w) x).
Proof.
  induction x as [x IHc IHp] using component_ind'.
  set (m := earlier v w) in *.
  rewrite (kept_component_eq v (kept_component w x)), (kept_component_eq m (kept_component m x)), (kept_component_eq w x), (kept_component_eq m x).
  cbn [c_type c_mime_type c_bom_ref c_supplier c_author c_publisher c_group c_name c_version
    c_description c_scope c_hashes c_licenses c_copyright c_cpe c_purl c_swid c_modified c_pedigree
    c_external_references c_properties c_components c_evidence c_signature c_model_card c_data].
  assert (P : option_map (kept_pedigree (kept_component v)) (option_map (kept_pedigree (kept_component w)) (c_pedigree x)) =
    option_map (kept_pedigree (kept_component m)) (option_map (kept_pedigree (kept_component m)) (c_pedigree x))).
  { destruct (c_pedigree x) as [p|]; cbn; [|reflexivity]. f_equal. apply via_pedigree.
    destruct (IHp p eq_refl) as [I1 [I2 I3]]. intros c. unfold pedigree_members.
    rewrite !in_app_iff. intros [I|[I|I]]; auto. }
  assert (N : option_map (map (kept_component v)) (option_map (map (kept_component w)) (c_components x)) =
    option_map (map (kept_component m)) (option_map (map (kept_component m)) (c_components x))).
  { unfold all_in in IHc. destruct (c_components x) as [l|]; cbn in *; [|reflexivity]. f_equal.
    apply map_via_in. exact IHc. }
  apply mkComponent_eq; first [exact P | exact N | subst m; via | subst m; clear; destruct v, w; reflexivity].
Qed.
#[export] Hint Resolve via_component : via.
Lemma via_service v w x : kept_service v (kept_service w x) = kept_service (earlier v w) (kept_service (earlier v w) x).
Proof.
  induction x as [x IH] using service_ind'. set (m := earlier v w) in *.
  rewrite (kept_service_eq v (kept_service w x)), (kept_service_eq m (kept_service m x)), (kept_service_eq w x), (kept_service_eq m x).
  cbn [s_bom_ref s_provider s_group s_name s_version s_description s_endpoints s_authenticated
    s_x_trust_boundary s_data s_licenses s_external_references s_properties s_services s_signature s_trust_zone].
  assert (N : option_map (map (kept_service v)) (option_map (map (kept_service w)) (s_services x)) =
    option_map (map (kept_service m)) (option_map (map (kept_service m)) (s_services x))).
  { destruct (s_services x) as [l|]; cbn in *; [|reflexivity]. f_equal. apply map_via_in. exact IH. }
  apply mkService_eq; first [exact N | subst m; via | subst m; clear; destruct v, w; reflexivity].
Qed.
#[export] Hint Resolve via_service : via.
Lemma via_tool v w x : kept_tool v (kept_tool w x) = kept_tool (earlier v w) (kept_tool (earlier v w) x).
Proof. destruct v, w; reflexivity. Qed.
#[export] Hint Resolve via_tool : via.
Lemma via_tools v w x : kept_tools v (kept_tools w x) = kept_tools (earlier v w) (kept_tools (earlier v w) x).
Proof.
  destruct x; [cbn [kept_tools]; f_equal; via|]. destruct v, w; cbn [kept_tools version_leb earlier map]; try reflexivity; f_equal; via.
Qed.
#[export] Hint Resolve via_tools : via.
Lemma via_metadata v w x : kept_metadata v (kept_metadata w x) = kept_metadata (earlier v w) (kept_metadata (earlier v w) x).
Proof.
  unfold kept_metadata; cbn [m_timestamp m_tools m_authors m_component m_manufacture m_supplier m_licenses m_properties m_lifecycles]; f_equal;
    first [via | destruct v, w; reflexivity].
Qed.
#[export] Hint Resolve via_metadata : via.
Lemma via_composition v w x : kept_composition v (kept_composition w x) = kept_composition (earlier v w) (kept_composition (earlier v w) x).
Proof. destruct v, w; reflexivity. Qed.
#[export] Hint Resolve via_composition : via.
Lemma via_annotator v w x : kept_annotator v (kept_annotator w x) = kept_annotator (earlier v w) (kept_annotator (earlier v w) x).
Proof. destruct x; cbn [kept_annotator]; f_equal; via. Qed.
#[export] Hint Resolve via_annotator : via.
Lemma via_annotation v w x : kept_annotation v (kept_annotation w x) = kept_annotation (earlier v w) (kept_annotation (earlier v w) x).
Proof. unfold kept_annotation; cbn [an_bom_ref an_subjects an_annotator an_timestamp an_text an_signature]; f_equal; via. Qed.
#[export] Hint Resolve via_annotation : via.
Lemma via_vuln_analysis v w x : kept_vuln_analysis v (kept_vuln_analysis w x) = kept_vuln_analysis (earlier v w) (kept_vuln_analysis (earlier v w) x).
Proof. destruct v, w; reflexivity. Qed.
#[export] Hint Resolve via_vuln_analysis : via.
Lemma via_vulnerability v w x : kept_vulnerability v (kept_vulnerability w x) = kept_vulnerability (earlier v w) (kept_vulnerability (earlier v w) x).
Proof.
  unfold kept_vulnerability; cbn [v_bom_ref v_id v_source v_references v_ratings v_cwes v_description v_detail v_recommendation v_workaround v_proof_of_concept v_advisories v_created v_published v_updated v_rejected v_credits v_tools v_analysis v_targets v_properties]; f_equal;
    first [via | destruct v, w; reflexivity].
Qed.
#[export] Hint Resolve via_vulnerability : via.
Lemma via_formula v w x : kept_formula v (kept_formula w x) = kept_formula (earlier v w) (kept_formula (earlier v w) x).
Proof. unfold kept_formula; cbn [fo_bom_ref fo_components fo_services fo_workflows fo_properties]; f_equal; via. Qed.
#[export] Hint Resolve via_formula : via.

Lemma from_via {A} u v w (f g h : A -> A) o : (forall x, f (g x) = h (h x)) ->
  from u v (option_map f (from u w (option_map g o))) =
  from u (earlier v w) (option_map h (from u (earlier v w) (option_map h o))).
Proof. intros H. destruct o, u, v, w; cbn; congruence. Qed.
Lemma via_bom v w b : kept_bom v (kept_bom w b) = at_version v (kept_bom (earlier v w) (kept_bom (earlier v w) b)).
Proof.
  unfold at_version, kept_bom; cbn [b_version b_serial_number b_metadata b_components
    b_services b_external_references b_dependencies b_compositions b_properties b_vulnerabilities b_signature
    b_annotations b_formulation b_spec_version]; f_equal;
    first [via | apply from_via; intros; via | destruct v, w; reflexivity].
Qed.
Lemma kept_at v w b : kept_bom v (at_version w b) = kept_bom v b.
Proof. reflexivity. Qed.
Lemma at_at v w b : at_version v (at_version w b) = at_version v b.
Proof. reflexivity. Qed.
Lemma at_kept v b : at_version v (kept_bom v b) = kept_bom v b.
Proof. reflexivity. Qed.
(** a further conversion *)
Lemma via_again v m b : kept_bom v (kept_bom m (kept_bom m b)) =
  at_version v (kept_bom (earlier v m) (kept_bom (earlier v m) b)).
Proof.
  rewrite (via_bom v m (kept_bom m b)). set (e := earlier v m).
  rewrite (via_bom e m b), kept_at. replace (earlier e m) with e by (subst e; now destruct v, m).
  now rewrite idem_bom.
Qed.

(** ** Journeys *)
Lemma converted_kept v b b' : confidences_finite v b -> converted v b b' -> b' = kept_bom v b.
Proof.
  intros M (j & j' & O & L & [P|[P|P]]).
  - rewrite (output_then_parse_any v b j j' O L M) in P. congruence.
  - rewrite (output_then_parse v b j j' O L M) in P. congruence.
  - rewrite (output_then_parse_value v b j j' O L M) in P. congruence.
Qed.
(** what was read is the BOM of some document with finite numbers *)
Lemma converted_read v b b' : converted v b b' -> exists u j, numbers_fit j /\ of_json_bom u j = Some b'.
Proof.
  intros (j & j' & O & L & P).
  assert (F : numbers_fit j') by exact (plain_fit _ (like_plain _ _ L (proj2 (output_plain v b j O)))).
  destruct P as [P|[P|P]].
  - exists (b_spec_version b'), (to_value j'). split; [exact (fit_value j' F)|exact (read_any j' b' P)].
  - exists v, j'. split; [exact F|exact (deserialized v j' b' P)].
  - exists v, (to_value j'). split; [exact (fit_value j' F)|exact (deserialized v _ b' P)].
Qed.
Lemma read_confidences v j b : parse_from_json j = Done b -> numbers_fit j -> confidences_finite v b.
Proof.
  intros P F c (r & I & W). apply (read_finite (b_spec_version b)).
  exact (component_read _ _ _ (roots_read _ _ _ _ _ (read_any j b P) (fit_value j F) I) W).
Qed.
Lemma converted_confidences v w b b' : converted w b b' -> confidences_finite v b'.
Proof.
  intros C c (r & I & W). destruct (converted_read _ _ _ C) as (u & j & F & R). apply (read_finite u).
  exact (component_read _ _ _ (roots_read _ _ _ _ _ R F I) W).
Qed.
Lemma onward vs m v b0 b b' : b = at_version v (kept_bom m (kept_bom m b0)) -> (forall w, confidences_finite w b) ->
  travelled vs b b' ->
  b' = at_version (last vs v) (kept_bom (earliest m vs) (kept_bom (earliest m vs) b0)).
Proof.
  intros E M T. revert m v b0 E M. induction T as [b|w vs b b1 b' C T IH]; intros m v b0 E M; [exact E|].
  pose proof (converted_kept w b b1 (M w) C) as K. rewrite E, kept_at, via_again in K.
  rewrite (IH (earlier w m) w b0 K) by (intros u; exact (converted_confidences u w b b1 C)).
  unfold earliest. cbn [fold_left]. f_equal. clear. revert v w. induction vs as [|x vs IH]; intros v w; [reflexivity|].
  cbn [last] in *. destruct vs; [reflexivity|]. apply IH.
Qed.
Lemma journey v1 v2 vs b b' : confidences_finite v1 b -> travelled (v1 :: v2 :: vs) b b' ->
  b' = at_version (last vs v2) (kept_bom (earliest v1 (v2 :: vs)) (kept_bom (earliest v1 (v2 :: vs)) b)).
Proof.
  intros M T. inversion T as [|? ? ? b1 ? C T']; subst. inversion T' as [|? ? ? b2 ? C' T'']; subst.
  pose proof (converted_kept v1 b b1 M C) as K1.
  pose proof (converted_kept v2 b1 b2 (converted_confidences v2 v1 b b1 C) C') as K2.
  rewrite K1, via_bom in K2.
  refine (onward vs (earlier v2 v1) v2 b b2 b' K2 _ T''). intros w. exact (converted_confidences w v2 b1 b2 C').
Qed.

(** ** Journeys go on *)
Lemma no_confidences v b : v <> V1_5 -> confidences_finite v b.
Proof. intros N c _ E. contradiction. Qed.
Lemma written_converted v b j : confidences_finite v b -> output_as_json v b = Done j -> converted v b (kept_bom v b).
Proof.
  intros M O. exists j, j. split; [exact O|]. split; [apply like_refl|]. left. exact (output_then_parse_any v b j j O (like_refl j) M).
Qed.
(** a BOM that came from a document of 1.3, perhaps with another version number *)
Definition been (b : bom) : Prop := exists b2, converted V1_3 b2 (at_version V1_3 b).
Lemma again b2 b : converted V1_3 b2 b -> converted V1_3 b (kept_bom V1_3 b).
Proof.
  intros C. pose proof (converted_kept V1_3 b2 b ltac:(apply no_confidences; discriminate) C) as K.
  destruct C as (j0 & j1 & O0 & _). pose proof (output_then_parse V1_3 b2 j0 j0 O0 (like_refl j0) ltac:(apply no_confidences; discriminate)) as P.
  rewrite <- K in P. apply deserialized in P.
  destruct (read_writes V1_3 V1_3 b _ eq_refl (written_fit _ _ _ O0) P) as (j' & O').
  apply (written_converted V1_3 b j'); [apply no_confidences; discriminate|exact O'].
Qed.
Lemma been_on v b b' : been b -> confidences_finite v b -> converted v b b' -> been b'.
Proof.
  intros (b2 & C2) M C. pose proof (again _ _ C2) as C3.
  exists (at_version V1_3 b). rewrite (converted_kept v b b' M C).
  pose proof (converted_kept V1_3 b2 _ ltac:(apply no_confidences; discriminate) C2) as K.
  assert (E : at_version V1_3 (kept_bom v b) = kept_bom V1_3 (at_version V1_3 b)).
  { change (kept_bom v b) with (kept_bom v (at_version V1_3 b)). rewrite K, via_bom, at_at.
    replace (earlier v V1_3) with V1_3 by now destruct v. apply at_kept. }
  rewrite E. exact C3.
Qed.
Lemma been_there vs b b' : In V1_3 vs -> travelled vs b b' -> been b'.
Proof.
  intros I T.
  assert (G : forall vs b b', travelled vs b b' -> been b -> (forall w, confidences_finite w b) -> been b').
  { clear. intros vs b b' T. induction T as [b|w vs b b1 b' C T IH]; intros B M; [exact B|].
    apply IH; [exact (been_on w b b1 B (M w) C)|]. intros u. exact (converted_confidences u w b b1 C). }
  induction T as [b|w vs b b1 b' C T IH]; [destruct I|].
  destruct w; [|destruct I as [[=]|I]; auto..].
  apply (G vs b1 b' T); [|intros u; exact (converted_confidences u V1_3 b b1 C)].
  exists b. replace (at_version V1_3 b1) with b1; [exact C|].
  rewrite (converted_kept V1_3 b b1 ltac:(apply no_confidences; discriminate) C). reflexivity.
Qed.
Lemma goes_on v vs w b b' : travelled (v :: vs) b b' -> w <> V1_3 \/ In V1_3 (v :: vs) -> exists b'', converted w b' b''.
Proof.
  intros T H.
  assert (M : forall u, confidences_finite u b').
  { clear H. remember (v :: vs) as l eqn:E. revert v vs E. induction T as [|x l b b1 b' C T IH]; intros v vs [= <- <-].
    destruct T as [b1|y l b1 b2 b' C' T]; [intros u; exact (converted_confidences u _ _ _ C)|]. exact (IH y l eq_refl). }
  enough (O : exists j, output_as_json w b' = Done j) by (destruct O as (j & O); eauto using written_converted).
  destruct (output_as_json_iff w b') as [[E _]|[E _]]; [eauto|].
  destruct (output_fails w b' _ E) as (-> & _). destruct H as [N|I]; [now exfalso; apply N|].
  destruct (been_there _ b b' I T) as (b2 & C). destruct (again _ _ C) as (j & ? & O & _). now exists j.
Qed.

(** ** Away from the version of a document and back *)
Lemma earliest_bound u v vs : version_leb u v = true -> (forall w, In w vs -> version_leb u w = true) -> version_leb u (earliest v vs) = true.
Proof.
  revert v. induction vs as [|x vs IH]; intros v L A; [exact L|]. cbn [earliest fold_left].
  apply IH; [|intros w I; apply A; now right]. unfold earlier. destruct (version_leb x v); [|exact L]. apply A. now left.
Qed.
Lemma earliest_le v vs : version_leb (earliest v vs) v = true.
Proof.
  revert v. induction vs as [|x vs IH]; intros v; [now destruct v|]. cbn [earliest fold_left].
  specialize (IH (earlier x v)). unfold earliest in IH. set (e := fold_left _ vs _) in *. clearbody e. revert IH. now destruct e, x, v.
Qed.
Lemma earliest_in v vs w : In w vs -> version_leb (earliest v vs) w = true.
Proof.
  revert v. induction vs as [|x vs IH]; intros v I; [destruct I|]. cbn [earliest fold_left]. destruct I as [<-|I]; [|now apply IH].
  pose proof (earliest_le (earlier x v) vs) as L. unfold earliest in L. set (e := fold_left _ vs _) in *. clearbody e. revert L. now destruct e, x, v.
Qed.
Lemma last_in (v : spec_version) vs : vs = [] \/ In (last vs v) vs.
Proof. induction vs as [|x vs IH]; [now left|]. right. destruct vs as [|y vs]; [now left|]. right. destruct IH as [[=]|I]. exact I. Qed.
Lemma there_and_back j b v vs b' : parse_from_json j = Done b -> numbers_fit j ->
  (forall w, In w (v :: vs) -> version_leb (b_spec_version b) w = true) -> last vs v = b_spec_version b ->
  travelled (v :: vs) b b' -> b' = respell_bom (b_spec_version b) b.
Proof.
  intros P F A L T. set (u := b_spec_version b) in *.
  assert (R : kept_bom u b = respell_bom u b).
  { apply (bom_turned u u (to_value j) b); [now destruct u|exact (fit_value j F)|exact (read_any j b P)]. }
  assert (M : forall w, confidences_finite w b) by (intros w; exact (read_confidences w j b P F)).
  destruct vs as [|v2 vs].
  - cbn in L. subst v. inversion T as [|? ? ? b1 ? C T']; subst. inversion T'; subst.
    rewrite (converted_kept u b b' (M u) C). exact R.
  - rewrite (journey v v2 vs b b' (M v) T).
    assert (E : earliest v (v2 :: vs) = u).
    { assert (B : version_leb u (earliest v (v2 :: vs)) = true) by (apply earliest_bound; [|intros w I]; apply A; cbn; auto).
      assert (I : In u (v2 :: vs)) by (destruct (last_in v (v2 :: vs)) as [[=]|I]; now rewrite L in I).
      pose proof (earliest_in v (v2 :: vs) u I) as B'. revert B B'. set (e := earliest v (v2 :: vs)). clearbody e u. now destruct e, u. }
    assert (L' : last vs v2 = u) by (rewrite <- L; clear; revert v v2; induction vs as [|x vs IH]; intros v v2; [reflexivity|]; cbn [last] in *; destruct vs; [reflexivity|apply (IH v v2)]).
    rewrite E, L', at_kept.
    assert (C1 : exists j1, output_as_json u b = Done j1).
    { apply (read_writes u u b (to_value j)); [now destruct u|exact (fit_value j F)|exact (read_any j b P)]. }
    destruct C1 as (j1 & O1). pose proof (output_then_parse_any u b j1 j1 O1 (like_refl j1) (M u)) as P1.
    pose proof (read_any j1 _ P1) as Q1. change (b_spec_version (kept_bom u b)) with u in Q1.
    rewrite (bom_turned u u _ _ ltac:(now destruct u) (fit_value j1 (written_fit _ _ _ O1)) Q1).
    rewrite R. apply twice_bom.
Qed.

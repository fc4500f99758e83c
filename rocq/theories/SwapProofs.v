(** Every reader of the library keeps what it has read of one kind of element apart from that of others, except for the alternatives
    SwapSpec lists *)
From Verif Require Import Base ModelTypes Strings Enums GenModel Json JsonLemmas JsonModel
  Xml XmlLemmas XmlModel XmlGeneral StrictSpec StrictProofs SwapSpec.
Open Scope string_scope.
Open Scope list_scope.
Open Scope nat_scope.
Open Scope shape_scope.

(** [n] and [n'] are kept in different components of the state *)
Fixpoint apart {S} (sh : shape S) (n n' : string) : bool :=
  match sh with
  | SPair a b =>
      match has_arm a n, has_arm a n' with true, true => apart a n n' | false, false => apart b n n' | _, _ => true end
  | SOr a b =>
      match has_arm a n, has_arm a n' with true, true => apart a n n' | false, false => apart b n n' | _, _ => false end
  | _ => false
  end.
Definition then_ {S} (u u' : S -> option S) (st : S) : option S := match u st with Some st' => u' st' | None => None end.
Lemma tmap_ok {A B} (f : A -> B) t u : tmap f t = TOk u -> exists a, t = TOk a /\ u = f a.
Proof. destruct t as [a| |]; cbn; try discriminate. intros [= <-]. now exists a. Qed.
Lemma then_fst {S T} (w w' : S -> option S) (p : S * T) :
  then_ (on_fst w) (on_fst w') p = match then_ w w' (fst p) with Some s => Some (s, snd p) | None => None end.
Proof. destruct p as [s t]. unfold then_, on_fst. cbn. now destruct (w s). Qed.
Lemma then_snd {S T} (w w' : T -> option T) (p : S * T) :
  then_ (on_snd w) (on_snd w') p = match then_ w w' (snd p) with Some t => Some (fst p, t) | None => None end.
Proof. destruct p as [s t]. unfold then_, on_snd. cbn. now destruct (w t). Qed.
Lemma apart_commutes {S} (sh : shape S) n n' r r' : apart sh n n' = true -> tr_arm sh n = Some r -> tr_arm sh n' = Some r' ->
  forall ats ks ats' ks' u u', r ats ks = TOk u -> r' ats' ks' = TOk u' -> forall st, then_ u u' st = then_ u' u st.
Proof.
  induction sh as [| | |S a IHa b IHb|S1 S2 a IHa b IHb]; cbn [apart tr_arm]; try discriminate; rewrite !has_arm_tr.
  - destruct (tr_arm a n) as [x|], (tr_arm a n') as [x'|]; try discriminate.
    + intros H [= <-] [= <-]. now apply IHa.
    + now apply IHb.
  - destruct (tr_arm a n) as [x|], (tr_arm a n') as [x'|].
    + intros H [= <-] [= <-] ats ks ats' ks' u u' E E' [s t].
      apply tmap_ok in E as (w & E & ->). apply tmap_ok in E' as (w' & E' & ->).
      pose proof (IHa x x' H eq_refl eq_refl ats ks ats' ks' w w' E E' s) as C. rewrite !then_fst. cbn [fst]. now rewrite C.
    + intros _ [= <-] Eb. destruct (tr_arm b n') as [y|]; [|discriminate]. injection Eb as <-.
      intros ats ks ats' ks' u u' E E' [s t]. apply tmap_ok in E as (w & E & ->). apply tmap_ok in E' as (w' & E' & ->).
      unfold then_, on_fst, on_snd. cbn. destruct (w s) eqn:Ws, (w' t) eqn:Wt; cbn; rewrite ?Ws, ?Wt; reflexivity.
    + intros _ Eb [= <-]. destruct (tr_arm b n) as [y|]; [|discriminate]. injection Eb as <-.
      intros ats ks ats' ks' u u' E E' [s t]. apply tmap_ok in E as (w & E & ->). apply tmap_ok in E' as (w' & E' & ->).
      unfold then_, on_fst, on_snd. cbn. destruct (w t) eqn:Wt, (w' s) eqn:Ws; cbn; rewrite ?Ws, ?Wt; reflexivity.
    + intros H. destruct (tr_arm b n) as [y|]; [|discriminate]. destruct (tr_arm b n') as [y'|]; [|discriminate]. intros [= <-] [= <-].
      intros ats ks ats' ks' u u' E E' [s t]. apply tmap_ok in E as (w & E & ->). apply tmap_ok in E' as (w' & E' & ->).
      pose proof (IHb y y' H eq_refl eq_refl ats ks ats' ks' w w' E E' t) as C. rewrite !then_snd. cbn [snd]. now rewrite C.
Qed.

Definition listed (n : string) (l : list string) : bool := existsb (String.eqb n) l.
Lemma listed_in n l : listed n l = true <-> In n l.
Proof.
  unfold listed. rewrite existsb_exists. split; [intros (m & I & E); apply String.eqb_eq in E; now subst|].
  intros I. exists n. split; [exact I|apply String.eqb_refl].
Qed.
Definition free (v : spec_version) {S} (sh : shape S) (q : place) : bool :=
  forallb (fun n => forallb (fun n' => String.eqb n n' || listed n (alternatives q) && listed n' (alternatives q) || apart sh n n')
    (map fst (snd (content v q)))) (map fst (snd (content v q))).

(** the reader [d] of elements at the place [q] keeps them apart *)
Fixpoint sorts (v : spec_version) {A} (d : desc A) (q : place) {struct d} : Prop :=
  match d with
  | DPrim _ => True
  | DMap _ d => sorts v d q
  | DLoop _ sh | DOdd sh _ _ => free v sh q = true /\ ssorts v sh q
  | DFuel => True
  end
with ssorts (v : spec_version) {S} (sh : shape S) (q : place) {struct sh} : Prop :=
  match sh with
  | SNone _ | SChars _ _ => True
  | SOn tag d _ _ => match within v q tag with Some q' => sorts v d q' | None => False end
  | SOr a b => ssorts v a q /\ ssorts v b q
  | SPair a b => ssorts v a q /\ ssorts v b q
  end.
Lemma free_apart v {S} (sh : shape S) q n n' : free v sh q = true -> within v q n <> None -> within v q n' <> None -> n <> n' ->
  ~ (In n (alternatives q) /\ In n' (alternatives q)) -> apart sh n n' = true.
Proof.
  intros H W W' N A. unfold free in H. rewrite forallb_forall in H.
  destruct (within v q n) as [p|] eqn:E; [|now destruct W]. destruct (within v q n') as [p'|] eqn:E'; [|now destruct W'].
  specialize (H n (within_in _ _ _ _ E)). rewrite forallb_forall in H. specialize (H n' (within_in _ _ _ _ E')).
  apply orb_prop in H as [H|H]; [|exact H]. exfalso. apply orb_prop in H as [H|H]; [now apply String.eqb_eq in H|].
  apply andb_prop in H as [H1 H2]. apply A. split; now apply listed_in.
Qed.

(** two arms one after the other *)
Lemma arms_commute {S} (sh : shape S) n n' r r' ats ks ats' ks' (st : S) : apart sh n n' = true ->
  tr_arm sh n = Some r -> tr_arm sh n' = Some r' -> forall (k : S -> tres S) a,
  tbind (r ats ks) (fun u => tbind (of_opt (u st)) (fun st => tbind (r' ats' ks') (fun u => tbind (of_opt (u st)) k))) = TOk a ->
  tbind (r' ats' ks') (fun u => tbind (of_opt (u st)) (fun st => tbind (r ats ks) (fun u => tbind (of_opt (u st)) k))) = TOk a.
Proof.
  intros H E E' k a. destruct (r ats ks) as [u| |] eqn:R; cbn [tbind]; try discriminate.
  destruct (u st) as [st1|] eqn:U; cbn [of_opt tbind]; [|discriminate].
  destruct (r' ats' ks') as [u'| |] eqn:R'; cbn [tbind]; try discriminate.
  destruct (u' st1) as [st2|] eqn:U'; cbn [of_opt tbind]; [|discriminate]. intros K.
  pose proof (apart_commutes sh n n' r r' H E E' _ _ _ _ u u' R R' st) as C. unfold then_ in C. rewrite U, U' in C.
  destruct (u' st) as [st3|]; [|discriminate]. cbn [of_opt tbind]. rewrite <- C. exact K.
Qed.
Lemma arms_commute_strict {S} (sh : shape S) n n' r r' ats ks ats' ks' (st : S) : apart sh n n' = true ->
  tr_arm sh n = Some r -> tr_arm sh n' = Some r' -> forall (k : S -> tres S) a,
  tbind (tbind (r ats ks) (fun u => of_opt (u st))) (fun st => tbind (tbind (r' ats' ks') (fun u => of_opt (u st))) k) = TOk a ->
  tbind (tbind (r' ats' ks') (fun u => of_opt (u st))) (fun st => tbind (tbind (r ats ks) (fun u => of_opt (u st))) k) = TOk a.
Proof.
  intros H E E' k a X.
  assert (Y : forall (t t' : tres (S -> option S)) (st : S),
    tbind (tbind t (fun u => of_opt (u st))) (fun st => tbind (tbind t' (fun u => of_opt (u st))) k) =
    tbind t (fun u => tbind (of_opt (u st)) (fun st => tbind t' (fun u => tbind (of_opt (u st)) k)))).
  { intros t t' s. destruct t as [u| |]; cbn [tbind]; try reflexivity. destruct (u s); cbn [of_opt tbind]; [|reflexivity]. now destruct t'. }
  rewrite Y in X |- *. exact (arms_commute sh n n' r r' ats ks ats' ks' st H E E' k a X).
Qed.
(** ... and an element read the same *)
Lemma arm_same {S} (t t' : tres (S -> option S)) (st : S) (k : S -> tres S) a : (forall u, t = TOk u -> t' = TOk u) ->
  tbind t (fun u => tbind (of_opt (u st)) k) = TOk a -> tbind t' (fun u => tbind (of_opt (u st)) k) = TOk a.
Proof. intros H. destruct t as [u| |]; cbn [tbind]; try discriminate. now rewrite (H u eq_refl). Qed.
Lemma tbind_assoc {A B C} (t : tres A) (f : A -> tres B) (g : B -> tres C) : tbind (tbind t f) g = tbind t (fun a => tbind (f a) g).
Proof. now destruct t. Qed.

Theorem sorts_swapped v {A} (d : desc A) : forall q n ats kids kids' a, obeys v d q -> sorts v d q -> swapped v q kids kids' ->
  tr d n ats kids = TOk a -> tr d n ats kids' = TOk a.
Proof.
  induction d using desc_mut with
    (P0 := fun S sh => forall q, sobeys v sh q -> ssorts v sh q -> forall m r q' ats kids kids' u, tr_arm sh m = Some r -> within v q m = Some q' ->
       swapped v q' kids kids' -> r ats kids = TOk u -> r ats kids' = TOk u).
  - intros q n ats kids kids' a (H & K) _ U. exfalso.
    destruct U as [q before m ats1 ks m' ats2 ks' after W W' N E|q before m a' ks ks' after q' W U].
    + apply W. unfold within. now rewrite K.
    + unfold within in W. rewrite K in W. discriminate.
  - intros q n ats kids kids' a O K U. cbn [tr]. destruct (tr d n ats kids) as [x| |] eqn:E; cbn [tbind]; try discriminate.
    rewrite (IHd q n ats kids kids' x O K U E). auto.
  - intros q n ats kids kids' a (H & C & N & O) (Fr & K) U. cbn [tr].
    assert (Arm : forall m, within v q m <> None -> exists r, tr_arm sh m = Some r).
    { intros m W. destruct (within v q m) as [q'|] eqn:Wm; [|now destruct W].
      assert (E : has_arm sh m = true) by (rewrite forallb_forall in N; apply N; eapply within_in, Wm).
      rewrite has_arm_tr in E. destruct (tr_arm sh m) as [r|]; [now exists r|discriminate]. }
    destruct U as [q before m ats1 ks m' ats2 ks' after W W' Ne E|q before m a' ks ks' after q' W U];
      rewrite !absorb_app; destruct (absorb p (tr_arm sh) (on_chars sh) n before (init sh)) as [st| |]; cbn [tbind]; try discriminate; cbn [absorb absorb1].
    + destruct (Arm m W) as (r & Er), (Arm m' W') as (r' & Er'). rewrite Er, Er'.
      apply (arms_commute_strict sh m m' r r'); [|exact Er|exact Er']. eapply free_apart; eassumption.
    + destruct (Arm m) as (r & Er); [now rewrite W|]. rewrite Er, !tbind_assoc. apply arm_same. intros u. eapply IHd; eassumption.
  - intros q n ats kids kids' a (H & N & O) (Fr & K) U. cbn [tr].
    assert (Arm : forall m, within v q m <> None -> exists r, tr_arm sh m = Some r).
    { intros m W. destruct (within v q m) as [q'|] eqn:Wm; [|now destruct W].
      assert (E : has_arm sh m = true) by (rewrite forallb_forall in N; apply N; eapply within_in, Wm).
      rewrite has_arm_tr in E. destruct (tr_arm sh m) as [r|]; [now exists r|discriminate]. }
    destruct U as [q before m ats1 ks m' ats2 ks' after W W' Ne E|q before m a' ks ks' after q' W U];
      rewrite !odd_absorb_app; destruct (odd_absorb (tr_arm sh) before (init sh)) as [st| |]; cbn [tbind]; try discriminate; cbn [odd_absorb].
    + destruct (Arm m W) as (r & Er), (Arm m' W') as (r' & Er'). rewrite Er, Er'.
      apply (arms_commute sh m m' r r'); [|exact Er|exact Er']. eapply free_apart; eassumption.
    + destruct (Arm m) as (r & Er); [now rewrite W|]. rewrite Er. apply arm_same. intros u. eapply IHd; eassumption.
  - discriminate.
  - discriminate.
  - intros q O K m r q' ats kids kids' u. cbn [tr_arm sobeys ssorts] in *. destruct (String.eqb_spec m tag) as [->|]; [|discriminate].
    intros [= <-] W U E. rewrite W in *. apply tmap_ok in E as (x & E & ->). now rewrite (IHd q' tag ats kids kids' x O K U E).
  - discriminate.
  - intros q (H1 & H2) (K1 & K2) m r q' ats kids kids' u. cbn [tr_arm]. destruct (tr_arm a m) eqn:E.
    + intros [= <-]. now apply (IHd q).
    + now apply (IHd0 q).
  - intros q (H1 & H2) (K1 & K2) m r q' ats kids kids' u. cbn [tr_arm]. destruct (tr_arm a m) eqn:E.
    + intros [= <-] W U X. apply tmap_ok in X as (x & X & ->). now rewrite (IHd q H1 K1 m _ q' ats kids kids' x E W U X).
    + destruct (tr_arm b m) eqn:E'; [|discriminate]. intros [= <-] W U X. apply tmap_ok in X as (x & X & ->).
      now rewrite (IHd0 q H2 K2 m _ q' ats kids kids' x E' W U X).
Qed.

(** ** The readers *)
Create HintDb sorts discriminated.
Ltac sort1 :=
  match goal with
  | |- _ /\ _ => split
  | |- True => exact I
  | |- ?x = ?y => reflexivity
  | |- sorts _ (struct _ _ _) _ => unfold struct
  | |- sorts _ d_string _ => unfold d_string
  | |- sorts _ d_bool _ => unfold d_bool
  | |- sorts _ d_u32 _ => unfold d_u32
  | |- sorts _ (d_score _) _ => unfold d_score
  | |- sorts _ (d_f32 _) _ => unfold d_f32
  | |- ssorts _ rd_hashes _ => unfold rd_hashes
  | |- ssorts _ rd_properties _ => unfold rd_properties
  | |- ssorts _ rd_external_references _ => unfold rd_external_references
  | |- ssorts _ (rd_licenses _) _ => unfold rd_licenses
  | |- ssorts _ rd_license_identifier _ => unfold rd_license_identifier
  | |- ssorts _ rd_resources _ => unfold rd_resources
  | |- ssorts _ (rd_components _ _ _) _ => unfold rd_components
  | |- ssorts _ (rd_services _ _) _ => unfold rd_services
  | |- sorts _ (d_map _ _) _ => unfold d_map
  | |- sorts _ (d_enum _) _ => unfold d_enum
  | |- sorts _ (d_text _) _ => unfold d_text
  | |- sorts _ (list_of _ _ _) _ => unfold list_of
  | |- sorts _ (DMap _ _) _ => cbn [sorts]
  | |- sorts _ (DPrim _) _ => cbn [sorts]
  | |- sorts _ (DLoop _ _) _ => cbn [sorts]
  | |- sorts _ (DOdd _ _ _) _ => cbn [sorts]
  | |- ssorts _ (SPair _ _) _ => cbn [ssorts]
  | |- ssorts _ (SOr _ _) _ => cbn [ssorts]
  | |- ssorts _ (SNone _) _ => exact I
  | |- ssorts _ (SChars _ _) _ => exact I
  | |- ssorts _ (from (since ?a ?b) ?sh) _ => let r := eval vm_compute in (since a b) in change (from (since a b) sh) with (from r sh); cbn [from]
  | |- ssorts _ (one _ _) _ => unfold one
  | |- ssorts _ (many _ _) _ => unfold many
  | |- ssorts _ (many_opt _ _) _ => unfold many_opt
  | |- ssorts _ (single _ _) _ => unfold single
  | |- ssorts _ (one_list _ _ _ _) _ => unfold one_list
  | |- ssorts ?v (SOn ?tag ?d ?i ?u) ?q =>
      let r := eval vm_compute in (within v q tag) in
      match r with Some ?q' => change (sorts v d q') end
  | |- match within ?v ?q ?tag with Some q' => sorts _ ?d q' | None => False end =>
      let r := eval vm_compute in (within v q tag) in
      match r with Some ?q' => change (sorts v d q') end
  | |- _ => solve [auto 2 with sorts nocore]
  end.
Ltac sort := repeat sort1.
Ltac sort_reader r := intros; unfold r; match goal with v : spec_version |- _ => destruct v end; sort.
Lemma sorts_ref v : sorts v rd_ref PPointer.
Proof. sort_reader rd_ref. Qed.
Lemma sorts_attached_text v : sorts v rd_attached_text PWords.
Proof. sort_reader rd_attached_text. Qed.
Lemma sorts_attachment v : sorts v rd_attachment PAttachment.
Proof. sort_reader rd_attachment. Qed.
Lemma sorts_property v : sorts v rd_property PWords.
Proof. sort_reader rd_property. Qed.
Lemma sorts_hash v : sorts v rd_hash PWords.
Proof. sort_reader rd_hash. Qed.
Lemma sorts_contact v : sorts v rd_contact PContact.
Proof. sort_reader rd_contact. Qed.
#[export] Hint Resolve sorts_ref sorts_attached_text sorts_attachment sorts_property sorts_hash sorts_contact : sorts.
Lemma sorts_entity v : sorts v rd_entity PEntity.
Proof. sort_reader rd_entity. Qed.
Lemma sorts_external_reference v : sorts v rd_external_reference PExternalReference.
Proof. sort_reader rd_external_reference. Qed.
Lemma sorts_signer v : sorts v rd_signer PSigner.
Proof. sort_reader rd_signer. Qed.
#[export] Hint Resolve sorts_signer : sorts.
Lemma sorts_signature v : sorts v rd_signature PSignature.
Proof. sort_reader rd_signature. Qed.
#[export] Hint Resolve sorts_entity sorts_external_reference sorts_signature : sorts.
Lemma sorts_license_contact v : sorts v rd_license_contact PLicenseContact.
Proof. sort_reader rd_license_contact. Qed.
#[export] Hint Resolve sorts_license_contact : sorts.
Lemma sorts_licensing v : sorts v rd_licensing PLicensing.
Proof. sort_reader rd_licensing. Qed.
#[export] Hint Resolve sorts_licensing : sorts.
Lemma sorts_license v : sorts v (rd_license v) PLicense.
Proof. sort_reader rd_license. Qed.
Lemma sorts_expression v : sorts v rd_expression PWords.
Proof. sort_reader rd_expression. Qed.
#[export] Hint Resolve sorts_license sorts_expression : sorts.
Lemma sorts_license_list v : sorts v (rd_license_list v) PLicenses.
Proof. sort_reader rd_license_list. Qed.
Lemma sorts_action v : sorts v rd_action PAction.
Proof. sort_reader rd_action. Qed.
Lemma sorts_diff v : sorts v rd_diff PDiff.
Proof. sort_reader rd_diff. Qed.
Lemma sorts_source v : sorts v rd_source PSource.
Proof. sort_reader rd_source. Qed.
#[export] Hint Resolve sorts_license_list sorts_action sorts_diff sorts_source : sorts.
Lemma sorts_commit v : sorts v rd_commit PCommit.
Proof. sort_reader rd_commit. Qed.
Lemma sorts_issue v : sorts v rd_issue PIssue.
Proof. sort_reader rd_issue. Qed.
#[export] Hint Resolve sorts_commit sorts_issue : sorts.
Lemma sorts_patch v : sorts v rd_patch PPatch.
Proof. sort_reader rd_patch. Qed.
#[export] Hint Resolve sorts_patch : sorts.
Lemma sorts_pedigree v {C} (rc : desc C) : sorts v rc PComponent -> sorts v (rd_pedigree rc) PPedigree.
Proof. intros H. unfold rd_pedigree. destruct v; sort; exact H. Qed.
Lemma sorts_responsible_party v : sorts v rd_responsible_party PParty.
Proof. sort_reader rd_responsible_party. Qed.
Lemma sorts_graphic v : sorts v rd_graphic PGraphic.
Proof. sort_reader rd_graphic. Qed.
Lemma sorts_contents v : sorts v rd_contents PContents.
Proof. sort_reader rd_contents. Qed.
#[export] Hint Resolve sorts_responsible_party sorts_graphic sorts_contents : sorts.
Lemma sorts_governance v : sorts v rd_governance PGovernance.
Proof. sort_reader rd_governance. Qed.
Lemma sorts_graphics v : sorts v rd_graphics PGraphics.
Proof. sort_reader rd_graphics. Qed.
#[export] Hint Resolve sorts_governance sorts_graphics : sorts.
Lemma sorts_component_data v : sorts v rd_component_data PComponentData.
Proof. sort_reader rd_component_data. Qed.
Lemma sorts_approach v : sorts v rd_approach PApproach.
Proof. sort_reader rd_approach. Qed.
Lemma sorts_ml_parameter v : sorts v rd_ml_parameter PParameter.
Proof. sort_reader rd_ml_parameter. Qed.
Lemma sorts_interval v : sorts v rd_interval PInterval.
Proof. sort_reader rd_interval. Qed.
#[export] Hint Resolve sorts_component_data sorts_approach sorts_ml_parameter sorts_interval : sorts.
Lemma sorts_dataset v : sorts v rd_dataset PComponentData.
Proof. sort_reader rd_dataset. Qed.
Lemma sorts_metric v : sorts v rd_metric PMetric.
Proof. sort_reader rd_metric. Qed.
#[export] Hint Resolve sorts_dataset sorts_metric : sorts.
Lemma sorts_model_parameters v : sorts v rd_model_parameters PModelParameters.
Proof. sort_reader rd_model_parameters. Qed.
Lemma sorts_quantitative v : sorts v rd_quantitative PAnalysis.
Proof. sort_reader rd_quantitative. Qed.
#[export] Hint Resolve sorts_model_parameters sorts_quantitative : sorts.
Lemma sorts_model_card v : sorts v rd_model_card PModelCard.
Proof. sort_reader rd_model_card. Qed.
Lemma sorts_occurrence v : sorts v rd_occurrence POccurrence.
Proof. sort_reader rd_occurrence. Qed.
Lemma sorts_frame v : sorts v rd_frame PFrame.
Proof. sort_reader rd_frame. Qed.
Lemma sorts_method F v : sorts v (rd_method F) PMethod.
Proof. sort_reader rd_method. Qed.
Lemma sorts_tool_refs v n : sorts v (rd_tool_refs n) PToolRefs.
Proof. induction n as [|n IH]; [exact I|]. cbn [rd_tool_refs]. destruct v; sort; apply IH. Qed.
#[export] Hint Resolve sorts_model_card sorts_occurrence sorts_frame sorts_method sorts_tool_refs : sorts.
Lemma sorts_identity F v n : sorts v (rd_identity F n) PIdentity.
Proof. sort_reader rd_identity. Qed.
#[export] Hint Resolve sorts_identity : sorts.
Lemma sorts_evidence F v n : sorts v (rd_evidence F v n) PEvidence.
Proof. sort_reader rd_evidence. Qed.
Lemma sorts_swid v : sorts v rd_swid PSwid.
Proof. sort_reader rd_swid. Qed.
#[export] Hint Resolve sorts_evidence sorts_swid : sorts.
Lemma sorts_component F v n : sorts v (rd_component F v n) PComponent.
Proof.
  induction n as [|n IH]; [exact I|]. cbn [rd_component]. pose proof (sorts_pedigree v _ IH) as K.
  destruct v; sort; first [exact IH | exact K].
Qed.
#[export] Hint Resolve sorts_component : sorts.
Lemma sorts_classification v : sorts v rd_classification PWords.
Proof. sort_reader rd_classification. Qed.
#[export] Hint Resolve sorts_classification : sorts.
Lemma sorts_service_data v : sorts v rd_service_data PDataflow.
Proof. sort_reader rd_service_data. Qed.
#[export] Hint Resolve sorts_service_data : sorts.
Lemma sorts_data v : sorts v (rd_data v) PData.
Proof. sort_reader rd_data. Qed.
#[export] Hint Resolve sorts_data : sorts.
Lemma sorts_service v n : sorts v (rd_service v n) PService.
Proof. induction n as [|n IH]; [exact I|]. cbn [rd_service]. destruct v; sort; exact IH. Qed.
#[export] Hint Resolve sorts_service : sorts.
Lemma sorts_tool v : sorts v (rd_tool v) PTool.
Proof. sort_reader rd_tool. Qed.
#[export] Hint Resolve sorts_tool : sorts.
Lemma sorts_tools F v n : sorts v (rd_tools F v n) PTools.
Proof. sort_reader rd_tools. Qed.
Lemma sorts_lifecycle v : sorts v rd_lifecycle PLifecycle.
Proof. sort_reader rd_lifecycle. Qed.
#[export] Hint Resolve sorts_tools sorts_lifecycle : sorts.
Lemma sorts_metadata F v n : sorts v (rd_metadata F v n) PMetadata.
Proof. sort_reader rd_metadata. Qed.
Lemma sorts_dependency v : sorts v rd_dependency PDependency.
Proof. sort_reader rd_dependency. Qed.
Lemma sorts_composition v : sorts v (rd_composition v) PComposition.
Proof. sort_reader rd_composition. Qed.
Lemma sorts_annotator F v n : sorts v (rd_annotator F v n) PAnnotator.
Proof. sort_reader rd_annotator. Qed.
#[export] Hint Resolve sorts_metadata sorts_dependency sorts_composition sorts_annotator : sorts.
Lemma sorts_annotation F v n : sorts v (rd_annotation F v n) PAnnotation.
Proof. sort_reader rd_annotation. Qed.
Lemma sorts_vuln_source v : sorts v rd_vuln_source PVSource.
Proof. sort_reader rd_vuln_source. Qed.
#[export] Hint Resolve sorts_annotation sorts_vuln_source : sorts.
Lemma sorts_vuln_reference v : sorts v rd_vuln_reference PVReference.
Proof. sort_reader rd_vuln_reference. Qed.
Lemma sorts_rating F v : sorts v (rd_rating F) PRating.
Proof. sort_reader rd_rating. Qed.
Lemma sorts_advisory v : sorts v rd_advisory PAdvisory.
Proof. sort_reader rd_advisory. Qed.
Lemma sorts_credits v : sorts v rd_credits PCredits.
Proof. sort_reader rd_credits. Qed.
Lemma sorts_analysis v : sorts v (rd_analysis v) PVAnalysis.
Proof. sort_reader rd_analysis. Qed.
Lemma sorts_version_status v : sorts v rd_version_status PVersion.
Proof. sort_reader rd_version_status. Qed.
#[export] Hint Resolve sorts_vuln_reference sorts_rating sorts_advisory sorts_credits sorts_analysis sorts_version_status : sorts.
Lemma sorts_target v : sorts v rd_target PTarget.
Proof. sort_reader rd_target. Qed.
Lemma sorts_poc v : sorts v rd_poc PProof.
Proof. sort_reader rd_poc. Qed.
#[export] Hint Resolve sorts_target sorts_poc : sorts.
Lemma sorts_vulnerability F v n : sorts v (rd_vulnerability F v n) PVulnerability.
Proof. sort_reader rd_vulnerability. Qed.
Lemma sorts_resource v : sorts v rd_resource PResource.
Proof. sort_reader rd_resource. Qed.
Lemma sorts_environment_vars v : sorts v rd_environment_vars PVariables.
Proof. sort_reader rd_environment_vars. Qed.
#[export] Hint Resolve sorts_vulnerability sorts_resource sorts_environment_vars : sorts.
Lemma sorts_input v : sorts v rd_input PInput.
Proof. sort_reader rd_input. Qed.
Lemma sorts_output v : sorts v rd_output POutput.
Proof. sort_reader rd_output. Qed.
Lemma sorts_command v : sorts v rd_command PCommand.
Proof. sort_reader rd_command. Qed.
Lemma sorts_volume v : sorts v rd_volume PVolume.
Proof. sort_reader rd_volume. Qed.
Lemma sorts_condition v : sorts v rd_condition PCondition.
Proof. sort_reader rd_condition. Qed.
Lemma sorts_event v : sorts v rd_event PEvent.
Proof. sort_reader rd_event. Qed.
#[export] Hint Resolve sorts_input sorts_output sorts_command sorts_volume sorts_condition sorts_event : sorts.
Lemma sorts_step v : sorts v rd_step PStep.
Proof. sort_reader rd_step. Qed.
Lemma sorts_workspace v : sorts v rd_workspace PWorkspace.
Proof. sort_reader rd_workspace. Qed.
Lemma sorts_trigger v : sorts v rd_trigger PTrigger.
Proof. sort_reader rd_trigger. Qed.
#[export] Hint Resolve sorts_step sorts_workspace sorts_trigger : sorts.
Lemma sorts_task v : sorts v rd_task PTask.
Proof. sort_reader rd_task. Qed.
#[export] Hint Resolve sorts_task : sorts.
Lemma sorts_workflow v : sorts v rd_workflow PWorkflow.
Proof. sort_reader rd_workflow. Qed.
#[export] Hint Resolve sorts_workflow : sorts.
Lemma sorts_formula F v n : sorts v (rd_formula F v n) PFormula.
Proof. sort_reader rd_formula. Qed.
#[export] Hint Resolve sorts_formula : sorts.
Lemma sorts_bom F v n : sorts v (rd_bom F v n) PBom.
Proof. sort_reader rd_bom. Qed.

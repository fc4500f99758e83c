(** What is valid for a version is valid for later ones, licenses aside. *)
From Verif Require Import Base ModelTypes Strings Enums GenModel Json JsonModel JsonSpec JsonProofs JsonProofs3 ValModel ValSpec StayProofs UpSpec.
Open Scope string_scope.
Open Scope list_scope.

Lemma when_and {A} (o : option A) (P U Q : A -> Prop) : (forall a, o = Some a -> P a -> U a -> Q a) -> when o P -> when o U -> when o Q.
Proof. destruct o; cbn; auto. Qed.
Lemma every_in_and {A} (o : option (list A)) (P U Q : A -> Prop) : (forall a, In a (olist o) -> P a -> U a -> Q a) -> every_in o P -> every_in o U -> every_in o Q.
Proof. destruct o as [l|]; cbn; [|auto]. rewrite !every_iff. auto. Qed.

Section Up.
Variable x : parsers.
Variables v w : spec_version.
Hypothesis later : version_leb v w = true.

Lemma u_last : v = V1_5 -> w = V1_5.
Proof. intros E. revert later. rewrite E. now destruct w. Qed.
Hint Resolve u_last : up.
Ltac parts := repeat match goal with H : _ /\ _ |- _ => destruct H end.
Ltac one :=
  match goal with
  | H : ?P |- ?P => exact H
  | H : when ?o _ |- when ?o _ => revert H; apply when_mono; intros; one
  | H : every_in ?o _ |- every_in ?o _ => revert H; apply every_mono; intros; one
  | |- _ => solve [eauto with up]
  end.
Ltac all := parts; repeat match goal with |- _ /\ _ => split end; try one.

Lemma u_contact c : valid_contact v c -> valid_contact w c.
Proof. unfold valid_contact. intros; all. Qed.
Hint Resolve u_contact : up.
Lemma u_entity e : valid_entity x v e -> valid_entity x w e.
Proof. unfold valid_entity. intros; all. Qed.
Hint Resolve u_entity : up.
Lemma u_ref_uri u : valid_ref_uri x v u -> valid_ref_uri x w u.
Proof. destruct u; cbn; intros; all. Qed.
Hint Resolve u_ref_uri : up.
Lemma u_ext_ref e : valid_ext_ref x v e -> valid_ext_ref x w e.
Proof. unfold valid_ext_ref. intros; all. Qed.
Hint Resolve u_ext_ref : up.
Lemma u_license_contact c : valid_license_contact x v c -> valid_license_contact x w c.
Proof. destruct c; cbn; intros; one. Qed.
Hint Resolve u_license_contact : up.
Lemma u_licensing l : valid_licensing x v l -> valid_licensing x w l.
Proof. unfold valid_licensing. intros; all. Qed.
Hint Resolve u_licensing : up.
Lemma u_license l : valid_license x v l -> valid_license x w l.
Proof. unfold valid_license. intros; all. Qed.
Hint Resolve u_license : up.
Lemma u_license_choice l : valid_license_choice x v l -> valid_license_choice x w l.
Proof. destruct l; cbn; intros; one. Qed.
Lemma u_licenses l : valid_licenses x v l -> unmixed w l -> valid_licenses x w l.
Proof. intros [H _] U. split; [|exact U]. rewrite every_iff in *. intros a I. apply u_license_choice. auto. Qed.
Lemma u_licenses_in o : when o (valid_licenses x v) -> when o (unmixed w) -> when o (valid_licenses x w).
Proof. apply when_and. intros a _. apply u_licenses. Qed.
Lemma u_classification c : classification_in v c -> classification_in w c.
Proof. destruct c; cbn; auto using u_last. Qed.
Hint Resolve u_classification : up.
Lemma u_evidence e : valid_evidence x v e -> when (ev_licenses e) (unmixed w) -> valid_evidence x w e.
Proof. unfold valid_evidence. intros; all. now apply u_licenses_in. Qed.
Lemma u_component c : valid_component x v c -> unmixed_component w c -> valid_component x w c.
Proof.
  induction c as [c IHc IHp] using component_ind'.
  destruct c as [ty mi br su au pu gr na ve de sc ha li co cp pl sw mo pe er pr cs ev sg mc da].
  cbn [c_components c_pedigree] in IHc, IHp.
  cbn [valid_component unmixed_component c_type c_mime_type c_bom_ref c_supplier c_author c_publisher c_group c_name c_version
    c_description c_scope c_hashes c_licenses c_copyright c_cpe c_purl c_swid c_modified c_pedigree
    c_external_references c_properties c_components c_evidence c_signature c_model_card c_data].
  intros V (UL & UE & UP & UC). all.
  - now apply u_licenses_in.
  - match goal with H : when pe (valid_pedigree_with _ _) |- _ => revert H UP end. apply when_and. intros p E V U.
    destruct (IHp p E) as [I1 [I2 I3]]. unfold valid_pedigree_with, unmixed_pedigree in *. all.
    + apply (every_in_and _ (valid_component x v) (unmixed_component w)); assumption.
    + apply (every_in_and _ (valid_component x v) (unmixed_component w)); assumption.
    + apply (every_in_and _ (valid_component x v) (unmixed_component w)); assumption.
  - apply (every_in_and _ (valid_component x v) (unmixed_component w)); assumption.
  - match goal with H : when ev (valid_evidence _ _) |- _ => revert H UE end. apply when_and. intros e _. apply u_evidence.
Qed.
Lemma u_party p : valid_party x v p -> valid_party x w p.
Proof. destruct p; cbn; intros; one. Qed.
Hint Resolve u_party : up.
Lemma u_governance g : valid_governance x v g -> valid_governance x w g.
Proof. unfold valid_governance. intros; all. Qed.
Hint Resolve u_governance : up.
Lemma u_service_data d : valid_service_data x v d -> valid_service_data x w d.
Proof. unfold valid_service_data. intros; all. Qed.
Lemma u_data d : valid_data x v d -> valid_data x w d.
Proof. destruct d as [l|l]; cbn; [|auto]. rewrite !every_iff. intros H a I. apply u_service_data. auto. Qed.
Hint Resolve u_data : up.
Lemma u_service s : valid_service x v s -> unmixed_service w s -> valid_service x w s.
Proof.
  induction s as [s IH] using service_ind'. destruct s as [br pr gr na ve de en au xt da li er po sv sg tz].
  cbn [s_services] in IH.
  cbn [valid_service unmixed_service s_bom_ref s_provider s_group s_name s_version s_description s_endpoints s_authenticated
    s_x_trust_boundary s_data s_licenses s_external_references s_properties s_services s_signature s_trust_zone].
  intros V (UL & US). all.
  - now apply u_licenses_in.
  - apply (every_in_and _ (valid_service x v) (unmixed_service w)); assumption.
Qed.
Lemma u_tool t : valid_tool x v t -> valid_tool x w t.
Proof. unfold valid_tool. intros; all. Qed.
Lemma u_tools t : valid_tools x v t -> unmixed_tools w t -> valid_tools x w t.
Proof.
  destruct t as [l|ss cs]; cbn.
  - rewrite !every_iff. intros H _ a I. apply u_tool. auto.
  - intros V U. all.
    + apply (every_in_and _ (valid_component x v) (unmixed_component w)); auto. intros; now apply u_component.
    + apply (every_in_and _ (valid_service x v) (unmixed_service w)); auto. intros; now apply u_service.
Qed.
Lemma u_composition c : valid_composition v c -> valid_composition w c.
Proof.
  unfold valid_composition, aggregate_accepted. intros [[A|A] S]; (split; [|exact S]); [left|now right].
  destruct (co_aggregate c); cbn in *; auto using u_last.
Qed.
Hint Resolve u_composition : up.
Lemma u_score_method c : score_method_in v c -> score_method_in w c.
Proof. destruct c; cbn; auto using u_last. Qed.
Hint Resolve u_score_method : up.
Lemma u_rating r : valid_rating x v r -> valid_rating x w r.
Proof. unfold valid_rating. intros; all. Qed.
Hint Resolve u_rating : up.
Lemma u_credits c : valid_credits x v c -> valid_credits x w c.
Proof. unfold valid_credits. intros; all. Qed.
Hint Resolve u_credits : up.
Lemma u_vulnerability u : valid_vulnerability x v u -> when (v_tools u) (unmixed_tools w) -> valid_vulnerability x w u.
Proof.
  unfold valid_vulnerability. intros V U. all. match goal with H : when (v_tools u) (valid_tools _ _) |- _ => revert H U end.
  apply when_and. intros t _. apply u_tools.
Qed.
Lemma u_bom b : valid_bom x v b -> unmixed_bom w b -> valid_bom x w b.
Proof.
  intros [F R] (UM & UC & US & UV). split; [|exact R]. unfold valid_fields in *. all.
  - match goal with H : when (b_metadata b) (valid_metadata _ _) |- _ => revert H UM end. apply when_and. intros m _ V U. unfold valid_metadata in *. all.
    + match goal with H : when (m_tools m) (valid_tools _ _), K : when (m_tools m) (unmixed_tools w) |- _ => revert H K end.
      apply when_and. intros t _. apply u_tools.
    + match goal with H : when (m_component m) (valid_component _ _), K : when (m_component m) (unmixed_component w) |- _ => revert H K end.
      apply when_and. intros t _. apply u_component.
    + now apply u_licenses_in.
  - apply (every_in_and _ (valid_component x v) (unmixed_component w)); auto. intros; now apply u_component.
  - apply (every_in_and _ (valid_service x v) (unmixed_service w)); auto. intros; now apply u_service.
  - match goal with H : every_in (b_vulnerabilities b) (valid_vulnerability _ _) |- _ => revert H UV end.
    apply every_in_and. intros u _. apply u_vulnerability.
Qed.
End Up.

(** ** The condition is needed *)
Section Mix.
Variable x : parsers.
Variable w : spec_version.
Lemma n_licenses o : when o (valid_licenses x w) -> when o (unmixed w).
Proof. apply when_mono. intros l [_ M]. exact M. Qed.
Lemma every_in_mono_in {A} (o : option (list A)) (P Q : A -> Prop) : (forall a, In a (olist o) -> P a -> Q a) -> every_in o P -> every_in o Q.
Proof. destruct o as [l|]; cbn; [|auto]. rewrite !every_iff. auto. Qed.
Lemma when_mono_in {A} (o : option A) (P Q : A -> Prop) : (forall a, o = Some a -> P a -> Q a) -> when o P -> when o Q.
Proof. destruct o; cbn; auto. Qed.
Lemma n_component c : valid_component x w c -> unmixed_component w c.
Proof.
  induction c as [c IHc IHp] using component_ind'.
  destruct c as [ty mi br su au pu gr na ve de sc ha li co cp pl sw mo pe er pr cs ev sg mc da].
  cbn [c_components c_pedigree] in IHc, IHp.
  cbn [valid_component unmixed_component c_type c_mime_type c_bom_ref c_supplier c_author c_publisher c_group c_name c_version
    c_description c_scope c_hashes c_licenses c_copyright c_cpe c_purl c_swid c_modified c_pedigree
    c_external_references c_properties c_components c_evidence c_signature c_model_card c_data].
  intros V. repeat match goal with H : _ /\ _ |- _ => destruct H end. split; [now apply n_licenses|]. split; [|split].
  - match goal with H : when ev _ |- _ => revert H end. apply when_mono. intros e (L & _). now apply n_licenses.
  - match goal with H : when pe _ |- _ => revert H end. apply when_mono_in. intros p E (A & D & W & _).
    destruct (IHp p E) as [I1 [I2 I3]]. split; [|split].
    + exact (every_in_mono_in _ _ _ I1 A).
    + exact (every_in_mono_in _ _ _ I2 D).
    + exact (every_in_mono_in _ _ _ I3 W).
  - match goal with H : every_in cs _ |- _ => exact (every_in_mono_in _ _ _ IHc H) end.
Qed.
Lemma n_service s : valid_service x w s -> unmixed_service w s.
Proof.
  induction s as [s IH] using service_ind'. destruct s as [br pr gr na ve de en au xt da li er po sv sg tz].
  cbn [s_services] in IH.
  cbn [valid_service unmixed_service s_bom_ref s_provider s_group s_name s_version s_description s_endpoints s_authenticated
    s_x_trust_boundary s_data s_licenses s_external_references s_properties s_services s_signature s_trust_zone].
  intros V. repeat match goal with H : _ /\ _ |- _ => destruct H end. split; [now apply n_licenses|].
  match goal with H : every_in sv _ |- _ => exact (every_in_mono_in _ _ _ IH H) end.
Qed.
Lemma n_tools t : valid_tools x w t -> unmixed_tools w t.
Proof.
  destruct t as [l|ss cs]; cbn; [auto|]. intros (_ & C & S).
  split; [revert C|revert S]; apply every_mono; [exact n_component|exact n_service].
Qed.
Lemma n_bom b : valid_bom x w b -> unmixed_bom w b.
Proof.
  intros [F _]. unfold valid_fields in F. repeat match goal with H : _ /\ _ |- _ => destruct H end. split; [|split; [|split]].
  - match goal with H : when (b_metadata b) _ |- _ => revert H end. apply when_mono. intros m V. unfold valid_metadata in V.
    repeat match goal with H : _ /\ _ |- _ => destruct H end. split; [now apply n_licenses|]. split.
    + match goal with H : when (m_component m) _ |- _ => revert H end. apply when_mono. exact n_component.
    + match goal with H : when (m_tools m) _ |- _ => revert H end. apply when_mono. exact n_tools.
  - match goal with H : every_in (b_components b) _ |- _ => revert H end. apply every_mono. exact n_component.
  - match goal with H : every_in (b_services b) _ |- _ => revert H end. apply every_mono. exact n_service.
  - match goal with H : every_in (b_vulnerabilities b) _ |- _ => revert H end. apply every_mono. intros u V. unfold valid_vulnerability in V.
    repeat match goal with H : _ /\ _ |- _ => destruct H end. match goal with H : when (v_tools u) _ |- _ => revert H end. apply when_mono. exact n_tools.
Qed.
End Mix.
(** and only in 1.5 *)
Section Free.
Variable w : spec_version.
Hypothesis early : w <> V1_5.
Lemma every_all {A} (P : A -> Prop) l : (forall a, In a l -> P a) -> every P l.
Proof. rewrite every_iff. auto. Qed.
Lemma f_when {A} (o : option A) (P : A -> Prop) : (forall a, o = Some a -> P a) -> when o P.
Proof. destruct o; cbn; auto. Qed.
Lemma f_every {A} (o : option (list A)) (P : A -> Prop) : (forall a, In a (olist o) -> P a) -> every_in o P.
Proof. destruct o; cbn; auto. apply every_all. Qed.
Lemma f_licenses l : unmixed w l.
Proof. intros E. contradiction. Qed.
Lemma f_component c : unmixed_component w c.
Proof.
  induction c as [c IHc IHp] using component_ind'.
  destruct c as [ty mi br su au pu gr na ve de sc ha li co cp pl sw mo pe er pr cs ev sg mc da]. cbn [c_components c_pedigree] in IHc, IHp. cbn [unmixed_component].
  split; [|split; [|split]]; cbn.
  - apply f_when. intros; apply f_licenses.
  - apply f_when. intros. apply f_when. intros; apply f_licenses.
  - apply f_when. intros p E. destruct (IHp p E) as [I1 [I2 I3]]. split; [|split]; apply f_every; assumption.
  - apply f_every. exact IHc.
Qed.
Lemma f_service s : unmixed_service w s.
Proof.
  induction s as [s IH] using service_ind'. destruct s as [br pr gr na ve de en au xt da li er po sv sg tz]. cbn [s_services] in IH. cbn.
  split; [apply f_when; intros; apply f_licenses|]. apply f_every. exact IH.
Qed.
Lemma f_tools t : unmixed_tools w t.
Proof. destruct t; cbn; [exact Logic.I|]. split; apply f_every; intros; [apply f_component|apply f_service]. Qed.
Lemma f_bom b : unmixed_bom w b.
Proof.
  split; [|split; [|split]].
  - apply f_when. intros m _. split; [|split]; apply f_when; intros; [apply f_licenses|apply f_component|apply f_tools].
  - apply f_every. intros; apply f_component.
  - apply f_every. intros; apply f_service.
  - apply f_every. intros. apply f_when. intros; apply f_tools.
Qed.
End Free.

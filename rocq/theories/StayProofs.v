(** Validity survives being saved and read. *)
From Verif Require Import Base ModelTypes Strings Enums GenModel Json JsonModel JsonSpec JsonProofs JsonProofs3 ResaveSpec ValModel ValSpec
  ChainSpec StaySpec.
Open Scope string_scope.
Open Scope list_scope.

Lemma every_iff {A} (P : A -> Prop) l : every P l <-> forall a, In a l -> P a.
Proof.
  induction l as [|a l IH]; cbn; [intuition|]. rewrite IH. split; [intros [H K] b [<-|I]; auto|]. intros H. split; auto.
Qed.
Lemma when_from {A} u v (o : option A) P : when o P -> when (from u v o) P.
Proof. unfold from. destruct (version_leb u v); cbn; auto. Qed.
Lemma when_mono {A} (o : option A) (P Q : A -> Prop) : (forall a, P a -> Q a) -> when o P -> when o Q.
Proof. destruct o; cbn; auto. Qed.
Lemma every_mono {A} (o : option (list A)) (P Q : A -> Prop) : (forall a, P a -> Q a) -> every_in o P -> every_in o Q.
Proof. intros H. apply when_mono. intros l. rewrite !every_iff. auto. Qed.
Lemma when_map {A B} (f : A -> B) (o : option A) (P : A -> Prop) (Q : B -> Prop) : (forall a, P a -> Q (f a)) -> when o P -> when (option_map f o) Q.
Proof. destruct o; cbn; auto. Qed.
Lemma every_map {A B} (f : A -> B) l (P : A -> Prop) (Q : B -> Prop) : (forall a, P a -> Q (f a)) -> every P l -> every Q (map f l).
Proof. intros H. rewrite !every_iff. intros K b I. apply in_map_iff in I. destruct I as (a & <- & I). auto. Qed.
Lemma every_in_map {A B} (f : A -> B) o (P : A -> Prop) (Q : B -> Prop) : (forall a, P a -> Q (f a)) -> every_in o P -> every_in (option_map (map f) o) Q.
Proof. intros H. apply when_map. intros l. now apply every_map. Qed.
(** the same for things that respelling leaves alone *)
Lemma when_same {A B} (f : A -> B) (r : A -> A) (o : option A) (P : A -> Prop) (Q : B -> Prop) :
  (forall a, o = Some a -> P a -> r a = a -> Q (f a)) -> when o P -> option_map r o = o -> when (option_map f o) Q.
Proof. destruct o; cbn; [|auto]. intros H K [= E]. auto. Qed.
Lemma map_same {A} (r : A -> A) l : map r l = l -> forall a, In a l -> r a = a.
Proof. induction l as [|b l IH]; cbn; [intros _ _ []|]. intros [= E K] a [<-|I]; auto. Qed.
Lemma every_same {A B} (f : A -> B) (r : A -> A) l (P : A -> Prop) (Q : B -> Prop) :
  (forall a, In a l -> P a -> r a = a -> Q (f a)) -> every P l -> map r l = l -> every Q (map f l).
Proof.
  rewrite !every_iff. intros H K E b I. apply in_map_iff in I. destruct I as (a & <- & I).
  apply H; auto. exact (map_same r l E a I).
Qed.
Lemma every_in_same {A B} (f : A -> B) (r : A -> A) o (P : A -> Prop) (Q : B -> Prop) :
  (forall a, In a (olist o) -> P a -> r a = a -> Q (f a)) -> every_in o P -> option_map (map r) o = o -> every_in (option_map (map f) o) Q.
Proof. intros H. apply when_same. intros l -> . now apply every_same. Qed.

(** [z]: the checks of the result, which accept at least the URLs that the checks [y] accept *)
Section Stay.
Variable x : parsers.
Variable ok_uri : string -> bool.
Hypothesis uris : forall s, x_uri (without_links x) s = true -> ok_uri s = true.
Variable v : spec_version.
Local Notation y := (without_links x) (only parsing).
Local Notation z := (mkParsers (x_date_time x) ok_uri (x_purl x) (x_spdx_id x) (x_spdx_expr x)) (only parsing).

Lemma m_uri s : is_uri y s -> is_uri z s.
Proof. exact (uris s). Qed.
Lemma m_no_link s : is_uri y s -> starts_with "urn:cdx" s = false.
Proof. unfold is_uri; cbn. destruct (x_uri x s), (starts_with "urn:cdx" s); cbn; congruence. Qed.
Hint Resolve m_uri : stay.
Ltac parts := repeat match goal with H : _ /\ _ |- _ => destruct H end.
Ltac one :=
  match goal with
  | H : ?P |- ?P => exact H
  | |- when (from _ _ _) _ => apply when_from; one
  | |- every_in (from _ _ _) _ => apply when_from; one
  | H : when ?o _ |- when ?o _ => revert H; apply when_mono; intros; one
  | H : every_in ?o _ |- every_in ?o _ => revert H; apply every_mono; intros; one
  | H : when ?o _ |- when (option_map _ ?o) _ => revert H; apply when_map; intros; one
  | H : every_in ?o _ |- every_in (option_map (map _) ?o) _ => revert H; apply every_in_map; intros; one
  | H : every _ ?l |- every _ (map _ ?l) => revert H; apply every_map; intros; one
  | |- _ => solve [eauto with stay]
  end.
Ltac all := parts; repeat match goal with |- _ /\ _ => split end; try one.
(** an enumerated value that is not the unknown one *)
Ltac named := match goal with
  | H : forall s, ?t <> _ |- forall s, _ ?t <> _ => destruct t; try (cbn; congruence); exfalso; eapply H; reflexivity
  end.

Lemma m_entity e : valid_entity y v e -> valid_entity z v e.
Proof. unfold valid_entity. intros; all. Qed.
Hint Resolve m_entity : stay.
Lemma k_text t : valid_text t -> valid_text (kept_attached_text t).
Proof. unfold valid_text. destruct t as [c [[|s]|] n]; cbn; intuition. Qed.
Hint Resolve k_text : stay.
Lemma k_hash h : valid_hash h -> valid_hash (kept_hash h).
Proof. unfold valid_hash. destruct h as [a c]; cbn. intros [H K]. split; [|exact K]. named. Qed.
Hint Resolve k_hash : stay.
Lemma starts_app p s : starts_with p (p ++ s)%string = true.
Proof. unfold starts_with. induction p as [|c p IH]; cbn; [now destruct s|]. destruct (Ascii.ascii_dec c c); [exact IH|congruence]. Qed.
Lemma k_ref_uri u : valid_ref_uri y v u -> valid_ref_uri z v (kept_uri u).
Proof.
  destruct u as [s|s]; unfold kept_uri; cbn [valid_ref_uri].
  - intros H. rewrite (m_no_link s H). exact (m_uri s H).
  - intros [E S]. assert (starts_with "urn:cdx" s = true) as -> by (destruct S as (u & n & f & -> & _); exact (starts_app "urn:cdx" _)).
    now split.
Qed.
Lemma k_ext_ref e : valid_ext_ref y v e -> respell_reference e = e -> valid_ext_ref z v (kept_external_reference e).
Proof.
  unfold valid_ext_ref. destruct e as [t u c h]. cbn [respell_reference er_type er_url er_comment er_hashes kept_external_reference].
  intros (T & U & H) [= E]. split; [|split; [now apply k_ref_uri|one]].
  destruct t; cbn in *; congruence.
Qed.
Lemma k_ext_refs o : every_in o (valid_ext_ref y v) -> respell_references o = o ->
  every_in (option_map (map kept_external_reference) o) (valid_ext_ref z v).
Proof. apply every_in_same. intros; now apply k_ext_ref. Qed.
Lemma k_signature s : valid_signature s -> valid_signature (kept_signature s).
Proof.
  assert (G : forall g, valid_signer g -> valid_signer (kept_signer g)).
  { intros [a t] H. unfold valid_signer in *. cbn in *. destruct a; cbn; congruence. }
  destruct s as [l|l|g]; cbn; try apply every_map; auto.
Qed.
Hint Resolve k_signature : stay.
Lemma m_license_contact c : valid_license_contact y v c -> valid_license_contact z v c.
Proof. destruct c; cbn; intros; one. Qed.
Hint Resolve m_license_contact : stay.
Lemma k_licensing l : valid_licensing y v l -> valid_licensing z v (kept_licensing l).
Proof.
  unfold valid_licensing. destruct l; cbn. intros; all.
  revert H3. apply every_in_map. intros t T. named.
Qed.
Hint Resolve k_licensing : stay.
Lemma k_license l : valid_license y v l -> valid_license z v (kept_license v l).
Proof. unfold valid_license. destruct l as [r i]; cbn. intros; all. Qed.
Hint Resolve k_license : stay.
Lemma k_license_choice l : valid_license_choice y v l -> valid_license_choice z v (kept_license_choice v l).
Proof. destruct l; cbn; intros; one. Qed.
Hint Resolve k_license_choice : stay.
Lemma k_licenses l : valid_licenses y v l -> valid_licenses z v (map (kept_license_choice v) l).
Proof.
  intros [H M]. split; [one|]. intros E. specialize (M E). rewrite map_length. destruct M as [M|M]; [left|now right].
  intros c I. apply in_map_iff in I. destruct I as (d & <- & I). destruct (M d I) as (k & ->). cbn. eauto.
Qed.
Hint Resolve k_licenses : stay.
Lemma m_commit c : valid_commit y c -> valid_commit z c.
Proof. unfold valid_commit. intros; all. Qed.
Hint Resolve m_commit : stay.
Lemma k_diff d : valid_diff y d -> valid_diff z (kept_diff d).
Proof. unfold valid_diff. destruct d; cbn. intros; all. Qed.
Hint Resolve k_diff : stay.
Lemma m_source s : valid_source y s -> valid_source z s.
Proof. unfold valid_source. intros; all. Qed.
Hint Resolve m_source : stay.
Lemma k_issue i : valid_issue y i -> valid_issue z (kept_issue i).
Proof. unfold valid_issue. destruct i as [t]; cbn. intros; parts; split; [named|]. all. Qed.
Hint Resolve k_issue : stay.
Lemma k_patch p : valid_patch y p -> valid_patch z (kept_patch p).
Proof. unfold valid_patch. destruct p as [t]; cbn. intros; parts; split; [named|]. all. Qed.
Hint Resolve k_patch : stay.
Lemma k_identity i : valid_identity i -> valid_identity (kept_identity i).
Proof.
  unfold valid_identity. destruct i as [f c]; cbn. intros; parts; split; [named|].
  destruct c as [[]|]; cbn in *; auto.
Qed.
Hint Resolve k_identity : stay.
Lemma k_evidence e : valid_evidence y v e -> valid_evidence z v (kept_evidence v e).
Proof. unfold valid_evidence. destruct e; cbn. intros; all. Qed.
Hint Resolve k_evidence : stay.
Lemma k_swid s : valid_swid y s -> valid_swid z (kept_swid s).
Proof. unfold valid_swid. destruct s; cbn. intros; all. Qed.
Hint Resolve k_swid : stay.

Lemma k_pedigree (r k : component -> component) p :
  (forall c, In c (pedigree_members p) -> valid_component y v c -> r c = c -> valid_component z v (k c)) ->
  valid_pedigree_with y (valid_component y v) p -> respell_pedigree r p = p -> valid_pedigree_with z (valid_component z v) (kept_pedigree k p).
Proof.
  unfold pedigree_members, valid_pedigree_with. destruct p as [a d w c q n]. cbn. intros H V E. parts. injection E as EA ED EW.
  split; [|split; [|split; [|split; one]]].
  - apply (every_in_same k r a (valid_component y v)); try assumption. intros; apply H; [rewrite !in_app_iff|..]; auto.
  - apply (every_in_same k r d (valid_component y v)); try assumption. intros; apply H; [rewrite !in_app_iff|..]; auto.
  - apply (every_in_same k r w (valid_component y v)); try assumption. intros; apply H; [rewrite !in_app_iff|..]; auto.
Qed.
Lemma k_classification c : classification_in v c -> classification_in v (kept_classification c).
Proof. destruct c; cbn; tauto. Qed.
Hint Resolve k_classification : stay.
Lemma k_component c : valid_component y v c -> respell_component c = c -> valid_component z v (kept_component v c).
Proof.
  induction c as [c IHc IHp] using component_ind'.
  destruct c as [ty mi br su au pu gr na ve de sc ha li co cp pl sw mo pe er pr cs ev sg mc da].
  cbn [c_components c_pedigree] in IHc, IHp.
  cbn [valid_component respell_component kept_component c_type c_mime_type c_bom_ref c_supplier c_author c_publisher c_group c_name c_version
    c_description c_scope c_hashes c_licenses c_copyright c_cpe c_purl c_swid c_modified c_pedigree
    c_external_references c_properties c_components c_evidence c_signature c_model_card c_data].
  intros V E. parts. injection E as EP EE EC EV.
  repeat match goal with |- _ /\ _ => split end; try one.
  - match goal with H : when sc _ |- _ => revert H end. apply when_map. intros s S. named.
  - apply (when_same _ (respell_pedigree respell_component) pe (valid_pedigree_with y (valid_component y v))); try assumption.
    intros p -> P R. apply (k_pedigree respell_component); try assumption.
    destruct (IHp p eq_refl) as [I1 [I2 I3]]. intros c. unfold pedigree_members.
    rewrite !in_app_iff. intros [I|[I|I]]; auto.
  - now apply k_ext_refs.
  - apply (every_in_same _ respell_component cs (valid_component y v)); try assumption.
Qed.
Lemma k_data_class d : valid_data_class d -> valid_data_class (kept_data_classification d).
Proof. unfold valid_data_class. destruct d as [f c]; cbn. intros; parts; split; [named|one]. Qed.
Lemma k_data d : valid_data y v d -> valid_data z v (kept_data d).
Proof.
  destruct d as [l|l]; cbn; apply every_map; [|exact k_data_class]. intros a A. unfold valid_service_data in A. parts. now apply k_data_class.
Qed.
Hint Resolve k_data : stay.
Lemma k_service s : valid_service y v s -> respell_service s = s -> valid_service z v (kept_service v s).
Proof.
  induction s as [s IH] using service_ind'. destruct s as [br pr gr na ve de en au xt da li er po sv sg tz].
  cbn [s_services] in IH.
  cbn [valid_service respell_service kept_service s_bom_ref s_provider s_group s_name s_version s_description s_endpoints s_authenticated
    s_x_trust_boundary s_data s_licenses s_external_references s_properties s_services s_signature s_trust_zone].
  intros V E. parts. injection E as EE ES.
  repeat match goal with |- _ /\ _ => split end; try one.
  - now apply k_ext_refs.
  - apply (every_in_same _ respell_service sv (valid_service y v)); try assumption.
Qed.
Lemma k_tool t : valid_tool y v t -> respell_tool t = t -> valid_tool z v (kept_tool v t).
Proof.
  unfold valid_tool. destruct t as [a b c h e]; cbn. intros V [= E]. parts. repeat match goal with |- _ /\ _ => split end; try one.
  apply when_from. now apply k_ext_refs.
Qed.
Lemma k_tools t : valid_tools y v t -> respell_tools t = t -> valid_tools z v (kept_tools v t).
Proof.
  destruct t as [l|ss cs]; cbn [valid_tools respell_tools kept_tools].
  - intros V [= E]. apply (every_same _ respell_tool l (valid_tool y v)); auto. intros; now apply k_tool.
  - intros (E & C & S) [= ES EC]. assert (version_leb V1_5 v = true) as -> by now rewrite E. cbn [valid_tools]. split; [exact E|]. split.
    + apply (every_in_same _ respell_component cs (valid_component y v)); auto. intros; now apply k_component.
    + apply (every_in_same _ respell_service ss (valid_service y v)); auto. intros; now apply k_service.
Qed.
Lemma k_metadata m : valid_metadata y v m -> respell_metadata m = m -> valid_metadata z v (kept_metadata v m).
Proof.
  unfold valid_metadata. destruct m as [ti to au co ma su li pr lc]; cbn. intros V E. parts. injection E as ET EC.
  repeat match goal with |- _ /\ _ => split end; try one.
  - apply (when_same _ respell_tools to (valid_tools y v)); auto. intros; now apply k_tools.
  - apply (when_same _ respell_component co (valid_component y v)); auto. intros; now apply k_component.
Qed.
Lemma k_composition c : valid_composition v c -> respell_composition c = c -> valid_composition v (kept_composition v c).
Proof.
  unfold valid_composition. destruct c as [b a s d u g]; cbn. intros [[A|A] S] [= E]; (split; [|one]).
  - left. destruct a; cbn in *; try tauto. discriminate.
  - subst a. discriminate E.
Qed.
Lemma m_vuln_source s : valid_vuln_source y s -> valid_vuln_source z s.
Proof. unfold valid_vuln_source. intros; all. Qed.
Hint Resolve m_vuln_source : stay.
Lemma m_vuln_reference s : valid_vuln_reference y s -> valid_vuln_reference z s.
Proof. unfold valid_vuln_reference. intros; all. Qed.
Hint Resolve m_vuln_reference : stay.
Lemma k_score_method c : score_method_in v c -> score_method_in v (kept_score_method c).
Proof. destruct c; cbn; tauto. Qed.
Hint Resolve k_score_method : stay.
Lemma k_rating r : valid_rating y v r -> valid_rating z v (kept_vuln_rating r).
Proof.
  unfold valid_rating. destruct r; cbn. intros; parts. repeat match goal with |- _ /\ _ => split end; try one.
  match goal with H : when _ (fun s : severity => _) |- _ => revert H end. apply when_map. intros s S. named.
Qed.
Hint Resolve k_rating : stay.
Lemma m_advisory a : valid_advisory y a -> valid_advisory z a.
Proof. unfold valid_advisory. intros; all. Qed.
Hint Resolve m_advisory : stay.
Lemma m_credits a : valid_credits y v a -> valid_credits z v a.
Proof. unfold valid_credits. intros; all. Qed.
Hint Resolve m_credits : stay.
Lemma k_analysis a : valid_analysis y a -> valid_analysis z (kept_vuln_analysis v a).
Proof.
  unfold valid_analysis. destruct a as [st ju re]; cbn. intros; parts. repeat match goal with |- _ /\ _ => split end; try one.
  - match goal with H : when st _ |- _ => revert H end. apply when_map. intros s S. named.
  - match goal with H : when ju _ |- _ => revert H end. apply when_map. intros s S. named.
  - match goal with H : every_in re _ |- _ => revert H end. apply every_in_map. intros s S. named.
Qed.
Hint Resolve k_analysis : stay.
Lemma k_version_status s : valid_version_status s -> valid_version_status (kept_version_status s).
Proof. unfold valid_version_status. destruct s as [r t]; cbn. intros; parts; split; [one|named]. Qed.
Hint Resolve k_version_status : stay.
Lemma k_target t : valid_target t -> valid_target (kept_vuln_target t).
Proof. unfold valid_target. destruct t; cbn. intros; one. Qed.
Hint Resolve k_target : stay.
Lemma k_vulnerability u : valid_vulnerability y v u -> respell_vulnerability u = u -> valid_vulnerability z v (kept_vulnerability v u).
Proof.
  unfold valid_vulnerability. destruct u as [br id so re ra cw de dt rc wo po ad cr pu up rj cd to an ta pr]. cbn. intros V E. parts. injection E as ET.
  repeat match goal with |- _ /\ _ => split end; try one.
  apply (when_same _ respell_tools to (valid_tools y v)); auto. intros; now apply k_tools.
Qed.
Lemma k_fields b : valid_fields y v b -> respell_bom v b = at_version v b -> valid_fields z v (kept_bom v b).
Proof.
  unfold valid_fields, at_version. destruct b as [ve sn me co se er de cp pr vu sg an fo sv]. cbn. intros V E. parts.
  injection E as EM EC ES EE EP EV _ _.
  repeat match goal with |- _ /\ _ => split end; try one.
  - apply (when_same _ respell_metadata me (valid_metadata y v)); auto. intros; now apply k_metadata.
  - apply (every_in_same _ respell_component co (valid_component y v)); auto. intros; now apply k_component.
  - apply (every_in_same _ respell_service se (valid_service y v)); auto. intros; now apply k_service.
  - now apply k_ext_refs.
  - apply (every_in_same _ respell_composition cp (valid_composition v)); auto. intros; now apply k_composition.
  - apply when_from. apply (every_in_same _ respell_vulnerability vu (valid_vulnerability y v)); auto. intros; now apply k_vulnerability.
Qed.

(** ** References *)
Lemma component_refs_eq c : component_refs c = own (c_bom_ref c) ++ flat_map component_refs (olist (c_components c)).
Proof. destruct c as [? ? ? ? ? ? ? ? ? ? ? ? ? ? ? ? ? ? ? ? ? [l|] ? ? ? ?]; reflexivity. Qed.
Lemma service_refs_eq c : service_refs c = own (s_bom_ref c) ++ flat_map service_refs (olist (s_services c)).
Proof. destruct c as [? ? ? ? ? ? ? ? ? ? ? ? ? [l|] ? ?]; reflexivity. Qed.
Lemma flat_map_same {A B} (f : A -> list B) k l : (forall a, In a l -> f (k a) = f a) -> flat_map f (map k l) = flat_map f l.
Proof. induction l as [|a l IH]; cbn; intros H; [reflexivity|]. rewrite (H a) by auto. now rewrite IH by auto. Qed.
Lemma r_component c : component_refs (kept_component v c) = component_refs c.
Proof.
  induction c as [c IHc _] using component_ind'. rewrite !component_refs_eq, kept_component_eq. cbn [c_bom_ref c_components]. f_equal.
  unfold all_in in IHc. destruct (c_components c) as [l|]; cbn in *; [|reflexivity]. now apply flat_map_same.
Qed.
Lemma r_service c : service_refs (kept_service v c) = service_refs c.
Proof.
  induction c as [c IH] using service_ind'. rewrite !service_refs_eq, kept_service_eq. cbn [s_bom_ref s_services]. f_equal.
  destruct (s_services c) as [l|]; cbn in *; [|reflexivity]. now apply flat_map_same.
Qed.
Definition front (b : bom) : list string :=
  match b_metadata b with
  | Some m => match m_component m with Some c => component_refs c | None => [] end
  | None => []
  end
  ++ flat_map component_refs (opt_list (b_components b))
  ++ flat_map service_refs (opt_list (b_services b)).
Lemma carried_front b : carried b = front b ++ flat_map (fun u => own (v_bom_ref u)) (opt_list (b_vulnerabilities b)).
Proof. unfold carried, front. now rewrite !app_assoc. Qed.
Lemma r_front b : front (kept_bom v b) = front b.
Proof.
  unfold front, kept_bom. cbn [b_metadata b_components b_services]. f_equal; [|f_equal].
  - destruct (b_metadata b) as [m|]; cbn; [|reflexivity]. destruct (m_component m); cbn; [apply r_component|reflexivity].
  - destruct (b_components b); cbn; [|reflexivity]. apply flat_map_same. intros; apply r_component.
  - destruct (b_services b); cbn; [|reflexivity]. apply flat_map_same. intros; apply r_service.
Qed.
Lemma r_comp b : comp_refs (kept_bom v b) = comp_refs b.
Proof. unfold comp_refs, kept_bom. cbn [b_compositions]. destruct (b_compositions b); cbn; [|reflexivity]. now apply flat_map_same. Qed.
Lemma r_vulns b : v <> V1_3 -> flat_map (fun u => own (v_bom_ref u)) (opt_list (b_vulnerabilities (kept_bom v b))) =
  flat_map (fun u => own (v_bom_ref u)) (opt_list (b_vulnerabilities b)).
Proof.
  intros N. unfold kept_bom. cbn [b_vulnerabilities]. assert (from V1_4 v = (fun o : option (list vulnerability) => o)) as -> by now destruct v.
  destruct (b_vulnerabilities b); cbn; [|reflexivity]. now apply flat_map_same.
Qed.
Lemma nodup_front {A} (l m : list A) : NoDup (l ++ m) -> NoDup l.
Proof. induction l as [|a l IH]; cbn; intros H; constructor; inversion H; subst; [rewrite in_app_iff in *; tauto|auto]. Qed.
Lemma k_references b : valid_references b -> (v = V1_3 -> ~ refers_to_vulnerability b) -> valid_references (kept_bom v b).
Proof.
  intros [N R] W. unfold valid_references. rewrite r_comp.
  change (dep_refs (kept_bom v b)) with (dep_refs b). change (dep_targets (kept_bom v b)) with (dep_targets b).
  rewrite carried_front, r_front. assert (D : v = V1_3 \/ v <> V1_3) by (destruct v; [now left|right; discriminate..]).
  destruct D as [D|D].
  - assert (b_vulnerabilities (kept_bom v b) = None) as -> by (rewrite D; reflexivity). cbn. rewrite app_nil_r. rewrite carried_front in N.
    split; [exact (nodup_front _ _ N)|]. intros r H. specialize (R r H). rewrite carried_front, in_app_iff in R.
    destruct R as [R|R]; [exact R|]. exfalso. apply (W D). apply in_flat_map in R. destruct R as (u & U & R).
    exists r, u. split; [exact H|]. split; [exact U|]. destruct (v_bom_ref u); cbn in R; [destruct R as [<-|[]]; reflexivity|destruct R].
  - rewrite (r_vulns b D), <- carried_front. now split.
Qed.
Lemma stays_valid_for b : safe_to_save x v b -> valid_bom z v (kept_bom v b).
Proof. intros ([F R] & E & W). split; [now apply k_fields|now apply k_references]. Qed.
End Stay.
Lemma stays_valid x v b : safe_to_save x v b -> valid_bom x v (kept_bom v b).
Proof.
  intros S. destruct x as [a u c d e]. apply (stays_valid_for (mkParsers a u c d e) u); [|exact S].
  intros s. cbn. now destruct (u s).
Qed.
Lemma stays_valid_without_links x v b : safe_to_save x v b -> valid_bom (without_links x) v (kept_bom v b).
Proof. apply (stays_valid_for x (x_uri (without_links x))). auto. Qed.

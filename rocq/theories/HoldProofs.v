(** What is valid and has no misspelt names has none after it was saved and read. *)
From Verif Require Import Base ModelTypes Strings Enums GenModel Json JsonModel JsonSpec JsonProofs JsonProofs3 ResaveSpec ValModel ValSpec
  ChainSpec ChainProofs StaySpec StayProofs UpSpec.
Open Scope string_scope.
Open Scope list_scope.

Lemma fix_opt {A} (r f : A -> A) (o : option A) (P : A -> Prop) :
  (forall a, o = Some a -> P a -> r a = a -> r (f a) = f a) -> when o P -> option_map r o = o ->
  option_map r (option_map f o) = option_map f o.
Proof. destruct o as [a|]; cbn; [|reflexivity]. intros H W [= E]. f_equal. auto. Qed.
Lemma fix_list {A} (r f : A -> A) (l : list A) (P : A -> Prop) :
  (forall a, In a l -> P a -> r a = a -> r (f a) = f a) -> every P l -> map r l = l -> map r (map f l) = map f l.
Proof.
  induction l as [|a l IH]; cbn; [reflexivity|]. intros H [W Ws] [= E Es]. f_equal; auto.
Qed.
Lemma fix_in {A} (r f : A -> A) (o : option (list A)) (P : A -> Prop) :
  (forall a, In a (olist o) -> P a -> r a = a -> r (f a) = f a) -> every_in o P -> option_map (map r) o = o ->
  option_map (map r) (option_map (map f) o) = option_map (map f) o.
Proof. intros H. apply fix_opt. intros l -> . now apply fix_list. Qed.
Lemma fix_from {A} (r : A -> A) u v (o : option A) : option_map r o = o -> option_map r (from u v o) = from u v o.
Proof. unfold from. destruct (version_leb u v); [auto|reflexivity]. Qed.

Section Hold.
Variable y : parsers.
Variable v : spec_version.

Lemma f_reference e : valid_ext_ref y v e -> respell_reference e = e ->
  respell_reference (kept_external_reference e) = kept_external_reference e.
Proof.
  unfold valid_ext_ref, respell_reference. destruct e as [t u c h]. cbn. intros (T & _) [= E]. f_equal.
  destruct t; cbn in *; try reflexivity; try discriminate E. exfalso. eapply T. reflexivity.
Qed.
Lemma f_references o : every_in o (valid_ext_ref y v) -> respell_references o = o ->
  respell_references (option_map (map kept_external_reference) o) = option_map (map kept_external_reference) o.
Proof. apply fix_in. intros; now apply f_reference. Qed.
Lemma f_evidence e : respell_evidence e = e -> valid_evidence y v e -> respell_evidence (kept_evidence v e) = kept_evidence v e.
Proof.
  unfold valid_evidence, respell_evidence, kept_evidence. destruct e as [a b c d i]. cbn. intros [= E] V.
  assert (W : when i valid_identity) by intuition. f_equal.
  apply fix_from. revert W E. apply fix_opt. intros k _ V' E. unfold valid_identity in V'. unfold respell_identity, kept_identity in *. destruct k as [f c' m t]. cbn in *.
  injection E as E. f_equal. now destruct f.
Qed.
Lemma f_pedigree (r k : component -> component) p :
  (forall c, In c (pedigree_members p) -> valid_component y v c -> r c = c -> r (k c) = k c) ->
  valid_pedigree_with y (valid_component y v) p -> respell_pedigree r p = p -> respell_pedigree r (kept_pedigree k p) = kept_pedigree k p.
Proof.
  unfold pedigree_members, valid_pedigree_with, respell_pedigree, kept_pedigree. destruct p as [a d w c q n]. cbn. intros H (VA & VD & VW & _) E. injection E as EA ED EW.
  f_equal.
  - apply (fix_in r k a (valid_component y v)); auto. intros; apply H; [rewrite !in_app_iff|..]; auto.
  - apply (fix_in r k d (valid_component y v)); auto. intros; apply H; [rewrite !in_app_iff|..]; auto.
  - apply (fix_in r k w (valid_component y v)); auto. intros; apply H; [rewrite !in_app_iff|..]; auto.
Qed.
Lemma f_component c : valid_component y v c -> respell_component c = c -> respell_component (kept_component v c) = kept_component v c.
Proof.
  induction c as [c IHc IHp] using component_ind'.
  destruct c as [ty mi br su au pu gr na ve de sc ha li co cp pl sw mo pe er pr cs ev sg mc da].
  cbn [c_components c_pedigree] in IHc, IHp.
  cbn [valid_component respell_component kept_component c_type c_mime_type c_bom_ref c_supplier c_author c_publisher c_group c_name c_version
    c_description c_scope c_hashes c_licenses c_copyright c_cpe c_purl c_swid c_modified c_pedigree
    c_external_references c_properties c_components c_evidence c_signature c_model_card c_data].
  intros V E. injection E as EP EE EC EV.
  assert (VP : when pe (valid_pedigree_with y (valid_component y v))) by (repeat match goal with H : _ /\ _ |- _ => destruct H end; assumption).
  assert (VE : every_in er (valid_ext_ref y v)) by (repeat match goal with H : _ /\ _ |- _ => destruct H end; assumption).
  assert (VC : every_in cs (valid_component y v)) by (repeat match goal with H : _ /\ _ |- _ => destruct H end; assumption).
  assert (VV : when ev (valid_evidence y v)) by (repeat match goal with H : _ /\ _ |- _ => destruct H end; assumption).
  f_equal.
  - apply (fix_opt (respell_pedigree respell_component) (kept_pedigree (kept_component v)) pe (valid_pedigree_with y (valid_component y v))); auto.
    intros p -> P R. apply f_pedigree; auto. destruct (IHp p eq_refl) as [I1 [I2 I3]]. intros c. unfold pedigree_members.
    rewrite !in_app_iff. intros [I|[I|I]]; auto.
  - now apply f_references.
  - apply (fix_in respell_component (kept_component v) cs (valid_component y v)); auto.
  - apply (fix_opt respell_evidence (kept_evidence v) ev (valid_evidence y v)); auto. intros; now apply f_evidence.
Qed.
Lemma f_service s : valid_service y v s -> respell_service s = s -> respell_service (kept_service v s) = kept_service v s.
Proof.
  induction s as [s IH] using service_ind'. destruct s as [br pr gr na ve de en au xt da li er po sv sg tz].
  cbn [s_services] in IH.
  cbn [valid_service respell_service kept_service s_bom_ref s_provider s_group s_name s_version s_description s_endpoints s_authenticated
    s_x_trust_boundary s_data s_licenses s_external_references s_properties s_services s_signature s_trust_zone].
  intros V E. injection E as EE ES.
  assert (VE : every_in er (valid_ext_ref y v)) by (repeat match goal with H : _ /\ _ |- _ => destruct H end; assumption).
  assert (VC : every_in sv (valid_service y v)) by (repeat match goal with H : _ /\ _ |- _ => destruct H end; assumption).
  f_equal.
  - now apply f_references.
  - apply (fix_in respell_service (kept_service v) sv (valid_service y v)); auto.
Qed.
Lemma f_tool t : valid_tool y v t -> respell_tool t = t -> respell_tool (kept_tool v t) = kept_tool v t.
Proof.
  unfold valid_tool, respell_tool, kept_tool. destruct t as [a b c h e]; cbn. intros V [= E]. f_equal. apply fix_from. apply f_references; [|exact E].
  repeat match goal with H : _ /\ _ |- _ => destruct H end; assumption.
Qed.
Lemma f_tools t : valid_tools y v t -> respell_tools t = t -> respell_tools (kept_tools v t) = kept_tools v t.
Proof.
  destruct t as [l|ss cs]; cbn [valid_tools respell_tools kept_tools].
  - intros V [= E]. f_equal. apply (fix_list respell_tool (kept_tool v) l (valid_tool y v)); auto. intros; now apply f_tool.
  - intros (E & C & S) [= ES EC]. assert (version_leb V1_5 v = true) as -> by now rewrite E. cbn [respell_tools]. f_equal.
    + apply (fix_in respell_service (kept_service v) ss (valid_service y v)); auto. intros; now apply f_service.
    + apply (fix_in respell_component (kept_component v) cs (valid_component y v)); auto. intros; now apply f_component.
Qed.
Lemma f_metadata m : valid_metadata y v m -> respell_metadata m = m -> respell_metadata (kept_metadata v m) = kept_metadata v m.
Proof.
  unfold valid_metadata, respell_metadata, kept_metadata. destruct m as [ti to au co ma su li pr lc]; cbn. intros V E. injection E as ET EC.
  assert (VT : when to (valid_tools y v)) by (repeat match goal with H : _ /\ _ |- _ => destruct H end; assumption).
  assert (VC : when co (valid_component y v)) by (repeat match goal with H : _ /\ _ |- _ => destruct H end; assumption).
  f_equal.
  - apply (fix_opt respell_tools (kept_tools v) to (valid_tools y v)); auto. intros; now apply f_tools.
  - apply (fix_opt respell_component (kept_component v) co (valid_component y v)); auto. intros; now apply f_component.
Qed.
Lemma f_composition c : valid_composition v c -> respell_composition c = c -> respell_composition (kept_composition v c) = kept_composition v c.
Proof.
  unfold valid_composition, respell_composition, kept_composition. destruct c as [b a s d u g]; cbn. intros [[A|A] S] [= E]; f_equal.
  - destruct a; cbn in *; try reflexivity; try tauto; discriminate E.
  - subst a. discriminate E.
Qed.
Lemma f_vulnerability u : valid_vulnerability y v u -> respell_vulnerability u = u -> respell_vulnerability (kept_vulnerability v u) = kept_vulnerability v u.
Proof.
  unfold valid_vulnerability, respell_vulnerability, kept_vulnerability. destruct u as [br id so re ra cw de dt rc wo po ad cr pu up rj cd to an ta pr]. cbn. intros V E. injection E as ET.
  assert (VT : when to (valid_tools y v)) by (repeat match goal with H : _ /\ _ |- _ => destruct H end; assumption).
  f_equal. apply (fix_opt respell_tools (kept_tools v) to (valid_tools y v)); auto. intros; now apply f_tools.
Qed.
(** the parts that validation looks at *)
Definition front_part (b : bom) : bom :=
  mkBom (b_version b) (b_serial_number b) (b_metadata b) (b_components b) (b_services b) (b_external_references b)
    (b_dependencies b) (b_compositions b) (b_properties b) (b_vulnerabilities b) (b_signature b) None None (b_spec_version b).
Lemma f_bom b : valid_bom y v b -> respell_bom v b = at_version v b ->
  respell_bom v (front_part (kept_bom v b)) = at_version v (front_part (kept_bom v b)).
Proof.
  intros [V _]. revert V. unfold valid_fields, at_version, respell_bom, front_part, kept_bom. destruct b as [ve sn me co se er de cp pr vu sg an fo sv]. cbn. intros V E.
  injection E as EM EC ES EE EP EV _ _.
  repeat match goal with H : _ /\ _ |- _ => destruct H end.
  f_equal.
  - apply (fix_opt respell_metadata (kept_metadata v) me (valid_metadata y v)); auto. intros; now apply f_metadata.
  - apply (fix_in respell_component (kept_component v) co (valid_component y v)); auto. intros; now apply f_component.
  - apply (fix_in respell_service (kept_service v) se (valid_service y v)); auto. intros; now apply f_service.
  - now apply f_references.
  - apply (fix_in respell_composition (kept_composition v) cp (valid_composition v)); auto. intros; now apply f_composition.
  - apply fix_from. apply (fix_in respell_vulnerability (kept_vulnerability v) vu (valid_vulnerability y v)); auto. intros; now apply f_vulnerability.
Qed.
End Hold.

Lemma holds_valid x v b : safe_to_save x v b -> valid_bom x v (kept_bom v (kept_bom v b)).
Proof.
  intros S. pose proof S as (V & E & _).
  change (valid_bom x v (kept_bom v (front_part (kept_bom v b)))). apply stays_valid. split; [|split].
  - exact (stays_valid_without_links x v b S).
  - exact (f_bom (without_links x) v b V E).
  - intros -> (r & u & _ & I & _). exact I.
Qed.

(** ** Lists of licenses stay as they are *)
Lemma every_in_mapped {A B} (f : A -> B) o (P : A -> Prop) (Q : B -> Prop) :
  (forall a, In a (olist o) -> P a -> Q (f a)) -> every_in o P -> every_in (option_map (map f) o) Q.
Proof.
  destruct o as [l|]; cbn; [|auto]. rewrite !every_iff. intros H K b I. apply in_map_iff in I as (a & <- & I). auto.
Qed.
Section Unmix.
Variables w m : spec_version.
Lemma x_licenses l : unmixed w l -> unmixed w (map (kept_license_choice m) l).
Proof.
  intros H E. rewrite map_length. destruct (H E) as [M|M]; [left|now right].
  intros c I. apply in_map_iff in I as (d & <- & I). destruct (M d I) as (k & ->). cbn. eauto.
Qed.
Lemma x_component c : unmixed_component w c -> unmixed_component w (kept_component m c).
Proof.
  induction c as [c IHc IHp] using component_ind'.
  destruct c as [ty mi br su au pu gr na ve de sc ha li co cp pl sw mo pe er pr cs ev sg mc da].
  cbn [c_components c_pedigree] in IHc, IHp.
  cbn [unmixed_component kept_component c_licenses c_evidence c_pedigree c_components].
  intros (L & E & P & C). split; [|split; [|split]].
  - revert L. apply when_map. exact x_licenses.
  - revert E. apply when_map. intros e. cbn [ev_licenses kept_evidence]. apply when_map. exact x_licenses.
  - destruct pe as [p|]; cbn in *; [|exact Logic.I]. destruct (IHp p eq_refl) as [I1 [I2 I3]]. destruct p as [a d u ? ? ?].
    unfold unmixed_pedigree in *. cbn in *. destruct P as (PA & PD & PU).
    split; [|split]; (eapply every_in_mapped; [|eassumption]); auto.
  - revert C. apply every_in_mapped. exact IHc.
Qed.
Lemma x_service s : unmixed_service w s -> unmixed_service w (kept_service m s).
Proof.
  induction s as [s IH] using service_ind'. destruct s as [br pr gr na ve de en au xt da li er po sv sg tz].
  cbn [s_services] in IH. cbn [unmixed_service kept_service s_licenses s_services]. intros (L & S). split.
  - revert L. apply when_map. exact x_licenses.
  - revert S. apply every_in_mapped. exact IH.
Qed.
Lemma x_tools t : unmixed_tools w t -> unmixed_tools w (kept_tools m t).
Proof.
  destruct t as [l|ss cs]; [cbn; auto|]. cbn [unmixed_tools kept_tools]. intros (C & S). destruct (version_leb V1_5 m); cbn; [|exact Logic.I].
  split; [revert C|revert S]; apply every_in_mapped; intros a _; [apply x_component|apply x_service].
Qed.
Lemma x_bom b : unmixed_bom w b -> unmixed_bom w (kept_bom m b).
Proof.
  unfold unmixed_bom. destruct b as [ve sn me co se er de cp pr vu sg an fo sv]. cbn. intros (M & C & S & V). split; [|split; [|split]].
  - revert M. apply when_map. intros a (L & X & T). cbn. split; [|split].
    + revert L. apply when_map. exact x_licenses.
    + revert X. apply when_map. exact x_component.
    + revert T. apply when_map. exact x_tools.
  - revert C. apply every_in_mapped. intros a _. apply x_component.
  - revert S. apply every_in_mapped. intros a _. apply x_service.
  - apply when_from. revert V. apply every_in_mapped. intros a _. cbn. apply when_map. exact x_tools.
Qed.
End Unmix.

(** Generated SBOMs that were saved as XML can be saved again, as XML or as JSON: proofs for C98. *)
From Verif Require Import Base Strings ModelTypes ConfigModel GenModel GenSpec
  Enums Json JsonLemmas JsonModel JsonSpec JsonProofs JsonProofs4 JsonProps ValModel ValSpec GenValProofs
  Xml XmlModel XmlSettle XmlProps XmlSpec GenReadSpec GenRead ChainSpec ChainProofs TripSpec.
From Coq Require Import Lia.
Open Scope string_scope.
Open Scope list_scope.

Local Arguments each : simpl nomatch.
Local Arguments maybe : simpl nomatch.
Local Arguments bindo : simpl nomatch.

(** ** Trimming twice *)
Lemma t_opt_twice o : trimo (t_opt o) = t_opt o.
Proof. destruct o; cbn; [|reflexivity]. unfold trimo. cbn. now rewrite xtrim_twice. Qed.
Lemma twice_map {A} (k t : A -> A) o : (forall a, k a = t a -> k (t a) = t a) ->
  option_map (map k) o = option_map (map t) o -> option_map (map k) (option_map (map t) o) = option_map (map t) o.
Proof.
  intros H. destruct o as [l|]; [|reflexivity]. cbn. intros [= E]. f_equal.
  induction l as [|a l IH]; [reflexivity|]. cbn in *. injection E as E1 E2. f_equal; auto.
Qed.
Lemma each_cons {A B} (k : A -> option B) a l : each k (a :: l) = bindo (k a) (fun b => bindo (each k l) (fun l' => Some (b :: l'))).
Proof. reflexivity. Qed.
Lemma twice_each {A} (k : A -> option A) (t : A -> A) l : (forall a, In a l -> k a = Some (t a) -> k (t a) = Some (t a)) ->
  each k l = Some (map t l) -> each k (map t l) = Some (map t l).
Proof.
  induction l as [|a l IH]; [reflexivity|]. cbn [map]. rewrite !each_cons. intros H.
  destruct (k a) as [a'|] eqn:K; [|discriminate]. cbn [bindo]. destruct (each k l) as [l'|] eqn:L; [|discriminate].
  cbn [bindo]. intros E. injection E as -> ->. rewrite (H a (or_introl eq_refl) K). cbn [bindo].
  rewrite IH; [reflexivity| |reflexivity]. intros; apply H; [now right|assumption].
Qed.
Lemma nonblank_twice s t : nonblank s = Some t -> nonblank (xtrim s) = Some (xtrim s).
Proof. unfold nonblank. rewrite xtrim_twice. destruct (xtrim s); [discriminate|reflexivity]. Qed.
Lemma nonblank_is s t : nonblank s = Some t -> t = xtrim s.
Proof. unfold nonblank. destruct (xtrim s); [discriminate|now intros [= <-]]. Qed.
Lemma t_uri_twice u : t_uri (t_uri u) = t_uri u.
Proof. unfold t_uri. destruct u as [s|s]; unfold uri_of; destruct (starts_with "urn:cdx" (xtrim s)) eqn:E; rewrite xtrim_twice, E; reflexivity. Qed.
Lemma twice_reference e : kx_external_reference e = t_reference e -> kx_external_reference (t_reference e) = t_reference e.
Proof.
  destruct e as [t u c h]. unfold kx_external_reference, t_reference. cbn [er_type er_url er_comment er_hashes]. intros [= -> _ -> ->].
  now rewrite kx_uri_of, t_uri_twice.
Qed.
Lemma twice_hash h : kx_hash h = t_hash h -> kx_hash (t_hash h) = t_hash h.
Proof. destruct h as [a c]. unfold kx_hash, t_hash. cbn [h_alg h_content]. intros [= ->]. now rewrite xtrim_twice. Qed.
Lemma twice_license v l : kx_license_choice v l = Some (t_license l) -> kx_license_choice v (t_license l) = Some (t_license l).
Proof.
  destruct l as [[r i t u ls p]|r e]; unfold kx_license_choice, t_license.
  - unfold kx_license. cbn [l_identifier l_text l_url l_bom_ref l_properties l_licensing].
    destruct i as [s|s]; unfold kx_license_identifier.
    all: destruct (nonblank s) as [s'|] eqn:N; [|discriminate]; cbn [bindo].
    all: destruct (maybe kx_attached_text t) as [t'|] eqn:T; [|discriminate]; cbn [bindo]; intros E; injection E; intros; subst.
    all: rewrite (nonblank_twice _ _ N); cbn [bindo]; congruence.
  - intros _. now rewrite xtrim_twice.
Qed.
Lemma twice_licenses v o : kx_licenses v o = Some (option_map (map t_license) o) ->
  kx_licenses v (option_map (map t_license) o) = Some (option_map (map t_license) o).
Proof.
  unfold kx_licenses. destruct o as [l|]; [|reflexivity]. cbn [maybe option_map].
  destruct (each (kx_license_choice v) l) as [l'|] eqn:E; [|discriminate]. cbn [bindo]. intros [= ->].
  rewrite twice_each; [reflexivity| |exact E]. intros a _. apply twice_license.
Qed.

(** ** Components *)
Ltac fields := cbn [c_type c_mime_type c_bom_ref c_supplier c_author c_publisher c_group c_name c_version c_description c_scope c_hashes
    c_licenses c_copyright c_cpe c_purl c_swid c_modified c_pedigree c_external_references c_properties c_components c_evidence c_signature c_model_card c_data] in *.
Lemma bindo_some {A B} (o : option A) (f : A -> option B) b : bindo o f = Some b -> exists a, o = Some a /\ f a = Some b.
Proof. destruct o as [a|]; [|discriminate]. cbn. eauto. Qed.
Section Again.
Variable v : spec_version.
Definition parts_read (c x : component) : Prop :=
  kx_licenses v (c_licenses c) = Some (c_licenses x)
  /\ maybe kx_swid (c_swid c) = Some (c_swid x)
  /\ maybe (kx_pedigree (kx_component v)) (c_pedigree c) = Some (c_pedigree x)
  /\ maybe (each (kx_component v)) (c_components c) = Some (c_components x)
  /\ maybe (kx_evidence v) (only_if evidence_has_data (c_evidence c)) = Some (c_evidence x)
  /\ gate V1_5 v (maybe kx_model_card (c_model_card c)) = Some (c_model_card x)
  /\ gate V1_5 v (maybe kx_component_data (c_data c)) = Some (c_data x)
  /\ match trimo (c_version c) with
     | None => if version_leb V1_4 v then Some None else None
     | Some s => Some (Some s)
     end = Some (c_version x)
  /\ x = mkComponent (kept_classification (c_type c)) (c_mime_type c) (c_bom_ref c)
          (option_map kx_entity (only_if entity_has_data (c_supplier c)))
          (trimo (c_author c)) (trimo (c_publisher c)) (trimo (c_group c)) (xtrim (c_name c)) (c_version x)
          (trimo (c_description c)) (option_map kx_scope (c_scope c)) (option_map (map kx_hash) (c_hashes c)) (c_licenses x)
          (trimo (c_copyright c)) (trimo (c_cpe c)) (trimo (c_purl c)) (c_swid x) (c_modified c) (c_pedigree x)
          (option_map (map kx_external_reference) (c_external_references c)) (kx_properties (c_properties c))
          (c_components x) (c_evidence x) (JsonSpec.from V1_4 v (option_map kx_signature (c_signature c))) (c_model_card x) (c_data x).
Lemma kx_unfold c : kx_component v c =
  let? li := kx_licenses v (c_licenses c) in
  let? sw := maybe kx_swid (c_swid c) in
  let? pe := maybe (kx_pedigree (kx_component v)) (c_pedigree c) in
  let? cs := maybe (each (kx_component v)) (c_components c) in
  let? ev := maybe (kx_evidence v) (only_if evidence_has_data (c_evidence c)) in
  let? mc := gate V1_5 v (maybe kx_model_card (c_model_card c)) in
  let? da := gate V1_5 v (maybe kx_component_data (c_data c)) in
  let? ve := match trimo (c_version c) with
             | None => if version_leb V1_4 v then Some None else None
             | Some s => Some (Some s)
             end in
  Some (mkComponent (kept_classification (c_type c)) (c_mime_type c) (c_bom_ref c)
          (option_map kx_entity (only_if entity_has_data (c_supplier c)))
          (trimo (c_author c)) (trimo (c_publisher c)) (trimo (c_group c)) (xtrim (c_name c)) ve
          (trimo (c_description c)) (option_map kx_scope (c_scope c)) (option_map (map kx_hash) (c_hashes c)) li
          (trimo (c_copyright c)) (trimo (c_cpe c)) (trimo (c_purl c)) sw (c_modified c) pe
          (option_map (map kx_external_reference) (c_external_references c)) (kx_properties (c_properties c))
          cs ev (JsonSpec.from V1_4 v (option_map kx_signature (c_signature c))) mc da).
Proof. destruct c. reflexivity. Qed.
Lemma kx_parts c x : kx_component v c = Some x <-> parts_read c x.
Proof.
  rewrite kx_unfold. unfold parts_read. split.
  - intros H. repeat (apply bindo_some in H; destruct H as (? & ? & H)). injection H as <-. fields.
    repeat match goal with |- _ /\ _ => split end; try assumption. reflexivity.
  - intros (E1 & E2 & E3 & E4 & E5 & E6 & E7 & E8 & E9). rewrite E1, E2, E3, E4, E5, E6, E7, E8. cbn [bindo]. f_equal. now symmetry.
Qed.
Lemma again c subs : kx_component v c = Some (t_component_with subs c) -> maybe (each (kx_component v)) subs = Some subs ->
  kx_component v (t_component_with subs c) = Some (t_component_with subs c).
Proof.
  rewrite !kx_parts. unfold parts_read, t_component_with. fields. intros (E1 & E2 & E3 & E4 & E5 & E6 & E7 & E8 & E9) S.
  split; [now apply twice_licenses|]. split; [exact E2|]. split; [exact E3|]. split; [exact S|].
  split; [exact E5|]. split; [exact E6|]. split; [exact E7|].
  split. { rewrite t_opt_twice. destruct (c_version c); [reflexivity|exact E8]. }
  pose proof (f_equal c_hashes E9) as H. pose proof (f_equal c_external_references E9) as R. fields.
  etransitivity; [exact E9|].
  rewrite (twice_map kx_hash t_hash (c_hashes c) twice_hash) by (symmetry; exact H).
  rewrite (twice_map kx_external_reference t_reference (c_external_references c) twice_reference) by (symmetry; exact R).
  rewrite !t_opt_twice, xtrim_twice, <- H, <- R. reflexivity.
Qed.
Lemma subs_inside c x : kx_component v c = Some x -> maybe (each (kx_component v)) (c_components c) = Some (c_components x).
Proof. rewrite kx_parts. unfold parts_read. tauto. Qed.
Definition leaves (c : component) : Prop := forall s, In s (olist (c_components c)) -> c_components s = None.
Lemma again_component c : leaves c -> readable v c -> kx_component v (t_component c) = Some (t_component c).
Proof.
  intros N R. unfold readable, t_component in *. apply again; [exact R|].
  pose proof (subs_inside _ _ R) as S. cbn [t_component_with c_components] in S. unfold leaves in N.
  destruct (c_components c) as [l|]; [|reflexivity]. cbn [maybe option_map olist] in *.
  destruct (each (kx_component v) l) as [l'|] eqn:E; [|discriminate]. cbn [bindo] in S. injection S as ->.
  rewrite twice_each; [reflexivity| |exact E]. intros a I K. unfold t_leaf in *. rewrite (N a I) in *. now apply again.
Qed.

(** ** What is said about the whole *)
Definition t_contact (c : contact) : contact := mkContact (ct_bom_ref c) (t_opt (ct_name c)) (t_opt (ct_email c)) (ct_phone c).
Lemma filter_shorter {A} (f : A -> bool) l : List.length (filter f l) <= List.length l.
Proof. induction l as [|a l IH]; [constructor|]. cbn. destruct (f a); cbn; lia. Qed.
Lemma filter_all {A} (f : A -> bool) l : List.length (filter f l) = List.length l -> filter f l = l.
Proof.
  induction l as [|a l IH]; [reflexivity|]. cbn. destruct (f a); cbn; [intros [= E]; f_equal; auto|].
  intros E. pose proof (filter_shorter f l). lia.
Qed.
Lemma twice_authors o :
  option_map (fun l => map kx_contact (filter contact_has_data l)) o = option_map (map t_contact) o ->
  option_map (fun l => map kx_contact (filter contact_has_data l)) (option_map (map t_contact) o) = option_map (map t_contact) o.
Proof.
  destruct o as [l|]; [|reflexivity]. cbn [option_map]. intros [= E]. f_equal.
  assert (F : filter contact_has_data l = l) by (apply filter_all; apply (f_equal (@List.length _)) in E; now rewrite !map_length in E).
  assert (G : forall a, In a l -> contact_has_data a = true) by (intros a I; rewrite <- F in I; now apply filter_In in I).
  rewrite F in E. clear F.
  induction l as [|a l IH]; [reflexivity|]. cbn [map] in E. injection E as E1 E2.
  assert (D : contact_has_data (t_contact a) = true).
  { specialize (G a (or_introl eq_refl)). destruct a as [? [] [] []]; cbn in *; auto. }
  cbn [map filter]. rewrite D. cbn [map]. f_equal; [|apply IH; [exact E2|intros; apply G; now right]].
  destruct a as [r n e p]. unfold kx_contact, t_contact in *. cbn [ct_bom_ref ct_name ct_email ct_phone] in *.
  rewrite !t_opt_twice. f_equal. exact E1.
Qed.
Lemma twice_tools t : kx_tools v t = Some (t_tools t) -> kx_tools v (t_tools t) = Some (t_tools t).
Proof.
  destruct t as [[|a l]|s c]; [auto| |auto]. cbn [kx_tools t_tools map]. intros E. injection E as E1 E2 E4. f_equal. f_equal. cbn [map]. f_equal.
  - destruct a as [x y z h e]. unfold kx_tool. cbn [t_vendor t_name t_version t_hashes t_external_references] in *. rewrite !t_opt_twice. congruence.
  - clear -E4. induction l as [|b l IH]; [reflexivity|]. cbn [map] in *. injection E4 as F1 F2 F3. f_equal; [|auto].
    destruct b as [x y z h e]. unfold kx_tool. cbn [t_vendor t_name t_version t_hashes t_external_references] in *. rewrite !t_opt_twice. congruence.
Qed.
Lemma twice_property o : kx_properties (option_map (map kx_property) o) = option_map (map kx_property) o.
Proof.
  unfold kx_properties. apply twice_map; [|reflexivity]. intros [n u] _. unfold kx_property. cbn [p_name p_value]. now rewrite xtrim_twice.
Qed.
Lemma again_metadata m : (forall c, m_component m = Some c -> leaves c) ->
  kx_metadata v m = Some (t_metadata m) -> kx_metadata v (t_metadata m) = Some (t_metadata m).
Proof.
  intros N C. unfold kx_metadata in C. apply bindo_some in C as (t & T & C). apply bindo_some in C as (c & K & C). apply bindo_some in C as (l & L & C).
  injection C as Ct Ca Cc H1 H2 Cl H4. subst t c l.
  unfold kx_metadata, t_metadata. cbn [m_timestamp m_tools m_authors m_component m_manufacture m_supplier m_licenses m_properties m_lifecycles].
  assert (maybe (kx_tools v) (option_map t_tools (m_tools m)) = Some (option_map t_tools (m_tools m))) as ->.
  { destruct (m_tools m) as [x|]; [|reflexivity]. unfold maybe in *. cbn [option_map] in *. apply bindo_some in T as (y & T & E). injection E as ->.
    now rewrite (twice_tools x T). }
  assert (maybe (kx_component v) (option_map t_component (m_component m)) = Some (option_map t_component (m_component m))) as ->.
  { destruct (m_component m) as [x|]; [|reflexivity]. unfold maybe in *. cbn [option_map] in *. apply bindo_some in K as (y & K & E). injection E as ->.
    now rewrite (again_component x (N x eq_refl) K). }
  cbn [bindo]. rewrite L. cbn [bindo].
  change (fun p => mkProp (p_name p) (xtrim (p_value p))) with kx_property.
  change (fun c => mkContact (ct_bom_ref c) (t_opt (ct_name c)) (t_opt (ct_email c)) (ct_phone c)) with t_contact in *.
  rewrite t_opt_twice, twice_property, twice_authors by exact Ca. rewrite H1, H2, H4. reflexivity.
Qed.

(** ** The same for JSON *)
Lemma same_map {A} (k t : A -> A) o : (forall a, k a = a -> k (t a) = t a) ->
  option_map (map k) o = o -> option_map (map k) (option_map (map t) o) = option_map (map t) o.
Proof.
  intros H. destruct o as [l|]; [|reflexivity]. cbn. intros [= E]. f_equal.
  induction l as [|a l IH]; [reflexivity|]. cbn in *. injection E as E1 E2. f_equal; auto.
Qed.
Lemma json_hash h : kept_hash h = h -> kept_hash (t_hash h) = t_hash h.
Proof. destruct h as [a c]. unfold kept_hash, t_hash. cbn [h_alg h_content]. intros [= E]. now rewrite E. Qed.
Lemma json_reference e : kept_external_reference e = e -> kept_external_reference (t_reference e) = t_reference e.
Proof.
  destruct e as [t u c h]. unfold kept_external_reference, t_reference. cbn [er_type er_url er_comment er_hashes]. intros E. injection E. intros.
  unfold t_uri. rewrite kept_uri_of. congruence.
Qed.
Lemma json_license l : kept_license_choice v l = l -> kept_license_choice v (t_license l) = t_license l.
Proof.
  destruct l as [[r i t u ls p]|r e]; unfold kept_license_choice, t_license; [|reflexivity].
  unfold kept_license. cbn [l_identifier l_text l_url l_bom_ref l_properties l_licensing]. intros E. injection E. intros. congruence.
Qed.
Lemma json_component c subs : plain v c -> option_map (map (kept_component v)) subs = subs -> plain v (t_component_with subs c).
Proof.
  intros [P1 P2 P3 P4] S. constructor.
  - rewrite kept_component_eq in P1 |- *.
    pose proof (f_equal c_type P1) as Q1. pose proof (f_equal c_scope P1) as Q2. pose proof (f_equal c_hashes P1) as Q3.
    pose proof (f_equal c_licenses P1) as Q4. pose proof (f_equal c_swid P1) as Q5. pose proof (f_equal c_external_references P1) as Q6.
    pose proof (f_equal c_signature P1) as Q7. pose proof (f_equal c_model_card P1) as Q8. pose proof (f_equal c_data P1) as Q9.
    clear P1. unfold t_component_with. fields. rewrite P3, P4, S.
    rewrite (same_map kept_hash t_hash (c_hashes c) json_hash) by exact Q3.
    rewrite (same_map kept_external_reference t_reference (c_external_references c) json_reference) by exact Q6.
    rewrite (same_map (kept_license_choice v) t_license (c_licenses c) json_license) by exact Q4.
    rewrite Q1, Q2, Q5, Q7, Q8, Q9. reflexivity.
  - cbn. destruct (c_version c); [discriminate|exact P2].
  - exact P3.
  - exact P4.
Qed.

Lemma json_tools t : kept_tools v t = t -> kept_tools v (t_tools t) = t_tools t.
Proof.
  destruct t as [l|s c]; [|auto]. cbn [kept_tools t_tools]. intros [= E]. f_equal.
  induction l as [|a l IH]; [reflexivity|]. cbn [map] in *. injection E as E1 E2. f_equal; [|auto].
  destruct a as [x y z h e]. unfold kept_tool in *. cbn [t_vendor t_name t_version t_hashes t_external_references] in *. injection E1 as E1 E3. now rewrite E1, E3.
Qed.
Definition whole (c : component) : Prop :=
  plain v c /\ forall s, In s (olist (c_components c)) -> plain v s /\ c_components s = None.
Lemma json_leaf s : plain v s -> c_components s = None -> plain v (t_leaf s) /\ c_components (t_leaf s) = None.
Proof. intros P N. split; [|exact N]. unfold t_leaf. apply json_component; [exact P|]. now rewrite N. Qed.
Lemma json_whole c : whole c -> whole (t_component c).
Proof.
  intros [P S].
  assert (L : forall s, In s (olist (option_map (map t_leaf) (c_components c))) -> plain v s /\ c_components s = None).
  { destruct (c_components c) as [l|]; [|intros s []]. cbn [option_map olist] in *. intros s I. apply in_map_iff in I as (a & <- & I).
    destruct (S a I). now apply json_leaf. }
  split; [|exact L]. unfold t_component. apply json_component; [exact P|]. apply map_same. intros s I. apply (L s I).
Qed.
End Again.

(** ** BOMs like the generated ones *)
Definition parts (v : spec_version) (b : bom) : Prop := exists md c comps,
  b_metadata b = Some md /\ m_component md = Some c /\ whole v c
  /\ b_components b = Some comps /\ (forall s, In s comps -> plain v s /\ c_components s = None)
  /\ kept_metadata v md = md /\ (forall t, m_tools md = Some t -> tools_components v t = [])
  /\ b_services b = None /\ b_external_references b = None /\ b_compositions b = None
  /\ b_properties b = None /\ b_vulnerabilities b = None /\ b_signature b = None
  /\ b_annotations b = None /\ b_formulation b = None.
Lemma parts_kept v b : parts v b -> kept_bom v b = at_version v b.
Proof.
  intros (md & c & comps & A & B & C & E & G & M1 & M2 & R1 & R2 & R3 & R4 & R5 & R6 & R7 & R8).
  unfold kept_bom, at_version. rewrite A, E, R1, R2, R3, R4, R5, R6, R7, R8. cbn [option_map]. rewrite M1.
  replace (map (kept_component v) comps) with comps; [destruct v; reflexivity|].
  rewrite <- (map_id comps) at 1. apply map_ext_in. intros a Ha. symmetry. apply G, Ha.
Qed.
Lemma parts_components v b a : parts v b -> bom_component v b a -> plain v a.
Proof.
  intros (md & c & comps & A & B & [C D] & E & G & M1 & M2 & R1 & R2 & R3 & R4 & R5 & R6 & R7 & R8).
  intros (r & Hr & W). unfold bom_roots in Hr. rewrite A, E, R5, R7, R8 in Hr. cbn [JsonSpec.one olist flat_map] in Hr.
  assert (In r (flat_map (tools_components v) (JsonSpec.one (m_tools md)) ++ JsonSpec.one (m_component md))%list \/ In r comps) as H.
  { destruct v; cbn in Hr; rewrite ?app_nil_r in Hr; now apply in_app_or in Hr. }
  destruct H as [H|H].
  - rewrite B in H. apply in_app_or in H as [H|H].
    + destruct (m_tools md) as [t|] eqn:T; [|destruct H]. cbn [JsonSpec.one flat_map] in H. rewrite (M2 t eq_refl) in H. destruct H.
    + destruct H as [<-|[]]. destruct (no_members _ (pl_pedigree _ _ C) _ W) as [->|(d & Hd & Wd)]; [exact C|].
      destruct (D d Hd) as [P N]. rewrite (leaf_within _ _ (pl_pedigree _ _ P) N Wd). exact P.
  - destruct (G r H) as [P N]. rewrite (leaf_within _ _ (pl_pedigree _ _ P) N W). exact P.
Qed.
Lemma parts_at v u b : parts v b -> parts v (at_version u b).
Proof. exact (fun H => H). Qed.
Lemma json_metadata v m : (forall c, m_component m = Some c -> whole v c) -> kept_metadata v m = m -> kept_metadata v (t_metadata m) = t_metadata m.
Proof.
  intros N K. pose proof (f_equal m_tools K) as K1. pose proof (f_equal m_licenses K) as K2. pose proof (f_equal m_lifecycles K) as K3. clear K.
  unfold kept_metadata, t_metadata in *.
  cbn [m_timestamp m_tools m_authors m_component m_manufacture m_supplier m_licenses m_properties m_lifecycles] in *. rewrite K2, K3.
  replace (option_map (kept_tools v) (option_map t_tools (m_tools m))) with (option_map t_tools (m_tools m)).
  replace (option_map (kept_component v) (option_map t_component (m_component m))) with (option_map t_component (m_component m)).
  - reflexivity.
  - destruct (m_component m) as [c|]; [|reflexivity]. cbn [option_map]. f_equal. symmetry. apply (proj1 (json_whole v c (N c eq_refl))).
  - destruct (m_tools m) as [t|]; [|reflexivity]. cbn [option_map] in *. injection K1 as K1. f_equal. symmetry. now apply json_tools.
Qed.
Lemma parts_trimmed v b : parts v b -> parts v (trimmed b).
Proof.
  intros (md & c & comps & A & B & C & E & G & M1 & M2 & R).
  exists (t_metadata md), (t_component c), (map t_component comps).
  split; [unfold trimmed; cbn [b_metadata]; now rewrite A|]. split; [unfold t_metadata; cbn [m_component]; now rewrite B|].
  split; [now apply json_whole|]. split; [unfold trimmed; cbn [b_components]; now rewrite E|].
  split. { intros s I. apply in_map_iff in I as (a & <- & I). destruct (G a I) as [P N]. rewrite leaf_trimmed by exact N. now apply json_leaf. }
  split. { apply json_metadata; [|exact M1]. intros c' E'. rewrite B in E'. injection E' as <-. exact C. }
  split; [|exact R]. unfold t_metadata. cbn [m_tools]. intros t T. destruct (m_tools md) as [t0|]; [|discriminate T]. cbn [option_map] in T. injection T as <-.
  specialize (M2 t0 eq_refl). destruct t0; [reflexivity|exact M2].
Qed.
Lemma trimmed_again v u b : parts v b -> kx_bom v b = Some (at_version v (trimmed b)) ->
  kx_bom v (at_version u (trimmed b)) = Some (at_version v (trimmed b)).
Proof.
  intros (md & c & comps & A & B & C & E & G & M1 & M2 & R1 & R2 & R3 & R4 & R5 & R6 & R7 & R8) K.
  unfold kx_bom in K. apply bindo_some in K as (m' & KM & K). apply bindo_some in K as (c' & KC & K).
  rewrite R1, R5, R8 in K. cbn [maybe] in K.
  assert (Q : m' = option_map t_metadata (b_metadata b) /\ c' = option_map (map t_component) (b_components b)).
  { revert K. unfold gate. destruct v; cbn [version_leb bindo]; intros K; unfold at_version, trimmed in K; (split; [exact (f_equal (fun o => match o with Some z => b_metadata z | None => m' end) K)|exact (f_equal (fun o => match o with Some z => b_components z | None => c' end) K)]). }
  destruct Q as [-> ->]. clear K. rewrite A in KM. rewrite E in KC. unfold maybe in KM, KC. cbn [option_map] in KM, KC.
  apply bindo_some in KM as (x & KM & X). injection X as ->. apply bindo_some in KC as (y & KC & Y). injection Y as ->.
  unfold kx_bom, at_version, trimmed.
  cbn [b_version b_serial_number b_metadata b_components b_services b_external_references b_dependencies b_compositions b_properties
    b_vulnerabilities b_signature b_annotations b_formulation].
  rewrite A, E, R1, R2, R3, R4, R5, R6, R7, R8. cbn [option_map maybe].
  rewrite (again_metadata v md) by (try exact KM; intros d D; rewrite B in D; injection D as <-; intros s I; apply C, I). cbn [bindo].
  rewrite (twice_each (kx_component v) t_component comps); [| |exact KC].
  - cbn [bindo]. destruct v; reflexivity.
  - intros a I H. apply again_component; [|exact H]. intros s J. destruct (G a I) as [_ N]. rewrite N in J. destruct J.
Qed.

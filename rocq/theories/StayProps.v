(** What saving and reading does to validity: C94. *)
From Coq Require Import NArith ZArith.
From Verif Require Import Base ModelTypes Strings Enums GenModel Json JsonModel JsonSpec JsonProps ResaveSpec ResaveProofs
  ValModel ValSpec ValProofs ValProofs2 ValProofs3 ValProofs4 ValProps ChainSpec ChainProofs ChainProps StaySpec StayProofs.
Open Scope string_scope.
Open Scope list_scope.

Definition passes (x : parsers) (v : spec_version) (b : bom) : Prop :=
  exists r, validate_bom x v b = Done r /\ passed r = true.

(** ** C94: a BOM that passes validation passes it again after it was saved as JSON and read, if it is safe to save *)

(** [converted v b b'] (ChainSpec.v): saved in version [v], [b] is read as [b'] *)
Theorem C94_stays_valid x v b b' :
  safe_to_save x v b -> confidences_finite v b -> converted v b b' ->
  passes x v b' /\ exists r, validate x b' = Done r /\ passed r = true.
Proof.
  intros S M C. pose proof (stays_valid x v b S) as V. rewrite <- (converted_kept v b b' M C) in V.
  assert (E : b_spec_version b' = v) by (now rewrite (converted_kept v b b' M C)).
  split; [now apply C25_passes_iff_valid|]. apply C25_validate_uses_own_version. now rewrite E.
Qed.
(** *** Cases *)
Definition referring (v : spec_version) (t : ext_ref_type) (u : reference_uri) : bom := at_version v
  (plain_bom (Some [ {| c_type := CLibrary; c_mime_type := Some "text/x"; c_bom_ref := Some "r"; c_supplier := None; c_author := None;
     c_publisher := None; c_group := None; c_name := "a"; c_version := None; c_description := None; c_scope := Some ScOptional;
     c_hashes := None; c_licenses := Some [LicExpression None "MIT OR Apache-2.0"]; c_copyright := None; c_cpe := None;
     c_purl := Some "pkg:a"; c_swid := None; c_modified := None; c_pedigree := None;
     c_external_references := Some [mkExtRef t u None None]; c_properties := None;
     c_components := Some [plain_component (Some "s") "b" None]; c_evidence := None; c_signature := None;
     c_model_card := None; c_data := None |} ]) (Some [mkDependency "r" ["s"]]) None None).
Definition collected (a : aggregate_type) : bom :=
  plain_bom (Some [plain_component (Some "r") "a" None]) None (Some [mkComposition None a (Some ["r"]) None None None]) None.
Definition vulnerable : bom := at_version V1_3
  (plain_bom None (Some [mkDependency "v" []]) None
    (Some [mkVulnerability (Some "v") (Some "x") None None None None None None None None None None None None None None None None
             None None None])).
Example C94_case : exists b', let b := referring V1_5 ERWebsite (RUrl "https://example.com") in
  safe_to_save picky_parsers V1_5 b /\ confidences_finite V1_5 b /\ converted V1_5 b b'.
Proof.
  set (b := referring V1_5 ERWebsite (RUrl "https://example.com")).
  assert (M : confidences_finite V1_5 b).
  { intros c (r & Hr & Hw) _ e i m He Hi Hm. cbn in Hr. destruct Hr as [<-|[]].
    inversion Hw; subst; try discriminate. cbn in *. destruct H as [<-|[]]. inversion H0; subst; try discriminate. cbn in *. contradiction. }
  assert (O : exists j, output_as_json V1_5 b = Done j) by (vm_compute; eauto). destruct O as (j & O).
  exists (kept_bom V1_5 b). split; [|split; [exact M|exact (written_converted V1_5 b j M O)]].
  split; [|split; [reflexivity|discriminate]]. apply validate_bom_iff. vm_compute. reflexivity.
Qed.

(** Every condition is needed: each of these BOMs passes validation, and what is read after it was saved does not. *)
Definition spoiled (x : parsers) (v : spec_version) (b : bom) : Prop :=
  b_spec_version b = v /\ passes x v b /\ exists b', converted v b b' /\ ~ passes x v b'.
Lemma spoils x v b b' : b_spec_version b = v -> validate_bom x v b = Done [] -> go (Some b) v = Some b' ->
  (forall r, validate_bom x v b' = Done r -> passed r = false) -> spoiled x v b.
Proof.
  intros V P G F. split; [exact V|]. split; [now exists []|]. exists b'. split.
  - assert (T : travelled [v] b b') by (apply gone; exact G). inversion T as [|? ? ? b1 ? C T']; subst. now inversion T'; subst.
  - intros (r & E & Q). now rewrite (F r E) in Q.
Qed.
Ltac spoil := match goal with |- spoiled ?x ?v ?b =>
  let w := eval vm_compute in (go (Some b) v) in match w with Some ?b' =>
    apply (spoils x v b b'); [reflexivity|vm_compute; reflexivity|vm_compute; reflexivity|]; intros r; vm_compute; intros [= <-]; reflexivity end end.
(** an external reference of the type [codified-infrastructure] *)
Theorem C94_misspelt_type_refuted v : spoiled picky_parsers v (at_version v (mkBom u32_1 None None None None
    (Some [mkExtRef ERCondifiedInfrastructure (RUrl "https://example.com") None None]) None None None None None None None v)).
Proof. destruct v; spoil. Qed.
(** a composition of one of the aggregate types *)
Theorem C94_misspelt_aggregate_refuted : spoiled picky_parsers V1_5 (collected AIncompleteFirstPartyProprietaryOnly).
Proof. spoil. Qed.
(** a URL that is an URN of this kind *)
Theorem C94_link_refuted v : v <> V1_3 -> spoiled picky_parsers v (referring v ERWebsite (RUrl "urn:cdx:any")).
Proof. destruct v; [contradiction|intros _; spoil..]. Qed.
(** a dependency that is a vulnerability *)
Theorem C94_vulnerability_refuted : spoiled picky_parsers V1_3 vulnerable.
Proof. spoil. Qed.

Print Assumptions C94_stays_valid.
Print Assumptions C94_misspelt_type_refuted.
Print Assumptions C94_misspelt_aggregate_refuted.
Print Assumptions C94_link_refuted.
Print Assumptions C94_vulnerability_refuted.

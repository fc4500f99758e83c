(** Validity for later versions: C95. *)
From Coq Require Import NArith ZArith.
From Verif Require Import Base ModelTypes Strings Enums GenModel Json JsonModel JsonSpec JsonProps ResaveSpec
  ValModel ValSpec ValProofs ValProofs2 ValProofs3 ValProofs4 ValProps ChainSpec ChainProofs ChainProps StaySpec StayProofs StayProps UpSpec UpProofs.
Open Scope string_scope.
Open Scope list_scope.

(** ** C95: a BOM that passes validation for a version passes it for every later one, except that 1.5 forbids to mix
    licenses and expressions *)
Theorem C95_later x v w b :
  version_leb v w = true -> passes x v b -> (passes x w b <-> unmixed_bom w b).
Proof.
  intros L P. unfold passes in *. rewrite C25_passes_iff_valid in *. split; [apply n_bom|]. exact (u_bom x v w L b P).
Qed.
(** so from 1.3 to 1.4 nothing is lost *)
Theorem C95_from_1_3_to_1_4 x b : passes x V1_3 b -> passes x V1_4 b.
Proof. intros P. apply (C95_later x V1_3 V1_4 b eq_refl P). apply f_bom. discriminate. Qed.
(** A BOM that passes validation for a version can be saved as JSON in a later one, and passes the validation of that
    version when it is read. *)
Theorem C95_upgraded x v w b b' :
  version_leb v w = true -> safe_to_save x v b -> unmixed_bom w b -> confidences_finite w b -> converted w b b' ->
  passes x w b' /\ exists r, validate x b' = Done r /\ passed r = true.
Proof.
  intros L (V & R & N) U M C. apply (C94_stays_valid x w b b'); [|exact M|exact C].
  split; [exact (u_bom _ v w L b V U)|]. split.
  - change (respell_bom w b) with (at_version w (respell_bom v b)). rewrite R. reflexivity.
  - intros ->. destruct v; [now apply N|discriminate L..].
Qed.

(** *** Cases *)
Definition licensed (l : list license_choice) : bom :=
  plain_bom (Some [plain_component (Some "r") "a" (Some [ {| c_type := CLibrary; c_mime_type := None; c_bom_ref := Some "s"; c_supplier := None;
     c_author := None; c_publisher := None; c_group := None; c_name := "b"; c_version := None; c_description := None;
     c_scope := None; c_hashes := None; c_licenses := Some l;
     c_copyright := None; c_cpe := None; c_purl := None; c_swid := None;
     c_modified := None; c_pedigree := None; c_external_references := None; c_properties := None;
     c_components := None; c_evidence := None; c_signature := None; c_model_card := None; c_data := None |} ])])
    (Some [mkDependency "r" ["s"]]) None None.
Definition named_license : license_choice := LicLicense (mkLicense None (LSpdxId "MIT") None None None None).
Definition expressed : license_choice := LicExpression None "MIT OR Apache-2.0".
Example C95_case : passes picky_parsers V1_3 (licensed [named_license; named_license])
  /\ passes picky_parsers V1_5 (licensed [named_license; named_license])
  /\ passes picky_parsers V1_3 (licensed [named_license; expressed])
  /\ ~ passes picky_parsers V1_5 (licensed [named_license; expressed]).
Proof.
  split; [|split; [|split]]; try (exists []; split; vm_compute; reflexivity).
  intros (r & E & Q). vm_compute in E. injection E as <-. discriminate Q.
Qed.
Example C95_upgraded_case : exists b', let b := licensed [expressed] in
  safe_to_save picky_parsers V1_4 b /\ unmixed_bom V1_5 b /\ confidences_finite V1_5 b /\ converted V1_5 b b'.
Proof.
  set (b := licensed [expressed]).
  assert (M : confidences_finite V1_5 b).
  { intros c (r & Hr & Hw) _ e i m He Hi Hm. cbn in Hr. destruct Hr as [<-|[]].
    inversion Hw; subst; try discriminate. cbn in *. destruct H as [<-|[]]. inversion H0; subst; try discriminate. cbn in *. contradiction. }
  assert (O : exists j, output_as_json V1_5 b = Done j) by (vm_compute; eauto). destruct O as (j & O).
  exists (kept_bom V1_5 b). split; [|split; [|split; [exact M|exact (written_converted V1_5 b j M O)]]].
  - split; [|split; [reflexivity|discriminate]]. apply validate_bom_iff. vm_compute. reflexivity.
  - cbn. repeat split. intros _. right. apply le_n.
Qed.

Print Assumptions C95_later.
Print Assumptions C95_from_1_3_to_1_4.
Print Assumptions C95_upgraded.

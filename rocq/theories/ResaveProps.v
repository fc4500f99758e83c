(** Saving a JSON document that was read: C60. *)
From Coq Require Import NArith ZArith.
From Verif Require Import Base ModelTypes Strings Enums GenModel Json JsonLemmas JsonModel JsonSpec JsonMore JsonProps ResaveSpec ResaveProofs.
Open Scope string_scope.
Open Scope list_scope.

(** ** C60: a JSON document that was read can be saved, in its version or a later one, and reads again as the same BOM *)

Lemma deserialized v j b : deserialize v j = Done b -> of_json_bom v j = Some b.
Proof. unfold deserialize. destruct (of_json_bom v j); [|discriminate]. now intros [= <-]. Qed.
Lemma read_any j b : parse_from_json j = Done b -> of_json_bom (b_spec_version b) (to_value j) = Some b.
Proof.
  intros P. unfold parse_from_json in P. destruct (to_value j) as [| | | | | |l]; try discriminate P.
  destruct (assoc "specVersion" l) as [[| | | |s| |]|] eqn:A; try discriminate P.
  destruct (version_of_text s) as [v|] eqn:T; [|discriminate P]. apply deserialized in P.
  destruct (C44_version_of_result v b _ P l eq_refl) as (x & X & D). rewrite A in X. injection X as <-.
  cbn in D. rewrite T in D. injection D as <-. exact P.
Qed.

(** [respell_bom w b] (ResaveSpec.v) is [b] as a BOM of version [w], in which three names that the library misspells
    are changed.  [numbers_fit j]: every number of the document is finite as an [f32], so not, say, [1e39].  [v] is
    the version the reader was told to read, [w] the version the BOM is saved in. *)
Theorem C60_resave v w j b :
  parse_from_json_with_version v j = Done b \/ parse_from_json_value_version v j = Done b ->
  numbers_fit j -> version_leb v w = true ->
  exists j', output_as_json w b = Done j'
    /\ parse_from_json j' = Done (respell_bom w b)
    /\ parse_from_json_with_version w j' = Done (respell_bom w b)
    /\ parse_from_json_value_version w j' = Done (respell_bom w b).
Proof.
  intros [P|P] F L; apply deserialized in P.
  - exact (read_written v w b j L F P).
  - exact (read_written v w b (to_value j) L (fit_value j F) P).
Qed.
(** the same for the reader that looks at the declared version *)
Theorem C60_resave_declared w j b :
  parse_from_json j = Done b -> numbers_fit j -> version_leb (b_spec_version b) w = true ->
  exists j', output_as_json w b = Done j'
    /\ parse_from_json j' = Done (respell_bom w b)
    /\ parse_from_json_with_version w j' = Done (respell_bom w b)
    /\ parse_from_json_value_version w j' = Done (respell_bom w b).
Proof. intros P F L. exact (read_written _ w b (to_value j) L (fit_value j F) (read_any j b P)). Qed.
(** a BOM without those names comes back as it was *)
Theorem C60_unchanged j b :
  parse_from_json j = Done b -> numbers_fit j -> respell_bom (b_spec_version b) b = b ->
  exists j', output_as_json (b_spec_version b) b = Done j' /\ parse_from_json j' = Done b.
Proof.
  intros P F R. assert (L : version_leb (b_spec_version b) (b_spec_version b) = true) by now destruct (b_spec_version b).
  destruct (C60_resave_declared _ j b P F L) as (j' & O & Q & _). rewrite R in Q. eauto.
Qed.
(** Whatever was read, the second saving and all that follow change nothing: the document that was
    saved can be saved again, in the same version, and reads as the same BOM. *)
Theorem C60_saved_is_stable w j b j' b' :
  parse_from_json j = Done b -> numbers_fit j -> version_leb (b_spec_version b) w = true ->
  output_as_json w b = Done j' -> parse_from_json j' = Done b' ->
  exists j'', output_as_json w b' = Done j'' /\ parse_from_json j'' = Done b'.
Proof.
  intros P F L O Q. destruct (C60_resave_declared w j b P F L) as (j1 & O1 & Q1 & _).
  rewrite O in O1. injection O1 as <-. rewrite Q in Q1. injection Q1 as ->.
  assert (L' : version_leb (b_spec_version (respell_bom w b)) w = true) by now destruct w.
  destruct (C60_resave_declared w j' _ Q (written_fit w b j' O) L') as (j'' & O2 & Q2 & _).
  exists j''. rewrite twice_bom in Q2. auto.
Qed.
(** what is respelled, wherever it occurs, and that nothing else of a reference, an aggregate or an
    identified field is touched *)
Theorem C60_respelled :
  (forall x, respell_ext_ref_type x <> x <-> x = ERCondifiedInfrastructure)
  /\ (forall x, respell_aggregate_type x <> x <-> x = AIncompleteFirstPartyProprietaryOnly)
  /\ (forall x, respell_identity_field x <> x <-> exists s, x = IFUnknown s /\ s <> "unknown").
Proof.
  split; [|split].
  - intros x. split; [destruct x; cbn; congruence|]. intros ->. discriminate.
  - intros x. split; [destruct x; cbn; congruence|]. intros ->. discriminate.
  - intros x. split.
    + destruct x; cbn; try congruence. intros H. eexists. split; [reflexivity|]. congruence.
    + intros (s & -> & N). cbn. congruence.
Qed.

(** A document of 1.4 with nested components, a pedigree and one misspelt name, saved as 1.5. *)
Definition read_component (n : string) (more : list (string * json)) : json :=
  JObj ([("type", JStr "library"); ("name", JStr n); ("x-unknown", JBool true)] ++ more).
Definition read_document (kind : string) : json := JObj [
  ("$schema", JStr "http://cyclonedx.org/schema/bom-1.4.schema.json");
  ("version", JInt 2%Z); ("specVersion", JStr "1.4"); ("bomFormat", JStr "CycloneDX");
  ("components", JArr [
     read_component "a" [
       ("components", JArr [read_component "b" [("version", JStr "2")]]);
       ("pedigree", JObj [("ancestors", JArr [read_component "c" []]); ("notes", JStr "n")]);
       ("externalReferences", JArr [JObj [("type", JStr kind); ("url", JStr "https://example.com")]])];
     read_component "d" [("licenses", JArr [JObj [("license", JObj [("id", JStr "MIT")])]])]]);
  ("vulnerabilities", JArr [JObj [("id", JStr "x"); ("ratings", JArr [JObj [("score", JFloat (F_fin false 1%N 0%Z))]])]])].
Example C60_case : exists b, parse_from_json (read_document "codified-infrastructure") = Done b
  /\ numbers_fit (read_document "codified-infrastructure")
  /\ version_leb (b_spec_version b) V1_5 = true
  /\ List.length (olist (b_components b)) = 2
  /\ respell_bom V1_4 b <> b.
Proof. eexists. split; [vm_compute; reflexivity|]. vm_compute. intuition discriminate. Qed.
Example C60_unchanged_case : exists b, parse_from_json (read_document "website") = Done b
  /\ numbers_fit (read_document "website") /\ respell_bom (b_spec_version b) b = b.
Proof. eexists. split; [vm_compute; reflexivity|]. vm_compute. intuition. Qed.

(** Without [numbers_fit] the claim is false: the confidence [1e39] of a method is read as infinity and
    written as [null], and no parser accepts that document. *)
Definition overflowing : json := JObj [
  ("bomFormat", JStr "CycloneDX"); ("specVersion", JStr "1.5"); ("version", JInt 1%Z);
  ("components", JArr [JObj [("type", JStr "library"); ("name", JStr "a");
     ("evidence", JObj [("identity", JObj [("field", JStr "purl");
        ("methods", JArr [JObj [("technique", JStr "other"); ("confidence", JFloat (F_inf false))]])])])]])].
Theorem C60_any_number_refuted : exists b j', parse_from_json overflowing = Done b
  /\ output_as_json V1_5 b = Done j' /\ (exists m, parse_from_json j' = Fail m)
  /\ (exists m, parse_from_json_with_version V1_5 j' = Fail m).
Proof.
  eexists. eexists. split; [vm_compute; reflexivity|]. split; [vm_compute; reflexivity|].
  split; eexists; vm_compute; reflexivity.
Qed.
(** And saving in an earlier version can fail: a component of 1.4 needs no version. *)
Theorem C60_earlier_version_refuted : exists j b, parse_from_json j = Done b /\ numbers_fit j
  /\ forall j', output_as_json V1_3 b <> Done j'.
Proof.
  exists (read_document "website"). eexists. split; [vm_compute; reflexivity|]. split; [vm_compute; intuition|].
  intros j'. vm_compute. discriminate.
Qed.

Print Assumptions C60_resave.
Print Assumptions C60_resave_declared.
Print Assumptions C60_unchanged.
Print Assumptions C60_saved_is_stable.
Print Assumptions C60_respelled.
Print Assumptions C60_any_number_refuted.
Print Assumptions C60_earlier_version_refuted.

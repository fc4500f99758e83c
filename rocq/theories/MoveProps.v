(** Converting generated SBOMs from version to version: C96. *)
From Verif Require Import Base Strings ModelTypes ConfigModel GenModel GenSpec GenExample GenValProofs GenValProps
  Json JsonLemmas JsonModel JsonSpec JsonProofs4 JsonProps ValModel ValSpec ValProps GenReadSpec GenRead GenReadProps
  ChainSpec ChainProofs ChainProps StayProps.
Open Scope string_scope.
Open Scope list_scope.

(** ** C96: a generated SBOM can be converted to any versions, one after the other, and stays as it was *)

Section Moving.
Variables (w : world) (fuel : nat) (meta : cargo_metadata) (nodes : list node) (cfg : config) (m : string) (g : generated)
  (files : list output_file) (f : output_file).
Hypotheses (wf : well_formed meta nodes) (Hg : sbom_of w fuel meta cfg m g) (Hp : write_plan g = Done files) (Hf : In f files).

Lemma move_finite u v : confidences_finite v (at_version u (f_bom f)).
Proof.
  intros c Hc _ e i x He. rewrite (pl_evidence _ _ (file_components _ _ _ _ _ _ _ wf Hg v _ _ Hp Hf c Hc)) in He. discriminate.
Qed.
Lemma move_kept u v : kept_bom v (at_version u (f_bom f)) = at_version v (f_bom f).
Proof. exact (file_kept _ _ _ _ _ _ _ wf Hg v _ _ Hp Hf). Qed.
Lemma move_on u v : converted v (at_version u (f_bom f)) (at_version v (f_bom f)).
Proof.
  destruct (proj2 (C43_json_output_fails_iff v (at_version u (f_bom f)))) as [j J].
  { intros _ c Hc. apply (file_components _ _ _ _ _ _ _ wf Hg v _ _ Hp Hf c Hc). }
  rewrite <- (move_kept u v). exact (written_converted v _ j (move_finite u v) J).
Qed.
Lemma move_only u v b' : converted v (at_version u (f_bom f)) b' -> b' = at_version v (f_bom f).
Proof. intros C. rewrite (converted_kept _ _ _ (move_finite u v) C). apply move_kept. Qed.
Lemma moves vs u : travelled vs (at_version u (f_bom f)) (at_version (last vs u) (f_bom f)).
Proof.
  revert u. induction vs as [|v vs IH]; intros u; [constructor|].
  apply (TGo v vs _ (at_version v (f_bom f))); [apply move_on|]. specialize (IH v).
  replace (last (v :: vs) u) with (last vs v); [exact IH|]. clear. revert v. induction vs as [|x vs IH]; intros v; [reflexivity|].
  cbn [last] in *. destruct vs; [reflexivity|]. apply IH.
Qed.
Lemma moves_only vs u b' : travelled vs (at_version u (f_bom f)) b' -> b' = at_version (last vs u) (f_bom f).
Proof.
  revert u. induction vs as [|v vs IH]; intros u T; inversion T as [|? ? ? b1 ? C T']; subst; [reflexivity|].
  apply move_only in C. subst b1. rewrite (IH v T'). f_equal. clear. revert v. induction vs as [|x vs IH]; intros v; [reflexivity|].
  cbn [last] in *. destruct vs; [reflexivity|]. apply IH.
Qed.
End Moving.
Lemma own_version b : at_version (b_spec_version b) b = b.
Proof. now destruct b. Qed.

(** [travelled vs b b'] (ChainSpec.v): [b] is saved as JSON and read in each version of [vs] in turn, the members in any
    order and by any reader; the end is [b'].  [at_version v b] is [b] with the version number [v].  No conversion
    fails, and nothing but the version number ever changes. *)
Theorem C96_same w fuel meta nodes cfg m g files f vs :
  well_formed meta nodes -> sbom_of w fuel meta cfg m g -> write_plan g = Done files -> In f files ->
  (exists b', travelled vs (f_bom f) b')
  /\ forall b', travelled vs (f_bom f) b' -> b' = at_version (last vs (b_spec_version (f_bom f))) (f_bom f).
Proof.
  intros wf Hg Hp Hf. split.
  - eexists. rewrite <- (own_version (f_bom f)) at 1. eapply moves; eauto.
  - intros b' T. rewrite <- (own_version (f_bom f)) in T at 1. eapply moves_only; eauto.
Qed.
(** and at the end it passes validation for every version, its own among them, under the conditions of C50 *)
Theorem C96_valid w x fuel meta nodes cfg m g files f vs b' :
  well_formed meta nodes -> sbom_of w fuel meta cfg m g ->
  (forall p n, In p (cm_packages meta) -> pk_id p <> sub_ref m n) -> same_libraries w x -> no_bom_links meta ->
  write_plan g = Done files -> In f files -> travelled vs (f_bom f) b' ->
  (forall v, passes x v b') /\ exists r, validate x b' = Done r /\ passed r = true.
Proof.
  intros wf Hg N S L Hp Hf T. destruct (C96_same w fuel meta nodes cfg m g files f vs wf Hg Hp Hf) as [_ E].
  rewrite (E b' T).
  assert (V : forall u v, valid_bom x v (at_version u (f_bom f))).
  { intros u v. change (valid_bom x v (f_bom f)). apply C25_passes_iff_valid.
    exact (C50_generated_sboms_are_valid w x fuel meta nodes cfg m g files f wf Hg N S L Hp Hf v). }
  split; [intros v; now apply C25_passes_iff_valid|]. apply C25_validate_uses_own_version. apply V.
Qed.

(** *** The example of C72, through 1.5 and 1.3 to 1.4 *)
Example C96_case : exists files f b', write_plan ex_gen = Done files /\ In f files
  /\ sbom_of ex_world 100 ex_meta ex_cfg ex_id_app ex_gen /\ well_formed ex_meta ex_nodes
  /\ same_libraries ex_world ex_parsers /\ no_bom_links ex_meta
  /\ (forall p n, In p (cm_packages ex_meta) -> pk_id p <> sub_ref ex_id_app n)
  /\ travelled [V1_5; V1_3; V1_4] (f_bom f) b' /\ b_spec_version b' = V1_4
  /\ map c_name (olist (b_components b')) = ["liba"; "libb"].
Proof.
  destruct C50_example as (A & B & C & _).
  eexists _, _, _. split; [vm_compute; reflexivity|]. split; [now left|]. split; [exact ex_sbom_of|]. split; [exact ex_wf|].
  split; [exact A|]. split; [exact B|]. split; [exact C|].
  split; [|split].
  - eapply gone. vm_compute. reflexivity.
  - reflexivity.
  - reflexivity.
Qed.

Print Assumptions C96_same.
Print Assumptions C96_valid.

(** Specification for C95: what has to be avoided so that a BOM that is valid for a version is valid for later ones. *)
From Coq Require Import List.
From Verif Require Import Base ModelTypes ValModel ValSpec.

Section Unmixed.
Variable w : spec_version.
(** in 1.5 a list of licenses has licenses only, or at most one expression *)
Definition unmixed (l : list license_choice) : Prop :=
  w = V1_5 -> (forall c, In c l -> exists k, c = LicLicense k) \/ List.length l <= 1.

(** every list of licenses in it is as version [w] wants it *)
Definition unmixed_pedigree (u : component -> Prop) (p : pedigree) : Prop :=
  every_in (pd_ancestors p) u /\ every_in (pd_descendants p) u /\ every_in (pd_variants p) u.
Fixpoint unmixed_component (c : component) : Prop :=
  when (c_licenses c) unmixed /\ when (c_evidence c) (fun e => when (ev_licenses e) unmixed)
  /\ when (c_pedigree c) (unmixed_pedigree unmixed_component) /\ every_in (c_components c) unmixed_component.
Fixpoint unmixed_service (s : service) : Prop :=
  when (s_licenses s) unmixed /\ every_in (s_services s) unmixed_service.
Definition unmixed_tools (t : tools) : Prop :=
  match t with TList _ => True | TObject ss cs => every_in cs unmixed_component /\ every_in ss unmixed_service end.
Definition unmixed_bom (b : bom) : Prop :=
  when (b_metadata b) (fun m => when (m_licenses m) unmixed /\ when (m_component m) unmixed_component /\ when (m_tools m) unmixed_tools)
  /\ every_in (b_components b) unmixed_component /\ every_in (b_services b) unmixed_service
  /\ every_in (b_vulnerabilities b) (fun u => when (v_tools u) unmixed_tools).
End Unmixed.

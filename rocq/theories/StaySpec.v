(** Specification for C94: what has to be avoided so that a valid BOM is still valid after it was saved as JSON and
    read. *)
From Verif Require Import Base ModelTypes Strings GenModel ValModel ValSpec ResaveSpec ChainSpec.
From Coq Require Import List.
Open Scope string_scope.

(** the checks, except that no URL that begins like a BOM-Link is a valid URL *)
Definition without_links (x : parsers) : parsers :=
  mkParsers (x_date_time x) (fun s => x_uri x s && negb (starts_with "urn:cdx" s)) (x_purl x) (x_spdx_id x) (x_spdx_expr x).

(** a dependency or a composition refers to a vulnerability, which no document of 1.3 has *)
Definition refers_to_vulnerability (b : bom) : Prop :=
  exists r u, (In r (dep_refs b) \/ In r (dep_targets b) \/ In r (comp_refs b))
    /\ In u (opt_list (b_vulnerabilities b)) /\ v_bom_ref u = Some r.

(** [b] can be saved in version [v] without becoming invalid:
    no name in it is misspelt when it is written (C60), no URL begins like a BOM-Link, and in 1.3 no reference is to a
    vulnerability. *)
Definition safe_to_save (x : parsers) (v : spec_version) (b : bom) : Prop :=
  valid_bom (without_links x) v b /\ respell_bom v b = at_version v b /\ (v = V1_3 -> ~ refers_to_vulnerability b).

(** Looking into a JSON document: what is found under which names, and where a written document may have a null (C81). *)
From Verif Require Import Base ModelTypes Json.
Open Scope string_scope.
Open Scope list_scope.

(** [found p j x]: following the names [p] from the top of [j], through any elements of lists, one comes to [x] *)
Inductive found : list string -> json -> json -> Prop :=
| found_here j : found [] j j
| found_member k x l p y : In (k, x) l -> found p x y -> found (k :: p) (JObj l) y
| found_element x l p y : In x l -> found p x y -> found p (JArr l) y.

(** The terms of a license that was bought *)
Definition licensing_names : list string :=
  ["altIds"; "licensor"; "licensee"; "purchaser"; "purchaseOrder"; "licenseTypes"; "lastRenewal"; "expiration"].
(** The places of a null: a score from 1.4 on; in 1.5 a confidence, and the terms of a license *)
Inductive hole : spec_version -> list string -> Prop :=
| hole_score v p : v <> V1_3 -> hole v (p ++ ["ratings"; "score"])
| hole_identity p : hole V1_5 (p ++ ["identity"; "confidence"])
| hole_method p : hole V1_5 (p ++ ["methods"; "confidence"])
| hole_terms p k : In k licensing_names -> hole V1_5 (p ++ ["licensing"; k]).
(** The terms of a license that are not known *)
Definition missing (x : licensing) (k : string) : Prop :=
  (k = "altIds" /\ lg_alt_ids x = None) \/ (k = "licensor" /\ lg_licensor x = None) \/ (k = "licensee" /\ lg_licensee x = None)
  \/ (k = "purchaser" /\ lg_purchaser x = None) \/ (k = "purchaseOrder" /\ lg_purchase_order x = None)
  \/ (k = "licenseTypes" /\ lg_license_types x = None) \/ (k = "lastRenewal" /\ lg_last_renewal x = None)
  \/ (k = "expiration" /\ lg_expiration x = None).

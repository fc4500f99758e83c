(** The order of the elements inside an element (C90) *)
From Verif Require Import Base ModelTypes Xml StrictSpec.
Open Scope string_scope.
Open Scope list_scope.

(** The elements of a place that are alternatives, or entries of one list: the order of these matters *)
Definition alternatives (p : place) : list string :=
  match p with
  | PSignature => ["signers"; "chain"]
  | PLicenseContact => ["organization"; "individual"]
  | PLicense => ["id"; "name"]
  | PLicenses => ["license"; "expression"]
  | PParty => ["organization"; "contact"]
  | PAnnotator => ["organization"; "individual"; "component"; "service"]
  | PVersion => ["version"; "range"]
  | PResource => ["ref"; "externalReference"]
  | PVariables => ["environmentVar"; "value"]
  | PInput | POutput => ["resource"; "environmentVars"; "data"]
  | _ => []
  end.

(** [swapped v p l l']: the content [l] of an element at the place [p], and [l'], the same with two neighbours exchanged somewhere
    in it: two expected elements of different names that are not alternatives. *)
Inductive swapped (v : spec_version) : place -> list xml -> list xml -> Prop :=
| swapped_here p before n ats kids n' ats' kids' after :
    within v p n <> None -> within v p n' <> None -> n <> n' ->
    ~ (In n (alternatives p) /\ In n' (alternatives p)) ->
    swapped v p (before ++ Elem n ats kids :: Elem n' ats' kids' :: after)
                (before ++ Elem n' ats' kids' :: Elem n ats kids :: after)
| swapped_below p before n ats kids kids' after q :
    within v p n = Some q -> swapped v q kids kids' ->
    swapped v p (before ++ Elem n ats kids :: after) (before ++ Elem n ats kids' :: after).
(** any number of them: any order of such elements *)
Inductive reordered (v : spec_version) (p : place) : list xml -> list xml -> Prop :=
| same_order l : reordered v p l l
| other_order l l' l'' : swapped v p l l' -> reordered v p l' l'' -> reordered v p l l''.

(** The queries of a validation result and the merging of results. *)
From Verif Require Import Base ModelTypes Strings ValModel.
Open Scope string_scope.
Open Scope list_scope.

(** cyclonedx-bom/src/validation.rs:92-94 *)
Definition has_error (r : vresult) (k : string) : bool := existsb (fun e => String.eqb (fst e) k) r.
(** cyclonedx-bom/src/validation.rs:97-99: the entries in the order of the map *)
Definition errors (r : vresult) : list (string * verr) := r.
(** cyclonedx-bom/src/validation.rs:45-56.  [IndexMap::insert] replaces the value of a name that is present and keeps its
    place; a new name goes to the end ([update]). *)
Definition merge (l : list vresult) : vresult :=
  fold_left (fun acc r => fold_left (fun acc e => update (fst e) (snd e) acc) r acc) l [].
(** cyclonedx-bom/src/validation.rs:365-371 with models/bom.rs:61-65: [validate] of everything but a BOM is for 1.3 *)
Definition validate_default {A} (f : spec_version -> A -> outcome vresult) (a : A) : outcome vresult := f V1_3 a.

(** The attributes that are read, place by place (C89) *)
From Verif Require Import Base ModelTypes Xml StrictSpec.
Open Scope string_scope.
Open Scope list_scope.

Section ATTRIBUTES.
Context (v : spec_version).
(** The attributes of an element at a place *)
Definition of_place (p : place) : list string :=
  match p with
  | PPointer | PDependency => ["ref"]
  | PAttachment => ["content-type"; "encoding"]
  | PExternalReference | PIssue | PPatch => ["type"]
  | PLicense | PComposition => if version_leb V1_5 v then ["bom-ref"] else []
  | PContact | PEntity | PComponentData | PModelCard | POccurrence | PService | PAnnotation | PVulnerability
  | PWorkspace | PTrigger | PTask | PWorkflow | PFormula => ["bom-ref"]
  | PSwid => ["tagId"; "name"; "version"; "tagVersion"; "patch"]
  | PComponent => ["type"; "mime-type"; "bom-ref"]
  | PDataflow => ["name"; "description"]
  | PBom => ["serialNumber"; "version"]
  | _ => []
  end.
(** ... of an element [n] found in a place *)
Definition attributes (p : place) (n : string) : list string :=
  match within v p n with
  | None => []
  | Some PWords =>
      match p with
      | Items _ _ _ => if String.eqb n "property" then ["name"] else if String.eqb n "hash" then ["alg"] else []
      | PLicenses => ["bom-ref"]                                                       (* expression *)
      | PLicense | PDiff | PSwid => if String.eqb n "text" then ["content-type"; "encoding"] else []
      | PData | PDataflow => if String.eqb n "classification" then ["flow"] else []
      | PVariables => if String.eqb n "environmentVar" then ["name"] else []
      | _ => []
      end
  | Some PToolRefs => if String.eqb n "tool" then ["ref"] else []
  | Some q => of_place q
  end.

(** The values given to an attribute.  Names are local names: the code does not look at prefixes, so [type] and [x:type] are two
    values of one attribute, and their order is kept. *)
Definition values (a : string) (ats : attrs) : list string := map snd (filter (fun x => String.eqb (fst x) a) ats).
Definition same_values (l : list string) (ats ats' : attrs) : Prop := forall a, In a l -> values a ats = values a ats'.

(** [changed v p l l']: the content [l] of an element at the place [p], and [l'], the same with other attributes somewhere in it: at
    an element that is expected there, those that are not read may be added, changed, left out, and all of them put in another order;
    at other elements any, except directly inside signatures. *)
Inductive changed : place -> list xml -> list xml -> Prop :=
| changed_here p before n ats ats' kids after q :
    within v p n = Some q -> same_values (attributes p n) ats ats' ->
    changed p (before ++ Elem n ats kids :: after) (before ++ Elem n ats' kids :: after)
| changed_other p before n ats ats' kids after :
    within v p n = None -> fst (content v p) <> Signed ->
    changed p (before ++ Elem n ats kids :: after) (before ++ Elem n ats' kids :: after)
| changed_below p before n ats kids kids' after q :
    within v p n = Some q -> changed q kids kids' ->
    changed p (before ++ Elem n ats kids :: after) (before ++ Elem n ats kids' :: after).
(** any number of them *)
Inductive all_changed (p : place) : list xml -> list xml -> Prop :=
| changed_none l : all_changed p l l
| changed_more l l' l'' : changed p l l' -> all_changed p l' l'' -> all_changed p l l''.
End ATTRIBUTES.

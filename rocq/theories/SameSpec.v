(** When two JSON documents say the same (C58): what a reader of the grammar in GrammarSpec.v may overlook.
    This file does not refer to the readers. *)
From Verif Require Import Base ModelTypes Json GrammarSpec.
Open Scope string_scope.
Open Scope list_scope.
Open Scope bool_scope.

(** the values of the members named [k], in order *)
Definition values (k : string) (l : list (string * json)) : list json :=
  map snd (filter (fun m => String.eqb k (fst m)) l).
(** the element of an array at the place of [k] *)
Fixpoint at_place (k : string) (ks : list string) (l : list json) : list json :=
  match ks, l with
  | k' :: ks', x :: l' => if String.eqb k k' then [x] else at_place k ks' l'
  | _, _ => []
  end.
(** two objects, two arrays of one length, or an object and an array with a value for every member *)
Definition shapes (fs : list entry) (j j' : json) : Prop :=
  match j, j' with
  | JObj _, JObj _ => True
  | JArr l, JArr l' => List.length l = List.length l'
  | JArr l, JObj _ | JObj _, JArr l => List.length l = List.length fs
  | _, _ => False
  end.
Definition values_in (fs : list entry) (j : json) (k : string) : list json :=
  match j with
  | JObj l => values k l
  | JArr l => at_place k (map fst fs) l
  | _ => []
  end.
(** [null] for a member that may be missing is the same as no member *)
Definition present (p : presence) (a : list json) : list json :=
  match p, a with Optional, [JNull] => [] | _, _ => a end.
Definition agree (p : presence) (R : json -> json -> Prop) (a b : list json) : Prop :=
  Forall2 R (present p a) (present p b).

Section SAME.
Variable G : string -> kind.
(** neither is a value of the kind: then neither of the documents is read *)
Definition neither (t : kind) (j j' : json) : Prop := fits G j t = false /\ fits G j' t = false.
(** [j] and [j'], read as values of a kind, say the same: members of other names do not matter, nor does the order
    of members, nor whether a member that may be missing is missing or [null], nor whether a struct is an
    object or an array, all of this at any depth *)
Inductive same : kind -> json -> json -> Prop :=
| same_refl t j : same t j j
| same_named s j j' : same (G s) j j' -> same (Named s) j j'
| same_list t l l' : Forall2 (fun x x' => same t x x' \/ neither t x x') l l' -> same (ListOf t) (JArr l) (JArr l')
| same_object fs l l' :
    (forall k p t, In (k, (p, t)) fs ->
       agree p (fun x x' => same t x x' \/ neither t x x') (values k l) (values k l')) ->
    same (Object fs) (JObj l) (JObj l')
| same_struct fs j j' : shapes fs j j' ->
    (forall k p t, In (k, (p, t)) fs ->
       agree p (fun x x' => same t x x' \/ neither t x x') (values_in fs j k) (values_in fs j' k)) ->
    same (Struct fs) j j'
| same_tagged vs k t x x' : named k vs = Some t -> same t x x' \/ neither t x x' ->
    same (Tagged vs) (JObj [(k, x)]) (JObj [(k, x')])
| same_first ks t l l' k x x' :
    find (fun m => among (fst m) ks) l = Some (k, x) -> find (fun m => among (fst m) ks) l' = Some (k, x') ->
    same t x x' \/ neither t x x' -> same (FirstMember ks t) (JObj l) (JObj l')
| same_one_of ks j j' : (forall t, In t ks -> same t j j' \/ neither t j j') -> same (OneOf ks) j j'
| same_both a b j j' : same a j j' -> same b j j' -> same (Both a b) j j'.
End SAME.

(** the same BOM in version [v] *)
Definition same_bom (v : spec_version) : json -> json -> Prop := same (kind_of v) (Named "bom").

(** ** Where the order of members matters
    The first of several members decides in two places: between "id" and "name" in a license, and between "version",
    "range" and "undefinedVersionRange" in an affected version. *)
Fixpoint parts (j : json) : list json :=
  j :: match j with
       | JArr l => flat_map parts l
       | JObj l => flat_map (fun m => parts (snd m)) l
       | _ => []
       end.
Definition two_of (ks : list string) (l : list (string * json)) : Prop :=
  2 <= List.length (filter (fun m => among (fst m) ks) l).
Definition orderly (j : json) : Prop :=
  (forall l, In (JObj l) (parts j) -> ~ two_of ["version"; "range"; "undefinedVersionRange"] l) /\
  (forall l m, In (JObj l) (parts j) -> In ("license", JObj m) l -> ~ two_of ["id"; "name"] m).

(** What [#[versioned]] is to generate, without reference to how: every token of the module has conditions on the
    version, those of the elements around it; the module of a version has the tokens whose conditions it meets. *)
From Verif Require Import Base Strings VersionedModel.
Open Scope string_scope.
Open Scope list_scope.

Inductive condition := Within (vs : list version) | NotWithin (vs : list version).
Definition meets (v : version) (c : condition) : Prop :=
  match c with Within vs => In v vs | NotWithin vs => ~ In v vs end.

(** The versions an element is limited to: what its last [versioned] attribute lists *)
Fixpoint limit (ats : list attr) : option (list version) :=
  match ats with
  | [] => None
  | Versioned args _ :: ats' => match limit ats' with Some vs => Some vs | None => parse_req args end
  | OtherAttr _ :: ats' => limit ats'
  end.
Definition own_tokens (ats : list attr) : list string :=
  flat_map (fun a => match a with Versioned _ _ => [] | OtherAttr t => t end) ats.
Definition under (cs : list condition) (ts : list string) : list (list condition * string) := map (pair cs) ts.

(** The tokens of an element with their conditions.  Where an expression is left out an empty block takes its place. *)
Fixpoint tagged (cs : list condition) (n : node) : list (list condition * string) :=
  match n with
  | Node k ats pre kids post =>
      let inner := match limit ats with Some vs => Within vs :: cs | None => cs end in
      under inner (own_tokens ats ++ pre)
      ++ flat_map (tagged inner) kids
      ++ under inner post
      ++ match k, limit ats with
         | KExpr, Some vs => under (NotWithin vs :: cs) ["{"; "}"]
         | _, _ => []
         end
  end.
(** [selection v tagged tokens]: the tokens whose conditions [v] meets, in order *)
Inductive selection (v : version) : list (list condition * string) -> list string -> Prop :=
| sel_none : selection v [] []
| sel_take cs t l r : Forall (meets v) cs -> selection v l r -> selection v ((cs, t) :: l) (t :: r)
| sel_leave cs t l r : ~ Forall (meets v) cs -> selection v l r -> selection v ((cs, t) :: l) r.

(** The attribute occurs only on elements the macro looks at: items, fields, variants, match arms, fields of
    struct expressions, [let] and macro statements, expressions.  Not inside the type of a field. *)
Definition unmarked (a : attr) : bool := match a with Versioned _ _ => false | OtherAttr _ => true end.
Fixpoint unversioned (n : node) : bool :=
  match n with Node _ ats _ kids _ => forallb unmarked ats && forallb unversioned kids end.
Fixpoint placed (n : node) : bool :=
  match n with
  | Node KPlain ats _ kids _ => forallb unmarked ats && forallb placed kids
  | Node KField _ _ kids _ => forallb unversioned kids
  | Node KExpr ats _ kids _ => forallb placed kids
  | Node _ _ _ kids _ => forallb placed kids
  end.

(** The malformed attributes: the conditions under which the macro comes across them *)
Definition malformed (a : attr) : bool :=
  match a with Versioned args _ => match parse_req args with None => true | Some _ => false end | OtherAttr _ => false end.
Fixpoint flaws (cs : list condition) (n : node) : list (list condition) :=
  match n with
  | Node k ats _ kids _ =>
      let inner := match limit ats with Some vs => Within vs :: cs | None => cs end in
      (if existsb malformed ats then [cs] else []) ++ flat_map (flaws inner) kids
  end.

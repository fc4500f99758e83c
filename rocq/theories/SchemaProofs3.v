(** The JSON form of valid, tame values conforms to the schema: metadata, dependencies, compositions,
    annotations and vulnerabilities. *)
From Verif Require Import Base ModelTypes Strings Regex Enums Json JsonModel JsonProofs JsonProofs2 JsonProofs4 JsonSpec Schema SchemaText SchemaLemmas ValModel ValSpec ValProofs SchemaSpec SchemaProofs SchemaProofs2.
From Coq Require Import ZArith Lia.
Open Scope string_scope.
Open Scope list_scope.

(** one of several alternatives told apart by the members, in any order *)
Ltac required_many :=
  match goal with |- meets _ _ (KOneOf _) _ => idtac end;
  first [ apply (meets_one _ _ 0); split; [solve [has_required]|foralls; no_required]
        | apply (meets_one _ _ 1); split; [no_required|split; [solve [has_required]|foralls; no_required]]
        | apply (meets_one _ _ 2); split; [no_required|split; [no_required|split; [solve [has_required]|foralls; no_required]]]
        | apply (meets_one _ _ 3); split; [no_required|split; [no_required|split; [no_required|split; [solve [has_required]|foralls; no_required]]]] ].

Section Conform.
Variable x : parsers.
Variable fmt : string -> string -> bool.
Hypothesis FA : formats_agree x fmt.
Notation ok v := (conforms fmt (schema_definitions v)).
Notation named r := (Sch [KRef r]).

Lemma versioned_14 c : versioned V1_4 c.
Proof. intros d _ E. discriminate. Qed.
Lemma versioned_15 c : versioned V1_5 c.
Proof. intros d _ E. discriminate. Qed.
Hint Resolve versioned_14 versioned_15 : sch.
Lemma tame_components_each v l c : tame_components x fmt v l -> In c l -> tame_component x fmt v c.
Proof. intros [H _]. apply every_elim, H. Qed.
Lemma tame_components_once v l : tame_components x fmt v l -> all_different (map (to_json_component v) l) = true.
Proof. intros [_ H]. exact H. Qed.
Lemma tame_services_each v l c : tame_services fmt v l -> In c l -> tame_service fmt v c.
Proof. intros [H _]. apply every_elim, H. Qed.
Lemma tame_services_once v l : tame_services fmt v l -> all_different (map (to_json_service v) l) = true.
Proof. intros [_ H]. exact H. Qed.
Hint Resolve tame_components_each tame_components_once tame_services_each tame_services_once : sch.

(** ** Tools and metadata *)
Lemma ok_tool v t : valid_tool x v t -> tame_tool fmt v t -> ok v (named "tool") (to_json_tool v t).
Proof. unfold valid_tool, tame_tool. intros. unfold to_json_tool. destruct v; open_hyps; go. Qed.
Hint Resolve ok_tool : sch.
Lemma ok_tools_old v t : v <> V1_5 -> valid_tools x v t -> tame_tools x fmt v t ->
  ok v (Sch [KType Ty_array; KItems (named "tool")]) (to_json_tools v t).
Proof.
  intros N V T. destruct t as [l|s c]; cbn in V, T; [|destruct V; contradiction]. open_hyps. unfold to_json_tools.
  apply conforms_intro. foralls; [kw|]. apply meets_arr. intros t I. apply ok_tool; auto.
Qed.
Lemma ok_tools_13 t : valid_tools x V1_3 t -> tame_tools x fmt V1_3 t ->
  ok V1_3 (Sch [KType Ty_array; KItems (named "tool")]) (to_json_tools V1_3 t).
Proof. apply ok_tools_old. discriminate. Qed.
Lemma ok_tools_14 t : valid_tools x V1_4 t -> tame_tools x fmt V1_4 t ->
  ok V1_4 (Sch [KType Ty_array; KItems (named "tool")]) (to_json_tools V1_4 t).
Proof. apply ok_tools_old. discriminate. Qed.
Lemma ok_tools_15 t : valid_tools x V1_5 t -> tame_tools x fmt V1_5 t ->
  meets fmt (schema_definitions V1_5) (KOneOf [Sch [KType Ty_object; KOnly ["components"; "services"]; KProperties
     [("components", Sch [KType Ty_array; KItems (named "component"); KUnique]);
      ("services", Sch [KType Ty_array; KItems (named "service"); KUnique])]];
     Sch [KType Ty_array; KItems (named "tool")]]) (to_json_tools V1_5 t).
Proof.
  intros V T. destruct t as [l|s c]; cbn in V, T.
  - open_hyps. apply (meets_one _ _ 1). split; [|split; [|constructor]].
    + eapply violates_intro; [left; reflexivity|]. apply fails_type. reflexivity.
    + unfold to_json_tools. go.
  - destruct V as [_ [Vc Vs]], T as [Ts Tc]. open_hyps. apply (meets_one _ _ 0). split.
    + unfold to_json_tools. cbn [since version_leb]. go.
    + foralls. eapply violates_intro; [left; reflexivity|]. apply fails_type. reflexivity.
Qed.
Hint Resolve ok_tools_13 ok_tools_14 ok_tools_15 : sch.

Definition lifecycle_schema : schema := match sub "lifecycles" s15_metadata with
  | Sch [_; KItems s] => s | s => s end.
Lemma ok_lifecycle l : tame_lifecycle l -> ok V1_5 lifecycle_schema (to_json_lifecycle l).
Proof.
  intros T. reduce_schema. destruct l as [p|n d]; cbn in T; unfold to_json_lifecycle, jtext.
  - change (JObj [("phase", JStr (text_phase p))]) with (obj [("phase", Some (JStr (text_phase p)))]).
    apply conforms_intro. foralls; [kw|]. apply (meets_one _ _ 0). split; [go|].
    foralls. no_required.
  - apply conforms_intro. foralls; [kw|]. apply (meets_one _ _ 1). split; [no_required|]. split; [go|constructor].
Qed.
Hint Extern 1 (conforms _ _ _ (to_json_lifecycle _)) => apply ok_lifecycle : sch.
Lemma lifecycles_each l a : every tame_lifecycle l -> In a l -> tame_lifecycle a.
Proof. intros H. exact (every_elim _ _ H a). Qed.
Hint Resolve lifecycles_each : sch.

Lemma ok_metadata v m : (forall c, m_component m = Some c -> versioned v c) ->
  valid_metadata x v m -> tame_metadata x fmt v m -> ok v (named "metadata") (to_json_metadata v m).
Proof.
  unfold valid_metadata, tame_metadata. intros. unfold to_json_metadata. destruct v; open_hyps; go.
  apply ok_tools_15; auto.
Qed.
Hint Resolve ok_metadata : sch.

(** ** Dependencies, compositions, annotations *)
Lemma ok_dependency v d : tame_dependency v d -> ok v (named "dependency") (to_json_dependency d).
Proof.
  unfold tame_dependency. intros [R D]. unfold to_json_dependency.
  assert (E : match d_dependencies d with [] => None | l => Some (arr JStr l) end
              = opt (arr JStr) (match d_dependencies d with [] => None | l => Some l end))
    by (destruct (d_dependencies d); reflexivity).
  rewrite E. clear E.
  assert (D' : forall l, match d_dependencies d with [] => None | l => Some l end = Some l -> tame_refs v l).
  { intros l Q. destruct (d_dependencies d); [discriminate|]. injection Q as <-. exact D. }
  clear D. destruct v; go.
Qed.
Hint Resolve ok_dependency : sch.

Lemma ok_composition v c : tame_composition v c -> ok v (named "compositions") (to_json_composition v c).
Proof.
  unfold tame_composition, aggregate_in. intros. unfold to_json_composition, jtext. destruct v; open_hyps; go.
Qed.
Hint Resolve ok_composition : sch.

Lemma ok_annotator a : valid_annotator x V1_5 a -> tame_annotator x fmt V1_5 a ->
  ok V1_5 (sub "annotator" s15_annotations) (to_json_annotator V1_5 a).
Proof.
  intros V T. destruct a as [o|c|c|s]; cbn in V, T; unfold to_json_annotator;
    match goal with |- conforms _ _ _ (JObj [(?k, ?j)]) => change (JObj [(k, j)]) with (obj [(k, Some j)]) end;
    go; required_many.
Qed.
Hint Extern 1 (conforms _ _ _ (to_json_annotator _ _)) => apply ok_annotator : sch.
Lemma ok_annotation a : tame_annotation x fmt V1_5 a -> ok V1_5 (named "annotations") (to_json_annotation V1_5 a).
Proof.
  unfold tame_annotation, valid_annotation. intros. unfold to_json_annotation. open_hyps. go.
Qed.
Hint Resolve ok_annotation : sch.
End Conform.

#[global] Hint Resolve versioned_14 versioned_15 tame_components_each tame_components_once tame_services_each
  tame_services_once ok_tool ok_tools_13 ok_tools_14 ok_tools_15 ok_metadata ok_dependency ok_composition
  ok_annotation : sch.

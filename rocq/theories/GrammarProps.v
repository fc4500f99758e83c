(** C56: the JSON documents that are read are exactly those of the grammar in GrammarSpec.v *)
From Coq Require Import ZArith.
From Verif Require Import Base ModelTypes Strings Enums GenModel Json JsonLemmas JsonModel JsonProps GrammarSpec GrammarProofs.
Open Scope string_scope.
Open Scope list_scope.
Open Scope bool_scope.

(** a BOM of this version of the grammar *)
Definition a_bom (v : spec_version) (j : json) : Prop := fits (kind_of v) j (Named "bom") = true.

Lemma deserialize_fits v j : (exists b, deserialize v j = Done b) <-> a_bom v j.
Proof.
  unfold a_bom, deserialize. rewrite <- acc_bom. destruct (of_json_bom v j) as [b|]; cbn [ok]; split; try discriminate; eauto.
  intros [b H]. discriminate H.
Qed.

(** Reading with a given version *)
Theorem C56_read_with_version v j : (exists b, parse_from_json_with_version v j = Done b) <-> a_bom v j.
Proof. apply deserialize_fits. Qed.
(** Reading a value: of several members of one name only the last is left, see Json.to_value *)
Theorem C56_read_value_with_version v j : (exists b, parse_from_json_value_version v j = Done b) <-> a_bom v (to_value j).
Proof. apply deserialize_fits. Qed.
(** Reading with the version the document declares *)
Theorem C56_read_as_declared j :
  (exists b, parse_from_json j = Done b) <->
  (exists l v, j = JObj l /\ last_named "specVersion" l = Some (JStr (version_text v)) /\ a_bom v (to_value j)).
Proof.
  split.
  - intros [b H]. destruct j as [| | | | |l|l]; try discriminate H.
    destruct (last_named "specVersion" l) as [y|] eqn:N.
    2: { destruct (C44_otherwise_rejected (JObj l)) as [m E]; [|now rewrite E in H].
         intros l' s [= <-] K. now rewrite N in K. }
    destruct y as [| | | |s|ya|yl];
      try (destruct (C44_otherwise_rejected (JObj l)) as [m E]; [|now rewrite E in H];
           intros l' s [= <-] K; now rewrite N in K).
    assert (V : exists v, s = version_text v).
    { destruct (String.eqb_spec s "1.3") as [->|N3]; [now exists V1_3|].
      destruct (String.eqb_spec s "1.4") as [->|N4]; [now exists V1_4|].
      destruct (String.eqb_spec s "1.5") as [->|N5]; [now exists V1_5|].
      exfalso. destruct (C44_otherwise_rejected (JObj l)) as [m E]; [|now rewrite E in H].
      intros l' s' [= <-] K. rewrite N in K. injection K as <-. auto. }
    destruct V as [v ->]. exists l, v. repeat split; auto.
    rewrite (C44_declared_version_selects l v N) in H. apply C56_read_value_with_version. eauto.
  - intros (l & v & -> & N & B). rewrite (C44_declared_version_selects l v N). now apply C56_read_value_with_version.
Qed.

(** What the grammar says, in terms of members: an object with the members of an entry *)
Theorem C56_members G l fs : 
  fits G (JObj l) (Struct fs) = true <->
  (forall k p t, In (k, (p, t)) fs ->
     List.length (filter (fun m => String.eqb k (fst m)) l) <= 1 /\
     (p = Required -> exists x, In (k, x) l) /\
     (forall x, In (k, x) l -> (p = Optional /\ x = JNull) \/ fits G x t = true))%nat.
Proof.
  assert (M : forall test absent k, (List.length (filter (fun m => String.eqb k (fst m)) l) <= 1)%nat ->
     member k test absent l = true <-> ((forall x, In (k, x) l -> test x = true) /\ (absent = true \/ exists x, In (k, x) l))).
  { intros test absent k. induction l as [|[k' x] l' IH]; cbn [filter fst member List.length].
    - intros _. split; [intros ->; split; [intros ? []|auto]|intros [_ [H|[? []]]]; auto].
    - destruct (String.eqb_spec k k') as [->|N]; cbn [List.length]; intros L.
      + split.
        * intros T. split; [|right; exists x; now left].
          intros y [[= ->]|Hy]; auto. exfalso.
          assert (0 < List.length (filter (fun m : string * json => String.eqb k' (fst m)) l'))%nat; [|lia].
          clear -Hy. induction l' as [|[k x'] l' IH]; [destruct Hy|]. cbn [filter fst]. destruct Hy as [[= -> ->]|Hy].
          -- rewrite String.eqb_refl. cbn. lia.
          -- specialize (IH Hy). destruct (String.eqb k' k); cbn [List.length]; lia.
        * intros [A _]. apply A. now left.
      + rewrite (IH L). split; intros [A B]; (split; [intros y Hy|destruct B as [B|[y B]]; [now left|right]]).
        * destruct Hy as [[= K _]|Hy]; [congruence|auto].
        * exists y. now right.
        * apply A. now right.
        * destruct B as [[= K _]|B]; [congruence|eauto]. }
  assert (V : forall p t x, value p (fun x => fits G x t) x = true <-> (p = Optional /\ x = JNull) \/ fits G x t = true).
  { intros p t x. destruct p, x; cbn [value]; intuition (try discriminate); auto. }
  change (fits G (JObj l) (Struct fs)) with
    (forallb (fun f : entry => match f with (k, (p, t)) =>
       at_most_once k l && member k (value p (fun x => fits G x t)) (may_be_missing p) l end) fs).
  rewrite forallb_forall. split.
  - intros H k p t I. specialize (H _ I). cbn in H. apply andb_true_iff in H. destruct H as [O H].
    apply Nat.leb_le in O. apply M in H; auto. destruct H as [T A]. split; [auto|]. split.
    + intros ->. destruct A as [A|A]; [discriminate|auto].
    + intros x X. apply V. auto.
  - intros H [k [p t]] I. destruct (H k p t I) as (O & R & T). apply andb_true_iff. split; [now apply Nat.leb_le|].
    apply M; auto. split; [intros x X; apply V; auto|].
    destruct p; [right; auto|now left|now left].
Qed.

(** ** Examples *)
Definition component_with (l : list (string * json)) : json := JObj (("type", JStr "library") :: l).
Definition document (v : string) (cs : list json) : json :=
  JObj [("bomFormat", JStr "CycloneDX"); ("specVersion", JStr v); ("version", JInt 1); ("note", JArr [JNull]);
        ("components", JArr cs)].
Example C56_case_read : exists b,
  parse_from_json (document "1.4" [component_with [("name", JStr "a"); ("version", JNull);
    ("components", JArr [JArr (map (fun o => match o with Some s => JStr s | None => JNull end)
       ([Some "file"; None; None; None; None; None; None; Some "b"] ++ repeat None 16))])]]) = Done b /\
  map c_name (match b_components b with Some l => l | None => [] end) = ["a"] /\
  a_bom V1_4 (to_value (document "1.4" [component_with [("name", JStr "a")]])).
Proof. eexists. split; [vm_compute; reflexivity|]. split; vm_compute; reflexivity. Qed.
(* a nested component without a name; one without a version, which 1.3 requires; a name that is null; a repeated name *)
Example C56_case_refused : forall b,
  parse_from_json (document "1.4" [component_with [("name", JStr "a"); ("components", JArr [component_with []])]]) <> Done b /\
  parse_from_json (document "1.3" [component_with [("name", JStr "a")]]) <> Done b /\
  parse_from_json (document "1.4" [component_with [("name", JNull)]]) <> Done b /\
  parse_from_json_with_version V1_4 (document "1.4" [component_with [("name", JStr "a"); ("name", JStr "a")]]) <> Done b.
Proof.
  intros b. repeat split; intros H.
  1-3: assert (E : exists b, parse_from_json _ = Done b) by (eexists; exact H);
    apply C56_read_as_declared in E; destruct E as (l & v & [= <-] & L & B); destruct v; try discriminate L; discriminate B.
  assert (E : exists b, parse_from_json_with_version V1_4 _ = Done b) by (eexists; exact H).
  apply C56_read_with_version in E. discriminate E.
Qed.
(* every name the grammar mentions has a kind *)
Fixpoint mentioned (t : kind) : list string :=
  let all := (fix all (l : list (string * (presence * kind))) :=
                match l with [] => [] | (_, (_, t)) :: l' => mentioned t ++ all l' end) in
  match t with
  | Named s => [s]
  | ListOf t | FirstMember _ t => mentioned t
  | Object fs | Struct fs => all fs
  | Tagged vs => (fix all (l : list (string * kind)) := match l with [] => [] | (_, t) :: l' => mentioned t ++ all l' end) vs
  | OneOf ks => (fix all (l : list kind) := match l with [] => [] | t :: l' => mentioned t ++ all l' end) ks
  | Both a b => mentioned a ++ mentioned b
  | _ => []
  end.
Example C56_grammar_closed :
  forallb (fun v => forallb (fun p => forallb (fun s => among s (map fst (grammar v))) (mentioned (snd p))) (grammar v))
    [V1_3; V1_4; V1_5] = true.
Proof. vm_compute. reflexivity. Qed.

Print Assumptions C56_read_with_version.
Print Assumptions C56_read_value_with_version.
Print Assumptions C56_read_as_declared.
Print Assumptions C56_members.

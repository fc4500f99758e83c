(** C58: documents that say the same are read alike *)
From Coq Require Import ZArith Permutation.
From Verif Require Import Base ModelTypes Strings Enums GenModel Json JsonLemmas JsonModel JsonProps
  GrammarSpec GrammarProofs SameSpec SameProofs SameOrder.
Open Scope string_scope.
Open Scope list_scope.
Open Scope bool_scope.

Theorem C58_read_alike v j j' : same_bom v j j' ->
  parse_from_json_with_version v j = parse_from_json_with_version v j'.
Proof.
  intros H. unfold parse_from_json_with_version, deserialize. now rewrite (same_bom_ v j j' H).
Qed.
(** of values, see Json.to_value *)
Theorem C58_values_read_alike v j j' : same_bom v (to_value j) (to_value j') ->
  parse_from_json_value_version v j = parse_from_json_value_version v j'.
Proof.
  intros H. unfold parse_from_json_value_version, deserialize. now rewrite (same_bom_ v _ _ H).
Qed.
Theorem C58_read_alike_as_declared v l l' :
  last_named "specVersion" l = Some (JStr (version_text v)) -> last_named "specVersion" l' = Some (JStr (version_text v)) ->
  same_bom v (to_value (JObj l)) (to_value (JObj l')) -> parse_from_json (JObj l) = parse_from_json (JObj l').
Proof.
  intros D D' H. rewrite (C44_declared_version_selects l v D), (C44_declared_version_selects l' v D').
  now apply C58_values_read_alike.
Qed.

(** Documents that differ in the order of members only, at any depth (see JsonLemmas.like and JsonLemmas.plain) *)
Theorem C58_order_of_members v j j' : plain j -> orderly j -> like j j' ->
  parse_from_json_with_version v j = parse_from_json_with_version v j'.
Proof.
  intros P O L. unfold parse_from_json_with_version, deserialize.
  rewrite (either_read (kind_of v) (of_json_bom v) (Named "bom") j j'); auto using acc_bom, same_bom_.
  apply (order_alike v (S (size j))); [lia|split; auto|left; reflexivity].
Qed.
(** The two entry points read a document that declares its version alike *)
Theorem C58_entry_points_agree v l : last_named "specVersion" l = Some (JStr (version_text v)) ->
  plain (JObj l) -> orderly (JObj l) -> parse_from_json (JObj l) = parse_from_json_with_version v (JObj l).
Proof.
  intros D P O. rewrite (C44_declared_version_selects l v D).
  rewrite (C58_order_of_members v (JObj l) (to_value (JObj l)) P O (like_to_value _ P)). reflexivity.
Qed.

(** ** What [same] allows, for every object of the grammar *)
Section ALLOWED.
Variable G : string -> kind.
Variable fs : list entry.
Lemma values_app k l1 l2 : values k (l1 ++ l2) = values k l1 ++ values k l2.
Proof. unfold values. now rewrite filter_app, map_app. Qed.
Lemma agree_refl p t a : agree p (fun x x' => same G t x x' \/ neither G t x x') a a.
Proof. unfold agree. induction (present p a); constructor; auto. left. apply same_refl. Qed.
Lemma not_a_key k p t k0 : ~ In k0 (map fst fs) -> In (k, (p, t)) fs -> String.eqb k k0 = false.
Proof. intros N H. apply String.eqb_neq. intros <-. apply N. apply in_map_iff. now exists (k, (p, t)). Qed.

(** a member of a name the object does not have *)
Theorem C58_unknown_member k0 x l1 l2 : ~ In k0 (map fst fs) ->
  same G (Struct fs) (JObj (l1 ++ l2)) (JObj (l1 ++ (k0, x) :: l2)) /\
  same G (Object fs) (JObj (l1 ++ l2)) (JObj (l1 ++ (k0, x) :: l2)).
Proof.
  intros N.
  assert (V : forall k p t, In (k, (p, t)) fs -> agree p (fun x x' => same G t x x' \/ neither G t x x') (values k (l1 ++ l2)) (values k (l1 ++ (k0, x) :: l2))).
  { intros k p t H. replace (values k (l1 ++ (k0, x) :: l2)) with (values k (l1 ++ l2)); [apply agree_refl|].
    rewrite !values_app. f_equal. unfold values. cbn [filter fst]. now rewrite (not_a_key k p t k0 N H). }
  split; [apply same_struct; [exact Logic.I|exact V]|apply same_object; exact V].
Qed.
(** members in another order *)
Theorem C58_member_order l l' : NoDup (map fst l) -> Permutation l l' ->
  same G (Struct fs) (JObj l) (JObj l') /\ same G (Object fs) (JObj l) (JObj l').
Proof.
  intros N P.
  assert (V : forall k p t, In (k, (p, t)) fs -> agree p (fun x x' => same G t x x' \/ neither G t x x') (values k l) (values k l')).
  { intros k p t _. rewrite (values_permuted k l l' N P). apply agree_refl. }
  split; [apply same_struct; [exact Logic.I|exact V]|apply same_object; exact V].
Qed.
(** [null] for a member that may be missing *)
Theorem C58_null_member k0 t0 l1 l2 : In (k0, (Optional, t0)) fs -> NoDup (map fst fs) -> ~ In k0 (map fst (l1 ++ l2)) ->
  same G (Struct fs) (JObj (l1 ++ l2)) (JObj (l1 ++ (k0, JNull) :: l2)) /\
  same G (Object fs) (JObj (l1 ++ l2)) (JObj (l1 ++ (k0, JNull) :: l2)).
Proof.
  intros I N A.
  assert (V : forall k p t, In (k, (p, t)) fs -> agree p (fun x x' => same G t x x' \/ neither G t x x') (values k (l1 ++ l2)) (values k (l1 ++ (k0, JNull) :: l2))).
  { intros k p t H. destruct (string_dec k k0) as [->|D].
    - assert (E : p = Optional).
      { clear A. induction fs as [|f l IH]; [destruct I|]. inversion N as [|? ? N1 N2]; subst. destruct I as [->|I], H as [H|H].
        - now injection H.
        - exfalso. apply N1. apply in_map_iff. now exists (k0, (p, t)).
        - exfalso. apply N1. subst f. apply in_map_iff. now exists (k0, (Optional, t0)).
        - auto. }
      subst p. assert (Z : forall m : list (string * json), ~ In k0 (map fst m) -> values k0 m = []).
      { clear. intros m H. unfold values. induction m as [|y m IH]; [reflexivity|]. cbn [filter].
        destruct (String.eqb_spec k0 (fst y)) as [E|]; [exfalso; apply H; left; now symmetry|]. apply IH. intros K. apply H. now right. }
      rewrite map_app, in_app_iff in A. rewrite !values_app, !Z by tauto. unfold values at 1. cbn [filter fst]. rewrite String.eqb_refl.
      cbn [map snd]. change (map snd (filter (fun m => String.eqb k0 (fst m)) l2)) with (values k0 l2). rewrite Z by tauto. constructor.
    - replace (values k (l1 ++ (k0, JNull) :: l2)) with (values k (l1 ++ l2)); [apply agree_refl|].
      rewrite !values_app. f_equal. unfold values. cbn [filter fst]. apply String.eqb_neq in D. now rewrite D. }
  split; [apply same_struct; [exact Logic.I|exact V]|apply same_object; exact V].
Qed.
(** an array of the values in the order of the members *)
Theorem C58_array_form l : NoDup (map fst fs) -> List.length l = List.length fs ->
  same G (Struct fs) (JArr l) (JObj (combine (map fst fs) l)).
Proof.
  intros N L. apply same_struct; [exact L|]. intros k p t H.
  replace (values_in fs (JObj (combine (map fst fs) l)) k) with (values_in fs (JArr l) k); [apply agree_refl|].
  cbn [values_in]. clear p t H. assert (L' : List.length l = List.length (map fst fs)) by (rewrite map_length; exact L). clear L. rename L' into L. revert l L. induction (map fst fs) as [|k' ks IH]; intros l L.
  - destruct l; reflexivity.
  - destruct l as [|x l]; [discriminate|]. cbn [at_place combine]. inversion N as [|? ? N1 N2]; subst. unfold values. cbn [filter fst].
    destruct (String.eqb_spec k k') as [->|]; [|apply IH; auto].
    cbn [map snd]. f_equal. symmetry. clear -N1.
    revert l. induction ks as [|k ks IH]; intros l; [reflexivity|]. destruct l as [|x l]; [reflexivity|].
    cbn [combine filter fst]. destruct (String.eqb_spec k' k) as [->|]; [exfalso; apply N1; now left|].
    apply IH. intros H. apply N1. now right.
Qed.
End ALLOWED.

(** ** Example: unknown members, another order, a [null] and an array, at several depths *)
Ltac say :=
  lazymatch goal with
  | |- same _ _ ?j ?j => apply same_refl
  | |- same ?G (Named ?s) _ _ => apply same_named; let t := eval lazy in (G s) in change (G s) with t; say
  | |- same _ (ListOf _) _ _ => apply same_list; say
  | |- same _ (Struct _) _ _ =>
      apply same_struct; [exact Logic.I || reflexivity|];
      let H := fresh in intros ? ? ? H; cbn [In] in H;
      repeat (destruct H as [H|H]; [injection H as <- <- <-; say|]); destruct H
  | |- agree ?p ?R ?a ?b =>
      let a' := eval vm_compute in (present p a) in let b' := eval vm_compute in (present p b) in
      change (Forall2 R a' b'); say
  | |- same _ _ _ _ \/ _ => left; say
  | |- Forall2 _ [] [] => apply Forall2_nil
  | |- Forall2 _ _ _ => apply Forall2_cons; [say|say]
  end.
Definition plain_document : json :=
  JObj [("bomFormat", JStr "CycloneDX"); ("specVersion", JStr "1.4"); ("version", JInt 1);
        ("components", JArr [JObj [("type", JStr "library"); ("name", JStr "a");
           ("hashes", JArr [JObj [("alg", JStr "MD5"); ("content", JStr "00")]]);
           ("components", JArr [JObj [("type", JStr "file"); ("name", JStr "b")]])]])].
Definition other_document : json :=
  JObj [("note", JArr [JNull; JStr "x"]);
        ("components", JArr [JObj [("name", JStr "a"); ("x-vendor", JObj [("name", JInt 1)]); ("type", JStr "library");
           ("components", JArr [JObj [("type", JStr "file"); ("seen", JBool true); ("name", JStr "b"); ("version", JNull)]]);
           ("hashes", JArr [JArr [JStr "MD5"; JStr "00"]])]]);
        ("version", JInt 1); ("specVersion", JStr "1.4"); ("bomFormat", JStr "CycloneDX"); ("metadata", JNull)].
Example C58_case : same_bom V1_4 plain_document other_document /\
  same_bom V1_4 (to_value plain_document) (to_value other_document) /\ plain_document <> other_document /\
  exists b, parse_from_json_with_version V1_4 plain_document = Done b /\
    map c_name (match b_components b with Some l => l | None => [] end) = ["a"].
Proof.
  split; [unfold same_bom, plain_document, other_document; say|].
  split; [unfold same_bom; let a := eval vm_compute in (to_value plain_document) in let b := eval vm_compute in (to_value other_document) in
          change (same (kind_of V1_4) (Named "bom") a b); say|].
  split; [discriminate|]. eexists. split; vm_compute; reflexivity.
Qed.

(** the hypotheses of the two theorems about order hold of it *)
Lemma of_parts (P : list (string * json) -> bool) j :
  forallb (fun x => match x with JObj l => P l | _ => true end) (parts j) = true -> forall l, In (JObj l) (parts j) -> P l = true.
Proof. intros H l I. rewrite forallb_forall in H. apply (H _ I). Qed.
Example C58_order_case : plain other_document /\ orderly other_document /\
  like other_document (to_value other_document) /\ to_value other_document <> other_document.
Proof.
  assert (P : plain other_document).
  { unfold other_document. repeat (constructor; cbn [map fst snd]; auto); cbn; intuition discriminate. }
  split; [exact P|]. split; [|split; [now apply like_to_value|discriminate]]. split.
  - intros l I. assert (H := of_parts (fun l => Nat.leb (List.length (filter (fun m => among (fst m) ["version"; "range"; "undefinedVersionRange"]) l)) 1)
      other_document eq_refl l I). apply Nat.leb_le in H. unfold two_of. lia.
  - intros l m I K. assert (H := of_parts (fun l => negb (among "license" (map fst l))) other_document eq_refl l I).
    apply negb_true_iff in H. assert (T : among "license" (map fst l) = true); [|congruence].
    unfold among. apply existsb_exists. exists "license". split; [|reflexivity]. apply in_map_iff. now exists ("license", JObj m).
Qed.
(** and they are needed: a license with a name before its id, and a member that occurs twice *)
Definition with_license (l : list (string * json)) : json :=
  JObj [("bomFormat", JStr "CycloneDX"); ("specVersion", JStr "1.4"); ("version", JInt 1);
        ("components", JArr [JObj [("type", JStr "library"); ("name", JStr "a"); ("version", JStr "1");
           ("licenses", JArr [JObj [("license", JObj l)]])]])].
Example C58_order_needed :
  parse_from_json (with_license [("name", JStr "b"); ("id", JStr "MIT")]) <>
    parse_from_json_with_version V1_4 (with_license [("name", JStr "b"); ("id", JStr "MIT")]) /\
  parse_from_json (with_license [("id", JStr "MIT"); ("url", JNull); ("url", JNull)]) <>
    parse_from_json_with_version V1_4 (with_license [("id", JStr "MIT"); ("url", JNull); ("url", JNull)]).
Proof. split; vm_compute; discriminate. Qed.

Print Assumptions C58_read_alike.
Print Assumptions C58_values_read_alike.
Print Assumptions C58_read_alike_as_declared.
Print Assumptions C58_order_of_members.
Print Assumptions C58_entry_points_agree.
Print Assumptions C58_unknown_member.
Print Assumptions C58_member_order.
Print Assumptions C58_null_member.
Print Assumptions C58_array_form.

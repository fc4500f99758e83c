(** C77: what the queries of a validation result answer, and what merging results keeps. *)
From Verif Require Import Base ModelTypes Strings Enums ValModel ValSpec ValApiModel ValProofs ValProofs2 ValProps.
Open Scope string_scope.
Open Scope list_scope.

(** ** Specification *)
(** the last of the results that has an entry under the name decides *)
Inductive decides (k : string) : list vresult -> option verr -> Prop :=
| dec_none : decides k [] None
| dec_last l r e : error r k = Some e -> decides k (l ++ [r]) (Some e)
| dec_before l r o : error r k = None -> decides k l o -> decides k (l ++ [r]) o.
(** an [IndexMap] has each name once *)
Definition proper (r : vresult) : Prop := NoDup (map fst r).
(** the names in the order of their first appearance *)
Fixpoint firsts (seen l : list string) : list string :=
  match l with
  | [] => []
  | k :: l' => if existsb (String.eqb k) seen then firsts seen l' else k :: firsts (k :: seen) l'
  end.

(** ** Proofs *)
Lemma error_in r k e : error r k = Some e -> In (k, e) r.
Proof.
  induction r as [|[k' e'] r IH]; cbn; [discriminate|]. destruct (String.eqb_spec k' k) as [->|_]; [intros [= ->]; now left|].
  intros H. right. auto.
Qed.
Lemma error_none r k : error r k = None <-> ~ In k (map fst r).
Proof.
  induction r as [|[k' e'] r IH]; cbn; [tauto|]. destruct (String.eqb_spec k' k) as [->|N].
  - split; [discriminate|]. intros H. exfalso. apply H. now left.
  - rewrite IH. split; [intros H [E|I]; [congruence|auto]|tauto].
Qed.
Lemma proper_error r k e : proper r -> (error r k = Some e <-> In (k, e) r).
Proof.
  intros P. split; [apply error_in|]. unfold proper in P. induction r as [|[k' e'] r IH]; cbn in *; [intros []|].
  inversion P as [|? ? N P']; subst. intros [[= -> ->]|I]; [now rewrite String.eqb_refl|].
  destruct (String.eqb_spec k' k) as [->|_]; [|auto]. exfalso. apply N. apply in_map_iff. exists (k, e). auto.
Qed.
Lemma error_update k e r k' : error (update k e r) k' = if String.eqb k k' then Some e else error r k'.
Proof.
  induction r as [|[k0 e0] r IH]; cbn; [destruct (String.eqb k k'); reflexivity|].
  destruct (String.eqb_spec k0 k) as [->|N]; cbn.
  - destruct (String.eqb k k'); reflexivity.
  - rewrite IH. destruct (String.eqb_spec k0 k') as [->|_]; [|reflexivity].
    destruct (String.eqb_spec k k') as [->|_]; [congruence|reflexivity].
Qed.
Definition insert_all (acc r : vresult) : vresult := fold_left (fun acc e => update (fst e) (snd e) acc) r acc.
Lemma error_insert_all r : forall acc k, proper r ->
  error (insert_all acc r) k = match error r k with Some e => Some e | None => error acc k end.
Proof.
  unfold insert_all. induction r as [|[k0 e0] r IH]; intros acc k P; cbn [fold_left error fst snd]; [reflexivity|].
  inversion P as [|? ? N P']; subst. rewrite IH by exact P'. rewrite error_update.
  destruct (String.eqb_spec k0 k) as [->|_]; [|reflexivity]. now rewrite (proj2 (error_none r k) N).
Qed.
Lemma merge_snoc l r : merge (l ++ [r]) = insert_all (merge l) r.
Proof. unfold merge. now rewrite fold_left_app. Qed.
Lemma names_update k e r : map fst (update k e r) = if existsb (String.eqb k) (map fst r) then map fst r else map fst r ++ [k].
Proof.
  induction r as [|[k0 e0] r IH]; cbn; [reflexivity|]. rewrite String.eqb_sym. destruct (String.eqb_spec k k0) as [->|N]; cbn; [reflexivity|].
  rewrite IH. destruct (existsb _ _); reflexivity.
Qed.
Lemma firsts_ext s s' l : (forall k, existsb (String.eqb k) s = existsb (String.eqb k) s') -> firsts s l = firsts s' l.
Proof.
  revert s s'. induction l as [|k l IH]; intros s s' H; cbn; [reflexivity|]. rewrite H. destruct (existsb _ s'); [auto|]. f_equal.
  apply IH. intros k'. cbn. now rewrite H.
Qed.
Lemma names_insert_all r : forall acc, map fst (insert_all acc r) = map fst acc ++ firsts (map fst acc) (map fst r).
Proof.
  unfold insert_all. induction r as [|[k0 e0] r IH]; intros acc; cbn [fold_left map fst snd firsts]; [now rewrite app_nil_r|].
  rewrite IH, names_update. destruct (existsb (String.eqb k0) (map fst acc)) eqn:E; [reflexivity|].
  rewrite <- app_assoc. cbn [app]. do 2 f_equal. apply firsts_ext. intros k. rewrite existsb_app. cbn. rewrite orb_false_r. apply orb_comm.
Qed.
Lemma firsts_app s a b : firsts s (a ++ b) = firsts s a ++ firsts (rev a ++ s) b.
Proof.
  revert s. induction a as [|k a IH]; intros s; cbn [app rev firsts]; [reflexivity|].
  destruct (existsb (String.eqb k) s) eqn:E.
  - rewrite IH. f_equal. apply firsts_ext. intros k'. rewrite !existsb_app. cbn. rewrite orb_false_r.
    destruct (String.eqb_spec k' k) as [->|_]; [|now rewrite orb_false_r]. rewrite E. now rewrite !orb_true_r.
  - cbn [app]. f_equal. rewrite IH. f_equal. apply firsts_ext. intros k'. rewrite !existsb_app. cbn. rewrite orb_false_r.
    now rewrite orb_assoc.
Qed.
Lemma firsts_same l : forall s k, existsb (String.eqb k) (firsts s l ++ s) = existsb (String.eqb k) (rev l ++ s).
Proof.
  induction l as [|a l IH]; intros s k; cbn [firsts rev]; [reflexivity|]. rewrite <- app_assoc. cbn [app].
  destruct (existsb (String.eqb a) s) eqn:E.
  - rewrite IH, !existsb_app. cbn. destruct (String.eqb_spec k a) as [->|_]; [|reflexivity]. now rewrite E.
  - cbn [app existsb]. rewrite <- IH. rewrite !existsb_app. cbn. destruct (String.eqb k a); [now rewrite orb_true_r|reflexivity].
Qed.

Lemma proper_snoc r k e : proper r -> error r k = None -> proper (r ++ [(k, e)]).
Proof.
  unfold proper. rewrite map_app, error_none. cbn [map fst]. intros P N. induction (map fst r) as [|a l IH]; cbn in *; [constructor; [auto|constructor]|].
  inversion P; subst. constructor; [|apply IH; tauto]. rewrite in_app_iff. cbn. intros [I|[I|[]]]; [auto|]. apply N. now left.
Qed.
Lemma proper_update r k e e' : proper r -> error r k = Some e' -> proper (update k e r).
Proof.
  unfold proper. rewrite names_update. intros P E. replace (existsb (String.eqb k) (map fst r)) with true; [exact P|].
  symmetry. apply existsb_exists. exists k. split; [|apply String.eqb_refl]. apply error_in in E. apply in_map_iff. exists (k, e'). auto.
Qed.

(** ** C77 *)
(** whatever the calls of the builder, the result has each name once *)
Theorem C77_results_are_proper cs r : build cs [] = Done r -> proper r.
Proof.
  assert (H : forall cs r0, proper r0 -> build cs r0 = Done r -> proper r).
  { clear cs. induction cs as [|[k c] cs IH]; intros r0 P; cbn [build]; [intros [= ->]; exact P|]. intros B. inv_bind B.
    apply (IH v); [|exact B]. clear IH B.
    assert (A : forall e, r_add_nested k e r0 = Done v -> proper v).
    { intros e. unfold r_add_nested. destruct (error r0 k) eqn:E; [discriminate|]. intros [= <-]. now apply proper_snoc. }
    destruct c as [s|m]; cbn [add_call] in Hv.
    - destruct s as [|[m|]|[m|]|o|l]; cbn [add_slot] in Hv; try (injection Hv as <-; exact P).
      + unfold r_add_field in Hv. destruct (error r0 k) as [[]|] eqn:E; try discriminate; injection Hv as <-;
          [eapply proper_update|apply proper_snoc]; eauto.
      + unfold r_add_enum in Hv. destruct (error r0 k) eqn:E; [discriminate|]. injection Hv as <-. now apply proper_snoc.
      + inv_bind Hv. destruct (has_errors v0); [eauto|]. injection Hv as <-. exact P.
      + inv_bind Hv. destruct (failing 0 v0); [injection Hv as <-; exact P|eauto].
    - unfold r_add_custom in Hv. destruct (error r0 k) as [[]|] eqn:E; try discriminate; injection Hv as <-;
        [eapply proper_update|apply proper_snoc]; eauto. }
  apply H. constructor.
Qed.
(** the queries agree with each other *)
Theorem C77_queries r : proper r ->
  (passed r = true <-> errors r = []) /\ (has_errors r = true <-> exists k, has_error r k = true)
  /\ (forall k, has_error r k = true <-> exists e, error r k = Some e)
  /\ (forall k e, error r k = Some e <-> In (k, e) (errors r)).
Proof.
  intros P. split; [unfold errors; destruct r; cbn; split; congruence|]. split; [|split].
  - destruct r as [|[k e] r]; cbn.
    + split; [discriminate|]. intros [k H]. discriminate.
    + split; [|reflexivity]. intros _. exists k. now rewrite String.eqb_refl.
  - intros k. unfold has_error. clear P. induction r as [|[k' e'] r IH]; cbn; [split; [discriminate|intros [e H]; discriminate]|].
    destruct (String.eqb k' k); cbn; [split; eauto|exact IH].
  - intros k e. now apply proper_error.
Qed.
(** merging keeps, under each name, the entry of the last result that has one, and the names in the order of their first
    appearance *)
Theorem C77_merge_keeps_last l k : Forall proper l -> decides k l (error (merge l) k).
Proof.
  induction l as [|r l IH] using rev_ind; intros P; [constructor|]. apply Forall_app in P as [P1 P2]. inversion P2; subst.
  rewrite merge_snoc, error_insert_all by assumption. destruct (error r k) eqn:E; [now constructor|]. constructor; auto.
Qed.
Theorem C77_decides_one k l o o' : decides k l o -> decides k l o' -> o = o'.
Proof.
  intros H. revert o'. induction H as [|l r e E|l r o E H IH]; intros o' H'.
  - inversion H' as [|l' r' e' E' X|l' r' e' E' H'' X]; [reflexivity|destruct l'; discriminate X..].
  - inversion H' as [X|l' r' e' E' X|l' r' e' E' H'' X]; [destruct l; discriminate X| |];
      apply app_inj_tail in X as [-> ->]; congruence.
  - inversion H' as [X|l' r' e' E' X|l' r' e' E' H'' X]; [destruct l; discriminate X| |];
      apply app_inj_tail in X as [-> ->]; [congruence|]. auto.
Qed.
Theorem C77_merge_order l : map fst (merge l) = firsts [] (flat_map (map fst) l).
Proof.
  induction l as [|r l IH] using rev_ind; [reflexivity|]. rewrite merge_snoc, names_insert_all, IH, flat_map_app. cbn [flat_map].
  rewrite app_nil_r, firsts_app, app_nil_r. f_equal. apply firsts_ext. intros k.
  pose proof (firsts_same (flat_map (map fst) l) [] k) as H. rewrite !app_nil_r in H. exact H.
Qed.
Theorem C77_merge_proper l : proper (merge l).
Proof.
  unfold proper. rewrite C77_merge_order. generalize (flat_map (map fst) l) as ks.
  assert (H : forall ks s, NoDup (firsts s ks) /\ forall k, In k s -> ~ In k (firsts s ks)).
  { induction ks as [|k ks IH]; intros s; cbn; [split; [constructor|auto]|]. destruct (existsb (String.eqb k) s) eqn:E; [apply IH|].
    destruct (IH (k :: s)) as [N D]. split; [constructor; [apply D; now left|exact N]|].
    intros k' I [<-|I']; [|apply (D k'); [now right|exact I']].
    apply not_true_iff_false in E. apply E. apply existsb_exists. exists k. split; [exact I|apply String.eqb_refl]. }
  intros ks. apply H.
Qed.
Theorem C77_merge_passes l : passed (merge l) = true <-> Forall (fun r => passed r = true) l.
Proof.
  assert (E : passed (merge l) = true <-> map fst (merge l) = []) by (destruct (merge l); cbn; split; congruence).
  rewrite E, C77_merge_order. clear E. induction l as [|r l IH]; cbn [flat_map]; [split; constructor|].
  rewrite Forall_cons_iff, <- IH. destruct r as [|[k e] r]; cbn; [tauto|]. split; [discriminate|intros []; discriminate].
Qed.
(** … so a finding is lost if a later result has an entry under the same name *)
Theorem C77_merge_keeps_all_refuted : exists a b k m,
  error a k = Some (ErrField [m]) /\ error (merge [a; b]) k = Some (ErrField ["second"]) /\ m <> "second".
Proof. exists [("name", ErrField ["first"])], [("name", ErrField ["second"])], "name", "first". repeat split. discriminate. Qed.
(** merging results with different names loses nothing *)
Theorem C77_merge_disjoint l r k e : Forall proper l -> In r l -> error r k = Some e ->
  (forall r', In r' l -> error r' k <> None -> r' = r) -> error (merge l) k = Some e.
Proof.
  intros P I E U. pose proof (C77_merge_keeps_last l k P) as D. remember (error (merge l) k) as o eqn:O. clear O.
  induction D as [|l r' e' E'|l r' o E' D IH].
  - destruct I.
  - assert (r' = r) by (apply U; [apply in_app_iff; right; now left|congruence]). congruence.
  - apply Forall_app in P as [P _]. apply IH; auto.
    + apply in_app_iff in I as [I|[->|[]]]; [exact I|congruence].
    + intros r1 I1. apply U. apply in_app_iff. now left.
Qed.
(** [validate] of a part of a BOM is for version 1.3, whatever the version of the BOM *)
Theorem C77_validate_parts_as_1_3 x c : validate_default (validate_component x) c = Done [] <-> valid_component x V1_3 c.
Proof. apply component_iff. Qed.

Example C77_case : merge [[("a", ErrField ["1"]); ("b", ErrEnum "2")]; []; [("c", ErrField ["3"]); ("a", ErrCustom ["4"])]]
  = [("a", ErrCustom ["4"]); ("b", ErrEnum "2"); ("c", ErrField ["3"])]
  /\ has_error [("a", ErrField ["1"])] "a" = true /\ has_error [("a", ErrField ["1"])] "b" = false.
Proof. repeat split. Qed.
Print Assumptions C77_results_are_proper.
Print Assumptions C77_queries.
Print Assumptions C77_merge_keeps_last.
Print Assumptions C77_decides_one.
Print Assumptions C77_merge_order.
Print Assumptions C77_merge_proper.
Print Assumptions C77_merge_passes.
Print Assumptions C77_merge_keeps_all_refuted.
Print Assumptions C77_merge_disjoint.
Print Assumptions C77_validate_parts_as_1_3.

(** When writing fails, and what the parsers do with a document that was written. *)
From Verif Require Import Base ModelTypes Strings Enums GenModel Json JsonLemmas JsonModel JsonSpec
  JsonProofs JsonProofs2.
Open Scope string_scope.
Open Scope list_scope.

(** a check that succeeds exactly if [P] holds and fails with [missing_version] otherwise *)
Definition checks (x : outcome unit) (P : Prop) : Prop :=
  (x = Done tt /\ P) \/ (x = Fail missing_version /\ ~ P).
Lemma checks_iff x P Q : checks x P -> (P <-> Q) -> checks x Q.
Proof. unfold checks. tauto. Qed.
Lemma checks_true : forall P : Prop, P -> checks (Done tt) P.
Proof. unfold checks. auto. Qed.
Lemma checks_and x y P Q : checks x P -> checks y Q -> checks (do _ <- x; y) (P /\ Q).
Proof. unfold checks. intros [[-> H]|[-> H]] [[-> G]|[-> G]]; cbn; tauto. Qed.
Lemma checks_list {A} (f : A -> outcome unit) P l :
  (forall x, In x l -> checks (f x) (P x)) -> checks (check_list f l) (forall x, In x l -> P x).
Proof.
  unfold check_list. induction l as [|x l IH]; intros H.
  - apply checks_true. intros x [].
  - eapply checks_iff; [apply checks_and; [apply H; now left|apply IH; intros; apply H; now right]|].
    split; [intros [Hx Hl] y [<-|I]; auto|]. intros G. split; [apply G; now left|].
    intros; apply G; now right.
Qed.
Lemma checks_opt_list {A} (f : A -> outcome unit) P o :
  (forall x, In x (olist o) -> checks (f x) (P x)) ->
  checks (check_opt (check_list f) o) (forall x, In x (olist o) -> P x).
Proof. destruct o; cbn; intros H; [now apply checks_list | apply checks_true; intros x []]. Qed.
Lemma checks_opt {A} (f : A -> outcome unit) P o :
  (forall x, o = Some x -> checks (f x) (P x)) ->
  checks (check_opt f o) (forall x, o = Some x -> P x).
Proof.
  destruct o; cbn; intros H; [|apply checks_true; discriminate].
  eapply checks_iff; [apply H; reflexivity|]. split; [intros G x [= <-]; exact G|auto].
Qed.

Definition versioned (v : spec_version) (c : component) : Prop :=
  forall d, within c d -> v = V1_3 -> c_version d <> None.

Lemma check_component_eq v c : check_component v c =
  (do _ <- (if since V1_4 v then Done tt
            else match c_version c with Some _ => Done tt | None => Fail missing_version end);
   do _ <- check_opt (check_pedigree (check_component v)) (c_pedigree c);
   check_opt (check_list (check_component v)) (c_components c)).
Proof. destruct c; reflexivity. Qed.

Lemma check_component_iff v c : checks (check_component v c) (versioned v c).
Proof.
  induction c as [c IHc IHp] using component_ind'. rewrite check_component_eq.
  eapply checks_iff.
  - apply checks_and; [|apply checks_and].
    + instantiate (1 := v = V1_3 -> c_version c <> None).
      destruct v; cbn; try (apply checks_true; discriminate).
      destruct (c_version c); [left|right]; split; auto; try discriminate; intros H; now apply H.
    + apply checks_opt with (P := fun p => forall d, In d (pedigree_members p) -> versioned v d).
      intros p E. destruct (IHp p E) as [I1 [I2 I3]]. unfold check_pedigree.
      eapply checks_iff; [apply checks_and; [|apply checks_and]; apply checks_opt_list; eauto|].
      unfold pedigree_members. split.
      * intros [H1 [H2 H3]] d. rewrite !in_app_iff. intros [I|[I|I]]; auto.
      * intros H. repeat split; intros d I; apply H; rewrite !in_app_iff; auto.
    + apply checks_opt_list with (P := versioned v). exact IHc.
  - split.
    + intros [H1 [H2 H3]] d W V. inversion W as [c0|c0 e d0 I W'|c0 p e d0 E I W']; subst; auto.
      * exact (H3 e I d W' eq_refl).
      * exact (H2 p E e I d W' eq_refl).
    + intros H. split; [|split].
      * apply H. constructor.
      * intros p E d I e W. apply H. eapply within_pedigree; eauto.
      * intros d I e W. apply H. eapply within_nested; eauto.
Qed.

Definition all_versioned (v : spec_version) (l : list component) : Prop :=
  forall c, In c l -> versioned v c.

Lemma check_tools_iff v t : checks (check_tools v t) (all_versioned v (tools_components v t)).
Proof.
  destruct t as [l|s c]; cbn [check_tools tools_components]; [apply checks_true; intros x []|].
  change (version_leb V1_5 v) with (since V1_5 v).
  destruct (since V1_5 v); [|apply checks_true; intros x []].
  apply checks_opt_list. intros; apply check_component_iff.
Qed.
Lemma all_versioned_app v l1 l2 :
  all_versioned v l1 /\ all_versioned v l2 <-> all_versioned v (l1 ++ l2).
Proof.
  unfold all_versioned. split.
  - intros [H1 H2] c I. apply in_app_or in I as [I|I]; auto.
  - intros H. split; intros c I; apply H, in_or_app; auto.
Qed.
Lemma check_opt_tools_iff v o :
  checks (check_opt (check_tools v) o) (all_versioned v (flat_map (tools_components v) (one o))).
Proof.
  destruct o as [t|]; cbn; [|apply checks_true; intros x []]. rewrite app_nil_r. apply check_tools_iff.
Qed.
Lemma check_opt_component_iff v o :
  checks (check_opt (check_component v) o) (all_versioned v (one o)).
Proof.
  destruct o as [t|]; cbn; [|apply checks_true; intros x []].
  eapply checks_iff; [apply check_component_iff|]. unfold all_versioned. cbn.
  split; [intros H c [<-|[]]; exact H|auto].
Qed.
Lemma check_flat_iff {A} v (f : A -> outcome unit) (g : A -> list component) o :
  (forall x, checks (f x) (all_versioned v (g x))) ->
  checks (check_opt (check_list f) o) (all_versioned v (flat_map g (olist o))).
Proof.
  intros H. eapply checks_iff; [apply checks_opt_list with (P := fun x => all_versioned v (g x)); auto|].
  unfold all_versioned. split.
  - intros G c I. apply in_flat_map in I as [x [I J]]. eauto.
  - intros G x I c J. apply G. apply in_flat_map. eauto.
Qed.
Lemma check_from_iff {A} a v x (g : A -> list component) l :
  (checks x (all_versioned v (flat_map g l))) ->
  checks (if since a v then x else Done tt) (all_versioned v (from_list a v (flat_map g l))).
Proof.
  intros H. unfold from_list. change (version_leb a v) with (since a v).
  destruct (since a v); auto. apply checks_true. intros c [].
Qed.

Lemma check_bom_iff v b : checks (check_bom v b) (all_versioned v (bom_roots v b)).
Proof.
  unfold check_bom, bom_roots.
  assert (A : forall x y l1 l2, checks x (all_versioned v l1) -> checks y (all_versioned v l2) ->
    checks (do _ <- x; y) (all_versioned v (l1 ++ l2))).
  { intros. eapply checks_iff; [|apply all_versioned_app]. now apply checks_and. }
  apply A; [|apply A; [|apply A; [|apply A]]].
  - destruct (b_metadata b) as [m|]; cbn; [|apply checks_true; intros c []]. rewrite app_nil_r.
    eapply checks_iff; [|apply all_versioned_app].
    apply checks_and; [apply check_opt_tools_iff|apply check_opt_component_iff].
  - apply checks_opt_list. intros; apply check_component_iff.
  - apply check_from_iff. apply check_flat_iff. intros; apply check_opt_tools_iff.
  - apply check_from_iff. apply check_flat_iff. intros a. unfold check_annotation.
    destruct (an_annotator a) as [o|i|c|s]; try (apply checks_true; intros x []).
    apply (check_opt_component_iff v (Some c)).
  - apply check_from_iff. apply check_flat_iff. intros f. unfold check_formula.
    apply checks_opt_list. intros; apply check_component_iff.
Qed.

Lemma all_versioned_components v b :
  all_versioned v (bom_roots v b) <->
  (v = V1_3 -> forall c, bom_component v b c -> c_version c <> None).
Proof.
  unfold all_versioned, versioned, bom_component. split.
  - intros H V c [r [I W]]. exact (H r I c W V).
  - intros H r I c W V. apply (H V c). eauto.
Qed.

Lemma output_as_json_iff v b :
  (output_as_json v b = Done (to_json_bom v b) /\
   (v = V1_3 -> forall c, bom_component v b c -> c_version c <> None)) \/
  (output_as_json v b = Fail missing_version /\
   ~ (v = V1_3 -> forall c, bom_component v b c -> c_version c <> None)).
Proof.
  unfold output_as_json. rewrite <- all_versioned_components.
  destruct (check_bom_iff v b) as [[-> H]|[-> H]]; cbn; auto.
Qed.

(** the failing component, found in the order of the check *)
Lemma check_list_fail {A} (f : A -> outcome unit) l m :
  check_list f l = Fail m -> exists x, In x l /\ f x = Fail m.
Proof.
  unfold check_list. induction l as [|x l IH]; [discriminate|].
  destruct (f x) as [[]| | |] eqn:E; cbn.
  - intros H. destruct (IH H) as [y [I F]]. exists y. split; [now right|exact F].
  - intros [= <-]. exists x. split; [now left|exact E].
  - discriminate.
  - discriminate.
Qed.
Lemma check_opt_list_fail {A} (f : A -> outcome unit) o m :
  check_opt (check_list f) o = Fail m -> exists x, In x (olist o) /\ f x = Fail m.
Proof. destruct o; cbn; [apply check_list_fail|discriminate]. Qed.

Lemma check_component_fail v c m : check_component v c = Fail m ->
  v = V1_3 /\ exists d, within c d /\ c_version d = None.
Proof.
  induction c as [c IHc IHp] using component_ind'. rewrite check_component_eq.
  assert (G : forall (a b : outcome unit), (do _ <- a; b) = Fail m -> a = Fail m \/ b = Fail m).
  { intros [[]| | |] b; cbn; auto; discriminate. }
  intros H. apply G in H as [H|H]; [|apply G in H as [H|H]].
  - destruct v; try discriminate. destruct (c_version c) eqn:E; [discriminate|].
    split; auto. exists c. split; [constructor|exact E].
  - destruct (c_pedigree c) as [p|] eqn:Ep; [|discriminate].
    destruct (IHp p eq_refl) as [I1 [I2 I3]]. cbn [check_opt] in H. unfold check_pedigree in H.
    assert (Q : exists d, In d (pedigree_members p) /\ (v = V1_3 /\ exists e, within d e /\ c_version e = None)).
    { unfold pedigree_members.
      apply G in H as [H|H]; [|apply G in H as [H|H]]; apply check_opt_list_fail in H as [d [I F]];
        exists d; (split; [rewrite !in_app_iff; tauto|auto]). }
    destruct Q as [d [I [V [e [W E]]]]]. split; auto. exists e. split; auto. eapply within_pedigree; eauto.
  - apply check_opt_list_fail in H as [d [I F]]. destruct (IHc d I F) as [V [e [W E]]].
    split; auto. exists e. split; auto. eapply within_nested; eauto.
Qed.

Lemma output_fails v b m : output_as_json v b = Fail m ->
  v = V1_3 /\ exists c, bom_component v b c /\ c_version c = None.
Proof.
  intros H. assert (C : check_bom v b = Fail m).
  { unfold output_as_json in H. destruct (check_bom v b); cbn in H; congruence. }
  clear H. unfold check_bom in C.
  assert (G : forall (a b : outcome unit), (do _ <- a; b) = Fail m -> a = Fail m \/ b = Fail m).
  { intros [[]| | |] b'; cbn; auto; discriminate. }
  assert (K : forall r, In r (bom_roots v b) -> check_component v r = Fail m ->
    v = V1_3 /\ exists c, bom_component v b c /\ c_version c = None).
  { intros r I F. apply check_component_fail in F as [V [d [W E]]]. split; auto. exists d.
    split; [exists r; auto|auto]. }
  unfold bom_roots in K.
  apply G in C as [C|C]; [|apply G in C as [C|C]; [|apply G in C as [C|C]; [|apply G in C as [C|C]]]].
  - destruct (b_metadata b) as [x|] eqn:Em; [|discriminate]. cbn [check_opt one flat_map] in *.
    unfold check_metadata in C. apply G in C as [C|C].
    + destruct (m_tools x) as [t|]; [|discriminate]. cbn [check_opt one flat_map] in *.
      destruct t as [l|s c]; [discriminate|]. cbn [check_tools tools_components] in *.
      change (version_leb V1_5 v) with (since V1_5 v) in K. destruct (since V1_5 v); [|discriminate].
      apply check_opt_list_fail in C as [d [I F]]. apply (K d); auto. rewrite !in_app_iff. auto.
    + destruct (m_component x) as [c|]; [|discriminate]. cbn [check_opt one] in *. apply (K c); auto.
      rewrite !in_app_iff. cbn. auto 6.
  - apply check_opt_list_fail in C as [d [I F]]. apply (K d); auto. rewrite !in_app_iff. auto.
  - unfold from_list in K. change (version_leb V1_4 v) with (since V1_4 v) in K.
    destruct (since V1_4 v); [|discriminate].
    apply check_opt_list_fail in C as [d [I F]]. unfold check_vulnerability in F.
    destruct (v_tools d) as [t|] eqn:Et; [|discriminate]. cbn [check_opt] in F.
    destruct t as [l|s c]; [discriminate|]. cbn [check_tools] in F.
    destruct (since V1_5 v) eqn:S5; [|discriminate].
    apply check_opt_list_fail in F as [e [Ie Fe]]. apply (K e); auto. rewrite !in_app_iff.
    right; right; left. apply in_flat_map. exists d. split; auto. rewrite Et. cbn [one flat_map tools_components].
    change (version_leb V1_5 v) with (since V1_5 v). rewrite S5. rewrite app_nil_r. exact Ie.
  - unfold from_list in K. change (version_leb V1_5 v) with (since V1_5 v) in K.
    destruct (since V1_5 v) eqn:S5; [|discriminate].
    apply check_opt_list_fail in C as [d [I F]]. unfold check_annotation in F.
    destruct (an_annotator d) as [| |c|] eqn:Ea; try discriminate. apply (K c); auto.
    rewrite !in_app_iff. right; right; right; left. apply in_flat_map. exists d. split; auto.
    rewrite Ea. now left.
  - unfold from_list in K. change (version_leb V1_5 v) with (since V1_5 v) in K.
    destruct (since V1_5 v) eqn:S5; [|discriminate].
    apply check_opt_list_fail in C as [d [I F]]. unfold check_formula in F.
    apply check_opt_list_fail in F as [e [Ie Fe]]. apply (K e); auto.
    rewrite !in_app_iff. right; right; right; right. apply in_flat_map. exists d. auto.
Qed.

(** ** The parsers *)

Lemma readable_bom v b :
  (v = V1_3 -> forall c, bom_component v b c -> c_version c <> None) ->
  (forall c, bom_component v b c -> methods_finite v c) -> all_readable v (bom_roots v b).
Proof.
  intros H M r I d W. split.
  - intros V. apply (H V). exists r. auto.
  - apply M. exists r. auto.
Qed.

Lemma output_then_parse v b j j' :
  output_as_json v b = Done j -> like j j' ->
  (forall c, bom_component v b c -> methods_finite v c) ->
  parse_from_json_with_version v j' = Done (kept_bom v b).
Proof.
  intros O L M. destruct (output_as_json_iff v b) as [[E V]|[E _]]; [|congruence].
  rewrite E in O. injection O as <-.
  unfold parse_from_json_with_version, deserialize.
  rewrite (of_to_bom v b j'); [reflexivity| |exact L]. now apply readable_bom.
Qed.

Lemma like_plain j j' : like j j' -> plain j -> plain j'.
Proof.
  revert j'. induction j using json_ind'; intros j' L Q; inversion L; subst; try exact Q; try constructor.
  - inversion Q as [| | | | |l0 F|]; subst. clear Q L.
    match goal with F2 : Forall2 like _ _ |- _ => induction F2 as [|x y l l' Lx F2 IH]; constructor end.
    + inversion H; subst. inversion F; subst. auto.
    + inversion H; subst. inversion F; subst. auto.
  - inversion Q as [| | | | | |l0 N F]; subst.
    match goal with P : Permutation ?m _ , F2 : Forall2 _ l ?m |- _ =>
      assert (K : map fst m = map fst l) by
        (clear - F2; induction F2 as [|x y l l' [E _] F2 IH]; cbn; congruence);
      eapply Permutation_NoDup; [apply Permutation_map; exact P|]; rewrite K; exact N end.
  - inversion Q as [| | | | | |l0 N F]; subst.
    match goal with P : Permutation ?m _ , F2 : Forall2 _ l ?m |- _ =>
      assert (G : Forall (fun p => plain (snd p)) m);
      [|rewrite Forall_forall in G |- *; intros p I; apply G; eapply Permutation_in;
        [apply Permutation_sym; exact P|exact I]];
      clear - F2 H F; induction F2 as [|x y l l' [E Lx] F2 IH]; constructor end.
    + inversion H; subst. inversion F; subst. auto.
    + inversion H; subst. inversion F; subst. auto.
Qed.

Lemma like_trans a b c : like a b -> like b c -> like a c.
Proof.
  revert b c. induction a using json_ind'; intros b0 c0 L1 L2; inversion L1; subst; auto.
  - inversion L2; subst. constructor.
    match goal with A : Forall2 like l ?m, B : Forall2 like ?m _ |- _ => rename A into F1, B into F2 end.
    clear L1 L2. revert l'0 F2. induction F1 as [|x y l l' Lx F1 IH]; intros m F2; inversion F2; subst;
      constructor.
    + inversion H; subst. eauto.
    + inversion H; subst. eauto.
  - inversion L2; subst. clear L1 L2.
    match goal with A : Forall2 _ l ?m, B : Permutation ?m ?k, C : Forall2 _ ?k ?m2, D : Permutation ?m2 _ |- _ =>
      rename A into F1, B into P1, C into F2, D into P2 end.
    destruct (Permutation_Forall2 (Permutation_sym P1) F2) as [m3 [P3 F3]].
    apply like_obj with m3.
    + clear - H F1 F3. revert m3 F3.
      induction F1 as [|x y l l' [E Lx] F1 IH]; intros k F3; inversion F3 as [|? z ? ? [E' Lz] F4]; subst;
        constructor.
      * inversion H; subst. split; [congruence|]. eauto.
      * inversion H; subst. eauto.
    + etransitivity; [apply Permutation_sym; exact P3|exact P2].
Qed.

Lemma like_value j j' : like j j' -> plain j -> like j (to_value j').
Proof. intros L Q. eapply like_trans; [exact L|]. apply like_to_value. eapply like_plain; eauto. Qed.

Lemma output_plain v b j : output_as_json v b = Done j -> j = to_json_bom v b /\ plain j.
Proof.
  intros O. destruct (output_as_json_iff v b) as [[E V]|[E _]]; [|congruence].
  rewrite E in O. injection O as <-. split; [reflexivity|apply plain_bom].
Qed.

Lemma output_then_parse_value v b j j' :
  output_as_json v b = Done j -> like j j' ->
  (forall c, bom_component v b c -> methods_finite v c) ->
  parse_from_json_value_version v j' = Done (kept_bom v b).
Proof.
  intros O L M. destruct (output_plain v b j O) as [_ Q].
  exact (output_then_parse v b j (to_value j') O (like_value _ _ L Q) M).
Qed.

Lemma declared_version v b j' : like (to_json_bom v b) j' ->
  exists l, j' = JObj l /\ assoc "specVersion" l = Some (JStr (version_text v)).
Proof.
  intros L. unfold to_json_bom in L. apply like_written in L; [|reflexivity].
  destruct L as [l [-> [N [_ G]]]]. exists l. split; auto.
  specialize (G "specVersion"). cbn [assoc] in G.
  change (String.eqb "specVersion" "bomFormat") with false in G. rewrite String.eqb_refl in G.
  destruct G as [y [G Ly]]. inversion Ly; subst. exact G.
Qed.
Lemma output_then_parse_any v b j j' :
  output_as_json v b = Done j -> like j j' ->
  (forall c, bom_component v b c -> methods_finite v c) ->
  parse_from_json j' = Done (kept_bom v b).
Proof.
  intros O L M. destruct (output_plain v b j O) as [-> Q].
  pose proof (like_value _ _ L Q) as LV. unfold parse_from_json.
  destruct (declared_version v b _ LV) as [l [E A]]. rewrite E, A.
  replace (version_of_text (version_text v)) with (Some v) by now destruct v.
  rewrite <- E. exact (output_then_parse v b _ (to_value j') O LV M).
Qed.

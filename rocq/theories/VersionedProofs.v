(** Proofs about the [#[versioned]] macro. *)
From Coq Require Import NArith.
From Verif Require Import Base Strings XmlProofs2 VersionedModel VersionedSpec.
Open Scope string_scope.
Open Scope list_scope.

Lemma node_rect' (P : node -> Prop) :
  (forall k ats pre kids post, Forall P kids -> P (Node k ats pre kids post)) -> forall n, P n.
Proof.
  intros H. fix IH 1. intros [k ats pre kids post]. apply H.
  induction kids as [|x l IHl]; constructor; [apply IH|exact IHl].
Qed.

Lemma version_eqb_eq a b : version_eqb a b = true <-> a = b.
Proof.
  unfold version_eqb. rewrite Bool.andb_true_iff, !N.eqb_eq. destruct a, b; cbn. split.
  - now intros (-> & ->).
  - intros H. injection H. auto.
Qed.
Lemma req_matches_in vs v : req_matches vs v = true <-> In v vs.
Proof.
  unfold req_matches. rewrite existsb_exists. split.
  - intros (x & H & E). apply version_eqb_eq in E. now subst.
  - intros H. exists v. split; [exact H|]. now apply version_eqb_eq.
Qed.

(** *** Selections *)
Section SELECTION.
Context (v : version).
Lemma sel_app a b r s : selection v a r -> selection v b s -> selection v (a ++ b) (r ++ s).
Proof. induction 1; intros; cbn; [assumption|constructor; auto|constructor; auto]. Qed.
Lemma sel_under cs ts : Forall (meets v) cs -> selection v (under cs ts) ts.
Proof. intros H. induction ts; cbn; constructor; assumption. Qed.
Lemma sel_not_under cs ts : ~ Forall (meets v) cs -> selection v (under cs ts) [].
Proof. intros H. induction ts; cbn; constructor; assumption. Qed.
Lemma sel_flat {A} (f : A -> list (list condition * string)) (g : A -> list string) l :
  Forall (fun x => selection v (f x) (g x)) l -> selection v (flat_map f l) (flat_map g l).
Proof. induction 1; cbn; [constructor|now apply sel_app]. Qed.
Lemma sel_flat_none {A} (f : A -> list (list condition * string)) l :
  Forall (fun x => selection v (f x) []) l -> selection v (flat_map f l) [].
Proof. induction 1; cbn; [constructor|]. change (@nil string) with (@nil string ++ []). now apply sel_app. Qed.
Lemma sel_unique l r s : selection v l r -> selection v l s -> r = s.
Proof.
  intros H. revert s. induction H; intros s K; inversion K; subst; try contradiction; auto.
  f_equal. auto.
Qed.

(** what no version in view asks for *)
Lemma tagged_out n : forall cs, ~ Forall (meets v) cs -> selection v (tagged cs n) [].
Proof.
  induction n as [k ats pre kids post IH] using node_rect'. intros cs H. cbn [tagged].
  set (inner := match limit ats with Some vs => Within vs :: cs | None => cs end).
  assert (Hi : ~ Forall (meets v) inner).
  { subst inner. destruct (limit ats); [|exact H]. intros K. inversion K. contradiction. }
  change (@nil string) with (@nil string ++ []). apply sel_app; [now apply sel_not_under|].
  change (@nil string) with (@nil string ++ []). apply sel_app.
  { apply sel_flat_none. eapply Forall_impl; [|exact IH]. intros x Hx. now apply Hx. }
  change (@nil string) with (@nil string ++ []). apply sel_app; [now apply sel_not_under|].
  destruct k, (limit ats); try constructor.
  - intros K. inversion K. contradiction.
  - constructor; [|constructor]. intros K. inversion K. contradiction.
Qed.

Lemma unmarked_limit ats : forallb unmarked ats = true -> limit ats = None.
Proof. induction ats as [|[] ats IH]; cbn; [reflexivity|discriminate|exact IH]. Qed.
Lemma unmarked_tokens ats : forallb unmarked ats = true -> own_tokens ats = flat_map attr_tokens ats.
Proof.
  unfold own_tokens. induction ats as [|[] ats IH]; cbn; [reflexivity|discriminate|]. intros H. now rewrite IH.
Qed.
Lemma unversioned_tagged n : unversioned n = true ->
  forall cs, Forall (meets v) cs -> selection v (tagged cs n) (print n).
Proof.
  induction n as [k ats pre kids post IH] using node_rect'. cbn [unversioned]. intros H cs Hc.
  apply andb_prop in H. destruct H as (Ha & Hk). cbn [tagged print].
  rewrite (unmarked_limit _ Ha), (unmarked_tokens _ Ha).
  replace (flat_map attr_tokens ats ++ pre ++ flat_map print kids ++ post)
    with ((flat_map attr_tokens ats ++ pre) ++ flat_map print kids ++ post ++ []) by now rewrite app_nil_r, <- app_assoc.
  apply sel_app; [now apply sel_under|]. apply sel_app; [|apply sel_app; [now apply sel_under|destruct k; constructor]].
  apply sel_flat. rewrite forallb_forall in Hk. rewrite Forall_forall in IH. apply Forall_forall.
  intros x Hx. apply IH; [exact Hx|now apply Hk|exact Hc].
Qed.

Lemma is_active_spec ats : forall m, exists kept,
  is_active v ats m = (match limit ats with Some vs => req_matches vs v | None => m end, kept, existsb malformed ats) /\
  flat_map attr_tokens kept = own_tokens ats /\ forallb unmarked kept = true.
Proof.
  induction ats as [|[args t|t] ats IH]; intros m; cbn [is_active limit existsb malformed].
  - now exists [].
  - destruct (parse_req args) as [req|] eqn:E.
    + destruct (IH (req_matches req v)) as (kept & -> & K & U). exists kept. split; [|auto].
      destruct (limit ats); reflexivity.
    + destruct (IH m) as (kept & -> & K & U). exists kept. split; [|auto].
      destruct (limit ats); reflexivity.
  - destruct (IH m) as (kept & -> & K & U). exists (OtherAttr t :: kept). split; [reflexivity|].
    cbn. rewrite K. auto.
Qed.

Definition fold_all (l : list node) : list node := flat_map (fun x => fst (fold v x)) l.
Definition err_all (l : list node) : bool := existsb (fun x => snd (fold v x)) l.
Lemma fold_eq k ats pre kids post : fold v (Node k ats pre kids post) =
  let '(active, kept, err) := is_active v ats true in
  let whole := Node k kept pre (fold_all kids) post in
  match k with
  | KPlain => ([Node k ats pre (fold_all kids) post], err_all kids)
  | KField => if active then ([Node k kept pre kids post], err) else ([], err)
  | KVariant | KArm | KFieldValue => if active then ([whole], err || err_all kids) else ([], err)
  | KItem | KStmt => if active then ([whole], err || err_all kids) else ([nothing], err)
  | KExpr => if active then ([whole], err || err_all kids) else ([empty_block], err)
  end.
Proof.
  cbn [fold].
  assert (E : (fix go l := match l with
                     | [] => ([], false)
                     | x :: l' => (fst (fold v x) ++ fst (go l'), snd (fold v x) || snd (go l'))
                     end) kids = (fold_all kids, err_all kids)).
  { induction kids as [|x l IH]; [reflexivity|]. now rewrite IH. }
  rewrite E. reflexivity.
Qed.

Lemma print_all l : flat_map print (fold_all l) = flat_map (fun x => flat_map print (fst (fold v x))) l.
Proof.
  unfold fold_all. induction l as [|x l IH]; [reflexivity|]. cbn. now rewrite flat_map_app, IH.
Qed.

Theorem fold_selection n : placed n = true ->
  forall cs, Forall (meets v) cs -> selection v (tagged cs n) (flat_map print (fst (fold v n))).
Proof.
  induction n as [k ats pre kids post IH] using node_rect'. intros H cs Hc.
  rewrite fold_eq. destruct (is_active_spec ats true) as (kept & -> & K & U). cbv zeta.
  assert (Hkids : forall i, Forall (meets v) i -> k <> KField ->
    selection v (flat_map (tagged i) kids) (flat_map print (fold_all kids))).
  { intros i Hi Nk. rewrite print_all. apply sel_flat.
    assert (P : forallb placed kids = true) by (destruct k; cbn in H; try assumption; [congruence|]; now apply andb_prop in H).
    rewrite forallb_forall in P. rewrite Forall_forall in IH. apply Forall_forall. intros x Hx.
    apply IH; [exact Hx|now apply P|exact Hi]. }
  assert (Hf : k = KField -> forall i, Forall (meets v) i ->
    selection v (flat_map (tagged i) kids) (flat_map print kids)).
  { intros -> i Hi. cbn in H. apply sel_flat. rewrite forallb_forall in H. apply Forall_forall.
    intros x Hx. apply unversioned_tagged; [now apply H|exact Hi]. }
  assert (Out : forall vs, limit ats = Some vs -> req_matches vs v = false -> ~ Forall (meets v) (Within vs :: cs)).
  { intros vs _ E F. inversion F as [|? ? M]. cbn in M. apply req_matches_in in M. congruence. }
  assert (Left : forall vs s r, ~ Forall (meets v) (Within vs :: cs) -> selection v s r ->
    selection v (under (Within vs :: cs) (own_tokens ats ++ pre) ++ flat_map (tagged (Within vs :: cs)) kids
       ++ under (Within vs :: cs) post ++ s) r).
  { intros vs s r N S. change r with ([] ++ [] ++ [] ++ r).
    apply sel_app; [now apply sel_not_under|]. apply sel_app.
    - apply sel_flat_none, Forall_forall. intros x _. now apply tagged_out.
    - apply sel_app; [now apply sel_not_under|exact S]. }
  assert (Stay : forall i s k' ks ats', Forall (meets v) i -> flat_map attr_tokens ats' = own_tokens ats ->
    selection v (flat_map (tagged i) kids) (flat_map print ks) -> selection v s [] ->
    selection v (under i (own_tokens ats ++ pre) ++ flat_map (tagged i) kids ++ under i post ++ s)
      (flat_map print [Node k' ats' pre ks post])).
  { intros i s k' ks ats' Hi Ea Hs Hn. cbn [flat_map print]. rewrite Ea, app_nil_r.
    replace (own_tokens ats ++ pre ++ flat_map print ks ++ post)
      with ((own_tokens ats ++ pre) ++ flat_map print ks ++ post ++ []) by now rewrite app_nil_r, <- app_assoc.
    apply sel_app; [now apply sel_under|]. apply sel_app; [exact Hs|]. apply sel_app; [now apply sel_under|exact Hn]. }
  assert (Plain : k = KPlain -> limit ats = None /\ flat_map attr_tokens ats = own_tokens ats).
  { intros ->. cbn in H. apply andb_prop in H. destruct H as (H & _). split; [now apply unmarked_limit|].
    symmetry. now apply unmarked_tokens. }
  cbn [tagged]. destruct (limit ats) as [vs|] eqn:El.
  - destruct (req_matches vs v) eqn:Em.
    + assert (Hi : Forall (meets v) (Within vs :: cs)) by (constructor; [now apply req_matches_in|exact Hc]).
      destruct k; cbn [fst]; try solve [apply Stay; [exact Hi|exact K|apply Hkids; [exact Hi|discriminate]|constructor]].
      * apply Stay; [exact Hi|exact K|apply Hkids; [exact Hi|discriminate]|].
        apply sel_not_under. intros F. inversion F as [|? ? M]. apply M. now apply req_matches_in.
      * apply Stay; [exact Hi|exact K|now apply Hf|constructor].
      * destruct (Plain eq_refl). discriminate.
    + specialize (Out vs eq_refl Em).
      destruct k; cbn [fst]; try solve [apply Left; [exact Out|constructor]].
      * apply Left; [exact Out|]. apply (sel_under _ ["{"; "}"]). constructor; [|exact Hc].
        cbn. intros M. apply req_matches_in in M. congruence.
      * destruct (Plain eq_refl). discriminate.
  - destruct k; cbn [fst]; try solve [apply Stay; [exact Hc|exact K|apply Hkids; [exact Hc|discriminate]|constructor]].
    + apply Stay; [exact Hc|exact K|now apply Hf|constructor].
    + destruct (Plain eq_refl) as (_ & E). apply Stay; [exact Hc|exact E|apply Hkids; [exact Hc|discriminate]|constructor].
Qed.

(** *** Malformed attributes *)
Lemma flaws_out n : forall cs, ~ Forall (meets v) cs -> ~ Exists (Forall (meets v)) (flaws cs n).
Proof.
  induction n as [k ats pre kids post IH] using node_rect'. intros cs H E. cbn [flaws] in E.
  apply Exists_app in E. destruct E as [E|E].
  - destruct (existsb malformed ats); inversion E as [? ? F|? ? F]; [contradiction|inversion F].
  - apply Exists_exists in E. destruct E as (c & Hc & F). apply in_flat_map in Hc. destruct Hc as (x & Hx & Hc).
    rewrite Forall_forall in IH. eapply (IH x Hx); [|apply Exists_exists; eauto].
    destruct (limit ats); [|exact H]. intros K. inversion K. contradiction.
Qed.
Lemma unversioned_flaws n : unversioned n = true -> forall cs, flaws cs n = [].
Proof.
  induction n as [k ats pre kids post IH] using node_rect'. cbn [unversioned flaws]. intros H cs.
  apply andb_prop in H. destruct H as (Ha & Hk). rewrite (unmarked_limit _ Ha).
  replace (existsb malformed ats) with false.
  - cbn [app]. induction IH as [|x l Hx _ IHl]; [reflexivity|]. cbn in Hk |- *. apply andb_prop in Hk. destruct Hk.
    rewrite Hx by assumption. now apply IHl.
  - clear -Ha. induction ats as [|[] ats IH]; cbn in *; [reflexivity|discriminate|auto].
Qed.
Theorem fold_flaws n : placed n = true -> forall cs, Forall (meets v) cs ->
  (snd (fold v n) = true <-> Exists (Forall (meets v)) (flaws cs n)).
Proof.
  induction n as [k ats pre kids post IH] using node_rect'. intros H cs Hc.
  rewrite fold_eq. destruct (is_active_spec ats true) as (kept & -> & K & U). cbv zeta. cbn [flaws].
  rewrite Exists_app.
  assert (Own : Exists (Forall (meets v)) (if existsb malformed ats then [cs] else []) <-> existsb malformed ats = true).
  { destruct (existsb malformed ats); split; intros E; auto; try discriminate. inversion E. }
  assert (Kids : forall i, Forall (meets v) i -> k <> KField ->
    (err_all kids = true <-> Exists (Forall (meets v)) (flat_map (flaws i) kids))).
  { intros i Hi Nk.
    assert (P : forallb placed kids = true) by (destruct k; cbn in H; try assumption; [congruence|]; now apply andb_prop in H).
    rewrite forallb_forall in P. rewrite Forall_forall in IH. unfold err_all. rewrite existsb_exists, Exists_exists. split.
    - intros (x & Hx & E). apply (IH x Hx (P x Hx) i Hi) in E. apply Exists_exists in E. destruct E as (c & I1 & I2).
      exists c. split; [|exact I2]. apply in_flat_map. eauto.
    - intros (c & I1 & I2). apply in_flat_map in I1. destruct I1 as (x & Hx & I1). exists x. split; [exact Hx|].
      apply (IH x Hx (P x Hx) i Hi). apply Exists_exists. eauto. }
  assert (None_ : forall i, ~ Forall (meets v) i -> ~ Exists (Forall (meets v)) (flat_map (flaws i) kids)).
  { intros i Hi E. apply Exists_exists in E. destruct E as (c & I1 & I2). apply in_flat_map in I1.
    destruct I1 as (x & Hx & I1). apply (flaws_out x i Hi). apply Exists_exists. eauto. }
  assert (Hf : k = KField -> forall i, flat_map (flaws i) kids = []).
  { intros -> i. cbn in H. clear -H. induction kids as [|x l IHl]; [reflexivity|]. cbn in *.
    apply andb_prop in H. destruct H as (H1 & H2). rewrite unversioned_flaws by exact H1. now apply IHl. }
  assert (Plain : k = KPlain -> limit ats = None /\ existsb malformed ats = false).
  { intros ->. cbn in H. apply andb_prop in H. destruct H as (H & _). split; [now apply unmarked_limit|].
    clear -H. induction ats as [|[] ats IH]; cbn in *; [reflexivity|discriminate|auto]. }
  destruct (limit ats) as [vs|] eqn:El.
  - destruct (req_matches vs v) eqn:Em.
    + assert (Hi : Forall (meets v) (Within vs :: cs)) by (constructor; [now apply req_matches_in|exact Hc]).
      specialize (Kids _ Hi).
      destruct k; cbn [snd]; rewrite ?Bool.orb_true_iff, Own;
        try (rewrite (Kids ltac:(discriminate)); reflexivity).
      * rewrite (Hf eq_refl). split; [auto|]. intros [E|E]; [exact E|inversion E].
      * destruct (Plain eq_refl). discriminate.
    + assert (Ho : ~ Forall (meets v) (Within vs :: cs)).
      { intros F. inversion F as [|? ? M]. cbn in M. apply req_matches_in in M. congruence. }
      specialize (None_ _ Ho).
      destruct k; cbn [snd]; rewrite ?Own; try (split; [auto|intros [E|E]; [exact E|contradiction]]).
      destruct (Plain eq_refl). discriminate.
  - specialize (Kids _ Hc).
    destruct k; cbn [snd]; rewrite ?Bool.orb_true_iff, Own;
      try (rewrite (Kids ltac:(discriminate)); reflexivity).
    + rewrite (Hf eq_refl). split; [auto|]. intros [E|E]; [exact E|inversion E].
    + destruct (Plain eq_refl) as (_ & E). rewrite E, (Kids ltac:(discriminate)).
      split; [auto|intros [?|?]; [discriminate|assumption]].
Qed.
End SELECTION.

(** *** Whole modules *)
Lemma fold_items_some v items r : forallb placed items = true -> fold_items v items = Some r ->
  selection v (flat_map (tagged []) items) (flat_map print r).
Proof.
  revert r. induction items as [|x l IH]; cbn [fold_items forallb flat_map]; intros r H E.
  - injection E as <-. constructor.
  - apply andb_prop in H. destruct H as (H1 & H2). pose proof (fold_selection v x H1 [] (Forall_nil _)) as S.
    destruct (fold v x) as [y e]. destruct e; [discriminate|]. destruct (fold_items v l) as [r'|]; [|discriminate].
    injection E as <-. rewrite flat_map_app. apply sel_app; [exact S|]. now apply IH.
Qed.
Lemma fold_items_none v items : forallb placed items = true ->
  (fold_items v items = None <-> Exists (Forall (meets v)) (flat_map (flaws []) items)).
Proof.
  induction items as [|x l IH]; cbn [fold_items forallb flat_map]; intros H.
  - split; [discriminate|intros E; inversion E].
  - apply andb_prop in H. destruct H as (H1 & H2). pose proof (fold_flaws v x H1 [] (Forall_nil _)) as S.
    rewrite Exists_app, <- S, <- (IH H2). destruct (fold v x) as [y e]. cbn [snd].
    destruct e; [split; auto|]. destruct (fold_items v l) as [r'|].
    + split; [discriminate|intros [E|E]; discriminate].
    + split; auto.
Qed.

Lemma modules_some vis items : forallb placed items = true -> forall vs out, modules vis items vs = Some out ->
  exists bodies, Forall2 (fun v body => selection v (flat_map (tagged []) items) body) vs bodies /\
    out = flat_map (fun vb => vis ++ ["mod"; as_ident (fst vb); "{"] ++ snd vb ++ ["}"]) (combine vs bodies).
Proof.
  intros H. induction vs as [|v vs IH]; cbn [modules]; intros out E.
  - injection E as <-. exists []. now split; [constructor|].
  - destruct (fold_items v items) as [r|] eqn:Er; [|discriminate].
    destruct (modules vis items vs) as [o|]; [|discriminate]. injection E as <-.
    destruct (IH o eq_refl) as (bodies & F & ->). exists (flat_map print r :: bodies). split.
    + constructor; [now apply fold_items_some|exact F].
    + reflexivity.
Qed.
Lemma modules_none vis items : forallb placed items = true -> forall vs,
  (modules vis items vs = None <-> exists v, In v vs /\ Exists (Forall (meets v)) (flat_map (flaws []) items)).
Proof.
  intros H. induction vs as [|v vs IH]; cbn [modules In].
  - split; [discriminate|intros (v & [] & _)].
  - pose proof (fold_items_none v items H) as N. destruct (fold_items v items) as [r|] eqn:Er.
    + destruct (modules vis items vs) as [o|].
      * split; [discriminate|]. intros (w & [<-|Hw] & E); [apply N in E; discriminate|].
        assert (Some o = None) by (apply IH; eauto). discriminate.
      * split; [|reflexivity]. intros _. destruct (proj1 IH eq_refl) as (w & Hw & E). eauto.
    + split; [|reflexivity]. intros _. exists v. split; [now left|now apply N].
Qed.

(** *** Names *)
Lemma split_once_digits c s t : digits s -> ~ In c ["0"; "1"; "2"; "3"; "4"; "5"; "6"; "7"; "8"; "9"]%char ->
  split_once c (s ++ String c t)%string = Some (s, t).
Proof.
  intros H N. induction H as [|a s Ha _ IH]; cbn.
  - now rewrite Ascii.eqb_refl.
  - destruct (Ascii.eqb_spec a c) as [->|]; [contradiction|]. now rewrite IH.
Qed.
Lemma as_ident_inj a b : as_ident a = as_ident b -> a = b.
Proof.
  unfold as_ident. intros E. injection E as E.
  assert (F : split_once "_" (string_of_N (major a) ++ String "_" (string_of_N (minor a))) =
              split_once "_" (string_of_N (major b) ++ String "_" (string_of_N (minor b)))) by now rewrite E.
  rewrite !split_once_digits in F;
    try (cbn; intuition discriminate); try apply string_of_N_digits.
  injection F as F1 F2. apply string_of_N_inj in F1, F2. destruct a, b. cbn in *. now subst.
Qed.
Lemma parse_usize_text n : (n < 18446744073709551616)%N -> parse_usize (string_of_N n) = Some n.
Proof.
  intros H. unfold parse_usize. destruct (string_of_N_digits n) as (D & _).
  assert (E : match string_of_N n with String "+" s' => s' | _ => string_of_N n end = string_of_N n).
  { destruct D as [|a s Ha _]; [reflexivity|]. digit_cases Ha; reflexivity. }
  rewrite E, parse_string_of_N. apply N.ltb_lt in H. now rewrite H.
Qed.
Lemma parse_version_text v : (major v < 18446744073709551616)%N -> (minor v < 18446744073709551616)%N ->
  parse_version (string_of_N (major v) ++ "." ++ string_of_N (minor v)) = Some v.
Proof.
  intros H1 H2. unfold parse_version. cbn [append].
  rewrite split_once_digits; [|apply string_of_N_digits|cbn; intuition discriminate].
  rewrite !parse_usize_text by assumption. now destruct v.
Qed.

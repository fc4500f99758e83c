(** How to show that a value conforms to a schema, or violates it. *)
From Verif Require Import Base ModelTypes Strings Regex Json Schema.
From Coq Require Import ZArith.
Open Scope string_scope.
Open Scope list_scope.
Open Scope nat_scope.

(** ** More steps do not change an answer *)
Definition refines {A} (a b : option A) : Prop := forall x, a = Some x -> b = Some x.

Lemma refines_refl {A} (a : option A) : refines a a.
Proof. intros x E; exact E. Qed.
Lemma refines_none {A} (a : option A) : refines None a.
Proof. intros x E; discriminate. Qed.

Lemma and3_refines a a' b b' : refines a a' -> refines b b' -> refines (and3 a b) (and3 a' b').
Proof.
  intros Ha Hb x. destruct a as [[]|], b as [[]|]; cbn; intros E; try discriminate; injection E as <-;
    try (rewrite (Ha _ eq_refl)); try (rewrite (Hb _ eq_refl)); try reflexivity;
    destruct a' as [[]|]; reflexivity.
Qed.
Lemma or3_refines a a' b b' : refines a a' -> refines b b' -> refines (or3 a b) (or3 a' b').
Proof.
  intros Ha Hb x. destruct a as [[]|], b as [[]|]; cbn; intros E; try discriminate; injection E as <-;
    try (rewrite (Ha _ eq_refl)); try (rewrite (Hb _ eq_refl)); try reflexivity;
    destruct a' as [[]|]; reflexivity.
Qed.
Lemma all3_refines {A} (f g : A -> option bool) l :
  (forall x, refines (f x) (g x)) -> refines (all3 f l) (all3 g l).
Proof. intros H. induction l; cbn; [apply refines_refl|]. apply and3_refines; [apply H|exact IHl]. Qed.
Lemma any3_refines {A} (f g : A -> option bool) l :
  (forall x, refines (f x) (g x)) -> refines (any3 f l) (any3 g l).
Proof. intros H. induction l; cbn; [apply refines_refl|]. apply or3_refines; [apply H|exact IHl]. Qed.
Lemma count3_refines {A} (f g : A -> option bool) l :
  (forall x, refines (f x) (g x)) -> refines (count3 f l) (count3 g l).
Proof.
  intros H. induction l as [|a l IH]; cbn; [apply refines_refl|].
  intros n. destruct (f a) as [b|] eqn:E; [|discriminate]. rewrite (H _ _ E).
  destruct (count3 f l) as [m|]; [|discriminate]. rewrite (IH _ eq_refl). auto.
Qed.

Section Rules.
Variable fmt : string -> string -> bool.
Variable D : list (string * schema).
Notation validates := (validates fmt D).
Notation judge := (judge fmt D).
Notation conforms := (conforms fmt D).
Notation violates := (violates fmt D).

Lemma judge_refines r1 r2 k j :
  (forall s j, refines (r1 s j) (r2 s j)) -> refines (judge r1 k j) (judge r2 k j).
Proof.
  intros H. destruct k; cbn [Schema.judge]; try apply refines_refl.
  - destruct j; cbn; try apply refines_refl. apply all3_refines. intros [k x]. cbn.
    destruct (assoc k ps); [apply H|apply refines_refl].
  - destruct j; cbn; try apply refines_refl. apply all3_refines. intros; apply H.
  - destruct j; cbn; try apply refines_refl. apply all3_refines. intros; apply H.
  - apply any3_refines. intros; apply H.
  - intros b. destruct (count3 _ l) as [n|] eqn:E; [|discriminate].
    rewrite (count3_refines _ _ _ (fun s => H s j) _ E). auto.
  - apply all3_refines. intros; apply H.
  - destruct (assoc r D); [apply H|apply refines_refl].
Qed.

Lemma validates_step n : forall s j, refines (validates n s j) (validates (S n) s j).
Proof.
  induction n as [|n IH]; intros s j; [apply refines_none|].
  change (refines (all3 (fun k => judge (validates n) k j) (keywords s))
                  (all3 (fun k => judge (validates (S n)) k j) (keywords s))).
  apply all3_refines. intros k. apply judge_refines. exact IH.
Qed.
Lemma validates_mono n m s j b : n <= m -> validates n s j = Some b -> validates m s j = Some b.
Proof. induction 1; auto. intros. apply validates_step; auto. Qed.
Lemma judge_mono n m k j b : n <= m -> judge (validates n) k j = Some b -> judge (validates m) k j = Some b.
Proof. intros L E. eapply judge_refines; [|exact E]. intros s' j' x. apply validates_mono; exact L. Qed.

(** a value cannot do both *)
Lemma not_both s j : conforms s j -> violates s j -> False.
Proof.
  intros [n Hn] [m Hm].
  apply (validates_mono _ (Nat.max n m)) in Hn; [|lia].
  apply (validates_mono _ (Nat.max n m)) in Hm; [|lia]. congruence.
Qed.

(** ** Single keywords *)
Definition meets (k : keyword) (j : json) : Prop := exists n, judge (validates n) k j = Some true.
Definition fails (k : keyword) (j : json) : Prop := exists n, judge (validates n) k j = Some false.

Lemma all3_true {A} (f : A -> option bool) l : all3 f l = Some true <-> forall x, In x l -> f x = Some true.
Proof.
  induction l as [|a l IH]; cbn [all3 fold_right].
  - split; [intros _ x []|reflexivity].
  - fold (all3 f l). split.
    + intros E. destruct (f a) as [[]|] eqn:F, (all3 f l) as [[]|] eqn:G; try discriminate.
      intros x [<-|I]; [exact F|]. apply IH; auto.
    + intros H. rewrite (H a (or_introl eq_refl)). rewrite (proj2 IH); [reflexivity|]. intros x I; apply H; right; exact I.
Qed.
Lemma all3_false {A} (f : A -> option bool) l x : In x l -> f x = Some false -> all3 f l = Some false.
Proof.
  induction l as [|a l IH]; [intros []|]. intros [<-|I] F; cbn [all3 fold_right]; fold (all3 f l).
  - rewrite F. reflexivity.
  - rewrite (IH I F). destruct (f a) as [[]|]; reflexivity.
Qed.
Lemma any3_true {A} (f : A -> option bool) l x : In x l -> f x = Some true -> any3 f l = Some true.
Proof.
  induction l as [|a l IH]; [intros []|]. intros [<-|I] F; cbn [any3 fold_right]; fold (any3 f l).
  - rewrite F. reflexivity.
  - rewrite (IH I F). destruct (f a) as [[]|]; reflexivity.
Qed.

(** one number of steps for a whole list *)
Lemma common_steps {A} (P : nat -> A -> Prop) l :
  (forall n m x, n <= m -> P n x -> P m x) ->
  (forall x, In x l -> exists n, P n x) -> exists n, forall x, In x l -> P n x.
Proof.
  intros M. induction l as [|a l IH]; intros H; [exists 0; intros x []|].
  destruct (H a (or_introl eq_refl)) as [n Hn]. destruct IH as [m Hm]; [intros x I; apply H; right; exact I|].
  exists (Nat.max n m). intros x [<-|I]; [eapply M; [|exact Hn]|eapply M; [|exact (Hm _ I)]]; lia.
Qed.

Lemma conforms_intro ks j : Forall (fun k => meets k j) ks -> conforms (Sch ks) j.
Proof.
  intros H. rewrite Forall_forall in H.
  destruct (common_steps (fun n k => judge (validates n) k j = Some true) ks) as [n Hn]; auto.
  { intros; eapply judge_mono; eauto. }
  exists (S n). cbn [Schema.validates keywords]. apply all3_true. exact Hn.
Qed.
Lemma violates_intro k ks j : In k ks -> fails k j -> violates (Sch ks) j.
Proof. intros I [n F]. exists (S n). cbn [Schema.validates keywords]. eapply all3_false; eauto. Qed.

Lemma meets_type t j : has_type t j = true -> meets (KType t) j.
Proof. intros E. exists 0. cbn [Schema.judge]; unfold on_string, on_array. now rewrite E. Qed.
Lemma fails_type t j : has_type t j = false -> fails (KType t) j.
Proof. intros E. exists 0. cbn [Schema.judge]; unfold on_string, on_array. now rewrite E. Qed.
Lemma existsb_eqb s l : existsb (String.eqb s) l = true <-> In s l.
Proof.
  rewrite existsb_exists. split; [intros (x & I & E); apply String.eqb_eq in E; now subst|].
  intros I. exists s. split; [exact I|apply String.eqb_refl].
Qed.
Lemma meets_enum l s : In s l -> meets (KEnum l) (JStr s).
Proof. intros I. exists 0. cbn. apply existsb_eqb in I. now rewrite I. Qed.
Lemma fails_enum l s : ~ In s l -> fails (KEnum l) (JStr s).
Proof.
  intros I. exists 0. cbn. destruct (existsb (String.eqb s) l) eqn:E; [|reflexivity].
  apply existsb_eqb in E. contradiction.
Qed.
Lemma meets_pattern r s : is_match r s = true -> meets (KPattern r) (JStr s).
Proof. intros E. exists 0. cbn [Schema.judge]; unfold on_string, on_array. now rewrite E. Qed.
Lemma meets_format f s : fmt f s = true -> meets (KFormat f) (JStr s).
Proof. intros E. exists 0. cbn [Schema.judge]; unfold on_string, on_array. now rewrite E. Qed.
Lemma fails_format f s : fmt f s = false -> fails (KFormat f) (JStr s).
Proof. intros E. exists 0. cbn [Schema.judge]; unfold on_string, on_array. now rewrite E. Qed.
Lemma meets_min_length n s : (n <= chars s)%N -> meets (KMinLength n) (JStr s).
Proof. intros E. exists 0. cbn [Schema.judge]; unfold on_string, on_array. apply N.leb_le in E. now rewrite E. Qed.
Lemma meets_max_length n s : (chars s <= n)%N -> meets (KMaxLength n) (JStr s).
Proof. intros E. exists 0. cbn [Schema.judge]; unfold on_string, on_array. apply N.leb_le in E. now rewrite E. Qed.
Lemma meets_min_items n l : (n <= N.of_nat (List.length l))%N -> meets (KMinItems n) (JArr l).
Proof. intros E. exists 0. cbn [Schema.judge]; unfold on_string, on_array. apply N.leb_le in E. now rewrite E. Qed.
Lemma fails_min_items n l : (N.of_nat (List.length l) < n)%N -> fails (KMinItems n) (JArr l).
Proof. intros E. exists 0. cbn [Schema.judge]; unfold on_string, on_array. apply N.leb_gt in E. now rewrite E. Qed.
Lemma meets_max_items n l : (N.of_nat (List.length l) <= n)%N -> meets (KMaxItems n) (JArr l).
Proof. intros E. exists 0. cbn [Schema.judge]; unfold on_string, on_array. apply N.leb_le in E. now rewrite E. Qed.
Lemma fails_max_items n l : (n < N.of_nat (List.length l))%N -> fails (KMaxItems n) (JArr l).
Proof. intros E. exists 0. cbn [Schema.judge]; unfold on_string, on_array. apply N.leb_gt in E. now rewrite E. Qed.
Lemma meets_minimum z j : (forall p, number j = Some p -> at_least z p = true) -> meets (KMinimum z) j.
Proof. intros H. exists 0. cbn [Schema.judge]; unfold on_number. destruct (number j); [rewrite (H _ eq_refl)|]; reflexivity. Qed.
Lemma meets_maximum z j : (forall p, number j = Some p -> at_most z p = true) -> meets (KMaximum z) j.
Proof. intros H. exists 0. cbn [Schema.judge]; unfold on_number. destruct (number j); [rewrite (H _ eq_refl)|]; reflexivity. Qed.
Lemma meets_unique l : all_different l = true -> meets KUnique (JArr l).
Proof. intros E. exists 0. cbn [Schema.judge]; unfold on_string, on_array. now rewrite E. Qed.
Lemma fails_unique l : all_different l = false -> fails KUnique (JArr l).
Proof. intros E. exists 0. cbn [Schema.judge]; unfold on_string, on_array. now rewrite E. Qed.

Lemma meets_ref r s j : assoc r D = Some s -> conforms s j -> meets (KRef r) j.
Proof. intros E [n H]. exists n. cbn. now rewrite E. Qed.
Lemma fails_ref r s j : assoc r D = Some s -> violates s j -> fails (KRef r) j.
Proof. intros E [n H]. exists n. cbn. now rewrite E. Qed.
Lemma conforms_ref r s j : assoc r D = Some s -> conforms s j -> conforms (Sch [KRef r]) j.
Proof. intros E H. apply conforms_intro. repeat constructor. eapply meets_ref; eauto. Qed.
Lemma violates_ref r s j : assoc r D = Some s -> violates s j -> violates (Sch [KRef r]) j.
Proof. intros E H. eapply violates_intro; [left; reflexivity|]. eapply fails_ref; eauto. Qed.

Lemma meets_items s l : Forall (conforms s) l -> meets (KItems s) (JArr l).
Proof.
  rewrite Forall_forall. intros H.
  destruct (common_steps (fun n j => validates n s j = Some true) l) as [n Hn]; auto.
  { intros; eapply validates_mono; eauto. }
  exists n. cbn. apply all3_true. exact Hn.
Qed.
Lemma fails_items s l x : In x l -> violates s x -> fails (KItems s) (JArr l).
Proof. intros I [n H]. exists n. cbn. eapply all3_false; eauto. Qed.
Lemma meets_tuple ss l : Forall (fun p => conforms (fst p) (snd p)) (combine ss l) -> meets (KTuple ss) (JArr l).
Proof.
  rewrite Forall_forall. intros H.
  destruct (common_steps (fun n p => validates n (fst p) (snd p) = Some true) (combine ss l)) as [n Hn]; auto.
  { intros; eapply validates_mono; eauto. }
  exists n. cbn. apply all3_true. exact Hn.
Qed.
Lemma fails_tuple s ss x l : violates s x -> fails (KTuple (s :: ss)) (JArr (x :: l)).
Proof. intros [n H]. exists n. cbn. rewrite H. reflexivity. Qed.
Lemma meets_any s ss j : In s ss -> conforms s j -> meets (KAnyOf ss) j.
Proof. intros I [n H]. exists n. cbn. eapply any3_true; eauto. Qed.
Lemma meets_all ss j : Forall (fun s => conforms s j) ss -> meets (KAllOf ss) j.
Proof.
  rewrite Forall_forall. intros H.
  destruct (common_steps (fun n s => validates n s j = Some true) ss) as [n Hn]; auto.
  { intros; eapply validates_mono; eauto. }
  exists n. cbn. apply all3_true. exact Hn.
Qed.

(** exactly the alternative at position [i] holds *)
Fixpoint only (i : nat) (ss : list schema) (j : json) : Prop :=
  match ss, i with
  | [], _ => False
  | s :: ss', 0 => conforms s j /\ Forall (fun s => violates s j) ss'
  | s :: ss', S i' => violates s j /\ only i' ss' j
  end.
Lemma count3_zero ss j : Forall (fun s => violates s j) ss -> exists n, forall m, n <= m -> count3 (fun s => validates m s j) ss = Some 0.
Proof.
  induction 1 as [|s ss [n Hn] H IH]; [exists 0; reflexivity|]. destruct IH as [m Hm].
  exists (Nat.max n m). intros k L. cbn. rewrite (validates_mono n k _ _ _ ltac:(lia) Hn), (Hm k ltac:(lia)). reflexivity.
Qed.
Lemma only_count i : forall ss j, only i ss j -> exists n, forall m, n <= m -> count3 (fun s => validates m s j) ss = Some 1.
Proof.
  induction i as [|i IH]; intros [|s ss] j; cbn [only]; try intros [].
  - destruct H as [n Hn]. destruct (count3_zero _ _ H0) as [m Hm]. exists (Nat.max n m).
    intros k L. cbn. rewrite (validates_mono n k _ _ _ ltac:(lia) Hn), (Hm k ltac:(lia)). reflexivity.
  - destruct H as [n Hn]. destruct (IH _ _ H0) as [m Hm]. exists (Nat.max n m).
    intros k L. cbn. rewrite (validates_mono n k _ _ _ ltac:(lia) Hn), (Hm k ltac:(lia)). reflexivity.
Qed.
Lemma meets_one i ss j : only i ss j -> meets (KOneOf ss) j.
Proof. intros H. destruct (only_count _ _ _ H) as [n Hn]. exists n. cbn. now rewrite (Hn n ltac:(lia)). Qed.
Lemma fails_one ss j : Forall (fun s => violates s j) ss -> fails (KOneOf ss) j.
Proof. intros H. destruct (count3_zero _ _ H) as [n Hn]. exists n. cbn. now rewrite (Hn n ltac:(lia)). Qed.

(** ** Objects as the library writes them *)
Lemma in_members k j fs : In (k, j) (members fs) <-> In (k, Some j) fs.
Proof.
  induction fs as [|[k' [x|]] fs IH]; cbn; [tauto| |].
  - rewrite IH. split; (intros [E|I]; [left; congruence|right; exact I]).
  - rewrite IH. split; [auto|]. intros [E|I]; [discriminate|exact I].
Qed.
Definition member_ok (ps : list (string * schema)) (m : string * option json) : Prop :=
  match snd m, assoc (fst m) ps with Some j, Some s => conforms s j | _, _ => True end.
Lemma meets_properties ps fs : Forall (member_ok ps) fs -> meets (KProperties ps) (obj fs).
Proof.
  rewrite Forall_forall. intros H.
  destruct (common_steps (fun n m => match assoc (fst m) ps with Some s => validates n s (snd m) | None => Some true end = Some true)
              (members fs)) as [n Hn].
  - intros n m [k x] L. cbn. destruct (assoc k ps); [|auto]. apply validates_mono; exact L.
  - intros [k x] I. cbn. apply in_members in I. specialize (H _ I). unfold member_ok in H. cbn in H.
    destruct (assoc k ps); [exact H|exists 0; reflexivity].
  - exists n. cbn [Schema.judge]; unfold obj, on_object. apply all3_true. exact Hn.
Qed.
Lemma fails_properties ps fs k j s :
  In (k, Some j) fs -> assoc k ps = Some s -> violates s j -> fails (KProperties ps) (obj fs).
Proof.
  intros I E [n H]. exists n. cbn [Schema.judge]; unfold obj, on_object.
  eapply all3_false; [apply in_members; exact I|]. cbn. now rewrite E.
Qed.
Definition present (k : string) (fs : list (string * option json)) : Prop := exists j, In (k, Some j) fs.
Definition absent (k : string) (fs : list (string * option json)) : Prop :=
  Forall (fun m => snd m = None \/ fst m <> k) fs.
Lemma meets_required l fs : Forall (fun k => present k fs) l -> meets (KRequired l) (obj fs).
Proof.
  rewrite Forall_forall. intros H. exists 0. cbn [Schema.judge]; unfold obj, on_object. f_equal.
  apply forallb_forall. intros k I. destruct (H k I) as [j J]. apply existsb_exists.
  exists (k, j). split; [apply in_members; exact J|apply String.eqb_refl].
Qed.
Lemma fails_required l fs k : In k l -> absent k fs -> fails (KRequired l) (obj fs).
Proof.
  intros I A. exists 0. cbn [Schema.judge]; unfold obj, on_object. f_equal.
  destruct (forallb _ l) eqn:E; [|reflexivity]. rewrite forallb_forall in E. specialize (E k I).
  apply existsb_exists in E as ([k' j] & J & E). cbn in E. apply String.eqb_eq in E. subst k'.
  apply in_members in J. unfold absent in A. rewrite Forall_forall in A. destruct (A _ J) as [Q|Q]; cbn in Q; congruence.
Qed.
Lemma meets_only l fs : Forall (fun m => snd m = None \/ existsb (String.eqb (fst m)) l = true) fs -> meets (KOnly l) (obj fs).
Proof.
  rewrite Forall_forall. intros H. exists 0. cbn [Schema.judge]; unfold obj, on_object. f_equal.
  apply forallb_forall. intros [k j] I. apply in_members in I. destruct (H _ I) as [Q|Q]; cbn in Q; [discriminate|exact Q].
Qed.
Lemma fails_only l fs k j : In (k, Some j) fs -> existsb (String.eqb k) l = false -> fails (KOnly l) (obj fs).
Proof.
  intros I E. exists 0. cbn [Schema.judge]; unfold obj, on_object. f_equal.
  destruct (forallb _ (members fs)) eqn:F; [|reflexivity]. rewrite forallb_forall in F.
  apply in_members in I. specialize (F _ I). cbn in F. congruence.
Qed.

Lemma member_none ps k : member_ok ps (k, None).
Proof. exact I. Qed.
Lemma member_free ps k o : assoc k ps = None -> member_ok ps (k, o).
Proof. unfold member_ok. cbn. intros ->. destruct o; exact I. Qed.
Lemma member_some ps k s j : assoc k ps = Some s -> conforms s j -> member_ok ps (k, Some j).
Proof. unfold member_ok. cbn. now intros ->. Qed.
Lemma member_opt {A} ps k s (f : A -> json) o :
  assoc k ps = Some s -> (forall a, o = Some a -> conforms s (f a)) -> member_ok ps (k, opt f o).
Proof. unfold member_ok. cbn. intros ->. destruct o; cbn; auto. Qed.
Lemma meets_arr {A} s (f : A -> json) l : (forall a, In a l -> conforms s (f a)) -> meets (KItems s) (arr f l).
Proof. intros H. apply meets_items. rewrite Forall_forall. intros j I. apply in_map_iff in I as (a & <- & I). auto. Qed.
End Rules.

(** ** Uniqueness *)
Lemma different_texts l : NoDup l -> all_different (map JStr l) = true.
Proof.
  induction 1 as [|s l N H IH]; [reflexivity|]. cbn. rewrite IH, andb_true_r.
  apply forallb_forall. intros j I. apply in_map_iff in I as (t & <- & I). cbn.
  destruct (String.eqb s t) eqn:E; [|reflexivity]. apply String.eqb_eq in E. subst. contradiction.
Qed.

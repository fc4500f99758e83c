(** Shared vocabulary of the model: outcomes with explicit panics, and ordered
    maps ([BTreeMap]) as sorted association lists. *)
From Coq Require Export List String Ascii Bool Arith Lia Permutation.
From Coq Require Import OrderedTypeEx.
Export ListNotations.
Open Scope list_scope.

(** ** Outcomes
    What running a piece of Rust code may produce: a normal value, a returned
    error ([Err(..)]), or a panic (unwrap on [None], missing index, [panic!]).
    [OutOfFuel] is not a behaviour of the program: it marks that the model's
    loop bound was too small, and is proved avoidable wherever fuel is used. *)
Inductive outcome (A : Type) : Type :=
| Done (a : A)
| Fail (msg : string)
| Panic (msg : string)
| OutOfFuel.
Arguments Done {A} a.
Arguments Fail {A} msg.
Arguments Panic {A} msg.
Arguments OutOfFuel {A}.

(** Sequencing of outcomes (Rust: straight-line code, with [?] on results). *)
Definition bind {A B} (x : outcome A) (f : A -> outcome B) : outcome B :=
  match x with
  | Done a => f a
  | Fail m => Fail m
  | Panic m => Panic m
  | OutOfFuel => OutOfFuel
  end.
Notation "'do' x <- e ; f" := (bind e (fun x => f))
  (at level 200, x pattern, e at level 100, f at level 200, right associativity).

(** [Option::unwrap] and indexing: panics on [None]. *)
Definition unwrap {A} (msg : string) (x : option A) : outcome A :=
  match x with Some a => Done a | None => Panic msg end.

Fixpoint mapM {A B} (f : A -> outcome B) (l : list A) : outcome (list B) :=
  match l with
  | [] => Done []
  | x :: l' => do y <- f x; do ys <- mapM f l'; Done (y :: ys)
  end.

Lemma bind_done {A B} (x : outcome A) (f : A -> outcome B) b :
  bind x f = Done b -> exists a, x = Done a /\ f a = Done b.
Proof. destruct x as [a| | |]; simpl; intros H; try discriminate. eauto. Qed.

Lemma unwrap_done {A} m (x : option A) a : unwrap m x = Done a -> x = Some a.
Proof. destruct x; simpl; congruence. Qed.

Lemma mapM_done {A B} (f : A -> outcome B) l r :
  mapM f l = Done r -> Forall2 (fun x y => f x = Done y) l r.
Proof.
  revert r; induction l as [|x l IH]; simpl; intros r H.
  - injection H as <-. constructor.
  - apply bind_done in H as [y [Hy H]]. apply bind_done in H as [ys [Hys H]].
    injection H as <-. constructor; auto.
Qed.

Lemma mapM_Forall2 {A B} (f : A -> outcome B) l r :
  Forall2 (fun x y => f x = Done y) l r -> mapM f l = Done r.
Proof. induction 1 as [|x y l r Hx _ IH]; simpl; auto. now rewrite Hx, IH. Qed.

Ltac inv_bind H :=
  let a := fresh "v" in let Ha := fresh "Hv" in
  apply bind_done in H; destruct H as [a [Ha H]].

(** ** Byte-wise string order (Rust [Ord] on [String]). *)
Definition slt (a b : string) : Prop := String_as_OT.lt a b.

Lemma slt_trans a b c : slt a b -> slt b c -> slt a c.
Proof. apply String_as_OT.lt_trans. Qed.
Lemma slt_irrefl a : ~ slt a a.
Proof. intros H. apply String_as_OT.lt_not_eq in H. now apply H. Qed.
Lemma compare_lt a b : String.compare a b = Lt <-> slt a b.
Proof. apply String_as_OT.cmp_lt. Qed.
Lemma compare_eq a b : String.compare a b = Eq <-> a = b.
Proof. apply String_as_OT.cmp_eq. Qed.
Lemma compare_gt a b : String.compare a b = Gt <-> slt b a.
Proof.
  rewrite <- compare_lt. rewrite String.compare_antisym.
  destruct (String.compare b a); simpl; split; congruence.
Qed.

(** ** [BTreeMap<String-like, V>] as an association list sorted by key. *)
Section BMap.
  Context {V : Type}.
  Definition bmap := list (string * V).

  (** [BTreeMap::insert]: replaces the value of an existing key. *)
  Fixpoint bm_insert (k : string) (v : V) (m : bmap) : bmap :=
    match m with
    | [] => [(k, v)]
    | (k', v') :: m' =>
        match String.compare k k' with
        | Lt => (k, v) :: m
        | Eq => (k, v) :: m'
        | Gt => (k', v') :: bm_insert k v m'
        end
    end.

  (** [BTreeMap::get]. *)
  Fixpoint bm_get (k : string) (m : bmap) : option V :=
    match m with
    | [] => None
    | (k', v') :: m' => if String.eqb k k' then Some v' else bm_get k m'
    end.

  (** [BTreeMap::contains_key]. *)
  Definition bm_mem (k : string) (m : bmap) : bool :=
    match bm_get k m with Some _ => true | None => false end.

  (** [iter().collect()]: inserts one after another, later keys win. *)
  Definition bm_of_list (l : list (string * V)) : bmap :=
    fold_left (fun m kv => bm_insert (fst kv) (snd kv) m) l [].

  Inductive sorted : bmap -> Prop :=
  | sorted_nil : sorted []
  | sorted_cons k v m : Forall (fun kv => slt k (fst kv)) m -> sorted m -> sorted ((k, v) :: m).

  Lemma bm_get_insert k v m k' :
    sorted m ->
    bm_get k' (bm_insert k v m) = if String.eqb k' k then Some v else bm_get k' m.
  Proof.
    induction 1 as [|k0 v0 m Hall Hs IH]; cbn [bm_insert bm_get]; [reflexivity|].
    destruct (String.compare k k0) eqn:E; cbn [bm_get].
    - apply compare_eq in E; subst k0. destruct (String.eqb k' k); reflexivity.
    - reflexivity.
    - rewrite IH. destruct (String.eqb_spec k' k0) as [->|N0]; [|reflexivity].
      destruct (String.eqb_spec k0 k) as [->|N1]; [|reflexivity].
      apply compare_gt in E. now apply slt_irrefl in E.
  Qed.

  Lemma bm_insert_keys k v m x :
    In x (map fst (bm_insert k v m)) <-> x = k \/ In x (map fst m).
  Proof.
    induction m as [|[k0 v0] m IH]; cbn [bm_insert map fst In]; [intuition congruence|].
    destruct (String.compare k k0) eqn:E; cbn [map fst In].
    - apply compare_eq in E; subst. intuition congruence.
    - intuition congruence.
    - rewrite IH. intuition congruence.
  Qed.

  Lemma bm_insert_sorted k v m : sorted m -> sorted (bm_insert k v m).
  Proof.
    induction 1 as [|k0 v0 m Hall Hs IH]; cbn [bm_insert].
    - constructor; constructor.
    - destruct (String.compare k k0) eqn:E.
      + apply compare_eq in E; subst. constructor; auto.
      + apply compare_lt in E. constructor; [|constructor; now auto].
        constructor; [exact E|]. rewrite Forall_forall in *. intros kv Hin.
        eapply slt_trans; [exact E|]. now apply Hall.
      + apply compare_gt in E. constructor; [|exact IH].
        rewrite Forall_forall in *. intros [k1 v1] Hin.
        assert (Hk : In k1 (map fst (bm_insert k v m))) by (apply in_map_iff; exists (k1,v1); auto).
        apply bm_insert_keys in Hk as [->|Hk]; auto.
        apply in_map_iff in Hk as [[k2 v2] [<- Hk]]. exact (Hall _ Hk).
  Qed.

  Lemma fold_insert_sorted l m :
    sorted m -> sorted (fold_left (fun m kv => bm_insert (fst kv) (snd kv) m) l m).
  Proof.
    revert m; induction l as [|[k v] l IH]; simpl; intros m Hm; auto.
    apply IH, bm_insert_sorted, Hm.
  Qed.

  Lemma bm_of_list_sorted l : sorted (bm_of_list l).
  Proof. apply fold_insert_sorted; constructor. Qed.

  Lemma bm_get_In k v m : bm_get k m = Some v -> In (k, v) m.
  Proof.
    induction m as [|[k0 v0] m IH]; simpl; [discriminate|].
    destruct (String.eqb_spec k k0) as [->|N]; intros H; [injection H as ->; auto|auto].
  Qed.

  Lemma bm_In_get k v m : sorted m -> In (k, v) m -> bm_get k m = Some v.
  Proof.
    induction 1 as [|k0 v0 m Hall Hs IH]; simpl; [tauto|].
    intros [H|H].
    - injection H as -> ->. now rewrite String.eqb_refl.
    - destruct (String.eqb_spec k k0) as [->|N]; auto.
      rewrite Forall_forall in Hall. apply Hall in H. simpl in H. now apply slt_irrefl in H.
  Qed.

  Lemma bm_mem_true k m : bm_mem k m = true <-> exists v, bm_get k m = Some v.
  Proof.
    unfold bm_mem; destruct (bm_get k m); split; intros H; eauto; try discriminate.
    destruct H; discriminate.
  Qed.

  Lemma bm_get_keys k m : (exists v, bm_get k m = Some v) <-> In k (map fst m).
  Proof.
    induction m as [|[k0 v0] m IH]; simpl.
    - split; [intros [v H]; discriminate|tauto].
    - destruct (String.eqb_spec k k0) as [->|N].
      + split; eauto.
      + rewrite IH. intuition congruence.
  Qed.

  (** two sorted maps with the same lookups are equal *)
  Lemma sorted_ext m1 m2 :
    sorted m1 -> sorted m2 -> (forall k, bm_get k m1 = bm_get k m2) -> m1 = m2.
  Proof.
    intros H1; revert m2; induction H1 as [|k v m1 Hall1 Hs1 IH]; intros m2 H2 Hext.
    - destruct m2 as [|[k v] m2]; auto. specialize (Hext k). simpl in Hext.
      rewrite String.eqb_refl in Hext. discriminate.
    - destruct H2 as [|k2 v2 m2 Hall2 Hs2].
      { specialize (Hext k). simpl in Hext. rewrite String.eqb_refl in Hext. discriminate. }
      assert (Hnk : forall kk vv mm, Forall (fun kv : string * V => slt kk (fst kv)) mm ->
                    bm_get kk mm = Some vv -> False).
      { intros kk vv mm Ha Hg. apply bm_get_In in Hg. rewrite Forall_forall in Ha.
        apply Ha in Hg. simpl in Hg. now apply slt_irrefl in Hg. }
      assert (k = k2) as <-.
      { pose proof (Hext k) as Ea. pose proof (Hext k2) as Eb. simpl in Ea, Eb.
        rewrite String.eqb_refl in Ea, Eb.
        destruct (String.eqb_spec k k2) as [->|N]; auto.
        destruct (String.eqb_spec k2 k) as [->|N']; [congruence|].
        symmetry in Ea. apply bm_get_In in Ea, Eb.
        rewrite Forall_forall in Hall1, Hall2. apply Hall1 in Eb; apply Hall2 in Ea.
        simpl in *. exfalso. eapply slt_irrefl, slt_trans; eauto. }
      pose proof (Hext k) as Ea. simpl in Ea. rewrite String.eqb_refl in Ea. injection Ea as <-.
      f_equal. apply IH; auto. intros k'. specialize (Hext k'). simpl in Hext.
      destruct (String.eqb_spec k' k) as [Heq|N]; [|exact Hext]. rewrite Heq.
      destruct (bm_get k m1) eqn:E1; [exfalso; eauto|].
      destruct (bm_get k m2) eqn:E2; [exfalso; eauto|]. reflexivity.
  Qed.

  (** lookup in a collected map: the last entry with the key *)
  Fixpoint assoc_last (k : string) (l : list (string * V)) : option V :=
    match l with
    | [] => None
    | (k', v) :: l' =>
        match assoc_last k l' with
        | Some w => Some w
        | None => if String.eqb k k' then Some v else None
        end
    end.

  Lemma fold_insert_get l m k :
    sorted m ->
    bm_get k (fold_left (fun m kv => bm_insert (fst kv) (snd kv) m) l m) =
    match assoc_last k l with Some v => Some v | None => bm_get k m end.
  Proof.
    revert m; induction l as [|[k0 v0] l IH]; intros m Hm; cbn [fold_left assoc_last fst snd]; auto.
    rewrite IH by now apply bm_insert_sorted.
    rewrite bm_get_insert by auto.
    destruct (assoc_last k l); auto. destruct (String.eqb k k0); auto.
  Qed.

  Lemma bm_of_list_get l k : bm_get k (bm_of_list l) = assoc_last k l.
  Proof. unfold bm_of_list. rewrite fold_insert_get by constructor. destruct (assoc_last k l); auto. Qed.

  Lemma assoc_last_In k v l : assoc_last k l = Some v -> In (k, v) l.
  Proof.
    induction l as [|[k0 v0] l IH]; cbn [assoc_last]; [discriminate|].
    destruct (assoc_last k l) eqn:E; intros H.
    - injection H as ->. right; auto.
    - destruct (String.eqb_spec k k0) as [->|]; [|discriminate]. injection H as ->. now left.
  Qed.

  Lemma assoc_last_unique k v l :
    NoDup (map fst l) -> In (k, v) l -> assoc_last k l = Some v.
  Proof.
    induction l as [|[k0 v0] l IH]; cbn [assoc_last map fst]; intros Hnd Hin; [destruct Hin|].
    inversion_clear Hnd as [|? ? Hni Hnd']. destruct Hin as [H|H].
    - injection H as -> ->. destruct (assoc_last k l) eqn:E.
      + exfalso. apply Hni. apply assoc_last_In in E. apply in_map_iff. now exists (k, v0).
      + now rewrite String.eqb_refl.
    - now rewrite (IH Hnd' H).
  Qed.

  Lemma sorted_keys_nodup m : sorted m -> NoDup (map fst m).
  Proof.
    induction 1 as [|k v m Hall Hs IH]; simpl; constructor; auto.
    intros Hin. apply in_map_iff in Hin as [[k' v'] [E Hin]]. simpl in E; subst.
    rewrite Forall_forall in Hall. apply Hall in Hin. simpl in Hin. now apply slt_irrefl in Hin.
  Qed.

  Lemma sorted_filter f m : sorted m -> sorted (filter f m).
  Proof.
    induction 1 as [|k v m Hall Hs IH]; simpl; [constructor|].
    destruct (f (k, v)); auto. constructor; auto.
    rewrite Forall_forall in *. intros x Hx. apply filter_In in Hx as [Hx _]. auto.
  Qed.

  (** a permutation of entries with distinct keys collects to the same map *)
  Lemma bm_of_list_perm l1 l2 :
    NoDup (map fst l1) -> Permutation l1 l2 -> bm_of_list l1 = bm_of_list l2.
  Proof.
    intros Hnd HP. apply sorted_ext; try apply bm_of_list_sorted.
    assert (Hnd2 : NoDup (map fst l2)).
    { eapply Permutation_NoDup; [|exact Hnd]. now apply Permutation_map. }
    intros k. rewrite !bm_of_list_get.
    destruct (assoc_last k l1) as [v|] eqn:E1.
    - symmetry. apply assoc_last_unique; auto. apply assoc_last_In in E1.
      eapply Permutation_in; eauto.
    - destruct (assoc_last k l2) as [v|] eqn:E2; auto.
      apply assoc_last_In in E2. apply Permutation_sym in HP.
      apply (Permutation_in _ HP) in E2. apply assoc_last_unique in E2; auto. congruence.
  Qed.
End BMap.
Arguments bmap V : clear implicits.

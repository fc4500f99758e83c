(** Proofs about the two graph traversals of the generator. *)
From Verif Require Import Base Strings ModelTypes ConfigModel GenModel GenSpec.
Open Scope string_scope.
Open Scope list_scope.

(** *** Small facts about kinds *)
Lemma kind_eqb_eq a b : kind_eqb a b = true <-> a = b.
Proof. destruct a, b; cbn; split; congruence. Qed.
Lemma dep_node_eqb_eq a b : dep_node_eqb a b = true <-> a = b.
Proof.
  destruct a as [[i k] p], b as [[j l] q]; cbn. rewrite !andb_true_iff, String.eqb_eq, !kind_eqb_eq.
  split; [intros [[-> ->] ->]; reflexivity|intros E; injection E as -> -> ->; auto].
Qed.
Lemma visited_mem_In x l : visited_mem x l = true <-> In x l.
Proof.
  unfold visited_mem. rewrite existsb_exists. split.
  - intros [y [Hy E]]. apply dep_node_eqb_eq in E as ->. auto.
  - intros H. exists x. split; auto. now apply dep_node_eqb_eq.
Qed.
Lemma visited_mem_false x l : visited_mem x l = false <-> ~ In x l.
Proof. rewrite <- visited_mem_In. destruct (visited_mem x l); split; congruence. Qed.
Lemma dep_node_dec (x y : dep_node) : {x = y} + {x <> y}.
Proof. destruct (dep_node_eqb x y) eqn:E; [left|right]; rewrite <- dep_node_eqb_eq; congruence. Qed.

(** *** The edges of an indexed resolve graph *)
Section Dfs.
  Variable resolve : bmap node.

  Definition redge (p q : string) (k : cargo_kind) : Prop :=
    exists n d, bm_get p resolve = Some n /\ In d (n_deps n) /\ nd_pkg d = q /\ In k (nd_kinds d).

  (** [pathk root id k]: some walk from [root] to [id] has weakest edge [k] *)
  Inductive pathk (root : string) : string -> dep_kind -> Prop :=
  | pathk_root : pathk root root Runtime
  | pathk_step p q m k c :
      pathk root p m -> redge p q k -> from_cargo_kind k = Done c -> pathk root q (kind_min c m).

  Definition child_of (x c : dep_node) : Prop :=
    let '(id, _, pk) := x in
    let '(q, ck, cpk) := c in
    exists k, redge id q k /\ from_cargo_kind k = Done ck /\ cpk = kind_min ck pk.

  Lemma kind_children_In pkg pk ks l c :
    kind_children pkg pk ks = Done l ->
    (In c l <-> exists k ck, In k ks /\ from_cargo_kind k = Done ck /\ c = (pkg, ck, kind_min ck pk)).
  Proof.
    unfold kind_children. intros H. apply mapM_done in H.
    induction H as [|k y ks l Hk _ IH]; cbn [In].
    - split; [tauto|]. intros (k & ck & [] & _).
    - apply bind_done in Hk as [ck [Ek Ey]]. injection Ey as <-. rewrite IH. split.
      + intros [<-|(k' & ck' & A & B & C)].
        * exists k, ck. auto.
        * exists k', ck'. auto.
      + intros (k' & ck' & [<-|A] & B & C).
        * left. rewrite Ek in B. injection B as <-. auto.
        * right. eauto.
  Qed.

  Lemma dep_children_In pk ds l c :
    dep_children pk ds = Done l ->
    (In c l <-> exists d k ck, In d ds /\ In k (nd_kinds d) /\ from_cargo_kind k = Done ck
                               /\ c = (nd_pkg d, ck, kind_min ck pk)).
  Proof.
    revert l; induction ds as [|d ds IH]; cbn [dep_children]; intros l H.
    - injection H as <-. split; [intros []|]. intros (d & k & ck & [] & _).
    - inv_bind H. inv_bind H. injection H as <-. rewrite in_app_iff.
      rewrite (kind_children_In _ _ _ _ c Hv), (IH _ Hv0). split.
      + intros [(k & ck & A & B & C)|(d' & k & ck & A & B & C & D)].
        * exists d, k, ck. cbn; auto.
        * exists d', k, ck. cbn; auto.
      + intros (d' & k & ck & [<-|A] & B & C & D).
        * left. eauto.
        * right. eauto 8.
  Qed.

  Lemma children_spec id k pk n l c :
    bm_get id resolve = Some n -> dep_children pk (n_deps n) = Done l ->
    (In c l <-> child_of (id, k, pk) c).
  Proof.
    intros Hn Hl. rewrite (dep_children_In _ _ _ c Hl). destruct c as [[q ck] cpk]; cbn. split.
    - intros (d & k' & ck' & A & B & C & D). injection D as -> -> ->.
      exists k'. repeat split; auto. exists n, d. auto.
    - intros (k' & (n' & d & A & B & C & D) & E & F). rewrite Hn in A. injection A as <-. subst.
      exists d, k', ck. auto.
  Qed.

  (** *** Fuel does not matter once it is enough *)
  Lemma dfs_mono fuel : forall kinds stack visited r, dfs fuel resolve kinds stack visited = r -> r <> OutOfFuel ->
    forall fuel', fuel <= fuel' -> dfs fuel' resolve kinds stack visited = r.
  Proof.
    induction fuel as [|fuel IH]; cbn [dfs]; intros kinds stack visited r H Hr fuel' Hle.
    - congruence.
    - destruct fuel' as [|fuel']; [lia|]. cbn [dfs]. destruct stack as [|[[id k] pk] rest]; auto.
      destruct (unwrap _ _) as [n| | |]; cbn [bind] in *; auto.
      destruct (dep_children _ _) as [l| | |]; cbn [bind] in *; auto.
      apply (IH _ _ _ r H Hr). lia.
  Qed.

  (** *** Partial correctness *)
  Lemma rank_inj a b : rank a = rank b -> a = b.
  Proof. destruct a, b; cbn; congruence. Qed.

  Record inv (root : string) (kinds : bmap dep_kind) (stack visited : list dep_node) : Prop := {
    inv_sorted : sorted kinds;
    inv_path : forall id k pk, In (id, k, pk) stack \/ In (id, k, pk) visited -> pathk root id pk;
    inv_kinds : forall id k, bm_get id kinds = Some k -> pathk root id k;
    inv_root : In (root, Runtime, Runtime) stack \/ In (root, Runtime, Runtime) visited;
    inv_closed : forall x c, In x visited -> child_of x c -> In c visited \/ In c stack;
    inv_strong : forall id k pk, In (id, k, pk) visited -> exists k', bm_get id kinds = Some k' /\ rank pk <= rank k'
  }.

  Lemma record_kind_sorted id k m : sorted m -> sorted (record_kind id k m).
  Proof.
    intros H. unfold record_kind. destruct (bm_get id m); [destruct (kind_lt _ _)|]; auto using bm_insert_sorted.
  Qed.
  Lemma record_kind_get id k m id' : sorted m ->
    bm_get id' (record_kind id k m) =
    if String.eqb id' id then
      Some (match bm_get id m with Some o => if kind_lt o k then k else o | None => k end)
    else bm_get id' m.
  Proof.
    intros Hs. unfold record_kind. destruct (bm_get id m) as [o|] eqn:E.
    - destruct (kind_lt o k).
      + rewrite bm_get_insert by auto. reflexivity.
      + destruct (String.eqb_spec id' id) as [->|]; auto.
    - rewrite bm_get_insert by auto. reflexivity.
  Qed.

  Lemma inv_step root kinds id k pk rest visited n children :
    inv root kinds ((id, k, pk) :: rest) visited ->
    bm_get id resolve = Some n -> dep_children pk (n_deps n) = Done children ->
    inv root (record_kind id pk kinds)
        (rev (filter (fun c => negb (visited_mem c ((id, k, pk) :: visited))) children) ++ rest)
        ((id, k, pk) :: visited).
  Proof.
    intros [Hs Hp Hk Hr Hc Hst] Hn Hch.
    assert (Hx : pathk root id pk) by (apply (Hp id k pk); left; now left).
    set (pushed := filter _ children).
    assert (Hpush : forall c, In c (rev pushed ++ rest) -> child_of (id, k, pk) c \/ In c rest).
    { intros c Hin. apply in_app_or in Hin as [Hin|Hin]; auto.
      left. apply in_rev in Hin. apply filter_In in Hin as [Hin _].
      now apply (children_spec id k pk n children). }
    split.
    - now apply record_kind_sorted.
    - intros id' k' pk' [Hin|[E|Hin]].
      + apply Hpush in Hin as [(k0 & E1 & E2 & ->)|Hin].
        * eapply pathk_step; eauto.
        * apply (Hp id' k' pk'). left; now right.
      + injection E as <- <- <-. auto.
      + apply (Hp id' k' pk'). now right.
    - intros id' k'. rewrite record_kind_get by auto. destruct (String.eqb_spec id' id) as [->|]; auto.
      intros E. injection E as <-. destruct (bm_get id kinds) as [o|] eqn:Eo; auto.
      destruct (kind_lt o pk); auto.
    - destruct Hr as [[E|Hr]|Hr].
      + right; now left.
      + left. apply in_or_app; now right.
      + right; now right.
    - intros x c [<-|Hx'] Hch'.
      + destruct (visited_mem c ((id, k, pk) :: visited)) eqn:E.
        * left. now apply visited_mem_In.
        * right. apply in_or_app; left. rewrite <- in_rev. apply filter_In. split.
          { now apply (children_spec id k pk n children). }
          now rewrite E.
      + destruct (Hc x c Hx' Hch') as [H|[<-|H]]; [left; now right|left; now left|].
        right. apply in_or_app; now right.
    - intros id' k' pk' Hin. rewrite record_kind_get by auto.
      destruct (String.eqb_spec id' id) as [->|N].
      + eexists; split; [reflexivity|]. destruct Hin as [E|Hin].
        * injection E as <- <-. destruct (bm_get id kinds) as [o|]; auto.
          unfold kind_lt. destruct (Nat.ltb_spec (rank o) (rank pk)); auto.
        * destruct (Hst _ _ _ Hin) as [o [-> Ho]]. unfold kind_lt.
          destruct (Nat.ltb_spec (rank o) (rank pk)); lia.
      + destruct Hin as [E|Hin]; [congruence|]. eauto.
  Qed.

  Lemma dfs_correct fuel : forall root kinds stack visited m,
    inv root kinds stack visited -> dfs fuel resolve kinds stack visited = Done m ->
    exists visited', inv root m [] visited'.
  Proof.
    induction fuel as [|fuel IH]; cbn [dfs]; intros root kinds stack visited m Hinv H; [discriminate|].
    destruct stack as [|[[id k] pk] rest].
    - injection H as <-. eauto.
    - inv_bind H. inv_bind H. apply unwrap_done in Hv.
      eapply IH; [|exact H]. now apply (inv_step root kinds id k pk rest visited v v0).
  Qed.

  Definition strongest (root id : string) (k : dep_kind) : Prop :=
    pathk root id k /\ forall k', pathk root id k' -> rank k' <= rank k.

  Lemma inv_final root m visited : inv root m [] visited ->
    forall id k, bm_get id m = Some k <-> strongest root id k.
  Proof.
    intros [Hs Hp Hk Hr Hc Hst].
    assert (Hall : forall id pk, pathk root id pk -> exists k, In (id, k, pk) visited).
    { induction 1 as [|p q m0 k c _ [k0 IH] He Hf].
      - exists Runtime. destruct Hr as [[]|Hr]; auto.
      - exists c. destruct (Hc (p, k0, m0) (q, c, kind_min c m0) IH) as [H|[]]; auto.
        exists k. auto. }
    assert (Hmax : forall id k, bm_get id m = Some k -> forall k', pathk root id k' -> rank k' <= rank k).
    { intros id k E k' Hk'. apply Hall in Hk' as [k0 Hin]. apply Hst in Hin as [k1 [E1 L]].
      rewrite E in E1. injection E1 as <-. exact L. }
    intros id k. split.
    - intros E. split; eauto.
    - intros [Hpk Hm]. destruct (Hall _ _ Hpk) as [k0 Hin]. apply Hst in Hin as [k1 [E1 L]].
      rewrite E1. f_equal. apply rank_inj. apply Hk in E1. apply Hm in E1. lia.
  Qed.

  Lemma inv_total root m visited : inv root m [] visited ->
    forall id k, pathk root id k -> exists k', bm_get id m = Some k'.
  Proof.
    intros [Hs Hp Hk Hr Hc Hst].
    assert (Hall : forall id pk, pathk root id pk -> exists k, In (id, k, pk) visited).
    { induction 1 as [|p q m0 k c _ [k0 IH] He Hf].
      - exists Runtime. destruct Hr as [[]|Hr]; auto.
      - exists c. destruct (Hc (p, k0, m0) (q, c, kind_min c m0) IH) as [H|[]]; auto.
        exists k. auto. }
    intros id k H. apply Hall in H as [k0 H]. apply Hst in H as (k' & E & _). eauto.
  Qed.

  Lemma inv_init root : inv root [(root, Runtime)] [(root, Runtime, Runtime)] [].
  Proof.
    split.
    - constructor; constructor.
    - intros id k pk [[E|[]]|[]]. injection E as <- <- <-. constructor.
    - intros id k. cbn. destruct (String.eqb_spec id root) as [->|]; [|discriminate].
      intros E; injection E as <-. constructor.
    - left; now left.
    - intros x c [].
    - intros id k pk [].
  Qed.

  Lemma dfs_strongest fuel root m :
    dfs fuel resolve [(root, Runtime)] [(root, Runtime, Runtime)] [] = Done m ->
    sorted m /\ forall id k, bm_get id m = Some k <-> strongest root id k.
  Proof.
    intros H. destruct (dfs_correct _ _ _ _ _ _ (inv_init root) H) as [v Hv].
    split; [apply Hv|]. eapply inv_final; eauto.
  Qed.

  Lemma dfs_total fuel root m :
    dfs fuel resolve [(root, Runtime)] [(root, Runtime, Runtime)] [] = Done m ->
    forall id k, pathk root id k -> exists k', bm_get id m = Some k'.
  Proof.
    intros H. destruct (dfs_correct _ _ _ _ _ _ (inv_init root) H) as [v Hv]. eapply inv_total; eauto.
  Qed.

  (** *** Termination *)
  Definition all_ids (root : string) : list string :=
    root :: flat_map (fun kv => map nd_pkg (n_deps (snd kv))) resolve.
  Definition three : list dep_kind := [Development; Build; Runtime].
  Definition universe (root : string) : list dep_node :=
    list_prod (list_prod (all_ids root) three) three.
  Lemma in_three k : In k three.
  Proof. destruct k; cbn; auto. Qed.
  Lemma in_universe root id k pk : In id (all_ids root) -> In (id, k, pk) (universe root).
  Proof.
    intros H. unfold universe. apply in_prod; [|apply in_three]. apply in_prod; [auto|apply in_three].
  Qed.
  Lemma child_in_universe root x c : child_of x c -> In c (universe root).
  Proof.
    destruct x as [[id k] pk], c as [[q ck] cpk]. intros (k0 & (n & d & A & B & C & D) & _ & _).
    apply in_universe. right. apply in_flat_map. exists (id, n). split.
    - now apply bm_get_In.
    - apply in_map_iff. exists d. auto.
  Qed.

  Definition unvisited (U visited : list dep_node) : nat :=
    List.length (filter (fun u => negb (visited_mem u visited)) U).
  Lemma filter_length_le {A} (f g : A -> bool) l :
    (forall x, f x = true -> g x = true) -> List.length (filter f l) <= List.length (filter g l).
  Proof.
    intros H. induction l as [|x l IH]; cbn [filter]; auto.
    destruct (f x) eqn:E.
    - rewrite (H _ E). cbn [List.length]. lia.
    - destruct (g x); cbn [List.length]; lia.
  Qed.
  Lemma filter_length_lt {A} (f g : A -> bool) l x :
    (forall x, f x = true -> g x = true) -> In x l -> f x = false -> g x = true ->
    List.length (filter f l) < List.length (filter g l).
  Proof.
    intros H. induction l as [|y l IH]; cbn [In]; [tauto|]. intros Hin Hf Hg.
    pose proof (filter_length_le f g l H) as L. cbn [filter]. destruct Hin as [->|Hin].
    - rewrite Hf, Hg. cbn [List.length]. lia.
    - specialize (IH Hin Hf Hg). destruct (f y) eqn:E.
      + rewrite (H _ E). cbn [List.length]. lia.
      + destruct (g y); cbn [List.length]; lia.
  Qed.
  Lemma unvisited_cons_le U x v : unvisited U (x :: v) <= unvisited U v.
  Proof.
    apply filter_length_le. intros u. rewrite !negb_true_iff, !visited_mem_false. cbn. tauto.
  Qed.
  Lemma unvisited_cons_lt U x v : In x U -> ~ In x v -> unvisited U (x :: v) < unvisited U v.
  Proof.
    intros Hin Hn. apply (filter_length_lt _ _ _ x); auto.
    - intros u. rewrite !negb_true_iff, !visited_mem_false. cbn. tauto.
    - rewrite negb_false_iff, visited_mem_In. now left.
    - now rewrite negb_true_iff, visited_mem_false.
  Qed.

  (** a visited entry still on the stack has all its children visited or above it *)
  Definition stack_ok (visited stack : list dep_node) : Prop :=
    forall s1 x s2, stack = s1 ++ x :: s2 -> In x visited ->
    forall c, child_of x c -> In c visited \/ In c s1.

  Lemma dfs_terminates root : forall n m kinds stack visited,
    unvisited (universe root) visited <= n -> List.length stack <= m ->
    (forall x, In x stack -> In x (universe root)) -> stack_ok visited stack ->
    exists fuel, dfs fuel resolve kinds stack visited <> OutOfFuel.
  Proof.
    induction n as [n IHn] using lt_wf_ind. induction m as [|m IHm]; intros kinds stack visited Hn Hm Hu Hok.
    - destruct stack; [|cbn in Hm; lia]. exists 1. cbn. discriminate.
    - destruct stack as [|[[id k] pk] rest]; [exists 1; cbn; discriminate|].
      destruct (bm_get id resolve) as [nd|] eqn:En.
      2:{ exists 1. cbn [dfs]. rewrite En. cbn. discriminate. }
      destruct (dep_children pk (n_deps nd)) as [ch| | |] eqn:Ech.
      2-4: exists 1; cbn [dfs]; rewrite En; cbn [unwrap bind]; rewrite Ech; cbn; try discriminate.
      2:{ exfalso. clear -Ech. revert Ech. induction (n_deps nd) as [|d ds IH]; cbn [dep_children]; [discriminate|].
          unfold kind_children. destruct (mapM _ (nd_kinds d)) as [l| | |] eqn:E; cbn [bind]; try discriminate.
          - destruct (dep_children pk ds); cbn [bind]; try discriminate. auto.
          - intros _. clear -E. revert E. induction (nd_kinds d) as [|x xs IH]; cbn [mapM]; [discriminate|].
            destruct x; cbn [from_cargo_kind bind]; try discriminate;
              destruct (mapM _ xs); cbn [bind]; try discriminate; auto. }
      set (x := (id, k, pk)) in *.
      assert (Hch : forall c, In c ch <-> child_of x c) by (intros c; now apply (children_spec id k pk nd ch)).
      set (pushed := filter (fun c => negb (visited_mem c (x :: visited))) ch).
      assert (Hstack' : forall y, In y (rev pushed ++ rest) -> In y (universe root)).
      { intros y Hin. apply in_app_or in Hin as [Hin|Hin].
        - apply in_rev in Hin. apply filter_In in Hin as [Hin _]. apply Hch in Hin.
          now apply (child_in_universe root x).
        - apply Hu. now right. }
      assert (Hok' : stack_ok (x :: visited) (rev pushed ++ rest)).
      { intros s1 y s2 E Hy c Hc.
        assert (Hsplit : (exists s1', s1 = rev pushed ++ s1' /\ rest = s1' ++ y :: s2) \/ In y (rev pushed)).
        { clear -E. revert s1 E. induction (rev pushed) as [|z l IH]; intros s1 E.
          - left. exists s1. auto.
          - destruct s1 as [|z' s1]; cbn in E; injection E as E1 E2.
            + right; left; auto.
            + apply IH in E2 as [[s1' [-> ->]]|Hin]; [|right; now right].
              left. exists s1'. subst; auto. }
        destruct Hsplit as [[s1' [-> Er]]|Hin].
        - destruct Hy as [<-|Hy].
          + destruct (visited_mem c (x :: visited)) eqn:Ev; [left; now apply visited_mem_In|].
            right. apply in_or_app. left. rewrite <- in_rev. apply filter_In. split; [now apply Hch|].
            now rewrite Ev.
          + destruct (Hok (x :: s1') y s2) with (c := c) as [H|[<-|H]]; auto.
            * cbn. now rewrite Er.
            * left; now right.
            * left; now left.
            * right. apply in_or_app; now right.
        - exfalso. apply in_rev in Hin. apply filter_In in Hin as [_ Hin].
          apply negb_true_iff, visited_mem_false in Hin. contradiction. }
      assert (Hrec : exists fuel, dfs fuel resolve (record_kind id pk kinds) (rev pushed ++ rest) (x :: visited) <> OutOfFuel).
      { destruct (in_dec dep_node_dec x visited) as [Hin|Hnin].
        - assert (pushed = []) as Ep.
          { unfold pushed. destruct (filter _ ch) as [|c l] eqn:E; auto. exfalso.
            assert (Hin' : In c (filter (fun c => negb (visited_mem c (x :: visited))) ch)) by (rewrite E; now left).
            apply filter_In in Hin' as [Hc Hv]. apply negb_true_iff, visited_mem_false in Hv.
            apply Hch in Hc. destruct (Hok [] x rest eq_refl Hin c Hc) as [H|[]]. apply Hv. now right. }
          apply IHm; auto.
          + exact (Nat.le_trans _ _ _ (unvisited_cons_le (universe root) x visited) Hn).
          + rewrite Ep. cbn in *. lia.
        - pose proof (unvisited_cons_lt (universe root) x visited (Hu x (or_introl eq_refl)) Hnin) as L.
          eapply (IHn (unvisited (universe root) (x :: visited))); [exact (Nat.lt_le_trans _ _ _ L Hn)|reflexivity|reflexivity|auto|auto]. }
      destruct Hrec as [fuel Hf]. exists (S fuel). subst x. cbn [dfs]. rewrite En. cbn [unwrap bind]. rewrite Ech.
      cbn [bind]. exact Hf.
  Qed.

  Lemma index_dep_kinds_terminates root : exists fuel0, forall fuel, fuel0 <= fuel ->
    index_dep_kinds fuel root resolve <> OutOfFuel.
  Proof.
    destruct (dfs_terminates root (unvisited (universe root) []) 1 [(root, Runtime)] [(root, Runtime, Runtime)] [])
      as [f Hf]; auto.
    - intros x [<-|[]]. apply in_universe. now left.
    - intros s1 x s2 _ [].
    - exists f. intros fuel Hle. unfold index_dep_kinds.
      rewrite (dfs_mono f _ _ _ _ eq_refl Hf fuel Hle).
      destruct (dfs f _ _ _ _); cbn; congruence.
  Qed.

  (** *** No panic on closed graphs with known kinds *)
  Definition closed (resolve : bmap node) : Prop :=
    forall id n, bm_get id resolve = Some n -> forall d, In d (n_deps n) ->
      bm_mem (nd_pkg d) resolve = true /\ ~ In KUnknown (nd_kinds d).

  Lemma kind_children_done pkg pk ks : ~ In KUnknown ks -> exists l, kind_children pkg pk ks = Done l.
  Proof.
    unfold kind_children. induction ks as [|k ks IH]; cbn [In mapM]; intros H; [eauto|].
    destruct IH as [l E]; [tauto|]. rewrite E.
    destruct k; cbn; try (eexists; reflexivity). exfalso; auto.
  Qed.
  Lemma dep_children_done pk ds :
    (forall d, In d ds -> ~ In KUnknown (nd_kinds d)) -> exists l, dep_children pk ds = Done l.
  Proof.
    induction ds as [|d ds IH]; cbn [dep_children]; intros H; [eauto|].
    destruct (kind_children_done (nd_pkg d) pk (nd_kinds d)) as [a ->]; [apply H; now left|].
    destruct IH as [b ->]; [intros; apply H; now right|]. cbn. eauto.
  Qed.

  Lemma dfs_no_panic fuel : closed resolve -> forall kinds stack visited,
    (forall id k pk, In (id, k, pk) stack -> bm_mem id resolve = true) ->
    dfs fuel resolve kinds stack visited = OutOfFuel \/ exists m, dfs fuel resolve kinds stack visited = Done m.
  Proof.
    intros Hc. induction fuel as [|fuel IH]; intros kinds stack visited Hs; cbn [dfs]; auto.
    destruct stack as [|[[id k] pk] rest]; [right; eauto|].
    assert (Hid : bm_mem id resolve = true) by (apply (Hs id k pk); now left).
    apply bm_mem_true in Hid as [n En]. rewrite En. cbn [unwrap bind].
    destruct (dep_children_done pk (n_deps n)) as [ch Ech].
    { intros d Hd. apply (Hc id n En d Hd). }
    rewrite Ech. cbn [bind]. apply IH. intros id' k' pk' Hin.
    apply in_app_or in Hin as [Hin|Hin]; [|apply (Hs id' k' pk'); now right].
    apply in_rev in Hin. apply filter_In in Hin as [Hin _].
    apply (children_spec id k pk n ch _ En Ech) in Hin. destruct Hin as (k0 & (n' & d & A & B & C & D) & _).
    subst. eapply Hc; eauto.
  Qed.

  Lemma index_dep_kinds_done root : closed resolve -> bm_mem root resolve = true ->
    exists fuel0 m, forall fuel, fuel0 <= fuel -> index_dep_kinds fuel root resolve = Done m.
  Proof.
    intros Hc Hr.
    destruct (dfs_terminates root (unvisited (universe root) []) 1 [(root, Runtime)] [(root, Runtime, Runtime)] [])
      as [f Hf]; auto.
    - intros x [<-|[]]. apply in_universe. now left.
    - intros s1 x s2 _ [].
    - destruct (dfs_no_panic f Hc [(root, Runtime)] [(root, Runtime, Runtime)] []) as [E|[m E]]; [|congruence|].
      { intros id k pk [H|[]]. injection H as <- <- <-. exact Hr. }
      exists f, (map (fun kv => (fst kv, to_cargo_kind (snd kv))) m). intros fuel Hle. unfold index_dep_kinds.
      rewrite (dfs_mono f _ _ _ _ E ltac:(discriminate) fuel Hle). reflexivity.
  Qed.
End Dfs.

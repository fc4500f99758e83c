(** The breadth-first selection of dependencies, and the link between indexed
    maps and the raw lists of [cargo metadata]. *)
From Verif Require Import Base Strings ModelTypes ConfigModel GenModel GenSpec GenProofs.
Open Scope string_scope.
Open Scope list_scope.

Section Bfs.
  Variable cfg : config.
  Variable resolve : bmap node.
  Hypothesis keyed : forall id n, bm_get id resolve = Some n -> n_id n = id.

  Definition rneeds (p q : string) : Prop :=
    exists n d, bm_get p resolve = Some n /\ In d (filtered_dependencies cfg (n_deps n)) /\ nd_pkg d = q.
  Inductive rreach (root : string) : string -> Prop :=
  | rreach_here : rreach root root
  | rreach_step p q : rreach root p -> rneeds p q -> rreach root q.

  Definition lookup_deps (n : node) : outcome (list node) :=
    mapM (fun d => unwrap "no entry found for key" (bm_get (nd_pkg d) resolve))
         (filtered_dependencies cfg (n_deps n)).

  Lemma lookup_deps_In n l : lookup_deps n = Done l ->
    forall x, In x l <-> exists d, In d (filtered_dependencies cfg (n_deps n)) /\ bm_get (nd_pkg d) resolve = Some x.
  Proof.
    unfold lookup_deps. intros H. apply mapM_done in H.
    induction H as [|d y ds l Hd _ IH]; intros x; cbn [In].
    - split; [tauto|]. intros [d [[] _]].
    - apply unwrap_done in Hd. rewrite IH. split.
      + intros [<-|(d' & A & B)]; eauto.
      + intros (d' & [<-|A] & B); [left; congruence|right; eauto].
  Qed.

  Lemma bfs_mono fuel : forall cur next out r, bfs fuel cfg resolve cur next out = r -> r <> OutOfFuel ->
    forall fuel', fuel <= fuel' -> bfs fuel' cfg resolve cur next out = r.
  Proof.
    induction fuel as [|fuel IH]; cbn [bfs]; intros cur next out r H Hr fuel' Hle; [congruence|].
    destruct fuel' as [|fuel']; [lia|]. cbn [bfs]. destruct cur as [|n cur].
    - destruct next; auto. apply (IH _ _ _ r H Hr); lia.
    - destruct (bm_mem _ _).
      + apply (IH _ _ _ r H Hr); lia.
      + destruct (mapM _ _) as [l| | |]; cbn [bind] in *; auto. apply (IH _ _ _ r H Hr); lia.
  Qed.

  Record binv (root : string) (cur next : list node) (out : bmap node) : Prop := {
    bi_sorted : sorted out;
    bi_queue : forall n, In n (cur ++ next) -> bm_get (n_id n) resolve = Some n /\ rreach root (n_id n);
    bi_out : forall id n', bm_get id out = Some n' ->
        exists n, bm_get id resolve = Some n /\ n' = add_filtered_dependencies cfg n /\ rreach root id;
    bi_root : bm_mem root out = true \/ exists n, In n (cur ++ next) /\ n_id n = root;
    bi_closed : forall id q, bm_mem id out = true -> rneeds id q ->
        bm_mem q out = true \/ exists n, In n (cur ++ next) /\ n_id n = q
  }.

  Lemma bm_mem_insert k v (m : bmap node) x : sorted m ->
    bm_mem x (bm_insert k v m) = (String.eqb x k || bm_mem x m)%bool.
  Proof. intros H. unfold bm_mem. rewrite bm_get_insert by auto. now destruct (String.eqb x k). Qed.

  Lemma binv_step_new root n cur next out ds :
    binv root (n :: cur) next out -> bm_mem (n_id n) out = false -> lookup_deps n = Done ds ->
    binv root cur (next ++ ds) (bm_insert (n_id n) (add_filtered_dependencies cfg n) out).
  Proof.
    intros [Hs Hq Ho Hr Hc] Hm Hd.
    destruct (Hq n) as [Hn Hrn]; [now left|].
    pose proof (lookup_deps_In n ds Hd) as Hds.
    split.
    - now apply bm_insert_sorted.
    - intros x Hx. rewrite app_assoc in Hx. apply in_app_or in Hx as [Hx|Hx].
      + apply Hq. cbn. right. exact Hx.
      + apply Hds in Hx as (d & A & B). pose proof (keyed _ _ B) as E. rewrite E. split; auto.
        eapply rreach_step; [exact Hrn|]. exists n, d. auto.
    - intros id n' E. rewrite bm_get_insert in E by auto. destruct (String.eqb_spec id (n_id n)) as [->|N]; auto.
      injection E as <-. eauto.
    - rewrite bm_mem_insert by auto. destruct Hr as [Hr|(x & [<-|Hx] & E)].
      + left. rewrite Hr. apply orb_true_r.
      + left. rewrite <- E, String.eqb_refl. reflexivity.
      + right. exists x. split; auto. rewrite app_assoc. apply in_or_app; left. exact Hx.
    - intros id q. rewrite !bm_mem_insert by auto. intros Hid Hq'. apply orb_true_iff in Hid as [Hid|Hid].
      + apply String.eqb_eq in Hid as ->. destruct Hq' as (n' & d & A & B & C).
        rewrite Hn in A. injection A as <-.
        assert (exists x, bm_get (nd_pkg d) resolve = Some x) as [x Hx].
        { unfold lookup_deps in Hd. apply mapM_done in Hd. clear -Hd B.
          induction Hd as [|d0 y l l' E _ IH]; [destruct B|]. destruct B as [->|B]; auto.
          apply unwrap_done in E. eauto. }
        right. exists x. split.
        * rewrite app_assoc. apply in_or_app; right. apply Hds. eauto.
        * rewrite <- C. now apply keyed.
      + destruct (Hc id q Hid Hq') as [H|(x & [<-|Hx] & E)].
        * left. rewrite H. apply orb_true_r.
        * left. rewrite <- E, String.eqb_refl. reflexivity.
        * right. exists x. split; auto. rewrite app_assoc. apply in_or_app; left. exact Hx.
  Qed.

  Lemma binv_step_old root n cur next out :
    binv root (n :: cur) next out -> bm_mem (n_id n) out = true -> binv root cur next out.
  Proof.
    intros [Hs Hq Ho Hr Hc] Hm. split; auto.
    - intros x Hx. apply Hq. now right.
    - destruct Hr as [Hr|(x & [<-|Hx] & E)]; [auto| |eauto]. left. now rewrite <- E.
    - intros id q Hid Hq'. destruct (Hc id q Hid Hq') as [H|(x & [<-|Hx] & E)]; [auto| |eauto].
      left. now rewrite <- E.
  Qed.

  Lemma bfs_correct fuel : forall root cur next out r,
    binv root cur next out -> bfs fuel cfg resolve cur next out = Done r -> binv root [] [] r.
  Proof.
    induction fuel as [|fuel IH]; cbn [bfs]; intros root cur next out r Hi H; [discriminate|].
    destruct cur as [|n cur].
    - destruct next as [|x next].
      + injection H as <-. exact Hi.
      + apply (IH root _ _ _ _ ) in H; auto. destruct Hi as [Hs Hq Ho Hr Hc]; split; auto.
        * intros n Hn. apply Hq. rewrite app_nil_r in Hn. exact Hn.
        * destruct Hr as [|(y & A & B)]; [auto|]. right. exists y. now rewrite app_nil_r.
        * intros id q Hid Hq'. destruct (Hc id q Hid Hq') as [|(y & A & B)]; [auto|]. right. exists y.
          now rewrite app_nil_r.
    - destruct (bm_mem (n_id n) out) eqn:Em.
      + eapply IH; [|exact H]. eapply binv_step_old; eauto.
      + inv_bind H. eapply IH; [|exact H]. eapply binv_step_new; eauto.
  Qed.

  Lemma bfs_spec fuel root r out :
    bm_get root resolve = Some r -> bfs fuel cfg resolve [r] [] [] = Done out ->
    sorted out
    /\ (forall id, bm_mem id out = true <-> rreach root id)
    /\ (forall id n', bm_get id out = Some n' ->
          exists n, bm_get id resolve = Some n /\ n' = add_filtered_dependencies cfg n).
  Proof.
    intros Hr H. apply (bfs_correct fuel root) in H.
    - destruct H as [Hs Hq Ho Hrt Hc]. split; [auto|]. split.
      + intros id. split.
        * intros Hid. apply bm_mem_true in Hid as [n Hn]. apply Ho in Hn as (n0 & _ & _ & R). exact R.
        * induction 1 as [|p q _ IH Hpq].
          -- destruct Hrt as [|(n & [] & _)]; auto.
          -- destruct (Hc p q IH Hpq) as [|(n & [] & _)]; auto.
      + intros id n' Hn. apply Ho in Hn as (n0 & A & B & _). eauto.
    - split; cbn.
      + constructor.
      + intros n [<-|[]]. rewrite (keyed _ _ Hr). split; auto. constructor.
      + discriminate.
      + right. exists r. split; auto.
      + discriminate.
  Qed.

  (** *** Termination and absence of panics *)
  Lemma lookup_deps_cases n : (exists ds, lookup_deps n = Done ds) \/ (exists m, lookup_deps n = Panic m).
  Proof.
    unfold lookup_deps. induction (filtered_dependencies cfg (n_deps n)) as [|d l IH]; cbn [mapM].
    - left; eauto.
    - destruct (bm_get (nd_pkg d) resolve); cbn [unwrap bind]; [|right; eauto].
      destruct IH as [[ds ->]|[m ->]]; cbn [bind]; eauto.
  Qed.

  Lemma bfs_terminates : forall k m cur next out,
    List.length (filter (fun kv => negb (bm_mem (fst kv) out)) resolve) <= k ->
    2 * List.length next + List.length cur <= m ->
    sorted out ->
    (forall n, In n (cur ++ next) -> bm_get (n_id n) resolve = Some n) ->
    exists fuel, bfs fuel cfg resolve cur next out <> OutOfFuel.
  Proof.
    induction k as [k IHk] using lt_wf_ind.
    induction m as [m IHm] using lt_wf_ind. intros cur next out Hk Hm Hso Hq.
    destruct cur as [|n cur].
    - destruct next as [|x next].
      + exists 1. discriminate.
      + destruct (IHm (List.length (x :: next))) with (cur := x :: next) (next := @nil node) (out := out)
          as (f & E); auto; try (cbn [List.length] in *; lia).
        * intros y Hy. apply Hq. rewrite app_nil_r in Hy. exact Hy.
        * exists (S f). exact E.
    - destruct (bm_mem (n_id n) out) eqn:Em.
      + destruct (IHm (2 * List.length next + List.length cur)) with (cur := cur) (next := next) (out := out)
          as (f & E); auto; try (cbn [List.length] in *; lia).
        * intros y Hy. apply Hq. now right.
        * exists (S f). cbn [bfs]. rewrite Em. exact E.
      + assert (Hn : bm_get (n_id n) resolve = Some n) by (apply Hq; now left).
        destruct (lookup_deps_cases n) as [[ds Eds]|[msg Eds]].
        2:{ exists 1. cbn [bfs]. rewrite Em. fold (lookup_deps n). rewrite Eds. discriminate. }
        set (out' := bm_insert (n_id n) (add_filtered_dependencies cfg n) out).
        assert (Hlt : List.length (filter (fun kv => negb (bm_mem (fst kv) out')) resolve)
                      < List.length (filter (fun kv => negb (bm_mem (fst kv) out)) resolve)).
        { apply (filter_length_lt _ _ _ (n_id n, n)).
          - intros kv. unfold out'. rewrite !negb_true_iff, bm_mem_insert by auto.
            intros E. now apply orb_false_iff in E as [_ E].
          - now apply bm_get_In.
          - unfold out'. cbn. rewrite bm_mem_insert, String.eqb_refl by auto. reflexivity.
          - cbn. now rewrite Em. }
        destruct (IHk (List.length (filter (fun kv => negb (bm_mem (fst kv) out')) resolve)))
          with (m := 2 * List.length (next ++ ds) + List.length cur) (cur := cur) (next := next ++ ds) (out := out')
          as (f & E); auto; try lia.
        * now apply bm_insert_sorted.
        * intros y Hy. rewrite app_assoc in Hy. apply in_app_or in Hy as [Hy|Hy].
          -- apply Hq. now right.
          -- apply (lookup_deps_In n ds Eds) in Hy as (d & _ & B). now rewrite (keyed _ _ B).
        * exists (S f). cbn [bfs]. rewrite Em. fold (lookup_deps n). rewrite Eds. exact E.
  Qed.

  Lemma bfs_no_panic :
    (forall id n, bm_get id resolve = Some n -> forall d, In d (n_deps n) -> bm_mem (nd_pkg d) resolve = true) ->
    forall fuel cur next out,
    (forall n, In n (cur ++ next) -> bm_get (n_id n) resolve = Some n) ->
    bfs fuel cfg resolve cur next out = OutOfFuel \/ exists r, bfs fuel cfg resolve cur next out = Done r.
  Proof.
    intros Hcl. induction fuel as [|fuel IH]; intros cur next out Hq; cbn [bfs]; auto.
    destruct cur as [|n cur].
    - destruct next as [|x next]; [right; eauto|]. apply IH. intros y Hy. apply Hq.
      rewrite app_nil_r in Hy. exact Hy.
    - destruct (bm_mem (n_id n) out).
      + apply IH. intros y Hy. apply Hq. now right.
      + fold (lookup_deps n). assert (Hn : bm_get (n_id n) resolve = Some n) by (apply Hq; now left).
        assert (exists ds, lookup_deps n = Done ds) as [ds Eds].
        { unfold lookup_deps. assert (Hin : forall d, In d (filtered_dependencies cfg (n_deps n)) -> In d (n_deps n))
            by (intros d Hd; now apply filter_In in Hd). revert Hin.
          clear -Hcl Hn.
          induction (filtered_dependencies cfg (n_deps n)) as [|d l IH]; intros Hin; [exists []; reflexivity|].
          destruct IH as [ds E]; [intros; apply Hin; now right|].
          assert (Hd : bm_mem (nd_pkg d) resolve = true) by (eapply Hcl; eauto; apply Hin; now left).
          apply bm_mem_true in Hd as [v Hv]. exists (v :: ds). cbn [mapM]. rewrite Hv. cbn [unwrap bind].
          rewrite E. reflexivity. }
        rewrite Eds. cbn [bind]. apply IH. intros y Hy. rewrite app_assoc in Hy. apply in_app_or in Hy as [Hy|Hy].
        * apply Hq. now right.
        * apply (lookup_deps_In n ds Eds) in Hy as (d & _ & B). now rewrite (keyed _ _ B).
  Qed.
End Bfs.

(** *** Indexing *)
Lemma map_fst_index {A} (key : A -> string) l : map fst (map (fun x => (key x, x)) l) = map key l.
Proof. rewrite map_map. reflexivity. Qed.

Lemma index_get {A} (key : A -> string) (l : list A) id x :
  NoDup (map key l) ->
  (bm_get id (bm_of_list (map (fun x => (key x, x)) l)) = Some x <-> In x l /\ key x = id).
Proof.
  intros Hnd. rewrite bm_of_list_get. split.
  - intros H. apply assoc_last_In in H. apply in_map_iff in H as (y & E & Hy). injection E as <- <-. auto.
  - intros [H <-]. apply assoc_last_unique.
    + now rewrite map_fst_index.
    + apply in_map_iff. eauto.
Qed.

Lemma index_get_keyed {A} (key : A -> string) (l : list A) id x :
  bm_get id (bm_of_list (map (fun x => (key x, x)) l)) = Some x -> In x l /\ key x = id.
Proof.
  rewrite bm_of_list_get. intros H. apply assoc_last_In in H.
  apply in_map_iff in H as (y & E & Hy). injection E as <- <-. auto.
Qed.

Lemma index_mem {A} (key : A -> string) (l : list A) id :
  NoDup (map key l) ->
  (bm_mem id (bm_of_list (map (fun x => (key x, x)) l)) = true <-> In id (map key l)).
Proof.
  intros Hnd. rewrite bm_mem_true, in_map_iff. split.
  - intros [x H]. apply index_get in H as [H <-]; eauto.
  - intros (x & <- & H). exists x. apply index_get; auto.
Qed.

Lemma keep_kind_wanted cfg k : keep_kind (cf_only_normal cfg) k = true <-> wanted (normal_only cfg) k.
Proof.
  unfold keep_kind, wanted, normal_only.
  destruct (cf_only_normal cfg) as [[]|]; destruct k; cbn; split; congruence.
Qed.

Lemma filtered_In cfg ds d : In d (filtered_dependencies cfg ds) <->
  In d ds /\ exists k, In k (nd_kinds d) /\ wanted (normal_only cfg) k.
Proof.
  unfold filtered_dependencies. rewrite filter_In, existsb_exists. split.
  - intros [A (k & B & C)]. split; auto. exists k. split; auto. now apply keep_kind_wanted.
  - intros [A (k & B & C)]. split; auto. exists k. split; auto. now apply keep_kind_wanted.
Qed.

Section Link.
  Variable nodes : list node.
  Hypothesis Hnd : NoDup (map n_id nodes).
  Let resolve := index_resolve nodes.

  Lemma redge_edge p q k : redge resolve p q k <-> edge nodes p q k.
  Proof.
    unfold redge, edge, resolve, index_resolve. split.
    - intros (n & d & A & B). apply (index_get n_id) in A as [A E]; auto. exists n, d. tauto.
    - intros (n & d & A & E & B). exists n, d. split; [|tauto]. apply (index_get n_id); auto.
  Qed.

  Lemma rneeds_needs cfg p q : rneeds cfg resolve p q <-> needs nodes (normal_only cfg) p q.
  Proof.
    unfold rneeds, needs. split.
    - intros (n & d & A & B & C). apply filtered_In in B as [B (k & D & E)].
      exists k. split; auto. apply redge_edge. exists n, d. auto.
    - intros (k & H & E). apply redge_edge in H as (n & d & A & B & C & D).
      exists n, d. repeat split; auto. apply filtered_In. eauto.
  Qed.

  Lemma rreach_reach cfg root id : rreach cfg resolve root id <-> reach nodes (normal_only cfg) root id.
  Proof.
    split.
    - induction 1; [constructor|]. eapply reach_step; eauto. now apply rneeds_needs.
    - induction 1; [constructor|]. eapply rreach_step; eauto. now apply rneeds_needs.
  Qed.

  Lemma pathk_walk root id m : pathk resolve root id m ->
    exists ks, walk nodes root ks id
      /\ (m = Runtime -> Forall (fun k => k = KNormal) ks) /\ (m <> Development -> ~ In KDevelopment ks).
  Proof.
    induction 1 as [|p q m k c _ (ks & W & A & B) He Hf].
    - exists []. repeat split; auto. constructor.
    - exists (ks ++ [k]). split; [|split].
      + econstructor; eauto. now apply redge_edge.
      + intros E. apply Forall_app. split.
        * apply A. revert E. destruct c, m; cbn; congruence.
        * constructor; [|constructor]. revert E. destruct k; cbn in Hf; try discriminate; injection Hf as <-; auto;
            destruct m; cbn; discriminate.
      + intros E Hin. apply in_app_or in Hin as [Hin|[->|[]]].
        * apply B; auto. intros ->. apply E. destruct c; reflexivity.
        * cbn in Hf. injection Hf as <-. apply E. destruct m; reflexivity.
  Qed.

  Lemma walk_pathk root ks id : walk nodes root ks id -> ~ In KUnknown ks ->
    exists m, pathk resolve root id m
      /\ (Forall (fun k => k = KNormal) ks -> m = Runtime) /\ (~ In KDevelopment ks -> m <> Development).
  Proof.
    induction 1 as [p|p ks q k r _ IH He]; intros Hu.
    - exists Runtime. repeat split; auto; [constructor|discriminate].
    - destruct IH as (m & P & A & B); [intros H; apply Hu, in_or_app; now left|].
      assert (exists c, from_cargo_kind k = Done c) as [c Hc].
      { destruct k; cbn; eauto. exfalso. apply Hu, in_or_app. right; now left. }
      exists (kind_min c m). split; [|split].
      + econstructor; eauto. now apply redge_edge.
      + intros F. apply Forall_app in F as [F1 F2]. rewrite (A F1). inversion F2; subst. cbn in Hc.
        injection Hc as <-. reflexivity.
      + intros Hin. assert (~ In KDevelopment ks /\ k <> KDevelopment) as [H1 H2].
        { split; intros H; apply Hin, in_or_app; [now left|]. right; left; auto. }
        apply B in H1. destruct k; try congruence; cbn in Hc; try discriminate; injection Hc as <-;
          destruct m; cbn; congruence.
  Qed.

  Lemma strongest_role root id k :
    (forall n d, In n nodes -> In d (n_deps n) -> ~ In KUnknown (nd_kinds d)) ->
    strongest resolve root id k -> role nodes root id (to_cargo_kind k).
  Proof.
    intros Hk [P M].
    assert (Hun : forall p ks q, walk nodes p ks q -> ~ In KUnknown ks).
    { induction 1 as [|p ks q k0 r _ IH (n & d & A & B & C & D & E)]; [tauto|].
      intros H. apply in_app_or in H as [H|[->|[]]]; [tauto|]. eapply Hk; eauto. }
    destruct (pathk_walk _ _ _ P) as (ks & W & A & B).
    destruct k; cbn.
    - split; [exists ks; auto|]. intros (ks' & W' & D). destruct (walk_pathk _ _ _ W' (Hun _ _ _ W')) as (m & P' & _ & Q).
      apply M in P'. apply Q in D. destruct m; cbn in P'; [congruence|lia|lia].
    - split; [exists ks; split; auto; apply B; discriminate|].
      intros (ks' & W' & D). destruct (walk_pathk _ _ _ W' (Hun _ _ _ W')) as (m & P' & Q & _).
      apply Q in D as ->. apply M in P'. cbn in P'. lia.
    - exists ks. auto.
  Qed.
End Link.

Lemma role_unique nodes root id k1 k2 : role nodes root id k1 -> role nodes root id k2 -> k1 = k2.
Proof.
  assert (L : runtime_dep nodes root id -> nondev_dep nodes root id).
  { intros (ks & W & F). exists ks. split; auto. intros H. rewrite Forall_forall in F. apply F in H. discriminate. }
  destruct k1, k2; cbn; tauto.
Qed.

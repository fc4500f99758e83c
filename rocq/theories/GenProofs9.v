(** Order independence with respect to the dependency lists inside the nodes:
    everything but the order of the names inside [dependsOn] stays the same. *)
From Verif Require Import Base Strings Base64 ModelTypes ConfigModel GenModel GenSpec
  GenSpec2 GenProofs GenProofs2 GenProofs3 GenProofs4 GenProofs5.
From Coq Require Import NArith ZArith Permutation Sorted.
Open Scope string_scope.
Open Scope list_scope.

(** *** Reordered nodes describe the same graph *)
Lemma Forall2_In_l {A B} (R : A -> B -> Prop) l l' x : Forall2 R l l' -> In x l -> exists y, In y l' /\ R x y.
Proof. induction 1 as [|a b l l' H _ IH]; cbn; [tauto|]. intros [->|I]; [eauto|]. destruct (IH I) as (y & ? & ?). eauto. Qed.
Lemma Forall2_In_r {A B} (R : A -> B -> Prop) l l' y : Forall2 R l l' -> In y l' -> exists x, In x l /\ R x y.
Proof. induction 1 as [|a b l l' H _ IH]; cbn; [tauto|]. intros [->|I]; [eauto|]. destruct (IH I) as (x & ? & ?). eauto. Qed.
Lemma Forall2_permuted {A B} (R : A -> B -> Prop) l m : Forall2 R l m -> forall m', Permutation m m' ->
  exists l', Permutation l l' /\ Forall2 R l' m'.
Proof.
  intros F m' HP. revert l F. induction HP as [|y m m' _ IH|y1 y2 m|m m' m'' _ IH1 _ IH2]; intros l F.
  - inversion F; subst. exists []. split; constructor.
  - inversion F as [|x ? l0 ? H F']; subst. destruct (IH _ F') as (l' & P & F2). exists (x :: l'). split; auto.
  - inversion F as [|x1 ? l0 ? H1 F1]; subst. inversion F1 as [|x2 ? l1 ? H2 F2]; subst.
    exists (x2 :: x1 :: l1). split; [constructor|auto].
  - destruct (IH1 _ F) as (l1 & P1 & F1). destruct (IH2 _ F1) as (l2 & P2 & F2). exists l2. split; auto.
    eapply perm_trans; eauto.
Qed.

Lemma reordered_dep_sym d d' : reordered_dep d d' -> reordered_dep d' d.
Proof. intros [A B]. split; auto using Permutation_sym. Qed.
Lemma Forall2_flip' {A B} (R : A -> B -> Prop) (S : B -> A -> Prop) l m : (forall a b, R a b -> S b a) -> Forall2 R l m -> Forall2 S m l.
Proof. intros H. induction 1; constructor; auto. Qed.
Lemma reordered_node_sym n n' : reordered_node n n' -> reordered_node n' n.
Proof.
  intros (E & ds & P & F). split; auto.
  apply (Forall2_flip' _ reordered_dep _ _ reordered_dep_sym) in F.
  destruct (Forall2_permuted _ _ _ F _ (Permutation_sym P)) as (l & P' & F'). eauto.
Qed.
Lemma reordered_nodes_sym l l' : reordered_nodes l l' -> reordered_nodes l' l.
Proof.
  intros (ns & P & F).
  apply (Forall2_flip' _ reordered_node _ _ reordered_node_sym) in F.
  destruct (Forall2_permuted _ _ _ F _ (Permutation_sym P)) as (k & P' & F'). exists k. auto.
Qed.

Lemma reordered_in l l' n : reordered_nodes l l' -> In n l -> exists n', In n' l' /\ reordered_node n n'.
Proof. intros (ns & P & F) H. eapply Permutation_in in H; eauto. eapply Forall2_In_l; eauto. Qed.
Lemma reordered_dep_in n n' d : reordered_node n n' -> In d (n_deps n) -> exists d', In d' (n_deps n') /\ reordered_dep d d'.
Proof. intros (_ & ns & P & F) H. eapply Permutation_in in H; eauto. eapply Forall2_In_l; eauto. Qed.
Lemma reordered_ids l l' : reordered_nodes l l' -> Permutation (map n_id l) (map n_id l').
Proof.
  intros (ns & P & F). eapply perm_trans; [apply Permutation_map, P|]. clear P.
  assert (map n_id ns = map n_id l') as ->; [|auto]. induction F as [|a b ? ? [E _] _ IH]; cbn; congruence.
Qed.
Lemma reordered_edge' l l' p q k : reordered_nodes l l' -> edge l p q k -> edge l' p q k.
Proof.
  intros R (n & d & A & B & C & D & E). destruct (reordered_in _ _ _ R A) as (n' & A' & Rn).
  destruct (reordered_dep_in _ _ _ Rn C) as (d' & C' & [Ed Pd]). exists n', d'.
  destruct Rn as (En & _). repeat split; auto; try congruence. eapply Permutation_in; eauto.
Qed.
Lemma reordered_edge l l' p q k : reordered_nodes l l' -> edge l p q k <-> edge l' p q k.
Proof. intros R. split; apply reordered_edge'; auto. now apply reordered_nodes_sym. Qed.

Lemma wf_reordered meta meta' nodes nodes' : well_formed meta nodes -> cm_resolve meta' = Some nodes' ->
  Permutation (cm_packages meta) (cm_packages meta') -> reordered_nodes nodes nodes' ->
  (forall m, In m (cm_members meta') -> In m (cm_members meta)) -> well_formed meta' nodes'.
Proof.
  intros wf R1 P R M. pose proof (reordered_ids _ _ R) as PI. pose proof (reordered_nodes_sym _ _ R) as R'.
  constructor; auto.
  - eapply Permutation_NoDup; [exact PI|apply wf].
  - eapply Permutation_NoDup; [apply Permutation_map, P|apply wf].
  - intros m Hm. eapply Permutation_in; [exact PI|]. apply wf; auto.
  - intros n Hn. destruct (reordered_in _ _ _ R' Hn) as (n0 & H0 & (E & _)). rewrite E.
    eapply Permutation_in; [apply Permutation_map, P|]. now apply wf.
  - intros n d Hn Hd. destruct (reordered_in _ _ _ R' Hn) as (n0 & H0 & Rn).
    destruct (reordered_dep_in _ _ _ Rn Hd) as (d0 & Hd0 & (E & _)). rewrite E.
    eapply Permutation_in; [exact PI|]. eapply wf_deps; eauto.
  - intros n d Hn Hd Hk. destruct (reordered_in _ _ _ R' Hn) as (n0 & H0 & Rn).
    destruct (reordered_dep_in _ _ _ Rn Hd) as (d0 & Hd0 & (_ & Pk)).
    apply (wf_kinds _ _ wf n0 d0 H0 Hd0). eapply Permutation_in; eauto.
  - intros p Hp. apply (wf_manifests _ _ wf). eapply Permutation_in; [apply Permutation_sym, P|auto].
Qed.

(** graph notions depend on the edges alone *)
Section Edges.
  Variables (l l' : list node).
  Hypothesis H : forall p q k, edge l p q k <-> edge l' p q k.
  Lemma walk_edges p ks q : walk l p ks q <-> walk l' p ks q.
  Proof.
    split.
    - induction 1; econstructor; eauto. now apply H.
    - induction 1; econstructor; eauto. now apply H.
  Qed.
  Lemma needs_edges on p q : needs l on p q <-> needs l' on p q.
  Proof. unfold needs. split; intros (k & A & B); exists k; split; auto; now apply H. Qed.
  Lemma reach_edges on p q : reach l on p q <-> reach l' on p q.
  Proof.
    split.
    - induction 1; econstructor; eauto. now apply needs_edges.
    - induction 1; econstructor; eauto. now apply needs_edges.
  Qed.
  Lemma selected_edges cfg m id : selected l cfg m id <-> selected l' cfg m id.
  Proof. unfold selected. now rewrite needs_edges, reach_edges. Qed.
  Lemma runtime_edges m id : runtime_dep l m id <-> runtime_dep l' m id.
  Proof. unfold runtime_dep. split; intros (ks & A & B); exists ks; split; auto; now apply walk_edges. Qed.
  Lemma nondev_edges m id : nondev_dep l m id <-> nondev_dep l' m id.
  Proof. unfold nondev_dep. split; intros (ks & A & B); exists ks; split; auto; now apply walk_edges. Qed.
  Lemma any_edges m id : any_dep l m id <-> any_dep l' m id.
  Proof. unfold any_dep. split; intros (ks & A); exists ks; now apply walk_edges. Qed.
  Lemma role_edges m id k : role l m id k <-> role l' m id k.
  Proof.
    pose proof (runtime_edges m id). pose proof (nondev_edges m id). pose proof (any_edges m id).
    destruct k; cbn [role]; tauto.
  Qed.
End Edges.

Lemma existsb_permutation {A} (f : A -> bool) l l' : Permutation l l' -> existsb f l = existsb f l'.
Proof.
  induction 1 as [|x l l' _ IH|x y l|l l' l'' _ IH1 _ IH2]; cbn; auto.
  - now rewrite IH.
  - destruct (f x), (f y); auto.
  - congruence.
Qed.
Lemma wanted_deps_reordered on n n' : reordered_node n n' -> Permutation (wanted_deps on n) (wanted_deps on n').
Proof.
  intros (_ & ds & P & F). unfold wanted_deps.
  assert (P2 : Permutation (filter (fun d => existsb (wantedb on) (nd_kinds d)) (n_deps n))
                           (filter (fun d => existsb (wantedb on) (nd_kinds d)) ds)).
  { clear F. induction P as [|x l l' _ IH|x y l|l l' l'' _ IH1 _ IH2]; cbn; auto.
    - destruct (existsb _ (nd_kinds x)); auto.
    - destruct (existsb _ (nd_kinds x)), (existsb _ (nd_kinds y)); auto. constructor.
    - eapply perm_trans; eauto. }
  eapply perm_trans; [apply Permutation_map, P2|]. clear P P2.
  match goal with |- Permutation ?a ?b => assert (a = b) as ->; [|auto] end.
  induction F as [|d d' l l' [E Pk] _ IH]; cbn [filter map]; auto. rewrite (existsb_permutation _ _ _ Pk).
  destruct (existsb _ (nd_kinds d')); cbn [map]; congruence.
Qed.

(** *** One SBOM *)
Section Two.
  Variables (w : world) (fuel fuel' : nat) (meta meta' : cargo_metadata) (nodes nodes' : list node) (cfg : config) (ws : path).
  Hypothesis wf : well_formed meta nodes.
  Hypothesis wf' : well_formed meta' nodes'.
  Hypothesis HP : Permutation (cm_packages meta) (cm_packages meta').
  Hypothesis HR : reordered_nodes nodes nodes'.

  Lemma kinds_reordered m kinds kinds' :
    index_dep_kinds fuel m (index_resolve nodes) = Done kinds ->
    index_dep_kinds fuel' m (index_resolve nodes') = Done kinds' ->
    forall id, selected nodes cfg m id -> bm_get id kinds = bm_get id kinds'.
  Proof.
    intros K K' id S.
    assert (E : forall p q k, edge nodes p q k <-> edge nodes' p q k) by (intros; now apply reordered_edge).
    pose proof (selected_any _ _ _ _ S) as D.
    destruct (index_dep_kinds_total _ _ _ wf _ _ K id D) as [k Ek].
    destruct (index_dep_kinds_total _ _ _ wf' _ _ K' id (proj1 (any_edges _ _ E m id) D)) as [k' Ek'].
    pose proof (index_dep_kinds_role _ _ _ wf _ _ K _ _ Ek) as R.
    pose proof (index_dep_kinds_role _ _ _ wf' _ _ K' _ _ Ek') as R'.
    apply (role_edges _ _ E) in R. rewrite Ek, Ek'. f_equal. eapply role_unique; eauto.
  Qed.

  Lemma create_sbom_reordered m g g' : In m (cm_members meta) -> In m (cm_members meta') ->
    create_sbom w fuel cfg ws (index_packages (cm_packages meta)) (index_resolve nodes) m = Done g ->
    create_sbom w fuel' cfg ws (index_packages (cm_packages meta')) (index_resolve nodes') m = Done g' ->
    same_but_dependency_order g g'.
  Proof.
    intros M M' H H'.
    assert (HE : forall p q k, edge nodes p q k <-> edge nodes' p q k) by (intros; now apply reordered_edge).
    apply (create_sbom_inv _ _ _ _ _ _ wf) in H as (kinds & ps & ns & rp & comps & md & tk & Hk & Hsel & Hin & Hid & Hc & Hmd & E1 & E2 & E3 & E4 & _ & _ & _ & Eg); auto.
    apply (create_sbom_inv _ _ _ _ _ _ wf') in H' as (kinds' & ps' & ns' & rp' & comps' & md' & tk' & Hk' & Hsel' & Hin' & Hid' & Hc' & Hmd' & E1' & E2' & E3' & E4' & _ & _ & _ & Eg'); auto.
    assert (rp' = rp) as ->.
    { assert (A : bm_get m (index_packages (cm_packages meta)) = Some rp) by (now apply (pk_get meta nodes wf)).
      assert (B : bm_get m (index_packages (cm_packages meta)) = Some rp').
      { apply (pk_get meta nodes wf). split; auto. eapply Permutation_in; [apply Permutation_sym, HP|auto]. }
      congruence. }
    rewrite Hmd in Hmd'. injection Hmd' as <- <-.
    assert (ps' = ps) as ->.
    { apply sorted_ext; [apply Hsel'|apply Hsel|]. intros k.
      assert (X : forall p, bm_get k ps' = Some p <-> bm_get k ps = Some p).
      { intros p. rewrite (sel_ps _ _ _ _ _ _ Hsel), (sel_ps _ _ _ _ _ _ Hsel'), (selected_edges _ _ HE).
        split; intros (A & B & C); split; auto; split; auto;
          [eapply Permutation_in; [apply Permutation_sym, HP|auto]|eapply Permutation_in; [exact HP|auto]]. }
      destruct (bm_get k ps') as [p|]; [symmetry; now apply X|].
      destruct (bm_get k ps) as [p|]; auto. now apply X. }
    assert (comps' = comps) as ->.
    { assert (HS : forall p, In p (filter (fun p => negb (String.eqb (pk_id p) m)) (map snd ps)) -> selected nodes cfg m (pk_id p)).
      { intros p Hp. apply filter_In in Hp as [Hp _]. apply in_map_iff in Hp as ([i p'] & E & Hp). cbn in E; subst p'.
        apply bm_In_get in Hp; [|apply Hsel]. apply (sel_ps _ _ _ _ _ _ Hsel) in Hp as (A & _ & ->). exact A. }
      clear Eg Eg' Hmd E1 E2 E3 E4 E1' E2' E3' E4'. revert comps' Hc' HS. induction Hc as [|p c l comps X _ IH]; intros comps' Hc' HS.
      - inversion Hc'; auto.
      - inversion Hc' as [|? c' ? comps'' X' Hc'']; subst. f_equal.
        + unfold create_component in X, X'. rewrite (kinds_reordered _ _ _ Hk Hk') in X by (apply HS; now left).
          rewrite X in X'. congruence.
        + apply IH; auto. intros q Hq. apply HS. now right. }
    unfold same_but_dependency_order. rewrite E1, E1', E2, E2', E3, E3', E4, E4'. split; auto. split; auto. split; auto. split; auto.
    exists (create_dependencies ns'). split.
    - rewrite Eg, Eg'. reflexivity.
    - rewrite Eg. cbn [dependency_list b_dependencies]. unfold create_dependencies.
      assert (K : map fst ns = map fst ns').
      { assert (L : forall (a b : list string), StronglySorted (fun x y => String.compare x y = Lt) a ->
            StronglySorted (fun x y => String.compare x y = Lt) b -> (forall x, In x a <-> In x b) -> a = b).
        { induction a as [|x a IH]; intros b Sa Sb Hab.
          - destruct b as [|y b]; auto. destruct (proj2 (Hab y) (or_introl eq_refl)).
          - destruct b as [|y b]; [destruct (proj1 (Hab x) (or_introl eq_refl))|].
            apply StronglySorted_inv in Sa as [Sa Fa]. apply StronglySorted_inv in Sb as [Sb Fb].
            rewrite Forall_forall in Fa, Fb.
            assert (irr : forall s, String.compare s s = Lt -> False) by (intros s X; apply compare_lt in X; now apply slt_irrefl in X).
            assert (x = y) as ->.
            { destruct (proj1 (Hab x) (or_introl eq_refl)) as [->|X]; auto.
              destruct (proj2 (Hab y) (or_introl eq_refl)) as [->|Y]; auto.
              apply Fb in X. apply Fa in Y. exfalso. apply (irr x). 
              apply compare_lt in X, Y. apply compare_lt. eapply slt_trans; eauto. }
            f_equal. apply IH; auto. intros z. split; intros Hz.
            + destruct (proj1 (Hab z) (or_intror Hz)) as [<-|]; auto. exfalso. eapply irr, Fa, Hz.
            + destruct (proj2 (Hab z) (or_intror Hz)) as [<-|]; auto. exfalso. eapply irr, Fb, Hz. }
        apply L.
        - apply sorted_keys_ssorted, Hsel.
        - apply sorted_keys_ssorted, Hsel'.
        - intros x. rewrite <- !bm_get_keys, <- !bm_mem_true, (sel_ns _ _ _ _ _ _ Hsel), (sel_ns _ _ _ _ _ _ Hsel').
          now apply selected_edges. }
      assert (D : forall i n n', bm_get i ns = Some n -> bm_get i ns' = Some n' ->
         n_id n = n_id n' /\ Permutation (n_dependencies n) (n_dependencies n')).
      { intros i n n' A B. apply (sel_deps _ _ _ _ _ _ Hsel) in A as (I & A' & A).
        apply (sel_deps _ _ _ _ _ _ Hsel') in B as (I' & B' & B). split; [congruence|].
        destruct A as [(T & N & En)|(n0 & A1 & A2 & En)].
        - rewrite En. destruct (n_dependencies n') as [|x l] eqn:E; auto.
          destruct (proj1 (B' x) (or_introl eq_refl)) as [_ X]. elim N. auto.
        - destruct B as [(T & N & En')|(n0' & B1 & B2 & En')]; rewrite En'.
          + destruct (n_dependencies n) as [|x l] eqn:E; auto. exfalso.
            destruct (proj1 (A' x) (or_introl eq_refl)) as [_ X]. elim N. auto.
          + destruct (reordered_in _ _ _ HR A1) as (n1 & C1 & C2).
            rewrite En. assert (n1 = n0') as ->; [|now apply wanted_deps_reordered].
            pose proof (proj2 (nd_get meta' nodes' wf' (n_id n1) n1) (conj C1 eq_refl)) as X1.
            pose proof (proj2 (nd_get meta' nodes' wf' (n_id n0') n0') (conj B1 eq_refl)) as X2.
            destruct C2 as [C2 _]. replace (n_id n1) with (n_id n0') in X1 by congruence. congruence. }
      clear -K D Hsel Hsel'.
      assert (G : forall i n, In (i, n) ns -> bm_get i ns = Some n) by (intros; apply bm_In_get; auto; apply Hsel).
      assert (G' : forall i n, In (i, n) ns' -> bm_get i ns' = Some n) by (intros; apply bm_In_get; auto; apply Hsel').
      assert (D' : forall i n n', In (i, n) ns -> In (i, n') ns' ->
         n_id n = n_id n' /\ Permutation (n_dependencies n) (n_dependencies n')) by eauto.
      clear -K D'. revert ns' K D'. induction ns as [|[i n] l IH]; intros [|[i' n'] l'] K D'; try discriminate K; cbn [map]; constructor.
      + injection K as -> _. cbn. apply (D' i'); now left.
      + injection K as -> K. apply IH; auto. intros j a b A B. apply (D' j); now right.
  Qed.
End Two.

(** *** All SBOMs of a workspace *)
Lemma usable_of_metadata w cfg ws hs p r : create_metadata w cfg ws hs p = Done r -> usable_clock w /\ cf_target cfg <> None.
Proof.
  unfold create_metadata. intros H. inv_bind H. inv_bind H. inv_bind H. apply unwrap_done in Hv1. split; [|congruence].
  unfold bom_timestamp in Hv. destruct (w_now w) eqn:E; [|discriminate Hv]. cbn [bind] in Hv. split; [congruence|].
  intros e He. rewrite He in Hv. destruct (parse_i64 e) as [z|]; [|discriminate Hv]. exists z. split; auto.
  cbn [unwrap bind] in Hv. destruct (w_format_time w z); [discriminate|discriminate Hv].
Qed.
Lemma create_sboms_reordered w fuel meta meta' nodes nodes' cfg gs :
  well_formed meta nodes -> cm_resolve meta' = Some nodes' ->
  Permutation (cm_packages meta) (cm_packages meta') -> reordered_nodes nodes nodes' ->
  cm_members meta' = cm_members meta -> cm_workspace_root meta' = cm_workspace_root meta ->
  create_sboms w fuel meta cfg = Done gs ->
  (exists fuel0 gs', forall fuel', fuel0 <= fuel' -> create_sboms w fuel' meta' cfg = Done gs')
  /\ forall fuel' gs', create_sboms w fuel' meta' cfg = Done gs' -> Forall2 same_but_dependency_order gs gs'.
Proof.
  intros wf R1 P R M W H.
  assert (wf' : well_formed meta' nodes') by (eapply wf_reordered; eauto; rewrite M; auto).
  pose proof (create_sboms_forall _ _ _ _ _ _ (wf_resolve _ _ wf) H) as F. split.
  - destruct (cm_members meta) as [|m0 l] eqn:EM.
    + exists 0, []. intros fuel' _. unfold create_sboms. rewrite R1, M. reflexivity.
    + inversion F as [|? g0 ? ? [H0 M0] _]; subst.
      apply (create_sbom_inv _ _ _ _ _ _ wf) in H0 as (kinds & ps & ns & rp & comps & md & tk & _ & _ & _ & _ & _ & Hmd & _); auto.
      apply usable_of_metadata in Hmd as [U T]. apply (create_sboms_done meta' nodes' cfg wf' w U T).
  - intros fuel' gs' H'. pose proof (create_sboms_forall _ _ _ _ _ _ R1 H') as F'. rewrite M, W in F'.
    clear H H'. revert gs' F'. generalize (fun x (I : In x (cm_members meta)) => I). revert F.
    generalize (cm_members meta) at 1 2 4 as l. intros l F. induction F as [|m g l gs [H1 H2] F IH]; intros I gs' F'.
    + inversion F'. constructor.
    + inversion F' as [|? g' ? gs0 [H1' H2'] F0]; subst. constructor.
      * eapply create_sbom_reordered; [exact wf|exact wf'|exact P|exact R|exact H2|exact H2'|exact H1|exact H1'].
      * apply IH; auto. intros x Hx. apply I. now right.
Qed.

(** What one generated SBOM contains. *)
From Verif Require Import Base Strings ModelTypes ConfigModel GenModel GenSpec GenProofs GenProofs2.
From Coq Require Import NArith.
Open Scope string_scope.
Open Scope list_scope.

Lemma assoc_last_none {V} k (l : list (string * V)) : assoc_last k l = None -> forall v, ~ In (k, v) l.
Proof.
  induction l as [|[k' v'] l IH]; cbn [assoc_last In]; [tauto|].
  destruct (assoc_last k l) eqn:E; [discriminate|].
  destruct (String.eqb_spec k k') as [->|N]; [discriminate|].
  intros _ v [H|H]; [congruence|]. now apply (IH eq_refl v).
Qed.

Section Select.
  Variables (meta : cargo_metadata) (nodes : list node) (cfg : config).
  Hypothesis wf : well_formed meta nodes.
  Let packages := index_packages (cm_packages meta).
  Let resolve := index_resolve nodes.

  Lemma pk_get id p : bm_get id packages = Some p <-> In p (cm_packages meta) /\ pk_id p = id.
  Proof. apply (index_get pk_id). apply wf. Qed.
  Lemma nd_get id n : bm_get id resolve = Some n <-> In n nodes /\ n_id n = id.
  Proof. apply (index_get n_id). apply wf. Qed.
  Lemma nd_keyed id n : bm_get id resolve = Some n -> n_id n = id.
  Proof. intros H. now apply nd_get in H. Qed.
  Lemma nd_mem id : bm_mem id resolve = true <-> In id (map n_id nodes).
  Proof. apply (index_mem n_id). apply wf. Qed.
  Lemma needs_node p q on : needs nodes on p q -> In q (map n_id nodes).
  Proof.
    intros (k & (n & d & A & B & C & D & E) & _). subst q. eapply wf_deps; eauto.
  Qed.
  Lemma reach_node on m id : In m (map n_id nodes) -> reach nodes on m id -> In id (map n_id nodes).
  Proof. intros Hm H. inversion H; subst; auto. eapply needs_node; eauto. Qed.
  Lemma node_pkg id : In id (map n_id nodes) -> exists p, In p (cm_packages meta) /\ pk_id p = id.
  Proof.
    intros H. apply in_map_iff in H as (n & <- & H). apply wf in H.
    apply in_map_iff in H as (p & E & H). eauto.
  Qed.

  Record selection (m : string) (ps : bmap package) (ns : bmap node) : Prop := {
    sel_ps_sorted : sorted ps;
    sel_ns_sorted : sorted ns;
    sel_ps : forall id p, bm_get id ps = Some p <-> selected nodes cfg m id /\ In p (cm_packages meta) /\ pk_id p = id;
    sel_ns : forall id, bm_mem id ns = true <-> selected nodes cfg m id;
    sel_deps : forall id n, bm_get id ns = Some n -> n_id n = id /\
      (forall x, In x (n_dependencies n) <->
        needs nodes (normal_only cfg) id x /\ (top_level_mode cfg -> id = m)) /\
      ((top_level_mode cfg /\ id <> m /\ n_dependencies n = []) \/
       exists n0, In n0 nodes /\ n_id n0 = id /\ n_dependencies n = wanted_deps (normal_only cfg) n0)
  }.

  Lemma wanted_deps_eq n : n_dependencies (add_filtered_dependencies cfg n) = wanted_deps (normal_only cfg) n.
  Proof.
    cbn. unfold wanted_deps, filtered_dependencies. f_equal. apply filter_ext. intros d.
    assert (H : forall k, keep_kind (cf_only_normal cfg) k = wantedb (normal_only cfg) k).
    { intros k. unfold normal_only. destruct (cf_only_normal cfg) as [[]|]; destruct k; reflexivity. }
    induction (nd_kinds d) as [|k l IH]; cbn [existsb]; auto. now rewrite IH, H.
  Qed.

  Lemma added_deps n x : In (n_id n) (map n_id nodes) -> bm_get (n_id n) resolve = Some n ->
    (In x (n_dependencies (add_filtered_dependencies cfg n)) <-> needs nodes (normal_only cfg) (n_id n) x).
  Proof.
    intros _ Hn. cbn. rewrite <- (rneeds_needs nodes (wf_nodes _ _ wf)). unfold rneeds. fold resolve.
    rewrite in_map_iff. split.
    - intros (d & A & B). exists n, d. auto.
    - intros (n' & d & A & B & C). rewrite Hn in A. injection A as <-. eauto.
  Qed.

  Lemma select_all fuel m ps ns : included_of cfg = AllDependencies -> In m (cm_members meta) ->
    all_dependencies fuel m packages resolve cfg = Done (ps, ns) -> selection m ps ns.
  Proof.
    intros Hi Hm H. unfold all_dependencies in H. inv_bind H. inv_bind H. injection H as <- <-.
    apply unwrap_done in Hv. apply (bfs_spec cfg resolve nd_keyed) with (root := m) in Hv0 as (S1 & S2 & S3); auto.
    assert (Hmode : ~ top_level_mode cfg).
    { unfold top_level_mode, included_of in *. intros E. rewrite E in Hi. discriminate. }
    assert (Hsel : forall id, bm_mem id v0 = true <-> selected nodes cfg m id).
    { intros id. rewrite S2. unfold resolve. rewrite (rreach_reach nodes (wf_nodes _ _ wf)). unfold selected. tauto. }
    split; auto.
    - apply sorted_filter, bm_of_list_sorted.
    - intros id p. rewrite <- Hsel, <- pk_get. split.
      + intros H. apply bm_get_In in H. apply filter_In in H as [A B].
        split; auto. apply bm_In_get; auto. apply bm_of_list_sorted.
      + intros [A B]. apply bm_In_get.
        * apply sorted_filter, bm_of_list_sorted.
        * apply filter_In. split; auto. now apply bm_get_In.
    - intros id n Hn. apply S3 in Hn as (n0 & A & ->). pose proof (nd_keyed _ _ A) as E. cbn [n_id add_filtered_dependencies]. split; auto.
      split.
      + intros x. rewrite added_deps; [|apply nd_mem, bm_mem_true; rewrite E; eauto|now rewrite E].
        rewrite E. tauto.
      + right. exists n0. apply nd_get in A as [A _]. repeat split; auto. apply wanted_deps_eq.
  Qed.

  Lemma select_top m ps ns : included_of cfg = TopLevelDependencies -> In m (cm_members meta) ->
    top_level_dependencies m packages resolve cfg = Done (ps, ns) -> selection m ps ns.
  Proof.
    intros Hi Hm H. unfold top_level_dependencies in H. inv_bind H. inv_bind H. inv_bind H. inv_bind H.
    injection H as <- <-. apply unwrap_done in Hv, Hv0. apply mapM_done in Hv1, Hv2.
    assert (Hmode : top_level_mode cfg).
    { unfold top_level_mode, included_of in *. destruct (cf_included cfg) as [[]|]; cbn in Hi; congruence. }
    pose proof (nd_keyed _ _ Hv) as E.
    assert (Hdeps : forall x, In x (n_dependencies (add_filtered_dependencies cfg v)) <-> needs nodes (normal_only cfg) m x).
    { intros x. rewrite added_deps; [now rewrite E|apply nd_mem, bm_mem_true; rewrite E; eauto|now rewrite E]. }
    assert (Hps : forall id p, In (id, p) v1 <-> In id (n_dependencies (add_filtered_dependencies cfg v)) /\ bm_get id packages = Some p).
    { clear -Hv1. intros id p. induction Hv1 as [|i kv l l' H _ IH]; cbn [In]; [tauto|].
      inv_bind H. injection H as <-. apply unwrap_done in Hv. rewrite IH. split.
      - intros [H|H]; [injection H as <- <-|]; tauto.
      - intros [[<-|A] B]; [left; congruence|auto]. }
    assert (Hns : forall id n, In (id, n) v2 <-> In id (n_dependencies (add_filtered_dependencies cfg v)) /\
              exists n0, bm_get id resolve = Some n0 /\ n = mkNode (n_id n0) [] []).
    { clear -Hv2. intros id p. induction Hv2 as [|i kv l l' H _ IH]; cbn [In]; [tauto|].
      inv_bind H. injection H as <-. apply unwrap_done in Hv. rewrite IH. split.
      - intros [H|H]; [injection H as <- <-|]; [|tauto]. eauto.
      - intros [[<-|A] (n0 & B & C)]; [left|right; split; eauto]. subst p. rewrite Hv in B. now injection B as <-. }
    assert (Hsel : forall id, selected nodes cfg m id <-> id = m \/ In id (n_dependencies (add_filtered_dependencies cfg v))).
    { intros id. rewrite Hdeps. unfold selected. tauto. }
    assert (Hal : forall V (vs : list (string * V)) k, (forall v1 v2, In (k, v1) vs -> In (k, v2) vs -> v1 = v2) ->
                  forall v, (assoc_last k vs = Some v <-> In (k, v) vs)).
    { intros V vs k Hu x. split; [apply assoc_last_In|]. intros Hin.
      destruct (assoc_last k vs) as [y|] eqn:Ey.
      - apply assoc_last_In in Ey. f_equal. eauto.
      - exfalso. eapply assoc_last_none; eauto. }
    assert (Hs1 : sorted [(m, v0)]) by (constructor; constructor).
    split.
    - now apply fold_insert_sorted.
    - apply bm_insert_sorted, fold_insert_sorted. constructor.
    - intros id p. rewrite fold_insert_get by auto. rewrite Hsel, <- pk_get.
      assert (Hu : forall v3 v4, In (id, v3) v1 -> In (id, v4) v1 -> v3 = v4).
      { intros v3 v4 A B. apply Hps in A as [_ A], B as [_ B]. congruence. }
      destruct (assoc_last id v1) as [y|] eqn:Ey.
      + apply (Hal _ v1 id Hu) in Ey. apply Hps in Ey as [A B]. split.
        * intros F. injection F as <-. auto.
        * intros [_ F]. congruence.
      + cbn [bm_get]. destruct (String.eqb_spec id m) as [->|N].
        * rewrite Hv0. split; [intros F; injection F as <-|intros [_ F]]; auto.
        * cbn. split; [discriminate|]. intros [[|A] B]; [congruence|]. exfalso.
          assert (In (id, p) v1) by (now apply Hps). apply (Hal _ v1 id Hu) in H. congruence.
    - intros id. rewrite Hsel. unfold bm_mem. rewrite bm_get_insert by (apply fold_insert_sorted; constructor).
      destruct (String.eqb_spec id m) as [->|N]; [tauto|].
      rewrite fold_insert_get by constructor. split.
      + destruct (assoc_last id v2) as [y|] eqn:Ey; [|cbn; discriminate]. apply assoc_last_In in Ey.
        apply Hns in Ey. tauto.
      + intros [|A]; [congruence|].
        assert (exists n0, bm_get id resolve = Some n0) as [n0 Hn0].
        { apply bm_mem_true, nd_mem. apply Hdeps in A. now apply needs_node in A. }
        assert (Hin : In (id, mkNode (n_id n0) [] []) v2) by (apply Hns; eauto).
        destruct (assoc_last id v2) eqn:Ey; auto. exfalso. eapply assoc_last_none; eauto.
    - intros id n. rewrite bm_get_insert by (apply fold_insert_sorted; constructor).
      destruct (String.eqb_spec id m) as [->|N].
      + intros F. injection F as <-. split; [exact E|]. split; [intros x; rewrite Hdeps; tauto|].
        right. exists v. apply nd_get in Hv as [A _]. repeat split; auto. apply wanted_deps_eq.
      + rewrite fold_insert_get by constructor. destruct (assoc_last id v2) as [y|] eqn:Ey; [|cbn; discriminate].
        intros F. injection F as <-. apply assoc_last_In, Hns in Ey as (A & n0 & B & ->). cbn.
        split; [now apply nd_keyed|]. split; [|left; auto].
        intros x. split; [tauto|]. intros [_ F]. elim N. auto.
  Qed.
End Select.

Lemma bm_get_map {V W} (f : V -> W) (m : bmap V) k :
  bm_get k (map (fun kv => (fst kv, f (snd kv))) m) = option_map f (bm_get k m).
Proof.
  induction m as [|[k' v] m IH]; cbn [map bm_get fst snd]; auto. destruct (String.eqb k k'); auto.
Qed.

Section Sbom.
  Variables (w : world) (fuel : nat) (meta : cargo_metadata) (nodes : list node) (cfg : config) (ws : path).
  Hypothesis wf : well_formed meta nodes.
  Let packages := index_packages (cm_packages meta).
  Let resolve := index_resolve nodes.

  Lemma index_dep_kinds_role m kinds : index_dep_kinds fuel m resolve = Done kinds ->
    forall id k, bm_get id kinds = Some k -> role nodes m id k.
  Proof.
    intros H id k. unfold index_dep_kinds in H. inv_bind H. injection H as <-.
    apply dfs_strongest in Hv as [_ Hv]. rewrite bm_get_map.
    destruct (bm_get id v) as [k0|] eqn:E; cbn; [|discriminate]. intros F; injection F as <-.
    apply Hv in E. apply (strongest_role nodes (wf_nodes _ _ wf)); [apply wf|auto].
  Qed.
  Lemma index_dep_kinds_total m kinds : index_dep_kinds fuel m resolve = Done kinds ->
    forall id, any_dep nodes m id -> exists k, bm_get id kinds = Some k.
  Proof.
    intros H id [ks W]. unfold index_dep_kinds in H. inv_bind H. injection H as <-.
    assert (Hun : ~ In KUnknown ks).
    { clear -W wf. induction W as [|p ks q k0 r _ IH (n & d & A & B & C & D & E)]; [tauto|].
      intros H. apply in_app_or in H as [H|[->|[]]]; [tauto|]. eapply wf_kinds; eauto. }
    destruct (walk_pathk nodes (wf_nodes _ _ wf) _ _ _ W Hun) as (k & P & _).
    destruct (dfs_total _ _ _ _ Hv id k P) as [k' E]. rewrite bm_get_map, E. cbn. eauto.
  Qed.

  Lemma reach_walk on m id : reach nodes on m id -> exists ks, walk nodes m ks id /\ Forall (wanted on) ks.
  Proof.
    induction 1 as [p|p q r _ (ks & W & F) (k & E & K)].
    - exists []. split; constructor.
    - exists (ks ++ [k]). split; [econstructor; eauto|]. apply Forall_app. split; auto.
  Qed.
  Lemma selected_any m id : selected nodes cfg m id -> any_dep nodes m id.
  Proof.
    intros [[_ [->|(k & E & _)]]|[_ H]].
    - exists []. constructor.
    - exists ([] ++ [k]). econstructor; [constructor|exact E].
    - apply reach_walk in H as (ks & W & _). now exists ks.
  Qed.

  (** the pieces of one generated SBOM *)
  Lemma create_sbom_inv m g : In m (cm_members meta) ->
    create_sbom w fuel cfg ws packages resolve m = Done g ->
    exists kinds ps ns rp comps md tk,
      index_dep_kinds fuel m resolve = Done kinds /\ selection meta nodes cfg m ps ns /\
      In rp (cm_packages meta) /\ pk_id rp = m /\
      Forall2 (fun p c => create_component w cfg ws (crate_hashes w (pk_manifest rp)) p rp kinds = Done c)
        (filter (fun p => negb (String.eqb (pk_id p) m)) (map snd ps)) comps /\
      create_metadata w cfg ws (crate_hashes w (pk_manifest rp)) rp = Done (md, tk) /\
      g_manifest_path g = pk_manifest rp /\ g_package_name g = pk_name rp /\ g_config g = cfg /\
      g_target_kinds g = tk /\
      b_metadata (g_bom g) = Some md /\ b_components (g_bom g) = Some comps /\
      b_dependencies (g_bom g) = Some (create_dependencies ns) /\
      g_bom g = {| b_version := u32_1;
           b_serial_number := match w_epoch w with Some _ => None | None => Some (w_uuid w) end;
           b_metadata := Some md; b_components := Some comps;
           b_services := None; b_external_references := None;
           b_dependencies := Some (create_dependencies ns);
           b_compositions := None; b_properties := None; b_vulnerabilities := None;
           b_signature := None; b_annotations := None; b_formulation := None;
           b_spec_version := V1_3 |}.
  Proof.
    intros Hm H. unfold create_sbom in H. inv_bind H. rename v into kinds. inv_bind H. destruct v as [ps ns].
    assert (Hsel : selection meta nodes cfg m ps ns).
    { destruct (included_of cfg) eqn:E; [eapply select_top|eapply select_all]; eauto. }
    inv_bind H. rename v into rp. inv_bind H. destruct v as [b tk]. injection H as <-.
    unfold create_bom in Hv2. cbn [fst snd] in Hv2. inv_bind Hv2. inv_bind Hv2. inv_bind Hv2. destruct v1 as [md tk'].
    cbn [fst snd] in Hv2. injection Hv2 as <- <-. apply unwrap_done in Hv1, Hv3.
    assert (v = rp) as ->.
    { apply (sel_ps _ _ _ _ _ _ Hsel) in Hv3 as (_ & A & B). apply (pk_get meta nodes wf) in Hv1 as [C D].
      assert (E : bm_get m packages = Some v) by (now apply (pk_get meta nodes wf)).
      assert (E' : bm_get m packages = Some rp) by (now apply (pk_get meta nodes wf)). congruence. }
    apply mapM_done in Hv4. apply (pk_get meta nodes wf) in Hv1 as [C D].
    exists kinds, ps, ns, rp, v0, md, tk'. cbn. repeat (split; [auto; fail|]). reflexivity.
  Qed.

  Lemma create_component_ref hs p rp kinds c :
    create_component w cfg ws hs p rp kinds = Done c -> c_bom_ref c = Some (pk_id p).
  Proof. unfold create_component. intros H. inv_bind H. injection H as <-. reflexivity. Qed.
  Lemma create_component_scope hs p rp kinds c :
    create_component w cfg ws hs p rp kinds = Done c ->
    c_scope c = match bm_get (pk_id p) kinds with
                | Some KNormal | None => Some ScRequired | Some _ => Some ScExcluded end.
  Proof.
    unfold create_component. intros H. inv_bind H. injection H as <-. cbn.
    destruct (bm_get (pk_id p) kinds) as [[]|]; reflexivity.
  Qed.

  Lemma comps_refs hs rp kinds l comps :
    Forall2 (fun p c => create_component w cfg ws hs p rp kinds = Done c) l comps ->
    map c_bom_ref comps = map (fun p => Some (pk_id p)) l.
  Proof.
    induction 1 as [|p c l comps H _ IH]; cbn; auto. f_equal; auto. eapply create_component_ref; eauto.
  Qed.

  Lemma sel_keys m ps ns : selection meta nodes cfg m ps ns -> map pk_id (map snd ps) = map fst ps.
  Proof.
    intros H. rewrite map_map. apply map_ext_in. intros [k p] Hin. cbn.
    apply bm_In_get in Hin; [|apply H]. apply (sel_ps _ _ _ _ _ _ H) in Hin. tauto.
  Qed.

  Lemma nodup_map_filter {A B} (f : A -> B) (p : A -> bool) l : NoDup (map f l) -> NoDup (map f (filter p l)).
  Proof.
    induction l as [|x l IH]; cbn; auto. intros H; inversion_clear H as [|? ? N D].
    destruct (p x); cbn; auto. constructor; auto. intros Hin. apply N.
    apply in_map_iff in Hin as (y & E & Hy). apply filter_In in Hy as [Hy _]. apply in_map_iff. eauto.
  Qed.

  Lemma toplevel_ref hs p r : create_toplevel_component w cfg ws hs p = Done r -> c_bom_ref (fst r) = Some (pk_id p).
  Proof.
    unfold create_toplevel_component. intros H. inv_bind H. inv_bind H. inv_bind H. injection H as <-. cbn.
    eapply create_component_ref; eauto.
  Qed.

  Definition sbom_ok (m : string) (g : generated) : Prop :=
    create_sbom w fuel cfg ws packages resolve m = Done g /\ In m (cm_members meta).

  Lemma sbom_components m g : sbom_ok m g ->
    (exists c, main_component (g_bom g) = Some c /\ c_bom_ref c = Some m)
    /\ NoDup (component_refs (g_bom g))
    /\ (forall r, In r (component_refs (g_bom g)) <-> exists id, r = Some id /\ selected nodes cfg m id /\ id <> m).
  Proof.
    intros [H Hm]. apply create_sbom_inv in H as (kinds & ps & ns & rp & comps & md & tk & Hk & Hsel & Hin & Hid & Hc & Hmd & _ & _ & _ & _ & Eb & _ & _ & Eg); auto.
    unfold component_refs, component_list, main_component. rewrite Eg; cbn [b_components b_metadata].
    split; [|split].
    - unfold create_metadata in Hmd. inv_bind Hmd. inv_bind Hmd. inv_bind Hmd. injection Hmd as <- _. cbn.
      eexists; split; [reflexivity|]. rewrite <- Hid. eapply toplevel_ref; eauto.
    - rewrite (comps_refs _ _ _ _ _ Hc).
      rewrite <- (map_map pk_id Some). apply FinFun.Injective_map_NoDup; [intros x y E; congruence|].
      apply nodup_map_filter. rewrite (sel_keys _ _ _ Hsel). apply sorted_keys_nodup, Hsel.
    - intros r. rewrite (comps_refs _ _ _ _ _ Hc). rewrite in_map_iff. split.
      + intros (p & <- & Hp). apply filter_In in Hp as [Hp N]. exists (pk_id p). split; auto.
        apply negb_true_iff, String.eqb_neq in N. split; auto.
        apply in_map_iff in Hp as ([k p'] & E & Hp). cbn in E; subst p'.
        apply bm_In_get in Hp; [|apply Hsel]. apply (sel_ps _ _ _ _ _ _ Hsel) in Hp as (A & _ & ->). exact A.
      + intros (id & -> & S & N).
        assert (exists p, bm_get id ps = Some p) as [p Hp].
        { assert (In id (map n_id nodes)) as Hn.
          { assert (In m (map n_id nodes)) by (now apply wf).
            destruct S as [[_ [->|S]]|[_ S]]; auto; [eapply needs_node; eauto|eapply reach_node; eauto]. }
          apply (node_pkg meta nodes wf) in Hn as (p & A & B). exists p. apply (sel_ps _ _ _ _ _ _ Hsel). auto. }
        exists p. pose proof Hp as Hp'. apply (sel_ps _ _ _ _ _ _ Hsel) in Hp as (_ & _ & E). split; [congruence|].
        apply filter_In. split; [|rewrite E; now apply negb_true_iff, String.eqb_neq].
        apply in_map_iff. exists (id, p). split; auto. now apply bm_get_In.
  Qed.

  Lemma sbom_dependencies m g : sbom_ok m g ->
    NoDup (map d_ref (dependency_list (g_bom g)))
    /\ (forall id, In id (map d_ref (dependency_list (g_bom g))) <-> selected nodes cfg m id)
    /\ (forall d, In d (dependency_list (g_bom g)) ->
          (forall x, In x (d_dependencies d) <->
             needs nodes (normal_only cfg) (d_ref d) x /\ (top_level_mode cfg -> d_ref d = m))
          /\ ((top_level_mode cfg /\ d_ref d <> m /\ d_dependencies d = []) \/
              exists n0, In n0 nodes /\ n_id n0 = d_ref d /\ d_dependencies d = wanted_deps (normal_only cfg) n0)).
  Proof.
    intros [H Hm]. apply create_sbom_inv in H as (kinds & ps & ns & rp & comps & md & tk & Hk & Hsel & Hin & Hid & Hc & Hmd & _ & _ & _ & _ & Eb & _ & _ & Eg); auto.
    unfold dependency_list. rewrite Eg; cbn [b_dependencies]. unfold create_dependencies.
    assert (E : map d_ref (map (fun kv : string * node => mkDependency (n_id (snd kv)) (n_dependencies (snd kv))) ns) = map fst ns).
    { rewrite map_map. apply map_ext_in. intros [k n] Hn. cbn. apply bm_In_get in Hn; [|apply Hsel].
      now apply (sel_deps _ _ _ _ _ _ Hsel) in Hn. }
    split; [|split].
    - rewrite E. apply sorted_keys_nodup, Hsel.
    - intros id. rewrite E, <- bm_get_keys, <- bm_mem_true. apply Hsel.
    - intros d Hd. apply in_map_iff in Hd as ([k n] & <- & Hn). cbn [d_ref d_dependencies snd].
      apply bm_In_get in Hn; [|apply Hsel]. apply (sel_deps _ _ _ _ _ _ Hsel) in Hn as (-> & A & B). auto.
  Qed.

  Lemma sbom_scope m g : sbom_ok m g ->
    forall c, In c (component_list (g_bom g)) ->
    exists id k, c_bom_ref c = Some id /\ role nodes m id k /\
      c_scope c = match k with KNormal => Some ScRequired | _ => Some ScExcluded end.
  Proof.
    intros Hok c Hc. destruct (sbom_components _ _ Hok) as (_ & _ & Hrefs).
    destruct Hok as [H Hm]. apply create_sbom_inv in H as (kinds & ps & ns & rp & comps & md & tk & Hk & Hsel & Hin & Hid & Hcs & Hmd & _ & _ & _ & _ & Eb & _ & _ & Eg); auto.
    assert (In (c_bom_ref c) (component_refs (g_bom g))) as Hr by (apply in_map_iff; eauto).
    apply Hrefs in Hr as (id & Er & S & _). exists id.
    destruct (index_dep_kinds_total _ _ Hk id (selected_any _ _ S)) as [k Ek].
    exists k. split; auto. split; [eapply index_dep_kinds_role; eauto|].
    unfold component_list in Hc. rewrite Eg in Hc. cbn in Hc.
    assert (exists p, create_component w cfg ws (crate_hashes w (pk_manifest rp)) p rp kinds = Done c) as [p Hp].
    { clear -Hcs Hc. induction Hcs as [|p y l l' E _ IH]; [destruct Hc|]. destruct Hc as [->|Hc]; eauto. }
    rewrite (create_component_scope _ _ _ _ _ Hp). apply create_component_ref in Hp.
    assert (pk_id p = id) as -> by congruence. rewrite Ek. destruct k; reflexivity.
  Qed.
End Sbom.

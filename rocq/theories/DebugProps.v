(** ** C75: the self-checks of a debug build *)
From Verif Require Import Base Strings ModelTypes ConfigModel GenModel GenSpec GenExample GenProofs GenProofs2 GenProofs3
  GenProofs4 GenProofs5 GenProofs6 GenProofs7 GenProofs8 GenProps GenValProps LogSpec LogProps DebugModel.
Open Scope string_scope.
Open Scope list_scope.

(** The directory of the package is the workspace root or below *)
Definition inside (meta : cargo_metadata) (p : package) : Prop :=
  exists rest, removelast (pk_manifest p) = cm_workspace_root meta ++ rest.
(** packageurl reads what it writes *)
Definition purls_read (w : world) (purl_ok : string -> bool) : Prop :=
  forall n v q s u, w_purl w n v q s = Some u -> purl_ok u = true.
(** A member outside of the root has a local dependency inside *)
Definition reaches_in (meta : cargo_metadata) (m : string) (g : generated) : Prop :=
  exists r p c, member_package meta m r /\ ~ inside meta r /\ told meta g p c /\ pk_source p = None /\ inside meta p.

Lemma starts_inside meta p : pk_manifest p <> [] ->
  exists dir, parent (pk_manifest p) = Some dir /\ (path_starts_with dir (cm_workspace_root meta) = true <-> inside meta p).
Proof.
  intros N. exists (removelast (pk_manifest p)). split; [unfold parent; now destruct (pk_manifest p)|].
  unfold path_starts_with, inside. destruct (path_strip_prefix _ _) as [r|] eqn:E.
  - split; [|reflexivity]. intros _. exists r. now apply strip_prefix_iff.
  - split; [discriminate|]. intros [r X]. apply strip_prefix_iff in X. congruence.
Qed.

Section DEBUG.
  Variables (w : world) (purl_ok : string -> bool) (fuel : nat) (meta : cargo_metadata) (nodes : list node) (cfg : config).
  Hypothesis wf : well_formed meta nodes.
  Hypothesis ok : purls_read w purl_ok.
  Let ws := cm_workspace_root meta.

  Lemma root_inside_iff p r : pk_manifest p <> [] -> pk_manifest r <> [] ->
    root_inside p r ws = true <-> (pk_source p = None -> inside meta p -> inside meta r).
  Proof.
    intros Hp Hr. unfold root_inside. destruct (pk_source p); [split; [discriminate|reflexivity]|].
    destruct (starts_inside meta p Hp) as (dp & -> & Ip). destruct (starts_inside meta r Hr) as (dr & -> & Ir). fold ws in Ip, Ir.
    rewrite <- Ip, <- Ir. destruct (path_starts_with dp ws), (path_starts_with dr ws); intuition.
  Qed.
  Lemma debug_purl_runs p r sub : pk_manifest p <> [] -> pk_manifest r <> [] ->
    (root_inside p r ws = true -> runs (debug_purl w purl_ok p r ws sub))
    /\ (root_inside p r ws = false -> exists s, debug_purl w purl_ok p r ws sub = Panic s).
  Proof.
    intros Hp Hr. unfold debug_purl. split; intros ->; [|eauto].
    destruct (runs_purl w p r ws sub Hp Hr) as [u E]. unfold get_purl in *. inv_bind E. rewrite Hv. cbn [bind].
    destruct (w_purl w _ _ v _) as [t|] eqn:P; [|apply runs_done]. rewrite (ok _ _ _ _ _ P). apply runs_done.
  Qed.

  (** What was generated for a member, with the packages the calls were about *)
  Lemma made_of m g : create_sbom w fuel cfg ws (index_packages (cm_packages meta)) (index_resolve nodes) m = Done g -> In m (cm_members meta) ->
    exists sel rp, match included_of cfg with
            | AllDependencies => all_dependencies fuel m (index_packages (cm_packages meta)) (index_resolve nodes) cfg
            | TopLevelDependencies => top_level_dependencies m (index_packages (cm_packages meta)) (index_resolve nodes) cfg
            end = Done sel /\ bm_get m (fst sel) = Some rp /\ member_package meta m rp
      /\ forall p, In p (map snd (fst sel)) <-> exists c, told meta g p c.
  Proof.
    intros H Hm. unfold create_sbom in H. inv_bind H. rename v into kinds. inv_bind H. destruct v as [ps ns]. rename Hv0 into Hsel0.
    assert (Hsel : selection meta nodes cfg m ps ns).
    { destruct (included_of cfg) eqn:E; [eapply select_top|eapply select_all]; eauto. }
    inv_bind H. rename v into rp, Hv0 into Hrp. inv_bind H. destruct v as [b tk]. injection H as <-. rename Hv0 into Hbom.
    unfold create_bom in Hbom. cbn [fst snd] in Hbom. inv_bind Hbom. rename v into rp', Hv0 into Hrp'.
    inv_bind Hbom. rename v into comps, Hv0 into Hcomps. inv_bind Hbom. destruct v as [md tk']. rename Hv0 into Hmd.
    cbn [fst snd] in Hbom. injection Hbom as <- <-. apply unwrap_done in Hrp, Hrp'.
    pose proof (proj1 (sel_ps _ _ _ _ _ _ Hsel _ _) Hrp') as (_ & A & B).
    assert (rp' = rp) as ->.
    { apply (pk_get meta nodes wf) in Hrp as [C D].
      assert (E : bm_get m (index_packages (cm_packages meta)) = Some rp') by (now apply (pk_get meta nodes wf)).
      assert (E' : bm_get m (index_packages (cm_packages meta)) = Some rp) by (now apply (pk_get meta nodes wf)). congruence. }
    apply mapM_done in Hcomps.
    unfold create_metadata in Hmd. inv_bind Hmd. inv_bind Hmd. inv_bind Hmd. injection Hmd as <- _. rename Hv1 into Htop.
    unfold create_toplevel_component in Htop. inv_bind Htop. inv_bind Htop. inv_bind Htop. injection Htop as <-. rename v2 into c.
    exists (ps, ns), rp. split; [exact Hsel0|]. split; [exact Hrp'|]. split; [now split|]. cbn [fst]. intros p.
    assert (NU : forall p q, In p (cm_packages meta) -> In q (cm_packages meta) -> pk_id p = pk_id q -> p = q).
    { intros p1 q Hp Hq E. assert (X : bm_get (pk_id p1) (index_packages (cm_packages meta)) = Some p1) by (now apply (pk_get meta nodes wf)).
      assert (Y : bm_get (pk_id p1) (index_packages (cm_packages meta)) = Some q) by (apply (pk_get meta nodes wf); auto). congruence. }
    assert (SP : forall q, In q (map snd ps) -> In q (cm_packages meta)).
    { intros q Hq. apply in_map_iff in Hq as ([k q'] & Eq & Hq). cbn in Eq; subst q'.
      apply bm_In_get in Hq; [|apply Hsel]. now apply (sel_ps _ _ _ _ _ _ Hsel) in Hq as (_ & P1 & _). }
    split.
    - intros Hp. destruct (string_dec (pk_id p) m) as [E|E].
      + assert (p = rp) as -> by (apply NU; auto; congruence). eexists. split; [auto|].
        split; [|right; reflexivity]. cbn [c_bom_ref]. apply create_component_ref in Hv1. exact Hv1.
      + destruct (Forall2_in_l _ _ _ Hcomps p) as (c1 & C1 & C2); [apply filter_In; split; auto; now apply negb_true_iff, String.eqb_neq|].
        exists c1. split; [auto|]. split; [now apply create_component_ref in C2|]. left. exact C1.
    - intros (c1 & Hp & R & [L|M]).
      + destruct (Forall2_in_r _ _ _ Hcomps c1 L) as (q & Q1 & Q2). apply filter_In in Q1 as [Q1 _]. apply create_component_ref in Q2.
        assert (p = q) as -> by (apply NU; auto; congruence). exact Q1.
      + unfold main_component in M. cbn in M. injection M as <-. cbn [c_bom_ref] in R. apply create_component_ref in Hv1.
        assert (p = rp) as -> by (apply NU; auto; congruence). apply in_map_iff. exists (m, rp). split; [reflexivity|]. now apply bm_get_In.
  Qed.

  Lemma mapM_fails {A B} (f : A -> outcome B) l : (forall a, In a l -> runs (f a) \/ exists s, f a = Panic s) ->
    (exists a s, In a l /\ f a = Panic s) -> exists s, mapM f l = Panic s.
  Proof.
    induction l as [|x l IH]; intros F (a & s & I & E); [destruct I|]. cbn [mapM]. destruct (F x (or_introl eq_refl)) as [[b X]|[s' X]]; rewrite X; cbn [bind]; [|eauto].
    destruct I as [->|I]; [congruence|]. destruct IH as [s' ->]; cbn [bind]; eauto. intros a' I'. apply F. now right.
  Qed.
  (** For one member *)
  Lemma debug_one m g : create_sbom w fuel cfg ws (index_packages (cm_packages meta)) (index_resolve nodes) m = Done g -> In m (cm_members meta) ->
    (reaches_in meta m g /\ exists s, debug_sbom w purl_ok fuel cfg ws (index_packages (cm_packages meta)) (index_resolve nodes) m = Panic s)
    \/ (~ reaches_in meta m g /\ debug_sbom w purl_ok fuel cfg ws (index_packages (cm_packages meta)) (index_resolve nodes) m = Done g).
  Proof.
    intros H Hm. destruct (made_of m g H Hm) as (sel & rp & Hs & Hrp & M & T). unfold debug_sbom. rewrite H. cbn [bind]. rewrite Hs. cbn [bind]. rewrite Hrp. cbn [unwrap bind].
    assert (MF : forall p, In p (cm_packages meta) -> pk_manifest p <> []) by apply (wf_manifests _ _ wf).
    assert (Inm : forall p, In p (map snd (fst sel)) -> pk_manifest p <> []) by (intros p Hp; apply T in Hp as (c & I & _); auto).
    assert (Hr : pk_manifest rp <> []) by (apply MF, M).
    assert (Step : forall p, In p (map snd (fst sel)) -> runs (debug_purl w purl_ok p rp ws None) \/ exists s, debug_purl w purl_ok p rp ws None = Panic s).
    { intros p Hp. destruct (debug_purl_runs p rp None (Inm p Hp) Hr) as [A B]. destruct (root_inside p rp ws); auto. }
    destruct (forallb (fun p => root_inside p rp ws) (map snd (fst sel))) eqn:A.
    2:{ left. assert (exists p, In p (map snd (fst sel)) /\ root_inside p rp ws = false) as (p & Hp & E).
        { clear -A. induction (map snd (fst sel)) as [|p l IH]; [discriminate|]. cbn [forallb] in A.
          destruct (root_inside p rp ws) eqn:E; [|exists p; split; [now left|exact E]]. destruct (IH A) as (q & ? & ?). exists q. split; [now right|auto]. }
        split.
        - pose proof (proj1 (T p) Hp) as [c Tp]. exists rp, p, c. split; auto.
          unfold root_inside in E. destruct (pk_source p) eqn:S; [discriminate|].
          destruct (starts_inside meta p (Inm p Hp)) as (dp & Ep & Ip). destruct (starts_inside meta rp Hr) as (dr & Er & Ir). rewrite Ep, Er in E. fold ws in Ip, Ir.
          destruct (path_starts_with dp ws); [|discriminate]. split; [intros X; apply Ir in X; congruence|]. split; auto. split; auto. now apply Ip.
        - destruct (mapM_fails (fun p => debug_purl w purl_ok p rp ws None) (map snd (fst sel)) Step) as [s ->]; [|cbn [bind]; eauto].
          destruct (debug_purl_runs p rp None (Inm p Hp) Hr) as [_ B]. destruct (B E) as [s Q]. eauto. }
    - right. rewrite forallb_forall in A. split.
      { intros (r & p & c & M' & N & Tp & S & I). rewrite (one_member meta nodes m wf r rp M' M) in N.
        assert (Hp : In p (map snd (fst sel))) by (apply T; eauto). apply N. apply (root_inside_iff p rp (Inm p Hp) Hr); auto. }
      destruct (runs_mapM (fun p => debug_purl w purl_ok p rp ws None) (map snd (fst sel))) as [l ->].
      { intros p Hp. apply (debug_purl_runs p rp None (Inm p Hp) Hr). auto. }
      cbn [bind]. destruct (runs_mapM (debug_target w purl_ok ws rp) (filter_targets (pk_targets rp))) as [l' ->]; [|reflexivity].
      intros t _. unfold debug_target. destruct (target_class t); [|apply runs_done]. destruct (parent _); [|apply runs_done].
      destruct (path_strip_prefix _ _) as [rel|]; [|apply runs_done]. apply (debug_purl_runs rp rp (Some rel) Hr Hr).
      unfold root_inside. destruct (pk_source rp); auto. destruct (starts_inside meta rp Hr) as (dr & -> & _). now destruct (path_starts_with dr ws).
  Qed.

  (** A debug build stops exactly if the dependencies of a member outside of the root reach back in *)
  Theorem C75_stops_iff gs : create_sboms w fuel meta cfg = Done gs ->
    (debug_sboms w purl_ok fuel meta cfg = Done gs \/ exists s, debug_sboms w purl_ok fuel meta cfg = Panic s)
    /\ ((exists s, debug_sboms w purl_ok fuel meta cfg = Panic s) <-> exists m g, sbom_of w fuel meta cfg m g /\ reaches_in meta m g).
  Proof.
    intros H0. unfold sbom_of. pose proof H0 as H. unfold create_sboms in H. unfold debug_sboms. rewrite (wf_resolve _ _ wf) in H |- *. cbn [unwrap bind] in H |- *. fold ws in H |- *.
    apply mapM_done in H.
    assert (X : forall ms gs', incl ms (cm_members meta) ->
      Forall2 (fun m g => create_sbom w fuel cfg ws (index_packages (cm_packages meta)) (index_resolve nodes) m = Done g) ms gs' ->
      let d := mapM (debug_sbom w purl_ok fuel cfg ws (index_packages (cm_packages meta)) (index_resolve nodes)) ms in
      (d = Done gs' /\ forall m g, In (m, g) (combine ms gs') -> ~ reaches_in meta m g)
      \/ ((exists s, d = Panic s) /\ exists m g, In (m, g) (combine ms gs') /\ reaches_in meta m g)).
    { intros ms gs' I F. induction F as [|m g ms gs' E F IH]; cbn [mapM combine]; [left; split; [reflexivity|intros ? ? []]|].
      destruct (debug_one m g E) as [[R [s Q]]|[R Q]]; [apply I; now left| |]; rewrite Q; cbn [bind].
      - right. split; [eauto|]. exists m, g. split; auto. now left.
      - destruct IH as [[-> N]|[[s ->] (m' & g' & J & R')]]; [intros x J; apply I; now right| |]; cbn [bind].
        + left. split; auto. intros m' g' [[= <- <-]|J]; auto.
        + right. split; [eauto|]. exists m', g'. split; auto. now right. }
    destruct (X _ _ (incl_refl _) H) as [[E N]|[[s E] (m & g & J & R)]]; rewrite E.
    - split; [now left|]. split; [intros [s Q]; discriminate|]. intros (m & g & (gs' & G & J) & R). rewrite H0 in G. injection G as <-. now destruct (N m g J).
    - split; [right; eauto|]. split; [|eauto]. intros _. exists m, g. split; eauto.
  Qed.
  (** So for a workspace with all members inside its root it does what a release build does *)
  Theorem C75_same gs : create_sboms w fuel meta cfg = Done gs ->
    (forall m p, In m (cm_members meta) -> member_package meta m p -> inside meta p) ->
    debug_sboms w purl_ok fuel meta cfg = Done gs.
  Proof.
    intros H I. destruct (C75_stops_iff gs H) as [[E|S] F]; auto. apply F in S as (m & g & G & r & p & c & M & N & _).
    destruct N. apply (I m); auto. destruct G as (gs' & _ & J). now apply in_combine_l in J.
  Qed.
End DEBUG.

(** [app] lies outside of the root ["w"; "root"], its local dependency [liba] inside *)
Definition dx_app := mkPackage ex_id_app "app" "0.1.0" None [] None None None None None None None
  [mkCTarget "app" ["lib"] ["w"; "app"; "src"; "lib.rs"]] ["w"; "app"; "Cargo.toml"].
Definition dx_a := mkPackage ex_id_a "liba" "1.0.0" None [] None None None None None None None [] ["w"; "root"; "liba"; "Cargo.toml"].
Definition dx_meta : cargo_metadata := mkMeta [ex_id_app] [dx_app; ex_b; dx_a; ex_d] (Some ex_nodes) ["w"; "root"].
Lemma dx_wf : well_formed dx_meta ex_nodes.
Proof.
  constructor.
  - reflexivity.
  - repeat constructor; vm_compute; intros H; repeat (destruct H as [H|H]; [discriminate H|]); exact H.
  - repeat constructor; vm_compute; intros H; repeat (destruct H as [H|H]; [discriminate H|]); exact H.
  - intros m [<-|[]]. vm_compute. tauto.
  - intros n H. repeat (destruct H as [<-|H]; [vm_compute; tauto|]). destruct H.
  - intros n d H. repeat (destruct H as [<-|H]; [cbn [n_deps]; intros Hd; repeat (destruct Hd as [<-|Hd]; [vm_compute; tauto|]); destruct Hd|]). destruct H.
  - intros n d H. repeat (destruct H as [<-|H]; [cbn [n_deps]; intros Hd; repeat (destruct Hd as [<-|Hd]; [cbn; intuition discriminate|]); destruct Hd|]). destruct H.
  - intros p H. repeat (destruct H as [<-|H]; [discriminate|]). destruct H.
Qed.
Definition dx_ok (s : string) : bool := starts_with "pkg:cargo/" s.
Lemma dx_reads : purls_read ex_world dx_ok.
Proof. intros n v q s u [= <-]. apply starts_with_spec. exists (n ++ "@" ++ v)%string. reflexivity. Qed.
(** A release build makes the SBOM, a debug build panics *)
Theorem C75_refuted : exists w purl_ok fuel meta nodes cfg gs s, well_formed meta nodes /\ purls_read w purl_ok
  /\ create_sboms w fuel meta cfg = Done gs /\ debug_sboms w purl_ok fuel meta cfg = Panic s.
Proof.
  exists ex_world, dx_ok, 100, dx_meta, ex_nodes, ex_cfg. do 2 eexists. split; [exact dx_wf|]. split; [exact dx_reads|].
  split; vm_compute; reflexivity.
Qed.
Example C75_case : well_formed ex_meta ex_nodes /\ purls_read ex_world dx_ok /\ debug_sboms ex_world dx_ok 100 ex_meta ex_cfg = Done [ex_gen]
  /\ forall m p, In m (cm_members ex_meta) -> member_package ex_meta m p -> inside ex_meta p.
Proof.
  split; [exact ex_wf|]. split; [exact dx_reads|]. split; [vm_compute; reflexivity|].
  intros m p [<-|[]] [Hp E]. repeat (destruct Hp as [<-|Hp]; [first [discriminate E|exists ["app"]; reflexivity]|]). destruct Hp.
Qed.
(** An assertion that holds changes nothing: each package URL is the one of a release build *)
Theorem C75_same_url w purl_ok p root ws sub u : debug_purl w purl_ok p root ws sub = Done u -> get_purl w p root ws sub = Done u.
Proof.
  unfold debug_purl. destruct (root_inside p root ws); [|discriminate]. destruct (get_purl w p root ws sub) as [[t|]| | |]; cbn [bind]; try discriminate; [|auto].
  destruct (purl_ok t); [auto|discriminate].
Qed.
Print Assumptions C75_same_url.
Print Assumptions C75_stops_iff.
Print Assumptions C75_same.
Print Assumptions C75_refuted.

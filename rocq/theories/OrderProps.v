(** More about C07 and C69: the order in which cargo lists things, for the lists inside the nodes and for whole runs *)
From Verif Require Import Base Strings ModelTypes ConfigModel GenModel GenSpec GenSpec2 GenExample GenProofs GenProofs2 GenProofs3
  GenProofs4 GenProofs5 GenProofs9 GenProps RunModel RunSpec RunProofs RunProps.
From Coq Require Import Permutation.
Open Scope string_scope.
Open Scope list_scope.

(** ** C07: the lists inside the nodes *)
(** If also the dependencies inside each node and the kinds of each dependency come in another order, all SBOMs are still
    made, and they are the same but for the order of the names inside each [dependsOn]. *)
Theorem C07_dependency_order w fuel meta meta' nodes nodes' cfg gs :
  well_formed meta nodes -> cm_resolve meta' = Some nodes' ->
  Permutation (cm_packages meta) (cm_packages meta') -> reordered_nodes nodes nodes' ->
  cm_members meta' = cm_members meta -> cm_workspace_root meta' = cm_workspace_root meta ->
  create_sboms w fuel meta cfg = Done gs ->
  (exists fuel0 gs', forall fuel', fuel0 <= fuel' -> create_sboms w fuel' meta' cfg = Done gs')
  /\ forall fuel' gs', create_sboms w fuel' meta' cfg = Done gs' -> Forall2 same_but_dependency_order gs gs'.
Proof. apply create_sboms_reordered. Qed.

(** The application depends on [a] and on [b]; listed the other way round, its [dependsOn] is the other way round *)
Definition order_nodes (flip : bool) : list node :=
  let a := mkNodeDep ex_id_a (if flip then [KBuild; KNormal] else [KNormal; KBuild]) in let b := mkNodeDep ex_id_b [KBuild] in
  [mkNode ex_id_app (if flip then [b; a] else [a; b]) []; mkNode ex_id_a [] []; mkNode ex_id_b [] []].
Definition order_meta (flip : bool) : cargo_metadata :=
  mkMeta [ex_id_app] (cm_packages ex_meta) (Some (order_nodes flip)) ["w"].
Example C07_dependency_order_example :
  well_formed (order_meta false) (order_nodes false) /\ reordered_nodes (order_nodes false) (order_nodes true)
  /\ exists g g', create_sboms ex_world 100 (order_meta false) ex_cfg = Done [g]
       /\ create_sboms ex_world 100 (order_meta true) ex_cfg = Done [g']
       /\ map d_dependencies (dependency_list (g_bom g)) = [[ex_id_a; ex_id_b]; []; []]
       /\ map d_dependencies (dependency_list (g_bom g')) = [[ex_id_b; ex_id_a]; []; []].
Proof.
  split; [|split].
  - constructor; try reflexivity.
    + repeat constructor; cbn; intuition discriminate.
    + apply ex_wf.
    + intros m [<-|[]]. now left.
    + intros n [<-|[<-|[<-|[]]]]; vm_compute; auto.
    + intros n d [<-|[<-|[<-|[]]]]; cbn; intuition (subst; cbn; auto).
    + intros n d [<-|[<-|[<-|[]]]]; cbn; intuition (subst; cbn in *; intuition discriminate).
    + apply ex_wf.
  - exists (order_nodes false). split; [apply Permutation_refl|]. repeat constructor.
    + cbn. eexists. split; [apply perm_swap|]. repeat constructor.
    + exists []. split; constructor.
    + exists []. split; constructor.
  - destruct (create_sboms ex_world 100 (order_meta false) ex_cfg) as [[|g [|]]| | |] eqn:E;
      [vm_compute in E; discriminate E| |vm_compute in E; discriminate E ..].
    destruct (create_sboms ex_world 100 (order_meta true) ex_cfg) as [[|g' [|]]| | |] eqn:E';
      [vm_compute in E'; discriminate E'| |vm_compute in E'; discriminate E' ..].
    exists g, g'. split; auto. split; auto. vm_compute in E, E'. injection E as <-. injection E' as <-. split; reflexivity.
Qed.

(** ** C69: whole runs *)
Section Order.
  Variables (m : machine) (c : path -> list cargo_opt -> list string -> option cargo_metadata).
  Lemma generate_cargo fuel o : (forall p fs os, reorders (mc_cargo m p fs os) (c p fs os)) ->
    generate_sboms (with_cargo m c) fuel o = generate_sboms m fuel o.
  Proof.
    intros H. unfold generate_sboms. change (run_config (with_cargo m c) o) with (run_config m o).
    destruct (run_config m o) as [cfg| | |]; cbn [bind]; auto.
    change (locate_manifest (with_cargo m c) o) with (locate_manifest m o).
    destruct (locate_manifest m o) as [p| | |]; cbn [bind]; auto.
    unfold get_metadata. cbn [mc_cargo with_cargo mc_world].
    specialize (H p (metadata_features cfg) (metadata_options cfg)). unfold reorders in H.
    destruct (mc_cargo m p _ _) as [x|], (c p _ _) as [y|]; try contradiction; cbn [bind]; auto.
    destruct H as ((P & W & n & n' & R1 & R2 & P2 & N1 & N2) & M). eapply C07_order_independent; eauto.
  Qed.
End Order.

Lemma generate_time m f o epoch now uuid now' uuid' : w_epoch (mc_world m) = Some epoch ->
  generate_sboms (at_another_time m now uuid) f o = generate_sboms (at_another_time m now' uuid') f o.
Proof.
  intros E. unfold generate_sboms. change (run_config (at_another_time m now' uuid') o) with (run_config (at_another_time m now uuid) o).
  destruct (run_config (at_another_time m now uuid) o) as [cfg| | |]; cbn [bind]; auto.
  change (locate_manifest (at_another_time m now' uuid') o) with (locate_manifest (at_another_time m now uuid) o).
  destruct (locate_manifest _ _) as [p| | |]; cbn [bind]; auto.
  change (get_metadata (at_another_time m now' uuid') p cfg) with (get_metadata (at_another_time m now uuid) p cfg).
  destruct (get_metadata _ _ _) as [meta| | |]; cbn [bind]; auto. cbn [mc_world at_another_time]. eapply C08_reproducible; eauto.
Qed.
Lemma finished_same m m' d gs d1 d2 : (forall f, file_text m f = file_text m' f) ->
  finished m d (announced gs) d1 -> finished m' d (announced gs) d2 -> forall q, d1 q = d2 q.
Proof.
  intros T [A1 B1] [A2 B2] q. destruct (in_dec (list_eq_dec string_dec) q (map f_path (announced gs))) as [I|I].
  - apply last_of in I. destruct I as (b & f & a & Ea & <- & L). destruct (A1 b f a Ea L) as (t1 & T1 & ->).
    destruct (A2 b f a Ea L) as (t2 & T2 & ->). rewrite T in T1. congruence.
  - rewrite B1, B2; auto; intros f Hf <-; apply I; now apply in_map.
Qed.

(** On a machine whose cargo lists packages and nodes in another order a successful run leaves the same disk, also at
    another time if SOURCE_DATE_EPOCH is set. *)
Theorem C69_order_independent m c o d d1 d2 epoch now uuid now' uuid' : w_epoch (mc_world m) = Some epoch ->
  (forall p fs os, reorders (mc_cargo m p fs os) (c p fs os)) ->
  run (at_another_time m now uuid) o d (Ended Succeeded d1) ->
  run (at_another_time (with_cargo m c) now' uuid') o d (Ended Succeeded d2) ->
  forall q, d1 q = d2 q.
Proof.
  intros E C R1 R2. destruct (C69_success _ _ _ _ R1) as (gs1 & [f1 M1] & _ & F1). destruct (C69_success _ _ _ _ R2) as (gs2 & [f2 M2] & _ & F2).
  rewrite (generate_time (with_cargo m c) f2 o epoch now' uuid' now uuid E) in M2.
  change (at_another_time (with_cargo m c) now uuid) with (with_cargo (at_another_time m now uuid) c) in M2.
  rewrite (generate_cargo (at_another_time m now uuid) c f2 o C) in M2.
  assert (X : Done gs1 = Done gs2) by (eapply generate_unique; eauto; discriminate). injection X as <-.
  eapply finished_same; [|exact F1|exact F2]. reflexivity.
Qed.

(** If the members of the workspace come in another order, too, the disk is the same as long as they are in directories
    of their own. *)
Theorem C69_member_order m c o cfg manifest meta nodes d d1 d2 epoch now uuid now' uuid' : clap_accepts (o_args o) ->
  run_config m o = Done cfg -> locate_manifest m o = Done manifest ->
  mc_cargo m manifest (metadata_features cfg) (metadata_options cfg) = Some meta -> well_formed meta nodes ->
  distinct_targets meta -> NoDup (cm_members meta) -> directories_differ meta ->
  w_epoch (mc_world m) = Some epoch ->
  reorders_members (Some meta) (c manifest (metadata_features cfg) (metadata_options cfg)) ->
  run (at_another_time m now uuid) o d (Ended Succeeded d1) ->
  run (at_another_time (with_cargo m c) now' uuid') o d (Ended Succeeded d2) ->
  forall q, d1 q = d2 q.
Proof.
  intros clap R L K wf T N D E C R1 R2.
  destruct (C69_success _ _ _ _ R1) as (gs1 & [f1 M1] & _ & F1). destruct (C69_success _ _ _ _ R2) as (gs2 & [f2 M2] & _ & F2).
  rewrite (generate_time (with_cargo m c) f2 o epoch now' uuid' now uuid E) in M2.
  set (m1 := at_another_time m now uuid) in *.
  change (at_another_time (with_cargo m c) now uuid) with (with_cargo m1 c) in M2.
  assert (U : NoDup (map f_path (announced gs1))).
  { apply (announced_distinct m1 o cfg manifest meta nodes clap R L K wf T); auto. now exists f1. }
  assert (P : Permutation gs1 gs2).
  { pose proof M1 as G1. rewrite (generates m1 o cfg manifest meta R L K) in G1.
    destruct (c manifest (metadata_features cfg) (metadata_options cfg)) as [meta'|] eqn:K'; [|destruct C].
    destruct C as ((P & W & n & n' & Q1 & Q2 & P2 & N1 & N2) & PM).
    destruct (C07_member_order _ _ _ _ _ _ _ _ N1 N2 Q1 Q2 P P2 PM W G1) as (gs' & G' & PC).
    assert (gs2 = gs') as ->.
    { assert (X : Done gs2 = Done gs'); [|congruence].
      apply (generate_unique (with_cargo m1 c) o f2 f1); try discriminate; auto.
      now rewrite (generates (with_cargo m1 c) o cfg manifest meta' R L K'). }
    apply (Permutation_map snd) in PC.
    assert (L1 : List.length (cm_members meta) = List.length gs1).
    { pose proof (create_sboms_forall _ _ _ _ _ _ Q1 G1) as F. clear -F. induction F; cbn; auto. }
    assert (L2 : List.length (cm_members meta') = List.length gs').
    { pose proof (create_sboms_forall _ _ _ _ _ _ Q2 G') as F. clear -F. induction F; cbn; auto. }
    assert (S : forall A B (x : list A) (y : list B), List.length x = List.length y -> map snd (combine x y) = y).
    { induction x as [|a x IH]; intros [|b y] Hl; try discriminate Hl; auto. cbn. f_equal. apply IH. now injection Hl. }
    rewrite !S in PC by auto. exact PC. }
  assert (PA : Permutation (announced gs1) (announced gs2)) by (now apply Permutation_flat_map).
  assert (U2 : NoDup (map f_path (announced gs2))) by (eapply Permutation_NoDup; [apply Permutation_map, PA|exact U]).
  intros q. destruct (in_dec (list_eq_dec string_dec) q (map f_path (announced gs1))) as [I|I].
  - apply in_map_iff in I as (f & <- & I). destruct (finished_each _ _ _ _ F1 U f I) as (t1 & T1 & ->).
    destruct (finished_each _ _ _ _ F2 U2 f (Permutation_in _ PA I)) as (t2 & T2 & ->).
    change (file_text (at_another_time (with_cargo m c) now' uuid') f) with (file_text m1 f) in T2. congruence.
  - destruct F1 as [_ B1], F2 as [_ B2]. rewrite B1, B2; auto; intros f Hf <-; apply I; apply in_map; auto.
    eapply Permutation_in; [apply Permutation_sym, PA|exact Hf].
Qed.

(** Cargo giving the lists of the example backwards *)
Definition ex_reversed : path -> list cargo_opt -> list string -> option cargo_metadata :=
  fun p fs os => if path_eqb p ["w"; "Cargo.toml"] then Some ex_meta_rev else None.
Example C69_order_case : (forall p fs os, reorders (mc_cargo (ex_machine true) p fs os) (ex_reversed p fs os))
  /\ cm_packages ex_meta_rev <> cm_packages ex_meta
  /\ reorders_members (Some ex_meta) (ex_reversed ["w"; "Cargo.toml"] [] []).
Proof.
  assert (S : same_lists ex_meta ex_meta_rev).
  { split; [apply Permutation_rev|]. split; [reflexivity|]. exists ex_nodes, (rev ex_nodes). split; [reflexivity|]. split; [reflexivity|].
    split; [apply Permutation_rev|]. split; apply ex_wf. }
  split; [|split].
  - intros p fs os. unfold ex_reversed. cbn [mc_cargo ex_machine]. destruct (path_eqb p ["w"; "Cargo.toml"]); cbn [reorders]; auto.
  - vm_compute. discriminate.
  - split; [exact S|apply Permutation_refl].
Qed.
(** A workspace of two members, on a machine with SOURCE_DATE_EPOCH; cargo lists the members the other way round *)
Definition two_members (flip : bool) : cargo_metadata :=
  mkMeta (if flip then [ex_id_a; ex_id_app] else [ex_id_app; ex_id_a]) (if flip then rev (cm_packages ex_meta) else cm_packages ex_meta)
    (Some (if flip then rev ex_nodes else ex_nodes)) ["w"].
Definition epoch_world : world := {|
  w_uri_ok := w_uri_ok ex_world; w_spdx_strict := w_spdx_strict ex_world; w_spdx_lax := w_spdx_lax ex_world;
  w_email_ok := w_email_ok ex_world; w_purl := w_purl ex_world; w_read_file := w_read_file ex_world;
  w_absolute := w_absolute ex_world; w_is_file := w_is_file ex_world; w_lockfile := w_lockfile ex_world; w_uuid := w_uuid ex_world; w_now := w_now ex_world;
  w_epoch := Some "0"; w_format_time := w_format_time ex_world; w_tool_version := w_tool_version ex_world |}.
Definition two_machine (flip : bool) : machine :=
  mkMachine epoch_world None (mc_rustc (ex_machine true)) None (fun _ => None) (Some ["w"])
    (fun p fs os => if path_eqb p ["w"; "Cargo.toml"] then Some (two_members flip) else None)
    false (mc_parsers (ex_machine true)) (mc_floats (ex_machine true)) (mc_json_text (ex_machine true)) (mc_xml_text (ex_machine true)) (fun _ => true).
Example C69_member_order_case : exists cfg, clap_accepts (o_args (ex_options DBinaries))
  /\ run_config (two_machine false) (ex_options DBinaries) = Done cfg
  /\ locate_manifest (two_machine false) (ex_options DBinaries) = Done ["w"; "Cargo.toml"]
  /\ mc_cargo (two_machine false) ["w"; "Cargo.toml"] (metadata_features cfg) (metadata_options cfg) = Some (two_members false)
  /\ well_formed (two_members false) ex_nodes /\ distinct_targets (two_members false) /\ NoDup (cm_members (two_members false))
  /\ directories_differ (two_members false) /\ usable_clock epoch_world
  /\ two_machine true = with_cargo (two_machine false) (mc_cargo (two_machine true))
  /\ reorders_members (Some (two_members false)) (mc_cargo (two_machine true) ["w"; "Cargo.toml"] (metadata_features cfg) (metadata_options cfg))
  /\ cm_members (two_members true) <> cm_members (two_members false)
  /\ forall flip d, exists s, starts (two_machine flip) (ex_options DBinaries) d s.
Proof.
  destruct C69_case as (cfg & A & B & C & _ & _ & _ & _ & T & _). exists cfg. split; [exact A|]. split; [exact B|]. split; [exact C|].
  split; [reflexivity|].
  split.
  { constructor; try apply ex_wf. intros m [<-|[<-|[]]]; vm_compute; auto. }
  split; [exact T|]. split; [repeat constructor; cbn; intuition discriminate|].
  split.
  { intros p q Hp Hq _ _ E. cbn in Hp, Hq.
    repeat (destruct Hp as [<-|Hp]; [repeat (destruct Hq as [<-|Hq]; [first [reflexivity|discriminate E]|]); destruct Hq|]). destruct Hp. }
  split.
  { split; [discriminate|]. intros e [= <-]. eexists. split; [reflexivity|]. vm_compute. discriminate. }
  split; [reflexivity|]. split.
  { split; [|apply perm_swap]. split; [apply Permutation_rev|]. split; [reflexivity|]. exists ex_nodes, (rev ex_nodes).
    split; [reflexivity|]. split; [reflexivity|]. split; [apply Permutation_rev|]. split; apply ex_wf. }
  split; [discriminate|]. intros flip d. apply C69_starts.
Qed.
Print Assumptions C07_dependency_order.
Print Assumptions C69_order_independent.
Print Assumptions C69_member_order.

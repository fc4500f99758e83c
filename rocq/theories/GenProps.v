(** Properties C01-C20: the SBOM generator, its configuration and its output
    files.  The vocabulary is in GenSpec.v; [sbom_of w fuel meta cfg m g] says
    that [g] is what the generator produced for the workspace member [m]. *)
From Verif Require Import Base Strings Base64 ModelTypes ConfigModel GenModel GenSpec GenExample
  GenProofs GenProofs2 GenProofs3 GenProofs4 GenProofs5 GenProofs6 GenProofs7 GenProofs8.
From Coq Require Import NArith ZArith Permutation Sorted.
Open Scope string_scope.
Open Scope list_scope.

(** ** C01: the components are exactly the reachable packages *)
Theorem C01_components_are_reachable w fuel meta nodes cfg m g :
  well_formed meta nodes -> sbom_of w fuel meta cfg m g -> ~ top_level_mode cfg ->
  (exists c, main_component (g_bom g) = Some c /\ c_bom_ref c = Some m)
  /\ NoDup (component_refs (g_bom g))
  /\ forall r, In r (component_refs (g_bom g)) <->
       exists id, r = Some id /\ reach nodes (normal_only cfg) m id /\ id <> m.
Proof.
  intros wf H Ht. apply (sbom_of_ok _ _ _ nodes) in H; auto.
  destruct (sbom_components _ _ _ _ _ _ wf _ _ H) as (A & B & C). split; auto. split; auto.
  intros r. rewrite C. unfold selected. split; intros (id & E & S & N); exists id; tauto.
Qed.
Example C01_example :
  well_formed ex_meta ex_nodes /\ sbom_of ex_world 100 ex_meta ex_cfg ex_id_app ex_gen /\ ~ top_level_mode ex_cfg
  /\ component_refs (g_bom ex_gen) = [Some ex_id_a; Some ex_id_b].
Proof. split; [exact ex_wf|]. split; [exact ex_sbom_of|]. split; [discriminate|]. vm_compute. reflexivity. Qed.
Print Assumptions C01_components_are_reachable.

(** ** C02: top-level mode *)
Theorem C02_top_level w fuel meta nodes cfg m g :
  well_formed meta nodes -> sbom_of w fuel meta cfg m g -> top_level_mode cfg ->
  NoDup (component_refs (g_bom g))
  /\ (forall r, In r (component_refs (g_bom g)) <->
        exists id, r = Some id /\ needs nodes (normal_only cfg) m id /\ id <> m)
  /\ forall d, In d (dependency_list (g_bom g)) -> d_ref d <> m -> d_dependencies d = [].
Proof.
  intros wf H Ht. apply (sbom_of_ok _ _ _ nodes) in H; auto.
  destruct (sbom_components _ _ _ _ _ _ wf _ _ H) as (A & B & C). split; auto. split.
  - intros r. rewrite C. unfold selected. split; intros (id & E & S & N); exists id; tauto.
  - intros d Hd N. destruct (sbom_dependencies _ _ _ _ _ _ wf _ _ H) as (_ & _ & D). destruct (D d Hd) as [D1 _].
    destruct (d_dependencies d) as [|x l]; auto. destruct (proj1 (D1 x) (or_introl eq_refl)) as [_ X]. destruct (N (X Ht)).
Qed.
Definition ex_top_cfg : config := mkConfig None (Some TopLevelDependencies) None None (Some AllTargets) None None None None.
Example C02_example : exists g, sbom_of ex_world 100 ex_meta ex_top_cfg ex_id_app g /\ top_level_mode ex_top_cfg
  /\ component_refs (g_bom g) = [Some ex_id_a].
Proof.
  destruct (create_sboms ex_world 100 ex_meta ex_top_cfg) as [[|g [|]]| | |] eqn:E;
    [vm_compute in E; discriminate E| |vm_compute in E; discriminate E ..].
  exists g. split; [exists [g]; split; [exact E|now left]|]. split; [reflexivity|]. vm_compute in E. injection E as <-. reflexivity.
Qed.
Print Assumptions C02_top_level.

(** ** C03: the dependency section is exact and closed *)
Theorem C03_dependency_section w fuel meta nodes cfg m g :
  well_formed meta nodes -> sbom_of w fuel meta cfg m g ->
  let listed id := id = m \/ In (Some id) (component_refs (g_bom g)) in
  NoDup (map d_ref (dependency_list (g_bom g)))
  /\ (forall id, In id (map d_ref (dependency_list (g_bom g))) <-> listed id)
  /\ forall d, In d (dependency_list (g_bom g)) ->
       (forall x, In x (d_dependencies d) -> listed x)
       /\ (~ (top_level_mode cfg /\ d_ref d <> m) ->
           exists n, In n nodes /\ n_id n = d_ref d /\ d_dependencies d = wanted_deps (normal_only cfg) n).
Proof.
  intros wf H listed. apply (sbom_of_ok _ _ _ nodes) in H; auto.
  destruct (sbom_components _ _ _ _ _ _ wf _ _ H) as (_ & _ & C).
  destruct (sbom_dependencies _ _ _ _ _ _ wf _ _ H) as (A & B & D).
  assert (L : forall id, listed id <-> selected nodes cfg m id).
  { intros id. unfold listed. rewrite C. split.
    - intros [->|(x & [= <-] & S & _)]; auto. unfold selected, top_level_mode.
      destruct (cf_included cfg) as [[]|]; [left; auto|right; split; [discriminate|constructor]|right; split; [discriminate|constructor]].
    - intros S. destruct (String.eqb_spec id m); auto. right. exists id. auto. }
  split; auto. split; [intros id; now rewrite L, B|]. intros d Hd. destruct (D d Hd) as [D1 D2]. split.
  - intros x Hx. apply L. apply D1 in Hx as [Hn Hm].
    assert (S : selected nodes cfg m (d_ref d)) by (apply B; now apply in_map).
    unfold selected in *. destruct S as [[T S]|[T S]].
    + left. split; auto. rewrite (Hm T) in Hn. now right.
    + right. split; auto. now apply reach_step with (d_ref d).
  - intros N. destruct D2 as [(T & X & _)|X]; auto. tauto.
Qed.
Example C03_example : sbom_of ex_world 100 ex_meta ex_cfg ex_id_app ex_gen /\
  dependency_list (g_bom ex_gen) =
  [mkDependency ex_id_app [ex_id_a]; mkDependency ex_id_a [ex_id_b]; mkDependency ex_id_b [ex_id_a]].
Proof. split; [exact ex_sbom_of|]. vm_compute. reflexivity. Qed.
Print Assumptions C03_dependency_section.

(** ** C04: the generator terminates, and does not panic or fail on what cargo emits *)
Theorem C04_terminates w meta cfg :
  exists fuel0, forall fuel, fuel0 <= fuel -> create_sboms w fuel meta cfg <> OutOfFuel.
Proof. apply create_sboms_terminates. Qed.
Theorem C04_succeeds w meta nodes cfg :
  well_formed meta nodes -> usable_clock w -> cf_target cfg <> None ->
  exists fuel0 gs, List.length gs = List.length (cm_members meta)
    /\ forall fuel, fuel0 <= fuel -> create_sboms w fuel meta cfg = Done gs.
Proof.
  intros wf Hc Ht. destruct (create_sboms_done meta nodes cfg wf w Hc Ht) as (f0 & gs & H). exists f0, gs. split; auto.
  pose proof (create_sboms_forall _ _ _ _ _ _ (wf_resolve _ _ wf) (H f0 (le_n _))) as F. symmetry. clear -F. induction F; cbn; auto.
Qed.
Example C04_example : well_formed ex_meta ex_nodes /\ usable_clock ex_world /\ cf_target ex_cfg <> None.
Proof. split; [exact ex_wf|]. split; [split; [discriminate|intros e H; discriminate H]|discriminate]. Qed.
Print Assumptions C04_terminates.
Print Assumptions C04_succeeds.

(** ** C05: scope is the strongest role over all dependency paths *)
Theorem C05_strongest_kind fuel meta nodes m kinds :
  well_formed meta nodes -> index_dep_kinds fuel m (index_resolve nodes) = Done kinds ->
  forall id, any_dep nodes m id <-> exists k, bm_get id kinds = Some k /\ role nodes m id k.
Proof.
  intros wf H id. split.
  - intros Ha. destruct (index_dep_kinds_total _ _ _ wf _ _ H id Ha) as [k Hk]. exists k. split; auto.
    eapply index_dep_kinds_role; eauto.
  - intros (k & _ & R). unfold any_dep. destruct k; cbn in R.
    + destruct R as (ks & W & _). now exists ks.
    + apply R.
    + destruct R as [(ks & W & _) _]. now exists ks.
    + destruct R.
Qed.
Theorem C05_scope w fuel meta nodes cfg m g :
  well_formed meta nodes -> sbom_of w fuel meta cfg m g ->
  forall c, In c (component_list (g_bom g)) -> exists id, c_bom_ref c = Some id
    /\ (c_scope c = Some ScRequired <-> runtime_dep nodes m id)
    /\ (c_scope c = Some ScExcluded <-> ~ runtime_dep nodes m id).
Proof.
  intros wf H c Hc. apply (sbom_of_ok _ _ _ nodes) in H; auto.
  destruct (sbom_scope _ _ _ _ _ _ wf _ _ H c Hc) as (id & k & E & R & S). exists id. split; auto. rewrite S.
  destruct k; cbn [role] in R.
  - split; split; auto; try discriminate; tauto.
  - assert (~ runtime_dep nodes m id) as N.
    { intros (ks & W & F). apply R. exists ks. split; auto. intros X. rewrite Forall_forall in F. apply F in X. discriminate. }
    split; split; auto; try discriminate; tauto.
  - split; split; auto; try discriminate; tauto.
  - destruct R.
Qed.
Example C05_example : sbom_of ex_world 100 ex_meta ex_cfg ex_id_app ex_gen /\
  map c_scope (component_list (g_bom ex_gen)) = [Some ScRequired; Some ScExcluded].
Proof. split; [exact ex_sbom_of|]. vm_compute. reflexivity. Qed.
Print Assumptions C05_strongest_kind.
Print Assumptions C05_scope.

(** ** C06: without build dependencies everything listed is required *)
Theorem C06_no_build_deps w fuel meta nodes cfg m g :
  well_formed meta nodes -> sbom_of w fuel meta cfg m g -> cf_only_normal cfg = Some true ->
  forall c, In c (component_list (g_bom g)) -> exists id,
    c_bom_ref c = Some id /\ runtime_dep nodes m id /\ c_scope c = Some ScRequired.
Proof.
  intros wf H Hn c Hc. destruct (C05_scope _ _ _ _ _ _ _ wf H c Hc) as (id & E & R & _). exists id. split; auto.
  apply (sbom_of_ok _ _ _ nodes) in H; auto. destruct (sbom_components _ _ _ _ _ _ wf _ _ H) as (_ & _ & C).
  assert (In (Some id) (component_refs (g_bom g))) as Hin by (unfold component_refs; rewrite <- E; now apply in_map).
  apply C in Hin as (x & [= <-] & S & _).
  assert (runtime_dep nodes m id) as D.
  { apply reach_runtime. unfold selected, normal_only in S. rewrite Hn in S. destruct S as [[_ [->|S]]|[_ S]]; auto; [constructor|].
    apply reach_step with m; auto. constructor. }
  split; auto. now apply R.
Qed.
Definition ex_normal_cfg : config := mkConfig None None None None (Some AllTargets) None None None (Some true).
Example C06_example : exists g, sbom_of ex_world 100 ex_meta ex_normal_cfg ex_id_app g /\
  component_refs (g_bom g) = [Some ex_id_a].
Proof.
  destruct (create_sboms ex_world 100 ex_meta ex_normal_cfg) as [[|g [|]]| | |] eqn:E;
    [vm_compute in E; discriminate E| |vm_compute in E; discriminate E ..].
  exists g. split; [exists [g]; split; [exact E|now left]|]. vm_compute in E. injection E as <-. reflexivity.
Qed.
Print Assumptions C06_no_build_deps.

(** ** C07: the order of cargo's lists does not matter *)
Theorem C07_order_independent w fuel meta meta' cfg nodes nodes' :
  NoDup (map pk_id (cm_packages meta)) -> NoDup (map n_id nodes) ->
  cm_resolve meta = Some nodes -> cm_resolve meta' = Some nodes' ->
  Permutation (cm_packages meta) (cm_packages meta') -> Permutation nodes nodes' ->
  cm_members meta = cm_members meta' -> cm_workspace_root meta = cm_workspace_root meta' ->
  create_sboms w fuel meta' cfg = create_sboms w fuel meta cfg.
Proof. apply create_sboms_order_eq. Qed.
Theorem C07_member_order w fuel meta meta' cfg nodes nodes' gs :
  NoDup (map pk_id (cm_packages meta)) -> NoDup (map n_id nodes) ->
  cm_resolve meta = Some nodes -> cm_resolve meta' = Some nodes' ->
  Permutation (cm_packages meta) (cm_packages meta') -> Permutation nodes nodes' ->
  Permutation (cm_members meta) (cm_members meta') -> cm_workspace_root meta = cm_workspace_root meta' ->
  create_sboms w fuel meta cfg = Done gs ->
  exists gs', create_sboms w fuel meta' cfg = Done gs'
    /\ Permutation (combine (cm_members meta) gs) (combine (cm_members meta') gs').
Proof. apply create_sboms_order. Qed.
Theorem C07_components_in_id_order w fuel meta nodes cfg m g :
  well_formed meta nodes -> sbom_of w fuel meta cfg m g ->
  exists ids, component_refs (g_bom g) = map Some ids
    /\ StronglySorted (fun a b => String.compare a b = Lt) ids.
Proof. intros wf H. apply (sbom_of_ok _ _ _ nodes) in H; auto. eapply sbom_sorted; eauto. Qed.
Definition ex_meta_rev : cargo_metadata := mkMeta [ex_id_app] (rev (cm_packages ex_meta)) (Some (rev ex_nodes)) ["w"].
Example C07_example : Permutation (cm_packages ex_meta) (cm_packages ex_meta_rev) /\ Permutation ex_nodes (rev ex_nodes)
  /\ create_sboms ex_world 100 ex_meta_rev ex_cfg = Done [ex_gen].
Proof. split; [apply Permutation_rev|]. split; [apply Permutation_rev|]. vm_compute. reflexivity. Qed.
Print Assumptions C07_order_independent.
Print Assumptions C07_member_order.
Print Assumptions C07_components_in_id_order.

(** ** C08: reproducible output *)
Theorem C08_reproducible w fuel meta cfg epoch now uuid now' uuid' :
  w_epoch w = Some epoch ->
  create_sboms (with_clock_and_uuid w now uuid) fuel meta cfg
  = create_sboms (with_clock_and_uuid w now' uuid') fuel meta cfg.
Proof. apply create_sboms_reproducible. Qed.
Theorem C08_no_serial_fixed_time w fuel meta nodes cfg m g epoch :
  well_formed meta nodes -> sbom_of w fuel meta cfg m g -> w_epoch w = Some epoch ->
  b_serial_number (g_bom g) = None
  /\ exists z t md, parse_i64 epoch = Some z /\ w_format_time w z = Some t
       /\ b_metadata (g_bom g) = Some md /\ m_timestamp md = Some t.
Proof. intros wf H. apply (sbom_of_ok _ _ _ nodes) in H; auto. eapply sbom_reproducible_header; eauto. Qed.
Definition ex_epoch_world : world := {|
  w_uri_ok := w_uri_ok ex_world; w_spdx_strict := w_spdx_strict ex_world; w_spdx_lax := w_spdx_lax ex_world;
  w_email_ok := w_email_ok ex_world; w_purl := w_purl ex_world; w_read_file := w_read_file ex_world;
  w_absolute := w_absolute ex_world; w_is_file := w_is_file ex_world; w_lockfile := w_lockfile ex_world;
  w_uuid := w_uuid ex_world; w_now := w_now ex_world; w_epoch := Some "1700000000";
  w_format_time := w_format_time ex_world; w_tool_version := w_tool_version ex_world |}.
Example C08_example : exists g, sbom_of ex_epoch_world 100 ex_meta ex_cfg ex_id_app g /\
  w_epoch ex_epoch_world = Some "1700000000" /\ b_serial_number (g_bom g) = None
  /\ b_serial_number (g_bom ex_gen) <> None.
Proof.
  destruct (create_sboms ex_epoch_world 100 ex_meta ex_cfg) as [[|g [|]]| | |] eqn:E;
    [vm_compute in E; discriminate E| |vm_compute in E; discriminate E ..].
  exists g. split; [exists [g]; split; [exact E|now left]|]. split; [reflexivity|]. vm_compute in E. injection E as <-.
  split; [reflexivity|]. vm_compute. discriminate.
Qed.
Print Assumptions C08_reproducible.
Print Assumptions C08_no_serial_fixed_time.

(** ** C09: references are unique and resolvable
    (that the library's validator agrees is C09_validator_agrees in GenValProps.v) *)
Theorem C09_references_unique_and_resolvable w fuel meta nodes cfg m g :
  well_formed meta nodes -> sbom_of w fuel meta cfg m g ->
  (forall p n, In p (cm_packages meta) -> pk_id p <> sub_ref m n) ->
  exists c ids, main_component (g_bom g) = Some c
    /\ (c_bom_ref c :: sub_refs c ++ component_refs (g_bom g) = map Some ids) /\ NoDup ids
    /\ forall d, In d (dependency_list (g_bom g)) -> In (d_ref d) ids /\ forall x, In x (d_dependencies d) -> In x ids.
Proof.
  intros wf H Hf. apply (sbom_of_ok _ _ _ nodes) in H; auto.
  destruct (sbom_refs _ _ _ _ _ _ wf _ _ H Hf) as (c & ids & A & B & C & D). exists c, ids. repeat (split; [assumption|]).
  assert (L : forall x, In (Some x) (c_bom_ref c :: component_refs (g_bom g)) -> In x ids).
  { intros x Hx. assert (In (Some x) (map Some ids)) as Hi.
    { rewrite <- B. destruct Hx as [Hx|Hx]; [now left|right; apply in_app_iff; now right]. }
    apply in_map_iff in Hi as (y & [= <-] & Hy). exact Hy. }
  intros d Hd. destruct (D d Hd) as [D1 D2]. split; auto.
Qed.
Example C09_example : (forall p n, In p (cm_packages ex_meta) -> pk_id p <> sub_ref ex_id_app n)
  /\ sbom_of ex_world 100 ex_meta ex_cfg ex_id_app ex_gen.
Proof.
  split; [|exact ex_sbom_of]. intros p n H. repeat (destruct H as [<-|H]; [cbn; discriminate|]). destruct H.
Qed.
Print Assumptions C09_references_unique_and_resolvable.

(** ** C10: component contents come from the right package *)
Theorem C10_component_contents w fuel meta nodes cfg m g :
  well_formed meta nodes -> sbom_of w fuel meta cfg m g ->
  forall c, In c (component_list (g_bom g)) -> exists p,
    In p (cm_packages meta) /\ c_bom_ref c = Some (pk_id p) /\ c_type c = CLibrary
    /\ c_name c = normalize (trim (pk_name p)) /\ c_version c = Some (normalize (pk_version p))
    /\ c_description c = option_map normalize (pk_description p)
    /\ c_author c = match pk_authors p with [] => None | l => Some (normalize (join ", " l)) end
    /\ license_of_package w cfg p (c_licenses c)
    /\ match c_hashes c with
       | None => forall lk, lock_entry w (g_manifest_path g) lk -> lock_entry_for lk (pk_id p) -> lk_checksum lk = None
       | Some hs => exists h lk, hs = [mkHash SHA_256 h] /\ lock_entry w (g_manifest_path g) lk
           /\ lock_entry_for lk (pk_id p) /\ lk_checksum lk = Some h
       end.
Proof.
  intros wf H c Hc. apply (sbom_of_ok _ _ _ nodes) in H; auto.
  destruct (sbom_contents _ _ _ _ _ _ wf _ _ H c Hc) as (p & A & B & C & D & E & F & G & L & _ & Hh). exists p.
  repeat (split; [assumption|]). rewrite Hh. pose proof (get_hashes_spec w (g_manifest_path g) p) as S. cbn zeta in S.
  set (manifest := g_manifest_path g) in *.
  destruct (w_absolute w manifest) as [mm|] eqn:Ea.
  2:{ assert (locate_cargo_lock w manifest = None) as El by (unfold locate_cargo_lock; now rewrite Ea).
      rewrite El in S. destruct (get_hashes (crate_hashes w manifest) p).
      - destruct S as (h & lk & _ & [] & _).
      - intros lk (m1 & f1 & l1 & X & _). rewrite Ea in X. discriminate. }
  destruct (locate_cargo_lock w manifest) as [f|] eqn:El.
  - pose proof (locate_some _ _ _ _ Ea El) as Hn.
    destruct (w_lockfile w f) as [l|] eqn:Ew.
    + destruct (get_hashes (crate_hashes w manifest) p).
      * destruct S as (h & lk & X1 & X2 & X3 & X4). exists h, lk. split; auto. split; [exists mm, f, l; auto|auto].
      * intros lk (m1 & f1 & l1 & X & Y & Z & I) Hlk. apply (S lk); auto.
        assert (f1 = f) as -> by (rewrite Ea in X; injection X as <-; eapply nearest_lock_unique; eauto).
        rewrite Ew in Z. now injection Z as <-.
    + destruct (get_hashes (crate_hashes w manifest) p).
      * destruct S as (h & lk & _ & [] & _).
      * intros lk (m1 & f1 & l1 & X & Y & Z & I) Hlk.
        assert (f1 = f) as -> by (rewrite Ea in X; injection X as <-; eapply nearest_lock_unique; eauto). congruence.
  - destruct (get_hashes (crate_hashes w manifest) p).
    + destruct S as (h & lk & _ & [] & _).
    + intros lk (m1 & f1 & l1 & X & Y & Z & I) Hlk. exfalso.
      rewrite Ea in X; injection X as <-. destruct Y as (d & P & -> & Ex & _).
      pose proof (proj1 (locate_none w manifest mm Ea) El d P). congruence.
Qed.
Example C10_example : sbom_of ex_world 100 ex_meta ex_cfg ex_id_app ex_gen /\
  map c_hashes (component_list (g_bom ex_gen)) = [Some [mkHash SHA_256 "00112233445566778899aabbccddeeff00112233445566778899aabbccddeeff"]; None]
  /\ map c_licenses (component_list (g_bom ex_gen)) = [Some [LicExpression None "MIT"]; Some [LicExpression None "MIT"]].
Proof. split; [exact ex_sbom_of|]. split; vm_compute; reflexivity. Qed.
Print Assumptions C10_component_contents.

(** ** C11: per-artifact SBOMs differ only in the described artifact *)
Theorem C11_per_artifact w fuel meta nodes cfg m g d :
  well_formed meta nodes -> sbom_of w fuel meta cfg m g -> d <> DCrate ->
  exists p c sel subs l, In p (cm_packages meta) /\ pk_id p = m
    /\ main_component (g_bom g) = Some c /\ c_components c = Some subs
    /\ sublist_of (fun t => described_target t /\ wants_artifact d t) (pk_targets p) sel
    /\ per_artifact_sboms (g_bom g) (g_target_kinds g) d = Done l
    /\ Forall2 (fun t a => exists sub, In sub subs /\ snd a = tg_kind t
         /\ fst a = with_main (g_bom g) (relabel c (c_type sub) (normalize (tg_name t)) (c_purl sub))
         /\ c_name sub = normalize (tg_name t)
         /\ (target_has "bin" t -> c_type sub = CApplication) /\ (~ target_has "bin" t -> c_type sub = CLibrary)) sel l.
Proof. intros wf H Hd. apply (sbom_of_ok _ _ _ nodes) in H; auto. eapply per_artifact_spec; eauto. Qed.
Example C11_example : sbom_of ex_world 100 ex_meta ex_cfg ex_id_app ex_gen /\
  exists l, per_artifact_sboms (g_bom ex_gen) (g_target_kinds ex_gen) DBinaries = Done l
    /\ map (fun a => option_map c_name (main_component (fst a))) l = [Some "one"; Some "two"].
Proof. split; [exact ex_sbom_of|]. eexists. split; vm_compute; reflexivity. Qed.
Print Assumptions C11_per_artifact.

(** ** C12: output files *)
Theorem C12_output_files w fuel meta nodes cfg a env host m g :
  well_formed meta nodes -> clap_accepts a -> resolve_config a env host = Done cfg ->
  sbom_of w fuel meta cfg m g -> distinct_targets meta ->
  exists p files, In p (cm_packages meta) /\ pk_id p = m /\ write_plan g = Done files
    /\ NoDup (map f_path files)
    /\ (describe_of cfg = DCrate -> exists f, files = [f] /\ f_bom f = g_bom g)
    /\ forall f, In f files ->
         f_format f = chosen_format cfg
         /\ f_version f = match cf_spec cfg with Some v => v | None => V1_3 end
         /\ exists stem, f_path f = removelast (pk_manifest p) ++ [(stem ++ extension (chosen_format cfg))%string]
              /\ (plain_names meta -> plain_target cfg -> no_slash (stem ++ extension (chosen_format cfg))).
Proof. apply files_spec. Qed.
(** Without [plain_target] the last clause fails: a target specification file
    given with its path ends up in the file name. *)
Definition ex_args : args := {|
  a_format := None; a_describe := Some DAllCargoTargets; a_all_features := false; a_no_default_features := false;
  a_features := []; a_target := Some "targets/my.json"; a_target_in_filename := true; a_all := false; a_top_level := false;
  a_filename_override := None; a_license_strict := false; a_license_accept_named := []; a_spec_version := None;
  a_no_build_deps := false |}.
Theorem C12_target_path_in_name_refuted : exists w fuel meta nodes cfg a env host m g files f name,
  well_formed meta nodes /\ clap_accepts a /\ resolve_config a env host = Done cfg /\ sbom_of w fuel meta cfg m g
  /\ distinct_targets meta /\ plain_names meta /\ write_plan g = Done files /\ In f files
  /\ last (f_path f) "" = name /\ ~ no_slash name.
Proof.
  destruct (resolve_config ex_args None "host") as [cfg| | |] eqn:Er; try (vm_compute in Er; discriminate Er).
  destruct (create_sboms ex_world 100 ex_meta cfg) as [[|g [|]]| | |] eqn:E;
    try (injection Er as <-; vm_compute in E; discriminate E).
  destruct (write_plan g) as [files| | |] eqn:Ew;
    try (injection Er as <-; vm_compute in E; injection E as <-; vm_compute in Ew; discriminate Ew).
  exists ex_world, 100, ex_meta, ex_nodes, cfg, ex_args, None, "host", ex_id_app, g, files, (hd (mkFile [] (g_bom g) FXml V1_3) files).
  eexists. split; [exact ex_wf|]. split; [split; auto|]. split; [exact Er|]. split; [exists [g]; split; [exact E|now left]|].
  split; [|split; [|split; [exact Ew|]]].
  - intros p H. repeat (destruct H as [<-|H]; [split; [repeat constructor; cbn; intuition discriminate|]; intros t k Ht Hk; cbn in Ht; repeat (destruct Ht as [<-|Ht]; [destruct Hk as [<-|[]]; reflexivity|]); destruct Ht|]). destruct H.
  - intros p H. repeat (destruct H as [<-|H]; [split; [reflexivity|]; intros t Ht; cbn in Ht; repeat (destruct Ht as [<-|Ht]; [split; [reflexivity|intros k [<-|[]]; reflexivity]|]); destruct Ht|]). destruct H.
  - injection Er as <-. vm_compute in E. injection E as <-. vm_compute in Ew. injection Ew as <-. split; [now left|].
    split; [reflexivity|]. vm_compute. discriminate.
Qed.
Print Assumptions C12_output_files.
Print Assumptions C12_target_path_in_name_refuted.

(** ** C13: command line against environment
    The full claim is false of the code: CARGO_BUILD_TARGET wins over --target. *)
Theorem C13_cli_precedence_refuted : exists a env host cfg t,
  a_target a = Some t /\ resolve_config a env host = Done cfg /\ cf_target cfg <> Some (SingleTarget t) /\ t <> "all".
Proof.
  exists ex_args, (Some "wasm32-unknown-unknown"), "host". eexists. exists "targets/my.json".
  split; [reflexivity|]. split; [reflexivity|]. split; discriminate.
Qed.
(** What does hold: environment, then command line, then host; and without the
    environment variable the command line decides. *)
Theorem C13_target_choice_partial a env host cfg : resolve_config a env host = Done cfg ->
  cf_target cfg = Some match env with
                       | Some e => SingleTarget e
                       | None => match a_target a with
                                 | Some t => if String.eqb t "all" then AllTargets else SingleTarget t
                                 | None => SingleTarget host
                                 end
                       end.
Proof. apply resolved_target. Qed.
Example C13_example : exists cfg, resolve_config ex_args None "host" = Done cfg /\ cf_target cfg = Some (SingleTarget "targets/my.json").
Proof. eexists. split; reflexivity. Qed.
Print Assumptions C13_cli_precedence_refuted.
Print Assumptions C13_target_choice_partial.

(** ** C14: merging configurations *)
Theorem C14_merge_laws :
  (forall a b c, merge (merge a b) c = merge a (merge b c))
  /\ (forall c, merge empty_config c = c) /\ (forall c, merge c empty_config = c).
Proof. split; [apply merge_assoc|]. split; [apply merge_empty_l|apply merge_empty_r]. Qed.
(** each setting is the second one's when it has one, else the first one's; the
    accepted license names are united *)
Definition overrides {A} (r a b : option A) : Prop := (b <> None -> r = b) /\ (b = None -> r = a).
Theorem C14_merge_fields a b :
  let r := merge a b in
  overrides (cf_format r) (cf_format a) (cf_format b) /\ overrides (cf_included r) (cf_included a) (cf_included b)
  /\ overrides (cf_output r) (cf_output a) (cf_output b) /\ overrides (cf_features r) (cf_features a) (cf_features b)
  /\ overrides (cf_target r) (cf_target a) (cf_target b) /\ overrides (cf_describe r) (cf_describe a) (cf_describe b)
  /\ overrides (cf_spec r) (cf_spec a) (cf_spec b) /\ overrides (cf_only_normal r) (cf_only_normal a) (cf_only_normal b)
  /\ overrides (option_map lp_mode (cf_license r)) (option_map lp_mode (cf_license a)) (option_map lp_mode (cf_license b))
  /\ forall n, (exists l, cf_license r = Some l /\ In n (lp_accept l)) <->
       (exists l, (cf_license a = Some l \/ cf_license b = Some l) /\ In n (lp_accept l)).
Proof.
  assert (O : forall A (x y : option A), overrides (orelse y x) x y).
  { intros A x [y|]; split; cbn; congruence. }
  cbn. repeat (split; [apply O|]). split.
  - split; destruct (cf_license a), (cf_license b); cbn; congruence.
  - intros n. destruct (cf_license a) as [la|], (cf_license b) as [lb|]; cbn; split.
    + intros (l & [= <-] & Hin). cbn in Hin. apply in_app_iff in Hin as [H|H]; eauto.
    + intros (l & [[= <-]|[= <-]] & Hin); eexists; (split; [reflexivity|]); cbn; apply in_app_iff; auto.
    + intros (l & [= <-] & Hin). eauto.
    + intros (l & [[= <-]|H] & Hin); [eauto|discriminate].
    + intros (l & [= <-] & Hin). cbn in Hin. eauto.
    + intros (l & [H|[= <-]] & Hin); [discriminate|]. eexists; (split; [reflexivity|]); auto.
    + intros (l & H & _). discriminate.
    + intros (l & [H|H] & _); discriminate.
Qed.
Example C14_example : cf_target (merge ex_cfg ex_top_cfg) = Some AllTargets
  /\ cf_included (merge ex_top_cfg ex_cfg) = Some TopLevelDependencies.
Proof. split; reflexivity. Qed.
Print Assumptions C14_merge_laws.
Print Assumptions C14_merge_fields.

(** ** C15: feature lists *)
Theorem C15_features_split l :
  (forall f, In f (feature_list l) -> f <> "" /\ contains_char "," f = false /\ contains_char " " f = false)
  /\ String.concat "" (feature_list l) = strip_seps (String.concat "" l).
Proof. split; [apply feature_list_clean|apply feature_list_complete]. Qed.
(** and the split is at the separators only: an argument without separators is one feature *)
Theorem C15_features_kept l :
  (forall f, In f l -> f <> "" /\ contains_char "," f = false /\ contains_char " " f = false) -> feature_list l = l.
Proof. apply feature_list_id. Qed.
Example C15_example : feature_list ["a,b c"; " d ,"] = ["a"; "b"; "c"; "d"].
Proof. reflexivity. Qed.
Print Assumptions C15_features_split.
Print Assumptions C15_features_kept.

(** ** C16: the nearest lock file *)
Theorem C16_nearest_lockfile w manifest m : w_absolute w manifest = Some m ->
  (forall f, locate_cargo_lock w manifest = Some f <-> nearest_lock (w_is_file w) m f)
  /\ (locate_cargo_lock w manifest = None <-> forall d, is_prefix d m -> w_is_file w (d ++ ["Cargo.lock"]) = false).
Proof.
  intros H. split; [|now apply locate_none]. intros f. split; [now apply locate_some|].
  intros Hn. destruct (locate_cargo_lock w manifest) as [f'|] eqn:E.
  - f_equal. eapply nearest_lock_unique; [|exact Hn]. eapply locate_some; eauto.
  - destruct Hn as (d & P & -> & X & _). apply (locate_none w manifest m H) with (d := d) in E; auto. congruence.
Qed.
Example C16_example : locate_cargo_lock ex_world ["w"; "app"; "Cargo.toml"] = Some ["w"; "Cargo.lock"].
Proof. reflexivity. Qed.
Print Assumptions C16_nearest_lockfile.

(** ** C17: git sources *)
Theorem C17_vcs_url url commit q k v :
  contains_char "?" url = false -> contains_char "#" url = false ->
  contains_char "?" commit = false -> contains_char "#" commit = false -> contains_char "#" q = false ->
  In k ["branch"; "tag"; "rev"] -> contains_char "#" v = false -> contains_char "&" v = false ->
  source_to_vcs_url ("git+" ++ url ++ "?" ++ q ++ "#" ++ commit) = Done ("git+" ++ url ++ "@" ++ commit)%string
  /\ source_to_vcs_url ("git+" ++ url ++ "#" ++ commit) = Done ("git+" ++ url ++ "@" ++ commit)%string
  /\ source_to_vcs_url ("git+" ++ url ++ "?" ++ k ++ "=" ++ v) = Done ("git+" ++ url ++ "@" ++ v)%string
  /\ source_to_vcs_url ("git+" ++ url) = Done ("git+" ++ url)%string.
Proof.
  intros. split; [now apply vcs_query_commit|]. split; [now apply vcs_commit|]. split; [now apply vcs_query_ref|]. now apply vcs_plain.
Qed.
(** a query of several parameters: the first branch, tag or revision counts; if there is none the query itself is kept *)
Theorem C17_vcs_query url before k v after :
  contains_char "?" url = false -> contains_char "#" url = false -> In k ["branch="; "tag="; "rev="] ->
  Forall (fun s => contains_char "#" s = false /\ contains_char "&" s = false) (before ++ [k ++ v]%string ++ after) ->
  Forall (fun s => forall k, In k ["branch="; "tag="; "rev="] -> starts_with k s = false) before ->
  source_to_vcs_url ("git+" ++ url ++ "?" ++ join "&" (before ++ [k ++ v]%string ++ after)) = Done ("git+" ++ url ++ "@" ++ v)%string
  /\ (before <> [] -> source_to_vcs_url ("git+" ++ url ++ "?" ++ join "&" before) = Done ("git+" ++ url ++ "@" ++ join "&" before)%string).
Proof.
  intros H1 H2 K F B. split; [now apply vcs_query_first|]. intros N. apply vcs_query_none; auto.
  now apply Forall_app in F as [F _].
Qed.
Example C17_query_example :
  source_to_vcs_url "git+https://a/b?depth=1&tag=v2&branch=x" = Done "git+https://a/b@v2"
  /\ source_to_vcs_url "git+https://a/b?depth=1" = Done "git+https://a/b@depth=1".
Proof. split; reflexivity. Qed.
Print Assumptions C17_vcs_query.
Example C17_example :
  source_to_vcs_url "git+https://github.com/rust-random/rand.git?rev=9f35b8e#9f35b8e439eeedd60b9414c58f389bdc6a3284f9"
  = Done "git+https://github.com/rust-random/rand.git@9f35b8e439eeedd60b9414c58f389bdc6a3284f9".
Proof. reflexivity. Qed.
Print Assumptions C17_vcs_url.

(** ** C18: authors *)
Theorem C18_authors w s :
  (forall name email, author_shape s name (Some email) ->
     parse_author w s = if w_email_ok w email
       then Some (mkContact None (Some (normalize (trim name))) (Some (normalize email)) None) else None)
  /\ (forall name, author_shape s name None ->
     parse_author w s = Some (mkContact None (Some (normalize (trim name))) None None))
  /\ (~ (exists name email, author_shape s name email) ->
     parse_author w s = Some (mkContact None (Some (normalize s)) None None)).
Proof.
  split; [intros; now apply parse_author_email|]. split; [intros; now apply parse_author_name|]. apply parse_author_other.
Qed.
Theorem C18_author_dropped_only_for_email w p :
  forall c, In c (create_authors w p) <-> exists a, In a (pk_authors p) /\ parse_author w a = Some c.
Proof.
  intros c. unfold create_authors. rewrite in_flat_map. split.
  - intros (a & Ha & Hc). exists a. split; auto. destruct (parse_author w a); [destruct Hc as [->|[]]; auto|destruct Hc].
  - intros (a & Ha & Hc). exists a. split; auto. rewrite Hc. now left.
Qed.
Example C18_example : author_shape "Jane Doe <jane@example.org>" "Jane Doe " (Some "jane@example.org")
  /\ parse_author ex_world "Jane Doe <jane@example.org>"
     = Some (mkContact None (Some "Jane Doe") (Some "jane@example.org") None)
  /\ author_shape "Jane" "Jane" None /\ ~ (exists n e, author_shape "<x>" n e).
Proof.
  split; [exact (author_email "Jane Doe " "jane@example.org" ltac:(discriminate) eq_refl ltac:(discriminate) eq_refl)|].
  split; [reflexivity|]. split; [apply author_plain; [discriminate|reflexivity]|].
  intros (n & e & H). apply author_captures_complete in H. discriminate H.
Qed.
Print Assumptions C18_authors.
Print Assumptions C18_author_dropped_only_for_email.

(** ** C19: external references *)
Theorem C19_external_references w fuel meta nodes cfg m g :
  well_formed meta nodes -> sbom_of w fuel meta cfg m g ->
  forall c, In c (component_list (g_bom g)) -> exists p, In p (cm_packages meta) /\ c_bom_ref c = Some (pk_id p)
    /\ match c_external_references c with
       | None => declared_links w p = []
       | Some l => l <> [] /\ map (fun r => (er_type r, uri_text (er_url r))) l = declared_links w p
           /\ Forall (fun r => er_comment r = None /\ er_hashes r = None) l
       end.
Proof.
  intros wf H c Hc. apply (sbom_of_ok _ _ _ nodes) in H; auto.
  destruct (sbom_contents _ _ _ _ _ _ wf _ _ H c Hc) as (p & A & B & _ & _ & _ & _ & _ & _ & E & _).
  exists p. split; auto. split; auto. rewrite E. apply external_refs_spec.
Qed.
Example C19_example : declared_links ex_world ex_a = [(ERDocumentation, "https://docs.rs"); (ERVcs, "https://github.com/x/y")].
Proof. reflexivity. Qed.
Print Assumptions C19_external_references.

(** ** C20: targets have distinct references and known kinds *)
Theorem C20_targets w fuel meta nodes cfg m g :
  well_formed meta nodes -> sbom_of w fuel meta cfg m g ->
  exists c subs refs, main_component (g_bom g) = Some c /\ c_bom_ref c = Some m /\ c_components c = Some subs
    /\ map c_bom_ref subs = map Some refs /\ NoDup refs /\ ~ In m refs
    /\ (forall r, In r refs -> exists t, bm_get r (g_target_kinds g) = Some (tg_kind t) /\ described_target t
          /\ exists p, In p (cm_packages meta) /\ pk_id p = m /\ In t (pk_targets p)).
Proof. apply targets_spec. Qed.
Example C20_example : sbom_of ex_world 100 ex_meta ex_cfg ex_id_app ex_gen /\
  g_target_kinds ex_gen = [(sub_ref ex_id_app 0, ["lib"]); (sub_ref ex_id_app 1, ["bin"]); (sub_ref ex_id_app 2, ["bin"])].
Proof. split; [exact ex_sbom_of|]. vm_compute. reflexivity. Qed.
Print Assumptions C20_targets.

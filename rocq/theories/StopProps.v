(** C78: a run makes no SBOM for one of eight reasons, and says which *)
From Verif Require Import Base Strings ModelTypes ConfigModel GenModel GenSpec GenExample GenProofs GenProofs2 GenProofs3 GenProofs4 GenProofs6 GenProofs8 GenProps
  RunModel RunSpec RunProofs RunProps OptionSpec OptionProps StopSpec.
From Coq Require Import ZArith.
Open Scope string_scope.
Open Scope list_scope.

(** *** Numbers *)
Lemma digits_acc_app s t acc : digits_acc (s ++ t)%string acc = match digits_acc s acc with Some n => digits_acc t n | None => None end.
Proof. revert acc. induction s as [|a s IH]; intros acc; cbn [append digits_acc]; [reflexivity|]. destruct (_ && _); [apply IH|reflexivity]. Qed.
Lemma N_digit d : (d < 10)%nat -> N_of_ascii (ascii_of_nat (48 + d)) = (48 + N.of_nat d)%N.
Proof. intros H. do 10 (destruct d as [|d]; [reflexivity|]). lia. Qed.
Lemma digits_acc_digit d acc : (d < 10)%nat -> digits_acc (String (ascii_of_nat (48 + d)) "") acc = Some (acc * 10 + N.of_nat d)%N.
Proof.
  intros H. cbn [digits_acc]. rewrite (N_digit d H). replace (N.leb 48 (48 + N.of_nat d)) with true by (symmetry; apply N.leb_le; lia).
  replace (N.leb (48 + N.of_nat d) 57) with true by (symmetry; apply N.leb_le; lia). cbn [andb]. f_equal. lia.
Qed.
Lemma ascii_digit a : N.leb 48 (N_of_ascii a) && N.leb (N_of_ascii a) 57 = true ->
  exists d, (d < 10)%nat /\ a = ascii_of_nat (48 + d) /\ (N_of_ascii a - 48)%N = N.of_nat d.
Proof.
  intros H. apply andb_true_iff in H as [A B]. apply N.leb_le in A, B. exists (N.to_nat (N_of_ascii a - 48)).
  split; [lia|]. split; [|lia]. replace (48 + N.to_nat (N_of_ascii a - 48)) with (N.to_nat (N_of_ascii a)) by lia.
  change (N.to_nat (N_of_ascii a)) with (nat_of_ascii a). now rewrite ascii_nat_embedding.
Qed.
Lemma digits_of_acc s : forall p acc n, digits_of p (Z.of_N acc) -> digits_acc s acc = Some n -> digits_of (p ++ s)%string (Z.of_N n).
Proof.
  induction s as [|a s IH]; intros p acc n P H; cbn [digits_acc] in H.
  - injection H as <-. now rewrite append_nil_r.
  - destruct (_ && _) eqn:D; [|discriminate H]. destruct (ascii_digit a D) as (d & L & A & E). rewrite E in H.
    replace (p ++ String a s)%string with ((p ++ String a "") ++ s)%string by (rewrite append_assoc; reflexivity).
    apply (IH _ _ _) with (2 := H). rewrite A. replace (Z.of_N (acc * 10 + N.of_nat d)) with (10 * Z.of_N acc + Z.of_nat d)%Z by lia.
    now constructor.
Qed.
Lemma digits_parsed s z : digits_of s z <-> exists n, parse_digits s = Some n /\ z = Z.of_N n.
Proof.
  split.
  - induction 1 as [d L|s z d H (n & P & ->) L].
    + exists (N.of_nat d). split; [|lia]. unfold parse_digits. now rewrite digits_acc_digit by exact L.
    + exists (n * 10 + N.of_nat d)%N. split; [|lia].
      destruct s as [|a s]; [discriminate P|]. unfold parse_digits in *. cbn [append]. change (String a (s ++ ?x)%string) with (String a s ++ x)%string.
      rewrite digits_acc_app, P. now apply digits_acc_digit.
  - intros (n & P & ->). unfold parse_digits in P. destruct s as [|a s]; [discriminate P|]. cbn [digits_acc] in P.
    destruct (_ && _) eqn:D; [|discriminate P]. destruct (ascii_digit a D) as (d & L & A & E). rewrite E in P.
    change (String a s) with (String a "" ++ s)%string. apply (digits_of_acc s) with (2 := P). rewrite A.
    replace (Z.of_N (0 * 10 + N.of_nat d)) with (Z.of_nat d) by lia. now constructor.
Qed.
Lemma digits_first s z : digits_of s z -> exists a r, s = String a r /\ a <> "+"%char /\ a <> "-"%char.
Proof.
  induction 1 as [d L|s z d H (a & r & -> & A & B) L].
  - do 2 eexists. split; [reflexivity|]. do 10 (destruct d as [|d]; [split; discriminate|]). lia.
  - do 2 eexists. split; [reflexivity|]. auto.
Qed.
Theorem C78_epoch s z : parse_i64 s = Some z <-> number_read s z.
Proof.
  unfold number_read.
  assert (R : forall n : Z, ((- 2 ^ 63 <=? n) && (n <? 2 ^ 63))%Z = true <-> (- 2 ^ 63 <= n < 2 ^ 63)%Z).
  { intros n. rewrite andb_true_iff, Z.leb_le, Z.ltb_lt. reflexivity. }
  assert (X : forall d, match parse_digits d with Some n => if ((- 2 ^ 63 <=? Z.of_N n) && (Z.of_N n <? 2 ^ 63))%Z then Some (Z.of_N n) else None | None => None end = Some z
     <-> (- 2 ^ 63 <= z < 2 ^ 63)%Z /\ digits_of d z).
  { intros d. rewrite digits_parsed, <- R. split.
    - destruct (parse_digits d) as [n|]; [|discriminate]. destruct (_ && _)%bool eqn:E; [|discriminate]. intros H. injection H as <-. eauto.
    - intros (E & n & -> & ->). now rewrite E. }
  assert (Y : forall d, match parse_digits d with Some n => if ((- 2 ^ 63 <=? - Z.of_N n) && (- Z.of_N n <? 2 ^ 63))%Z then Some (- Z.of_N n)%Z else None | None => None end = Some z
     <-> (- 2 ^ 63 <= z < 2 ^ 63)%Z /\ digits_of d (- z)).
  { intros d. rewrite digits_parsed, <- R. split.
    - destruct (parse_digits d) as [n|]; [|discriminate]. destruct (_ && _)%bool eqn:E; [|discriminate]. intros H. injection H as <-.
      split; [exact E|]. exists n. split; [reflexivity|lia].
    - intros (E & n & -> & F). replace z with (- Z.of_N n)%Z in * by lia. now rewrite E. }
  destruct s as [|a s].
  { split; [discriminate|]. intros (_ & [H|[(d & H & _)|(d & H & _)]]); [|discriminate H ..]. apply digits_first in H as (? & ? & H & _). discriminate H. }
  destruct (ascii_dec a "-") as [->|N]; [|destruct (ascii_dec a "+") as [->|P]].
  - unfold parse_i64. rewrite Y. split; [intros (A & B); split; [exact A|]; right; right; eauto|].
    intros (A & [H|[(d & H & _)|(d & H & D)]]); [|discriminate H|injection H as <-; auto].
    apply digits_first in H as (? & ? & H & _ & Q). injection H as <- <-. congruence.
  - unfold parse_i64. rewrite X. split; [intros (A & B); split; [exact A|]; right; left; eauto|].
    intros (A & [H|[(d & H & D)|(d & H & _)]]); [|injection H as <-; auto|discriminate H].
    apply digits_first in H as (? & ? & H & Q & _). injection H as <- <-. congruence.
  - assert (E : parse_i64 (String a s) = match parse_digits (String a s) with Some n => if ((- 2 ^ 63 <=? Z.of_N n) && (Z.of_N n <? 2 ^ 63))%Z then Some (Z.of_N n) else None | None => None end).
    { destruct a as [[] [] [] [] [] [] [] []]; try reflexivity; congruence. }
    rewrite E, X. split; [intros (A & B); auto|]. intros (A & [H|[(d & H & D)|(d & H & D)]]); [auto|injection H as -> <-; congruence ..].
Qed.
Print Assumptions C78_epoch.

(** *** Generation *)
Lemma bind_stops {A B} (x : outcome A) (f : A -> outcome B) e : (x = Fail e -> bind x f = Fail e) /\ (x = Panic e -> bind x f = Panic e).
Proof. split; intros ->; reflexivity. Qed.
Lemma stopped_bind {A B} r t (f : A -> outcome B) : bind (stopped r t) f = stopped r t.
Proof. now destruct r. Qed.

Section WF.
  Variables (meta : cargo_metadata) (nodes : list node) (cfg : config) (w : world) (r : result) (t : string).
  Hypothesis wf : well_formed meta nodes.
  Hypothesis clock : bom_timestamp w = stopped r t.
  Let packages := index_packages (cm_packages meta).
  Let resolve := index_resolve nodes.
  Lemma create_sbom_stops m : In m (cm_members meta) ->
    exists fuel0, forall fuel, fuel0 <= fuel -> create_sbom w fuel cfg (cm_workspace_root meta) packages resolve m = stopped r t.
  Proof.
    intros Hm.
    assert (Hmem : bm_mem m resolve = true) by (apply (nd_mem meta nodes wf), wf; auto).
    destruct (index_dep_kinds_done resolve m (wf_closed meta nodes wf) Hmem) as (f1 & kinds & H1).
    assert (exists f2 sel, forall fuel, f2 <= fuel ->
       match included_of cfg with
       | AllDependencies => all_dependencies fuel m packages resolve cfg
       | TopLevelDependencies => top_level_dependencies m packages resolve cfg
       end = Done sel) as (f2 & sel & H2).
    { destruct (included_of cfg).
      - destruct (runs_top meta nodes cfg wf m Hm) as [x Hr]. exists 0, x. auto.
      - now apply (all_dependencies_done meta nodes cfg wf). }
    assert (exists mp, bm_get m packages = Some mp) as [mp Hmp].
    { destruct (node_pkg meta nodes wf m) as (p & A & B); [now apply wf|]. exists p. now apply (pk_get meta nodes wf). }
    assert (Hsel : selection meta nodes cfg m (fst sel) (snd sel)).
    { specialize (H2 (f2) (Nat.le_refl _)). destruct sel as [ps ns]. cbn [fst snd].
      destruct (included_of cfg) eqn:E; [eapply select_top|eapply select_all]; eauto. }
    assert (Hmf : forall id p, bm_get id (fst sel) = Some p -> pk_manifest p <> []).
    { intros id p Hp. apply (sel_ps _ _ _ _ _ _ Hsel) in Hp as (_ & A & _). now apply (wf_manifests _ _ wf). }
    assert (Hroot : exists rp, bm_get m (fst sel) = Some rp).
    { exists mp. apply (sel_ps _ _ _ _ _ _ Hsel). apply (pk_get meta nodes wf) in Hmp as [A B]. split; auto.
      unfold selected, top_level_mode. destruct (cf_included cfg) as [[]|]; [left|right|right]; split; auto;
        try congruence; constructor. }
    destruct Hroot as [rp Hrp].
    assert (Hb : create_bom w cfg (cm_workspace_root meta) (crate_hashes w (pk_manifest mp)) m (fst sel) (snd sel) kinds = stopped r t).
    { unfold create_bom. rewrite Hrp. cbn [unwrap bind].
      assert (X : runs (mapM (fun p => create_component w cfg (cm_workspace_root meta) (crate_hashes w (pk_manifest mp)) p rp kinds)
                   (filter (fun p => negb (String.eqb (pk_id p) m)) (map snd (fst sel))))).
      { apply runs_mapM. intros p Hp. apply filter_In in Hp as [Hp _]. apply in_map_iff in Hp as ([k p'] & E & Hp).
        cbn in E; subst p'. apply bm_In_get in Hp; [|apply Hsel]. apply runs_component; eauto. }
      destruct X as [comps ->]. cbn [bind]. unfold create_metadata. rewrite clock, !stopped_bind. reflexivity. }
    exists (Nat.max f1 f2). intros fuel Hle. unfold create_sbom. rewrite H1 by lia. cbn [bind]. rewrite H2 by lia. cbn [bind].
    rewrite Hmp. cbn [unwrap bind]. rewrite Hb. apply stopped_bind.
  Qed.
  Lemma create_sboms_stops : cm_members meta <> [] -> exists fuel0, forall fuel, fuel0 <= fuel -> create_sboms w fuel meta cfg = stopped r t.
  Proof.
    intros H. unfold create_sboms. rewrite (wf_resolve _ _ wf). cbn [unwrap bind]. destruct (cm_members meta) as [|m l] eqn:E; [congruence|].
    destruct (create_sbom_stops m) as (f & F); [rewrite E; now left|]. exists f. intros fuel L. cbn [mapM].
    unfold packages, resolve in F. rewrite (F fuel L). apply stopped_bind.
  Qed.
End WF.

(** *** Runs *)
(** All texts of the model *)
Definition text (r : reason) : string :=
  match message r with Some t => t | None => match r with NoManifest => "I/O error" | CargoFails => "`cargo metadata` exited with an error" | _ => "timestamp out of range" end end.
Lemma text_message r : message r = None \/ message r = Some (text r).
Proof. destruct r; auto. Qed.

Lemma name_refused m o : name_with_directory o -> run_config m o = Fail "Illegal characters in custom prefix string: /".
Proof.
  intros (n & a & b & E & N). unfold run_config, as_config. rewrite E. unfold filename_override.
  assert (C : contains_char "/" n = true) by (apply contains_char_In; eauto). now rewrite C.
Qed.
Lemma name_accepted o : ~ name_with_directory o -> forall n, a_filename_override (o_args o) = Some n -> contains_char "/" n = false.
Proof.
  intros H n E. destruct (contains_char "/" n) eqn:C; [|reflexivity]. exfalso. apply H. apply contains_char_In in C as (a & b & C). now exists n, a, b.
Qed.
Lemma name_decided o : name_with_directory o \/ ~ name_with_directory o.
Proof.
  destruct (a_filename_override (o_args o)) as [n|] eqn:E; [destruct (contains_char "/" n) eqn:C|].
  - left. apply contains_char_In in C as (a & b & C). now exists n, a, b.
  - right. intros (n' & a & b & E' & N). rewrite E in E'. injection E' as <-. assert (D : contains_char "/" n = true) by (apply contains_char_In; eauto). congruence.
  - right. intros (n' & a & b & E' & N). congruence.
Qed.
Lemma asks_rustc m o : ~ name_with_directory o -> mc_build_target m = None -> a_target (o_args o) = None ->
  forall t, host_platform m = Panic t -> run_config m o = Panic t.
Proof.
  intros N B A t H.
  assert (C : exists c, as_config (o_args o) = Done c).
  { unfold as_config. destruct (a_filename_override (o_args o)) as [n|] eqn:E; cbn [bind]; [|eauto]. unfold filename_override. rewrite (name_accepted o N n E). cbn [bind]. eauto. }
  destruct C as (c & C). unfold run_config. rewrite C. cbn [bind].
  assert (Ct : cf_target c = option_map (fun s => if String.eqb s "all" then AllTargets else SingleTarget s) (a_target (o_args o))).
  { unfold as_config in C. apply bind_done in C. destruct C as (pt & _ & C). injection C as <-. reflexivity. }
  rewrite A in Ct. rewrite B. cbn. rewrite Ct. cbn. now rewrite H.
Qed.
Lemma manifest_located m o p : manifest_named m o p <-> locate_manifest m o = Done p.
Proof.
  unfold manifest_named, locate_manifest. destruct (o_manifest_path o) as [q|].
  - destruct (mc_absolute m q); split; congruence.
  - destruct (mc_cwd m) as [c|]; split; try discriminate.
    + intros (x & E & ->). now injection E as ->.
    + intros H. injection H as <-. eauto.
    + intros (x & E & _). discriminate E.
Qed.
Lemma manifest_missing m o : (forall p, ~ manifest_named m o p) -> locate_manifest m o = Fail "I/O error".
Proof.
  intros H. destruct (locate_manifest m o) as [p| | |] eqn:E.
  - exfalso. apply (H p). now apply manifest_located.
  - unfold locate_manifest in E. destruct (o_manifest_path o); [destruct (mc_absolute m _)|destruct (mc_cwd m)]; congruence.
  - unfold locate_manifest in E. destruct (o_manifest_path o); [destruct (mc_absolute m _)|destruct (mc_cwd m)]; congruence.
  - unfold locate_manifest in E. destruct (o_manifest_path o); [destruct (mc_absolute m _)|destruct (mc_cwd m)]; congruence.
Qed.
Lemma clock_stops w : (w_now w = None -> bom_timestamp w = Fail "Error creating Metadata")
  /\ forall e, w_now w <> None -> w_epoch w = Some e ->
     ((forall z, ~ number_read e z) -> bom_timestamp w = Panic "Invalid reproducible build timestamp")
     /\ (forall z, number_read e z -> w_format_time w z = None -> bom_timestamp w = Panic "timestamp out of range").
Proof.
  unfold bom_timestamp. split; [intros ->; reflexivity|]. intros e N E. destruct (w_now w) as [n|]; [|congruence]. cbn [bind]. rewrite E. split.
  - intros H. destruct (parse_i64 e) as [z|] eqn:P; [|reflexivity]. exfalso. apply (H z). now apply C78_epoch.
  - intros z R F. apply C78_epoch in R. rewrite R. cbn [unwrap bind]. now rewrite F.
Qed.

Lemma stops_outcome m o r : cargo_is_cargo m -> stops m o r ->
  exists fuel0, forall fuel, fuel0 <= fuel -> generate_sboms m fuel o = stopped (ends_with r) (text r).
Proof.
  intros K S.
  assert (W : forall t res, something_to_do m o -> bom_timestamp (mc_world m) = stopped res t ->
     exists fuel0, forall fuel, fuel0 <= fuel -> generate_sboms m fuel o = stopped res t).
  { intros t res (meta & (cfg & p & C & P & G) & M) T. destruct (K _ _ _ _ G) as (nodes & wf).
    destruct (create_sboms_stops meta nodes cfg _ _ _ wf T M) as (f & F). exists f. intros fuel L. unfold generate_sboms. rewrite C. cbn [bind].
    apply manifest_located in P. rewrite P. cbn [bind]. unfold get_metadata. rewrite G. cbn [bind]. now apply F. }
  destruct (clock_stops (mc_world m)) as [K1 K2].
  destruct S as [N|N B A H|out N B A O H|t N T H|(cfg & p & C & P & G)|D H|e D H E R|e z D H E R F]; try (apply W; [exact D|]).
  - exists 0. intros fuel _. unfold generate_sboms. now rewrite (name_refused m o N).
  - exists 0. intros fuel _. unfold generate_sboms. rewrite (asks_rustc m o N B A "Failed to invoke rustc! Is it in your $PATH?"); [reflexivity|].
    unfold host_platform, rustc_host_target_triple, rustc_location, unwrap_or. now rewrite H.
  - exists 0. intros fuel _. unfold generate_sboms.
    rewrite (asks_rustc m o N B A "Failed to parse rustc output to determine the current platform. Please report this bug!"); [reflexivity|].
    destruct (host_platform m) as [h| | |] eqn:X.
    + apply C70_host_platform in X as (out' & O' & X). exfalso. apply (H h). congruence.
    + unfold host_platform, rustc_host_target_triple, rustc_location, unwrap_or in X. rewrite O in X. cbn [unwrap bind] in X. destruct (option_map _ _); discriminate X.
    + unfold host_platform, rustc_host_target_triple, rustc_location, unwrap_or in X. rewrite O in X. cbn [unwrap bind] in X. destruct (option_map _ _); [discriminate X|]. symmetry. exact X.
    + unfold host_platform, rustc_host_target_triple, rustc_location, unwrap_or in X. rewrite O in X. cbn [unwrap bind] in X. destruct (option_map _ _); discriminate X.
  - exists 0. intros fuel _. unfold generate_sboms. destruct (proj2 (C73_refused m o) (name_accepted o N) t T) as (cfg & ->). cbn [bind].
    now rewrite (manifest_missing m o H).
  - exists 0. intros fuel _. unfold generate_sboms. rewrite C. cbn [bind]. apply manifest_located in P. rewrite P. cbn [bind]. unfold get_metadata. now rewrite G.
  - now apply K1.
  - now apply (K2 e).
  - now apply (K2 e H E) with (z := z).
Qed.
Lemma stops_or_makes m o : cargo_is_cargo m -> (exists r, stops m o r) \/ exists gs, made m o gs.
Proof.
  intros K. destruct (name_decided o) as [N|N]; [left; exists BadFileName; now constructor|].
  assert (T : (exists r, stops m o r) \/ exists t, target_text m o t).
  { destruct (mc_build_target m) as [e|] eqn:B; [right; exists e; now constructor|].
    destruct (a_target (o_args o)) as [t|] eqn:A; [right; exists t; now constructor|].
    destruct (mc_rustc m match mc_rustc_var m with Some p => p | None => "rustc" end) as [out|] eqn:O; [|left; exists NoRustc; now constructor].
    destruct (host_platform m) as [h| | |] eqn:H.
    - apply C70_host_platform in H as (out' & O' & H). right. exists h. econstructor; eassumption.
    - left. exists NoHost. econstructor; try eassumption. intros t Ht. assert (X : host_platform m = Done t) by (apply C70_host_platform; eauto). congruence.
    - left. exists NoHost. econstructor; try eassumption. intros t Ht. assert (X : host_platform m = Done t) by (apply C70_host_platform; eauto). congruence.
    - left. exists NoHost. econstructor; try eassumption. intros t Ht. assert (X : host_platform m = Done t) by (apply C70_host_platform; eauto). congruence. }
  destruct T as [T|(t & T)]; [now left|].
  destruct (proj2 (C73_refused m o) (name_accepted o N) t T) as (cfg & C).
  destruct (locate_manifest m o) as [p| | |] eqn:L.
  2-4: left; exists NoManifest; apply (stop_manifest m o t N T); intros p P; apply manifest_located in P; congruence.
  assert (P : manifest_named m o p) by now apply manifest_located.
  destruct (mc_cargo m p (metadata_features cfg) (metadata_options cfg)) as [meta|] eqn:G; [|left; exists CargoFails; constructor; now exists cfg, p].
  destruct (K _ _ _ _ G) as (nodes & wf).
  assert (M : forall fuel, generate_sboms m fuel o = create_sboms (mc_world m) fuel meta cfg).
  { intros fuel. unfold generate_sboms, get_metadata. rewrite C. cbn [bind]. rewrite L. cbn [bind]. now rewrite G. }
  destruct (cm_members meta) as [|x l] eqn:E.
  { right. exists [], 0. rewrite M. unfold create_sboms. rewrite (wf_resolve _ _ wf). cbn [unwrap bind]. now rewrite E. }
  assert (D : something_to_do m o) by (exists meta; split; [now exists cfg, p|rewrite E; discriminate]).
  destruct (w_now (mc_world m)) as [now|] eqn:W; [|left; exists NoClock; now constructor].
  assert (U : (exists r, stops m o r) \/ usable_clock (mc_world m)).
  { destruct (w_epoch (mc_world m)) as [e|] eqn:X; [|right; split; [congruence|intros e' H; congruence]].
    destruct (parse_i64 e) as [z|] eqn:Z.
    - destruct (w_format_time (mc_world m) z) as [s|] eqn:F.
      + right. split; [congruence|]. intros e' H. assert (e' = e) by congruence. subst e'. exists z. split; [exact Z|congruence].
      + left. exists EpochOutOfRange. apply (stop_range m o e z D); [congruence|exact X|now apply C78_epoch|exact F].
    - left. exists BadEpoch. apply (stop_epoch m o e D); [congruence|exact X|]. intros z H. apply C78_epoch in H. congruence. }
  destruct U as [U|U]; [now left|right].
  destruct (run_config_resolved _ _ _ C) as (h & Rh).
  assert (Ht : cf_target cfg <> None) by (rewrite (resolved_target _ _ _ _ Rh); discriminate).
  destruct (C04_succeeds (mc_world m) meta nodes cfg wf U Ht) as (f0 & gs & _ & F). exists gs, f0. rewrite M. now apply F.
Qed.

(** A run makes its SBOMs, or there is exactly one reason why not, and this is how it ends and what it says. *)
Theorem C78_reasons m o : cargo_is_cargo m ->
  ((exists gs, made m o gs) /\ forall r, ~ stops m o r)
  \/ exists r t, stops m o r /\ (forall r', stops m o r' -> r' = r) /\ (message r = None \/ message r = Some t)
       /\ exists fuel0, forall fuel, fuel0 <= fuel -> generate_sboms m fuel o = stopped (ends_with r) t.
Proof.
  intros K. destruct (stops_or_makes m o K) as [(r & S)|(gs & G)].
  - right. exists r, (text r). destruct (stops_outcome m o r K S) as (f & F). split; [exact S|]. split; [|split; [apply text_message|eauto]].
    intros r' S'. destruct (stops_outcome m o r' K S') as (f' & F'). specialize (F (Nat.max f f') ltac:(lia)). specialize (F' (Nat.max f f') ltac:(lia)).
    rewrite F in F'. destruct r, r'; cbn in F'; congruence.
  - left. split; [eauto|]. intros r S. destruct (stops_outcome m o r K S) as (f & F). destruct G as (f' & G).
    assert (X : stopped (ends_with r) (text r) = Done gs).
    { eapply generate_unique; [exact (F f ltac:(lia))|exact G|destruct r; discriminate|discriminate]. }
    destruct r; discriminate X.
Qed.
(** Such a run leaves the disk as it was *)
Theorem C78_ends m o d r : cargo_is_cargo m -> stops m o r ->
  run m o d (Ended (ends_with r) d) /\ forall s, run m o d s -> s = Ended (ends_with r) d.
Proof.
  intros K S. destruct (stops_outcome m o r K S) as (f & F). specialize (F f ltac:(lia)). split.
  - exists (Ended (ends_with r) d). split; [|constructor]. destruct r; cbn in *; first [eapply starts_failing; exact F|eapply starts_panicking; exact F].
  - intros s (s0 & H0 & H). destruct H0 as [fuel gs G|fuel e G|fuel e G].
    + assert (X : stopped (ends_with r) (text r) = Done gs) by (eapply generate_unique; [exact F|exact G|destruct r; discriminate|discriminate]). destruct r; discriminate X.
    + assert (X : stopped (ends_with r) (text r) = Fail e) by (eapply generate_unique; [exact F|exact G|destruct r; discriminate|discriminate]).
      apply ended_stays in H. subst s. destruct r; try discriminate X; reflexivity.
    + assert (X : stopped (ends_with r) (text r) = Panic e) by (eapply generate_unique; [exact F|exact G|destruct r; discriminate|discriminate]).
      apply ended_stays in H. subst s. destruct r; try discriminate X; reflexivity.
Qed.

(** Runs that stop: where SOURCE_DATE_EPOCH is no number, and where rustc is not there *)
Definition epoch_machine (e : string) : machine := {|
  mc_world := mkWorld (w_uri_ok ex_world) (w_spdx_strict ex_world) (w_spdx_lax ex_world) (w_email_ok ex_world) (w_purl ex_world)
    (w_read_file ex_world) (w_absolute ex_world) (w_is_file ex_world) (w_lockfile ex_world) (w_uuid ex_world) (Some "now") (Some e)
    (fun z => if (z <? 253402300800)%Z then Some "then" else None) (w_tool_version ex_world);
  mc_rustc_var := None; mc_rustc := mc_rustc (ex_machine true); mc_build_target := None; mc_absolute := fun _ => None; mc_cwd := Some ["w"];
  mc_cargo := mc_cargo (ex_machine true); mc_debug := true; mc_parsers := mc_parsers (ex_machine true); mc_floats := mc_floats (ex_machine true);
  mc_json_text := mc_json_text (ex_machine true); mc_xml_text := mc_xml_text (ex_machine true); mc_disk_ok := fun _ => true |}.
Lemma ex_cargo : cargo_is_cargo (ex_machine true).
Proof. intros p fs os meta H. cbn in H. destruct (path_eqb _ _); [|discriminate H]. injection H as <-. exists ex_nodes. exact ex_wf. Qed.
Example C78_case :
  (cargo_is_cargo (epoch_machine "yesterday") /\ stops (epoch_machine "yesterday") (ex_options DBinaries) BadEpoch)
  /\ stops (epoch_machine "+0253402300800") (ex_options DBinaries) EpochOutOfRange
  /\ (cargo_is_cargo (with_rustc (ex_machine true) (Some "my-rustc") (mc_rustc (ex_machine true)))
      /\ stops (with_rustc (ex_machine true) (Some "my-rustc") (mc_rustc (ex_machine true))) (ex_options DBinaries) NoRustc)
  /\ ~ exists r, stops (ex_machine true) (ex_options DBinaries) r.
Proof.
  assert (D : forall e, something_to_do (epoch_machine e) (ex_options DBinaries)).
  { intros e. exists ex_meta. split; [|discriminate]. destruct C69_case as (cfg & _ & C & L & G & _). exists cfg, ["w"; "Cargo.toml"].
    split; [exact C|]. split; [|exact G]. apply manifest_located. exact L. }
  split; [split; [exact ex_cargo|]|split; [|split; [split; [exact ex_cargo|]|]]].
  - apply (stop_epoch _ _ "yesterday" (D _)); [discriminate|reflexivity|]. intros z H. apply C78_epoch in H. discriminate H.
  - apply (stop_range _ _ "+0253402300800" 253402300800 (D _)); [discriminate|reflexivity| |reflexivity]. apply C78_epoch. reflexivity.
  - apply stop_rustc; try reflexivity. intros (n & a & b & E & _). discriminate E.
  - intros (r & S). destruct (C78_reasons _ (ex_options DBinaries) ex_cargo) as [[_ N]|(r' & t & _ & _ & _ & f & F)]; [exact (N r S)|].
    destruct C70_case as (_ & gs & f' & G).
    assert (X : stopped (ends_with r') t = Done gs) by (eapply generate_unique; [exact (F f ltac:(lia))|exact G|destruct r'; discriminate|discriminate]).
    destruct r'; discriminate X.
Qed.
Print Assumptions C78_reasons.
Print Assumptions C78_ends.

(** ** C73: each option of the command line does what it says *)
From Verif Require Import Base Strings ModelTypes ConfigModel GenModel GenSpec GenExample GenProofs GenProofs2 GenProofs3
  GenProofs5 GenProofs6 GenProofs7 GenProofs8 GenProps RunModel RunSpec RunProofs RunProps OptionSpec.
Open Scope string_scope.
Open Scope list_scope.

(** The settings that the other properties speak of *)
Theorem C73_settings m o cfg : run_config m o = Done cfg -> let a := o_args o in
  chosen_format cfg = asked_format a
  /\ cf_spec cfg = a_spec_version a /\ cf_describe cfg = a_describe a
  /\ included_of cfg = (if a_top_level a && negb (a_all a) then TopLevelDependencies else AllDependencies)
  /\ cf_only_normal cfg = Some (a_no_build_deps a)
  /\ cf_license cfg = Some (mkLP (if a_license_strict a then Strict else Lax) (a_license_accept_named a))
  /\ custom_name cfg = a_filename_override a /\ suffix_requested cfg = a_target_in_filename a
  /\ exists t, target_text m o t /\ (cf_target cfg = Some (SingleTarget t) \/ (t = "all" /\ cf_target cfg = Some AllTargets)).
Proof.
  intros H. cbn zeta. pose proof (C70_target _ _ _ H) as T.
  assert (X : exists t, target_text m o t /\ (cf_target cfg = Some (SingleTarget t) \/ (t = "all" /\ cf_target cfg = Some AllTargets))).
  { destruct (mc_build_target m) as [e|] eqn:B; [exists e; split; [now apply tt_environment|now left]|].
    destruct (a_target (o_args o)) as [t|] eqn:A.
    - exists t. split; [now apply tt_option|]. destruct (String.eqb_spec t "all") as [->|N]; auto.
    - destruct T as (out & h & T1 & T2 & T3). exists h. split; [eapply tt_host; eauto|now left]. }
  destruct (run_config_resolved _ _ _ H) as (h & R).
  pose proof (proj1 (resolved_output _ _ _ _ R)) as O.
  assert (Z : exists merged, cf_format cfg = cf_format merged /\ cf_spec cfg = cf_spec merged /\ cf_describe cfg = cf_describe merged
     /\ cf_included cfg = cf_included merged /\ cf_only_normal cfg = cf_only_normal merged /\ cf_license cfg = cf_license merged
     /\ cf_output cfg = cf_output merged /\ exists c, as_config (o_args o) = Done c /\ merged = merge c (from_env (mc_build_target m))).
  { unfold resolve_config in R. inv_bind R. exists (merge v (from_env (mc_build_target m))).
    destruct (cf_target (merge v _)); injection R as <-; repeat (split; [reflexivity|]); eauto. }
  destruct Z as (mg & Z1 & Z2 & Z3 & Z4 & Z5 & Z6 & Z7 & c & C & ->).
  unfold as_config in C. inv_bind C. injection C as <-. set (a := o_args o) in *.
  assert (W : forall t, from_env t = mkConfig None None None None (cf_target (from_env t)) None None None None) by (now intros [t|]).
  rewrite W in Z1, Z2, Z3, Z4, Z5, Z6, Z7. cbn in Z1, Z2, Z3, Z4, Z5, Z6, Z7.
  unfold chosen_format, asked_format, included_of, suffix_requested. rewrite Z1, Z2, Z3, Z4, Z5, Z6, Z7.
  repeat (split; [first [reflexivity|assumption|now destruct (a_all a), (a_top_level a)|now destruct (a_target_in_filename a)]|]).
  exact X.
Qed.

Section RUN.
  Variables (m : machine) (o : options) (cfg : config) (manifest : path) (meta : cargo_metadata) (nodes : list node).
  Hypothesis clap : clap_accepts (o_args o).
  Hypothesis configured : run_config m o = Done cfg.
  Hypothesis located : locate_manifest m o = Done manifest.
  Hypothesis cargo : mc_cargo m manifest (metadata_features cfg) (metadata_options cfg) = Some meta.
  Hypothesis wf : well_formed meta nodes.

  (** The files a run writes: their names, format and version *)
  Theorem C73_files gs : made m o gs -> exists target, target_text m o target
    /\ Forall2 (fun id g => exists p files, In p (cm_packages meta) /\ pk_id p = id /\ write_plan g = Done files
         /\ files_of (o_args o) target p files
         /\ Forall (fun f => f_format f = asked_format (o_args o) /\ f_version f = asked_version (o_args o)) files) (cm_members meta) gs.
  Proof.
    intros M0. pose proof M0 as [fuel M]. destruct (C73_settings _ _ _ configured) as (S1 & S2 & S3 & _ & _ & _ & S7 & S8 & t & T1 & T2).
    exists t. split; [exact T1|]. rewrite (generates m o cfg manifest meta configured located cargo) in M.
    assert (Hall : forall id g, In (id, g) (combine (cm_members meta) gs) -> sbom_of (mc_world m) fuel meta cfg id g)
      by (intros id g H; now exists gs).
    assert (L : List.length (cm_members meta) = List.length gs) by (symmetry; eapply made_length; eauto).
    assert (P : forall id g, sbom_of (mc_world m) fuel meta cfg id g -> exists p files, In p (cm_packages meta) /\ pk_id p = id /\ write_plan g = Done files
         /\ files_of (o_args o) t p files
         /\ Forall (fun f => f_format f = asked_format (o_args o) /\ f_version f = asked_version (o_args o)) files).
    { clear Hall L M. intros id g G. apply (sbom_of_ok _ _ _ nodes) in G; auto.
      assert (Ht : cf_target cfg <> None) by (destruct T2 as [->|[_ ->]]; discriminate).
      assert (Pl : platform_part cfg = if a_target_in_filename (o_args o) then ("_" ++ t)%string else "").
      { unfold platform_part. unfold suffix_requested in S8. destruct (cf_output cfg) as [[x []]|]; rewrite <- S8; auto.
        destruct T2 as [->|[-> ->]]; reflexivity. }
      destruct clap as [Cl _].
      assert (Case : describe_of cfg = DCrate \/ describe_of cfg <> DCrate) by (destruct (describe_of cfg); auto; right; discriminate).
      destruct Case as [Hc|Hc].
      - destruct (crate_plan _ _ _ _ _ _ wf _ _ G Hc Ht) as (p & Hp & Hid & Hw). exists p. eexists.
        split; [exact Hp|]. split; [exact Hid|]. split; [exact Hw|]. split.
        + assert (E : a_describe (o_args o) = None \/ a_describe (o_args o) = Some DCrate).
          { unfold describe_of in Hc. rewrite S3 in Hc. destruct (a_describe (o_args o)); cbn in Hc; subst; auto. }
          unfold files_of. cbn [map f_path]. unfold crate_file_name, file_named. rewrite Pl, S7, S8, S1.
          assert (F : [removelast (pk_manifest p) ++ [match a_filename_override (o_args o) with
              | Some n => (n ++ (if a_target_in_filename (o_args o) then "_" ++ t else "") ++ (if a_target_in_filename (o_args o) then ".cdx" else "") ++ extension (asked_format (o_args o)))%string
              | None => (pk_name p ++ (if a_target_in_filename (o_args o) then "_" ++ t else "") ++ ".cdx" ++ extension (asked_format (o_args o)))%string end]] =
             [removelast (pk_manifest p) ++ [(match a_filename_override (o_args o) with Some n => n | None => pk_name p end ++
               (if a_target_in_filename (o_args o) then "_" ++ t else "") ++
               match a_filename_override (o_args o), a_target_in_filename (o_args o) with Some _, false => "" | _, _ => ".cdx" end ++
               match asked_format (o_args o) with FJson => ".json" | FXml => ".xml" end)%string]]).
          { destruct (a_filename_override (o_args o)), (a_target_in_filename (o_args o)); reflexivity. }
          destruct E as [->| ->]; exact F.
        + repeat constructor; cbn [f_format f_version]; auto. unfold asked_version. now rewrite <- S2.
      - assert (En : custom_name cfg = None).
        { rewrite S7. destruct Cl as [H|H]; auto. exfalso. apply Hc. unfold describe_of. now rewrite S3, H. }
        destruct (artifact_plan _ _ _ _ _ _ wf _ _ G Hc Ht En) as (p & sel & files & Hp & Hid & S & Hw & F).
        exists p, files. repeat (split; [assumption|]). split.
        + assert (D : exists d, a_describe (o_args o) = Some d /\ d <> DCrate /\ describe_of cfg = d).
          { unfold describe_of in *. rewrite S3 in *. destruct (a_describe (o_args o)); cbn in *; [eauto|congruence]. }
          destruct D as (d & D1 & D2 & D3). rewrite D3 in S.
          assert (X : exists sel0, sublist_of (fun t => described_target t /\ wants_artifact d t) (pk_targets p) sel0
            /\ map f_path files = map (fun t0 => removelast (pk_manifest p)
             ++ [file_named (o_args o) t (normalize (tg_name t0) ++ "_" ++ join "-" (tg_kind t0))]) sel0).
          { exists sel. split; [exact S|]. rewrite S7 in En. clear - F Pl En S1. induction F as [|t0 f sel files (A & _) F IH]; cbn; [reflexivity|].
            rewrite IH, A. unfold artifact_name, file_named. rewrite Pl, S1, En, !append_assoc. destruct (a_target_in_filename (o_args o)); reflexivity. }
          unfold files_of. rewrite D1. destruct d; [congruence|exact X|exact X].
        + clear - F S1 S2. induction F as [|t0 f sel files (_ & A & B & _) F IH]; constructor; auto. split; [congruence|].
          unfold asked_version. now rewrite <- S2. }
    clear - Hall L P. revert L Hall. generalize (cm_members meta) as ids. intros ids. revert gs.
    induction ids as [|id ids IH]; intros [|g gs] L Hall; try discriminate L; constructor.
    - apply P, Hall. now left.
    - apply IH; [now injection L|]. intros i g' H. apply Hall. now right.
  Qed.
End RUN.

(** Which options are refused (after the command line parser): a file name with a directory in it; and without a target
    the run panics if rustc does not tell the host *)
Theorem C73_refused m o :
  (forall n, a_filename_override (o_args o) = Some n -> contains_char "/" n = true -> exists e, run_config m o = Fail e)
  /\ ((forall n, a_filename_override (o_args o) = Some n -> contains_char "/" n = false) -> forall t, target_text m o t ->
      exists cfg, run_config m o = Done cfg).
Proof.
  split.
  - intros n E C. unfold run_config, as_config. rewrite E. unfold filename_override. rewrite C. cbn [bind]. eauto.
  - intros N t T.
    assert (C : exists c, as_config (o_args o) = Done c).
    { unfold as_config. destruct (a_filename_override (o_args o)) as [n|]; cbn [bind]; [|eauto]. unfold filename_override. rewrite (N n eq_refl). cbn [bind]. eauto. }
    destruct C as (c & C). unfold run_config. rewrite C. cbn [bind].
    assert (R : forall h, exists cfg, resolve_config (o_args o) (mc_build_target m) h = Done cfg)
      by (intros h; unfold resolve_config; rewrite C; cbn [bind]; eauto).
    destruct (cf_target (merge c (from_env (mc_build_target m)))) eqn:G; [apply R|].
    assert (Ct : cf_target c = option_map (fun s => if String.eqb s "all" then AllTargets else SingleTarget s) (a_target (o_args o))).
    { unfold as_config in C. apply bind_done in C. destruct C as (pt & _ & C). injection C as <-. reflexivity. }
    destruct T as [e B|t B A|out h B A O H].
    + rewrite B in G. discriminate G.
    + rewrite B in G. cbn in G. rewrite Ct, A in G. discriminate G.
    + assert (X : host_platform m = Done h) by (apply C70_host_platform; eauto). rewrite X. cbn [bind]. apply R.
Qed.

Example C73_case : exists cfg gs, clap_accepts (o_args (ex_options DBinaries)) /\ run_config (ex_machine true) (ex_options DBinaries) = Done cfg
  /\ locate_manifest (ex_machine true) (ex_options DBinaries) = Done ["w"; "Cargo.toml"]
  /\ mc_cargo (ex_machine true) ["w"; "Cargo.toml"] (metadata_features cfg) (metadata_options cfg) = Some ex_meta
  /\ well_formed ex_meta ex_nodes /\ made (ex_machine true) (ex_options DBinaries) gs
  /\ map f_path (announced gs) = [["w"; "app"; "one_bin.cdx.json"]; ["w"; "app"; "two_bin.cdx.json"]].
Proof.
  destruct C69_case as (cfg & A & B & C & D & _). exists cfg. pose proof ex_wf as W.
  destruct (generate_sboms (ex_machine true) 100 (ex_options DBinaries)) as [gs| | |] eqn:G; [|vm_compute in G; discriminate G ..].
  exists gs. repeat (split; [assumption|]). split; [now exists 100|]. vm_compute in G. injection G as <-. vm_compute. reflexivity.
Qed.
Print Assumptions C73_settings.
Print Assumptions C73_files.
Print Assumptions C73_refused.

(** The values of the options, read (format.rs:45-55, config.rs:106-116) and shown as the end of file names *)
Theorem C73_values s :
  (forall f, format_of_str s = Some f <-> match f with FJson => s = "json" | FXml => s = "xml" end)
  /\ (forall f, format_str f = s <-> format_of_str s = Some f)
  /\ (forall i, included_of_str s = Some i <-> match i with AllDependencies => s = "all" | TopLevelDependencies => s = "top-level" end).
Proof.
  assert (F : forall f, format_of_str s = Some f <-> match f with FJson => s = "json" | FXml => s = "xml" end).
  { unfold format_of_str. intros f. destruct (String.eqb_spec s "xml"); [|destruct (String.eqb_spec s "json")]; destruct f; split; congruence. }
  split; [exact F|]. split; [intros f; rewrite F; destruct f; cbn; split; congruence|].
  unfold included_of_str. intros i. destruct (String.eqb_spec s "all"); [|destruct (String.eqb_spec s "top-level")]; destruct i; split; congruence.
Qed.
Print Assumptions C73_values.

(** C82: what an invocation of the command does to the disk, said of the words of the command line. *)
From Verif Require Import Base Strings ModelTypes ConfigModel GenModel GenSpec GenExample GenProps ValModel ValSpec RunModel RunSpec RunProofs RunProps
  OptionSpec OptionProps StopSpec CliModel CliSpec CliProofs CliProps InvokeModel InvokeSpec.
Open Scope string_scope.
Open Scope list_scope.

Lemma asked_clap argv o : asked argv o -> clap_accepts (o_args o).
Proof. intros H. apply (C80_accepted o). exists argv. now apply C80_command_line. Qed.
Lemma made_workspace m o gs : made m o gs -> exists meta, workspace m o meta.
Proof.
  intros [fuel H]. unfold generate_sboms in H. apply bind_done in H as (cfg & C & H). apply bind_done in H as (man & L & H).
  apply bind_done in H as (meta & G & H). unfold get_metadata in G. exists meta, cfg, man. repeat (split; [assumption|]).
  destruct (mc_cargo _ _ _ _); [congruence|discriminate].
Qed.
Lemma sublist_in {A} (P : A -> Prop) l sel x : sublist_of P l sel -> In x sel -> In x l /\ P x.
Proof. intros S. induction S; cbn; intuition subst; auto. Qed.

(** Words that ask for nothing the command knows: no run, nothing changes *)
Theorem C82_no_run m argv d s : invocation m argv d s -> (forall o, ~ asked argv o) -> exists r, s = Ended r d /\ r <> Panicked.
Proof.
  intros [o s' C _|r _ [-> | ->]] N.
  - exfalso. apply (N o). now apply C80_command_line.
  - now exists Succeeded.
  - now exists Failed.
Qed.

(** The files that a run announces are SBOMs of packages of its workspace *)
Lemma announced_paths m argv o gs f : cargo_is_cargo m -> asked argv o -> made m o gs -> In f (announced gs) -> sbom_path m o (f_path f).
Proof.
  intros K C M F. remember (f_path f) as q eqn:P. symmetry in P.
  destruct (made_workspace m o gs M) as (meta & cfg & man & X & L & G). destruct (K _ _ _ _ G) as (nodes & W).
  destruct (C73_files m o cfg man meta nodes (asked_clap _ _ C) X L G W gs M) as (target & T & A).
  apply announced_in in F as (g & fs & Hg & Wp & Hf).
  assert (B : exists p files, In p (cm_packages meta) /\ In (pk_id p) (cm_members meta) /\ write_plan g = Done files /\ files_of (o_args o) target p files).
  { clear - A Hg. induction A as [|id g' ids gs (p & files & A1 & A2 & A3 & A4 & _) _ IH]; [destruct Hg|].
    destruct Hg as [->|Hg].
    - exists p, files. split; [exact A1|]. split; [rewrite A2; now left|auto].
    - destruct (IH Hg) as (p' & files' & B1 & B2 & B3). exists p', files'. split; [exact B1|]. split; [now right|exact B3]. }
  destruct B as (p & files & B1 & B2 & B3 & B4). rewrite Wp in B3. injection B3 as <-.
  apply (in_map f_path) in Hf. rewrite P in Hf. unfold files_of in B4.
  exists target, meta, p. unfold stem_of.
  assert (Z : forall d0, (exists sel, sublist_of (fun t => described_target t /\ wants_artifact d0 t) (pk_targets p) sel
      /\ map f_path fs = map (fun t => removelast (pk_manifest p) ++ [file_named (o_args o) target (normalize (tg_name t) ++ "_" ++ join "-" (tg_kind t))]) sel) ->
      exists stem, (exists t, In t (pk_targets p) /\ described_target t /\ wants_artifact d0 t /\ stem = (normalize (tg_name t) ++ "_" ++ join "-" (tg_kind t))%string)
        /\ q = removelast (pk_manifest p) ++ [file_named (o_args o) target stem]).
  { intros d0 (sel & S1 & S2). rewrite S2 in Hf. apply in_map_iff in Hf as (t & <- & It). destruct (sublist_in _ _ _ _ S1 It) as (T1 & T2 & T3).
    eexists. split; [exists t; eauto|reflexivity]. }
  assert (Y : workspace m o meta) by (exists cfg, man; auto).
  destruct (a_describe (o_args o)) as [[]|].
  1, 4: rewrite B4 in Hf; destruct Hf as [<-|[]]; eexists; repeat (split; [eassumption|]); split; reflexivity.
  all: destruct (Z _ B4) as (stem & Z1 & Z2); exists stem; repeat (split; [assumption|]); assumption.
Qed.

(** At whatever point an invocation is interrupted, a file that has changed is an SBOM of a package of the workspace, named as the
    words ask *)
Theorem C82_touched m argv d s q : cargo_is_cargo m -> invocation m argv d s -> disk_of s q <> d q -> exists o, asked argv o /\ sbom_path m o q.
Proof.
  intros K [o s' C R|r _ _] N; [|now cbn in N]. apply C80_command_line in C. exists o. split; [exact C|].
  destruct (C69_only_announced_files m o d s' q R N) as (gs & f & c & M & F & <- & _). now apply (announced_paths m argv o gs f).
Qed.

(** So only files whose names end in ".xml" or, for JSON, in ".json" change: manifests, lock files and sources stay as they are *)
Theorem C82_others_stay m argv d s q : cargo_is_cargo m -> invocation m argv d s ->
  (forall dir n, q <> dir ++ [(n ++ ".xml")%string]) -> (forall dir n, q <> dir ++ [(n ++ ".json")%string]) -> disk_of s q = d q.
Proof.
  intros K I X J. assert (D : disk_of s q = d q \/ disk_of s q <> d q).
  { destruct (disk_of s q) as [a|], (d q) as [b|]; try (right; discriminate); [|now left]. destruct (string_dec a b) as [->|N]; [now left|right; congruence]. }
  destruct D as [D|D]; [exact D|]. destruct (C82_touched _ _ _ _ _ K I D) as (o & _ & target & meta & p & stem & _ & _ & _ & _ & _ & ->).
  exfalso. set (a := o_args o) in *.
  set (x := (stem ++ (if a_target_in_filename a then "_" ++ target else "") ++ match a_filename_override a, a_target_in_filename a with Some _, false => "" | _, _ => ".cdx" end)%string).
  assert (E : file_named a target stem = (x ++ match asked_format a with FJson => ".json" | FXml => ".xml" end)%string) by (unfold file_named, x; now rewrite !append_assoc).
  rewrite E in X, J. destruct (asked_format a); [now apply (J (removelast (pk_manifest p)) x)|now apply (X (removelast (pk_manifest p)) x)].
Qed.

(** When the command reports success after words that ask for something, all files are there, each with its SBOM, and nothing else has changed *)
Theorem C82_success m argv o d d' meta : cargo_is_cargo m -> asked argv o -> workspace m o meta ->
  distinct_targets meta -> NoDup (cm_members meta) -> directories_differ meta -> invocation m argv d (Ended Succeeded d') ->
  exists target gs, target_text m o target /\ made m o gs
    /\ Forall2 (fun id g => exists p files, In p (cm_packages meta) /\ pk_id p = id /\ write_plan g = Done files
         /\ files_of (o_args o) target p files
         /\ forall f, In f files -> f_format f = asked_format (o_args o) /\ f_version f = asked_version (o_args o)
              /\ exists t, file_text m f = Done t /\ d' (f_path f) = Some t) (cm_members meta) gs
    /\ forall q, (forall g files f, In g gs -> write_plan g = Done files -> In f files -> f_path f <> q) -> d' q = d q.
Proof.
  intros K A (cfg & man & X & L & G) D N DD I. pose proof (asked_clap _ _ A) as Cl. apply C80_command_line in A.
  assert (R : run m o d (Ended Succeeded d')) by (inversion I as [o' s C R E|r C _ E]; congruence).
  destruct (K _ _ _ _ G) as (nodes & W).
  destruct (C69_each_file m o cfg man meta nodes Cl X L G W D d d' N DD R) as (gs & M & _ & _ & T & U).
  destruct (C73_files m o cfg man meta nodes Cl X L G W gs M) as (target & TT & F).
  exists target, gs. split; [exact TT|]. split; [exact M|]. split.
  - assert (T' : forall g files f, In g gs -> write_plan g = Done files -> In f files -> exists t, file_text m f = Done t /\ d' (f_path f) = Some t).
    { intros g files f Hg Wp Hf. apply T. unfold announced. apply in_flat_map. exists g. now rewrite Wp. }
    clear - F T'. revert T'. induction F as [|id g ids gs (p & files & F1 & F2 & F3 & F4 & F5) F IH]; intros T'; constructor.
    + exists p, files. repeat (split; [assumption|]). intros f Hf. rewrite Forall_forall in F5. destruct (F5 f Hf). repeat (split; [assumption|]).
      apply (T' g files); auto. now left.
    + apply IH. intros g' files' f' Hg'. apply T'. now right.
  - intros q Q. apply U. intros I'. apply in_map_iff in I' as (f & E & If). apply announced_in in If as (g & fs & Hg & Wp & Hf). now apply (Q g fs f).
Qed.

(** How much is reported, and how and in which order the options are written, does not matter for the disk *)
Theorem C82_same_effect m argv argv' o o' d s : asked argv o -> asked argv' o' -> same_but_loudness o o' -> invocation m argv d s -> invocation m argv' d s.
Proof.
  intros A A' [S1 S2] I. apply C80_command_line in A, A'.
  assert (G : forall fuel, generate_sboms m fuel o' = generate_sboms m fuel o) by (intros fuel; unfold generate_sboms, run_config, locate_manifest; now rewrite S1, S2).
  destruct I as [o1 s C (s0 & S & Ss)|r C _]; [|congruence]. assert (o1 = o) as -> by congruence. apply (invoked m argv' d o' s A'). exists s0. split; [|exact Ss].
  destruct S as [fuel gs E|fuel e E|fuel e E]; rewrite <- G in E; econstructor; exact E.
Qed.

(** Every invocation starts, and ends *)
Theorem C82_ends m argv d : (exists s, invocation m argv d s) /\ forall s, invocation m argv d s ->
  Acc (fun t s => step m s t) s /\ ((exists r d', s = Ended r d') \/ exists t, step m s t /\ invocation m argv d t).
Proof.
  split.
  - destruct (command_line argv) as [o|] eqn:C.
    + destruct (C69_starts m o d) as (s & S). exists s. apply (invoked m argv d o s C). exists s. split; [exact S|constructor].
    + exists (Ended Failed d). apply not_run; auto.
  - intros s [o s' C R|r C _].
    + destruct (C69_ends _ _ _ _ R) as [H [E|(t & T)]]; split; auto. right. exists t. split; [exact T|]. apply (invoked m argv d o t C).
      destruct R as (s0 & S & Ss). exists s0. split; [exact S|]. eapply steps_next; eauto.
    + split; [constructor; intros t T; inversion T|left; eauto].
Qed.

(** Under good conditions (those of C69) an invocation whose words ask for something can only end with success *)
Theorem C82_succeeds m argv o d s meta : cargo_is_cargo m -> asked argv o -> workspace m o meta -> distinct_targets meta ->
  usable_clock (mc_world m) -> (forall p, mc_disk_ok m p = true) -> validation_agrees m meta ->
  invocation m argv d s -> (exists d', s = Ended Succeeded d') \/ exists t, step m s t /\ invocation m argv d t.
Proof.
  intros K A (cfg & man & X & L & G) D U F V I. pose proof (asked_clap _ _ A) as Cl. apply C80_command_line in A.
  destruct (K _ _ _ _ G) as (nodes & W).
  assert (R : run m o d s) by (inversion I as [o' s' C R E|r C _ E]; congruence).
  destruct (C69_succeeds m o cfg man meta nodes Cl X L G W D d s U F V R) as [S|(t & T)]; [now left|]. right. exists t. split; [exact T|].
  apply (invoked m argv d o t A). destruct R as (s0 & S & Ss). exists s0. split; [exact S|]. eapply steps_next; eauto.
Qed.
(** With SOURCE_DATE_EPOCH the same words on the same disk give the same disk, whatever the time and the random numbers *)
Theorem C82_reproducible m argv d now uuid now' uuid' d1 d2 epoch : w_epoch (mc_world m) = Some epoch ->
  invocation (at_another_time m now uuid) argv d (Ended Succeeded d1) -> invocation (at_another_time m now' uuid') argv d (Ended Succeeded d2) ->
  forall q, d1 q = d2 q.
Proof.
  intros E I1 I2. inversion I1 as [o1 s1 C1 R1 E1|r1 C1 _ E1]; inversion I2 as [o2 s2 C2 R2 E2|r2 C2 _ E2]; try congruence.
  assert (o2 = o1) as -> by congruence. eapply C69_reproducible; eauto.
Qed.

(** The hypotheses are met, and files are written: the run of C69, typed in two ways; one of them prints more *)
Definition ex_words : list string := ["cargo-cyclonedx"; "cyclonedx"; "-fjson"; "--describe"; "binaries"; "--all-features"; "-F"; "x,y"; "--spec-version=1.4"].
Definition ex_words' : list string := ["cargo-cyclonedx"; "cyclonedx"; "-vvv"; "--spec-version"; "1.4"; "--describe=binaries"; "-vf=json"; "--features=x,y"; "--all-features"; "--"].
Example C82_case : cargo_is_cargo (ex_machine true) /\ asked ex_words (ex_options DBinaries) /\ (exists o', asked ex_words' o' /\ same_but_loudness (ex_options DBinaries) o')
  /\ workspace (ex_machine true) (ex_options DBinaries) ex_meta /\ distinct_targets ex_meta /\ NoDup (cm_members ex_meta) /\ directories_differ ex_meta
  /\ usable_clock (mc_world (ex_machine true)) /\ validation_agrees (ex_machine true) ex_meta
  /\ exists d', invocation (ex_machine true) ex_words ex_disk (Ended Succeeded d')
       /\ d' ["w"; "app"; "one_bin.cdx.json"] = Some "CycloneDX" /\ d' ["w"; "app"; "two_bin.cdx.json"] = Some "CycloneDX".
Proof.
  split. { intros p fs os meta H. cbn in H. destruct (path_eqb p _); [|discriminate H]. injection H as <-. exists ex_nodes. exact ex_wf. }
  assert (A : command_line ex_words = Some (ex_options DBinaries)) by (vm_compute; reflexivity).
  split; [now apply C80_command_line|].
  split. { exists (mkOptions (run_args_ex DBinaries) None 4 0). split; [apply C80_command_line; vm_compute; reflexivity|split; reflexivity]. }
  destruct C69_case as (cfg & _ & B & C & D & _ & _ & _ & T & U & V & N & DD).
  split; [now exists cfg, ["w"; "Cargo.toml"]|]. repeat (split; [assumption|]).
  destruct C69_run as (d' & R & R1 & R2 & _). exists d'. split; [now apply (invoked _ _ _ _ _ A)|auto].
Qed.
Example C82_case_no_run : invocation (ex_machine true) ["cargo-cyclonedx"; "cyclonedx"; "--format=yaml"] ex_disk (Ended Failed ex_disk)
  /\ forall o, ~ asked ["cargo-cyclonedx"; "cyclonedx"; "--format=yaml"] o.
Proof. split; [apply not_run; auto|intros o H; apply C80_command_line in H; vm_compute in H; discriminate H]. Qed.
Print Assumptions C82_no_run.
Print Assumptions C82_touched.
Print Assumptions C82_others_stay.
Print Assumptions C82_success.
Print Assumptions C82_same_effect.
Print Assumptions C82_ends.
Print Assumptions C82_succeeds.
Print Assumptions C82_reproducible.

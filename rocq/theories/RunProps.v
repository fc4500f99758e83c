(** C69: what a run of the command does to the disk; C70: what it asks cargo and rustc for *)
From Verif Require Import Base Strings ModelTypes ConfigModel GenModel GenSpec GenExample GenProofs6 GenProofs8 GenProps
  Json JsonLemmas JsonModel JsonSpec JsonProps ValModel ValSpec GenValProofs GenValProps
  Xml XmlModel XmlSpec XmlProofs3 XmlProps GenReadSpec GenRead GenReadProps RunModel RunSpec RunProofs.
Open Scope string_scope.
Open Scope list_scope.

(** ** C69 *)
(** At every point of a run (so whenever it is interrupted, too) the first files are complete, one file may be there
    in part, and nothing else has changed; and if nothing was made, nothing has changed. *)
Theorem C69_at_every_point m o d s : run m o d s ->
  (exists gs past rest, made m o gs /\ announced gs = past ++ rest
     /\ (finished m d past (disk_of s)
         \/ exists f rest' d1 c, rest = f :: rest' /\ finished m d past d1 /\ begun m f c
              /\ disk_of s (f_path f) = Some c /\ forall q, q <> f_path f -> disk_of s q = d1 q))
  \/ (nothing_made m o /\ disk_of s = d /\ (s = Ended Failed d \/ s = Ended Panicked d)).
Proof.
  intros (s0 & H0 & H). destruct H0 as [fuel gs G|fuel e G|fuel e G].
  - left. exists gs. pose proof (place_steps m gs d _ _ H (place_start m gs d)) as P.
    assert (M : made m o gs) by now exists fuel. destruct s; cbn [place disk_of] in *.
    + destruct P as (past & A & F & _). exists past. eexists. split; [exact M|]. split; [exact A|now left].
    + destruct P as (past & A & F & _). exists past. eexists. split; [exact M|]. split; [exact A|now left].
    + destruct P as (past & d1 & c & A & F & D & T & _). exists past. eexists. split; [exact M|]. split; [exact A|right].
      exists f. do 3 eexists. split; [reflexivity|]. split; [exact F|]. split; [|split; [rewrite D; apply put_same|intros q Q; rewrite D; now apply put_other]].
      destruct rest; [right; eauto|destruct T as [_ ->]; now left ..].
    + destruct P as (past & rest & A & [F|(f & rest' & d1 & c & E & F & B & D)] & _); exists past, rest; (split; [exact M|]; split; [exact A|]).
      * now left.
      * right. exists f, rest', d1, c. repeat (split; [assumption|]). split; [rewrite D; apply put_same|intros q Q; rewrite D; now apply put_other].
  - right. apply ended_stays in H. subst s. split; [exists fuel; intros gs; rewrite G; split; discriminate|]. split; [reflexivity|now left].
  - right. apply ended_stays in H. subst s. split; [exists fuel; intros gs; rewrite G; split; discriminate|]. split; [reflexivity|now right].
Qed.

(** So a file is touched only if it is one of those announced, and then it has the beginning of the text meant for it. *)
Lemma last_of (l : list output_file) q : In q (map f_path l) -> exists b f a, l = b ++ f :: a /\ f_path f = q /\ forall f', In f' a -> f_path f' <> q.
Proof.
  induction l as [|x l IH]; [intros []|]. cbn [map]. intros H.
  destruct (in_dec (list_eq_dec string_dec) q (map f_path l)) as [I|I].
  - destruct (IH I) as (b & f & a & -> & F & L). exists (x :: b), f, a. auto.
  - destruct H as [H|H]; [|contradiction]. exists [], x, l. split; [reflexivity|]. split; [exact H|]. intros f' Hf' <-. apply I. now apply in_map.
Qed.
Theorem C69_only_announced_files m o d s q : run m o d s -> disk_of s q <> d q ->
  exists gs f c, made m o gs /\ In f (announced gs) /\ f_path f = q /\ disk_of s q = Some c /\ begun m f c.
Proof.
  intros R N. destruct (C69_at_every_point _ _ _ _ R) as [(gs & past & rest & M & A & F)|(_ & E & _)]; [|rewrite E in N; contradiction].
  assert (P : forall d1, finished m d past d1 -> d1 q <> d q -> exists f t, In f past /\ f_path f = q /\ file_text m f = Done t /\ d1 q = Some t).
  { intros d1 [F1 F2] N1. destruct (in_dec (list_eq_dec string_dec) q (map f_path past)) as [I|I].
    - apply last_of in I. destruct I as (b & f & a & E & Q & L). destruct (F1 b f a E) as (t & T & D); [now rewrite Q|].
      exists f, t. rewrite <- Q. rewrite E. split; [apply in_or_app; right; now left|auto].
    - exfalso. apply N1, F2. intros f Hf <-. apply I. now apply in_map. }
  exists gs. destruct F as [F|(f & rest' & d1 & c & -> & F & B & D1 & D2)].
  - destruct (P _ F N) as (f & t & I & Q & T & D). exists f, t. split; [exact M|]. rewrite A. split; [apply in_or_app; now left|].
    split; [exact Q|]. split; [exact D|]. right. exists "". now rewrite append_nil_r.
  - destruct (list_eq_dec string_dec q (f_path f)) as [->|Q].
    + exists f, c. split; [exact M|]. rewrite A. split; [apply in_or_app; right; now left|auto].
    + rewrite (D2 q Q) in *. destruct (P _ F N) as (g & t & I & Q' & T & D). exists g, t. split; [exact M|]. rewrite A.
      split; [apply in_or_app; now left|]. split; [exact Q'|]. split; [exact D|]. right. exists "". now rewrite append_nil_r.
Qed.

(** When it reports success every file is there. *)
Theorem C69_success m o d d' : run m o d (Ended Succeeded d') ->
  exists gs, made m o gs /\ (forall g, In g gs -> exists fs, write_plan g = Done fs) /\ finished m d (announced gs) d'.
Proof.
  intros (s0 & H0 & H). destruct H0 as [fuel gs G|fuel e G|fuel e G]; [|apply ended_stays in H; discriminate H ..].
  exists gs. split; [now exists fuel|]. destruct (place_steps m gs d _ _ H (place_start m gs d)) as (past & rest & A & _ & S).
  destruct (S eq_refl) as (-> & F & P). rewrite app_nil_r in A. rewrite A. auto.
Qed.
(** The SBOMs made do not depend on how far the loops of the model are allowed to go *)
Theorem C69_made_once m o gs gs' : made m o gs -> made m o gs' -> gs = gs'.
Proof. intros [f H] [f' H']. assert (E : Done gs = Done gs') by (eapply generate_unique; eauto; discriminate). congruence. Qed.

(** Every run starts and ends. *)
Theorem C69_starts m o d : exists s, starts m o d s.
Proof.
  destruct (generate_terminates m o) as [fuel H]. destruct (generate_sboms m fuel o) as [gs|e|e|] eqn:E; [| | |congruence]; eexists.
  - eapply starts_writing; eauto.
  - eapply starts_failing; eauto.
  - eapply starts_panicking; eauto.
Qed.
Theorem C69_ends m o d s : run m o d s ->
  Acc (fun t s => step m s t) s /\ ((exists r d', s = Ended r d') \/ exists t, step m s t).
Proof.
  intros (s0 & H0 & H). split.
  - clear. remember (left_to_do m s) as n eqn:N. revert s N. induction n as [n IH] using lt_wf_ind. intros s ->. constructor.
    intros t T. apply (IH (left_to_do m t)); [now apply step_decreases|reflexivity].
  - apply can_go_on. eapply runnable_steps; [exact H|]. destruct H0; exact I.
Qed.

(** Under good conditions there is only one end: the options are accepted, cargo describes the workspace as it does, the
    clock is usable, no disk operation fails, and in a debug build the libraries agree with each other as in C50. *)
Definition validation_agrees (m : machine) (meta : cargo_metadata) : Prop :=
  mc_debug m = true -> same_libraries (mc_world m) (mc_parsers m) /\ no_bom_links meta
    /\ forall id p n, In id (cm_members meta) -> In p (cm_packages meta) -> pk_id p <> sub_ref id n.
Section GOOD.
  Variables (m : machine) (o : options) (cfg : config) (manifest : path) (meta : cargo_metadata) (nodes : list node).
  Hypothesis clap : clap_accepts (o_args o).
  Hypothesis configured : run_config m o = Done cfg.
  Hypothesis located : locate_manifest m o = Done manifest.
  Hypothesis cargo : mc_cargo m manifest (metadata_features cfg) (metadata_options cfg) = Some meta.
  Hypothesis wf : well_formed meta nodes.
  Hypothesis targets : distinct_targets meta.

  Theorem C69_succeeds d s : usable_clock (mc_world m) -> (forall p, mc_disk_ok m p = true) -> validation_agrees m meta ->
    run m o d s -> (exists d', s = Ended Succeeded d') \/ exists t, step m s t.
  Proof.
    intros clock disk_ok agrees R.
    destruct (C69_ends _ _ _ _ R) as [_ [(r & d' & ->)|T]]; [left|now right].
    destruct r; [now exists d'| |]; exfalso; destruct R as (s0 & H0 & H).
    all: assert (G : exists gs fuel, generate_sboms m fuel o = Done gs).
    1, 3: destruct (run_config_resolved _ _ _ configured) as (h & Rh);
          assert (Ht : cf_target cfg <> None) by (rewrite (resolved_target _ _ _ _ Rh); discriminate);
          destruct (C04_succeeds (mc_world m) meta nodes cfg wf clock Ht) as (f0 & gs & _ & C);
          exists gs, f0; rewrite (generates m o cfg manifest meta configured located cargo); now apply C.
    all: destruct G as (gs & fuel & G).
    all: assert (s0 = Packages gs d) as ->
      by (destruct H0 as [fuel' gs' G'|fuel' e G'|fuel' e G'];
          [apply f_equal2; [|reflexivity]; assert (E : Done gs' = Done gs) by (eapply generate_unique; eauto; discriminate); congruence
          |exfalso; assert (E : Fail e = Done gs) by (eapply generate_unique; eauto; discriminate); discriminate E
          |exfalso; assert (E : Panic e = Done gs) by (eapply generate_unique; eauto; discriminate); discriminate E]).
    all: clear H0; assert (M : made m o gs) by now exists fuel.
    all: assert (V : forall f, In f (announced gs) -> valid_or_unchecked m f = Done true /\ exists t, file_text m f = Done t).
    1, 3: intros f Hf; apply announced_in in Hf; destruct Hf as (g & fs & Hg & W & Hf);
          destruct (in_combine_r' (cm_members meta) gs g) as (id & Hi); [symmetry; eapply made_length; eauto|exact Hg|];
          assert (S : sbom_of (mc_world m) fuel meta cfg id g)
            by (exists gs; split; [rewrite <- (generates m o cfg manifest meta configured located cargo); exact G|exact Hi]); split;
          [unfold valid_or_unchecked; destruct (mc_debug m) eqn:D; [|reflexivity]; destruct (agrees D) as (L & B & Q);
           destruct (C50_generated_sboms_are_valid _ _ _ _ _ _ _ _ _ _ wf S (fun p n => Q id p n (in_combine_l _ _ _ _ Hi)) L B W Hf V1_3) as (r & E & P);
           rewrite E; cbn [bind]; unfold has_errors; now rewrite P
          |destruct (C57_json_read_back _ _ _ _ _ _ _ _ _ (f_version f) wf S W Hf) as (j & J & _);
           unfold file_text, output_as_xml; unfold output_as_json in *; destruct (check_bom (f_version f) (f_bom f)); try discriminate J;
           destruct (f_format f); eexists; reflexivity].
    all: assert (K : forall t, steps m (Packages gs d) t -> place m gs d t /\ (match t with Ended r _ => r = Succeeded | _ => True end)).
    1, 3: clear H; intros t H; remember (Packages gs d) as s0; induction H as [s|s t u H IH T]; subst s;
          [split; [apply place_start|exact I]|];
          destruct (IH eq_refl) as [P E]; split; [eapply place_step; eauto|]; destruct T; auto;
          cbn [place] in P;
          try (destruct P as (past & A & F & gone & Gn & _);
               match goal with W : write_plan ?g = _ |- _ =>
                 destruct (made_plan m o cfg manifest meta nodes clap configured located cargo wf targets gs g M) as (fs & W');
                 [rewrite Gn; apply in_or_app; right; now left|]; rewrite W' in W; discriminate W end);
          try (destruct P as (past & A & F & _);
               match goal with W : valid_or_unchecked m ?f <> _ |- _ =>
                 exfalso; apply W; apply V; rewrite A; apply in_or_app; right; now left end);
          try (match goal with W : mc_disk_ok m _ = false |- _ => rewrite disk_ok in W; discriminate W end);
          (destruct P as (past & d1 & c & A & F & D & [X _] & _);
           destruct (V f) as (_ & t & Y); [rewrite A; apply in_or_app; right; now left|]; rewrite X in Y; discriminate Y).
    all: destruct (K _ H) as [_ E]; discriminate E.
  Qed.

  (** Afterwards each file announced, and no other, has changed: no file of one package or artifact replaces another's. *)
  Theorem C69_each_file d d' : NoDup (cm_members meta) -> directories_differ meta -> run m o d (Ended Succeeded d') ->
    exists gs, made m o gs /\ List.length gs = List.length (cm_members meta)
      /\ NoDup (map f_path (announced gs))
      /\ (forall f, In f (announced gs) -> exists t, file_text m f = Done t /\ d' (f_path f) = Some t)
      /\ forall q, ~ In q (map f_path (announced gs)) -> d' q = d q.
  Proof.
    intros N D R. destruct (C69_success _ _ _ _ R) as (gs & M & P & F). exists gs. split; [exact M|].
    split; [eapply made_length; eauto|].
    assert (U : NoDup (map f_path (announced gs))) by (eapply announced_distinct; eauto).
    split; [exact U|]. split; [now apply finished_each with d|].
    intros q Q. destruct F as [_ F]. apply F. intros f Hf <-. apply Q. now apply in_map.
  Qed.

  (** And the files can be read: [read_json] and [read_xml] stand for the parsers of serde_json and xml-rs. *)
  Theorem C69_json_files_are_read d d' read_json : NoDup (cm_members meta) -> directories_differ meta ->
    (forall gs f j, made m o gs -> In f (announced gs) -> output_as_json (f_version f) (f_bom f) = Done j ->
       exists j', read_json (mc_json_text m j) = Some j' /\ like j j') -> chosen_format cfg = FJson ->
    run m o d (Ended Succeeded d') -> exists gs, made m o gs /\ forall f, In f (announced gs) ->
      exists t j, d' (f_path f) = Some t /\ read_json t = Some j
        /\ parse_from_json j = Done (as_version match cf_spec cfg with Some v => v | None => V1_3 end (f_bom f)).
  Proof.
    intros N D L Fm R. destruct (C69_each_file d d' N D R) as (gs & M & _ & _ & F & _). exists gs. split; [exact M|].
    intros f Hf. destruct (F f Hf) as (t & T & X). exists t. pose proof (fun j => L gs f j M Hf) as Lf.
    apply announced_in in Hf. destruct Hf as (g & fs & Hg & W & Hf). destruct (made_of m o cfg manifest meta configured located cargo gs g M Hg) as (fuel & id & S).
    destruct (run_config_resolved _ _ _ configured) as (h & Rh).
    destruct (C12_output_files _ _ _ _ _ _ _ _ _ _ wf clap Rh S targets) as (p & fs' & _ & _ & W' & _ & _ & Q). rewrite W in W'. injection W' as <-.
    destruct (Q f Hf) as (Q1 & Q2 & _). unfold file_text in T. rewrite Q1, Fm, Q2 in T.
    destruct (C57_json_read_back _ _ _ _ _ _ _ _ _ match cf_spec cfg with Some v => v | None => V1_3 end wf S W Hf) as (j & J & RB).
    rewrite J in T. cbn [bind] in T. injection T as <-. destruct (Lf j) as (j' & J' & K); [now rewrite Q2|]. exists j'. split; [exact X|]. split; [exact J'|]. now apply RB.
  Qed.
  Theorem C69_xml_files_are_read d d' read_xml : NoDup (cm_members meta) -> directories_differ meta ->
    (forall gs f x, made m o gs -> In f (announced gs) -> output_as_xml (mc_floats m) (f_version f) (f_bom f) = Done x ->
       read_xml (mc_xml_text m x) = written x) -> float_text_ok (mc_floats m) -> chosen_format cfg = FXml ->
    licenses_written_down (mc_world m) meta ->
    run m o d (Ended Succeeded d') -> exists gs, made m o gs /\ forall f, In f (announced gs) ->
      exists t, d' (f_path f) = Some t
        /\ parse_from_xml (mc_floats m) match cf_spec cfg with Some v => v | None => V1_3 end (read_xml t)
           = XOk (as_version match cf_spec cfg with Some v => v | None => V1_3 end (trimmed (f_bom f))) [].
  Proof.
    intros N D L Fl Fm Li R. destruct (C69_each_file d d' N D R) as (gs & M & _ & _ & F & _). exists gs. split; [exact M|].
    intros f Hf. destruct (F f Hf) as (t & T & X). exists t. split; [exact X|]. pose proof (fun x => L gs f x M Hf) as Lf.
    apply announced_in in Hf. destruct Hf as (g & fs & Hg & W & Hf). destruct (made_of m o cfg manifest meta configured located cargo gs g M Hg) as (fuel & id & S).
    destruct (run_config_resolved _ _ _ configured) as (h & Rh).
    destruct (C12_output_files _ _ _ _ _ _ _ _ _ _ wf clap Rh S targets) as (p & fs' & _ & _ & W' & _ & _ & Q). rewrite W in W'. injection W' as <-.
    destruct (Q f Hf) as (Q1 & Q2 & _). unfold file_text in T. rewrite Q1, Fm, Q2 in T.
    destruct (C57_xml_read_back (mc_floats m) _ _ _ _ _ _ _ _ _ match cf_spec cfg with Some v => v | None => V1_3 end Fl wf S W Hf) as (x & J & RB).
    rewrite J in T. cbn [bind] in T. injection T as <-. rewrite (Lf x) by (now rewrite Q2). now apply RB.
  Qed.
End GOOD.

(** With SOURCE_DATE_EPOCH two successful runs on the same disk give the same disk, whatever the time and the random numbers. *)
Theorem C69_reproducible m o d now uuid now' uuid' d1 d2 epoch : w_epoch (mc_world m) = Some epoch ->
  run (at_another_time m now uuid) o d (Ended Succeeded d1) -> run (at_another_time m now' uuid') o d (Ended Succeeded d2) ->
  forall q, d1 q = d2 q.
Proof.
  intros E R1 R2. destruct (C69_success _ _ _ _ R1) as (gs1 & [f1 M1] & _ & F1). destruct (C69_success _ _ _ _ R2) as (gs2 & [f2 M2] & _ & F2).
  assert (G : forall f, generate_sboms (at_another_time m now uuid) f o = generate_sboms (at_another_time m now' uuid') f o).
  { intros f. unfold generate_sboms. change (run_config (at_another_time m now' uuid') o) with (run_config (at_another_time m now uuid) o).
    destruct (run_config (at_another_time m now uuid) o) as [cfg| | |]; cbn [bind]; auto.
    change (locate_manifest (at_another_time m now' uuid') o) with (locate_manifest (at_another_time m now uuid) o).
    destruct (locate_manifest _ _) as [p| | |]; cbn [bind]; auto.
    change (get_metadata (at_another_time m now' uuid') p cfg) with (get_metadata (at_another_time m now uuid) p cfg).
    destruct (get_metadata _ _ _) as [meta| | |]; cbn [bind]; auto. cbn [mc_world at_another_time]. eapply C08_reproducible; eauto. }
  rewrite <- G in M2. assert (X : Done gs1 = Done gs2) by (eapply generate_unique; eauto; discriminate). injection X as <-.
  intros q. destruct F1 as [A1 B1], F2 as [A2 B2]. destruct (in_dec (list_eq_dec string_dec) q (map f_path (announced gs1))) as [I|I].
  - apply last_of in I. destruct I as (b & f & a & Ea & <- & L). destruct (A1 b f a Ea L) as (t1 & T1 & ->). destruct (A2 b f a Ea L) as (t2 & T2 & ->).
    change (file_text (at_another_time m now' uuid') f) with (file_text (at_another_time m now uuid) f) in T2. congruence.
  - rewrite B1, B2; auto; intros f Hf <-; apply I; now apply in_map.
Qed.

(** *** Instances *)
Definition run_args_ex (d : describe) : args := {|
  a_format := Some FJson; a_describe := Some d; a_all_features := true; a_no_default_features := false;
  a_features := ["x,y"]; a_target := None; a_target_in_filename := false; a_all := false; a_top_level := false;
  a_filename_override := None; a_license_strict := false; a_license_accept_named := []; a_spec_version := Some V1_4;
  a_no_build_deps := false |}.
Definition ex_options (d : describe) : options := mkOptions (run_args_ex d) None 0 0.
Definition rustc_text : string :=
  ("rustc 1.80.0" ++ String LF "binary: rustc" ++ String LF "host: x86_64-unknown-linux-gnu" ++ String LF "release: 1.80.0")%string.
Definition ex_machine (disk_ok : bool) : machine := {|
  mc_world := ex_world; mc_rustc_var := None; mc_rustc := fun p => if String.eqb p "rustc" then Some rustc_text else None;
  mc_build_target := None; mc_absolute := fun _ => None; mc_cwd := Some ["w"];
  mc_cargo := fun p fs os => if path_eqb p ["w"; "Cargo.toml"] then Some ex_meta else None;
  mc_debug := true; mc_parsers := ex_parsers; mc_floats := sample_floats;
  mc_json_text := fun j => match j with JObj ((_, JStr s) :: _) => s | _ => "?" end;
  mc_xml_text := fun _ => "xml"; mc_disk_ok := fun _ => disk_ok |}.
Definition ex_disk : disk := fun q => if path_eqb q ["w"; "app"; "one_bin.cdx.json"] then Some "old" else None.

(** The hypotheses of the theorems are met *)
Example C69_case : exists cfg, clap_accepts (o_args (ex_options DBinaries)) /\ run_config (ex_machine true) (ex_options DBinaries) = Done cfg
  /\ locate_manifest (ex_machine true) (ex_options DBinaries) = Done ["w"; "Cargo.toml"]
  /\ mc_cargo (ex_machine true) ["w"; "Cargo.toml"] (metadata_features cfg) (metadata_options cfg) = Some ex_meta
  /\ cf_target cfg = Some (SingleTarget "x86_64-unknown-linux-gnu") /\ chosen_format cfg = FJson
  /\ well_formed ex_meta ex_nodes /\ distinct_targets ex_meta /\ usable_clock ex_world /\ validation_agrees (ex_machine true) ex_meta
  /\ NoDup (cm_members ex_meta) /\ directories_differ ex_meta.
Proof.
  eexists. split; [split; auto|]. split; [vm_compute; reflexivity|]. split; [reflexivity|]. split; [reflexivity|]. split; [reflexivity|].
  split; [reflexivity|]. split; [exact ex_wf|]. split.
  { intros p H. repeat (destruct H as [<-|H]; [split; [repeat constructor; cbn; intuition discriminate|]; intros t k Ht Hk; cbn in Ht; repeat (destruct Ht as [<-|Ht]; [destruct Hk as [<-|[]]; reflexivity|]); destruct Ht|]). destruct H. }
  split; [split; [discriminate|intros e H; discriminate H]|]. split.
  { intros _. destruct C50_example as (A & B & C & _). split; [exact A|]. split; [exact B|]. intros id p n [<-|[]]. apply C. }
  split; [repeat constructor; intros []|]. intros p q _ _ [<-|[]] [<-|[]] _. reflexivity.
Qed.
Lemma first_begun m g f fs d : write_plan g = Done (f :: fs) -> valid_or_unchecked m f = Done true ->
  steps m (Packages [g] d) (Writing f (file_text m f) fs [] (put d (f_path f) "")).
Proof.
  intros W V. eapply steps_next; [eapply steps_next; [apply steps_refl|eapply step_package; exact W]|]. now apply step_create.
Qed.
Lemma two_written m g f1 f2 t1 t2 d : write_plan g = Done [f1; f2] -> valid_or_unchecked m f1 = Done true -> valid_or_unchecked m f2 = Done true ->
  file_text m f1 = Done t1 -> file_text m f2 = Done t2 -> t1 <> "" -> t2 <> "" ->
  steps m (Packages [g] d) (Ended Succeeded (append_to (put (append_to (put d (f_path f1) "") (f_path f1) t1) (f_path f2) "") (f_path f2) t2)).
Proof.
  intros W V1 V2 T1 T2 N1 N2. eapply steps_next; [|apply step_exit]. eapply steps_next; [|apply step_package_done].
  eapply steps_next; [|apply step_close]. eapply steps_next; [|apply (step_write m f2 t2 ""); exact N2]. rewrite append_nil_r, <- T2.
  eapply steps_next; [|apply step_create; exact V2]. eapply steps_next; [|apply step_close].
  eapply steps_next; [|apply (step_write m f1 t1 ""); exact N1]. rewrite append_nil_r, <- T1. now apply first_begun.
Qed.
(** A run to the end: two files *)
Example C69_run : exists d', run (ex_machine true) (ex_options DBinaries) ex_disk (Ended Succeeded d')
  /\ d' ["w"; "app"; "one_bin.cdx.json"] = Some "CycloneDX" /\ d' ["w"; "app"; "two_bin.cdx.json"] = Some "CycloneDX"
  /\ d' ["w"; "app"; "Cargo.toml"] = None.
Proof.
  destruct (generate_sboms (ex_machine true) 100 (ex_options DBinaries)) as [gs| | |] eqn:G; [|vm_compute in G; discriminate G ..].
  pose proof (starts_writing (ex_machine true) (ex_options DBinaries) ex_disk 100 gs G) as St.
  assert (P : exists g f1 f2 t, gs = [g] /\ write_plan g = Done [f1; f2] /\ f_path f1 = ["w"; "app"; "one_bin.cdx.json"]
    /\ f_path f2 = ["w"; "app"; "two_bin.cdx.json"] /\ t = "CycloneDX" /\ file_text (ex_machine true) f1 = Done t /\ file_text (ex_machine true) f2 = Done t
    /\ valid_or_unchecked (ex_machine true) f1 = Done true /\ valid_or_unchecked (ex_machine true) f2 = Done true).
  { clear St. vm_compute in G. injection G as <-. do 4 eexists. split; [reflexivity|]. split; [vm_compute; reflexivity|]. do 2 (split; [reflexivity|]).
    split; [reflexivity|]. repeat split; vm_compute; reflexivity. }
  destruct P as (g & f1 & f2 & t & -> & W & P1 & P2 & Et & T1 & T2 & V1 & V2).
  clear G. eexists. split; [exists (Packages [g] ex_disk); split; [exact St|eapply two_written; eauto; subst t; discriminate]|].
  subst t. rewrite P1, P2. repeat split; vm_compute; reflexivity.
Qed.

(** *** What does not hold *)
(** A run that is interrupted, or fails, may leave a file that was there before empty: it is truncated before its new
    text is written.  And some files may be new and others old. *)
Theorem C69_old_files_survive_refuted :
  (exists m o d s q t, run m o d s /\ (forall p, mc_disk_ok m p = true) /\ d q = Some t /\ t <> "" /\ disk_of s q = Some "")
  /\ (exists m o d d' q t, run m o d (Ended Failed d') /\ d q = Some t /\ t <> "" /\ d' q = Some "").
Proof.
  assert (X : forall b, exists d' f fs gs, run (ex_machine b) (ex_options DBinaries) ex_disk (Writing f (Done "CycloneDX") fs gs d')
    /\ d' ["w"; "app"; "one_bin.cdx.json"] = Some "").
  { intros b. destruct (generate_sboms (ex_machine b) 100 (ex_options DBinaries)) as [gs| | |] eqn:G; [|vm_compute in G; discriminate G ..].
    pose proof (starts_writing (ex_machine b) (ex_options DBinaries) ex_disk 100 gs G) as St.
    assert (P : exists g f1 f2, gs = [g] /\ write_plan g = Done [f1; f2] /\ f_path f1 = ["w"; "app"; "one_bin.cdx.json"]
      /\ file_text (ex_machine b) f1 = Done "CycloneDX" /\ valid_or_unchecked (ex_machine b) f1 = Done true).
    { clear St. vm_compute in G. injection G as <-. do 3 eexists. split; [reflexivity|]. split; [vm_compute; reflexivity|]. split; [reflexivity|].
      split; vm_compute; reflexivity. }
    destruct P as (g & f1 & f2 & -> & W & P1 & T1 & V1). exists (put ex_disk (f_path f1) ""), f1, [f2], []. split.
    - exists (Packages [g] ex_disk). split; [exact St|]. rewrite <- T1. exact (first_begun _ _ _ _ _ W V1).
    - rewrite P1. reflexivity. }
  split.
  - destruct (X true) as (d' & f & fs & gs & R & D). do 6 eexists. split; [exact R|]. split; [reflexivity|].
    split; [|split; [|exact D]]; [reflexivity|discriminate].
  - destruct (X false) as (d' & f & fs & gs & (s0 & S & R) & D). do 6 eexists. split; [|split; [|split; [|exact D]]].
    + exists s0. split; [exact S|]. eapply steps_next; [exact R|]. now apply step_write_fails.
    + reflexivity.
    + discriminate.
Qed.

(** ** C70 *)
(** The host is what rustc calls so: the program named by RUSTC, or [rustc]. *)
Theorem C70_host_platform m t : host_platform m = Done t <->
  exists out, mc_rustc m match mc_rustc_var m with Some p => p | None => "rustc" end = Some out /\ host_named out t.
Proof.
  unfold host_platform, rustc_host_target_triple, rustc_location. split.
  - intros H. apply bind_done in H. destruct H as (out & O & H). apply unwrap_done in O, H. exists out. split; [exact O|]. now apply host_lines.
  - intros (out & O & H). unfold unwrap_or. rewrite O. cbn [unwrap bind]. apply host_lines in H. now rewrite H.
Qed.
(** The target: CARGO_BUILD_TARGET, then the option, then the host *)
Theorem C70_target m o cfg : run_config m o = Done cfg ->
  match mc_build_target m, a_target (o_args o) with
  | Some e, _ => cf_target cfg = Some (SingleTarget e)
  | None, Some t => cf_target cfg = Some (if String.eqb t "all" then AllTargets else SingleTarget t)
  | None, None => exists out h, mc_rustc m match mc_rustc_var m with Some p => p | None => "rustc" end = Some out /\ host_named out h
      /\ cf_target cfg = Some (SingleTarget h)
  end.
Proof.
  unfold run_config. intros H. apply bind_done in H. destruct H as (c & C & H).
  assert (X : forall h, resolve_config (o_args o) (mc_build_target m) h = Done cfg -> cf_target cfg = _) by (intros h Hh; exact (resolved_target _ _ _ _ Hh)).
  assert (Ct : cf_target c = option_map (fun s => if String.eqb s "all" then AllTargets else SingleTarget s) (a_target (o_args o))).
  { unfold as_config in C. apply bind_done in C. destruct C as (pt & _ & C). injection C as <-. reflexivity. }
  destruct (mc_build_target m) as [e|] eqn:B.
  - cbn in H. now rewrite (X _ H).
  - destruct (a_target (o_args o)) as [t|] eqn:T; cbn [option_map] in Ct.
    + cbn in H. rewrite Ct in H. cbn in H. now rewrite (X _ H).
    + cbn in H. rewrite Ct in H. cbn in H. apply bind_done in H. destruct H as (h & Hh & H). apply C70_host_platform in Hh.
      destruct Hh as (out & O & N). exists out, h. split; [exact O|]. split; [exact N|]. now rewrite (X _ H).
Qed.
(** Rustc is not needed when a target is given *)
Definition with_rustc (m : machine) (var : option string) (r : string -> option string) : machine :=
  mkMachine (mc_world m) var r (mc_build_target m) (mc_absolute m) (mc_cwd m) (mc_cargo m) (mc_debug m) (mc_parsers m)
    (mc_floats m) (mc_json_text m) (mc_xml_text m) (mc_disk_ok m).
Theorem C70_rustc_unneeded m o fuel var r : mc_build_target m <> None \/ a_target (o_args o) <> None ->
  generate_sboms (with_rustc m var r) fuel o = generate_sboms m fuel o.
Proof.
  intros H. assert (E : run_config (with_rustc m var r) o = run_config m o).
  { unfold run_config. destruct (as_config (o_args o)) as [c| | |] eqn:C; auto. cbn [bind mc_build_target with_rustc].
    assert (Ct : cf_target c = option_map (fun s => if String.eqb s "all" then AllTargets else SingleTarget s) (a_target (o_args o))).
    { unfold as_config in C. apply bind_done in C. destruct C as (pt & _ & C). injection C as <-. reflexivity. }
    destruct (mc_build_target m) as [e|]; [reflexivity|]. destruct H as [H|H]; [congruence|]. cbn. rewrite Ct.
    destruct (a_target (o_args o)); [reflexivity|congruence]. }
  unfold generate_sboms. rewrite E. reflexivity.
Qed.
Ltac member := split; intros HH;
  [repeat destruct HH as [HH|HH]; first [reflexivity|discriminate HH|destruct HH]
  |first [discriminate HH|left; reflexivity|right; left; reflexivity]].
(** What cargo is asked for: the manifest named by the option or that of the working directory, the features of the
    options, and the dependencies of the target only, unless it is "all". *)
Theorem C70_asks_cargo m o gs : made m o gs -> exists cfg manifest fs os meta fuel,
  run_config m o = Done cfg /\ mc_cargo m manifest fs os = Some meta /\ create_sboms (mc_world m) fuel meta cfg = Done gs
  /\ match o_manifest_path o with
     | Some p => mc_absolute m p = Some manifest
     | None => exists cwd, mc_cwd m = Some cwd /\ manifest = cwd ++ ["Cargo.toml"]
     end
  /\ (In OptAllFeatures fs <-> a_all_features (o_args o) = true)
  /\ (In OptNoDefaultFeatures fs <-> a_no_default_features (o_args o) = true)
  /\ (forall f, (exists l, In (OptSomeFeatures l) fs /\ In f l) <-> In f (feature_list (a_features (o_args o))))
  /\ os = match cf_target cfg with Some (SingleTarget t) => ["--filter-platform"; t] | _ => [] end.
Proof.
  intros [fuel H]. unfold generate_sboms in H. apply bind_done in H. destruct H as (cfg & C & H). apply bind_done in H.
  destruct H as (manifest & L & H). apply bind_done in H. destruct H as (meta & G & H). unfold get_metadata in G.
  destruct (mc_cargo m manifest _ _) as [meta'|] eqn:K; [|discriminate G]. injection G as ->.
  exists cfg, manifest, (metadata_features cfg), (metadata_options cfg), meta, fuel. split; [exact C|]. split; [exact K|]. split; [exact H|]. split.
  { unfold locate_manifest in L. destruct (o_manifest_path o); [destruct (mc_absolute m s) eqn:A|destruct (mc_cwd m) as [cwd|] eqn:A]; try discriminate L;
      injection L as <-; eauto. }
  destruct (run_config_resolved _ _ _ C) as (h & R).
  assert (F : cf_features cfg = if negb (a_all_features (o_args o)) && negb (a_no_default_features (o_args o)) && (match a_features (o_args o) with [] => true | _ => false end)
    then None else Some (mkFeatures (a_all_features (o_args o)) (a_no_default_features (o_args o)) (feature_list (a_features (o_args o))))).
  { clear -R. unfold resolve_config in R. apply bind_done in R. destruct R as (c & Cc & R). unfold as_config in Cc. apply bind_done in Cc.
    destruct Cc as (pt & _ & Cc). injection Cc as <-. injection R as <-. destruct (mc_build_target m) as [e|]; cbn.
    - destruct (_ && _ && _); reflexivity.
    - destruct (a_target (o_args o)); cbn; destruct (_ && _ && _); reflexivity. }
  unfold metadata_features. rewrite F.
  destruct (a_all_features (o_args o)), (a_no_default_features (o_args o)); cbn [negb andb ft_all ft_no_default ft_features app].
  4: destruct (a_features (o_args o)) as [|x l]; cbn [app].
  4: { cbn. split; [member|]. split; [member|]. split; [|reflexivity]. intros f. split; [intros (l & [] & _)|intros []]. }
  all: remember (feature_list _) as fl; destruct fl as [|y l']; cbn [In app];
    (split; [member|split; [member|split; [|reflexivity]]]); intros f; split;
    try (intros (l0 & Hl & Hf); repeat (destruct Hl as [Hl|Hl]; [try discriminate Hl; injection Hl as <-; exact Hf|]); destruct Hl);
    try (intros []; fail); intros Hf; exists (y :: l'); (split; [|exact Hf]); repeat first [left; reflexivity|right]; reflexivity.
Qed.
(** The option -q given twice silences everything, given once it changes nothing; -v raises the level one by one *)
Definition level_rank (l : log_level) : nat := match l with LOff => 0 | LWarn => 1 | LInfo => 2 | LDebug => 3 | LTrace => 4 end.
Theorem C70_log_level o : level_rank (level_filter o) = if (1 <? o_quiet o)%nat then 0 else Nat.min 4 (1 + o_verbose o).
Proof.
  unfold level_filter. change (1 <? o_quiet o)%nat with (2 <=? o_quiet o)%nat. destruct (2 <=? o_quiet o)%nat; [reflexivity|].
  destruct (o_verbose o) as [|[|[|n]]]; reflexivity.
Qed.
Example C70_case : host_named rustc_text "x86_64-unknown-linux-gnu" /\ exists gs, made (ex_machine true) (ex_options DBinaries) gs.
Proof.
  split.
  - exists ("rustc 1.80.0" ++ String LF "binary: rustc" ++ String LF "")%string, (String LF "release: 1.80.0").
    split; [reflexivity|]. split; [right; exists ("rustc 1.80.0" ++ String LF "binary: rustc")%string; reflexivity|].
    repeat (split; [reflexivity|]). right. left. exists "release: 1.80.0". split; [reflexivity|].
    intros u H. repeat (destruct u as [|? u]; [discriminate H|injection H as _ H]). destruct u; discriminate H.
  - destruct (generate_sboms (ex_machine true) 100 (ex_options DBinaries)) as [gs| | |] eqn:G; [|vm_compute in G; discriminate G ..].
    exists gs, 100. exact G.
Qed.

Print Assumptions C69_at_every_point.
Print Assumptions C69_only_announced_files.
Print Assumptions C69_success.
Print Assumptions C69_made_once.
Print Assumptions C69_starts.
Print Assumptions C69_ends.
Print Assumptions C69_succeeds.
Print Assumptions C69_each_file.
Print Assumptions C69_json_files_are_read.
Print Assumptions C69_xml_files_are_read.
Print Assumptions C69_reproducible.
Print Assumptions C69_old_files_survive_refuted.
Print Assumptions C70_host_platform.
Print Assumptions C70_target.
Print Assumptions C70_rustc_unneeded.
Print Assumptions C70_asks_cargo.
Print Assumptions C70_log_level.

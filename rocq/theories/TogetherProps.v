(** C84: two invocations at the same time. *)
From Verif Require Import Base Strings ModelTypes ConfigModel GenModel GenSpec GenExample GenProps ValModel ValSpec RunModel RunSpec RunProofs RunProps
  OptionSpec OptionProps StopSpec CliModel CliSpec CliProofs CliProps InvokeModel InvokeSpec InvokeProps HistorySpec HistoryProps TogetherSpec.
Open Scope string_scope.
Open Scope list_scope.

(** The files that are still to be written *)
Definition pending (s : state) : list output_file :=
  match s with
  | Packages gs _ => announced gs
  | Files fs gs _ => fs ++ announced gs
  | Writing f _ fs gs _ => f :: fs ++ announced gs
  | Ended _ _ => []
  end.
Lemma on_on s d e : on (on s d) e = on s e.
Proof. now destruct s. Qed.
Lemma on_same s : on s (disk_of s) = s.
Proof. now destruct s. Qed.
(** A step depends only on the disk at the paths of the files to be written *)
Lemma step_on m (P : path -> Prop) s d t e : step m (on s d) t -> (forall f, In f (pending s) -> P (f_path f)) -> (forall q, P q -> d q = e q) ->
  exists e', step m (on s e) (on t e') /\ (forall q, P q -> disk_of t q = e' q) /\ (forall q, ~ P q -> e' q = e q) /\ (forall q, ~ P q -> disk_of t q = d q)
    /\ (forall f, In f (pending t) -> P (f_path f)).
Proof.
  intros T I E.
  assert (X : forall p u, P p -> (forall q, P q -> put d p u q = put e p u q) /\ (forall q, ~ P q -> put e p u q = e q) /\ (forall q, ~ P q -> put d p u q = d q)).
  { intros p u Pp. unfold put, path_eqb. repeat split; intros q Q; destruct (list_eq_dec string_dec q p) as [->|N]; auto; contradiction. }
  assert (Y : forall p u, P p -> (forall q, P q -> append_to d p u q = append_to e p u q) /\ (forall q, ~ P q -> append_to e p u q = e q) /\ (forall q, ~ P q -> append_to d p u q = d q)).
  { intros p u Pp. unfold append_to. rewrite (E p Pp). now apply X. }
  destruct s; cbn [on pending] in *; inversion T; subst; cbn [disk_of pending] in *;
    try (exists e; split; [cbn [on]; constructor; solve [auto]|]; split; [exact E|]; split; [auto|]; split; [auto|];
         solve [auto | intros f' Hf; apply I; rewrite ?in_app_iff in *; cbn; rewrite ?in_app_iff; tauto | intros f' []]).
  all: try (exists e; split; [cbn [on]; econstructor; eassumption|]; split; [exact E|]; split; [auto|]; split; [auto|]; intros f' []).
  - exists e. split; [cbn [on]; now constructor|]. split; [exact E|]. split; [auto|]. split; [auto|].
    intros f' Hf. apply I. unfold announced in *. cbn [flat_map].
    match goal with W : write_plan _ = Done _ |- _ => rewrite W end. exact Hf.
  - match goal with |- context [put d ?p ""] => destruct (X p "") as (X1 & X2 & X3); [apply I; now left|]; exists (put e p "") end.
    split; [cbn [on]; now constructor|]. auto.
  - match goal with |- context [append_to d ?p ?u] => destruct (Y p u) as (X1 & X2 & X3); [apply I; now left|]; exists (append_to e p u) end.
    split; [cbn [on]; now constructor|]. auto.
Qed.
Lemma begins_pending m argv d s f : cargo_is_cargo m -> begins m argv d s -> In f (pending s) -> exists o, asked argv o /\ sbom_path m o (f_path f).
Proof.
  intros K [o s' C S|r _ _] F; [|destruct F]. apply C80_command_line in C. exists o. split; [exact C|].
  destruct S as [fuel gs G|fuel e G|fuel e G]; [|destruct F ..]. apply (announced_paths m argv o gs f); auto. now exists fuel.
Qed.
Lemma begins_disk m argv d s : begins m argv d s -> disk_of s = d.
Proof. intros [o s' C S|r _ _]; [now destruct S|reflexivity]. Qed.
Lemma begins_steps m argv d s t : begins m argv d s -> steps m s t -> invocation m argv d t.
Proof.
  intros [o s' C S|r C R] H; [apply (invoked m argv d o t C); now exists s'|]. apply ended_stays in H. subst. now apply not_run.
Qed.

(** Two invocations that are not asked for the same file do not disturb each other, whatever the schedule: at every point each of them is
    where it might have been alone, and the disk has the changes of both and no other *)
Theorem C84_any_schedule m1 argv1 m2 argv2 d s1 s2 d' : cargo_is_cargo m1 -> cargo_is_cargo m2 -> apart m1 argv1 m2 argv2 ->
  together m1 argv1 m2 argv2 d s1 s2 d' ->
  exists d1 d2, invocation m1 argv1 d (on s1 d1) /\ invocation m2 argv2 d (on s2 d2)
    /\ forall q, (d1 q <> d q -> d' q = d1 q) /\ (d2 q <> d q -> d' q = d2 q) /\ (d1 q = d q -> d2 q = d q -> d' q = d q).
Proof.
  intros K1 K2 A (a & b & Ba & Bb & S).
  set (P1 := fun q => exists o, asked argv1 o /\ sbom_path m1 o q). set (P2 := fun q => exists o, asked argv2 o /\ sbom_path m2 o q).
  assert (Dj : forall q, P1 q -> P2 q -> False) by (intros q (o1 & A1 & S1) (o2 & A2 & S2); exact (A o1 o2 q A1 A2 S1 S2)).
  assert (I : exists d1 d2, steps m1 a (on s1 d1) /\ steps m2 b (on s2 d2) /\ (forall f, In f (pending s1) -> P1 (f_path f)) /\ (forall f, In f (pending s2) -> P2 (f_path f))
     /\ (forall q, P1 q -> d' q = d1 q) /\ (forall q, ~ P1 q -> d1 q = d q) /\ (forall q, P2 q -> d' q = d2 q) /\ (forall q, ~ P2 q -> d2 q = d q)
     /\ (forall q, ~ P1 q -> ~ P2 q -> d' q = d q)).
  { pose proof (begins_disk _ _ _ _ Ba) as Ea. pose proof (begins_disk _ _ _ _ Bb) as Eb.
    induction S as [|s1 s2 e t S IH T|s1 s2 e t S IH T].
    - exists d, d. rewrite <- Ea at 1. rewrite on_same. rewrite <- Eb at 1. rewrite on_same.
      split; [constructor|]. split; [constructor|]. split; [intros f; now apply (begins_pending m1 argv1 d a f)|]. split; [intros f; now apply (begins_pending m2 argv2 d b f)|]. auto 10.
    - destruct IH as (d1 & d2 & H1 & H2 & F1 & F2 & X1 & Y1 & X2 & Y2 & Z). destruct (step_on m1 P1 s1 e t d1 T F1 X1) as (e' & T' & Q1 & Q2 & Q3 & Q4).
      exists e', d2. split; [eapply steps_next; eauto|]. split; [exact H2|]. split; [exact Q4|]. split; [exact F2|]. split; [exact Q1|].
      split; [intros q N; rewrite (Q2 q N); auto|]. split; [intros q N; rewrite <- (X2 q N); apply Q3; intros N'; now apply (Dj q)|]. split; [exact Y2|].
      intros q N N'. rewrite (Q3 q N). auto.
    - destruct IH as (d1 & d2 & H1 & H2 & F1 & F2 & X1 & Y1 & X2 & Y2 & Z). destruct (step_on m2 P2 s2 e t d2 T F2 X2) as (e' & T' & Q1 & Q2 & Q3 & Q4).
      exists d1, e'. split; [exact H1|]. split; [eapply steps_next; eauto|]. split; [exact F1|]. split; [exact Q4|].
      split; [intros q N; rewrite <- (X1 q N); apply Q3; intros N'; now apply (Dj q)|]. split; [exact Y1|]. split; [exact Q1|].
      split; [intros q N; rewrite (Q2 q N); auto|]. intros q N N'. rewrite (Q3 q N'). auto. }
  destruct I as (d1 & d2 & H1 & H2 & _ & _ & X1 & Y1 & X2 & Y2 & Z). exists d1, d2.
  split; [now apply (begins_steps m1 argv1 d a)|]. split; [now apply (begins_steps m2 argv2 d b)|]. intros q. split; [|split].
  - intros N. destruct (disk_dec d1 d' q) as [E|E]; [exact E|exfalso]. apply N, Y1. intros P. now apply E, X1.
  - intros N. destruct (disk_dec d2 d' q) as [E|E]; [exact E|exfalso]. apply N, Y2. intros P. now apply E, X2.
  - intros E1 E2. destruct (disk_dec d d' q) as [E|E]; [exact E|exfalso]. apply E, Z; intros P; apply E; [rewrite <- E1; now apply X1|rewrite <- E2; now apply X2].
Qed.

(** When both have succeeded the disk is as if one had been started after the other was done *)
Theorem C84_one_after_the_other m1 argv1 m2 argv2 d e1 e2 d' d1 d2 : cargo_is_cargo m1 -> cargo_is_cargo m2 -> apart m1 argv1 m2 argv2 ->
  together m1 argv1 m2 argv2 d (Ended Succeeded e1) (Ended Succeeded e2) d' ->
  invocation m1 argv1 d (Ended Succeeded d1) -> invocation m2 argv2 d1 (Ended Succeeded d2) -> forall q, d' q = d2 q.
Proof.
  intros K1 K2 A T I1 I2 q. destruct (C84_any_schedule _ _ _ _ _ _ _ _ K1 K2 A T) as (x1 & x2 & J1 & J2 & H). cbn [on] in J1, J2. destruct (H q) as (H1 & H2 & H3).
  assert (E1 : d1 q = x1 q) by (destruct (C83_overwrites _ _ _ _ _ _ q I1 J1) as [E|[E E']]; congruence).
  assert (N : x1 q <> d q -> d2 q = d1 q).
  { intros N. destruct (disk_dec d1 d2 q) as [E|E]; [exact E|exfalso]. destruct (C82_touched m1 argv1 d _ q K1 J1 N) as (o1 & A1 & S1).
    destruct (C82_touched m2 argv2 d1 _ q K2 I2 E) as (o2 & A2 & S2). exact (A o1 o2 q A1 A2 S1 S2). }
  destruct (disk_dec d x1 q) as [D|D]; [|rewrite (H1 D), (N D); congruence].
  destruct (C83_overwrites _ _ _ _ _ _ q I2 J2) as [E|[E E']].
  - destruct (disk_dec d x2 q) as [D'|D']; [rewrite (H3 D D'); congruence|rewrite (H2 D'); congruence].
  - rewrite (H3 D E'). congruence.
Qed.

Lemma loa_app x y : list_ascii_of_string (x ++ y) = list_ascii_of_string x ++ list_ascii_of_string y.
Proof. induction x; cbn; congruence. Qed.
(** For example: one invocation for XML and one for JSON *)
Theorem C84_formats m1 argv1 m2 argv2 : (forall o1 o2, asked argv1 o1 -> asked argv2 o2 -> asked_format (o_args o1) <> asked_format (o_args o2)) -> apart m1 argv1 m2 argv2.
Proof.
  intros F o1 o2 q A1 A2 (t1 & me1 & p1 & st1 & _ & _ & _ & _ & _ & ->) (t2 & me2 & p2 & st2 & _ & _ & _ & _ & _ & E). specialize (F o1 o2 A1 A2).
  apply app_inj_tail in E as [_ E]. unfold file_named in E. rewrite <- !append_assoc in E.
  assert (L : forall x y, (x ++ ".json" <> y ++ ".xml")%string).
  { intros x y H. apply (f_equal (fun s => list_ascii_of_string s)) in H. rewrite !loa_app in H. apply (f_equal (@rev _)) in H. rewrite !rev_app_distr in H. discriminate H. }
  destruct (asked_format (o_args o1)), (asked_format (o_args o2)); try (now apply F); [now apply L in E|symmetry in E; now apply L in E].
Qed.

(** Two invocations, for JSON and for XML, both with a file begun *)
Definition xml_words : list string := ["cargo-cyclonedx"; "cyclonedx"; "--describe"; "binaries"; "--all-features"; "-F"; "x,y"; "--spec-version=1.4"].
Definition xml_options : options := mkOptions {|
  a_format := None; a_describe := Some DBinaries; a_all_features := true; a_no_default_features := false;
  a_features := ["x,y"]; a_target := None; a_target_in_filename := false; a_all := false; a_top_level := false;
  a_filename_override := None; a_license_strict := false; a_license_accept_named := []; a_spec_version := Some V1_4;
  a_no_build_deps := false |} None 0 0.
Example C84_case : apart (ex_machine true) ex_words (ex_machine true) xml_words /\ exists s1 s2 d',
  together (ex_machine true) ex_words (ex_machine true) xml_words ex_disk s1 s2 d'
  /\ d' ["w"; "app"; "one_bin.cdx.json"] = Some "" /\ d' ["w"; "app"; "one_bin.cdx.xml"] = Some "".
Proof.
  assert (A1 : command_line ex_words = Some (ex_options DBinaries)) by (vm_compute; reflexivity).
  assert (A2 : command_line xml_words = Some xml_options) by (vm_compute; reflexivity).
  split.
  { apply C84_formats. intros o1 o2 B1 B2. apply C80_command_line in B1, B2. rewrite A1 in B1. rewrite A2 in B2. injection B1 as <-. injection B2 as <-. discriminate. }
  destruct (ex_plan (ex_machine true) (ex_options DBinaries)) as (g & f1 & f2 & G & W & P1 & _ & _ & _ & V & _); auto.
  assert (X : exists g f1 f2, generate_sboms (ex_machine true) 100 xml_options = Done [g] /\ write_plan g = Done [f1; f2] /\ f_path f1 = ["w"; "app"; "one_bin.cdx.xml"]
    /\ valid_or_unchecked (ex_machine true) f1 = Done true).
  { destruct (generate_sboms (ex_machine true) 100 xml_options) as [gs| | |] eqn:E; vm_compute in E; try discriminate E; injection E as <-.
    do 3 eexists. split; [reflexivity|]. split; [vm_compute; reflexivity|]. split; vm_compute; reflexivity. }
  destruct X as (h & h1 & h2 & H & Wh & Ph & Vh).
  do 3 eexists. split; [|split].
  - exists (Packages [g] ex_disk), (Packages [h] ex_disk). split; [apply (begins_run _ _ _ _ _ A1); eapply starts_writing; exact G|].
    split; [apply (begins_run _ _ _ _ _ A2); eapply starts_writing; exact H|].
    eapply second_steps; [eapply first_steps; [eapply second_steps; [eapply first_steps; [apply at_first|]|]|]|]; cbn [on disk_of].
    + apply step_package. exact W.
    + apply step_package. exact Wh.
    + apply step_create. exact V.
    + apply step_create. exact Vh.
  - cbn [disk_of]. rewrite P1, Ph. reflexivity.
  - cbn [disk_of]. rewrite P1, Ph. reflexivity.
Qed.
Print Assumptions C84_any_schedule.
Print Assumptions C84_one_after_the_other.
Print Assumptions C84_formats.

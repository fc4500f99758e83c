(** C80: what each command line means. *)
From Verif Require Import Base Strings ModelTypes ConfigModel GenModel JsonModel RunModel GenSpec CliModel CliSpec CliProofs.
From Coq Require Import Lia.
Open Scope string_scope.
Open Scope list_scope.

(** A command line is accepted, with these options, exactly when it asks for them *)
Theorem C80_command_line argv r : command_line argv = Some r <-> asked argv r.
Proof.
  unfold asked. split.
  - destruct argv as [|p [|sub rest]]; try discriminate. cbn [command_line]. destruct (String.eqb_spec sub "cyclonedx") as [->|]; [|discriminate].
    destruct (lex rest) as [s|] eqn:L; [|discriminate]. intros B. exists p, rest, s. split; [reflexivity|]. split; [now apply lex_iff|now apply build_iff].
  - intros (p & rest & s & -> & W & A). cbn [command_line]. apply lex_iff in W. apply build_iff in A. now rewrite W.
Qed.
(** ... so no command line asks for two things *)
Theorem C80_one_meaning argv r r' : asked argv r -> asked argv r' -> r = r'.
Proof. rewrite <- !C80_command_line. congruence. Qed.

(** The options that come from a command line are those that the statements about runs assume, and every such choice of options
    comes from some command line *)
Theorem C80_accepted r :
  (exists argv, command_line argv = Some r)
  <-> (clap_accepts (o_args r) /\ o_verbose r <= 255 /\ o_quiet r <= 255 /\ o_manifest_path r <> Some "").
Proof.
  split.
  - intros (argv & H). apply C80_command_line in H as (p & rest & s & _ & _ & A). destruct A. repeat split; try assumption.
    + destruct as_verbose as (l & _ & X & Y). lia.
    + destruct as_quiet as (l & _ & X & Y). lia.
    + intros E. rewrite E in as_manifest. destruct as_manifest as (v & _ & N & <-). now apply N.
  - intros (C & V & Q & M). exists ("cargo-cyclonedx" :: "cyclonedx" :: map spell (options_of r)). apply C80_command_line.
    exists "cargo-cyclonedx", (map spell (options_of r)), (options_of r). split; [reflexivity|].
    split; [apply spell_written; intros o v; apply options_of_bare|now apply options_of_asks].
Qed.

(** Options of different names can change places *)
Theorem C80_any_order program a x y b sa sx sy :
  written a sa -> written x sx -> written y sy -> ~ In "--" (a ++ x ++ y) ->
  (forall o v w, In (o, v) sx -> In (o, w) sy -> False) ->
  command_line (program :: "cyclonedx" :: a ++ x ++ y ++ b) = command_line (program :: "cyclonedx" :: a ++ y ++ x ++ b).
Proof.
  intros Wa Wx Wy N D. rewrite !in_app_iff in N.
  assert (D' : forall o, In o (map fst sx) -> In o (map fst sy) -> False).
  { intros o I J. apply in_map_iff in I as ([o1 v] & <- & I). apply in_map_iff in J as ([o2 w] & E & J). cbn in E. subst. now apply (D o1 v w). }
  cbn [command_line]. rewrite (String.eqb_refl "cyclonedx").
  assert (K : forall x y sx sy, written x sx -> written y sy -> ~ In "--" x -> ~ In "--" y -> forall s, lex (a ++ x ++ y ++ b) = Some s ->
               exists t, s = sa ++ sx ++ sy ++ t /\ lex (a ++ y ++ x ++ b) = Some (sa ++ sy ++ sx ++ t)).
  { assert (Na : ~ In "--" a) by tauto. clear - Wa Na. intros x y sx sy Wx Wy Nx Ny s L. apply lex_iff in L. apply written_prefix with (s := sa) in L as (t1 & W1 & ->); [|assumption|assumption].
    apply written_prefix with (s := sx) in W1 as (t2 & W2 & ->); [|assumption|assumption].
    apply written_prefix with (s := sy) in W2 as (t3 & W3 & ->); [|assumption|assumption].
    exists t3. split; [reflexivity|]. apply lex_iff. repeat (apply written_app; auto). }
  destruct (lex (a ++ x ++ y ++ b)) as [s|] eqn:L1.
  - destruct (K x y sx sy Wx Wy ltac:(tauto) ltac:(tauto) s L1) as (t & -> & ->). apply build_values. intros o.
    rewrite (values_app o sa), (values_app o sa). f_equal. rewrite !app_assoc, (values_app o (sx ++ sy)), (values_app o (sy ++ sx)). f_equal. now apply values_swap.
  - destruct (lex (a ++ y ++ x ++ b)) as [s|] eqn:L2; [|reflexivity].
    destruct (K y x sy sx Wy Wx ltac:(tauto) ltac:(tauto) s L2) as (t & _ & E). rewrite E in L1. discriminate L1.
Qed.

(** The ways to write an option with its value mean the same *)
Theorem C80_spellings program a b sa o n c v :
  written a sa -> ~ In "--" a -> long_valued o n -> short_valued o c -> plain v -> v <> "" -> (forall r, v <> ("=" ++ r)%string) ->
  let m w := command_line (program :: "cyclonedx" :: a ++ w ++ b) in
  m ["--" ++ n; v]%string = m ["--" ++ n ++ "=" ++ v]%string
  /\ m ["-" ++ String c ""; v]%string = m ["--" ++ n ++ "=" ++ v]%string
  /\ m ["-" ++ String c v]%string = m ["--" ++ n ++ "=" ++ v]%string
  /\ m ["-" ++ String c ("=" ++ v)]%string = m ["--" ++ n ++ "=" ++ v]%string.
Proof.
  intros Wa N L S P Ne Nq m.
  assert (K : forall w w', written w [(o, v)] -> written w' [(o, v)] -> ~ In "--" w -> ~ In "--" w' -> m w = m w').
  { assert (K1 : forall w w' s, written w [(o, v)] -> written w' [(o, v)] -> ~ In "--" w -> ~ In "--" w' -> lex (a ++ w ++ b) = Some s -> lex (a ++ w' ++ b) = Some s).
    { intros w w' s W W' X X' E. apply lex_iff in E. apply lex_iff. apply written_prefix with (s := sa) in E as (t1 & W1 & ->); [|assumption|assumption].
      apply written_prefix with (s := [(o, v)]) in W1 as (t2 & W2 & ->); [|assumption|assumption]. repeat (apply written_app; auto). }
    intros w w' W W' X X'. unfold m. cbn [command_line]. rewrite (String.eqb_refl "cyclonedx").
    destruct (lex (a ++ w ++ b)) as [s|] eqn:E; [now rewrite (K1 w w' s)|]. destruct (lex (a ++ w' ++ b)) as [s|] eqn:E'; [|reflexivity].
    rewrite (K1 w' w s) in E by assumption. discriminate E. }
  assert (Nv : v <> "--") by (intros ->; destruct P as [P|P]; [discriminate P|now apply (P "-")]).
  destruct (long_valued_find _ _ L) as (_ & _ & _ & Nn). destruct (short_valued_find _ _ S) as (_ & _ & Nc).
  assert (Q1 : written ["--" ++ n ++ "=" ++ v]%string [(o, v)]) by (apply w_equals; [assumption|constructor]).
  assert (Q2 : ~ In "--" ["--" ++ n ++ "=" ++ v]%string) by (intros [E|[]]; destruct n; discriminate E).
  repeat split; apply K; try assumption.
  - apply w_next; [assumption|assumption|constructor].
  - intros [E|[E|[]]]; [|now apply Nv]. injection E as E. now apply Nn.
  - apply (w_short_next [] "" o c v); [constructor|assumption|assumption|constructor].
  - intros [E|[E|[]]]; [|now apply Nv]. injection E as E. now apply Nc.
  - apply (w_attached [] "" o c v); [constructor|assumption|assumption|assumption|constructor].
  - intros [E|[]]. injection E as E _. now apply Nc.
  - apply (w_attached_equals [] "" o c v); [constructor|assumption|constructor].
  - intros [E|[]]. injection E as E _. now apply Nc.
Qed.

(** Only the lists and the counters may be given more than once *)
Theorem C80_once argv r program rest s o l :
  command_line argv = Some r -> argv = program :: "cyclonedx" :: rest -> written rest s -> given o s l -> 2 <= List.length l ->
  o = OVerbose \/ o = OQuiet \/ o = OFeatures \/ o = OLicenseAcceptNamed.
Proof.
  intros H -> W G L. apply C80_command_line in H as (p & rest' & s' & E & W' & A). injection E as <- <-.
  apply lex_iff in W. apply lex_iff in W'. rewrite W in W'. injection W' as <-.
  assert (F : forall l', given o s l' -> List.length l' <= 1 -> False) by (intros l' G' L'; apply given_iff in G; apply given_iff in G'; subst; lia).
  assert (FS : forall b, switched o s b -> False) by (intros [] X; [destruct X as [v X]|]; apply (F _ X); cbn; lia).
  assert (FO : forall x, at_most_once o s x -> False) by (intros [v|] X; apply (F _ X); cbn; lia).
  assert (FC : forall A (R : string -> A -> Prop) x, chosen o R s x -> False) by (intros A0 R [v|] X; [destruct X as (w & X & _)|]; apply (F _ X); cbn; lia).
  destruct A. destruct o; auto; exfalso; eauto.
Qed.

(** A command line with most ways of writing options: the last feature list is empty, the value of the target is a dash *)
Example C80_case :
  command_line ["cargo-cyclonedx"; "cyclonedx"; "-vvqf=json"; "--describe"; "all-cargo-targets"; "-Fserde std"; "--features="; "--target"; "-"; "-a";
                "--spec-version=1.5"; "--license-accept-named"; "a=b"; "--manifest-path=/w/Cargo.toml"; "--"]
  = Some (mkOptions
      {| a_format := Some FJson; a_describe := Some DAllCargoTargets; a_all_features := false; a_no_default_features := false;
         a_features := ["serde std"; ""]; a_target := Some "-"; a_target_in_filename := false; a_all := true; a_top_level := false;
         a_filename_override := None; a_license_strict := false; a_license_accept_named := ["a=b"]; a_spec_version := Some V1_5;
         a_no_build_deps := false |} (Some "/w/Cargo.toml") 2 1)
  /\ forall w, In w [["--format=yaml"]; ["-f"]; ["-f"; "--all"]; ["--all=yes"]; ["--all"; "--all"]; ["--all"; "--top-level"]; ["Cargo.toml"]; ["--"; "--all"];
                     ["--describe=crate"; "--override-filename=x"]; ["--manifest-path="]; ["-fv"]; ["--form=json"]; ["-fxml"; "--format=xml"]; ["-"]] ->
     command_line ("cargo-cyclonedx" :: "cyclonedx" :: w) = None.
Proof.
  split; [vm_compute; reflexivity|]. intros w I. cbn [In] in I. repeat destruct I as [<-|I]; try (vm_compute; reflexivity). destruct I.
Qed.
(** The hypotheses of the other statements hold of real command lines *)
Example C80_case_order :
  written ["-v"] [(OVerbose, "")] /\ written ["--format"; "json"] [(OFormat, "json")] /\ written ["-fjson"] [(OFormat, "json")]
  /\ ~ In "--" (["-v"] ++ ["-fjson"] ++ ["--all"]) /\ long_valued OFormat "format" /\ short_valued OFormat "f" /\ plain "json".
Proof.
  repeat split; try (apply lex_iff; vm_compute; reflexivity).
  - cbn. intuition discriminate.
  - exists (Some "f"%char). cbn. auto.
  - exists "format". cbn. auto.
  - right. discriminate.
Qed.
Print Assumptions C80_command_line.
Print Assumptions C80_one_meaning.
Print Assumptions C80_accepted.
Print Assumptions C80_any_order.
Print Assumptions C80_spellings.
Print Assumptions C80_once.

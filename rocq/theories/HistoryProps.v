(** C83: what histories of invocations do to the disk. *)
From Verif Require Import Base Strings ModelTypes ConfigModel GenModel GenSpec GenExample GenProps ValModel ValSpec RunModel RunSpec RunProofs RunProps
  OptionSpec OptionProps StopSpec CliModel CliSpec CliProofs CliProps InvokeModel InvokeSpec InvokeProps HistorySpec.
Open Scope string_scope.
Open Scope list_scope.

Lemma disk_dec (d d' : disk) q : d' q = d q \/ d' q <> d q.
Proof. destruct (d' q) as [a|], (d q) as [b|]; try (right; discriminate); [|now left]. destruct (string_dec a b) as [->|N]; [now left|right; congruence]. Qed.
Lemma sublist_one {A} (P : A -> Prop) l s s' : sublist_of P l s -> sublist_of P l s' -> s = s'.
Proof. intros H. revert s'. induction H; intros s' H'; inversion H'; subst; try contradiction; f_equal; auto. Qed.

Lemma nodup_inj {A B} (f : A -> B) l x y : NoDup (map f l) -> In x l -> In y l -> f x = f y -> x = y.
Proof.
  induction l as [|a l IH]; cbn; intros N X Y E; [destruct X|]. inversion N as [|? ? N1 N2]; subst.
  destruct X as [<-|X], Y as [<-|Y]; auto; exfalso; apply N1; [rewrite E|rewrite <- E]; now apply in_map.
Qed.

(** Whatever has changed is an SBOM that one of the invocations was asked for *)
Theorem C83_only_sboms d l d' q : history d l d' -> (forall m argv, In (m, argv) l -> cargo_is_cargo m) -> d' q <> d q ->
  exists m argv o, In (m, argv) l /\ asked argv o /\ sbom_path m o q.
Proof.
  intros H. induction H as [d|d m argv s l d' I H IH]; intros K N; [congruence|].
  destruct (disk_dec (disk_of s) d' q) as [E|E].
  - rewrite E in N. destruct (C82_touched m argv d s q) as (o & A & S); auto; [apply (K m argv); now left|]. exists m, argv, o. split; [now left|auto].
  - destruct IH as (m' & argv' & o & X & Y); auto; [intros m0 a0 X; apply (K m0 a0); now right|]. exists m', argv', o. split; [now right|exact Y].
Qed.
(** No file is ever removed: SBOMs of packages that are gone, or of options used before, stay *)
Theorem C83_nothing_removed d l d' q : history d l d' -> d q <> None -> d' q <> None.
Proof.
  intros H. induction H as [d|d m argv s l d' I H IH]; intros N; [exact N|]. apply IH. destruct (disk_dec d (disk_of s) q) as [E|E]; [congruence|].
  destruct I as [o s' C R|r _ _]; [|exact N]. destruct (C69_only_announced_files _ _ _ _ _ R E) as (gs & f & c & _ & _ & _ & -> & _). discriminate.
Qed.

(** What a successful invocation writes does not depend on what was there: the disk before matters only for the other files *)
Theorem C83_overwrites m argv d d1 e e1 q : invocation m argv d (Ended Succeeded d1) -> invocation m argv e (Ended Succeeded e1) ->
  d1 q = e1 q \/ (d1 q = d q /\ e1 q = e q).
Proof.
  intros I J. inversion I as [o s C R E|r C _ E]; inversion J as [o' s' C' R' E'|r' C' _ E']; try congruence; [|subst; now right].
  assert (o' = o) as -> by congruence. clear E E'.
  destruct (C69_success _ _ _ _ R) as (gs & M & _ & F1 & F2). destruct (C69_success _ _ _ _ R') as (gs' & M' & _ & G1 & G2).
  assert (gs' = gs) as -> by (eapply C69_made_once; eauto).
  destruct (in_dec (list_eq_dec string_dec) q (map f_path (announced gs))) as [X|X].
  - apply last_of in X as (b & f & a & Ea & <- & L). destruct (F1 b f a Ea L) as (t & T & ->). destruct (G1 b f a Ea L) as (t' & T' & ->). left. congruence.
  - right. split; [apply F2|apply G2]; intros f Hf <-; apply X; now apply in_map.
Qed.

(** The paths do not depend on the clock *)
Lemma paths_at_another_time m o o' now uuid gs gs' : cargo_is_cargo m -> clap_accepts (o_args o) -> same_but_loudness o o' ->
  made m o gs -> made (at_another_time m now uuid) o' gs' -> map f_path (announced gs') = map f_path (announced gs).
Proof.
  intros K Cl [S1 S2] M M'. destruct (made_workspace m o gs M) as (meta & cfg & man & X & L & G). destruct (K _ _ _ _ G) as (nodes & W).
  destruct (C73_files m o cfg man meta nodes Cl X L G W gs M) as (t & T & F).
  assert (X' : run_config (at_another_time m now uuid) o' = Done cfg) by (unfold run_config in *; rewrite <- S1; exact X).
  assert (L' : locate_manifest (at_another_time m now uuid) o' = Done man) by (unfold locate_manifest in *; rewrite <- S2; exact L).
  assert (Cl' : clap_accepts (o_args o')) by (rewrite <- S1; exact Cl).
  destruct (C73_files (at_another_time m now uuid) o' cfg man meta nodes Cl' X' L' G W gs' M') as (t' & T' & F').
  assert (t' = t) as ->.
  { clear - T T' S1.
    destruct T as [e B|x B A|out h B A O H]; destruct T' as [e' B'|x' B' A'|out' h' B' A' O' H']; cbn in B'; try (cbn in O'); rewrite <- ?S1 in *; try congruence.
    rewrite O in O'. injection O' as <-. apply host_lines in H. apply host_lines in H'. congruence. }
  rewrite <- S1 in F'. clear - F F' W.
  assert (U : forall p p', In p (cm_packages meta) -> In p' (cm_packages meta) -> pk_id p = pk_id p' -> p = p') by (intros p p'; apply nodup_inj; apply (wf_packages _ _ W)).
  revert gs' F'. induction F as [|id g ids gs (p & fs & P1 & P2 & P3 & P4 & _) F IH]; intros gs' F'; inversion F' as [|id' g' ids' gs'' (p' & fs' & P1' & P2' & P3' & P4' & _) F'' E1 E2]; [reflexivity|].
  subst. unfold announced in *. cbn [flat_map]. rewrite P3, P3', !map_app, (IH _ F''). f_equal.
  assert (p' = p) as -> by (apply U; auto). unfold files_of in P4, P4'.
  destruct (a_describe (o_args o)) as [[]|]; [congruence| | |congruence];
    destruct P4 as (sel & Q1 & ->), P4' as (sel' & Q1' & ->); now rewrite (sublist_one _ _ _ _ Q1 Q1').
Qed.

(** An invocation that is done again, after it has been interrupted or has failed any number of times, leaves what it would have
    left at once *)
Theorem C83_again m argv o d0 l d d1 d2 : cargo_is_cargo m -> asked argv o -> history d0 l d -> (forall x, In x l -> same_request m o x) ->
  invocation m argv d (Ended Succeeded d1) -> invocation m argv d0 (Ended Succeeded d2) -> forall q, d1 q = d2 q.
Proof.
  intros K A H Sm I J q. pose proof (asked_clap _ _ A) as Cl. apply C80_command_line in A.
  assert (R : run m o d (Ended Succeeded d1)) by (inversion I as [o' s C R E|r C _ E]; congruence).
  assert (R' : run m o d0 (Ended Succeeded d2)) by (inversion J as [o' s C R' E|r C _ E]; congruence).
  destruct (C69_success _ _ _ _ R) as (gs & M & _ & F1 & F2). destruct (C69_success _ _ _ _ R') as (gs' & M' & _ & G1 & G2).
  assert (gs' = gs) as -> by (eapply C69_made_once; eauto).
  destruct (in_dec (list_eq_dec string_dec) q (map f_path (announced gs))) as [X|X].
  - apply last_of in X as (b & f & a & Ea & <- & L). destruct (F1 b f a Ea L) as (t & T & ->). destruct (G1 b f a Ea L) as (t' & T' & ->). congruence.
  - assert (N : forall f, In f (announced gs) -> f_path f <> q) by (intros f Hf <-; apply X; now apply in_map).
    rewrite (F2 q N), (G2 q N). clear - K Cl H Sm M X. induction H as [d|d m' argv' s l d' I H IH]; [reflexivity|].
    rewrite IH by (intros x Hx; apply Sm; now right). clear IH H.
    destruct (disk_dec d (disk_of s) q) as [E|E]; [exact E|exfalso]. destruct (Sm (m', argv') (or_introl eq_refl)) as (now & uuid & o' & Em & A' & Lo). cbn in Em, A'. subst m'.
    apply C80_command_line in A'. destruct I as [o1 s' C R|r _ _]; [|now apply E]. assert (o1 = o') as -> by congruence.
    destruct (C69_only_announced_files _ _ _ _ _ R E) as (gs' & f & c & M' & Hf & P & _). apply X. rewrite <- (paths_at_another_time m o o' now uuid gs gs' K Cl Lo M M'), <- P.
    now apply in_map.
Qed.

(** A history: an invocation that is interrupted when it has emptied a file that was there, then one that is done *)
Lemma ex_plan m o : m = ex_machine true \/ m = at_another_time (ex_machine true) "1970-01-01T00:00:00Z" "urn:uuid:00000000-0000-4000-8000-000000000001" ->
  o = ex_options DBinaries \/ o = mkOptions (run_args_ex DBinaries) None 4 0 ->
  exists g f1 f2, generate_sboms m 100 o = Done [g] /\ write_plan g = Done [f1; f2] /\ f_path f1 = ["w"; "app"; "one_bin.cdx.json"]
    /\ file_text m f1 = Done "CycloneDX" /\ file_text m f2 = Done "CycloneDX" /\ f_path f2 = ["w"; "app"; "two_bin.cdx.json"]
    /\ valid_or_unchecked m f1 = Done true /\ valid_or_unchecked m f2 = Done true.
Proof.
  intros Hm Ho. destruct (generate_sboms m 100 o) as [gs| | |] eqn:G; destruct Hm as [-> | ->], Ho as [-> | ->]; vm_compute in G; try discriminate G; injection G as <-;
    do 3 eexists; (split; [reflexivity|]); (split; [vm_compute; reflexivity|]); repeat split; vm_compute; reflexivity.
Qed.
Example C83_case : exists s d1 d2,
  let interrupted := (at_another_time (ex_machine true) "1970-01-01T00:00:00Z" "urn:uuid:00000000-0000-4000-8000-000000000001", ex_words') in
  history ex_disk [interrupted] (disk_of s) /\ (forall x, In x [interrupted] -> same_request (ex_machine true) (ex_options DBinaries) x)
  /\ invocation (ex_machine true) ex_words (disk_of s) (Ended Succeeded d1) /\ invocation (ex_machine true) ex_words ex_disk (Ended Succeeded d2)
  /\ ex_disk ["w"; "app"; "one_bin.cdx.json"] = Some "old" /\ disk_of s ["w"; "app"; "one_bin.cdx.json"] = Some ""
  /\ d1 ["w"; "app"; "one_bin.cdx.json"] = Some "CycloneDX".
Proof.
  destruct (ex_plan (at_another_time (ex_machine true) "1970-01-01T00:00:00Z" "urn:uuid:00000000-0000-4000-8000-000000000001") (mkOptions (run_args_ex DBinaries) None 4 0)) as (g & f1 & f2 & G & W & P1 & _ & _ & _ & V & _); auto.
  set (s := Writing f1 (file_text (at_another_time (ex_machine true) "1970-01-01T00:00:00Z" "urn:uuid:00000000-0000-4000-8000-000000000001") f1) [f2] [] (put ex_disk (f_path f1) "")).
  assert (A : asked ex_words' (mkOptions (run_args_ex DBinaries) None 4 0)) by (apply C80_command_line; vm_compute; reflexivity).
  assert (Run : forall d, exists d', invocation (ex_machine true) ex_words d (Ended Succeeded d') /\ d' ["w"; "app"; "one_bin.cdx.json"] = Some "CycloneDX").
  { clear. intros d. destruct (ex_plan (ex_machine true) (ex_options DBinaries)) as (g & f1 & f2 & G & W & P1 & T1 & T2 & P2 & V1 & V2); auto.
    eexists. split.
    - apply (invoked _ _ _ (ex_options DBinaries)); [vm_compute; reflexivity|]. exists (Packages [g] d). split; [eapply starts_writing; exact G|].
      eapply two_written; eauto; discriminate.
    - rewrite P1, P2. unfold append_to, put. cbn. reflexivity. }
  destruct (Run (disk_of s)) as (d1 & R1 & D1). destruct (Run ex_disk) as (d2 & R2 & _). exists s, d1, d2. cbn zeta. split.
  - apply (history_cons ex_disk _ _ s); [|constructor]. apply C80_command_line in A. apply (invoked _ _ _ _ _ A). exists (Packages [g] ex_disk).
    split; [eapply starts_writing; exact G|]. apply first_begun; auto.
  - split; [intros x [<-|[]]; do 3 eexists; split; [reflexivity|]; split; [exact A|split; reflexivity]|].
    repeat (split; [assumption|]). split; [reflexivity|]. split; [|exact D1]. unfold s. cbn [disk_of]. rewrite P1. reflexivity.
Qed.
Print Assumptions C83_only_sboms.
Print Assumptions C83_nothing_removed.
Print Assumptions C83_overwrites.
Print Assumptions C83_again.

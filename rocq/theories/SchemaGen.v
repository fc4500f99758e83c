(** The SBOMs of the generator meet the additional conditions of SchemaSpec.v, so their JSON form
    conforms to the CycloneDX schema. *)
From Verif Require Import Base Strings Base64 ModelTypes ConfigModel GenModel GenSpec
  GenProofs GenProofs2 GenProofs3 GenProofs4 GenProofs5 GenProofs6 GenProofs7 GenProofs8
  Regex Enums Json JsonModel JsonProofs ValModel ValSpec ValProofs ValProofs2 ValProofs3 ValProofs4 GenValProofs
  Schema SchemaText SchemaLemmas SchemaSpec.
From Coq Require Import NArith ZArith Lia.
Open Scope string_scope.
Open Scope list_scope.

(** ** Values with different references are written differently *)
Lemma same_member x y k a : same (JObj x) (JObj y) = true -> In (k, a) x ->
  exists b, In (k, b) y /\ same a b = true.
Proof.
  cbn [same]. rewrite andb_true_iff. intros [_ H]. induction x as [|[k' a'] x IH]; intros I; [destruct I|].
  rewrite andb_true_iff in H. destruct H as [H1 H2]. destruct I as [[= -> ->]|I]; [|auto].
  destruct (assoc k y) as [b|] eqn:E; [|discriminate]. exists b. split; [|exact H1].
  clear -E. induction y as [|[k' b'] y IH]; [discriminate|]. cbn [assoc] in E.
  destruct (String.eqb k k') eqn:K; [apply String.eqb_eq in K; injection E as ->; subst; now left|right; auto].
Qed.
Lemma same_obj fs gs k s : same (obj fs) (obj gs) = true -> In (k, Some (JStr s)) fs ->
  In (k, Some (JStr s)) gs.
Proof.
  intros H I. unfold obj in H. apply (in_members (fun _ _ => true)) in I. destruct (same_member _ _ _ _ H I) as (b & B & S).
  apply (in_members (fun _ _ => true)) in B. destruct b; cbn in S; try discriminate. apply String.eqb_eq in S. now subst.
Qed.
Lemma all_different_intro {A} (f : A -> json) (g : A -> string) l :
  (forall a b, In a l -> In b l -> same (f a) (f b) = true -> g a = g b) -> NoDup (map g l) ->
  all_different (map f l) = true.
Proof.
  induction l as [|a l IH]; intros H N; [reflexivity|]. cbn [map all_different]. inversion N as [|? ? N1 N2]; subst.
  rewrite IH; [|intros; apply H; cbn; auto|exact N2]. rewrite andb_true_r. apply forallb_forall. intros j Hj.
  apply in_map_iff in Hj as (b & <- & Hb). destruct (same (f a) (f b)) eqn:E; [|reflexivity].
  destruct N1. rewrite (H a b); cbn; auto. now apply in_map.
Qed.
Definition ref_of (c : component) : string := match c_bom_ref c with Some r => r | None => "" end.
Lemma components_once v l : (forall c, In c l -> exists r, c_bom_ref c = Some r) ->
  NoDup (map ref_of l) -> written_once (to_json_component v) l.
Proof.
  intros H N. unfold written_once. apply all_different_intro with (g := ref_of); [|exact N].
  intros a b Ha Hb S. rewrite !to_json_component_eq in S.
  destruct (H a Ha) as [ra Ea], (H b Hb) as [rb Eb]. unfold ref_of. rewrite Ea, Eb.
  eapply same_obj with (k := "bom-ref") (s := ra) in S.
  - rewrite Eb in S. cbn [In] in S.
    repeat (destruct S as [S|S]; [try discriminate; injection S as S; now subst|]). destruct S.
  - rewrite Ea. cbn [In]. auto.
Qed.
Lemma dependencies_once l : NoDup (map d_ref l) -> written_once to_json_dependency l.
Proof.
  intros N. unfold written_once. apply all_different_intro with (g := d_ref); [|exact N].
  intros a b _ _ S. eapply same_obj with (k := "ref") (s := d_ref a) in S; [|now left].
  cbn [In] in S. destruct S as [S|[S|[]]]; [now injection S|discriminate].
Qed.
Lemma chars_app s t : chars (s ++ t)%string = (chars s + chars t)%N.
Proof. induction s as [|c s IH]; [reflexivity|]. cbn. destruct (continues c); rewrite IH; lia. Qed.

(** What the generator hands on unchecked: package identifiers are not empty, a package is listed
    once among the dependencies of another, and e-mail addresses have the format of the schema. *)
Record tidy_metadata (meta : cargo_metadata) (nodes : list node) : Prop := {
  tm_ids : forall p, In p (cm_packages meta) -> (1 <= chars (pk_id p))%N;
  tm_deps : forall n, In n nodes -> NoDup (map nd_pkg (n_deps n)) }.
Definition emails_agree (w : world) (fmt : string -> string -> bool) : Prop :=
  forall e, w_email_ok w e = true -> fmt "idn-email" (normalize e) = true.

Section Gen.
Variable w : world.
Variable x : parsers.
Variable fmt : string -> string -> bool.
Variable cfg : config.
Variable v : spec_version.
Hypothesis sl : same_libraries w x.
Hypothesis mails : emails_agree w fmt.

Lemma hashes_tame manifest p : every_in (get_hashes (crate_hashes w manifest) p) tame_hash.
Proof.
  pose proof (get_hashes_spec w manifest p) as S. cbn zeta in S.
  destruct (get_hashes (crate_hashes w manifest) p) as [hs|]; [|exact I].
  destruct S as (h & lk & -> & Hin & _ & Hc). cbn. split; auto.
  destruct (locate_cargo_lock w manifest) as [f|]; [|destruct Hin].
  destruct (w_lockfile w f) as [l|] eqn:El; [|destruct Hin].
  destruct (sl_checksum _ _ sl _ _ _ _ El Hin Hc) as [L A]. split; [exact A|]. cbn. rewrite L. cbn. tauto.
Qed.
Lemma licenses_tame p : every_in (get_licenses w cfg p) (tame_license_choice fmt v).
Proof.
  unfold get_licenses. destruct (pk_license p) as [l|].
  - match goal with |- context [match ?o with Some e => [LicExpression None e] | None => _ end] =>
      destruct o as [e|] end; cbn [every_in when every tame_license_choice]; (split; [|exact I]).
    + right. reflexivity.
    + intros _. split; [reflexivity|exact I].
  - destruct (pk_license_file p) as [f|]; [|exact I]. destruct (w_read_file w _ f) as [content|]; [|exact I].
    cbn [every_in when every tame_license_choice]. split; [|exact I]. intros _. split; [reflexivity|exact I].
Qed.
Lemma refs_tame p : (forall s, In (Some s) (link_fields p) -> starts_with "urn:cdx" s = false) ->
  every_in (get_external_references w p) (tame_ext_ref fmt v).
Proof.
  intros H.
  assert (O : forall t o, (forall s, o = Some s -> starts_with "urn:cdx" s = false) -> ext_ref_type_in v t ->
     forall e, In e (opt_ref w t o) -> tame_ext_ref fmt v e).
  { intros t [s|] Hs Ht e He; [|destruct He]. unfold opt_ref in He. destruct (w_uri_ok w s) eqn:E; [|destruct He].
    destruct He as [<-|[]]. split; [exact Ht|]. split; [|exact I]. cbn. unfold uri_of.
    rewrite (Hs s eq_refl). exact I. }
  unfold get_external_references.
  assert (A : forall e, In e (opt_ref w ERDocumentation (pk_documentation p) ++ opt_ref w ERWebsite (pk_homepage p)
               ++ opt_ref w EROther (pk_links p) ++ opt_ref w ERVcs (pk_repository p)) -> tame_ext_ref fmt v e).
  { intros e He. repeat (apply in_app_or in He as [He|He]);
      (eapply O in He; [exact He| |exact I]); intros s Es; apply H; cbn; rewrite Es; auto. }
  destruct (_ ++ _) as [|e l]; [exact I|]. cbn [every_in when]. now apply every_intro.
Qed.

Lemma component_tame ws manifest p root kinds c :
  (forall s, In (Some s) (link_fields p) -> starts_with "urn:cdx" s = false) -> (1 <= chars (pk_id p))%N ->
  create_component w cfg ws (crate_hashes w manifest) p root kinds = Done c ->
  tame_component x fmt v c.
Proof.
  intros Hl Hid H. unfold create_component in H. inv_bind H. injection H as <-.
  pose proof (hashes_tame manifest p) as Hh. pose proof (licenses_tame p) as L. pose proof (refs_tame p Hl) as R.
  cbn -[normalize get_hashes get_licenses get_external_references crate_hashes every_in trim chars].
  repeat match goal with |- _ /\ _ => split end; try exact I; try assumption; try (intros _; exact I).
  - intros _. exact Hid.
  - intros _. reflexivity.
Qed.
Lemma subs_tame ws p top : forall ts n subs ks, subcomponents w ws p top n ts = Done (subs, ks) ->
  forall c, In c subs -> tame_component x fmt v c.
Proof.
  induction ts as [|t ts IH]; intros n subs ks H c Hc; cbn [subcomponents] in H.
  - injection H as <- <-. destruct Hc.
  - destruct (target_class t) as [cls|] eqn:Ec; [|eauto].
    inv_bind H. inv_bind H. inv_bind H. destruct v2 as [subs' ks']. injection H as <- <-.
    destruct Hc as [<-|Hc]; [|eauto].
    cbn -[normalize every_in chars append].
    repeat match goal with |- _ /\ _ => split end; try exact I; try (intros _; exact I).
    + intros _. rewrite chars_app. cbn [chars]. change (continues " ") with false. cbv iota. lia.
    + intros _. reflexivity.
Qed.
Lemma author_tame a c : parse_author w a = Some c -> tame_contact fmt v c.
Proof.
  unfold parse_author. destruct (author_captures a) as [[n [e|]]|].
  - destruct (w_email_ok w e) eqn:E; [|discriminate]. intros [= <-]. unfold contact_new, tame_contact. cbn -[normalize].
    split; [reflexivity|]. intros _. apply mails, E.
  - intros [= <-]. split; [reflexivity|intros _; exact I].
  - intros [= <-]. split; [reflexivity|intros _; exact I].
Qed.
Lemma metadata_tame ws manifest p md tk :
  (forall s, In (Some s) (link_fields p) -> starts_with "urn:cdx" s = false) -> (1 <= chars (pk_id p))%N ->
  create_metadata w cfg ws (crate_hashes w manifest) p = Done (md, tk) ->
  (forall c subs, m_component md = Some c -> c_components c = Some subs -> written_once (to_json_component v) subs) ->
  tame_metadata x fmt v md.
Proof.
  intros Hl Hid H Once. unfold create_metadata in H. inv_bind H. inv_bind H. inv_bind H. injection H as <- <-.
  destruct v1 as [c tk']. cbn [fst snd] in *.
  unfold create_toplevel_component in Hv0. inv_bind Hv0. inv_bind Hv0. inv_bind Hv0. injection Hv0 as <- <-.
  destruct v4 as [subs ks]. cbn [fst snd m_component] in *.
  pose proof (subs_tame _ _ _ _ _ _ _ Hv4) as S.
  pose proof (component_tame _ _ _ _ _ _ Hl Hid Hv2) as T.
  specialize (Once _ subs eq_refl eq_refl).
  unfold tame_metadata. cbn -[normalize tool_new property_new tame_component create_authors every_in].
  split; [|split; [|split; [|split; [|split; [|split]]]]]; try exact I.
  - cbn. split; auto. split; [exact I|intros _; exact I].
  - destruct (create_authors w p) as [|a l] eqn:Ea; [exact I|]. cbn [every_in when]. apply every_intro.
    intros a' Ha. rewrite <- Ea in Ha. unfold create_authors in Ha. apply in_flat_map in Ha as (s & _ & Hs).
    destruct (parse_author w s) eqn:Ep; [|destruct Hs]. destruct Hs as [->|[]]. eapply author_tame; eauto.
  - destruct v1; cbn in T |- *.
    repeat match type of T with _ /\ _ => destruct T as [?T T] end.
    repeat match goal with |- _ /\ _ => split end; try assumption.
    apply every_intro. exact S.
  - intros _. exact I.
Qed.
End Gen.

Section Sbom.
Variables (w : world) (fuel : nat) (meta : cargo_metadata) (nodes : list node) (cfg : config) (m : string) (g : generated).
Hypothesis wf : well_formed meta nodes.
Hypothesis tm : tidy_metadata meta nodes.
Hypothesis Hg : sbom_of w fuel meta cfg m g.
Hypothesis fresh : forall p n, In p (cm_packages meta) -> pk_id p <> sub_ref m n.
Variable x : parsers.
Variable fmt : string -> string -> bool.
Hypothesis sl : same_libraries w x.
Hypothesis mails : emails_agree w fmt.
Hypothesis links : no_bom_links meta.
Variable v : spec_version.

Lemma map_ref_of l : (forall c, In c l -> exists r, c_bom_ref c = Some r) -> map Some (map ref_of l) = map c_bom_ref l.
Proof.
  induction l as [|c l IH]; intros H; [reflexivity|]. cbn [map]. rewrite IH by (intros; apply H; now right).
  destruct (H c (or_introl eq_refl)) as [r E]. unfold ref_of. now rewrite E.
Qed.

Lemma wanted_once o n : NoDup (map nd_pkg (n_deps n)) -> NoDup (wanted_deps o n).
Proof.
  unfold wanted_deps. induction (n_deps n) as [|d l IH]; intros N; [exact N|]. cbn [map filter] in *.
  inversion N as [|? ? N1 N2]; subst. destruct (existsb _ _); [|auto]. cbn [map]. constructor; auto.
  intros Hi. apply N1. apply in_map_iff in Hi as (d' & E & Hd). apply filter_In in Hd as [Hd _].
  rewrite <- E. now apply in_map.
Qed.

Lemma generated_tame : tame_bom x fmt v (g_bom g).
Proof.
  destruct (generated_shape _ _ _ _ _ _ _ wf Hg fresh)
    as (md0 & c0 & subs & comps0 & A & B & C & D & R & Ls & Lc & _ & _ & _ & F & ND).
  pose proof (sbom_of_ok _ _ _ nodes _ _ _ wf Hg) as Hok.
  destruct (sbom_dependencies _ _ _ _ _ _ wf _ _ Hok) as (D1 & D2 & D3).
  destruct (sbom_components _ _ _ _ _ _ wf _ _ Hok) as (_ & _ & CC).
  destruct Hok as [H Hm].
  apply create_sbom_inv in H as (kinds & ps & ns & rp & comps & md & tk & Hk & Hsel & Hin & Hid & Hc & Hmd & _ & _ & _ & _ & Eb & Ec & Ed & Eg); auto.
  assert (md0 = md) by congruence. subst md0. assert (comps0 = comps) by congruence. subst comps0.
  assert (Each : forall c, In c comps -> tame_component x fmt v c).
  { intros c Hc'.
    assert (exists p, In p (filter (fun p => negb (pk_id p =? m)%string) (map snd ps)) /\
         create_component w cfg (cm_workspace_root meta) (crate_hashes w (pk_manifest rp)) p rp kinds = Done c) as (p & Hp & E).
    { clear -Hc Hc'. induction Hc as [|p y l l' E _ IH]; [destruct Hc'|]. destruct Hc' as [->|Hc'].
      - exists p. split; auto. now left.
      - destruct (IH Hc') as (p' & A & B). exists p'. split; auto. now right. }
    apply filter_In in Hp as [Hp _]. apply in_map_iff in Hp as ([k p'] & Ep & Hp). cbn in Ep; subst p'.
    apply bm_In_get in Hp; [|apply Hsel]. apply (sel_ps _ _ _ _ _ _ Hsel) in Hp as (_ & P1 & _).
    eapply component_tame; eauto. apply (tm_ids _ _ tm), P1. }
  assert (Split : NoDup (flat_map ValSpec.component_refs subs) /\ NoDup (flat_map ValSpec.component_refs comps)).
  { inversion ND as [|? ? _ ND']; subst. clear -ND'.
    induction (flat_map ValSpec.component_refs subs) as [|a l IH]; [split; [constructor|exact ND']|].
    cbn in ND'. inversion ND' as [|? ? N1 N2]; subst. destruct (IH N2). split; auto. constructor; auto.
    intros Hi. apply N1, in_app_iff. now left. }
  destruct Split as [Ns Nc].
  assert (Once : forall l, (forall s, In s l -> c_components s = None /\ exists r, c_bom_ref s = Some r) ->
    NoDup (flat_map ValSpec.component_refs l) -> written_once (to_json_component v) l).
  { intros l Hl N. assert (Hr : forall c, In c l -> exists r, c_bom_ref c = Some r) by (intros; now apply Hl).
    apply components_once; [exact Hr|]. replace (map ref_of l) with (flat_map ValSpec.component_refs l); auto.
    apply map_some_inj. now rewrite flat_leaf, map_ref_of. }
  rewrite Eg. unfold tame_bom.
  cbn [b_version b_metadata b_components b_services b_external_references b_dependencies b_compositions
       b_vulnerabilities b_signature b_annotations b_formulation].
  assert (Ed' : dependency_list (g_bom g) = create_dependencies ns) by (unfold dependency_list; now rewrite Ed).
  rewrite Ed' in D1, D2, D3.
  split; [intros _; cbn; lia|]. split; [|split; [|split; [exact I|split; [exact I|split; [|split; [|split; [exact I|split; [exact I|split]]]]]]]].
  - cbn [when]. eapply metadata_tame; eauto; [subst m; apply (tm_ids _ _ tm), Hin|].
    intros c ss E1 E2. assert (c = c0) by congruence. subst c. assert (ss = subs) by congruence. subst ss. auto.
  - cbn [when]. split; [now apply every_intro|]. apply Once; auto.
  - cbn [every_in when]. apply every_intro. intros d Hd. destruct (D3 d Hd) as [E1 E2].
    assert (Ne : forall id, In id (m :: flat_map ValSpec.component_refs comps) -> tame_ref v id).
    { intros id [<-|Hs]; [intros _; subst m; apply (tm_ids _ _ tm), Hin|].
      apply in_flat_map in Hs as (c & Hc1 & Hc2). destruct (Lc c Hc1) as [L1 [r L2]].
      specialize (Each c Hc1). destruct c; cbn in L1, L2, Hc2, Each. subst. cbn in Hc2, Each.
      destruct Hc2 as [<-|[]]. apply Each. }
    destruct (F d) as [F1 F2]; [rewrite Ed; exact Hd|]. split; [now apply Ne|]. split.
    + destruct E2 as [(_ & _ & ->)|(n & Hn & _ & ->)]; [constructor|]. apply wanted_once, (tm_deps _ _ tm), Hn.
    + apply every_intro. intros y Hy. apply Ne, F2, Hy.
  - cbn [when]. now apply dependencies_once.
  - intros _. repeat split.
  - intros _. repeat split.
Qed.

Lemma file_tame l f : write_plan g = Done l -> In f l -> tame_bom x fmt v (f_bom f).
Proof.
  intros H Hf. destruct (planned _ _ _ H Hf) as [->|(md & c & subs & s & A & B & C & D & ->)]; [exact generated_tame|].
  destruct generated_tame as (T1 & T2 & T3 & T4 & T5 & T6 & T7 & T8 & T9 & T10 & T11). unfold tame_bom.
  cbn [retarget b_version b_metadata b_components b_services b_external_references b_dependencies b_compositions
       b_vulnerabilities b_signature b_annotations b_formulation].
  rewrite A in T2. cbn [when] in T2 |- *. split; [exact T1|]. split; [|auto 12].
  unfold tame_metadata in *. rewrite B in T2.
  cbn [m_tools m_authors m_component m_manufacture m_supplier m_licenses m_lifecycles].
  destruct T2 as (M1 & M2 & M3 & M4). cbn [when] in M3. repeat (split; [assumption|]). split; [|exact M4]. cbn [when].
  clear -M3. destruct c; cbn in M3 |- *.
  repeat match type of M3 with _ /\ _ => destruct M3 as [?M M3] end.
  repeat match goal with |- _ /\ _ => split end; try assumption; exact I.
Qed.
End Sbom.

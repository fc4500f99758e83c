(** The SBOMs of the generator against the validity rules of the library. *)
From Verif Require Import Base Strings Base64 ModelTypes ConfigModel GenModel GenSpec
  GenProofs GenProofs2 GenProofs3 GenProofs4 GenProofs5 GenProofs6 GenProofs7 GenProofs8
  Regex Enums ValModel ValSpec ValProofs ValProofs2 ValProofs3 ValProofs4.
From Coq Require Import NArith ZArith Lia.
Open Scope string_scope.
Open Scope list_scope.

(** The generator and the validator call the same parsers, and what the outside
    libraries print is read back by the same libraries. *)
Record same_libraries (w : world) (x : parsers) : Prop := {
  sl_uri : forall s, w_uri_ok w s = true -> x_uri x s = true;
  sl_spdx : forall s, w_spdx_strict w s = true -> x_spdx_expr x s = true;
  sl_purl : forall n v q s p, w_purl w n v q s = Some p -> x_purl x p = None;
  sl_now : forall t, w_now w = Some t -> x_date_time x t = true;
  sl_time : forall z t, w_format_time w z = Some t -> x_date_time x t = true;
  sl_uuid : serial_shape (w_uuid w);
  (** lock file checksums are SHA-256 digests in hexadecimal *)
  sl_checksum : forall f l lk h, w_lockfile w f = Some l -> In lk l -> lk_checksum lk = Some h ->
                  String.length h = 64 /\ all_of hex_any h }.

(** No package of the workspace declares a link that starts like a BOM link. *)
Definition link_fields (p : package) : list (option string) :=
  [pk_documentation p; pk_homepage p; pk_links p; pk_repository p].
Definition no_bom_links (meta : cargo_metadata) : Prop :=
  forall p s, In p (cm_packages meta) -> In (Some s) (link_fields p) -> starts_with "urn:cdx" s = false.

Lemma every_intro {A} (P : A -> Prop) l : (forall a, In a l -> P a) -> every P l.
Proof. induction l as [|a l IH]; intros H; cbn; auto. split; [apply H; now left|]. apply IH. intros; apply H; now right. Qed.
Lemma every_elim {A} (P : A -> Prop) l : every P l -> forall a, In a l -> P a.
Proof. induction l as [|b l IH]; intros H a Ha; [destruct Ha|]. destruct Ha as [<-|Ha]; [apply H|apply IH; auto; apply H]. Qed.

Section Gen.
Variable w : world.
Variable x : parsers.
Variable cfg : config.
Variable v : spec_version.
Hypothesis sl : same_libraries w x.

Lemma purl_valid p root ws sub o : get_purl w p root ws sub = Done o -> when o (is_purl x).
Proof.
  unfold get_purl. intros H. inv_bind H. injection H as <-.
  destruct (w_purl w (pk_name p) (pk_version p) v0 (option_map rel_str sub)) as [s|] eqn:E; cbn; auto.
  exact (sl_purl _ _ sl _ _ _ _ _ E).
Qed.

Lemma hash_64 h : String.length h = 64 -> all_of hex_any h -> hash_accepted h.
Proof.
  intros L H. left. exists (take 32 h), (drop 32 h).
  assert (G : forall n s, n <= String.length s -> s = (take n s ++ drop n s)%string /\ String.length (take n s) = n).
  { induction n as [|n IH]; intros [|c s] Hn; cbn in *; try lia; auto.
    destruct (IH s) as [A B]; [lia|]. split; [now rewrite <- A|lia]. }
  destruct (G 32 h) as [A B]; [lia|]. split; auto. split; auto.
  intros c (a & b & E). apply H. exists a, (b ++ drop 32 h)%string. rewrite A at 1. rewrite E.
  generalize (drop 32 h) as r. clear. intros r. induction a; cbn; auto. now rewrite IHa.
Qed.

Lemma hashes_valid manifest p : every_in (get_hashes (crate_hashes w manifest) p) valid_hash.
Proof.
  pose proof (get_hashes_spec w manifest p) as S. cbn zeta in S.
  destruct (get_hashes (crate_hashes w manifest) p) as [hs|]; [|exact I].
  destruct S as (h & lk & -> & Hin & _ & Hc). cbn. split; auto. split; [discriminate|].
  destruct (locate_cargo_lock w manifest) as [f|]; [|destruct Hin].
  destruct (w_lockfile w f) as [l|] eqn:El; [|destruct Hin].
  destruct (sl_checksum _ _ sl _ _ _ _ El Hin Hc). now apply hash_64.
Qed.

Lemma licenses_valid p : when (get_licenses w cfg p) (valid_licenses x v).
Proof.
  assert (N : forall s, single_line (normalize s)) by exact normalize_single_line.
  unfold get_licenses. destruct (pk_license p) as [l|].
  - match goal with |- context [match ?o with Some e => [LicExpression None e] | None => _ end] =>
      destruct o as [e|] eqn:E end; cbn [when].
    + split; [|intros _; right; cbn; lia]. cbn. split; auto. apply (sl_spdx _ _ sl).
      assert (T : forall s e, spdx_try_from w s = Some e -> w_spdx_strict w e = true).
      { unfold spdx_try_from. intros s e0. destruct (w_spdx_strict w s) eqn:Es; [|discriminate]. intros [= <-]. exact Es. }
      destruct (match cf_license cfg with Some o => lp_mode o | None => Lax end).
      * eapply T; eauto.
      * unfold spdx_parse_lax in E. destruct (w_spdx_lax w l); [|discriminate]. eapply T; eauto.
    + split; [|intros _; right; cbn; lia]. cbn -[normalize]. unfold valid_license; cbn -[normalize]. repeat split; apply N.
  - destruct (pk_license_file p) as [f|]; [|exact I]. destruct (w_read_file w _ f) as [content|]; [|exact I].
    cbn [when]. split; [|intros _; right; cbn [List.length]; lia].
    cbn [every valid_license_choice]. split; auto. split; [apply N|].
    split; [|repeat split]. split; [exact I|]. exists content. apply b64_roundtrip.
Qed.

Lemma refs_valid p : (forall s, In (Some s) (link_fields p) -> starts_with "urn:cdx" s = false) ->
  every_in (get_external_references w p) (valid_ext_ref x v).
Proof.
  intros H.
  assert (O : forall t o, (forall s, o = Some s -> starts_with "urn:cdx" s = false) -> (forall s, t <> ERUnknown s) ->
     forall e, In e (opt_ref w t o) -> valid_ext_ref x v e).
  { intros t [s|] Hs Ht e He; [|destruct He]. unfold opt_ref in He. destruct (w_uri_ok w s) eqn:E; [|destruct He].
    destruct He as [<-|[]]. split; [exact Ht|]. split; [|exact I]. cbn. unfold uri_of.
    rewrite (Hs s eq_refl). exact (sl_uri _ _ sl _ E). }
  unfold get_external_references.
  assert (A : forall e, In e (opt_ref w ERDocumentation (pk_documentation p) ++ opt_ref w ERWebsite (pk_homepage p)
               ++ opt_ref w EROther (pk_links p) ++ opt_ref w ERVcs (pk_repository p)) -> valid_ext_ref x v e).
  { intros e He. repeat (apply in_app_or in He as [He|He]);
      (eapply O in He; [exact He| |discriminate]); intros s Es; apply H; cbn; rewrite Es; auto. }
  destruct (_ ++ _) as [|e l]; [exact I|]. cbn [every_in when]. now apply every_intro.
Qed.

Lemma component_valid ws manifest p root kinds c :
  (forall s, In (Some s) (link_fields p) -> starts_with "urn:cdx" s = false) ->
  create_component w cfg ws (crate_hashes w manifest) p root kinds = Done c ->
  valid_component x v c /\ c_components c = None.
Proof.
  intros Hl H. unfold create_component in H. inv_bind H. injection H as <-. split; [|reflexivity].
  assert (N : forall s, single_line (normalize s)) by exact normalize_single_line.
  pose proof (purl_valid _ _ _ _ _ Hv) as P. pose proof (hashes_valid manifest p) as Hh.
  pose proof (licenses_valid p) as L. pose proof (refs_valid p Hl) as R.
  cbn -[normalize get_hashes get_licenses get_external_references crate_hashes valid_licenses every_in trim].
  repeat match goal with |- _ /\ _ => split end; try exact I; try (apply N); try assumption.
  - destruct (pk_authors p); cbn -[normalize]; [exact I|apply N].
  - destruct (pk_description p); cbn -[normalize]; [apply N|exact I].
  - destruct (unwrap_or KNormal (bm_get (pk_id p) kinds)); cbn; discriminate.
Qed.

Lemma subs_valid ws p top : forall ts n subs ks, subcomponents w ws p top n ts = Done (subs, ks) ->
  forall c, In c subs -> valid_component x v c /\ c_components c = None /\ exists r, c_bom_ref c = Some r.
Proof.
  assert (N : forall s, single_line (normalize s)) by exact normalize_single_line.
  induction ts as [|t ts IH]; intros n subs ks H c Hc; cbn [subcomponents] in H.
  - injection H as <- <-. destruct Hc.
  - destruct (target_class t) as [cls|] eqn:Ec; [|eauto].
    inv_bind H. inv_bind H. inv_bind H. destruct v2 as [subs' ks']. injection H as <- <-.
    destruct Hc as [<-|Hc]; [|eauto]. split; [|split; [reflexivity|cbn; eauto]].
    cbn -[normalize every_in].
    repeat match goal with |- _ /\ _ => split end; try exact I; try (apply N).
    + unfold target_class in Ec. destruct (has_kind "bin" t); [injection Ec as <-; exact I|].
      destruct (has_kind "proc-macro" t); [injection Ec as <-; exact I|].
      destruct (existsb _ _); [injection Ec as <-; exact I|discriminate].
    + destruct (path_strip_prefix v0 (tg_src t)); [exact (purl_valid _ _ _ _ _ Hv0)|injection Hv0 as <-; exact I].
Qed.

Lemma author_valid a c : parse_author w a = Some c -> valid_contact v c.
Proof.
  assert (N : forall s, single_line (normalize s)) by exact normalize_single_line.
  unfold parse_author. destruct (author_captures a) as [[n [e|]]|].
  - destruct (w_email_ok w e); [|discriminate]. intros [= <-]. unfold contact_new, valid_contact. cbn -[normalize]. auto.
  - intros [= <-]. unfold contact_new, valid_contact. cbn -[normalize]. auto.
  - intros [= <-]. unfold contact_new, valid_contact. cbn -[normalize]. auto.
Qed.

Lemma timestamp_valid t : bom_timestamp w = Done t -> is_time x t.
Proof.
  unfold bom_timestamp. intros H. inv_bind H. destruct (w_now w) as [now|] eqn:E; [|discriminate].
  injection Hv as <-. destruct (w_epoch w).
  - inv_bind H. destruct (w_format_time w v0) as [t'|] eqn:Et; [|discriminate]. injection H as <-.
    exact (sl_time _ _ sl _ _ Et).
  - injection H as <-. exact (sl_now _ _ sl _ E).
Qed.

(** valid, apart from the component it describes *)
Lemma metadata_valid ws manifest p md tk :
  (forall s, In (Some s) (link_fields p) -> starts_with "urn:cdx" s = false) ->
  create_metadata w cfg ws (crate_hashes w manifest) p = Done (md, tk) ->
  valid_metadata x v md /\ exists c subs, m_component md = Some c /\ c_components c = Some subs
    /\ (forall s, In s subs -> c_components s = None /\ exists r, c_bom_ref s = Some r).
Proof.
  assert (N : forall s, single_line (normalize s)) by exact normalize_single_line.
  intros Hl H. unfold create_metadata in H. inv_bind H. inv_bind H. inv_bind H. injection H as <- <-.
  destruct v1 as [c tk']. cbn [fst snd] in *.
  unfold create_toplevel_component in Hv0. inv_bind Hv0. inv_bind Hv0. inv_bind Hv0. injection Hv0 as <- <-.
  destruct v4 as [subs ks]. cbn [fst snd] in *.
  pose proof (subs_valid _ _ _ _ _ _ _ Hv4) as S.
  destruct (component_valid _ _ _ _ _ _ Hl Hv2) as [Vc _].
  split; [|cbn; do 2 eexists; split; [reflexivity|]; split; [reflexivity|intros s Hs; apply S in Hs; tauto]].
  unfold valid_metadata. cbn -[normalize tool_new property_new valid_component create_authors every_in valid_tools].
  split; [now apply timestamp_valid|]. split; [|split; [|split; [|split; [|split; [|split]]]]]; try exact I.
  - cbn [when valid_tools every]. split; auto. unfold tool_new, valid_tool. cbn -[normalize]. repeat split; apply N.
  - destruct (create_authors w p) as [|a l] eqn:Ea; [exact I|]. cbn [every_in when]. apply every_intro.
    intros a' Ha. rewrite <- Ea in Ha. unfold create_authors in Ha. apply in_flat_map in Ha as (s & _ & Hs).
    destruct (parse_author w s) eqn:Ep; [|destruct Hs]. destruct Hs as [->|[]]. eapply author_valid; eauto.
  - cbn [valid_component c_type] in Vc |- *.
    cbn [c_type c_mime_type c_supplier c_author c_publisher c_group c_name c_version c_description c_scope c_hashes
         c_licenses c_copyright c_cpe c_purl c_swid c_pedigree c_external_references c_properties c_components c_evidence].
    destruct v1; cbn in Vc |- *. repeat (destruct Vc as [?V Vc]).
    split; [unfold get_classification; destruct (existsb _ _); exact I|].
    repeat match goal with |- _ /\ _ => split end; try assumption.
    apply every_intro. intros s Hs. apply S in Hs. tauto.
  - cbn [every_in when every]. split; auto. destruct v2; apply N.
Qed.

Lemma flat_leaf l : (forall c, In c l -> c_components c = None /\ exists r, c_bom_ref c = Some r) ->
  map Some (flat_map ValSpec.component_refs l) = map c_bom_ref l.
Proof.
  induction l as [|c l IH]; intros H; [reflexivity|]. cbn [flat_map map].
  rewrite map_app, IH by (intros; apply H; now right). destruct (H c (or_introl eq_refl)) as [A [r B]].
  destruct c; cbn in *. subst. reflexivity.
Qed.
End Gen.

Lemma map_some_inj {A} (a b : list A) : map Some a = map Some b -> a = b.
Proof. revert b; induction a as [|x a IH]; intros [|y b] H; cbn in H; try discriminate; auto. injection H as -> H. f_equal; auto. Qed.

Section Sbom.
Variables (w : world) (fuel : nat) (meta : cargo_metadata) (nodes : list node) (cfg : config) (m : string) (g : generated).
Hypothesis wf : well_formed meta nodes.
Hypothesis Hg : sbom_of w fuel meta cfg m g.
Hypothesis fresh : forall p n, In p (cm_packages meta) -> pk_id p <> sub_ref m n.

(** the same structure, whoever the described component is *)
Lemma generated_shape : exists md c subs comps,
  b_metadata (g_bom g) = Some md /\ m_component md = Some c /\ c_components c = Some subs
  /\ b_components (g_bom g) = Some comps /\ c_bom_ref c = Some m
  /\ (forall s, In s subs -> c_components s = None /\ exists r, c_bom_ref s = Some r)
  /\ (forall s, In s comps -> c_components s = None /\ exists r, c_bom_ref s = Some r)
  /\ b_services (g_bom g) = None /\ b_compositions (g_bom g) = None /\ b_vulnerabilities (g_bom g) = None
  /\ (forall d, In d (opt_list (b_dependencies (g_bom g))) ->
        In (d_ref d) (m :: flat_map ValSpec.component_refs comps)
        /\ forall y, In y (d_dependencies d) -> In y (m :: flat_map ValSpec.component_refs comps))
  /\ NoDup (m :: flat_map ValSpec.component_refs subs ++ flat_map ValSpec.component_refs comps).
Proof.
  pose proof (sbom_of_ok _ _ _ nodes _ _ _ wf Hg) as Hok.
  destruct (sbom_refs _ _ _ _ _ _ wf _ _ Hok fresh) as (c & ids & A & B & C & D).
  destruct (sbom_main _ _ _ _ _ _ wf _ _ Hok) as (rp' & c' & subs' & sel & md' & _ & _ & M1 & M2 & R & Cs & _).
  destruct Hok as [H Hm].
  apply create_sbom_inv in H as (kinds & ps & ns & rp & comps & md & tk & Hk & Hsel & Hin & Hid & Hc & Hmd & _ & _ & _ & _ & Eb & Ec & _ & Eg); auto.
  rewrite Eb in M1. injection M1 as <-.
  assert (c' = c) as -> by (unfold main_component in A; rewrite Eb in A; congruence).
  assert (Hs : forall s, In s subs' -> c_components s = None /\ exists r, c_bom_ref s = Some r).
  { unfold create_metadata in Hmd. inv_bind Hmd. inv_bind Hmd. inv_bind Hmd. injection Hmd as <- _.
    apply toplevel_inv in Hv0 as (subs & ks & X & Y & _). cbn in M2. injection M2 as E. rewrite E in Y.
    rewrite Cs in Y. injection Y as <-. clear -X. revert X. generalize 0 as n, ks.
    induction (filter_targets (pk_targets rp)) as [|t ts IH] in subs' |- *; intros n ks0 X s Hs; cbn [subcomponents] in X.
    - injection X as <- <-. destruct Hs.
    - destruct (target_class t); [|eauto]. inv_bind X. inv_bind X. inv_bind X. destruct v1 as [a b]. injection X as <- <-.
      destruct Hs as [<-|Hs]; [split; [reflexivity|cbn; eauto]|eauto]. }
  assert (Hcs : forall s, In s comps -> c_components s = None /\ exists r, c_bom_ref s = Some r).
  { clear -Hc. induction Hc as [|p y l l' E _ IH]; intros s Hs; [destruct Hs|]. destruct Hs as [<-|Hs]; auto.
    unfold create_component in E. inv_bind E. injection E as <-. split; [reflexivity|cbn; eauto]. }
  assert (Ids : ids = m :: flat_map ValSpec.component_refs subs' ++ flat_map ValSpec.component_refs comps).
  { apply map_some_inj. rewrite <- B, R. cbn [map]. f_equal. rewrite map_app, (flat_leaf subs'), (flat_leaf comps); auto.
    unfold sub_refs, GenSpec.component_refs, component_list. now rewrite Cs, Ec. }
  exists md, c, subs', comps. split; auto. split; auto. split; auto. split; auto. split; auto. split; auto. split; auto.
  split; [now rewrite Eg|]. split; [now rewrite Eg|]. split; [now rewrite Eg|]. split; [|now rewrite <- Ids].
  assert (L : forall y, In (Some y) (c_bom_ref c :: GenSpec.component_refs (g_bom g)) -> In y (m :: flat_map ValSpec.component_refs comps)).
  { intros y Hy. assert (In (Some y) (map Some (m :: flat_map ValSpec.component_refs comps))) as Hi.
    { cbn [map]. rewrite flat_leaf; auto. unfold GenSpec.component_refs, component_list in Hy. rewrite Ec, R in Hy. exact Hy. }
    apply in_map_iff in Hi as (z & [= <-] & Hz). exact Hz. }
  intros d Hd. destruct (D d) as [D1 D2]; [exact Hd|]. split; [now apply L|]. intros y Hy. apply L, D2, Hy.
Qed.

Lemma carried_shape b md c comps : b_metadata b = Some md -> m_component md = Some c -> b_components b = Some comps ->
  b_services b = None -> b_vulnerabilities b = None ->
  carried b = ValSpec.component_refs c ++ flat_map ValSpec.component_refs comps.
Proof. intros A B C D E. unfold carried. rewrite A, B, C, D, E. cbn. now rewrite app_nil_r. Qed.

Lemma generated_references : valid_references (g_bom g).
Proof.
  destruct generated_shape as (md & c & subs & comps & A & B & C & D & R & _ & _ & E1 & E2 & E3 & F & ND).
  unfold valid_references. rewrite (carried_shape _ _ _ _ A B D E1 E3).
  assert (Ec : ValSpec.component_refs c = m :: flat_map ValSpec.component_refs subs) by (destruct c; cbn in *; subst; reflexivity).
  rewrite Ec. split; [exact ND|]. intros r Hr.
  assert (In r (m :: flat_map ValSpec.component_refs comps)) as Hi.
  { destruct Hr as [Hr|[Hr|Hr]].
    - apply in_map_iff in Hr as (d & <- & Hd). now apply F.
    - apply in_flat_map in Hr as (d & Hd & Hr). now apply (F d).
    - unfold comp_refs in Hr. rewrite E2 in Hr. destruct Hr. }
  destruct Hi as [<-|Hi]; [now left|]. right. apply in_app_iff. now right.
Qed.

Lemma retarget_references md c s : b_metadata (g_bom g) = Some md -> m_component md = Some c ->
  valid_references (retarget (g_bom g) md c s).
Proof.
  intros Hmd Hc. destruct generated_shape as (md' & c' & subs & comps & A & B & C & D & R & _ & _ & E1 & E2 & E3 & F & ND).
  assert (md' = md) by congruence. subst md'. assert (c' = c) by congruence. subst c'.
  unfold valid_references. rewrite (carried_shape (retarget (g_bom g) md c s) _ _ comps eq_refl eq_refl D E1 E3).
  cbn [ValSpec.component_refs c_components c_bom_ref]. rewrite R. cbn [own app].
  split.
  - inversion ND as [|? ? N1 N2]; subst. constructor.
    + intros Hi. apply N1. apply in_app_iff. now right.
    + revert N2. generalize (flat_map ValSpec.component_refs subs) as l1. induction l1 as [|a l1 IH]; intros N2; auto.
      inversion N2; auto.
  - intros r Hr. destruct Hr as [Hr|[Hr|Hr]].
    + apply in_map_iff in Hr as (d & <- & Hd). now apply F.
    + apply in_flat_map in Hr as (d & Hd & Hr). now apply (F d).
    + unfold comp_refs in Hr. cbn [retarget b_compositions] in Hr. rewrite E2 in Hr. destruct Hr.
Qed.

Lemma planned l f : write_plan g = Done l -> In f l ->
  f_bom f = g_bom g \/ exists md c subs s, b_metadata (g_bom g) = Some md /\ m_component md = Some c
    /\ c_components c = Some subs /\ In s subs /\ f_bom f = retarget (g_bom g) md c s.
Proof.
  unfold write_plan. intros H Hf.
  assert (G : forall d, (do arts <- per_artifact_sboms (g_bom g) (g_target_kinds g) d;
      mapM (fun a =>
        do meta <- unwrap "called Option::unwrap() on a None value" (b_metadata (fst a));
        do comp <- unwrap "called Option::unwrap() on a None value" (m_component meta);
        do n <- filename g (Some (c_name comp)) (snd a);
        Done (mkFile (with_file_name (g_manifest_path g) n) (fst a) (format_of (g_config g)) (unwrap_or V1_3 (cf_spec (g_config g))))) arts) = Done l ->
      exists md c subs s, b_metadata (g_bom g) = Some md /\ m_component md = Some c
    /\ c_components c = Some subs /\ In s subs /\ f_bom f = retarget (g_bom g) md c s).
  { intros d Hd. inv_bind Hd. rename v into arts. unfold per_artifact_sboms in Hv.
    inv_bind Hv. inv_bind Hv. inv_bind Hv. inv_bind Hv. injection Hv as <-.
    destruct (b_metadata (g_bom g)) as [md|]; [|discriminate]. injection Hv0 as <-.
    destruct (m_component md) as [c|] eqn:Ec; [|discriminate]. injection Hv1 as <-.
    destruct (c_components c) as [subs|] eqn:Es; [|discriminate]. injection Hv2 as <-.
    exists md, c, subs.
    assert (Ha : exists a, In a (List.concat v2) /\ f_bom f = fst a).
    { clear Hv3. clear H. revert l Hd Hf. generalize (List.concat v2) as arts. induction arts as [|a arts IH]; intros l Hd Hf; cbn [mapM] in Hd.
      - injection Hd as <-. destruct Hf.
      - inv_bind Hd. inv_bind Hd. injection Hd as <-. destruct Hf as [<-|Hf].
        + inv_bind Hv. inv_bind Hv. inv_bind Hv. injection Hv as <-. exists a. split; [now left|reflexivity].
        + destruct (IH _ Hv0 Hf) as (a' & X & Y). exists a'. split; auto. now right. }
    destruct Ha as (a & Ha & Ef).
    assert (X : exists s, In s subs /\ fst a = retarget (g_bom g) md c s).
    { clear -Hv3 Ha. revert v2 Hv3 Ha. induction subs as [|s subs IH]; intros v2 H Ha; cbn [mapM] in H.
      - injection H as <-. destruct Ha.
      - inv_bind H. inv_bind H. injection H as <-. cbn [List.concat] in Ha. apply in_app_or in Ha as [Ha|Ha].
        + inv_bind Hv. inv_bind Hv. inv_bind Hv. injection Hv as <-. destruct v3; [|destruct Ha].
          destruct Ha as [<-|[]]. exists s. split; [now left|reflexivity].
        + destruct (IH _ Hv0 Ha) as (s' & A & B). exists s'. split; auto. now right. }
    destruct X as (s & Hs & E). exists s. rewrite Ef. auto 10. }
  destruct (describe_of (g_config g)) eqn:Ed; eauto.
  inv_bind H. injection H as <-. destruct Hf as [<-|[]]. now left.
Qed.

Variable x : parsers.
Hypothesis sl : same_libraries w x.
Hypothesis links : no_bom_links meta.
Variable v : spec_version.

Lemma generated_fields : valid_fields x v (g_bom g).
Proof.
  pose proof (sbom_of_ok _ _ _ nodes _ _ _ wf Hg) as Hok. destruct Hok as [H Hm].
  apply create_sbom_inv in H as (kinds & ps & ns & rp & comps & md & tk & Hk & Hsel & Hin & Hid & Hc & Hmd & _ & _ & _ & _ & Eb & Ec & _ & Eg); auto.
  rewrite Eg. unfold valid_fields.
  cbn [b_serial_number b_metadata b_components b_services b_external_references b_compositions b_properties b_vulnerabilities].
  split; [destruct (w_epoch w); [exact I|exact (sl_uuid _ _ sl)]|].
  split; [cbn [when]; eapply metadata_valid; eauto; intros; eapply links; eauto|].
  split; [|repeat split]. cbn [every_in when]. apply every_intro. intros c Hc'.
  assert (exists p, In p (filter (fun p => negb (pk_id p =? m)%string) (map snd ps)) /\
       create_component w cfg (cm_workspace_root meta) (crate_hashes w (pk_manifest rp)) p rp kinds = Done c) as (p & Hp & E).
  { clear -Hc Hc'. induction Hc as [|p y l l' E _ IH]; [destruct Hc'|]. destruct Hc' as [->|Hc'].
    - exists p. split; auto. now left.
    - destruct (IH Hc') as (p' & A & B). exists p'. split; auto. now right. }
  apply filter_In in Hp as [Hp _]. apply in_map_iff in Hp as ([k p'] & Ep & Hp). cbn in Ep; subst p'.
  apply bm_In_get in Hp; [|apply Hsel]. apply (sel_ps _ _ _ _ _ _ Hsel) in Hp as (_ & P1 & _).
  eapply component_valid; eauto.
Qed.

Lemma file_valid l f : write_plan g = Done l -> In f l -> valid_bom x v (f_bom f).
Proof.
  intros H Hf. destruct (planned _ _ H Hf) as [->|(md & c & subs & s & A & B & C & D & ->)].
  - split; [exact generated_fields|exact generated_references].
  - split; [|now apply retarget_references].
    destruct generated_fields as (F1 & F2 & F3 & F4 & F5 & F6 & F7 & F8). unfold valid_fields.
    cbn [retarget b_serial_number b_metadata b_components b_services b_external_references b_compositions b_properties b_vulnerabilities].
    rewrite A in F2. cbn [when] in F2 |- *. repeat (split; [assumption|]). split; [|auto 10].
    unfold valid_metadata in *. rewrite B in F2. cbn [m_timestamp m_tools m_authors m_component m_manufacture m_supplier m_licenses m_properties].
    destruct F2 as (M1 & M2 & M3 & M4 & M5). cbn [when] in M4. repeat (split; [assumption|]). split; auto. cbn [when].
    assert (Vs : valid_component x v s).
    { destruct c; cbn in C, M4. subst. cbn in M4. destruct M4 as (_ & _ & _ & _ & _ & _ & _ & _ & _ & _ & _ & _ & _ & _ & _ & _ & _ & _ & _ & K & _).
      exact (every_elim _ _ K _ D). }
    destruct c; cbn in M4 |- *. destruct s; cbn in Vs |- *. repeat (destruct M4 as [?M M4]). repeat (destruct Vs as [?S Vs]).
    repeat match goal with |- _ /\ _ => split end; try assumption; exact I.
Qed.
End Sbom.

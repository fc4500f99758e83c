(** ** C72: what a generated SBOM says about the packages, about its artifacts and about itself *)
From Verif Require Import Base Strings Base64 ModelTypes ConfigModel GenModel GenSpec GenExample
  GenProofs GenProofs2 GenProofs3 GenProofs4 GenProofs5 GenProofs6 GenProofs7 GenProofs8 GenProps GenValProps DescribeSpec.
From Coq Require Import NArith.
Open Scope string_scope.
Open Scope list_scope.

Section Hashes.
  Variables (w : world) (manifest : path) (p : package).
  Lemma hashes_spec : hashes_from_lock w manifest p (get_hashes (crate_hashes w manifest) p).
  Proof.
    pose proof (get_hashes_spec w manifest p) as S. cbn zeta in S. unfold hashes_from_lock.
    destruct (w_absolute w manifest) as [mm|] eqn:Ea.
    2:{ assert (locate_cargo_lock w manifest = None) as El by (unfold locate_cargo_lock; now rewrite Ea).
        rewrite El in S. destruct (get_hashes (crate_hashes w manifest) p).
        - destruct S as (h & lk & _ & [] & _).
        - intros lk (m1 & f1 & l1 & X & _). rewrite Ea in X. discriminate. }
    destruct (locate_cargo_lock w manifest) as [f|] eqn:El.
    - pose proof (locate_some _ _ _ _ Ea El) as Hn.
      destruct (w_lockfile w f) as [l|] eqn:Ew.
      + destruct (get_hashes (crate_hashes w manifest) p).
        * destruct S as (h & lk & X1 & X2 & X3 & X4). exists h, lk. split; auto. split; [exists mm, f, l; auto|auto].
        * intros lk (m1 & f1 & l1 & X & Y & Z & I) Hlk. apply (S lk); auto.
          assert (f1 = f) as -> by (rewrite Ea in X; injection X as <-; eapply nearest_lock_unique; eauto).
          rewrite Ew in Z. now injection Z as <-.
      + destruct (get_hashes (crate_hashes w manifest) p).
        * destruct S as (h & lk & _ & [] & _).
        * intros lk (m1 & f1 & l1 & X & Y & Z & I) Hlk.
          assert (f1 = f) as -> by (rewrite Ea in X; injection X as <-; eapply nearest_lock_unique; eauto). congruence.
    - destruct (get_hashes (crate_hashes w manifest) p).
      + destruct S as (h & lk & _ & [] & _).
      + intros lk (m1 & f1 & l1 & X & Y & Z & I) Hlk. exfalso.
        rewrite Ea in X; injection X as <-. destruct Y as (d & P & -> & Ex & _).
        pose proof (proj1 (locate_none w manifest mm Ea) El d P). congruence.
  Qed.
End Hashes.

Lemma license_text_untyped w cfg p ls n t : get_licenses w cfg p = Some ls ->
  In (LicLicense (mkLicense None n (Some t) None None None)) ls -> at_content_type t = None.
Proof.
  unfold get_licenses. destruct (pk_license p) as [l|].
  - destruct (match _ with Strict => _ | Lax => _ end); intros E; injection E as <-; intros [E|[]]; discriminate E.
  - destruct (pk_license_file p) as [f|]; [|discriminate]. destruct (w_read_file _ _ _); [|discriminate].
    intros E; injection E as <-. intros [E|[]]. injection E as _ <-. reflexivity.
Qed.

Lemma subs_described w ws p r : forall ts n subs, subcomponents w ws p r n ts = Done subs ->
  Forall2 (describes_target p) (filter has_class ts) (fst subs)
  /\ Forall2 (fun t s => target_purl w ws p (tg_src t) (c_purl s)) (filter has_class ts) (fst subs).
Proof.
  induction ts as [|t ts IH]; intros n subs H; cbn [subcomponents] in H.
  - injection H as <-. split; constructor.
  - cbn [filter]. destruct (has_class t) eqn:K; unfold has_class in K; destruct (target_class t) as [cls|] eqn:E; try discriminate K; [|eapply IH; eauto].
    inv_bind H. inv_bind H. inv_bind H. injection H as <-. destruct (IH _ _ Hv1) as [A B]. cbn [fst].
    split; constructor; auto.
    + apply target_type in E as [T1 T2]. repeat split; auto.
    + cbn [c_purl]. apply unwrap_done, parent_iff in Hv as [f Hf]. exists v, f. split; auto.
      destruct (path_strip_prefix v (tg_src t)) as [rel|] eqn:S.
      * left. apply strip_prefix_iff in S. unfold get_purl in Hv0. inv_bind Hv0. injection Hv0 as <-. eexists rel, _.
        split; auto. split; [apply purl_qualifier_ok; eassumption|reflexivity].
      * right. injection Hv0 as <-. split; auto. intros [rest X]. apply strip_prefix_iff in X. congruence.
Qed.

Lemma component_describes w cfg ws manifest p root kinds c :
  create_component w cfg ws (crate_hashes w manifest) p root kinds = Done c ->
  describes w cfg manifest p c /\ c_components c = None /\ c_type c = CLibrary
  /\ exists q, qualifier_of p root ws q /\ c_purl c = w_purl w (pk_name p) (pk_version p) q None.
Proof.
  intros H. unfold create_component in H. inv_bind H. injection H as <-. split.
  - repeat split. + apply get_licenses_spec. + apply license_text_untyped. + apply hashes_spec. + apply external_refs_spec.
  - split; [reflexivity|]. split; [reflexivity|]. unfold get_purl in Hv. inv_bind Hv. injection Hv as <-. exists v0.
    split; [now apply purl_qualifier_ok|reflexivity].
Qed.

(** Every component listed describes a package *)
Theorem C72_dependencies_described w fuel meta nodes cfg m g :
  well_formed meta nodes -> sbom_of w fuel meta cfg m g ->
  forall c, In c (component_list (g_bom g)) -> exists p, In p (cm_packages meta) /\ pk_id p <> m
    /\ describes w cfg (g_manifest_path g) p c /\ c_type c = CLibrary /\ c_components c = None.
Proof.
  intros wf H c Hc. apply (sbom_of_ok _ _ _ nodes) in H; auto. destruct H as [H Hm].
  apply create_sbom_inv in H as (kinds & ps & ns & rp & comps & md & tk & Hk & Hsel & Hin & Hid & Hcs & Hmd & G1 & _ & _ & _ & Eb & Ec & _ & Eg); auto.
  unfold component_list in Hc. rewrite Ec in Hc.
  assert (X : exists p, In p (filter (fun p => negb (pk_id p =? m)%string) (map snd ps)) /\
     create_component w cfg (cm_workspace_root meta) (crate_hashes w (pk_manifest rp)) p rp kinds = Done c).
  { clear -Hcs Hc. induction Hcs as [|p y l l' E _ IH]; [destruct Hc|]. destruct Hc as [->|Hc].
    - exists p. split; auto. now left.
    - destruct (IH Hc) as (p' & A & B). exists p'. split; auto. now right. }
  destruct X as (p & Hp & E). exists p. apply filter_In in Hp as [Hp N]. apply in_map_iff in Hp as ([k p'] & Ep & Hp). cbn in Ep; subst p'.
  apply bm_In_get in Hp; [|apply Hsel]. apply (sel_ps _ _ _ _ _ _ Hsel) in Hp as (_ & P1 & _).
  split; auto. split; [now apply negb_true_iff, String.eqb_neq in N|]. apply component_describes in E as (D & A & B & _).
  rewrite G1. auto.
Qed.

Lemma authors_spec w p : authors_of w p (match create_authors w p with [] => None | l => Some l end).
Proof.
  exists (map (parse_author w) (pk_authors p)). split.
  - induction (pk_authors p) as [|s l IH]; cbn; constructor; auto.
    destruct (C18_authors w s) as (A & B & C).
    destruct (author_captures s) as [[name [email|]]|] eqn:E.
    + apply author_captures_sound in E. rewrite (A _ _ E). destruct (w_email_ok w email) eqn:Em.
      * now apply ac_email.
      * now apply ac_bad_email with name email.
    + apply author_captures_sound in E. rewrite (B _ E). now apply ac_name.
    + assert (N : ~ (exists name email, author_shape s name email)).
      { intros (n & e & S). apply author_captures_complete in S. congruence. }
      rewrite (C N). now apply ac_other.
  - cbn zeta. rewrite flat_map_concat_map, map_map, <- flat_map_concat_map.
    change (flat_map _ (pk_authors p)) with (create_authors w p). destruct (create_authors w p); auto. split; [discriminate|auto].
Qed.

(** The component described is the workspace member itself, with its artifacts in it *)
Theorem C72_member_described w fuel meta nodes cfg m g :
  well_formed meta nodes -> sbom_of w fuel meta cfg m g ->
  exists p md c, In p (cm_packages meta) /\ pk_id p = m /\ b_metadata (g_bom g) = Some md /\ m_component md = Some c
    /\ says_who_and_when w cfg p md
    /\ describes w cfg (pk_manifest p) p c /\ c_scope c = Some ScRequired
    /\ ((exists t, In t (pk_targets p) /\ target_has "bin" t) -> c_type c = CApplication)
    /\ ((forall t, In t (pk_targets p) -> ~ target_has "bin" t) -> c_type c = CLibrary)
    /\ exists sel subs, sublist_of described_target (pk_targets p) sel /\ c_components c = Some subs
         /\ Forall2 (describes_target p) sel subs
         /\ Forall2 (fun t s => target_purl w (cm_workspace_root meta) p (tg_src t) (c_purl s)) sel subs.
Proof.
  intros wf H. apply (sbom_of_ok _ _ _ nodes) in H; auto. destruct H as [H Hm].
  apply create_sbom_inv in H as (kinds & ps & ns & rp & comps & md & tk & Hk & Hsel & Hin & Hid & Hcs & Hmd & G1 & _ & _ & _ & Eb & Ec & _ & Eg); auto.
  exists rp, md. unfold create_metadata in Hmd. inv_bind Hmd. inv_bind Hmd. inv_bind Hmd. injection Hmd as <- _.
  unfold create_toplevel_component in Hv0. inv_bind Hv0. inv_bind Hv0. inv_bind Hv0. injection Hv0 as <-.
  rename v2 into top, v3 into r, v4 into subs, Hv2 into Htop, Hv3 into Hr, Hv4 into Hsubs.
  pose proof (component_describes _ _ _ _ _ _ _ _ Htop) as D.
  eexists. split; auto. split; auto. split; auto. split; [reflexivity|]. split.
  { unfold says_who_and_when. cbn [m_timestamp m_tools m_authors m_properties m_manufacture m_supplier m_licenses m_lifecycles].
    split. { exists v. split; auto. unfold bom_timestamp in Hv. unfold made_at. destruct (w_now w); [|discriminate Hv]. cbn [bind] in Hv.
      destruct (w_epoch w) as [e|]; [|congruence]. destruct (parse_i64 e) as [z|]; [|discriminate Hv]. cbn [unwrap bind] in Hv.
      exists z. split; auto. now apply unwrap_done in Hv. }
    split; [reflexivity|]. split; [apply authors_spec|]. apply unwrap_done in Hv1. rewrite Hv1. split; [destruct v1; reflexivity|auto]. }

  destruct D as ((D1 & D2 & D3 & D4 & D5 & D6 & D6' & D7 & D8 & D9) & _). cbn [fst] in *.
  split; [|split].
  { unfold describes. cbn [c_bom_ref c_name c_version c_description c_author c_licenses c_hashes c_external_references].
    repeat (split; [assumption|]). exact D9. }
  { cbn [c_scope]. unfold create_component in Htop. inv_bind Htop. injection Htop as <-. reflexivity. }
  cbn [c_type c_components]. split; [|split].
  { intros (t & A & B). unfold get_classification. assert (X : existsb (has_kind "bin") (pk_targets rp) = true); [|now rewrite X].
    apply existsb_exists. exists t. split; auto. now apply has_kind_In. }
  { intros A. unfold get_classification. destruct (existsb (has_kind "bin") (pk_targets rp)) eqn:X; auto.
    apply existsb_exists in X as (t & B & C). apply has_kind_In in C. destruct (A t B C). }
  exists (filter has_class (filter_targets (pk_targets rp))), (fst subs). split; [apply described_sublist|]. split; [reflexivity|].
  clear - Hsubs. eapply subs_described; eauto.
Qed.

(** The document says nothing else *)
Theorem C72_nothing_else w fuel meta nodes cfg m g :
  well_formed meta nodes -> sbom_of w fuel meta cfg m g ->
  b_version (g_bom g) = u32_1 /\ b_spec_version (g_bom g) = V1_3
  /\ b_serial_number (g_bom g) = match w_epoch w with Some _ => None | None => Some (w_uuid w) end
  /\ b_services (g_bom g) = None /\ b_external_references (g_bom g) = None /\ b_compositions (g_bom g) = None
  /\ b_properties (g_bom g) = None /\ b_vulnerabilities (g_bom g) = None /\ b_signature (g_bom g) = None
  /\ b_annotations (g_bom g) = None /\ b_formulation (g_bom g) = None.
Proof.
  intros wf H. apply (sbom_of_ok _ _ _ nodes) in H; auto. destruct H as [H Hm].
  unfold create_sbom in H. inv_bind H. inv_bind H. inv_bind H. inv_bind H. destruct v1, v2; cbn [fst snd] in *. injection H as <-.
  cbn [g_bom]. match goal with X : create_bom _ _ _ _ _ _ _ _ = Done _ |- _ => unfold create_bom in X; inv_bind X; inv_bind X; inv_bind X; injection X as <- <- end.
  repeat split.
Qed.

(** *** The example: an application with a library and two programs, and its dependencies *)
Example C72_case : well_formed ex_meta ex_nodes /\ sbom_of ex_world 100 ex_meta ex_cfg ex_id_app ex_gen
  /\ List.length (component_list (g_bom ex_gen)) = 2
  /\ exists md c s1 s2 s3, b_metadata (g_bom ex_gen) = Some md /\ m_component md = Some c /\ c_name c = "app" /\ c_type c = CApplication
     /\ m_authors md = Some [mkContact None (Some "A") (Some "a@b.c") None]
     /\ m_properties md = Some [mkProp "cdx:rustc:sbom:target:triple" "x86_64-unknown-linux-gnu"]
     /\ c_components c = Some [s1; s2; s3] /\ c_name s1 = "app" /\ c_type s1 = CLibrary /\ c_name s2 = "one" /\ c_type s2 = CApplication.
Proof.
  split; [exact ex_wf|]. split; [exact ex_sbom_of|]. split; [vm_compute; reflexivity|].
  vm_compute. repeat eexists.
Qed.
Print Assumptions C72_dependencies_described.
Print Assumptions C72_member_described.
Print Assumptions C72_nothing_else.

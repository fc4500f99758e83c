(** ** C74: what is left out of an SBOM is reported, and nothing else is *)
From Verif Require Import Base Strings ModelTypes ConfigModel GenModel GenSpec GenExample GenProofs GenProofs2 GenProofs3
  GenProofs4 GenProofs5 GenProofs6 GenProofs7 GenProofs8 GenProps GenValProps DescribeSpec DescribeProps LogModel LogSpec.
Open Scope string_scope.
Open Scope list_scope.

Lemma Forall2_in_l {A B} (R : A -> B -> Prop) l l' : Forall2 R l l' -> forall x, In x l -> exists y, In y l' /\ R x y.
Proof. induction 1 as [|a b l l' E _ IH]; intros x []; [subst; exists b; split; [now left|auto]|]. destruct (IH x H) as (y & ? & ?). exists y. split; [now right|auto]. Qed.
Lemma Forall2_in_r {A B} (R : A -> B -> Prop) l l' : Forall2 R l l' -> forall y, In y l' -> exists x, In x l /\ R x y.
Proof. induction 1 as [|a b l l' E _ IH]; intros y []; [subst; exists a; split; [now left|auto]|]. destruct (IH y H) as (x & ? & ?). exists x. split; [now right|auto]. Qed.

Lemma split_once_app c k r : contains_char c k = false -> split_once c (k ++ String c r) = Some (k, r).
Proof.
  induction k as [|a k IH]; cbn [append split_once contains_char].
  - intros _. now rewrite Ascii.eqb_refl.
  - intros H. apply Bool.orb_false_iff in H as [-> H']. now rewrite (IH H').
Qed.
Lemma split_once_none c s : split_once c s = None -> contains_char c s = false.
Proof.
  induction s as [|a s IH]; cbn [split_once]; [reflexivity|]. destruct (Ascii.eqb a c) eqn:E; [discriminate|].
  destruct (split_once c s) as [[? ?]|]; [discriminate|]. intros _. cbn. now rewrite E, IH.
Qed.

Section LOG.
  Variables (w : world) (fuel : nat) (meta : cargo_metadata) (nodes : list node) (cfg : config) (m : string) (g : generated).
  Hypothesis wf : well_formed meta nodes.
  Hypothesis made_sbom : sbom_of w fuel meta cfg m g.
  Let ws := cm_workspace_root meta.

  Lemma log_parts : exists rp others c0 log, In rp (cm_packages meta) /\ pk_id rp = m /\ main_component (g_bom g) = Some c0
    /\ g_manifest_path g = pk_manifest rp
    /\ sbom_log w fuel meta cfg m = Done log
    /\ log = lock_log w (pk_manifest rp) ++ flat_map (fun p => component_log w cfg ws p rp) others
             ++ authors_log w rp ++ toplevel_log w cfg ws rp
    /\ (forall p, In p others -> In p (cm_packages meta) /\ pk_id p <> m)
    /\ (exists kinds, Forall2 (fun p c => create_component w cfg ws (crate_hashes w (pk_manifest rp)) p rp kinds = Done c) others (component_list (g_bom g)))
    /\ (exists c, create_component w cfg ws (crate_hashes w (pk_manifest rp)) rp rp [] = Done c /\ c_purl c0 = c_purl c
         /\ c_licenses c0 = c_licenses c /\ c_external_references c0 = c_external_references c /\ c_bom_ref c0 = c_bom_ref c).
  Proof.
    apply (sbom_of_ok _ _ _ nodes) in made_sbom; auto. destruct made_sbom as [H Hm]. clear made_sbom.
    unfold create_sbom in H. inv_bind H. rename v into kinds. inv_bind H. destruct v as [ps ns]. rename Hv0 into Hsel0.
    assert (Hsel : selection meta nodes cfg m ps ns).
    { destruct (included_of cfg) eqn:E; [eapply select_top|eapply select_all]; eauto. }
    inv_bind H. rename v into rp, Hv0 into Hrp. inv_bind H. destruct v as [b tk]. injection H as <-. rename Hv0 into Hbom.
    unfold create_bom in Hbom. cbn [fst snd] in Hbom. inv_bind Hbom. rename v into rp', Hv0 into Hrp'.
    inv_bind Hbom. rename v into comps, Hv0 into Hcomps. inv_bind Hbom. destruct v as [md tk']. rename Hv0 into Hmd.
    cbn [fst snd] in Hbom. injection Hbom as <- <-. pose proof Hrp as Hrp0. pose proof Hrp' as Hrp'0. apply unwrap_done in Hrp, Hrp'.
    assert (rp' = rp) as ->.
    { apply (sel_ps _ _ _ _ _ _ Hsel) in Hrp' as (_ & A & B). apply (pk_get meta nodes wf) in Hrp as [C D].
      assert (E : bm_get m (index_packages (cm_packages meta)) = Some rp') by (now apply (pk_get meta nodes wf)).
      assert (E' : bm_get m (index_packages (cm_packages meta)) = Some rp) by (now apply (pk_get meta nodes wf)). congruence. }
    pose proof (proj1 (pk_get meta nodes wf _ _) Hrp) as [C D]. apply mapM_done in Hcomps.
    unfold create_metadata in Hmd. inv_bind Hmd. inv_bind Hmd. inv_bind Hmd. injection Hmd as <- _. rename Hv1 into Htop.
    unfold create_toplevel_component in Htop. inv_bind Htop. inv_bind Htop. inv_bind Htop. injection Htop as <-. rename v2 into c.
    exists rp, (filter (fun p => negb (pk_id p =? m)) (map snd ps)). do 2 eexists.
    split; [exact C|]. split; [exact D|]. split; [reflexivity|]. split; [reflexivity|]. split.
    { unfold sbom_log. rewrite (wf_resolve _ _ wf). cbn [unwrap bind]. rewrite Hsel0. cbn [bind fst]. rewrite Hrp0. cbn [bind]. rewrite Hrp'0. reflexivity. }
    split; [reflexivity|]. split.
    { intros p Hp. apply filter_In in Hp as [Hp N]. apply in_map_iff in Hp as ([k p'] & Ep & Hp). cbn in Ep; subst p'.
      apply bm_In_get in Hp; [|apply Hsel]. apply (sel_ps _ _ _ _ _ _ Hsel) in Hp as (_ & P1 & _). split; auto. now apply negb_true_iff, String.eqb_neq in N. }
    split; [exists kinds; exact Hcomps|]. exists c. split; [exact Hv1|]. repeat split.
  Qed.

  Lemma component_facts hs p rp kinds c : create_component w cfg ws hs p rp kinds = Done c ->
    get_purl w p rp ws None = Done (c_purl c) /\ c_licenses c = get_licenses w cfg p
    /\ c_external_references c = get_external_references w p /\ c_bom_ref c = Some (pk_id p).
  Proof. unfold create_component. intros H. inv_bind H. injection H as <-. auto. Qed.

  (** The packages the SBOM tells about, with what it says of them *)
  Lemma log_told : exists rp log, In rp (cm_packages meta) /\ pk_id rp = m /\ sbom_log w fuel meta cfg m = Done log
    /\ (exists c0, told meta g rp c0)
    /\ (forall p c, told meta g p c -> get_purl w p rp ws None = Done (c_purl c) /\ c_licenses c = get_licenses w cfg p
          /\ c_external_references c = get_external_references w p)
    /\ forall e, In e log <-> In e (lock_log w (pk_manifest rp)) \/ In e (authors_log w rp)
          \/ (exists t, In t (filter_targets (pk_targets rp)) /\ In e (target_log ws rp t))
          \/ exists p c, told meta g p c /\ In e (component_log w cfg ws p rp).
  Proof.
    destruct log_parts as (rp & others & c0 & log & Hin & Hid & Hmain & Hman & Hlog & El & Ho & (kinds & HF) & c & Hc & F1 & F2 & F3 & F4).
    assert (NU : forall p q, In p (cm_packages meta) -> In q (cm_packages meta) -> pk_id p = pk_id q -> p = q).
    { intros p q Hp Hq E. assert (A : bm_get (pk_id p) (index_packages (cm_packages meta)) = Some p) by (now apply (pk_get meta nodes wf)).
      assert (B : bm_get (pk_id p) (index_packages (cm_packages meta)) = Some q) by (apply (pk_get meta nodes wf); auto). congruence. }
    assert (T0 : told meta g rp c0).
    { split; [exact Hin|]. split; [rewrite F4; apply component_facts in Hc; tauto|now right]. }
    assert (TL : forall p, In p others -> exists c, told meta g p c).
    { intros p Hp. destruct (Ho p Hp) as [Hp1 _]. destruct (Forall2_in_l _ _ _ HF p Hp) as (c1 & Hc1 & E1). exists c1.
      split; [exact Hp1|]. split; [apply component_facts in E1; tauto|now left]. }
    assert (TF : forall p c, told meta g p c -> (p = rp \/ In p others) /\ get_purl w p rp ws None = Done (c_purl c) /\ c_licenses c = get_licenses w cfg p
          /\ c_external_references c = get_external_references w p).
    { intros p c1 (Hp & R & [L|M]).
      - destruct (Forall2_in_r _ _ _ HF c1 L) as (q & Hq & E1). pose proof (component_facts _ _ _ _ _ E1) as (A1 & A2 & A3 & A4).
        assert (p = q) as -> by (apply NU; [exact Hp|apply (Ho q Hq)|congruence]). auto.
      - rewrite Hmain in M. injection M as <-. pose proof (component_facts _ _ _ _ _ Hc) as (A1 & A2 & A3 & A4).
        assert (p = rp) as -> by (apply NU; [exact Hp|exact Hin|congruence]). rewrite F1, F2, F3. auto. }
    exists rp, log. split; [exact Hin|]. split; [exact Hid|]. split; [exact Hlog|]. split; [now exists c0|].
    split; [intros p c1 H; now apply TF in H|]. intros e. rewrite El. unfold toplevel_log. rewrite !in_app_iff, !in_flat_map. split.
    - intros [A|[(p & B1 & B2)|[A|[A|(t & A1 & A2)]]]]; auto.
      + right; right; right. destruct (TL p B1) as (c1 & H). now exists p, c1.
      + right; right; right. now exists rp, c0.
      + right; right; left. now exists t.
    - intros [A|[A|[(t & A1 & A2)|(p & c1 & H & A)]]]; auto.
      + right; right; right; right. now exists t.
      + apply TF in H as ([->|H] & _); [auto|]. right; left. now exists p.
  Qed.

  Lemma in_source_log e p : In e (source_log p) -> exists k, e = (Warn, UnknownSourceKind k) \/ e = (Warn, SourceWithoutKind).
  Proof.
    unfold source_log. destruct (pk_source p) as [s|]; [|intros []]. destruct (is_crates_io s); [intros []|].
    destruct (split_once "+" s) as [[k u]|].
    - destruct (k =? "git"); [intros []|]. destruct (_ || _); [intros []|]. intros [<-|[]]. exists k. now left.
    - intros [<-|[]]. exists "". now right.
  Qed.
  Lemma in_links_log e p : In e (external_references_log w p) ->
    exists f t, e = (Warn, InvalidUri (pk_name p) f t) /\ declares p f t /\ w_uri_ok w t = false.
  Proof.
    unfold external_references_log. rewrite !in_app_iff.
    assert (L : forall t o, In e (link_log w p t o) -> exists s, o = Some s /\ w_uri_ok w s = false /\ e = (Warn, InvalidUri (pk_name p) t s)).
    { intros t [s|]; cbn; [|intros []]. destruct (w_uri_ok w s) eqn:U; [intros []|]. intros [<-|[]]. eauto. }
    unfold declares. intros [H|[H|[H|H]]]; apply L in H as (s & O & U & ->); eexists _, s; (split; [reflexivity|]); (split; [|exact U]); auto.
  Qed.
  Lemma links_log_in p f t : declares p f t -> w_uri_ok w t = false -> In (Warn, InvalidUri (pk_name p) f t) (external_references_log w p).
  Proof.
    unfold external_references_log. rewrite !in_app_iff. unfold link_log.
    intros [[-> E]|[[-> E]|[[-> E]|[-> E]]]] U; rewrite E, U; cbn; tauto.
  Qed.
  Lemma in_licenses_log e p : In e (licenses_log w cfg p) ->
    (exists lv l, e = (lv, InvalidLicense (pk_name p) l)) \/ exists f, e = (Warn, LicenseFileUnreadable (pk_name p) f).
  Proof.
    unfold licenses_log. destruct (pk_license p) as [l|].
    - cbn zeta. destruct (match _ with Strict => _ | Lax => _ end); [intros []|]. intros [<-|[]]. left. eauto.
    - destruct (pk_license_file p) as [f|]; [|intros []]. destruct (w_read_file _ _ _); [intros []|]. intros [<-|[]]. right. eauto.
  Qed.
  Lemma in_target_log e rp t : In e (target_log ws rp t) -> In e (source_log rp) \/ e = (Warn, OddTarget (tg_name t) (tg_kind t)) \/ e = (Warn, SourceOutside (tg_src t) ws).
  Proof.
    unfold target_log. destruct (target_class t); [|intros [<-|[]]; auto]. destruct (parent (pk_manifest rp)); [|intros []].
    destruct (path_strip_prefix _ _); [auto|]. intros [<-|[]]. auto.
  Qed.
  Lemma in_lock_log e manifest : In e (lock_log w manifest) -> e = (Warn, LockNotFound) \/ e = (Warn, LockUnreadable).
  Proof. unfold lock_log. destruct (locate_cargo_lock w manifest) as [f|]; [destruct (w_lockfile w f); [intros []|]|]; intros [<-|[]]; auto. Qed.
  Lemma in_authors_log e rp : In e (authors_log w rp) -> exists a, e = (Warn, InvalidAuthor a) /\ In a (pk_authors rp) /\ parse_author w a = None.
  Proof.
    unfold authors_log. rewrite in_flat_map. intros (a & A & B). exists a. destruct (parse_author w a); [destruct B|]. destruct B as [<-|[]]. auto.
  Qed.
  Lemma in_component_log e p rp : In e (component_log w cfg ws p rp) <-> In e (source_log p)
    \/ (e = (Warn, InvalidPurl (pk_name p)) /\ forall u, get_purl w p rp ws None <> Done (Some u))
    \/ In e (external_references_log w p) \/ In e (licenses_log w cfg p).
  Proof.
    unfold component_log. rewrite !in_app_iff.
    assert (X : In e (match get_purl w p rp ws None with Done (Some _) => [] | _ => [(Warn, InvalidPurl (pk_name p))] end)
      <-> e = (Warn, InvalidPurl (pk_name p)) /\ forall u, get_purl w p rp ws None <> Done (Some u)).
    { destruct (get_purl w p rp ws None) as [[u|]| | |]; cbn; split.
      all: try (intros [<-|[]]; split; [reflexivity|discriminate]). all: try (intros [-> _]; now left).
      - intros [].
      - intros [_ N]. now destruct (N u). }
    rewrite X. reflexivity.
  Qed.

  Lemma one_member p q : member_package meta m p -> member_package meta m q -> p = q.
  Proof.
    intros [Hp Ip] [Hq Iq]. assert (X : bm_get m (index_packages (cm_packages meta)) = Some p) by (now apply (pk_get meta nodes wf)).
    assert (Y : bm_get m (index_packages (cm_packages meta)) = Some q) by (now apply (pk_get meta nodes wf)). congruence.
  Qed.
  (** A message of one kind comes from one place *)
  Ltac elsewhere := solve [exfalso;
    repeat match goal with
    | H : In _ (lock_log _ _) |- _ => apply in_lock_log in H; destruct H as [H|H]; discriminate H
    | H : In _ (authors_log _ _) |- _ => apply in_authors_log in H; destruct H as (? & H & _); discriminate H
    | H : In _ (target_log _ _ _) |- _ => apply in_target_log in H; destruct H as [H|[H|H]]; [|discriminate H|discriminate H]
    | H : In _ (source_log _) |- _ => apply in_source_log in H; destruct H as (? & [H|H]); discriminate H
    | H : In _ (external_references_log _ _) |- _ => apply in_links_log in H; destruct H as (? & ? & H & _); discriminate H
    | H : In _ (licenses_log _ _ _) |- _ => apply in_licenses_log in H; destruct H as [(? & ? & H)|(? & H)]; discriminate H
    | H : _ = _ /\ _ |- _ => destruct H as [H _]; discriminate H
    end].

  (** Every SBOM has its messages *)
  Theorem C74_logged : exists log, sbom_log w fuel meta cfg m = Done log.
  Proof. destruct log_told as (rp & log & _ & _ & L & _). eauto. Qed.

  Variable log : list event.
  Hypothesis logged : sbom_log w fuel meta cfg m = Done log.

  (** A package without a package URL *)
  Theorem C74_purl n : In (Warn, InvalidPurl n) log <-> exists p c, told meta g p c /\ pk_name p = n /\ c_purl c = None.
  Proof.
    destruct log_told as (rp & log' & _ & _ & L & _ & TF & I). rewrite logged in L. injection L as <-. rewrite I. split.
    - intros [H|[H|[(t & _ & H)|(p & c & T & H)]]]; try elsewhere.
      apply in_component_log in H as [H|[[E N]|[H|H]]]; try elsewhere. injection E as ->. exists p, c. split; [exact T|]. split; auto.
      apply TF in T as (P & _). destruct (c_purl c) as [u|] eqn:C; auto. exfalso. apply (N u). congruence.
    - intros (p & c & T & <- & E). right; right; right. exists p, c. split; auto. apply in_component_log. right; left. split; auto.
      apply TF in T as (P & _). rewrite P, E. discriminate.
  Qed.
  (** A link that is not in the SBOM *)
  Theorem C74_links n field text : In (Warn, InvalidUri n field text) log <->
    exists p c, told meta g p c /\ pk_name p = n /\ declares p field text /\ ~ links_to c field text.
  Proof.
    destruct log_told as (rp & log' & _ & _ & L & _ & TF & I). rewrite logged in L. injection L as <-. rewrite I.
    assert (K : forall p c, told meta g p c -> declares p field text -> (links_to c field text <-> w_uri_ok w text = true)).
    { intros p c T D. apply TF in T as (_ & _ & E). pose proof (external_refs_spec w p) as S. rewrite <- E in S.
      assert (X : links_to c field text <-> In (field, text) (declared_links w p)).
      { unfold links_to. destruct (c_external_references c) as [rs|].
        - destruct S as (_ & S & _). rewrite <- S, in_map_iff. split.
          + intros (rs' & r & [= <-] & A & <- & <-). exists r. auto.
          + intros (r & [= A B] & C). exists rs, r. auto.
        - rewrite S. split; [intros (? & ? & ? & _); discriminate|intros []]. }
      rewrite X. unfold declared_links. cbn [flat_map fst snd app]. rewrite !in_app_iff.
      assert (Y : forall f o, In (field, text) (match o with Some s => if w_uri_ok w s then [(f, s)] else [] | None => [] end) <->
         field = f /\ o = Some text /\ w_uri_ok w text = true).
      { intros f [s0|]; [|split; [intros []|intros (_ & ? & _); discriminate]]. destruct (w_uri_ok w s0) eqn:U; cbn; split.
        - intros [[= <- <-]|[]]. auto.
        - intros (-> & [= ->] & _). auto.
        - intros [].
        - intros (_ & [= ->] & ?). congruence. }
      rewrite !Y. unfold declares in D. cbn [In]. split; [tauto|]. intros U. tauto. }
    split.
    - intros [H|[H|[(t & _ & H)|(p & c & T & H)]]]; try elsewhere.
      apply in_component_log in H as [H|[H|[H|H]]]; try elsewhere. apply in_links_log in H as (f & t & E & D & U). injection E as -> -> ->.
      exists p, c. split; [exact T|]. split; auto. split; auto. rewrite (K p c T D). congruence.
    - intros (p & c & T & <- & D & N). right; right; right. exists p, c. split; auto. apply in_component_log. right; right; left.
      apply links_log_in; auto. rewrite (K p c T D) in N. now destruct (w_uri_ok w text).
  Qed.
  (** A licence that is not an expression, unless the name is accepted: then it is only mentioned *)
  Theorem C74_licenses lv n l : In (lv, InvalidLicense n l) log <->
    (exists p c, told meta g p c /\ pk_name p = n /\ pk_license p = Some l /\ forall e, c_licenses c <> Some [LicExpression None e])
    /\ (accepted cfg l <-> lv = Info).
  Proof.
    destruct log_told as (rp & log' & _ & _ & L & _ & TF & I). rewrite logged in L. injection L as <-. rewrite I.
    assert (K : forall p c, told meta g p c -> In (lv, InvalidLicense n l) (licenses_log w cfg p) <->
      (pk_name p = n /\ pk_license p = Some l /\ forall e, c_licenses c <> Some [LicExpression None e]) /\ (accepted cfg l <-> lv = Info)).
    { intros p c T. apply TF in T as (_ & E & _). rewrite E. unfold licenses_log, get_licenses. destruct (pk_license p) as [l0|].
      2:{ split; [|intros [(_ & ? & _) _]; discriminate]. destruct (pk_license_file p) as [f|]; [|intros []].
          destruct (w_read_file _ _ _); [intros []|]. intros [?|[]]. discriminate. }
      cbn zeta. destruct (match _ with Strict => _ | Lax => _ end) as [x|].
      - split; [intros []|]. intros [(_ & _ & N) _]. now destruct (N x).
      - assert (Acc : match cf_license cfg with Some o => if existsb (String.eqb l0) (lp_accept o) then Info else Warn | None => Warn end = Info <-> accepted cfg l0).
        { unfold accepted. destruct (cf_license cfg) as [o|]; [|split; [discriminate|intros (? & ? & _); discriminate]].
          destruct (existsb (String.eqb l0) (lp_accept o)) eqn:X.
          - apply existsb_exists in X as (y & Y1 & Y2). apply String.eqb_eq in Y2 as <-. split; eauto.
          - split; [discriminate|]. intros (o' & [= <-] & J). assert (existsb (String.eqb l0) (lp_accept o) = true); [|congruence].
            apply existsb_exists. exists l0. split; auto. apply String.eqb_refl. }
        destruct (match cf_license cfg with Some o => if existsb _ _ then Info else Warn | None => Warn end) eqn:Q; split.
        + intros [[= <- <- <-]|[]]. split; [repeat split; discriminate|]. rewrite <- Acc. split; discriminate.
        + intros [(<- & [= <-] & _) A]. left. destruct lv; [reflexivity|]. destruct A as [_ A]. apply Acc in A; [discriminate|reflexivity].
        + intros [[= <- <- <-]|[]]. split; [repeat split; discriminate|]. rewrite <- Acc. reflexivity.
        + intros [(<- & [= <-] & _) A]. left. destruct A as [A _]. rewrite A; [reflexivity|]. now apply Acc. }
    split.
    - intros [H|[H|[(t & _ & H)|(p & c & T & H)]]].
      1-3: exfalso; [> apply in_lock_log in H as [H|H] | apply in_authors_log in H as (? & H & _) | apply in_target_log in H as [H|[H|H]]; [apply in_source_log in H as (? & [H|H])|..]]; discriminate H.
      apply in_component_log in H as [H|[H|[H|H]]].
      1-3: exfalso; [> apply in_source_log in H as (? & [H|H]) | destruct H as [H _] | apply in_links_log in H as (? & ? & H & _)]; discriminate H.
      apply (K p c T) in H as [H A]. split; [|exact A]. now exists p, c.
    - intros [(p & c & T & H) A]. right; right; right. exists p, c. split; auto. apply in_component_log. do 3 right. apply (K p c T). auto.
  Qed.
  (** A licence file that cannot be read *)
  Theorem C74_license_file n f : In (Warn, LicenseFileUnreadable n f) log <->
    exists p c, told meta g p c /\ pk_name p = n /\ pk_license p = None /\ pk_license_file p = Some f /\ c_licenses c = None.
  Proof.
    destruct log_told as (rp & log' & _ & _ & L & _ & TF & I). rewrite logged in L. injection L as <-. rewrite I.
    assert (K : forall p c, told meta g p c -> In (Warn, LicenseFileUnreadable n f) (licenses_log w cfg p) <->
      pk_name p = n /\ pk_license p = None /\ pk_license_file p = Some f /\ c_licenses c = None).
    { intros p c T. apply TF in T as (_ & E & _). rewrite E. unfold licenses_log, get_licenses. destruct (pk_license p) as [l0|].
      - split; [|intros (_ & ? & _); discriminate]. cbn zeta. destruct (match _ with Strict => _ | Lax => _ end); [intros []|]. intros [?|[]]. discriminate.
      - destruct (pk_license_file p) as [f0|]; [|split; [intros []|intros (_ & _ & ? & _); discriminate]].
        destruct (w_read_file _ _ _); cbn; split; try (intros []; fail).
        + intros (_ & _ & _ & ?). discriminate.
        + intros [[= <- <-]|[]]. auto.
        + intros (<- & _ & [= <-] & _). now left. }
    split.
    - intros [H|[H|[(t & _ & H)|(p & c & T & H)]]]; try elsewhere.
      apply in_component_log in H as [H|[H|[H|H]]]; try elsewhere. exists p, c. split; [exact T|]. now apply (K p c T).
    - intros (p & c & T & H). right; right; right. exists p, c. split; auto. apply in_component_log. do 3 right. now apply (K p c T).
  Qed.
  (** An author who is not among the authors of the SBOM, because of the address *)
  Theorem C74_authors a : In (Warn, InvalidAuthor a) log <->
    exists p, member_package meta m p /\ In a (pk_authors p) /\ author_contact w a None.
  Proof.
    destruct log_told as (rp & log' & Hin & Hid & L & _ & TF & I). rewrite logged in L. injection L as <-. rewrite I.
    assert (K : parse_author w a = None <-> author_contact w a None).
    { split.
      - intros H. destruct (author_dec a) as [(name & [email|] & S)|N].
        + rewrite (parse_author_email w a name email S) in H. destruct (w_email_ok w email) eqn:E; [discriminate|]. eapply ac_bad_email; eauto.
        + rewrite (parse_author_name w a name S) in H. discriminate.
        + rewrite (parse_author_other w a N) in H. discriminate.
      - intros H. inversion H as [| name email S E E'| |]; subst. destruct (C18_authors w a) as (A & _). rewrite (A _ _ S), E. reflexivity. }
    split.
    - intros [H|[H|[(t & _ & H)|(p & c & T & H)]]]; try elsewhere.
      + apply in_authors_log in H as (a' & E & A & P). injection E as <-. exists rp. rewrite <- K. repeat split; auto.
      + apply in_component_log in H as [H|[H|[H|H]]]; elsewhere.
    - intros (p & (Hp & Id) & A & B). right; left. unfold authors_log. apply in_flat_map. exists a. rewrite <- K in B. rewrite B. split; [|now left].
      rewrite (one_member p rp) in A; unfold member_package; auto.
  Qed.
  (** No lock file, so no hashes *)
  Theorem C74_lock_not_found : In (Warn, LockNotFound) log <-> exists p, member_package meta m p /\ forall f, ~ lock_file_of w p f.
  Proof.
    destruct log_told as (rp & log' & Hin & Hid & L & _ & TF & I). rewrite logged in L. injection L as <-. rewrite I.
    assert (K : In (Warn, LockNotFound) (lock_log w (pk_manifest rp)) <-> forall f, ~ lock_file_of w rp f).
    { unfold lock_log, lock_file_of. destruct (w_absolute w (pk_manifest rp)) as [a|] eqn:Ea.
      - destruct (C16_nearest_lockfile w _ a Ea) as [A _]. destruct (locate_cargo_lock w (pk_manifest rp)) as [f|] eqn:E.
        + split; [destruct (w_lockfile w f); [intros []|intros [?|[]]; discriminate]|]. intros N. destruct (N f). exists a. split; auto. now apply A.
        + split; [|intros _; now left]. intros _ f (a' & [= <-] & X). apply A in X. discriminate.
      - unfold locate_cargo_lock. rewrite Ea. split; [|intros _; now left]. intros _ f (a' & ? & _). discriminate. }
    split.
    - intros [H|[H|[(t & _ & H)|(p & c & T & H)]]]; try elsewhere; [|apply in_component_log in H as [H|[H|[H|H]]]; elsewhere].
      exists rp. split; [now split|]. now apply K.
    - intros (p & M & N). left. apply K. now rewrite (one_member rp p).
  Qed.
  Theorem C74_lock_unreadable : In (Warn, LockUnreadable) log <->
    exists p f, member_package meta m p /\ lock_file_of w p f /\ w_lockfile w f = None.
  Proof.
    destruct log_told as (rp & log' & Hin & Hid & L & _ & TF & I). rewrite logged in L. injection L as <-. rewrite I.
    assert (K : In (Warn, LockUnreadable) (lock_log w (pk_manifest rp)) <-> exists f, lock_file_of w rp f /\ w_lockfile w f = None).
    { unfold lock_log, lock_file_of. destruct (w_absolute w (pk_manifest rp)) as [a|] eqn:Ea.
      - destruct (C16_nearest_lockfile w _ a Ea) as [A _]. destruct (locate_cargo_lock w (pk_manifest rp)) as [f|] eqn:E.
        + destruct (w_lockfile w f) eqn:F; split; try (intros []; fail).
          * intros (f' & (a' & [= <-] & X) & N). apply A in X. congruence.
          * intros _. exists f. split; auto. exists a. split; auto. now apply A.
          * intros _. now left.
        + split; [intros [?|[]]; discriminate|]. intros (f' & (a' & [= <-] & X) & _). apply A in X. discriminate.
      - unfold locate_cargo_lock. rewrite Ea. split; [intros [?|[]]; discriminate|]. intros (f & (a' & ? & _) & _). discriminate. }
    split.
    - intros [H|[H|[(t & _ & H)|(p & c & T & H)]]]; try elsewhere; [|apply in_component_log in H as [H|[H|[H|H]]]; elsewhere].
      apply K in H as (f & H). exists rp, f. split; [now split|]. exact H.
    - intros (p & f & M & N). left. apply K. exists f. now rewrite (one_member rp p).
  Qed.

  (** The targets of the package of the member *)
  Lemma odd_iff t ts : In t (filter_targets ts) /\ target_class t = None <-> In t ts /\ odd_target t.
  Proof.
    pose proof (described_spec t) as D. unfold filter_targets. rewrite filter_In. unfold odd_target.
    assert (B : forall k, has_kind k t = true <-> target_has k t).
    { intros k. unfold has_kind, target_has. rewrite existsb_exists. split; [intros (x & X & Y); apply String.eqb_eq in Y; now subst|].
      intros X. exists k. split; auto. apply String.eqb_refl. }
    pose proof (B "bench"); pose proof (B "example"); pose proof (B "test"); pose proof (B "custom-build").
    unfold has_class in D. destruct (target_class t); destruct (has_kind "bench" t), (has_kind "example" t), (has_kind "test" t), (has_kind "custom-build" t); cbn [negb orb andb] in *;
      intuition congruence.
  Qed.
  Lemma described_iff t ts : In t (filter_targets ts) /\ target_class t <> None <-> In t ts /\ described_target t.
  Proof.
    rewrite <- described_spec. unfold filter_targets, has_class. rewrite filter_In, andb_true_iff. destruct (target_class t); intuition congruence.
  Qed.
  Theorem C74_odd_targets n kinds : In (Warn, OddTarget n kinds) log <->
    exists p t, member_package meta m p /\ In t (pk_targets p) /\ odd_target t /\ tg_name t = n /\ tg_kind t = kinds.
  Proof.
    destruct log_told as (rp & log' & Hin & Hid & L & _ & TF & I). rewrite logged in L. injection L as <-. rewrite I. split.
    - intros [H|[H|[(t & Ht & H)|(p & c & T & H)]]]; try elsewhere; [|apply in_component_log in H as [H|[H|[H|H]]]; elsewhere].
      unfold target_log in H. destruct (target_class t) eqn:C.
      + destruct (parent _); [|destruct H]. destruct (path_strip_prefix _ _); [elsewhere|]. destruct H as [?|[]]. discriminate.
      + destruct H as [[= <- <-]|[]]. destruct (proj1 (odd_iff t (pk_targets rp)) (conj Ht C)). exists rp, t. split; [now split|]. auto.
    - intros (p & t & M & Ht & O & <- & <-). right; right; left. exists t. rewrite (one_member p rp) in Ht; [|exact M|now split].
      destruct (proj2 (odd_iff t (pk_targets rp)) (conj Ht O)) as [A C]. split; [exact A|]. unfold target_log. rewrite C. now left.
  Qed.
  Theorem C74_sources_outside src root : In (Warn, SourceOutside src root) log <->
    root = cm_workspace_root meta /\ exists p t, member_package meta m p /\ In t (pk_targets p) /\ described_target t
      /\ tg_src t = src /\ forall rest, src <> removelast (pk_manifest p) ++ rest.
  Proof.
    destruct log_told as (rp & log' & Hin & Hid & L & _ & TF & I). rewrite logged in L. injection L as <-. rewrite I.
    assert (P : parent (pk_manifest rp) = Some (removelast (pk_manifest rp))).
    { pose proof (wf_manifests _ _ wf rp Hin). unfold parent. now destruct (pk_manifest rp). }
    split.
    - intros [H|[H|[(t & Ht & H)|(p & c & T & H)]]]; try elsewhere; [|apply in_component_log in H as [H|[H|[H|H]]]; elsewhere].
      unfold target_log in H. rewrite P in H. destruct (target_class t) eqn:C; [|destruct H as [?|[]]; discriminate].
      destruct (path_strip_prefix _ _) eqn:S; [elsewhere|]. destruct H as [[= <- <-]|[]].
      destruct (proj1 (described_iff t (pk_targets rp))) as [A B]; [split; [exact Ht|congruence]|].
      split; auto. exists rp, t. split; [now split|]. split; [exact A|]. split; [exact B|]. split; auto.
      intros rest E. apply strip_prefix_iff in E. congruence.
    - intros (-> & p & t & M & Ht & O & <- & N). right; right; left. exists t.
      rewrite (one_member p rp) in Ht, N by (first [exact M | now split]).
      destruct (proj2 (described_iff t (pk_targets rp)) (conj Ht O)) as [A C]. split; [exact A|]. unfold target_log. rewrite P.
      destruct (target_class t); [|congruence]. destruct (path_strip_prefix _ _) as [r|] eqn:S; [|now left]. apply strip_prefix_iff in S. now destruct (N r).
  Qed.

  (** Sources that are not understood *)
  Theorem C74_unknown_source kind : In (Warn, UnknownSourceKind kind) log <->
    (exists p c, told meta g p c /\ source_kind p kind) /\ ~ In kind ["git"; "registry"; "sparse"].
  Proof.
    destruct log_told as (rp & log' & Hin & Hid & L & (c0 & T0) & TF & I). rewrite logged in L. injection L as <-. rewrite I.
    assert (K : forall p, In (Warn, UnknownSourceKind kind) (source_log p) <-> source_kind p kind /\ ~ In kind ["git"; "registry"; "sparse"]).
    { intros p. unfold source_log, source_kind. destruct (pk_source p) as [s|]; [|split; [intros []|intros ((? & ? & _) & _); discriminate]].
      assert (Q : (exists rest, Some s = Some (kind ++ "+" ++ rest)%string /\ contains_char "+" kind = false) <-> exists rest, split_once "+" s = Some (kind, rest)).
      { split; intros (rest & A); exists rest.
        - destruct A as [[= ->] N]. now apply split_once_app.
        - apply split_once_spec in A as [-> A]. auto. }
      rewrite Q. destruct (is_crates_io s) eqn:C.
      { apply String.eqb_eq in C as ->. split; [intros []|]. intros ((rest & E) & N). injection E as <- <-. destruct N. cbn. auto. }
      destruct (split_once "+" s) as [[k u]|]; [|split; [intros [?|[]]; discriminate|intros ((? & ?) & _); discriminate]].
      destruct (String.eqb_spec k "git") as [->|G].
      { split; [intros []|]. intros ((? & [= <- _]) & N). destruct N. cbn. auto. }
      destruct (String.eqb_spec k "registry") as [->|R]; [split; [intros []|]; intros ((? & [= <- _]) & N); destruct N; cbn; auto|].
      destruct (String.eqb_spec k "sparse") as [->|S]; [split; [intros []|]; intros ((? & [= <- _]) & N); destruct N; cbn; auto|].
      cbn [orb]. split.
      - intros [[= <-]|[]]. split; [now exists u|]. cbn. intuition congruence.
      - intros ((? & [= <- _]) & _). now left. }
    split.
    - intros [H|[H|[(t & _ & H)|(p & c & T & H)]]]; try elsewhere.
      + apply in_target_log in H as [H|[H|H]]; try discriminate. apply K in H as [H N]. split; auto. now exists rp, c0.
      + apply in_component_log in H as [H|[H|[H|H]]]; try elsewhere. apply K in H as [H N]. split; auto. now exists p, c.
    - intros ((p & c & T & H) & N). right; right; right. exists p, c. split; auto. apply in_component_log. left. now apply K.
  Qed.
  Theorem C74_source_without_kind : In (Warn, SourceWithoutKind) log <->
    exists p c s, told meta g p c /\ pk_source p = Some s /\ contains_char "+" s = false.
  Proof.
    destruct log_told as (rp & log' & Hin & Hid & L & (c0 & T0) & TF & I). rewrite logged in L. injection L as <-. rewrite I.
    assert (K : forall p, In (Warn, SourceWithoutKind) (source_log p) <-> exists s, pk_source p = Some s /\ contains_char "+" s = false).
    { intros p. unfold source_log. destruct (pk_source p) as [s|]; [|split; [intros []|intros (? & ? & _); discriminate]].
      destruct (is_crates_io s) eqn:C.
      { apply String.eqb_eq in C as ->. split; [intros []|]. intros (s & [= <-] & N). discriminate. }
      destruct (split_once "+" s) as [[k u]|] eqn:E.
      - split.
        + destruct (k =? "git"); [intros []|]. destruct (_ || _); [intros []|]. intros [?|[]]. discriminate.
        + intros (s' & [= <-] & N). apply split_once_spec in E as [-> _]. rewrite contains_char_app in N. apply orb_false_iff in N as [_ N]. discriminate N.
      - split; [|intros _; now left]. intros _. exists s. split; auto. now apply split_once_none. }
    split.
    - intros [H|[H|[(t & _ & H)|(p & c & T & H)]]]; try elsewhere.
      + apply in_target_log in H as [H|[H|H]]; try discriminate. apply K in H as (s & H). now exists rp, c0, s.
      + apply in_component_log in H as [H|[H|[H|H]]]; try elsewhere. apply K in H as (s & H). now exists p, c, s.
    - intros (p & c & s & T & H). right; right; right. exists p, c. split; auto. apply in_component_log. left. apply K. eauto.
  Qed.

  (** All other messages than those about accepted licence names are warnings *)
  Theorem C74_levels msg : In (Info, msg) log -> exists n l, msg = InvalidLicense n l /\ accepted cfg l.
  Proof.
    intros H0. pose proof H0 as H. destruct log_told as (rp & log' & _ & _ & L & _ & TF & I). rewrite logged in L. injection L as <-. apply I in H.
    assert (S : forall p, ~ In (Info, msg) (source_log p)) by (intros p X; apply in_source_log in X as (? & [X|X]); discriminate).
    destruct H as [H|[H|[(t & _ & H)|(p & c & T & H)]]].
    - apply in_lock_log in H as [H|H]; discriminate.
    - apply in_authors_log in H as (? & H & _); discriminate.
    - apply in_target_log in H as [H|[H|H]]; [now apply S in H|discriminate..].
    - apply in_component_log in H as [H|[[H _]|[H|H]]]; [now apply S in H|discriminate| |].
      + apply in_links_log in H as (? & ? & H & _). discriminate.
      + apply in_licenses_log in H as [(lv & l & E)|(? & H)]; [|discriminate]. injection E as <- ->. exists (pk_name p), l. split; auto.
        apply C74_licenses in H0 as [_ A]. now apply A.
  Qed.
End LOG.

(** The accepted names change the level of messages, and nothing of what is written *)
Section ACCEPT.
  Variables (w : world) (cfg : config) (names : list string).
  Let cfg' := with_accepted cfg names.
  Definition with_config (c : config) (g : generated) : generated :=
    mkGenerated (g_bom g) (g_manifest_path g) (g_package_name g) c (g_target_kinds g).
  Definition omap {A B} (f : A -> B) (o : outcome A) : outcome B :=
    match o with Done a => Done (f a) | Fail s => Fail s | Panic s => Panic s | OutOfFuel => OutOfFuel end.
  Lemma omap_id {A} (o : outcome A) : omap (fun a => a) o = o. Proof. now destruct o. Qed.
  Lemma licenses_accept p : get_licenses w cfg' p = get_licenses w cfg p.
  Proof. unfold get_licenses, cfg', with_accepted. cbn [cf_license]. destruct (cf_license cfg); reflexivity. Qed.
  Lemma component_accept ws h p rp ks : create_component w cfg' ws h p rp ks = create_component w cfg ws h p rp ks.
  Proof. unfold create_component. rewrite licenses_accept. reflexivity. Qed.
  Lemma bfs_accept fuel res : forall cur next out, bfs fuel cfg' res cur next out = bfs fuel cfg res cur next out.
  Proof.
    induction fuel as [|fuel IH]; [reflexivity|]. intros cur next out. cbn [bfs]. destruct cur as [|n rest].
    - destruct next; [reflexivity|apply IH].
    - destruct (bm_mem (n_id n) out); [apply IH|].
      change (filtered_dependencies cfg' (n_deps n)) with (filtered_dependencies cfg (n_deps n)).
      change (add_filtered_dependencies cfg' n) with (add_filtered_dependencies cfg n).
      destruct (mapM _ _); cbn [bind]; auto.
  Qed.
  Lemma sbom_accept fuel ws packages res mem :
    create_sbom w fuel cfg' ws packages res mem = omap (with_config cfg') (create_sbom w fuel cfg ws packages res mem).
  Proof.
    unfold create_sbom. destruct (index_dep_kinds fuel mem res) as [kinds| | |]; try reflexivity. cbn [bind].
    change (included_of cfg') with (included_of cfg).
    assert (E : match included_of cfg with AllDependencies => all_dependencies fuel mem packages res cfg' | TopLevelDependencies => top_level_dependencies mem packages res cfg' end
              = match included_of cfg with AllDependencies => all_dependencies fuel mem packages res cfg | TopLevelDependencies => top_level_dependencies mem packages res cfg end).
    { destruct (included_of cfg); try reflexivity. unfold all_dependencies. destruct (unwrap _ _); try reflexivity. cbn [bind]. now rewrite bfs_accept. }
    rewrite E. set (S := match included_of cfg with AllDependencies => all_dependencies fuel mem packages res cfg | TopLevelDependencies => top_level_dependencies mem packages res cfg end).
    clearbody S. destruct S as [sel| | |]; try reflexivity. cbn [bind].
    destruct (unwrap _ (bm_get mem packages)) as [mp| | |]; try reflexivity. cbn [bind].
    assert (B : forall h, create_bom w cfg' ws h mem (fst sel) (snd sel) kinds = create_bom w cfg ws h mem (fst sel) (snd sel) kinds).
    { intros h. unfold create_bom, create_metadata, create_toplevel_component. change (cf_target cfg') with (cf_target cfg).
      destruct (unwrap _ _) as [rp| | |]; try reflexivity. cbn [bind].
      rewrite (mapM_ext (fun p => create_component w cfg' ws h p rp kinds) (fun p => create_component w cfg ws h p rp kinds)) by (intros; apply component_accept).
      destruct (mapM _ _); try reflexivity. cbn [bind]. rewrite component_accept. reflexivity. }
    rewrite B. destruct (create_bom _ _ _ _ _ _ _ _) as [b| | |]; reflexivity.
  Qed.
  Theorem C74_accept_named fuel meta gs : create_sboms w fuel meta cfg = Done gs ->
    exists gs', create_sboms w fuel meta (with_accepted cfg names) = Done gs'
      /\ map g_bom gs' = map g_bom gs /\ map write_plan gs' = map write_plan gs.
  Proof.
    intros H. exists (map (with_config cfg') gs). unfold create_sboms in *. destruct (unwrap _ _) as [ns| | |]; try discriminate. cbn [bind] in *.
    assert (C : Forall (fun g => g_config g = cfg) gs).
    { pose proof H as F. apply mapM_done in F. clear H. induction F as [|mem g l gs' H _ IH]; constructor; auto.
      unfold create_sbom in H. do 4 inv_bind H. injection H as <-. reflexivity. }
    split; [|split].
    - clear C. fold cfg'. revert gs H. induction (cm_members meta) as [|x l IH]; intros gs H; cbn [mapM] in *; [injection H as <-; reflexivity|].
      rewrite sbom_accept. destruct (create_sbom w fuel cfg _ _ _ x) as [g| | |]; try discriminate. cbn [bind omap] in *.
      destruct (mapM _ l) as [r| | |] eqn:E; try discriminate. cbn [bind] in H. injection H as <-. rewrite (IH _ eq_refl). reflexivity.
    - rewrite map_map. reflexivity.
    - rewrite map_map. clear H. induction C as [|g gs E _ IH]; [reflexivity|]. cbn [map]. f_equal; [|exact IH].
      unfold write_plan, filename, with_config. cbn [g_config g_bom g_manifest_path g_package_name g_target_kinds]. rewrite E. reflexivity.
  Qed.
End ACCEPT.

(** A workspace of which much is left out: no lock file can be read, [liba] has an odd source, an invalid link and license,
    [libb] has no package URL and its licence file cannot be read, the author of [app] has no valid address, and [app] has
    an odd target and one outside its directory *)
Definition lx_world : world := {|
  w_uri_ok := fun s => negb (String.eqb s "nope"); w_spdx_strict := fun s => String.eqb s "MIT"; w_spdx_lax := fun _ => true;
  w_email_ok := fun _ => false;
  w_purl := fun n v q s => if String.eqb n "libb" then None else Some ("pkg:cargo/" ++ n ++ "@" ++ v)%string;
  w_read_file := fun _ _ => None; w_absolute := fun p => Some p;
  w_is_file := fun p => match p with ["w"; "Cargo.lock"] => true | _ => false end;
  w_lockfile := fun _ => None;
  w_uuid := "urn:uuid:00000000-0000-4000-8000-000000000000"; w_now := Some "2024-01-01T00:00:00Z"; w_epoch := None;
  w_format_time := fun _ => Some "1970-01-01T00:00:00Z"; w_tool_version := "0.5.7" |}.
Definition lx_app := mkPackage ex_id_app "app" "0.1.0" None ["A <bad>"] None (Some "Custom") None None None None None
  [mkCTarget "app" ["lib"] ["w"; "app"; "src"; "lib.rs"]; mkCTarget "odd" ["weird"] ["w"; "app"; "odd.rs"];
   mkCTarget "out" ["bin"] ["w"; "out.rs"]] ["w"; "app"; "Cargo.toml"].
Definition lx_a := mkPackage ex_id_a "liba" "1.0.0" (Some "svn+x") [] None (Some "Bogus") None (Some "nope") None None
  (Some "https://github.com/x/y") [] ["r"; "liba"; "Cargo.toml"].
Definition lx_b := mkPackage ex_id_b "libb" "2.0.0" (Some "svn") [] None None (Some "COPYING") None None None None [] ["r"; "libb"; "Cargo.toml"].
Definition lx_meta : cargo_metadata := mkMeta [ex_id_app] [lx_app; lx_b; lx_a; ex_d] (Some ex_nodes) ["w"].
Definition lx_cfg : config :=
  mkConfig None None None None (Some (SingleTarget "x86_64-unknown-linux-gnu")) (Some (mkLP Lax ["Custom"])) None None None.
Lemma lx_wf : well_formed lx_meta ex_nodes.
Proof.
  constructor.
  - reflexivity.
  - repeat constructor; vm_compute; intros H; repeat (destruct H as [H|H]; [discriminate H|]); exact H.
  - repeat constructor; vm_compute; intros H; repeat (destruct H as [H|H]; [discriminate H|]); exact H.
  - intros m [<-|[]]. vm_compute. tauto.
  - intros n H. repeat (destruct H as [<-|H]; [vm_compute; tauto|]). destruct H.
  - intros n d H. repeat (destruct H as [<-|H]; [cbn [n_deps]; intros Hd; repeat (destruct Hd as [<-|Hd]; [vm_compute; tauto|]); destruct Hd|]). destruct H.
  - intros n d H. repeat (destruct H as [<-|H]; [cbn [n_deps]; intros Hd; repeat (destruct Hd as [<-|Hd]; [cbn; intuition discriminate|]); destruct Hd|]). destruct H.
  - intros p H. repeat (destruct H as [<-|H]; [discriminate|]). destruct H.
Qed.
Example C74_case : well_formed lx_meta ex_nodes /\ (exists g, sbom_of lx_world 100 lx_meta lx_cfg ex_id_app g)
  /\ sbom_log lx_world 100 lx_meta lx_cfg ex_id_app = Done
       [(Warn, LockUnreadable);
        (Warn, UnknownSourceKind "svn"); (Warn, InvalidUri "liba" ERDocumentation "nope"); (Warn, InvalidLicense "liba" "Bogus");
        (Warn, SourceWithoutKind); (Warn, InvalidPurl "libb"); (Warn, LicenseFileUnreadable "libb" "COPYING");
        (Warn, InvalidAuthor "A <bad>"); (Info, InvalidLicense "app" "Custom");
        (Warn, OddTarget "odd" ["weird"]); (Warn, SourceOutside ["w"; "out.rs"] ["w"])].
Proof.
  split; [exact lx_wf|]. split; [|vm_compute; reflexivity].
  destruct (create_sboms lx_world 100 lx_meta lx_cfg) as [[|g [|]]| | |] eqn:E; try (vm_compute in E; discriminate E).
  exists g, [g]. split; [exact E|now left].
Qed.
Print Assumptions C74_logged.
Print Assumptions C74_purl.
Print Assumptions C74_links.
Print Assumptions C74_licenses.
Print Assumptions C74_license_file.
Print Assumptions C74_authors.
Print Assumptions C74_lock_not_found.
Print Assumptions C74_lock_unreadable.
Print Assumptions C74_odd_targets.
Print Assumptions C74_sources_outside.
Print Assumptions C74_unknown_source.
Print Assumptions C74_source_without_kind.
Print Assumptions C74_levels.
Print Assumptions C74_accept_named.

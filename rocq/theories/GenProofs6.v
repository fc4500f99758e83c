(** Reproducibility, component contents, file names, lock files, purls,
    authors, external references, configuration. *)
From Verif Require Import Base Strings Base64 ModelTypes ConfigModel GenModel GenSpec
  GenProofs GenProofs2 GenProofs3 GenProofs4 GenProofs5.
From Coq Require Import NArith ZArith.
Open Scope string_scope.
Open Scope list_scope.

(** *** C08 *)
Lemma mapM_ext {A B} (f g : A -> outcome B) l : (forall a, f a = g a) -> mapM f l = mapM g l.
Proof. intros H. induction l as [|x l IH]; cbn; auto. now rewrite H, IH. Qed.

Lemma NoDup_app_intro {A} (a b : list A) : NoDup a -> NoDup b -> (forall x, In x a -> ~ In x b) -> NoDup (a ++ b).
Proof.
  induction 1 as [|x a N _ IH]; cbn; auto. intros Hb Hd. constructor.
  - intros H. apply in_app_or in H as [H|H]; [contradiction|]. apply (Hd x); auto.
  - apply IH; auto.
Qed.
Lemma subs_clock w ws p r t u t' u' : forall ts n,
  subcomponents (with_clock_and_uuid w t u) ws p r n ts = subcomponents (with_clock_and_uuid w t' u') ws p r n ts.
Proof.
  induction ts as [|x ts IH]; intros n; cbn [subcomponents]; auto.
  destruct (target_class x); auto. rewrite IH. reflexivity.
Qed.
Lemma toplevel_clock w cfg ws hs p t u t' u' :
  create_toplevel_component (with_clock_and_uuid w t u) cfg ws hs p
  = create_toplevel_component (with_clock_and_uuid w t' u') cfg ws hs p.
Proof.
  unfold create_toplevel_component.
  change (create_component (with_clock_and_uuid w t u)) with (create_component (with_clock_and_uuid w t' u')).
  destruct (create_component _ cfg ws hs p p []) as [c| | |]; cbn [bind]; auto.
  destruct (c_bom_ref c) as [r|]; cbn [unwrap bind]; auto. now rewrite (subs_clock w ws p r t u t' u').
Qed.

Lemma create_sboms_reproducible w fuel meta cfg e t u t' u' : w_epoch w = Some e ->
  create_sboms (with_clock_and_uuid w t u) fuel meta cfg = create_sboms (with_clock_and_uuid w t' u') fuel meta cfg.
Proof.
  intros He. unfold create_sboms. destruct (cm_resolve meta) as [nodes|]; cbn [unwrap bind]; auto.
  apply mapM_ext. intros m. unfold create_sbom.
  destruct (index_dep_kinds fuel m (index_resolve nodes)); cbn [bind]; auto.
  destruct (match included_of cfg with TopLevelDependencies => _ | AllDependencies => _ end) as [sel| | |]; cbn [bind]; auto.
  destruct (bm_get m _) as [mp|]; cbn [unwrap bind]; auto.
  assert (H : create_bom (with_clock_and_uuid w t u) cfg (cm_workspace_root meta)
                (crate_hashes (with_clock_and_uuid w t u) (pk_manifest mp)) m (fst sel) (snd sel) a
            = create_bom (with_clock_and_uuid w t' u') cfg (cm_workspace_root meta)
                (crate_hashes (with_clock_and_uuid w t' u') (pk_manifest mp)) m (fst sel) (snd sel) a).
  { change (crate_hashes (with_clock_and_uuid w t u)) with (crate_hashes (with_clock_and_uuid w t' u')).
    unfold create_bom.
    change (create_component (with_clock_and_uuid w t u)) with (create_component (with_clock_and_uuid w t' u')).
    destruct (bm_get m (fst sel)) as [rp|]; cbn [unwrap bind]; auto.
    destruct (mapM _ _) as [comps| | |]; cbn [bind]; auto.
    unfold create_metadata. rewrite (toplevel_clock w cfg _ _ rp t u t' u').
    change (create_authors (with_clock_and_uuid w t u)) with (create_authors (with_clock_and_uuid w t' u')).
    unfold bom_timestamp. cbn [w_epoch w_now w_uuid w_format_time w_tool_version with_clock_and_uuid].
    rewrite He. reflexivity. }
  now rewrite H.
Qed.

Section Sbom.
  Variables (w : world) (fuel : nat) (meta : cargo_metadata) (nodes : list node) (cfg : config) (ws : path).
  Hypothesis wf : well_formed meta nodes.
  Let ok := sbom_ok w fuel meta nodes cfg ws.

  Lemma sbom_reproducible_header m g e : ok m g -> w_epoch w = Some e ->
    b_serial_number (g_bom g) = None
    /\ exists z t md, parse_i64 e = Some z /\ w_format_time w z = Some t
         /\ b_metadata (g_bom g) = Some md /\ m_timestamp md = Some t.
  Proof.
    intros [H Hm] He. apply create_sbom_inv in H as (kinds & ps & ns & rp & comps & md & tk & Hk & Hsel & Hin & Hid & Hc & Hmd & _ & _ & _ & _ & Eb & _ & _ & Eg); auto.
    rewrite Eg. cbn. rewrite He. split; auto.
    unfold create_metadata in Hmd. inv_bind Hmd. inv_bind Hmd. inv_bind Hmd. injection Hmd as <- _.
    unfold bom_timestamp in Hv. inv_bind Hv. rewrite He in Hv. inv_bind Hv. apply unwrap_done in Hv, Hv3.
    exists v3, v. eexists. split; [exact Hv3|]. split; [exact Hv|]. split; [reflexivity|]. reflexivity.
  Qed.

  (** *** C09 *)
  Lemma sbom_refs m g : ok m g ->
    (forall p n, In p (cm_packages meta) -> pk_id p <> (m ++ " bin-target-" ++ string_of_nat n)%string) ->
    exists c ids, main_component (g_bom g) = Some c
      /\ c_bom_ref c :: sub_refs c ++ component_refs (g_bom g) = map Some ids
      /\ NoDup ids
      /\ (forall d, In d (dependency_list (g_bom g)) ->
            In (Some (d_ref d)) (c_bom_ref c :: component_refs (g_bom g))
            /\ forall x, In x (d_dependencies d) -> In (Some x) (c_bom_ref c :: component_refs (g_bom g))).
  Proof.
    intros Hok Hfresh.
    destruct (sbom_main _ _ _ _ _ _ wf _ _ Hok) as (rp & c & subs & sel & md & A & B & M1 & M2 & R & C & S & _ & _ & _ & Refs & Kinds & F).
    assert (Hmain : main_component (g_bom g) = Some c) by (unfold main_component; now rewrite M1).
    destruct (sbom_components _ _ _ _ _ _ wf _ _ Hok) as (_ & ND & Hrefs).
    destruct (sbom_dependencies _ _ _ _ _ _ wf _ _ Hok) as (_ & D2 & D3).
    destruct (sbom_sorted _ _ _ _ _ _ wf _ _ Hok) as (cids & Ec & _).
    exists c, (m :: map (sub_ref m) (seq 0 (List.length sel)) ++ cids). split; auto. split.
    { rewrite R. unfold sub_refs. rewrite C, Refs, Ec. cbn [map]. f_equal. now rewrite map_app. }
    assert (Hcid : forall id, In id cids <-> selected nodes cfg m id /\ id <> m).
    { intros id. specialize (Hrefs (Some id)). rewrite Ec in Hrefs. split.
      - intros Hi. destruct Hrefs as [Hrefs _]. destruct Hrefs as (id' & E & H1); [now apply in_map|].
        injection E as <-. auto.
      - intros Hi. destruct Hrefs as [_ Hrefs].
        assert (In (Some id) (map Some cids)) as Hx by (apply Hrefs; exists id; tauto).
        apply in_map_iff in Hx as (y & E & Hy). injection E as <-. auto. }
    assert (Hpkg : forall id, selected nodes cfg m id -> exists p, In p (cm_packages meta) /\ pk_id p = id).
    { intros id Hs. apply (node_pkg meta nodes wf).
      assert (In m (map n_id nodes)) by (apply wf; apply Hok).
      destruct Hs as [[_ [->|Hs]]|[_ Hs]]; auto; [eapply needs_node; eauto|eapply reach_node; eauto]. }
    split.
    - constructor.
      + intros Hi. apply in_app_or in Hi as [Hi|Hi].
        * apply in_map_iff in Hi as (i & E & _). now apply sub_ref_neq in E.
        * apply Hcid in Hi. tauto.
      + apply NoDup_app_intro.
        * apply sub_refs_nodup.
        * rewrite Ec in ND. eapply NoDup_map_inv; eauto.
        * intros x Hx Hc. apply in_map_iff in Hx as (i & <- & _). apply Hcid in Hc as [Hc _].
          apply Hpkg in Hc as (p & P1 & P2). now apply (Hfresh p i P1).
    - assert (Hres : forall id, selected nodes cfg m id -> In (Some id) (c_bom_ref c :: component_refs (g_bom g))).
      { intros id Hs. rewrite R. destruct (string_dec id m) as [->|N]; [now left|]. right. apply Hrefs. eauto. }
      intros d Hd. assert (Hsd : selected nodes cfg m (d_ref d)) by (apply D2; now apply in_map). split.
      + apply Hres; auto.
      + intros x Hx. apply Hres. apply (D3 d Hd) in Hx as [Hn Hmode].
        destruct Hsd as [[Ht Hs]|[Ht Hs]].
        * left. split; auto. right. now rewrite <- (Hmode Ht).
        * right. split; auto. eapply reach_step; eauto.
  Qed.

  (** *** C10 *)
  Lemma package_hashes_spec l id h : bm_get id (package_hashes l) = Some h ->
    exists lk, In lk l /\ lock_entry_for lk id /\ lk_checksum lk = Some h.
  Proof.
    unfold package_hashes. rewrite bm_of_list_get. intros H. apply assoc_last_In in H.
    apply in_flat_map in H as (lk & Hin & H). destruct (lk_checksum lk) as [h'|] eqn:E; [|destruct H].
    destruct H as [H|[]]. injection H as <- <-. exists lk. split; auto. split; auto.
    unfold lock_entry_for, pkgid. now destruct (lk_source lk).
  Qed.
  Lemma package_hashes_none l id : bm_get id (package_hashes l) = None ->
    forall lk, In lk l -> lock_entry_for lk id -> lk_checksum lk = None.
  Proof.
    unfold package_hashes. rewrite bm_of_list_get. intros H lk Hin Hid.
    destruct (lk_checksum lk) as [h|] eqn:E; auto. exfalso. apply (assoc_last_none _ _ H h).
    apply in_flat_map. exists lk. split; auto. rewrite E. left. f_equal.
    unfold lock_entry_for, pkgid in *. now destruct (lk_source lk).
  Qed.

  Lemma get_licenses_spec p : license_of_package w cfg p (get_licenses w cfg p).
  Proof.
    unfold license_of_package, get_licenses. destruct (pk_license p) as [l|].
    - unfold spdx_parse_lax, spdx_try_from.
      destruct (cf_license cfg) as [[[] acc]|]; cbn [lp_mode].
      + destruct (w_spdx_strict w l); reflexivity.
      + destruct (w_spdx_lax w l); cbn [andb]; [|reflexivity].
        destruct (w_spdx_strict w (replace_char "/" " OR " l)); reflexivity.
      + destruct (w_spdx_lax w l); cbn [andb]; [|reflexivity].
        destruct (w_spdx_strict w (replace_char "/" " OR " l)); reflexivity.
    - destruct (pk_license_file p) as [f|]; [|reflexivity]. destruct (w_read_file w _ f) as [content|]; [|reflexivity].
      eexists; split; [reflexivity|]. split; [reflexivity|]. cbn. apply b64_roundtrip.
  Qed.

  Lemma sbom_contents m g : ok m g -> forall c, In c (component_list (g_bom g)) ->
    exists p, In p (cm_packages meta) /\ c_bom_ref c = Some (pk_id p) /\ c_type c = CLibrary
      /\ c_name c = normalize (trim (pk_name p)) /\ c_version c = Some (normalize (pk_version p))
      /\ c_description c = option_map normalize (pk_description p)
      /\ (c_author c = match pk_authors p with [] => None | l => Some (normalize (join ", " l)) end)
      /\ license_of_package w cfg p (c_licenses c)
      /\ c_external_references c = get_external_references w p
      /\ c_hashes c = get_hashes (crate_hashes w (g_manifest_path g)) p.
  Proof.
    intros [H Hm] c Hc. apply create_sbom_inv in H as (kinds & ps & ns & rp & comps & md & tk & Hk & Hsel & Hin & Hid & Hcs & Hmd & G1 & _ & _ & _ & Eb & _ & _ & Eg); auto.
    unfold component_list in Hc. rewrite Eg in Hc. cbn in Hc.
    assert (exists p, In p (filter (fun p => negb (pk_id p =? m)%string) (map snd ps)) /\
       create_component w cfg ws (crate_hashes w (pk_manifest rp)) p rp kinds = Done c) as (p & Hp & E).
    { clear -Hcs Hc. induction Hcs as [|p y l l' E _ IH]; [destruct Hc|]. destruct Hc as [->|Hc].
      - exists p. split; auto. now left.
      - destruct (IH Hc) as (p' & A & B). exists p'. split; auto. now right. }
    exists p. apply filter_In in Hp as [Hp _]. apply in_map_iff in Hp as ([k p'] & Ep & Hp). cbn in Ep; subst p'.
    apply bm_In_get in Hp; [|apply Hsel]. apply (sel_ps _ _ _ _ _ _ Hsel) in Hp as (_ & P1 & _).
    split; auto. unfold create_component in E. inv_bind E. injection E as <-. cbn [c_bom_ref c_type c_name c_version c_description c_author c_licenses c_external_references c_hashes component_new].
    rewrite G1. repeat (split; [reflexivity|]). split; [apply get_licenses_spec|]. split; reflexivity.
  Qed.

  Lemma get_hashes_spec manifest p :
    let lock := match locate_cargo_lock w manifest with
                | Some f => match w_lockfile w f with Some l => l | None => [] end
                | None => [] end in
    match get_hashes (crate_hashes w manifest) p with
    | Some hs => exists h lk, hs = [mkHash SHA_256 h] /\ In lk lock /\ lock_entry_for lk (pk_id p) /\ lk_checksum lk = Some h
    | None => forall lk, In lk lock -> lock_entry_for lk (pk_id p) -> lk_checksum lk = None
    end.
  Proof.
    intros lock. unfold get_hashes.
    assert (E : crate_hashes w manifest = package_hashes lock).
    { unfold crate_hashes, lock. destruct (locate_cargo_lock w manifest) as [f|]; auto.
      destruct (w_lockfile w f); reflexivity. }
    rewrite E. destruct (bm_get (pk_id p) (package_hashes lock)) as [h|] eqn:Eh.
    - apply package_hashes_spec in Eh as (lk & A & B & C). exists h, lk. auto.
    - now apply package_hashes_none.
  Qed.
End Sbom.

(** *** C16 *)
Lemma removelast_prefix {A} (p : list A) x : removelast (p ++ [x]) = p.
Proof. now rewrite removelast_app, app_nil_r by discriminate. Qed.
Lemma ancestors_In n : forall p, List.length p = n -> forall d, In d (ancestors n p) <-> is_prefix d p.
Proof.
  induction n as [|n IH]; intros p Hl d.
  - destruct p; [|discriminate]. cbn. split.
    + intros [<-|[]]. exists []. reflexivity.
    + intros [r E]. left. symmetry in E. apply app_eq_nil in E. intuition.
  - destruct (@exists_last _ p) as (q & x & ->); [destruct p; discriminate|].
    assert (Hq : List.length q = n) by (rewrite app_length in Hl; cbn in Hl; lia).
    cbn [ancestors]. destruct (q ++ [x]) as [|y yy] eqn:E; [now destruct q|].
    rewrite <- E in *. rewrite removelast_prefix. cbn [In]. rewrite (IH q Hq). split.
    + intros [<-|[r ->]]; [exists []; now rewrite app_nil_r|]. exists (r ++ [x]). now rewrite app_assoc.
    + intros [r Er]. destruct r as [|z r] using rev_ind; [left; now rewrite app_nil_r in Er|].
      right. rewrite app_assoc in Er. apply app_inj_tail in Er as [-> _]. exists r. reflexivity.
Qed.
Lemma ancestors_sorted n : forall p, List.length p = n -> forall a d b, ancestors n p = a ++ d :: b ->
  forall d', is_prefix d' p -> List.length d < List.length d' -> In d' a.
Proof.
  induction n as [|n IH]; intros p Hl a d b E d' Hd' Hlt.
  - destruct p; [|discriminate]. destruct Hd' as [r Er]. symmetry in Er. apply app_eq_nil in Er as [-> _]. cbn in Hlt. lia.
  - destruct (@exists_last _ p) as (q & x & ->); [destruct p; discriminate|].
    assert (Hq : List.length q = n) by (rewrite app_length in Hl; cbn in Hl; lia).
    cbn [ancestors] in E. destruct (q ++ [x]) as [|y yy] eqn:Eq; [now destruct q|]. rewrite <- Eq in *.
    rewrite removelast_prefix in E. destruct a as [|a0 a]; cbn in E; injection E as E1 E2.
    + destruct Hd' as [r Er]. subst d. rewrite Er, app_length in Hlt. lia.
    + destruct Hd' as [r Er]. destruct r as [|z r _] using rev_ind.
      * left. rewrite app_nil_r in Er. congruence.
      * right. rewrite app_assoc in Er. apply app_inj_tail in Er as [-> _].
        eapply IH; eauto. exists r. reflexivity.
Qed.
Lemma find_split {A} (f : A -> bool) l x : find f l = Some x ->
  exists a b, l = a ++ x :: b /\ f x = true /\ forall y, In y a -> f y = false.
Proof.
  induction l as [|y l IH]; cbn; [discriminate|]. destruct (f y) eqn:E.
  - intros H; injection H as ->. exists [], l. split; auto. split; auto. intros z [].
  - intros H. destruct (IH H) as (a & b & -> & F & N). exists (y :: a), b. split; auto. split; auto.
    intros z [<-|Hz]; auto.
Qed.

Lemma locate_some w manifest m f : w_absolute w manifest = Some m ->
  locate_cargo_lock w manifest = Some f -> nearest_lock (w_is_file w) m f.
Proof.
  intros Ha H. unfold locate_cargo_lock in H. rewrite Ha in H.
  apply find_split in H as (a & b & E & F & N).
  assert (exists a' d b', path_ancestors m = a' ++ d :: b' /\ a = map (fun d => d ++ ["Cargo.lock"]) a' /\ f = d ++ ["Cargo.lock"]) as (a' & d & b' & E1 & -> & ->).
  { clear -E. revert a E. induction (path_ancestors m) as [|p l IH]; intros a E; cbn in E.
    - destruct a; discriminate.
    - destruct a as [|a0 a]; cbn in E; injection E as E1 E2.
      + exists [], p, l. auto.
      + destruct (IH _ E2) as (a' & d & b' & -> & -> & ->). exists (p :: a'), d, b'. cbn. subst. auto. }
  exists d. split; [|split; [reflexivity|split; [exact F|]]].
  - apply (ancestors_In _ m eq_refl). unfold path_ancestors in E1. rewrite E1. apply in_or_app; right; now left.
  - intros d' Hd' Hlt. apply N. apply in_map_iff. exists d'. split; auto.
    eapply ancestors_sorted; eauto.
Qed.
Lemma locate_none w manifest m : w_absolute w manifest = Some m ->
  (locate_cargo_lock w manifest = None <-> forall d, is_prefix d m -> w_is_file w (d ++ ["Cargo.lock"]) = false).
Proof.
  intros Ha. unfold locate_cargo_lock. rewrite Ha. split.
  - intros H d Hd. eapply find_none in H; eauto. apply in_map_iff. exists d. split; auto.
    now apply (ancestors_In _ m eq_refl).
  - intros H. destruct (find _ _) as [f|] eqn:E; auto. apply find_some in E as [E1 E2].
    apply in_map_iff in E1 as (d & <- & Hd). apply (ancestors_In _ m eq_refl) in Hd. rewrite (H d Hd) in E2. discriminate.
Qed.

(** *** C17 *)
Lemma vcs_query_commit url q commit : contains_char "?" url = false -> contains_char "#" url = false ->
  contains_char "#" q = false ->
  source_to_vcs_url ("git+" ++ url ++ "?" ++ q ++ "#" ++ commit)%string = Done ("git+" ++ url ++ "@" ++ commit)%string.
Proof.
  intros H1 H2 H3. unfold source_to_vcs_url.
  assert (starts_with "git+" ("git+" ++ url ++ "?" ++ q ++ "#" ++ commit) = true) as -> by (apply starts_with_spec; eauto).
  rewrite <- append_assoc. set (u := ("git+" ++ url)%string).
  assert (Hu : contains_char "?" u = false) by (unfold u; rewrite contains_char_app, H1; reflexivity).
  assert (Hh : contains_char "#" (u ++ "?" ++ q) = false).
  { unfold u. rewrite !contains_char_app, H2, H3. reflexivity. }
  assert (find_char "?" (u ++ "?" ++ q ++ "#" ++ commit) = Some (String.length u)) as -> by (now apply find_char_first).
  assert (E : (u ++ "?" ++ q ++ "#" ++ commit = (u ++ "?" ++ q) ++ String "#" commit)%string).
  { rewrite !append_assoc. reflexivity. }
  assert (find_char "#" (u ++ "?" ++ q ++ "#" ++ commit) = Some (String.length (u ++ "?" ++ q))) as ->.
  { rewrite E. now apply find_char_first. }
  f_equal. rewrite take_app, E. rewrite <- (append_assoc "git+" url). fold u. f_equal. f_equal.
  replace (S (String.length (u ++ "?" ++ q))) with (String.length ((u ++ "?" ++ q) ++ "#")).
  - rewrite <- (drop_app ((u ++ "?" ++ q) ++ "#") commit) at 2. f_equal.
    rewrite (append_assoc (u ++ "?" ++ q) "#" commit). reflexivity.
  - rewrite length_append. cbn. lia.
Qed.
Lemma replace_char_absent c r s : contains_char c s = false -> replace_char c r s = s.
Proof.
  induction s as [|a s IH]; cbn; auto. intros H. apply orb_false_iff in H as [-> H]. now rewrite IH.
Qed.
Lemma replace_char_app c r a b : replace_char c r (a ++ b) = (replace_char c r a ++ replace_char c r b)%string.
Proof. induction a as [|x a IH]; cbn; auto. destruct (Ascii.eqb x c); rewrite IH; auto. now rewrite append_assoc. Qed.
Lemma vcs_commit url commit : contains_char "?" url = false -> contains_char "#" url = false ->
  contains_char "?" commit = false -> contains_char "#" commit = false ->
  source_to_vcs_url ("git+" ++ url ++ "#" ++ commit)%string = Done ("git+" ++ url ++ "@" ++ commit)%string.
Proof.
  intros H1 H2 H3 H4. unfold source_to_vcs_url.
  assert (starts_with "git+" ("git+" ++ url ++ "#" ++ commit) = true) as -> by (apply starts_with_spec; eauto).
  assert (find_char "?" ("git+" ++ url ++ "#" ++ commit) = None) as ->.
  { apply find_char_none. rewrite !contains_char_app, H1, H3. reflexivity. }
  destruct (find_char "#" ("git+" ++ url ++ "#" ++ commit)) eqn:E.
  - f_equal. rewrite !replace_char_app, (replace_char_absent _ _ url), (replace_char_absent _ _ commit) by auto. reflexivity.
  - apply find_char_none in E. rewrite !contains_char_app in E. cbn in E. rewrite orb_true_r in E. discriminate.
Qed.
Lemma vcs_query url q : contains_char "?" url = false -> contains_char "#" url = false -> contains_char "#" q = false ->
  source_to_vcs_url ("git+" ++ url ++ "?" ++ q)%string
  = Done ("git+" ++ url ++ "@" ++ match ref_value (split_char "&" q) with Some r => r | None => q end)%string.
Proof.
  intros H1 H2 H3. unfold source_to_vcs_url.
  assert (starts_with "git+" ("git+" ++ url ++ "?" ++ q) = true) as -> by (apply starts_with_spec; eauto).
  rewrite <- append_assoc. set (u := ("git+" ++ url)%string).
  assert (Hu : contains_char "?" u = false) by (unfold u; rewrite contains_char_app, H1; reflexivity).
  assert (find_char "?" (u ++ "?" ++ q) = Some (String.length u)) as -> by (now apply find_char_first).
  assert (find_char "#" (u ++ "?" ++ q) = None) as ->.
  { apply find_char_none. unfold u. rewrite !contains_char_app, H2, H3. reflexivity. }
  f_equal. rewrite take_app.
  assert (drop (S (String.length u)) (u ++ "?" ++ q) = q) as ->.
  { replace (S (String.length u)) with (String.length (u ++ "?")) by (rewrite length_append; cbn; lia).
    rewrite <- (drop_app (u ++ "?") q) at 2. f_equal. rewrite append_assoc. reflexivity. }
  unfold u. rewrite append_assoc. reflexivity.
Qed.
Lemma vcs_plain url : contains_char "?" url = false -> contains_char "#" url = false ->
  source_to_vcs_url ("git+" ++ url)%string = Done ("git+" ++ url)%string.
Proof.
  intros H1 H2. unfold source_to_vcs_url.
  assert (starts_with "git+" ("git+" ++ url) = true) as -> by (apply starts_with_spec; eauto).
  assert (find_char "?" ("git+" ++ url) = None) as -> by (apply find_char_none; rewrite contains_char_app, H1; reflexivity).
  assert (find_char "#" ("git+" ++ url) = None) as -> by (apply find_char_none; rewrite contains_char_app, H2; reflexivity).
  reflexivity.
Qed.

(** *** C18 *)
Lemma eqb_empty_false s : s <> "" -> String.eqb s "" = false.
Proof. intros H. now apply String.eqb_neq. Qed.
Lemma author_captures_complete s name e : author_shape s name e -> author_captures s = Some (name, e).
Proof.
  intros H. unfold author_captures. destruct H as [name email Hn Hl He Hg|name Hn Hl].
  - change ("<" ++ email ++ ">")%string with (String "<" (email ++ ">")).
    rewrite (find_char_first "<" name _ Hl). destruct (String.length name) as [|i] eqn:El.
    { destruct name; [congruence|discriminate]. }
    rewrite <- El.
    assert (D : drop (S (String.length name)) (name ++ String "<" (email ++ ">")) = (email ++ ">")%string).
    { replace (S (String.length name)) with (String.length (name ++ "<")) by (rewrite length_append; cbn; lia).
      rewrite <- (drop_app (name ++ "<") (email ++ ">")) at 2. f_equal. rewrite append_assoc. reflexivity. }
    cbv zeta. rewrite D, (find_char_first ">" email "" Hg). destruct (String.length email) as [|j] eqn:Ee.
    { destruct email; [congruence|discriminate]. }
    rewrite <- Ee.
    assert (D2 : drop (S (String.length email)) (email ++ ">") = "").
    { replace (S (String.length email)) with (String.length (email ++ ">")) by (rewrite length_append; cbn; lia).
      rewrite <- (append_nil_r (email ++ ">")) at 2. apply drop_app. }
    rewrite D2, take_app, take_app. reflexivity.
  - destruct (find_char "<" name) eqn:E.
    + exfalso. assert (find_char "<" name = None) by (now apply find_char_none). congruence.
    + now rewrite eqb_empty_false.
Qed.
Lemma take_nonempty i s : s <> "" -> take (S i) s <> "".
Proof. destruct s as [|a s]; [congruence|]. intros _ X. cbn in X. congruence. Qed.
Lemma author_captures_sound s name e : author_captures s = Some (name, e) -> author_shape s name e.
Proof.
  unfold author_captures. destruct (find_char "<" s) as [[|i]|] eqn:E; [discriminate| |].
  - apply find_char_some in E as [E C].
    destruct (find_char ">" (drop (S (S i)) s)) as [[|j]|] eqn:E2; try discriminate.
    apply find_char_some in E2 as [E2 C2].
    destruct (String.eqb_spec (drop (S (S j)) (drop (S (S i)) s)) "") as [D|]; [|discriminate].
    intros H; injection H as <- <-. rewrite D in E2.
    assert (Es : s = (take (S i) s ++ "<" ++ take (S j) (drop (S (S i)) s) ++ ">")%string).
    { rewrite E at 1. f_equal. cbn [append]. f_equal. exact E2. }
    rewrite Es at 1. constructor; auto.
    + apply (take_nonempty i s). intros ->. discriminate E.
    + apply (take_nonempty j (drop (S (S i)) s)). intros X. rewrite X in E2. discriminate E2.
  - destruct (String.eqb_spec s ""); [discriminate|]. intros H; injection H as <- <-.
    constructor; auto. now apply find_char_none.
Qed.

(** *** C12 *)
Lemma append_inj_r a b c : (a ++ c = b ++ c)%string -> a = b.
Proof.
  intros H. assert (L : String.length a = String.length b).
  { apply (f_equal String.length) in H. rewrite !length_append in H. lia. }
  now apply append_inj_same_len in H.
Qed.
Lemma last_sep c x y : contains_char c x = false -> contains_char c y = false ->
  forall a b, (a ++ String c x = b ++ String c y)%string -> a = b /\ x = y.
Proof.
  intros Hx Hy. induction a as [|h a IH]; intros [|k b] H; cbn in H.
  - injection H as ->. auto.
  - injection H as H1 H2. exfalso. rewrite H2, contains_char_app in Hx. cbn in Hx.
    rewrite Ascii.eqb_refl, orb_true_r in Hx. discriminate.
  - injection H as H1 H2. exfalso. rewrite <- H2, contains_char_app in Hy. cbn in Hy.
    rewrite Ascii.eqb_refl, orb_true_r in Hy. discriminate.
  - injection H as -> H2. destruct (IH b H2) as [-> ->]. auto.
Qed.
Lemma join_contains c sep l : contains_char c sep = false -> (forall s, In s l -> contains_char c s = false) ->
  contains_char c (join sep l) = false.
Proof.
  intros Hs. unfold join. induction l as [|x l IH]; intros H; [reflexivity|].
  cbn [String.concat]. destruct l as [|y l].
  - apply H. now left.
  - rewrite !contains_char_app, Hs, (H x) by (now left). cbn [orb]. apply IH. intros s Hin. apply H. now right.
Qed.

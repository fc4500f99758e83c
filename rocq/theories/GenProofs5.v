(** Order independence, reproducibility, references, targets and artifacts. *)
From Verif Require Import Base Strings Base64 ModelTypes ConfigModel GenModel GenSpec
  GenProofs GenProofs2 GenProofs3 GenProofs4.
From Coq Require Import NArith ZArith Sorting.Sorted.
Open Scope string_scope.
Open Scope list_scope.

(** *** C07 *)
Lemma index_perm {A} (key : A -> string) l1 l2 : NoDup (map key l1) -> Permutation l1 l2 ->
  bm_of_list (map (fun x => (key x, x)) l1) = bm_of_list (map (fun x => (key x, x)) l2).
Proof.
  intros Hnd HP. apply bm_of_list_perm.
  - now rewrite map_fst_index.
  - now apply Permutation_map.
Qed.

Lemma mapM_permutation {A B} (f : A -> outcome B) l1 l2 r1 : Permutation l1 l2 -> mapM f l1 = Done r1 ->
  exists r2, mapM f l2 = Done r2 /\ Permutation (combine l1 r1) (combine l2 r2).
Proof.
  intros HP. revert r1. induction HP; intros r1 H.
  - injection H as <-. exists []. split; auto.
  - cbn [mapM] in H. inv_bind H. inv_bind H. injection H as <-. destruct (IHHP _ Hv0) as (r2 & E & P).
    exists (v :: r2). cbn [mapM]. rewrite Hv. cbn [bind]. rewrite E. split; auto. cbn. now constructor.
  - cbn [mapM] in H. inv_bind H. inv_bind H. inv_bind Hv0. inv_bind Hv0. injection Hv0 as <-. injection H as <-.
    exists (v1 :: v :: v2). cbn [mapM]. rewrite Hv1. cbn [bind]. rewrite Hv. cbn [bind]. rewrite Hv2. cbn [bind].
    split; auto. cbn. constructor.
  - destruct (IHHP1 _ H) as (r2 & E & P). destruct (IHHP2 _ E) as (r3 & E' & P'). exists r3. split; auto.
    eapply perm_trans; eauto.
Qed.

Lemma create_sboms_order w fuel meta meta' cfg nodes nodes' gs :
  NoDup (map pk_id (cm_packages meta)) -> NoDup (map n_id nodes) ->
  cm_resolve meta = Some nodes -> cm_resolve meta' = Some nodes' ->
  Permutation (cm_packages meta) (cm_packages meta') -> Permutation nodes nodes' ->
  Permutation (cm_members meta) (cm_members meta') -> cm_workspace_root meta = cm_workspace_root meta' ->
  create_sboms w fuel meta cfg = Done gs ->
  exists gs', create_sboms w fuel meta' cfg = Done gs'
    /\ Permutation (combine (cm_members meta) gs) (combine (cm_members meta') gs').
Proof.
  intros N1 N2 R1 R2 P1 P2 P3 W H. unfold create_sboms in *. rewrite R1 in H. rewrite R2. cbn [unwrap bind] in *.
  unfold index_packages, index_resolve in *.
  rewrite <- (index_perm pk_id _ _ N1 P1), <- (index_perm n_id _ _ N2 P2), <- W.
  eapply mapM_permutation; eauto.
Qed.

Lemma create_sboms_order_eq w fuel meta meta' cfg nodes nodes' :
  NoDup (map pk_id (cm_packages meta)) -> NoDup (map n_id nodes) ->
  cm_resolve meta = Some nodes -> cm_resolve meta' = Some nodes' ->
  Permutation (cm_packages meta) (cm_packages meta') -> Permutation nodes nodes' ->
  cm_members meta = cm_members meta' -> cm_workspace_root meta = cm_workspace_root meta' ->
  create_sboms w fuel meta' cfg = create_sboms w fuel meta cfg.
Proof.
  intros N1 N2 R1 R2 P1 P2 P3 W. unfold create_sboms in *. rewrite R1, R2. cbn [unwrap bind].
  unfold index_packages, index_resolve.
  now rewrite <- (index_perm pk_id _ _ N1 P1), <- (index_perm n_id _ _ N2 P2), <- W, <- P3.
Qed.

Lemma sorted_keys_ssorted {V} (m : bmap V) : sorted m -> StronglySorted (fun a b => String.compare a b = Lt) (map fst m).
Proof.
  induction 1 as [|k v m Hall Hs IH]; cbn; constructor; auto.
  rewrite Forall_forall in *. intros x Hx. apply in_map_iff in Hx as ([k' v'] & <- & Hx). apply compare_lt. apply (Hall _ Hx).
Qed.
Lemma ssorted_filter {A} (R : A -> A -> Prop) f l : StronglySorted R l -> StronglySorted R (filter f l).
Proof.
  induction 1 as [|x l Hs IH Hall]; cbn; [constructor|]. destruct (f x); auto. constructor; auto.
  rewrite Forall_forall in *. intros y Hy. apply filter_In in Hy as [Hy _]. auto.
Qed.
Lemma map_filter_comm {A B} (f : A -> B) (p : B -> bool) l :
  map f (filter (fun x => p (f x)) l) = filter p (map f l).
Proof. induction l as [|x l IH]; cbn; auto. destruct (p (f x)); cbn; now rewrite IH. Qed.

Section Sbom.
  Variables (w : world) (fuel : nat) (meta : cargo_metadata) (nodes : list node) (cfg : config) (ws : path).
  Hypothesis wf : well_formed meta nodes.
  Let packages := index_packages (cm_packages meta).
  Let resolve := index_resolve nodes.
  Let ok := sbom_ok w fuel meta nodes cfg ws.

  Lemma sbom_sorted m g : ok m g -> exists ids, component_refs (g_bom g) = map Some ids
     /\ StronglySorted (fun a b => String.compare a b = Lt) ids.
  Proof.
    intros [H Hm]. apply create_sbom_inv in H as (kinds & ps & ns & rp & comps & md & tk & Hk & Hsel & Hin & Hid & Hc & Hmd & _ & _ & _ & _ & Eb & _ & _ & Eg); auto.
    exists (filter (fun k => negb (String.eqb k m)) (map fst ps)). split.
    - unfold component_refs, component_list. rewrite Eg; cbn [b_components].
      rewrite (comps_refs _ _ _ _ _ _ _ _ Hc). rewrite <- (map_map pk_id Some).
      rewrite (map_filter_comm pk_id (fun k => negb (String.eqb k m))).
      now rewrite (sel_keys _ _ _ _ _ _ Hsel).
    - apply ssorted_filter, sorted_keys_ssorted, Hsel.
  Qed.

  (** *** Sub-components, C20 and C09 *)
  Definition has_class (t : cargo_target) : bool := match target_class t with Some _ => true | None => false end.

  Lemma subs_spec p r : forall ts n subs ks, subcomponents w ws p r n ts = Done (subs, ks) ->
    let sel := filter has_class ts in
    let refs := map (sub_ref r) (seq n (List.length sel)) in
    ks = combine refs (map tg_kind sel)
    /\ map c_bom_ref subs = map Some refs
    /\ Forall2 (fun t c => c_name c = normalize (tg_name t) /\ Some (c_type c) = target_class t) sel subs.
  Proof.
    induction ts as [|t ts IH]; intros n subs ks H; cbn [subcomponents] in H.
    - injection H as <- <-. cbn. auto.
    - cbn [filter]. assert (Hc : has_class t = match target_class t with Some _ => true | None => false end) by reflexivity.
      rewrite Hc; clear Hc. destruct (target_class t) as [cls|] eqn:E.
      + inv_bind H. inv_bind H. inv_bind H. destruct v1 as [subs' ks']. cbn [fst snd] in H. injection H as <- <-.
        destruct (IH _ _ _ Hv1) as (A & B & C). cbn [List.length seq map combine c_bom_ref fst snd]. split; [|split].
        * f_equal. exact A.
        * f_equal. exact B.
        * constructor; auto.
      + apply IH in H. exact H.
  Qed.

  Lemma sub_ref_inj r i j : sub_ref r i = sub_ref r j -> i = j.
  Proof. unfold sub_ref. intros H. apply append_inj_l, append_inj_l in H. now apply string_of_nat_inj. Qed.
  Lemma sub_ref_neq r i : sub_ref r i <> r.
  Proof.
    unfold sub_ref. intros H. apply (f_equal String.length) in H. rewrite !length_append in H. cbn in H. lia.
  Qed.
  Lemma sub_refs_nodup r n k : NoDup (map (sub_ref r) (seq n k)).
  Proof. apply FinFun.Injective_map_NoDup; [intros i j; apply sub_ref_inj|apply seq_NoDup]. Qed.

  Lemma has_kind_In k t : has_kind k t = true <-> target_has k t.
  Proof.
    unfold has_kind, target_has. rewrite existsb_exists. split.
    - intros (x & A & B). apply String.eqb_eq in B as ->. auto.
    - intros H. exists k. split; auto. apply String.eqb_refl.
  Qed.
  Lemma described_spec t :
    (negb (has_kind "bench" t || has_kind "example" t || has_kind "test" t || has_kind "custom-build" t)
     && has_class t)%bool = true <-> described_target t.
  Proof.
    unfold described_target. rewrite andb_true_iff, negb_true_iff, !orb_false_iff.
    rewrite <- !has_kind_In. setoid_rewrite not_true_iff_false.
    assert (has_class t = true <-> has_kind "bin" t = true \/ has_kind "proc-macro" t = true
               \/ exists k a b, In k (tg_kind t) /\ k = (a ++ "lib" ++ b)%string) as ->; [|tauto].
    unfold has_class, target_class.
    destruct (has_kind "bin" t); [tauto|]. destruct (has_kind "proc-macro" t); [tauto|].
    destruct (existsb (contains_str "lib") (tg_kind t)) eqn:E.
    - split; auto. intros _. right; right. apply existsb_exists in E as (k & A & B).
      apply contains_str_spec in B as (x & y & B). eauto 6.
    - split; [discriminate|]. intros [|[|(k & x & y & A & B)]]; try discriminate.
      assert (existsb (contains_str "lib") (tg_kind t) = true); [|congruence].
      apply existsb_exists. exists k. split; auto. apply contains_str_spec. eauto.
  Qed.
  Lemma filter_filter {A} (f g : A -> bool) l : filter f (filter g l) = filter (fun x => (g x && f x)%bool) l.
  Proof. induction l as [|x l IH]; cbn; auto. destruct (g x); cbn; [destruct (f x); now rewrite IH|auto]. Qed.
  Lemma sublist_filter {A} (P : A -> Prop) (f : A -> bool) l :
    (forall x, f x = true <-> P x) -> sublist_of P l (filter f l).
  Proof.
    intros H. induction l as [|x l IH]; cbn; [constructor|].
    destruct (f x) eqn:E; constructor; auto; rewrite <- H; congruence.
  Qed.
  Lemma described_sublist ts : sublist_of described_target ts (filter has_class (filter_targets ts)).
  Proof.
    unfold filter_targets. rewrite filter_filter. apply sublist_filter. intros t. apply described_spec.
  Qed.
  Lemma target_type t cls : target_class t = Some cls ->
    (target_has "bin" t -> cls = CApplication) /\ (~ target_has "bin" t -> cls = CLibrary).
  Proof.
    unfold target_class. rewrite <- has_kind_In. destruct (has_kind "bin" t).
    - intros E; injection E as <-. split; congruence.
    - destruct (has_kind "proc-macro" t); [|destruct (existsb _ _); [|discriminate]];
        intros E; injection E as <-; split; congruence.
  Qed.

  Lemma toplevel_inv hs p r : create_toplevel_component w cfg ws hs p = Done r ->
    exists subs ks, subcomponents w ws p (pk_id p) 0 (filter_targets (pk_targets p)) = Done (subs, ks)
      /\ c_components (fst r) = Some subs /\ snd r = bm_of_list ks /\ c_bom_ref (fst r) = Some (pk_id p).
  Proof.
    intros H. pose proof (toplevel_ref _ _ _ _ _ _ H) as E. unfold create_toplevel_component in H. inv_bind H. inv_bind H. inv_bind H.
    apply create_component_ref in Hv. rewrite Hv in Hv0. injection Hv0 as <-.
    destruct v1 as [subs ks]. injection H as <-. exists subs, ks. cbn in *. auto.
  Qed.

  Lemma sbom_main m g : ok m g -> exists rp c subs sel md,
    In rp (cm_packages meta) /\ pk_id rp = m /\ b_metadata (g_bom g) = Some md /\ m_component md = Some c
    /\ c_bom_ref c = Some m /\ c_components c = Some subs
    /\ sublist_of described_target (pk_targets rp) sel
    /\ g_manifest_path g = pk_manifest rp /\ g_package_name g = pk_name rp /\ g_config g = cfg
    /\ map c_bom_ref subs = map Some (map (sub_ref m) (seq 0 (List.length sel)))
    /\ g_target_kinds g = bm_of_list (combine (map (sub_ref m) (seq 0 (List.length sel))) (map tg_kind sel))
    /\ Forall2 (fun t c => c_name c = normalize (tg_name t) /\ Some (c_type c) = target_class t) sel subs.
  Proof.
    intros [H Hm]. apply create_sbom_inv in H as (kinds & ps & ns & rp & comps & md & tk & Hk & Hsel & Hin & Hid & Hc & Hmd & G1 & G2 & G3 & G4 & Eb & _ & _ & Eg); auto.
    unfold create_metadata in Hmd. inv_bind Hmd. inv_bind Hmd. inv_bind Hmd. injection Hmd as <- <-.
    apply toplevel_inv in Hv0 as (subs & ks & A & B & C & D). rewrite Hid in *.
    apply subs_spec in A as (A1 & A2 & A3).
    exists rp, (fst v0), subs, (filter has_class (filter_targets (pk_targets rp))).
    eexists. repeat (split; [eassumption || reflexivity || apply described_sublist|]).
    split; [now rewrite G4, C, A1|]. exact A3.
  Qed.

  Lemma combine_get (refs : list string) (vs : list (list string)) : NoDup refs ->
    List.length refs = List.length vs ->
    Forall2 (fun r v => bm_get r (bm_of_list (combine refs vs)) = Some v) refs vs.
  Proof.
    intros Hnd Hl.
    assert (H : forall r v, In (r, v) (combine refs vs) -> bm_get r (bm_of_list (combine refs vs)) = Some v).
    { intros r v Hin. rewrite bm_of_list_get. apply assoc_last_unique; auto.
      replace (map fst (combine refs vs)) with refs; auto. clear -Hl. revert vs Hl.
      induction refs as [|r refs IH]; intros [|v vs] Hl; cbn in *; try discriminate; auto. f_equal. apply IH. lia. }
    revert H. generalize (bm_of_list (combine refs vs)) as mm. clear Hnd. revert vs Hl.
    induction refs as [|r refs IH]; intros [|v vs] Hl mm H; cbn in *; try discriminate; constructor.
    - apply H. now left.
    - apply IH; [lia|]. intros; apply H. now right.
  Qed.

  (** *** C11 *)
  Definition keeps (d : describe) (ks : list string) : bool :=
    match d with
    | DBinaries => existsb (String.eqb "bin") ks || existsb (String.eqb "cdylib") ks
    | _ => true
    end.
  Lemma keeps_spec d t : d <> DCrate -> (keeps d (tg_kind t) = true <-> wants_artifact d t).
  Proof.
    intros Hd. destruct d; cbn [keeps wants_artifact]; [congruence| |tauto].
    rewrite orb_true_iff. change (existsb (String.eqb "bin") (tg_kind t)) with (has_kind "bin" t).
    change (existsb (String.eqb "cdylib") (tg_kind t)) with (has_kind "cdylib" t).
    now rewrite !has_kind_In.
  Qed.

  Lemma per_artifact_spec m g d : ok m g -> d <> DCrate ->
    exists rp c sel subs l, In rp (cm_packages meta) /\ pk_id rp = m /\
      main_component (g_bom g) = Some c /\ c_components c = Some subs /\
      sublist_of (fun t => described_target t /\ wants_artifact d t) (pk_targets rp) sel /\
      per_artifact_sboms (g_bom g) (g_target_kinds g) d = Done l /\
      Forall2 (fun t a => exists sub, In sub subs /\ snd a = tg_kind t
         /\ fst a = with_main (g_bom g) (relabel c (c_type sub) (normalize (tg_name t)) (c_purl sub))
         /\ c_name sub = normalize (tg_name t)
         /\ (target_has "bin" t -> c_type sub = CApplication) /\ (~ target_has "bin" t -> c_type sub = CLibrary)) sel l.
  Proof.
    intros Hok Hd. destruct (sbom_main _ _ Hok) as (rp & c & subs & sel & md & A & B & M1 & M2 & R & C & S & _ & _ & _ & Refs & Kinds & F).
    assert (Hmain : main_component (g_bom g) = Some c) by (unfold main_component; now rewrite M1).
    set (refs := map (sub_ref m) (seq 0 (List.length sel))) in *.
    assert (Hl : List.length refs = List.length (map tg_kind sel)).
    { unfold refs. now rewrite !map_length, seq_length. }
    pose proof (combine_get refs (map tg_kind sel) (sub_refs_nodup m 0 _) Hl) as Hget.
    rewrite <- Kinds in Hget.
    unfold per_artifact_sboms. rewrite M1. cbn [unwrap bind]. rewrite M2. cbn [unwrap bind]. rewrite C. cbn [unwrap bind].
    set (body := fun c0 : component => _).
    assert (Hbody : exists ll, mapM body subs = Done ll /\
       Forall2 (fun t l => l = [] /\ keeps d (tg_kind t) = false \/
          keeps d (tg_kind t) = true /\ exists a, l = [a] /\ exists sub, In sub subs /\ snd a = tg_kind t
         /\ fst a = with_main (g_bom g) (relabel c (c_type sub) (normalize (tg_name t)) (c_purl sub))
         /\ c_name sub = normalize (tg_name t)
         /\ (target_has "bin" t -> c_type sub = CApplication) /\ (~ target_has "bin" t -> c_type sub = CLibrary)) sel ll).
    { assert (Hin : incl subs subs) by apply incl_refl. revert Hin.
      clear -Hget F Refs M1 M2 Hd. clearbody refs.
      assert (G : forall sel' refs' subs', Forall2 (fun r v => bm_get r (g_target_kinds g) = Some v) refs' (map tg_kind sel') ->
        map c_bom_ref subs' = map Some refs' -> incl subs' subs ->
        Forall2 (fun t c => c_name c = normalize (tg_name t) /\ Some (c_type c) = target_class t) sel' subs' ->
        exists ll, mapM body subs' = Done ll /\
         Forall2 (fun t l => l = [] /\ keeps d (tg_kind t) = false \/
          keeps d (tg_kind t) = true /\ exists a, l = [a] /\ exists sub, In sub subs /\ snd a = tg_kind t
         /\ fst a = with_main (g_bom g) (relabel c (c_type sub) (normalize (tg_name t)) (c_purl sub))
         /\ c_name sub = normalize (tg_name t)
         /\ (target_has "bin" t -> c_type sub = CApplication) /\ (~ target_has "bin" t -> c_type sub = CLibrary)) sel' ll).
      { induction sel' as [|t sel' IH]; intros refs' subs' H1 H2 H3 H4; inversion H4 as [|? c0 ? subs'' [N T] H4']; subst.
        - exists []. split; [reflexivity|constructor].
        - destruct refs' as [|r refs']; [discriminate|]. cbn [map] in H2. injection H2 as Hr H2.
          cbn [map] in H1. inversion H1 as [|? ? ? ? G1 G2]; subst.
          destruct (IH refs' subs'' G2 H2) as (ll & E & FF); auto.
          { intros x Hx. apply H3. now right. }
          exists ((if keeps d (tg_kind t) then [(retarget (g_bom g) md c c0, tg_kind t)] else []) :: ll). split.
          + cbn [mapM]. assert (body c0 = Done (if keeps d (tg_kind t) then [(retarget (g_bom g) md c c0, tg_kind t)] else [])) as ->.
            { unfold body. rewrite Hr. cbn [unwrap bind]. rewrite G1. cbn [unwrap bind].
              destruct d; [congruence| |]; reflexivity. }
            cbn [bind]. rewrite E. reflexivity.
          + constructor; auto. destruct (keeps d (tg_kind t)); [right|left; auto]. split; auto.
            eexists; split; [reflexivity|]. exists c0. cbn [fst snd]. split; [apply H3; now left|]. split; auto.
            split; [|split; auto].
            * unfold with_main, retarget, relabel. rewrite M1, <- N. reflexivity.
            * apply target_type. auto. }
      intros Hin. eapply G; eauto. }
    destruct Hbody as (ll & E & FF). rewrite E. cbn [bind].
    exists rp, c, (filter (fun t => keeps d (tg_kind t)) sel), subs, (List.concat ll).
    repeat (split; [assumption || reflexivity|]). split; [|split; [reflexivity|]].
    - clear -S Hd. induction S as [|t l s P S IH|t l s P S IH]; cbn [filter].
      + constructor.
      + destruct (keeps d (tg_kind t)) eqn:K.
        * constructor; auto. split; auto. now apply keeps_spec.
        * constructor; auto. intros [_ W]. apply keeps_spec in W; auto. congruence.
      + constructor; auto. tauto.
    - clear -FF. induction FF as [|t l sel ll H _ IH]; cbn [filter List.concat]; [constructor|].
      destruct H as [[-> ->]|[-> (a & -> & H)]]; cbn [app]; auto.
  Qed.
End Sbom.

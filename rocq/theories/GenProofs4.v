(** Termination, absence of panics, order independence, reproducibility. *)
From Verif Require Import Base Strings ModelTypes ConfigModel GenModel GenSpec GenProofs GenProofs2 GenProofs3.
From Coq Require Import NArith ZArith.
Open Scope string_scope.
Open Scope list_scope.

(** *** Nothing but the two traversals needs fuel *)
Definition nf {A} (x : outcome A) : Prop := x <> OutOfFuel.
Lemma nf_bind {A B} (x : outcome A) (f : A -> outcome B) : nf x -> (forall a, nf (f a)) -> nf (bind x f).
Proof. unfold nf. destruct x; cbn; auto; congruence. Qed.
Lemma nf_unwrap {A} m (x : option A) : nf (unwrap m x).
Proof. unfold nf. destruct x; cbn; discriminate. Qed.
Lemma nf_mapM {A B} (f : A -> outcome B) l : (forall a, In a l -> nf (f a)) -> nf (mapM f l).
Proof.
  induction l as [|x l IH]; cbn [mapM]; intros H; [discriminate|].
  apply nf_bind; [apply H; now left|]. intros y. apply nf_bind; [apply IH; intros; apply H; now right|].
  discriminate.
Qed.
Lemma nf_done {A} (a : A) : nf (Done a). Proof. discriminate. Qed.
Lemma nf_panic {A} m : nf (@Panic A m). Proof. discriminate. Qed.
Lemma nf_fail {A} m : nf (@Fail A m). Proof. discriminate. Qed.

Ltac nf := repeat first
  [ apply nf_done | apply nf_panic | apply nf_fail | apply nf_unwrap
  | apply nf_bind; [|intros ?] | apply nf_mapM; intros ? ? 
  | match goal with |- nf (match ?x with _ => _ end) => destruct x end
  | match goal with |- nf (if ?x then _ else _) => destruct x end ].

Lemma nf_qual p r ws : nf (purl_qualifier p r ws).
Proof. unfold purl_qualifier, source_to_vcs_url. nf. Qed.
Lemma nf_purl w p r ws sub : nf (get_purl w p r ws sub).
Proof. unfold get_purl, purl_qualifier, source_to_vcs_url. nf. Qed.
Lemma nf_component w cfg ws hs p r k : nf (create_component w cfg ws hs p r k).
Proof. unfold create_component. apply nf_bind; [apply nf_purl|]. intros; apply nf_done. Qed.
Lemma nf_subs w ws p r : forall ts n, nf (subcomponents w ws p r n ts).
Proof.
  induction ts as [|t ts IH]; intros n; cbn [subcomponents]; [apply nf_done|].
  destruct (target_class t); auto. apply nf_bind; [apply nf_unwrap|intros dir].
  apply nf_bind; [destruct (path_strip_prefix _ _); [apply nf_purl|apply nf_done]|intros u].
  apply nf_bind; auto. intros; apply nf_done.
Qed.
Lemma nf_bom w cfg ws hs m ps ns k : nf (create_bom w cfg ws hs m ps ns k).
Proof.
  unfold create_bom, create_metadata, create_toplevel_component, bom_timestamp. nf; try apply nf_qual; apply nf_subs.
Qed.
Lemma nf_top m ps ns cfg : nf (top_level_dependencies m ps ns cfg).
Proof. unfold top_level_dependencies. nf. Qed.

Lemma index_keyed nodes id n : bm_get id (index_resolve nodes) = Some n -> n_id n = id.
Proof. intros H. now apply (index_get_keyed n_id) in H. Qed.

Lemma all_dependencies_nf m ps nodes cfg : exists fuel0, forall fuel, fuel0 <= fuel ->
  nf (all_dependencies fuel m ps (index_resolve nodes) cfg).
Proof.
  destruct (bm_get m (index_resolve nodes)) as [r|] eqn:E.
  2:{ exists 0. intros. unfold all_dependencies. rewrite E. discriminate. }
  destruct (bfs_terminates cfg (index_resolve nodes) (index_keyed nodes)
              _ _ [r] [] [] (Nat.le_refl _) (Nat.le_refl _)) as [f Hf]; [constructor| |].
  { intros n [<-|[]]. now rewrite (index_keyed _ _ _ E). }
  exists f. intros fuel Hle. unfold all_dependencies. rewrite E. cbn [unwrap bind].
  rewrite (bfs_mono cfg _ f _ _ _ _ eq_refl Hf fuel Hle). apply nf_bind; [exact Hf|]. intros; apply nf_done.
Qed.

Lemma create_sbom_nf w cfg ws ps nodes m : exists fuel0, forall fuel, fuel0 <= fuel ->
  nf (create_sbom w fuel cfg ws ps (index_resolve nodes) m).
Proof.
  destruct (index_dep_kinds_terminates (index_resolve nodes) m) as [f1 H1].
  destruct (all_dependencies_nf m ps nodes cfg) as [f2 H2].
  exists (Nat.max f1 f2). intros fuel Hle. unfold create_sbom.
  apply nf_bind; [apply H1; lia|intros k]. apply nf_bind.
  - destruct (included_of cfg); [apply nf_top|apply H2; lia].
  - intros sel. apply nf_bind; [apply nf_unwrap|intros mp]. apply nf_bind; [apply nf_bom|]. intros; apply nf_done.
Qed.

Lemma uniform_fuel {A} (P : nat -> A -> Prop) (l : list A) :
  (forall a, In a l -> exists f0, forall f, f0 <= f -> P f a) ->
  exists f0, forall f, f0 <= f -> forall a, In a l -> P f a.
Proof.
  induction l as [|x l IH]; intros H; [exists 0; intros f _ a []|].
  destruct (H x) as [f1 H1]; [now left|]. destruct IH as [f2 H2]; [intros; apply H; now right|].
  exists (Nat.max f1 f2). intros f Hle a [<-|Ha]; [apply H1; lia|apply H2; auto; lia].
Qed.

Lemma create_sboms_terminates w meta cfg : exists fuel0, forall fuel, fuel0 <= fuel ->
  create_sboms w fuel meta cfg <> OutOfFuel.
Proof.
  unfold create_sboms. destruct (cm_resolve meta) as [nodes|]; [|exists 0; discriminate].
  cbn [unwrap bind].
  destruct (uniform_fuel (fun fuel m => nf (create_sbom w fuel cfg (cm_workspace_root meta)
              (index_packages (cm_packages meta)) (index_resolve nodes) m)) (cm_members meta)) as [f0 H].
  { intros m _. apply create_sbom_nf. }
  exists f0. intros fuel Hle. apply nf_mapM. intros m Hm. now apply H.
Qed.

(** *** No panic on well-formed metadata *)
Definition runs {A} (x : outcome A) : Prop := exists a, x = Done a.
Lemma runs_bind {A B} (x : outcome A) (f : A -> outcome B) :
  runs x -> (forall a, x = Done a -> runs (f a)) -> runs (bind x f).
Proof. intros [a E] H. rewrite E. cbn. auto. Qed.
Lemma runs_done {A} (a : A) : runs (Done a). Proof. exists a; reflexivity. Qed.
Lemma runs_mapM {A B} (f : A -> outcome B) l : (forall a, In a l -> runs (f a)) -> runs (mapM f l).
Proof.
  induction l as [|x l IH]; cbn [mapM]; intros H; [apply runs_done|].
  apply runs_bind; [apply H; now left|]. intros y _. apply runs_bind; [apply IH; intros; apply H; now right|].
  intros. apply runs_done.
Qed.
Lemma runs_unwrap {A} m (x : option A) : x <> None -> runs (unwrap m x).
Proof. destruct x; [intros _; apply runs_done|congruence]. Qed.

Lemma runs_parent p : p <> [] -> parent p <> None.
Proof. destruct p; cbn; congruence. Qed.

Lemma git_source s url : split_once "+" s = Some ("git", url) -> starts_with "git+" s = true.
Proof.
  intros H. apply split_once_spec in H as [-> _]. apply starts_with_spec. exists url. reflexivity.
Qed.

Lemma runs_purl w p r ws sub : pk_manifest p <> [] -> pk_manifest r <> [] -> runs (get_purl w p r ws sub).
Proof.
  intros Hp Hr. unfold get_purl. apply runs_bind; [|intros; apply runs_done].
  unfold purl_qualifier. destruct (pk_source p) as [s|].
  - destruct (is_crates_io s); [apply runs_done|].
    destruct (split_once "+" s) as [[kind url]|] eqn:E; [|apply runs_done].
    destruct (String.eqb_spec kind "git") as [->|].
    + unfold source_to_vcs_url. rewrite (git_source _ _ E). cbn [bind]. apply runs_done.
    + destruct (_ || _)%bool; apply runs_done.
  - apply runs_bind; [now apply runs_unwrap, runs_parent|intros dir _].
    destruct (path_starts_with dir ws); [|apply runs_done].
    apply runs_bind; [now apply runs_unwrap, runs_parent|intros; apply runs_done].
Qed.

Lemma runs_component w cfg ws hs p r k : pk_manifest p <> [] -> pk_manifest r <> [] ->
  runs (create_component w cfg ws hs p r k).
Proof. intros. unfold create_component. apply runs_bind; [now apply runs_purl|]. intros; apply runs_done. Qed.

Lemma runs_subs w ws p r : pk_manifest p <> [] -> forall ts n, runs (subcomponents w ws p r n ts).
Proof.
  intros Hp. induction ts as [|t ts IH]; intros n; cbn [subcomponents]; [apply runs_done|].
  destruct (target_class t); auto. apply runs_bind; [now apply runs_unwrap, runs_parent|intros dir _].
  apply runs_bind; [destruct (path_strip_prefix _ _); [now apply runs_purl|apply runs_done]|intros u _].
  apply runs_bind; auto. intros; apply runs_done.
Qed.

Lemma runs_toplevel w cfg ws hs p : pk_manifest p <> [] -> runs (create_toplevel_component w cfg ws hs p).
Proof.
  intros Hp. unfold create_toplevel_component. apply runs_bind; [now apply runs_component|intros c E].
  apply create_component_ref in E. rewrite E. cbn [unwrap bind].
  apply runs_bind; [now apply runs_subs|]. intros; apply runs_done.
Qed.


Lemma runs_metadata w cfg ws hs p : usable_clock w -> cf_target cfg <> None -> pk_manifest p <> [] ->
  runs (create_metadata w cfg ws hs p).
Proof.
  intros [Hn He] Ht Hp. unfold create_metadata. apply runs_bind.
  - unfold bom_timestamp. destruct (w_now w) as [t|]; [|congruence]. cbn [bind].
    destruct (w_epoch w) as [e|]; [|apply runs_done]. destruct (He e eq_refl) as (z & -> & F). cbn [unwrap bind].
    now apply runs_unwrap.
  - intros ts _. apply runs_bind; [now apply runs_toplevel|intros top _].
    apply runs_bind; [now apply runs_unwrap|]. intros; apply runs_done.
Qed.

Section Wf.
  Variables (meta : cargo_metadata) (nodes : list node) (cfg : config).
  Hypothesis wf : well_formed meta nodes.
  Let packages := index_packages (cm_packages meta).
  Let resolve := index_resolve nodes.

  Lemma wf_closed : closed resolve.
  Proof.
    intros id n Hn d Hd. apply (nd_get meta nodes wf) in Hn as [Hn _]. split.
    - apply (nd_mem meta nodes wf). eapply wf_deps; eauto.
    - eapply wf_kinds; eauto.
  Qed.

  Lemma runs_top m : In m (cm_members meta) -> runs (top_level_dependencies m packages resolve cfg).
  Proof.
    intros Hm. apply (wf_members _ _ wf) in Hm. pose proof Hm as Hm'.
    apply (nd_mem meta nodes wf), bm_mem_true in Hm as [r Hr]. fold resolve in Hr.
    apply (node_pkg meta nodes wf) in Hm' as (rp & A & B).
    assert (Hrp : bm_get m packages = Some rp) by (now apply (pk_get meta nodes wf)).
    unfold top_level_dependencies. rewrite Hr, Hrp. cbn [unwrap bind].
    assert (Hin : forall id, In id (n_dependencies (add_filtered_dependencies cfg r)) -> In id (map n_id nodes)).
    { intros id Hid. cbn in Hid. apply in_map_iff in Hid as (d & <- & Hd). apply filter_In in Hd as [Hd _].
      apply (nd_get meta nodes wf) in Hr as [Hr _]. eapply wf_deps; eauto. }
    apply runs_bind; [|intros ps _; apply runs_bind; [|intros; apply runs_done]]; apply runs_mapM; intros id Hid;
      apply Hin in Hid.
    - apply (node_pkg meta nodes wf) in Hid as (p & C & D).
      assert (E : bm_get id packages = Some p) by (now apply (pk_get meta nodes wf)). rewrite E. apply runs_done.
    - apply (nd_mem meta nodes wf), bm_mem_true in Hid as [n Hn]. fold resolve in Hn. rewrite Hn. apply runs_done.
  Qed.

  Lemma all_dependencies_done m : In m (cm_members meta) -> exists fuel0 r, forall fuel, fuel0 <= fuel ->
    all_dependencies fuel m packages resolve cfg = Done r.
  Proof.
    intros Hm. apply (wf_members _ _ wf) in Hm.
    apply (nd_mem meta nodes wf), bm_mem_true in Hm as [r Hr]. fold resolve in Hr.
    assert (Hq : forall n, In n ([r] ++ []) -> bm_get (n_id n) resolve = Some n).
    { intros n [<-|[]]. now rewrite (index_keyed _ _ _ Hr). }
    destruct (bfs_terminates cfg resolve (index_keyed nodes) _ _ [r] [] [] (Nat.le_refl _) (Nat.le_refl _)) as [f Hf];
      [constructor|exact Hq|].
    destruct (bfs_no_panic cfg resolve (index_keyed nodes)) with (fuel := f) (cur := [r]) (next := @nil node) (out := @nil (string * node))
      as [E|[out E]]; auto; [|contradiction|].
    - intros id n Hn d Hd. now apply (wf_closed id n).
    - exists f, (filter (fun kv => bm_mem (fst kv) out) packages, out). intros fuel Hle.
      unfold all_dependencies. rewrite Hr. cbn [unwrap bind].
      rewrite (bfs_mono cfg _ f _ _ _ _ E ltac:(discriminate) fuel Hle). reflexivity.
  Qed.

  Lemma create_sbom_done w m : usable_clock w -> cf_target cfg <> None -> In m (cm_members meta) ->
    exists fuel0 g, forall fuel, fuel0 <= fuel ->
      create_sbom w fuel cfg (cm_workspace_root meta) packages resolve m = Done g.
  Proof.
    intros Hc Ht Hm.
    assert (Hmem : bm_mem m resolve = true) by (apply (nd_mem meta nodes wf), wf; auto).
    destruct (index_dep_kinds_done resolve m wf_closed Hmem) as (f1 & kinds & H1).
    assert (exists f2 sel, forall fuel, f2 <= fuel ->
       match included_of cfg with
       | AllDependencies => all_dependencies fuel m packages resolve cfg
       | TopLevelDependencies => top_level_dependencies m packages resolve cfg
       end = Done sel) as (f2 & sel & H2).
    { destruct (included_of cfg).
      - destruct (runs_top m Hm) as [r Hr]. exists 0, r. auto.
      - now apply all_dependencies_done. }
    assert (exists mp, bm_get m packages = Some mp) as [mp Hmp].
    { destruct (node_pkg meta nodes wf m) as (p & A & B); [now apply wf|]. exists p. now apply (pk_get meta nodes wf). }
    assert (Hsel : selection meta nodes cfg m (fst sel) (snd sel)).
    { specialize (H2 (f2) (Nat.le_refl _)). destruct sel as [ps ns]. cbn [fst snd].
      destruct (included_of cfg) eqn:E; [eapply select_top|eapply select_all]; eauto. }
    assert (Hmf : forall id p, bm_get id (fst sel) = Some p -> pk_manifest p <> []).
    { intros id p Hp. apply (sel_ps _ _ _ _ _ _ Hsel) in Hp as (_ & A & _). now apply (wf_manifests _ _ wf). }
    assert (Hroot : exists rp, bm_get m (fst sel) = Some rp).
    { exists mp. apply (sel_ps _ _ _ _ _ _ Hsel). apply (pk_get meta nodes wf) in Hmp as [A B]. split; auto.
      unfold selected, top_level_mode. destruct (cf_included cfg) as [[]|]; [left|right|right]; split; auto;
        try congruence; constructor. }
    destruct Hroot as [rp Hrp].
    assert (runs (create_bom w cfg (cm_workspace_root meta) (crate_hashes w (pk_manifest mp)) m (fst sel) (snd sel) kinds))
      as [b Hb].
    { unfold create_bom. rewrite Hrp. cbn [unwrap bind]. apply runs_bind.
      - apply runs_mapM. intros p Hp. apply filter_In in Hp as [Hp _]. apply in_map_iff in Hp as ([k p'] & E & Hp).
        cbn in E; subst p'. apply bm_In_get in Hp; [|apply Hsel]. apply runs_component; eauto.
      - intros comps _. apply runs_bind; [|intros; apply runs_done]. apply runs_metadata; eauto. }
    exists (Nat.max f1 f2), (mkGenerated (fst b) (pk_manifest mp) (pk_name mp) cfg (snd b)).
    intros fuel Hle. unfold create_sbom. rewrite H1 by lia. cbn [bind]. rewrite H2 by lia. cbn [bind].
    rewrite Hmp. cbn [unwrap bind]. rewrite Hb. reflexivity.
  Qed.

  Lemma create_sboms_done w : usable_clock w -> cf_target cfg <> None ->
    exists fuel0 gs, forall fuel, fuel0 <= fuel -> create_sboms w fuel meta cfg = Done gs.
  Proof.
    intros Hc Ht. unfold create_sboms. rewrite (wf_resolve _ _ wf). cbn [unwrap bind]. fold packages resolve.
    assert (H : forall l, (forall m, In m l -> In m (cm_members meta)) ->
      exists fuel0 gs, forall fuel, fuel0 <= fuel ->
        mapM (create_sbom w fuel cfg (cm_workspace_root meta) packages resolve) l = Done gs).
    { induction l as [|m l IH]; intros Hl; [exists 0, []; reflexivity|].
      destruct IH as (f1 & gs & H1); [intros; apply Hl; now right|].
      destruct (create_sbom_done w m Hc Ht) as (f2 & g & H2); [apply Hl; now left|].
      exists (Nat.max f1 f2), (g :: gs). intros fuel Hle. cbn [mapM]. rewrite H2 by lia. cbn [bind].
      rewrite H1 by lia. reflexivity. }
    apply H. auto.
  Qed.
End Wf.

(** *** From the list of SBOMs to each of them *)
Lemma Forall2_imp {A B} (P Q : A -> B -> Prop) l r : (forall a b, P a b -> Q a b) -> Forall2 P l r -> Forall2 Q l r.
Proof. intros H. induction 1; constructor; auto. Qed.
Lemma Forall2_in {A B} (P : A -> B -> Prop) l r : Forall2 P l r ->
  Forall2 (fun a b => P a b /\ In a l) l r.
Proof.
  induction 1 as [|a b l r H _ IH]; constructor.
  - split; auto. now left.
  - eapply Forall2_imp; [|exact IH]. cbn. intros x y [A1 A2]; auto.
Qed.
Lemma create_sboms_forall w fuel meta cfg nodes gs : cm_resolve meta = Some nodes ->
  create_sboms w fuel meta cfg = Done gs ->
  Forall2 (fun m g => sbom_ok w fuel meta nodes cfg (cm_workspace_root meta) m g) (cm_members meta) gs.
Proof.
  intros Hr H. unfold create_sboms in H. rewrite Hr in H. cbn [unwrap bind] in H. apply mapM_done in H.
  apply Forall2_in in H. exact H.
Qed.

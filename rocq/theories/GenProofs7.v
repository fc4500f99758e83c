(** Output files and configuration. *)
From Verif Require Import Base Strings Base64 ModelTypes ConfigModel GenModel GenSpec
  GenProofs GenProofs2 GenProofs3 GenProofs4 GenProofs5 GenProofs6.
From Coq Require Import NArith ZArith.
Open Scope string_scope.
Open Scope list_scope.

Lemma ext_eq f : ("." ++ format_str f)%string = extension f.
Proof. destruct f; reflexivity. Qed.

Section Sbom.
  Variables (w : world) (fuel : nat) (meta : cargo_metadata) (nodes : list node) (cfg : config) (ws : path).
  Hypothesis wf : well_formed meta nodes.
  Let ok := sbom_ok w fuel meta nodes cfg ws.

  Lemma plat_done : cf_target cfg <> None ->
    match oo_suffix (output_of cfg) with
    | NotIncluded => Done ""
    | Included => do t <- unwrap "called Option::unwrap() on a None value" (cf_target cfg); Done ("_" ++ target_str t)%string
    end = Done (platform_part cfg).
  Proof.
    intros Ht. unfold platform_part, output_of. destruct (cf_output cfg) as [[pat []]|]; cbn; auto.
    destruct (cf_target cfg) as [[]|]; cbn; congruence.
  Qed.

  Lemma crate_plan m g : ok m g -> describe_of cfg = DCrate -> cf_target cfg <> None ->
    exists rp, In rp (cm_packages meta) /\ pk_id rp = m /\
      write_plan g = Done [mkFile (removelast (pk_manifest rp) ++ [crate_file_name cfg (pk_name rp)]) (g_bom g)
                             (chosen_format cfg) (match cf_spec cfg with Some v => v | None => V1_3 end)].
  Proof.
    intros Hok Hd Ht.
    destruct (sbom_main _ _ _ _ _ _ wf _ _ Hok) as (rp & c & subs & sel & md & A & B & M1 & M2 & R & C & S & G1 & G2 & G3 & _).
    exists rp. split; auto. split; auto. unfold write_plan, filename. rewrite G3, Hd, G1, G2. cbn [bind].
    rewrite (plat_done Ht). cbn [bind]. rewrite ext_eq. unfold with_file_name, crate_file_name, custom_name, suffix_requested, output_of, format_of, chosen_format.
    destruct (cf_output cfg) as [[[|n] []]|]; cbn [unwrap_or oo_filename oo_suffix bind]; reflexivity.
  Qed.

  Lemma mapM_Forall2_ex {A B C} (f : A -> outcome B) (P : C -> A -> Prop) (Q : C -> B -> Prop) cs l :
    Forall2 P cs l -> (forall c a, In c cs -> P c a -> exists b, f a = Done b /\ Q c b) ->
    exists r, mapM f l = Done r /\ Forall2 Q cs r.
  Proof.
    induction 1 as [|c a cs l H _ IH]; intros Hf.
    - exists []. split; [reflexivity|constructor].
    - destruct (Hf c a) as (b & E & Hq); auto; [now left|].
      destruct IH as (r & Er & Fr); [intros; apply Hf; auto; now right|].
      exists (b :: r). cbn [mapM]. rewrite E. cbn [bind]. rewrite Er. split; auto.
  Qed.

  Lemma described_kinds t : described_target t -> tg_kind t <> [].
  Proof.
    intros (_ & _ & _ & _ & [H|[H|(k & a & b & H & _)]]) E; unfold target_has in *; rewrite E in H; destruct H.
  Qed.
  Lemma sublist_In {A} (P : A -> Prop) l s : sublist_of P l s -> forall x, In x s <-> In x l /\ P x.
  Proof.
    induction 1 as [|y l s Py _ IH|y l s Py _ IH]; intros x; cbn [In]; [tauto| |].
    - rewrite IH. split; [intros [<-|H]|intros [[<-|H] Px]]; tauto.
    - rewrite IH. split; [tauto|]. intros [[<-|H] Px]; tauto.
  Qed.
  Lemma sublist_nodup {A B} (f : A -> B) P l s : sublist_of P l s -> NoDup (map f l) -> NoDup (map f s).
  Proof.
    induction 1 as [|y l s Py Hs IH|y l s Py Hs IH]; cbn; auto; intros H; inversion_clear H as [|? ? N D]; auto.
    constructor; auto. intros Hin. apply N. apply in_map_iff in Hin as (z & E & Hz). apply in_map_iff. exists z. split; auto.
    now apply (sublist_In _ _ _ Hs) in Hz.
  Qed.

  Lemma artifact_plan m g : ok m g -> describe_of cfg <> DCrate -> cf_target cfg <> None ->
    custom_name cfg = None ->
    exists rp sel files, In rp (cm_packages meta) /\ pk_id rp = m /\
      sublist_of (fun t => described_target t /\ wants_artifact (describe_of cfg) t) (pk_targets rp) sel /\
      write_plan g = Done files /\
      Forall2 (fun t f => f_path f = removelast (pk_manifest rp) ++ [artifact_name cfg t]
          /\ f_format f = chosen_format cfg /\ f_version f = match cf_spec cfg with Some v => v | None => V1_3 end
          /\ (exists c, main_component (f_bom f) = Some c /\ c_name c = normalize (tg_name t))
          /\ b_components (f_bom f) = b_components (g_bom g) /\ b_dependencies (f_bom f) = b_dependencies (g_bom g)) sel files.
  Proof.
    intros Hok Hd Ht Hcn.
    destruct (per_artifact_spec _ _ _ _ _ _ wf _ _ _ Hok Hd) as (rp & c & sel & subs & l & A & B & M & C & S & E & F).
    destruct (sbom_main _ _ _ _ _ _ wf _ _ Hok) as (rp' & c' & subs' & sel' & md & A' & B' & M1 & M2 & _ & _ & _ & G1 & G2 & G3 & _).
    assert (rp' = rp) as ->.
    { assert (bm_get m (index_packages (cm_packages meta)) = Some rp) as H1 by (now apply (pk_get meta nodes wf)).
      assert (bm_get m (index_packages (cm_packages meta)) = Some rp') as H2 by (now apply (pk_get meta nodes wf)). congruence. }
    exists rp, sel. unfold write_plan. rewrite G3.
    set (mk := fun (p : path) (b : bom) => mkFile p b (format_of cfg) (unwrap_or V1_3 (cf_spec cfg))).
    assert (G : exists files, mapM (fun a =>
        do meta <- unwrap "called Option::unwrap() on a None value" (b_metadata (fst a));
        do comp <- unwrap "called Option::unwrap() on a None value" (m_component meta);
        do n <- filename g (Some (c_name comp)) (snd a);
        Done (mk (with_file_name (g_manifest_path g) n) (fst a))) l = Done files /\
       Forall2 (fun t f => f_path f = removelast (pk_manifest rp) ++ [artifact_name cfg t]
          /\ f_format f = chosen_format cfg /\ f_version f = match cf_spec cfg with Some v => v | None => V1_3 end
          /\ (exists c, main_component (f_bom f) = Some c /\ c_name c = normalize (tg_name t))
          /\ b_components (f_bom f) = b_components (g_bom g) /\ b_dependencies (f_bom f) = b_dependencies (g_bom g)) sel files).
    { eapply mapM_Forall2_ex; [exact F|]. intros t [b ks] Hin (sub & _ & E1 & E2 & E3 & _). cbn [fst snd] in *. subst b ks.
      cbn [with_main b_metadata]. rewrite M1. cbn [option_map unwrap bind m_component relabel c_name].
      assert (filename g (Some (normalize (tg_name t))) (tg_kind t) = Done (artifact_name cfg t)) as ->.
      { unfold filename. rewrite G3.
        assert (Hp : forall o, o = Some (normalize (tg_name t)) -> match describe_of cfg with
            | DCrate => Done (g_package_name g)
            | DBinaries | DAllCargoTargets => unwrap "called Option::unwrap() on a None value" o end
            = Done (normalize (tg_name t))).
        { intros o ->. destruct (describe_of cfg); [congruence| |]; reflexivity. }
        rewrite (Hp _ eq_refl). cbn [bind]. rewrite (plat_done Ht). cbn [bind]. f_equal. unfold artifact_name.
        assert (Hk : tg_kind t <> []).
        { apply (sublist_In _ _ _ S) in Hin as [_ [Hdt _]]. now apply described_kinds. }
        rewrite ext_eq. unfold custom_name, output_of, format_of, chosen_format in *.
        destruct (tg_kind t) as [|k ks] eqn:Ek; [congruence|].
        rewrite (append_assoc "_" (join "-" (k :: ks))).
        destruct (cf_output cfg) as [[[|n] []]|]; cbn [unwrap_or oo_filename oo_suffix]; try discriminate; reflexivity. }
      cbn [bind]. eexists; split; [reflexivity|]. subst mk. cbn [f_path f_format f_version f_bom]. rewrite G1.
      split; [reflexivity|]. split; [reflexivity|]. split; [reflexivity|]. split; [|split; reflexivity].
      unfold main_component. cbn. rewrite M1. cbn. eexists; split; [reflexivity|reflexivity]. }
    destruct G as (files & Gm & GF). exists files. repeat (split; [assumption|]). split; [|exact GF].
    destruct (describe_of cfg); [congruence| |]; rewrite E; cbn [bind]; exact Gm.
  Qed.

  Lemma artifact_name_inj t1 t2 :
    (forall k, In k (tg_kind t1) -> contains_char "_" k = false) ->
    (forall k, In k (tg_kind t2) -> contains_char "_" k = false) ->
    artifact_name cfg t1 = artifact_name cfg t2 ->
    normalize (tg_name t1) = normalize (tg_name t2) /\ join "-" (tg_kind t1) = join "-" (tg_kind t2).
  Proof.
    unfold artifact_name. intros H1 H2 E.
    set (suf := (platform_part cfg ++ ".cdx" ++ extension (chosen_format cfg))%string) in *.
    assert (E' : ((normalize (tg_name t1) ++ "_" ++ join "-" (tg_kind t1)) ++ suf
                = (normalize (tg_name t2) ++ "_" ++ join "-" (tg_kind t2)) ++ suf)%string).
    { rewrite !append_assoc. exact E. }
    apply append_inj_r in E'. cbn [append] in E'. apply last_sep in E'; auto; now apply join_contains.
  Qed.

  Lemma artifact_paths_distinct m g files : ok m g -> describe_of cfg <> DCrate -> cf_target cfg <> None ->
    custom_name cfg = None ->
    (forall p, In p (cm_packages meta) ->
       NoDup (map (fun t => (normalize (tg_name t), join "-" (tg_kind t))) (pk_targets p))
       /\ forall t k, In t (pk_targets p) -> In k (tg_kind t) -> contains_char "_" k = false) ->
    write_plan g = Done files -> NoDup (map f_path files).
  Proof.
    intros Hok Hd Ht Hcn Hp Hw.
    destruct (artifact_plan _ _ Hok Hd Ht Hcn) as (rp & sel & files' & A & B & S & E & F).
    rewrite Hw in E. injection E as <-. destruct (Hp rp A) as [ND NU].
    assert (ND' : NoDup (map (fun t => (normalize (tg_name t), join "-" (tg_kind t))) sel)) by (eapply sublist_nodup; eauto).
    assert (NU' : forall t k, In t sel -> In k (tg_kind t) -> contains_char "_" k = false).
    { intros t k Hin Hk. apply (sublist_In _ _ _ S) in Hin as [Hin _]. eauto. }
    clear -F ND' NU'. induction F as [|t f sel files H F IH]; cbn; [constructor|].
    inversion_clear ND' as [|? ? N D]. constructor.
    - intros Hin. apply in_map_iff in Hin as (f' & Ef & Hf'). apply N.
      assert (exists t', In t' sel /\ f_path f' = removelast (pk_manifest rp) ++ [artifact_name cfg t']) as (t' & Ht' & Hp').
      { clear -F Hf'. induction F as [|t f0 sel files H F IH]; [destruct Hf'|]. destruct Hf' as [->|Hf'].
        - exists t. split; [now left|]. apply H.
        - destruct (IH Hf') as (t' & X & Y). exists t'. split; auto. now right. }
      destruct H as [H _]. rewrite H, Hp' in Ef. apply app_inj_tail in Ef as [_ Ef].
      apply artifact_name_inj in Ef as [E1 E2].
      + apply in_map_iff. exists t'. split; auto. now rewrite E1, E2.
      + intros k. apply NU'. now right.
      + intros k. apply NU'. now left.
    - apply IH; auto. intros t' k Hin. apply NU'. now right.
  Qed.
End Sbom.

(** *** C13, C14 *)
Lemma orelse_assoc {A} (a b c : option A) : orelse a (orelse b c) = orelse (orelse a b) c.
Proof. destruct a; auto. Qed.
Lemma merge_assoc a b c : merge (merge a b) c = merge a (merge b c).
Proof.
  unfold merge; cbn. f_equal; try apply orelse_assoc.
  destruct (cf_license a), (cf_license b), (cf_license c); cbn; auto.
  unfold lp_merge; cbn. now rewrite app_assoc.
Qed.
Lemma merge_empty_l c : merge empty_config c = c.
Proof.
  destruct c as [f i o ft t l d s n]. unfold merge; cbn. destruct f, i, o, ft, t, d, s, n; cbn;
    destruct l as [[]|]; reflexivity.
Qed.
Lemma merge_empty_r c : merge c empty_config = c.
Proof. destruct c. reflexivity. Qed.

(** *** C15 *)
Lemma strip_seps_app a b : strip_seps (a ++ b) = (strip_seps a ++ strip_seps b)%string.
Proof. induction a as [|x a IH]; cbn; auto. destruct (is_sep x); cbn; now rewrite IH. Qed.
Lemma concat_app_nil (a b : list string) : String.concat "" (a ++ b) = (String.concat "" a ++ String.concat "" b)%string.
Proof.
  induction a as [|x a IH]; [reflexivity|]. cbn [app].
  assert (H : forall y l, String.concat "" (y :: l) = (y ++ String.concat "" l)%string).
  { intros y l. destruct l; cbn [String.concat]; [now rewrite append_nil_r|reflexivity]. }
  now rewrite !H, IH, append_assoc.
Qed.
Lemma split_char_parts c s p : In p (split_char c s) -> contains_char c p = false.
Proof.
  revert p; induction s as [|a s IH]; cbn [split_char]; intros p.
  - intros [<-|[]]. reflexivity.
  - destruct (Ascii.eqb a c) eqn:E.
    + intros [<-|H]; auto.
    + destruct (split_char c s) as [|q ps] eqn:Es; [now apply split_char_nonempty in Es|].
      intros [<-|H]; cbn; [rewrite E; cbn; apply IH; now left|apply IH; now right].
Qed.
Lemma split_char_keeps c d s p : contains_char d s = false -> In p (split_char c s) -> contains_char d p = false.
Proof.
  revert p; induction s as [|a s IH]; cbn [split_char contains_char]; intros p H.
  - intros [<-|[]]. reflexivity.
  - apply orb_false_iff in H as [H1 H2]. destruct (Ascii.eqb a c).
    + intros [<-|Hin]; auto.
    + destruct (split_char c s) as [|q ps] eqn:Es; [now apply split_char_nonempty in Es|].
      intros [<-|Hin]; cbn; [rewrite H1; cbn; apply (IH q H2); now left|apply (IH p H2); now right].
Qed.
Lemma split_char_concat c s : is_sep c = true -> strip_seps (String.concat "" (split_char c s)) = strip_seps s.
Proof.
  intros Hc. assert (H : forall y l, String.concat "" (y :: l) = (y ++ String.concat "" l)%string).
  { intros y l. destruct l; cbn [String.concat]; [now rewrite append_nil_r|reflexivity]. }
  induction s as [|a s IH]; [reflexivity|]. cbn [split_char strip_seps]. destruct (Ascii.eqb_spec a c) as [->|N].
  - rewrite Hc, H. exact IH.
  - destruct (split_char c s) as [|q ps] eqn:Es; [now apply split_char_nonempty in Es|].
    rewrite H in *. cbn [append strip_seps]. destruct (is_sep a); rewrite IH; reflexivity.
Qed.
Lemma strip_seps_id s : contains_char "," s = false -> contains_char " " s = false -> strip_seps s = s.
Proof.
  induction s as [|a s IH]; cbn; auto. intros H1 H2. apply orb_false_iff in H1 as [A1 H1], H2 as [A2 H2].
  unfold is_sep. rewrite A1, A2. cbn. now rewrite IH.
Qed.
Lemma filter_nonempty_concat l : String.concat "" (filter is_nonempty l) = String.concat "" l.
Proof.
  assert (H : forall y l, String.concat "" (y :: l) = (y ++ String.concat "" l)%string).
  { intros y l'. destruct l'; cbn [String.concat]; [now rewrite append_nil_r|reflexivity]. }
  induction l as [|x l IH]; auto. cbn [filter]. unfold is_nonempty at 1. destruct (String.eqb_spec x "") as [->|N]; cbn [negb].
  - rewrite H. exact IH.
  - now rewrite !H, IH.
Qed.

Lemma feature_list_clean l f : In f (feature_list l) ->
  f <> "" /\ contains_char "," f = false /\ contains_char " " f = false.
Proof.
  unfold feature_list. intros H. apply in_flat_map in H as (arg & _ & H). apply in_flat_map in H as (part & Hp & H).
  apply filter_In in H as [H N]. unfold is_nonempty in N. apply negb_true_iff, String.eqb_neq in N. split; auto.
  split; [|eapply split_char_parts; eauto]. eapply split_char_keeps; eauto. eapply split_char_parts; eauto.
Qed.
Lemma feature_list_complete l : String.concat "" (feature_list l) = strip_seps (String.concat "" l).
Proof.
  assert (H : forall y l, String.concat "" (y :: l) = (y ++ String.concat "" l)%string).
  { intros y l'. destruct l'; cbn [String.concat]; [now rewrite append_nil_r|reflexivity]. }
  induction l as [|arg l IH]; [reflexivity|]. unfold feature_list in *. cbn [flat_map].
  rewrite concat_app_nil, IH, H, strip_seps_app. f_equal. clear IH.
  rewrite <- (split_char_concat "," arg) by reflexivity.
  assert (Hc : forall p, In p (split_char "," arg) -> contains_char "," p = false) by (intros; eapply split_char_parts; eauto).
  induction (split_char "," arg) as [|p ps IHp]; [reflexivity|]. cbn [flat_map].
  rewrite concat_app_nil, H, strip_seps_app, IHp by (intros; apply Hc; now right). f_equal.
  rewrite filter_nonempty_concat, <- (split_char_concat " " p) by reflexivity.
  symmetry. apply strip_seps_id.
  - assert (Hp : forall q, In q (split_char " " p) -> contains_char "," q = false).
    { intros q Hq. eapply split_char_keeps; eauto. apply Hc. now left. }
    induction (split_char " " p) as [|q qs IHq]; [reflexivity|]. rewrite H, contains_char_app, (Hp q), IHq; auto.
    + intros; apply Hp; now right.
    + now left.
  - assert (Hp : forall q, In q (split_char " " p) -> contains_char " " q = false) by (intros; eapply split_char_parts; eauto).
    induction (split_char " " p) as [|q qs IHq]; [reflexivity|]. rewrite H, contains_char_app, (Hp q), IHq; auto.
    + intros; apply Hp; now right.
    + now left.
Qed.

(** Lemmas about runs of the command *)
From Verif Require Import Base Strings ModelTypes ConfigModel GenModel GenSpec GenProofs GenProofs2 GenProofs4 GenProofs8
  Json JsonModel JsonSpec JsonProofs4 JsonProps Xml XmlModel ValModel ValSpec ValProps RunModel RunSpec.
Open Scope string_scope.
Open Scope list_scope.

(** *** Fuel *)
Definition mono {A} (f : nat -> outcome A) : Prop :=
  forall n r, f n = r -> r <> OutOfFuel -> forall n', n <= n' -> f n' = r.
Lemma mono_const {A} (x : outcome A) : mono (fun _ => x).
Proof. intros n r H _ n' _. exact H. Qed.
Lemma mono_bind {A B} (f : nat -> outcome A) (k : nat -> A -> outcome B) :
  mono f -> (forall a, mono (fun n => k n a)) -> mono (fun n => bind (f n) (k n)).
Proof.
  intros Hf Hk n r H Hr n' L. destruct (f n) as [a|e|e|] eqn:E; cbn [bind] in H;
    [|subst r; rewrite (Hf n _ E) by (discriminate || exact L); reflexivity ..|congruence].
  rewrite (Hf n _ E) by (discriminate || exact L). cbn [bind]. now apply (Hk a n).
Qed.
Lemma mono_mapM {A B} (f : nat -> A -> outcome B) l : (forall a, mono (fun n => f n a)) -> mono (fun n => mapM (f n) l).
Proof.
  intros H. induction l as [|x l IH]; cbn [mapM]; [apply mono_const|].
  apply mono_bind; [apply H|]. intros y. apply mono_bind; [exact IH|]. intros. apply mono_const.
Qed.
Lemma mono_create_sbom w cfg ws ps ns id : mono (fun fuel => create_sbom w fuel cfg ws ps ns id).
Proof.
  unfold create_sbom, index_dep_kinds, all_dependencies. repeat (apply mono_bind; [|intros ?]); try apply mono_const.
  - intros n r H Hr n' L. now apply dfs_mono with n.
  - destruct (included_of cfg); [apply mono_const|]. repeat (apply mono_bind; [|intros ?]); try apply mono_const.
    intros n r H Hr n' L. now apply bfs_mono with n.
Qed.
Lemma mono_create_sboms w meta cfg : mono (fun fuel => create_sboms w fuel meta cfg).
Proof. unfold create_sboms. apply mono_bind; [apply mono_const|]. intros a. apply mono_mapM. intros. apply mono_create_sbom. Qed.
Lemma mono_generate m o : mono (fun fuel => generate_sboms m fuel o).
Proof. unfold generate_sboms. do 3 (apply mono_bind; [apply mono_const|intros ?]). apply mono_create_sboms. Qed.
Lemma generate_unique m o f1 f2 r1 r2 : generate_sboms m f1 o = r1 -> generate_sboms m f2 o = r2 ->
  r1 <> OutOfFuel -> r2 <> OutOfFuel -> r1 = r2.
Proof.
  intros H1 H2 N1 N2. rewrite <- (mono_generate m o _ _ H1 N1 (Nat.max f1 f2)) by lia.
  apply (mono_generate m o _ _ H2 N2). lia.
Qed.
Lemma generate_terminates m o : exists fuel, generate_sboms m fuel o <> OutOfFuel.
Proof.
  unfold generate_sboms. destruct (run_config m o) as [cfg| | |] eqn:E1; try (exists 0; discriminate).
  - cbn [bind]. destruct (locate_manifest m o) as [p| | |] eqn:E2; try (exists 0; discriminate).
    + cbn [bind]. unfold get_metadata. destruct (mc_cargo m p _ _) as [meta|]; [|exists 0; discriminate]. cbn [bind].
      destruct (create_sboms_terminates (mc_world m) meta cfg) as [f H]. exists f. apply H. lia.
    + exfalso. revert E2. unfold locate_manifest. destruct (o_manifest_path o); [destruct (mc_absolute m s)|destruct (mc_cwd m)]; discriminate.
  - exfalso. revert E1. change (nf (run_config m o)).
    unfold run_config, host_platform, rustc_host_target_triple, resolve_config, as_config, filename_override. nf.
Qed.

(** *** Disks *)
Lemma path_eqb_eq p q : path_eqb p q = true <-> p = q.
Proof. unfold path_eqb. destruct (list_eq_dec string_dec p q); split; congruence. Qed.
Lemma path_eqb_refl p : path_eqb p p = true.
Proof. now apply path_eqb_eq. Qed.
Lemma path_eqb_neq p q : p <> q -> path_eqb p q = false.
Proof. intros H. destruct (path_eqb p q) eqn:E; auto. apply path_eqb_eq in E. contradiction. Qed.
Lemma put_same d p s : put d p s p = Some s.
Proof. unfold put. now rewrite path_eqb_refl. Qed.
Lemma put_other d p s q : q <> p -> put d p s q = d q.
Proof. intros H. unfold put. now rewrite path_eqb_neq. Qed.

Lemma finished_nil m d : finished m d [] d.
Proof. split; [intros b f a H; destruct b; discriminate|auto]. Qed.
Lemma finished_ext m d fs d1 d2 : finished m d fs d1 -> (forall q, d1 q = d2 q) -> finished m d fs d2.
Proof.
  intros [A B] E. split; [|intros q Hq; rewrite <- E; auto]. intros b f a H L. destruct (A b f a H L) as (t & T & D).
  exists t. now rewrite <- E.
Qed.
Lemma finished_snoc m d fs d1 f t : finished m d fs d1 -> file_text m f = Done t -> finished m d (fs ++ [f]) (put d1 (f_path f) t).
Proof.
  intros [A B] T. split.
  - intros b g a H L. destruct (list_eq_dec string_dec (f_path g) (f_path f)) as [E|E].
    + rewrite E, put_same. exists t. split; auto. destruct (exists_last (l := g :: a)) as (x & y & Hx); [discriminate|].
      rewrite Hx in H. rewrite app_assoc in H. apply app_inj_tail in H. destruct H as [_ <-].
      destruct x as [|g' x]; cbn in Hx; injection Hx as -> ->; auto. exfalso. apply (L f); [apply in_or_app; right; now left|now symmetry].
    + rewrite put_other by exact E. destruct (exists_last (l := g :: a)) as (x & y & Hx); [discriminate|].
      rewrite Hx in H. rewrite app_assoc in H. apply app_inj_tail in H. destruct H as [H ->].
      destruct x as [|g' x]; cbn in Hx; injection Hx as -> ->; [contradiction E; reflexivity|].
      apply (A b g' x H). intros f' Hf'. apply L. apply in_or_app. now left.
  - intros q Hq. assert (N : q <> f_path f) by (intros ->; apply (Hq f); [apply in_or_app; right; now left|reflexivity]).
    rewrite put_other by exact N. apply B. intros g Hg. apply Hq. apply in_or_app. now left.
Qed.
Lemma finished_each m d fs d' : finished m d fs d' -> NoDup (map f_path fs) ->
  forall f, In f fs -> exists t, file_text m f = Done t /\ d' (f_path f) = Some t.
Proof.
  intros [A _] N f Hf. apply in_split in Hf. destruct Hf as (b & a & ->). apply (A b f a eq_refl).
  intros f' Hf' E. rewrite map_app in N. apply NoDup_remove_2 in N. apply N. apply in_or_app. right.
  rewrite <- E. now apply in_map.
Qed.

(** *** The invariant of the loops *)
Definition place (m : machine) (gs0 : list generated) (d0 : disk) (s : state) : Prop :=
  match s with
  | Packages gs d => exists past, announced gs0 = past ++ announced gs /\ finished m d0 past d
      /\ (exists gone, gs0 = gone ++ gs /\ forall g, In g gone -> exists fs, write_plan g = Done fs)
  | Files fs gs d => exists past, announced gs0 = past ++ fs ++ announced gs /\ finished m d0 past d
      /\ (exists gone, gs0 = gone ++ gs /\ forall g, In g gone -> exists fs, write_plan g = Done fs)
  | Writing f rest fs gs d => exists past d1 c, announced gs0 = past ++ f :: fs ++ announced gs /\ finished m d0 past d1
      /\ (forall q, d q = put d1 (f_path f) c q)
      /\ match rest with Done t => file_text m f = Done (c ++ t)%string | _ => file_text m f = rest /\ c = "" end
      /\ (exists gone, gs0 = gone ++ gs /\ forall g, In g gone -> exists fs, write_plan g = Done fs)
  | Ended r d => exists past rest, announced gs0 = past ++ rest
      /\ (finished m d0 past d \/ exists f rest' d1 c, rest = f :: rest' /\ finished m d0 past d1 /\ begun m f c /\ forall q, d q = put d1 (f_path f) c q)
      /\ (r = Succeeded -> rest = [] /\ finished m d0 past d /\ forall g, In g gs0 -> exists fs, write_plan g = Done fs)
  end.
Lemma place_step m gs0 d0 s t : step m s t -> place m gs0 d0 s -> place m gs0 d0 t.
Proof.
  intros H. destruct H; cbn [place].
  - intros (past & A & F & gone & G & P). exists past, []. split; [exact A|]. split; [now left|]. intros _. split; auto. split; auto.
    rewrite app_nil_r in G. now subst.
  - intros (past & A & F & gone & G & P). exists past. cbn [announced flat_map] in A. rewrite H in A. split; [exact A|]. split; [exact F|].
    exists (gone ++ [g]). split; [now rewrite <- app_assoc|]. intros g' Hg. apply in_app_or in Hg. destruct Hg as [Hg|[<-|[]]]; eauto.
  - intros (past & A & F & _). exists past. eexists. split; [exact A|]. split; [now left|discriminate].
  - intros (past & A & F & _). exists past. eexists. split; [exact A|]. split; [now left|discriminate].
  - intros (past & A & F & G). exists past. auto.
  - intros (past & A & F & _). exists past. eexists. split; [exact A|]. split; [now left|discriminate].
  - intros (past & A & F & G). exists past, d, "". split; [exact A|]. split; [exact F|]. split; [reflexivity|]. split; [|exact G].
    destruct (file_text m f); auto.
  - intros (past & A & F & _). exists past. eexists. split; [exact A|]. split; [now left|discriminate].
  - intros (past & d1 & c & A & F & D & [T ->] & _). exists past. eexists. split; [exact A|]. split; [right|discriminate].
    exists f. do 3 eexists. split; [reflexivity|]. split; [exact F|]. split; [now left|exact D].
  - intros (past & d1 & c & A & F & D & [T ->] & _). exists past. eexists. split; [exact A|]. split; [right|discriminate].
    exists f. do 3 eexists. split; [reflexivity|]. split; [exact F|]. split; [now left|exact D].
  - intros (past & d1 & c & A & F & D & T & G). exists past, d1, (c ++ s)%string. split; [exact A|]. split; [exact F|].
    split; [|split; [now rewrite append_assoc|exact G]]. intros q. unfold append_to. rewrite D, put_same.
    destruct (list_eq_dec string_dec q (f_path f)) as [->|E]; [now rewrite !put_same|]. rewrite !put_other by exact E. now rewrite D, put_other.
  - intros (past & d1 & c & A & F & D & T & _). exists past. eexists. split; [exact A|]. split; [right|discriminate].
    exists f. do 3 eexists. split; [reflexivity|]. split; [exact F|]. split; [right; eauto|exact D].
  - intros (past & d1 & c & A & F & D & T & G). exists (past ++ [f]). rewrite append_nil_r in T. split; [now rewrite <- app_assoc|].
    split; [|exact G]. eapply finished_ext; [eapply finished_snoc; eauto|]. intros q. now rewrite D.
Qed.
Lemma place_steps m gs0 d0 s t : steps m s t -> place m gs0 d0 s -> place m gs0 d0 t.
Proof. induction 1; auto. intros P. eapply place_step; eauto. Qed.
Lemma place_start m gs d : place m gs d (Packages gs d).
Proof. exists []. split; [reflexivity|]. split; [apply finished_nil|]. exists []. split; [reflexivity|]. intros g []. Qed.

Lemma ended_stays m r d t : steps m (Ended r d) t -> t = Ended r d.
Proof.
  intros H. remember (Ended r d) as s. revert Heqs. induction H; intros ->; auto. rewrite (IHsteps eq_refl) in H0. inversion H0.
Qed.

(** *** Every run ends *)
Definition weight (m : machine) (f : output_file) : nat :=
  3 + match file_text m f with Done t => String.length t | _ => 0 end.
Fixpoint total (l : list nat) : nat := match l with [] => 0 | n :: r => n + total r end.
Definition weights (m : machine) (fs : list output_file) : nat := total (map (weight m) fs).
Definition packages_weight (m : machine) (gs : list generated) : nat :=
  total (map (fun g => 2 + weights m (match write_plan g with Done fs => fs | _ => [] end)) gs).
Definition left_to_do (m : machine) (s : state) : nat :=
  match s with
  | Packages gs _ => 1 + packages_weight m gs
  | Files fs gs _ => 2 + weights m fs + packages_weight m gs
  | Writing f rest fs gs _ => 3 + (match rest with Done t => String.length t | _ => 0 end) + weights m fs + packages_weight m gs
  | Ended _ _ => 0
  end.
Lemma step_decreases m s t : step m s t -> left_to_do m t < left_to_do m s.
Proof.
  intros H. destruct H; cbn [left_to_do]; try lia.
  - unfold packages_weight. cbn [map total]. rewrite H. lia.
  - unfold weights. cbn [map total]. unfold weight at 2. destruct (file_text m f); lia.
  - rewrite length_append. destruct s as [|c s]; [contradiction H; reflexivity|]. cbn [String.length]. lia.
Qed.

(** *** and until then it can go on *)
Lemma nf_plan g : write_plan g <> OutOfFuel.
Proof.
  change (nf (write_plan g)). unfold write_plan, per_artifact_sboms, filename. nf.
Qed.
Lemma nf_check v b : check_bom v b <> OutOfFuel.
Proof. destruct (check_bom_iff v b) as [[-> _]|[-> _]]; discriminate. Qed.
Lemma nf_text m f : file_text m f <> OutOfFuel.
Proof.
  unfold file_text, output_as_json, output_as_xml. pose proof (nf_check (f_version f) (f_bom f)) as N.
  destruct (f_format f), (check_bom _ _); cbn; try discriminate; congruence.
Qed.
Definition runnable (s : state) : Prop := match s with Writing _ rest _ _ _ => rest <> OutOfFuel | _ => True end.
Lemma runnable_step m s t : step m s t -> runnable s -> runnable t.
Proof. intros H. destruct H; cbn; auto; try discriminate. intros _. apply nf_text. Qed.
Lemma runnable_steps m s t : steps m s t -> runnable s -> runnable t.
Proof. induction 1; auto. intros R. eapply runnable_step; eauto. Qed.
Lemma can_go_on m s : runnable s -> (exists r d, s = Ended r d) \/ exists t, step m s t.
Proof.
  destruct s as [[|g gs] d|[|f fs] gs d|f rest fs gs d|r d]; cbn [runnable]; intros R.
  - right. eexists. constructor.
  - right. pose proof (nf_plan g). destruct (write_plan g) as [fs|e|e|] eqn:E; [| | |congruence]; eexists.
    + now apply step_package with (fs := fs).
    + eapply step_package_fails; eauto.
    + eapply step_package_panics; eauto.
  - right. eexists. constructor.
  - right. destruct (valid_or_unchecked m f) as [[|]| | |] eqn:E;
      first [eexists; apply step_create; exact E|eexists; apply step_invalid; rewrite E; discriminate].
  - right. destruct rest as [t|e|e|]; [|eexists; constructor ..|congruence].
    destruct t as [|a t]; [eexists; apply step_close|]. eexists. apply (step_write m f (String a "") t). discriminate.
  - left. eauto.
Qed.

(** *** A run under good conditions *)
Lemma run_config_resolved m o cfg : run_config m o = Done cfg -> exists host, resolve_config (o_args o) (mc_build_target m) host = Done cfg.
Proof.
  unfold run_config. intros H. apply bind_done in H. destruct H as (c & _ & H).
  destruct (cf_target _); [eauto|]. apply bind_done in H. destruct H as (h & _ & H). eauto.
Qed.
Lemma in_combine_r' {A B} (l : list A) (l' : list B) b : List.length l = List.length l' -> In b l' -> exists a, In (a, b) (combine l l').
Proof.
  revert l'. induction l as [|a l IH]; intros [|b' l'] L H; try discriminate; [destruct H|]. destruct H as [<-|H]; [exists a; now left|].
  destruct (IH l') as (x & Hx); auto. exists x. now right.
Qed.

Section GOOD.
  Variables (m : machine) (o : options) (cfg : config) (manifest : path) (meta : cargo_metadata) (nodes : list node).
  Hypothesis clap : clap_accepts (o_args o).
  Hypothesis configured : run_config m o = Done cfg.
  Hypothesis located : locate_manifest m o = Done manifest.
  Hypothesis cargo : mc_cargo m manifest (metadata_features cfg) (metadata_options cfg) = Some meta.
  Hypothesis wf : well_formed meta nodes.
  Hypothesis targets : distinct_targets meta.

  Lemma generates fuel : generate_sboms m fuel o = create_sboms (mc_world m) fuel meta cfg.
  Proof. unfold generate_sboms. rewrite configured. cbn [bind]. rewrite located. cbn [bind]. unfold get_metadata. now rewrite cargo. Qed.
  Lemma made_length gs : made m o gs -> List.length gs = List.length (cm_members meta).
  Proof.
    intros [fuel H]. rewrite generates in H. unfold create_sboms in H. apply bind_done in H. destruct H as (ns & _ & H).
    apply mapM_done in H. clear -H. symmetry. induction H; cbn; auto.
  Qed.
  Lemma made_of gs g : made m o gs -> In g gs -> exists fuel id, sbom_of (mc_world m) fuel meta cfg id g.
  Proof.
    intros M Hg. destruct (in_combine_r' (cm_members meta) gs g) as (id & Hi); [symmetry; now apply made_length|exact Hg|].
    destruct M as [fuel H]. rewrite generates in H. exists fuel, id, gs. auto.
  Qed.
  Lemma made_plan gs g : made m o gs -> In g gs -> exists fs, write_plan g = Done fs.
  Proof.
    intros M Hg. destruct (made_of gs g M Hg) as (fuel & id & S). destruct (run_config_resolved _ _ _ configured) as (h & R).
    destruct (files_spec _ _ _ _ _ _ _ _ _ _ wf clap R S targets) as (p & fs & _ & _ & W & _). eauto.
  Qed.
  Lemma announced_in gs f : In f (announced gs) -> exists g fs, In g gs /\ write_plan g = Done fs /\ In f fs.
  Proof.
    unfold announced. intros H. apply in_flat_map in H. destruct H as (g & Hg & H). exists g.
    destruct (write_plan g) as [fs| | |] eqn:E; try destruct H. eauto.
  Qed.
  Lemma announced_distinct gs : NoDup (cm_members meta) -> directories_differ meta -> made m o gs -> NoDup (map f_path (announced gs)).
  Proof.
    intros N D M. pose proof (made_length gs M) as L. destruct M as [fuel H]. rewrite generates in H.
    assert (S : forall id g, In (id, g) (combine (cm_members meta) gs) -> sbom_of (mc_world m) fuel meta cfg id g) by (intros; exists gs; auto).
    destruct (run_config_resolved _ _ _ configured) as (h & R).
    assert (P : forall id g, In (id, g) (combine (cm_members meta) gs) -> exists p files, In p (cm_packages meta) /\ pk_id p = id
      /\ write_plan g = Done files /\ NoDup (map f_path files) /\ forall f, In f files -> exists n, f_path f = removelast (pk_manifest p) ++ [n]).
    { intros id g Hg. destruct (files_spec _ _ _ _ _ _ _ _ _ _ wf clap R (S id g Hg) targets) as (p & fs & A & B & C & E & _ & F).
      exists p, fs. repeat (split; [assumption|]). intros f Hf. destruct (F f Hf) as (_ & _ & s & X & _). eauto. }
    clear H S.
    assert (G : forall ms, NoDup ms -> forall gs, List.length gs = List.length ms ->
      (forall id, In id ms -> In id (cm_members meta)) ->
      (forall id g, In (id, g) (combine ms gs) -> exists p files, In p (cm_packages meta) /\ pk_id p = id
      /\ write_plan g = Done files /\ NoDup (map f_path files) /\ forall f, In f files -> exists n, f_path f = removelast (pk_manifest p) ++ [n]) ->
      NoDup (map f_path (announced gs))).
    { clear gs L P N. intros ms N. induction N as [|id ms Hid N IH]; intros [|g gs] L I P; try discriminate L; [constructor|].
      destruct (P id g (or_introl eq_refl)) as (p & fs & A & B & C & E & F).
      unfold announced. cbn [flat_map]. rewrite C, map_app. fold (announced gs).
      assert (IH' : NoDup (map f_path (announced gs))).
      { apply IH; [cbn in L; lia|intros; apply I; now right|]. intros id' g' H. apply P. now right. }
      clear IH C. induction fs as [|f fs IHf]; cbn [map app]; [exact IH'|]. inversion E as [|x l E1 E2]; subst x l. constructor.
      - rewrite in_app_iff. intros [H|H]; [exact (E1 H)|]. apply in_map_iff in H. destruct H as (f' & X & H).
        apply announced_in in H. destruct H as (g' & fs' & Hg & W & Hf).
        destruct (in_combine_r' ms gs g') as (id' & Hi); [cbn in L; lia|exact Hg|].
        destruct (P id' g' (or_intror Hi)) as (p' & fs'' & A' & B' & C' & _ & F'). rewrite W in C'. injection C' as <-.
        destruct (F' f' Hf) as (n' & Y'). destruct (F f (or_introl eq_refl)) as (n & Y). rewrite Y, Y' in X. apply app_inj_tail in X.
        destruct X as [X _]. apply Hid. rewrite <- B. replace (pk_id p) with (pk_id p').
        + rewrite B'. apply in_combine_l in Hi. exact Hi.
        + apply D; auto; [rewrite B'; apply I; right; now apply in_combine_l in Hi|rewrite B; apply I; now left].
      - apply IHf; [exact E2|exact (fun f' Hf' => F f' (or_intror Hf'))]. }
    apply (G (cm_members meta)); auto.
  Qed.
End GOOD.

(** *** The lines of a text *)
Lemma append_inj_r_any a b x y : (a ++ String x "" = b ++ String y "")%string -> a = b /\ x = y.
Proof.
  revert b. induction a as [|c a IH]; intros [|e b] H; cbn in H.
  - injection H as ->. auto.
  - injection H as _ H. destruct b; discriminate H.
  - injection H as _ H. destruct a; discriminate H.
  - injection H as -> H. destruct (IH b H) as [-> ->]. auto.
Qed.
Lemma append_inj_r_char a b x : (a ++ String x "" = b ++ String x "")%string -> a = b.
Proof. intros H. now apply append_inj_r_any in H. Qed.
Lemma ends_char s : s <> "" -> exists v k, s = (v ++ String k "")%string.
Proof.
  induction s as [|c s IH]; [congruence|]. intros _. destruct s as [|e s]; [exists "", c; reflexivity|].
  destruct IH as (v & k & ->); [discriminate|]. exists (String c v), k. reflexivity.
Qed.
Lemma cut_lf a b a' b' : contains_char LF a = false -> contains_char LF a' = false ->
  (a ++ String LF b = a' ++ String LF b')%string -> a = a' /\ b = b'.
Proof.
  revert a'. induction a as [|x a IH]; intros [|x' a'] A A' H; cbn in H.
  - injection H as ->. auto.
  - injection H as <- _. discriminate A'.
  - injection H as -> _. discriminate A.
  - injection H as -> H. cbn in A, A'. apply orb_false_iff in A, A'. destruct (IH a') as [-> ->]; tauto.
Qed.
Lemma first_lf s : contains_char LF s = true -> exists a b, s = (a ++ String LF b)%string /\ contains_char LF a = false.
Proof.
  induction s as [|x s IH]; [discriminate|]. cbn [contains_char]. destruct (Ascii.eqb x LF) eqn:E.
  - apply Ascii.eqb_eq in E. subst. intros _. exists "", s. auto.
  - cbn [orb]. intros H. destruct (IH H) as (a & b & -> & A). exists (String x a), b. split; [reflexivity|]. cbn [contains_char].
    now rewrite E.
Qed.
Lemma split_lf a b : contains_char LF a = false -> split_char LF (a ++ String LF b) = a :: split_char LF b.
Proof.
  induction a as [|x a IH]; intros H; [reflexivity|]. cbn [contains_char] in H. apply orb_false_iff in H. destruct H as [E H].
  cbn [String.append split_char]. rewrite E. now rewrite (IH H).
Qed.
Lemma split_no_lf a : contains_char LF a = false -> split_char LF a = [a].
Proof.
  induction a as [|x a IH]; intros H; [reflexivity|]. cbn [contains_char] in H. apply orb_false_iff in H. destruct H as [E H].
  cbn [split_char]. rewrite E. now rewrite (IH H).
Qed.
Lemma lines_lf a b : contains_char LF a = false -> lines (a ++ String LF b) = strip_cr a :: lines b.
Proof.
  intros H. unfold lines. rewrite (split_lf _ _ H). pose proof (split_char_nonempty LF b) as N.
  destruct (split_char LF b); [congruence|reflexivity].
Qed.
Lemma lines_no_lf a : contains_char LF a = false -> lines a = if String.eqb a "" then [] else [a].
Proof. intros H. unfold lines. rewrite (split_no_lf _ H). reflexivity. Qed.
Lemma strip_cr_cases a : (exists u, a = (u ++ String CR "")%string /\ strip_cr a = u)
  \/ ((forall u, a <> (u ++ String CR "")%string) /\ strip_cr a = a).
Proof.
  induction a as [|x [|y a] IH].
  - right. split; [intros []; discriminate|reflexivity].
  - cbn [strip_cr]. destruct (Ascii.eqb x CR) eqn:E.
    + apply Ascii.eqb_eq in E. subst. left. exists "". auto.
    + right. split; [|reflexivity]. intros [|z u] H; cbn in H; [injection H as ->; discriminate E|]. injection H as _ H. destruct u; discriminate H.
  - change (strip_cr (String x (String y a))) with (String x (strip_cr (String y a))).
    destruct IH as [(u & H & S)|(H & S)].
    + left. exists (String x u). rewrite S, H. auto.
    + right. rewrite S. split; [|reflexivity]. intros [|z u] K; cbn in K; [discriminate K|]. injection K as -> K. exact (H u K).
Qed.
Lemma contains_str_app_r p a b : contains_str p b = true -> contains_str p (a ++ b) = true.
Proof.
  rewrite !contains_str_spec. intros (x & y & ->). exists (a ++ x)%string, y. now rewrite append_assoc.
Qed.
Lemma host_prefix_cut a b : contains_char LF a = false -> starts_with "host: " (a ++ String LF b) = starts_with "host: " a.
Proof.
  intros A. destruct (starts_with "host: " a) eqn:E.
  - apply starts_with_spec. apply starts_with_spec in E. destruct E as (r & ->). exists (r ++ String LF b)%string. now rewrite append_assoc.
  - destruct (starts_with "host: " (a ++ String LF b)) eqn:E'; [|reflexivity]. apply starts_with_spec in E'. destruct E' as (r & H).
    rewrite <- E. symmetry. apply starts_with_spec.
    repeat (destruct a as [|? a]; [cbn in H; discriminate H|cbn in H; injection H as -> H]). exists a. reflexivity.
Qed.
Lemma host_lines out : forall t, option_map (drop 6) (find (starts_with "host: ") (lines out)) = Some t <-> host_named out t.
Proof.
  remember (String.length out) as n eqn:L. revert out L. induction n as [n IH] using lt_wf_ind. intros out L t.
  destruct (contains_char LF out) eqn:C.
  - destruct (first_lf _ C) as (a & b & -> & A). rewrite (lines_lf _ _ A). cbn [find].
    destruct (starts_with "host: " a) eqn:E.
    + (* the first line *)
      apply starts_with_spec in E. destruct E as (x & ->).
      assert (X : contains_char LF x = false) by (rewrite contains_char_app in A; apply orb_false_iff in A; tauto).
      assert (S : strip_cr ("host: " ++ x) = ("host: " ++ strip_cr x)%string).
      { destruct (strip_cr_cases x) as [(u & -> & S)|(N & S)]; rewrite S.
        - destruct (strip_cr_cases ("host: " ++ u ++ String CR "")) as [(w & W & ->)|(W & _)].
          + rewrite <- append_assoc in W. apply append_inj_r_char in W. now symmetry.
          + exfalso. apply (W ("host: " ++ u)%string). now rewrite append_assoc.
        - destruct (strip_cr_cases ("host: " ++ x)) as [(w & W & _)|(_ & ->)]; [|reflexivity].
          exfalso. destruct x as [|c x]; [cbn in W; repeat (destruct w as [|? w]; [discriminate W|injection W as _ W]); destruct w; discriminate W|].
          destruct (ends_char (String c x)) as (v & k & V); [discriminate|]. rewrite V in W. rewrite <- append_assoc in W.
          apply append_inj_r_any in W. destruct W as [_ ->]. exact (N v V). }
      rewrite S. replace (starts_with "host: " ("host: " ++ strip_cr x)) with true by (symmetry; apply starts_with_spec; eauto).
      cbn [option_map]. rewrite (drop_app "host: " (strip_cr x) : drop 6 _ = _).
      split.
      * intros [= <-]. destruct (strip_cr_cases x) as [(u & -> & Sx)|(N & Sx)]; rewrite Sx; exists ""; eexists.
        -- split; [rewrite !append_assoc; reflexivity|]. split; [now left|]. split; [reflexivity|]. split; [reflexivity|].
           split; [rewrite contains_char_app in X; apply orb_false_iff in X; tauto|]. right. right. exists b. reflexivity.
        -- split; [rewrite !append_assoc; reflexivity|]. split; [now left|]. split; [reflexivity|]. split; [reflexivity|].
           split; [exact X|]. right. left. exists b. auto.
      * intros (before & ending & O & B & B1 & _ & T & En).
        assert (before = "") as ->.
        { destruct B as [B|(b0 & ->)]; [exact B|]. exfalso.
          assert (Cb : contains_char LF (b0 ++ String LF "") = true) by (rewrite contains_char_app; cbn; apply orb_true_r).
          destruct (first_lf _ Cb) as (a1 & b1 & E1 & A1).
          assert (O' : (("host: " ++ x) ++ String LF b = a1 ++ String LF (b1 ++ "host: " ++ t ++ ending))%string)
            by (rewrite O, E1, append_assoc; reflexivity).
          apply cut_lf in O'; [|exact A|exact A1]. destruct O' as [O' _]. rewrite E1, <- O', host_prefix_cut in B1 by exact A.
          assert (Z : starts_with "host: " ("host: " ++ x) = true) by (apply starts_with_spec; eauto). rewrite Z in B1. discriminate B1. }
        assert (O' : (x ++ String LF b = t ++ ending)%string)
          by (apply (append_inj_l "host: "); rewrite <- append_assoc; exact O).
        destruct En as [->|[(af & -> & N)|(af & ->)]].
        -- exfalso. rewrite append_nil_r in O'. rewrite <- O', contains_char_app in T. cbn in T. rewrite orb_true_r in T. discriminate T.
        -- apply cut_lf in O'; auto. destruct O' as [-> _]. destruct (strip_cr_cases t) as [(u & U & _)|(_ & ->)]; [destruct (N u U)|reflexivity].
        -- change (String CR (String LF af)) with (String CR "" ++ String LF af)%string in O'. rewrite <- append_assoc in O'.
           apply cut_lf in O'; [|exact X|rewrite contains_char_app, T; reflexivity]. destruct O' as [-> _].
           destruct (strip_cr_cases (t ++ String CR "")) as [(u & U & ->)|(N & _)]; [|destruct (N t eq_refl)].
           apply append_inj_r_any in U. destruct U as [-> _]. reflexivity.
    + (* a later line *)
      assert (Sf : starts_with "host: " (strip_cr a) = false).
      { destruct (strip_cr_cases a) as [(u & -> & ->)|(_ & ->)]; [|exact E]. destruct (starts_with "host: " u) eqn:U; [|reflexivity].
        apply starts_with_spec in U. destruct U as (r & ->). rewrite <- E. symmetry. apply starts_with_spec. exists (r ++ String CR "")%string. now rewrite append_assoc. }
      rewrite Sf. rewrite (IH (String.length b)) by (auto; subst n; rewrite length_append; cbn [String.length]; lia).
      split.
      * intros (before & ending & -> & B & B1 & B2 & T & En). exists (a ++ String LF before)%string, ending.
        split; [now rewrite append_assoc|]. split; [|split; [|split; [|auto]]].
        -- right. destruct B as [->|(b0 & ->)]; [exists a; reflexivity|]. exists (a ++ String LF b0)%string. now rewrite append_assoc.
        -- now rewrite host_prefix_cut.
        -- destruct (contains_str _ (a ++ _)) eqn:K; [|reflexivity]. exfalso. apply contains_str_spec in K. destruct K as (x & y & K).
           destruct (contains_char LF x) eqn:X.
           ++ destruct (first_lf _ X) as (x1 & x2 & -> & X1). rewrite append_assoc in K. cbn [String.append] in K.
              apply cut_lf in K; auto. destruct K as [_ K]. assert (Z : contains_str (String LF "host: ") before = true) by (apply contains_str_spec; exists x2, y; exact K).
              rewrite Z in B2. discriminate B2.
           ++ change (String LF "host: " ++ y)%string with (String LF ("host: " ++ y))%string in K. apply cut_lf in K; auto. destruct K as [_ K].
              assert (Z : starts_with "host: " before = true) by (apply starts_with_spec; eauto). rewrite Z in B1. discriminate B1.
      * intros (before & ending & O & B & B1 & B2 & T & En). destruct B as [->|(b0 & ->)].
        -- exfalso. rewrite <- (host_prefix_cut a b A), O in E. cbn [String.append] in E.
           assert (Z : starts_with "host: " ("host: " ++ t ++ ending) = true) by (apply starts_with_spec; eauto). cbn [String.append] in Z.
           rewrite Z in E. discriminate E.
        -- assert (Cb : contains_char LF (b0 ++ String LF "") = true) by (rewrite contains_char_app; cbn; apply orb_true_r).
           destruct (first_lf _ Cb) as (a1 & b1 & E1 & A1).
           assert (O' : (a ++ String LF b = a1 ++ String LF (b1 ++ "host: " ++ t ++ ending))%string)
             by (rewrite O, E1, append_assoc; reflexivity).
           clear O. rename O' into O. apply cut_lf in O; [|exact A|exact A1]. destruct O as [<- O]. exists b1, ending. split; [exact O|].
           split; [|split; [|split; [|auto]]].
           ++ destruct (b1 =? "")%string eqn:Q; [left; now apply String.eqb_eq|right].
              destruct (ends_char b1) as (v & k & V); [intros ->; discriminate Q|]. exists v. rewrite V in E1 |- *.
              change (String LF (v ++ String k ""))%string with (String LF v ++ String k "")%string in E1. rewrite <- append_assoc in E1.
              apply append_inj_r_any in E1. destruct E1 as [_ <-]. reflexivity.
           ++ destruct (starts_with "host: " b1) eqn:Q; [|reflexivity]. apply starts_with_spec in Q. destruct Q as (r & ->).
              assert (Z : contains_str (String LF "host: ") (b0 ++ String LF "") = true).
              { apply contains_str_spec. exists a, r. exact E1. }
              rewrite Z in B2. discriminate B2.
           ++ destruct (contains_str _ b1) eqn:Q; [|reflexivity]. rewrite E1 in B2.
              change (String LF b1) with (String LF "" ++ b1)%string in B2. rewrite <- append_assoc in B2.
              rewrite (contains_str_app_r _ (a ++ String LF "") b1) in B2; [discriminate B2|exact Q].
  - rewrite (lines_no_lf _ C). destruct (String.eqb_spec out "") as [->|Ne].
    + split; [discriminate|]. intros (before & ending & O & _). destruct before; discriminate O.
    + cbn [find]. destruct (starts_with "host: " out) eqn:E.
      * apply starts_with_spec in E. destruct E as (x & ->). cbn [option_map]. rewrite (drop_app "host: " x : drop 6 _ = _).
        assert (X : contains_char LF x = false) by (rewrite contains_char_app in C; apply orb_false_iff in C; tauto). split.
        -- intros [= <-]. exists "", "". split; [now rewrite append_nil_r|]. split; [now left|]. split; [reflexivity|]. split; [reflexivity|].
           split; [exact X|now left].
        -- intros (before & ending & O & B & _ & _ & _ & En). rewrite O in C. rewrite !contains_char_app in C. 
           assert (before = "") as ->. { destruct B as [B|(b0 & ->)]; [exact B|]. rewrite contains_char_app in C. cbn in C. rewrite !orb_true_r in C. discriminate C. }
           assert (ending = "") as ->. { destruct En as [En|[(af & -> & _)|(af & ->)]]; [exact En|..]; cbn in C; rewrite !orb_true_r in C; discriminate C. }
           cbn [String.append] in O. rewrite append_nil_r in O. apply (append_inj_l "host: ") in O. now subst.
      * split; [discriminate|]. intros (before & ending & O & B & _). exfalso.
        assert (before = "") as ->. { destruct B as [B|(b0 & ->)]; [exact B|]. rewrite O, !contains_char_app in C. cbn in C. rewrite !orb_true_r in C. discriminate C. }
        assert (Z : starts_with "host: " out = true) by (apply starts_with_spec; exists (t ++ ending)%string; exact O). rewrite Z in E. discriminate E.
Qed.

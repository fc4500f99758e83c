(** Generated SBOMs against the library's own validator (C09, C50), and the
    package URLs the generator writes (C51). *)
From Verif Require Import Base Strings Base64 ModelTypes ConfigModel GenModel GenSpec GenExample
  GenProofs GenProofs2 GenProofs8 Regex Enums ValModel ValSpec ValProofs3 ValProps GenValProofs.
From Coq Require Import NArith ZArith.
Open Scope string_scope.
Open Scope list_scope.

(** ** C09: the library's validator finds no reference problem *)
Theorem C09_validator_agrees w fuel meta nodes cfg m g files f :
  well_formed meta nodes -> sbom_of w fuel meta cfg m g ->
  (forall p n, In p (cm_packages meta) -> pk_id p <> sub_ref m n) ->
  write_plan g = Done files -> In f files ->
  forall x v r, validate_bom x v (f_bom f) = Done r ->
    error r "bom_ref" = None /\ error r "dependency_ref" = None
    /\ error r "sub dependency_ref" = None /\ error r "composition ref" = None.
Proof.
  intros wf H Hf Hp Hin x v r Hr.
  assert (V : valid_references (f_bom f)).
  { destruct (planned _ _ _ Hp Hin) as [->|(md & c & subs & s & A & B & _ & _ & ->)].
    - eapply generated_references; eauto.
    - eapply retarget_references; eauto. }
  destruct V as [V1 V2].
  destruct (C22_duplicates_reported x v (f_bom f)) as (r1 & R1 & D & _).
  destruct (C23_no_dangling_no_error x v (f_bom f)) as (r2 & R2 & E1 & E2 & E3).
  rewrite Hr in R1, R2. injection R1 as <-. injection R2 as <-.
  split; [now apply D|]. split; [apply E1; auto|]. split; [apply E2; auto|apply E3; auto].
Qed.

(** ** C50: generated SBOMs are valid, in every version of the specification *)
Theorem C50_generated_sboms_are_valid w x fuel meta nodes cfg m g files f :
  well_formed meta nodes -> sbom_of w fuel meta cfg m g ->
  (forall p n, In p (cm_packages meta) -> pk_id p <> sub_ref m n) ->
  same_libraries w x -> no_bom_links meta ->
  write_plan g = Done files -> In f files ->
  forall v, exists r, validate_bom x v (f_bom f) = Done r /\ passed r = true.
Proof.
  intros. apply C25_passes_iff_valid. eapply file_valid; eauto.
Qed.

(** parsers that accept everything the example world writes *)
Definition ex_parsers : parsers :=
  mkParsers (fun s => existsb (String.eqb s) ["2024-01-01T00:00:00Z"; "1970-01-01T00:00:00Z"]) (fun _ => true)
    (fun s => if starts_with "pkg:cargo/" s then None else Some "no scheme") (fun _ => true) (fun _ => true).
Example C50_example : same_libraries ex_world ex_parsers /\ no_bom_links ex_meta
  /\ (forall p n, In p (cm_packages ex_meta) -> pk_id p <> sub_ref ex_id_app n)
  /\ exists files, write_plan ex_gen = Done files /\ List.length files = 1.
Proof.
  split; [|split; [|split]].
  - constructor; cbn; auto.
    + intros n v q s p [= <-]. match goal with |- (if ?b then _ else _) = _ => replace b with true end; [reflexivity|].
      symmetry. apply starts_with_spec. exists (n ++ "@" ++ v)%string. reflexivity.
    + intros t [= <-]. reflexivity.
    + intros _ t [= <-]. reflexivity.
    + exists "00000000-0000-4000-8000-000000000000". split; [reflexivity|].
      exists "00000000", "0000", "4000", "8000", "000000000000".
      repeat split; try reflexivity; apply ValProofs.all_of_iff; reflexivity.
    + intros _ l lk h [= <-] Hin. destruct Hin as [<-|[<-|[]]]; [intros [= <-]|discriminate].
      split; [reflexivity|]. apply ValProofs.all_of_iff. reflexivity.
  - intros p s H. repeat (destruct H as [<-|H]; [cbn; intros L; decompose [or] L; clear L; try tauto; match goal with E : _ = Some s |- _ => first [discriminate E|injection E as <-; reflexivity] end|]). destruct H.
  - intros p n H. repeat (destruct H as [<-|H]; [cbn; discriminate|]). destruct H.
  - eexists. split; [vm_compute; reflexivity|reflexivity].
Qed.
Print Assumptions C09_validator_agrees.
Print Assumptions C50_generated_sboms_are_valid.

(** Without the condition on links the claim fails: a package whose homepage
    starts with "urn:cdx" gives an SBOM that no version before 1.5 accepts. *)
Definition linked_app : package := {|
  pk_id := pk_id ex_app; pk_name := pk_name ex_app; pk_version := pk_version ex_app; pk_source := pk_source ex_app;
  pk_authors := pk_authors ex_app; pk_description := pk_description ex_app; pk_license := pk_license ex_app;
  pk_license_file := pk_license_file ex_app; pk_documentation := None;
  pk_homepage := Some "urn:cdx:f08a6ccd-4dce-4759-bd84-c626675d60a7/1"; pk_links := None; pk_repository := None;
  pk_targets := pk_targets ex_app; pk_manifest := pk_manifest ex_app |}.
Definition linked_meta : cargo_metadata := mkMeta [ex_id_app] [linked_app; ex_b; ex_a; ex_d] (Some ex_nodes) ["w"].
Theorem C50_bom_links_refuted : exists w x fuel meta nodes cfg m g files f r,
  well_formed meta nodes /\ sbom_of w fuel meta cfg m g
  /\ (forall p n, In p (cm_packages meta) -> pk_id p <> sub_ref m n)
  /\ same_libraries w x /\ write_plan g = Done files /\ In f files
  /\ validate_bom x V1_3 (f_bom f) = Done r /\ passed r = false.
Proof.
  exists ex_world, ex_parsers, 100, linked_meta, ex_nodes, ex_cfg, ex_id_app.
  exists (match create_sboms ex_world 100 linked_meta ex_cfg with Done [g] => g | _ => ex_gen end).
  do 3 eexists.
  split; [constructor|].
  - reflexivity.
  - repeat constructor; vm_compute; intros H; repeat (destruct H as [H|H]; [discriminate H|]); exact H.
  - repeat constructor; vm_compute; intros H; repeat (destruct H as [H|H]; [discriminate H|]); exact H.
  - intros m [<-|[]]. vm_compute. tauto.
  - intros n H. repeat (destruct H as [<-|H]; [vm_compute; tauto|]). destruct H.
  - intros n d H. repeat (destruct H as [<-|H]; [cbn [n_deps]; intros Hd; repeat (destruct Hd as [<-|Hd]; [vm_compute; tauto|]); destruct Hd|]). destruct H.
  - intros n d H. repeat (destruct H as [<-|H]; [cbn [n_deps]; intros Hd; repeat (destruct Hd as [<-|Hd]; [cbn; intuition discriminate|]); destruct Hd|]). destruct H.
  - intros p H. repeat (destruct H as [<-|H]; [discriminate|]). destruct H.
  - split; [eexists; split; [vm_compute; reflexivity|now left]|].
    split; [intros p n H; repeat (destruct H as [<-|H]; [cbn; discriminate|]); destruct H|].
    split; [exact (proj1 C50_example)|].
    split; [vm_compute; reflexivity|]. split; [now left|]. split; vm_compute; reflexivity.
Qed.
Print Assumptions C50_bom_links_refuted.

(** ** C51: package URLs
    [qualifier_of p root ws q] : the source information a package URL must carry. *)
(** [r] leads from the directory [from] to the directory [to]: up as long as they have nothing in common, then down *)
Inductive leads (from to : path) : string -> Prop :=
| lead common up down : from = common ++ up -> to = common ++ down ->
    (forall a up' b down', up = a :: up' -> down = b :: down' -> a <> b) ->
    leads from to (join "/" (repeat ".." (List.length up) ++ down)).
(** [t] is the repository [u] (what follows [git+] in the source of a package) with the commit after an at sign, or
    else the branch, tag or revision asked for *)
Definition clean (s : string) : Prop := contains_char "?" s = false /\ contains_char "#" s = false.
Definition asks_for (s : string) : Prop := exists k v, In k ["branch="; "tag="; "rev="] /\ s = (k ++ v)%string.
Inductive repository_at : string -> string -> Prop :=
| r_query_commit url q commit : clean url -> contains_char "#" q = false ->
    repository_at (url ++ "?" ++ q ++ "#" ++ commit) (url ++ "@" ++ commit)
| r_commit url commit : clean url -> clean commit -> repository_at (url ++ "#" ++ commit) (url ++ "@" ++ commit)
| r_asked url before k v after : clean url -> In k ["branch="; "tag="; "rev="] -> Forall (fun s => ~ asks_for s) before ->
    Forall (fun s => contains_char "#" s = false /\ contains_char "&" s = false) (before ++ [k ++ v]%string ++ after) ->
    repository_at (url ++ "?" ++ join "&" (before ++ [k ++ v]%string ++ after)) (url ++ "@" ++ v)
| r_query url params : clean url -> params <> [] -> Forall (fun s => ~ asks_for s) params ->
    Forall (fun s => contains_char "#" s = false /\ contains_char "&" s = false) params ->
    repository_at (url ++ "?" ++ join "&" params) (url ++ "@" ++ join "&" params)
| r_plain url : clean url -> repository_at url url
(** not a source of cargo's: the fragment has a question mark or another number sign *)
| r_odd url fragment t : clean url -> ~ clean fragment -> repository_at (url ++ "#" ++ fragment) t.
Inductive qualifier_of (p root : package) (ws : path) : option (string * string) -> Prop :=
| q_crates_io : pk_source p = Some "registry+https://github.com/rust-lang/crates.io-index" -> qualifier_of p root ws None
| q_registry u : pk_source p = Some ("registry+" ++ u)%string -> u <> "https://github.com/rust-lang/crates.io-index" ->
    qualifier_of p root ws (Some ("repository_url", u))
| q_sparse u : pk_source p = Some ("sparse+" ++ u)%string -> qualifier_of p root ws (Some ("repository_url", u))
| q_git u t : pk_source p = Some ("git+" ++ u)%string -> repository_at u t ->
    qualifier_of p root ws (Some ("vcs_url", "git+" ++ t)%string)
| q_other s : pk_source p = Some s -> (forall k, In k ["registry+"; "sparse+"; "git+"] -> starts_with k s = false) ->
    qualifier_of p root ws None
(** a path inside the workspace, named relative to the described package *)
| q_inside d rd f rf r : pk_source p = None -> pk_manifest p = d ++ [f] -> pk_manifest root = rd ++ [rf] ->
    (exists rest, d = ws ++ rest) -> leads rd d r ->
    qualifier_of p root ws (Some ("download_url", "file://" ++ (if String.eqb r "" then "." else r)))%string
| q_outside d f : pk_source p = None -> pk_manifest p = d ++ [f] -> ~ (exists rest, d = ws ++ rest) ->
    qualifier_of p root ws (Some ("download_url", "file:///" ++ join "/" d)%string).

Definition purl_of (w : world) (p root : package) (ws : path) (o : option string) : Prop :=
  exists q, qualifier_of p root ws q /\ o = w_purl w (pk_name p) (pk_version p) q None.

Lemma diff_leads d rd : leads rd d (rel_str (diff_paths d rd)).
Proof.
  assert (R : forall l, map (fun _ : string => "..") l = repeat ".." (List.length l)) by (induction l; cbn; congruence).
  assert (G : exists common up down, rd = common ++ up /\ d = common ++ down
     /\ (forall a up' b down', up = a :: up' -> down = b :: down' -> a <> b)
     /\ diff_paths d rd = repeat ".." (List.length up) ++ down).
  { revert rd. induction d as [|a d IH]; intros rd.
    - exists [], rd, []. cbn [diff_paths]. rewrite R. repeat split; auto. discriminate.
    - destruct rd as [|b rd]; [exists [], [], (a :: d); repeat split; auto; discriminate|].
      cbn [diff_paths]. destruct (String.eqb_spec a b) as [->|N].
      + destruct (IH rd) as (c & u & w & -> & -> & K & ->). exists (b :: c), u, w. auto.
      + exists [], (b :: rd), (a :: d). rewrite R. repeat split. intros ? ? ? ? [= <- _] [= <- _]. congruence. }
  destruct G as (c & u & w & A & B & K & ->). exact (lead _ _ c u w A B K).
Qed.
Lemma first_char c s : contains_char c s = true -> exists a b, s = (a ++ String c b)%string /\ contains_char c a = false.
Proof.
  induction s as [|x s IH]; [discriminate|]. cbn. destruct (Ascii.eqb_spec x c) as [->|N]; cbn [orb].
  - intros _. exists "", s. split; reflexivity.
  - intros H. destruct (IH H) as (a & b & -> & A). exists (String x a), b. split; [reflexivity|]. cbn.
    destruct (Ascii.eqb_spec x c); [congruence|exact A].
Qed.
Lemma split_joins c s : join (String c "") (split_char c s) = s /\ split_char c s <> []
  /\ Forall (fun t => contains_char c t = false /\ (contains_char "#" s = false -> contains_char "#" t = false)) (split_char c s).
Proof.
  induction s as [|x s (E & N & F)]; [cbn; repeat split; [discriminate|repeat constructor]|]. cbn [split_char].
  destruct (split_char c s) as [|p ps] eqn:S; [congruence|].
  destruct (Ascii.eqb_spec x c) as [->|D]; (split; [|split; [discriminate|]]).
  - change (join (String c "") ("" :: p :: ps)) with (String c (join (String c "") (p :: ps))). now rewrite E.
  - constructor; [split; reflexivity|]. revert F. apply Forall_impl. intros t [A B]. split; [exact A|].
    cbn. intros H. apply orb_false_iff in H as [_ H]. auto.
  - rewrite <- E. now destruct ps.
  - inversion F as [|? ? [A B] F']; subst. constructor.
    + cbn. destruct (Ascii.eqb_spec x c); [congruence|]. split; [exact A|]. intros H. apply orb_false_iff in H as [-> H]. auto.
    + revert F'. apply Forall_impl. intros t [A' B']. split; [exact A'|]. cbn. intros H. apply orb_false_iff in H as [_ H]. auto.
Qed.
Lemma first_asked l : Forall (fun s => ~ asks_for s) l
  \/ exists before k v after, l = before ++ [k ++ v]%string ++ after /\ In k ["branch="; "tag="; "rev="] /\ Forall (fun s => ~ asks_for s) before.
Proof.
  induction l as [|s l IH]; [now left|].
  assert (D : asks_for s \/ ~ asks_for s).
  { destruct (existsb (fun k => starts_with k s) ["branch="; "tag="; "rev="]) eqn:E.
    - left. apply existsb_exists in E as (k & K & S). apply starts_with_spec in S as [r ->]. now exists k, r.
    - right. intros (k & v & K & ->). assert (X : existsb (fun k' => starts_with k' (k ++ v)) ["branch="; "tag="; "rev="] = true); [|congruence].
      apply existsb_exists. exists k. split; [exact K|]. apply starts_with_spec. eauto. }
  destruct D as [(k & v & K & ->)|D]; [right; exists [], k, v, l; auto|].
  destruct IH as [F|(b & k & v & a & -> & K & F)]; [left; now constructor|].
  right. exists (s :: b), k, v, a. repeat split; auto.
Qed.
Lemma not_asking s : ~ asks_for s -> forall k, In k ["branch="; "tag="; "rev="] -> starts_with k s = false.
Proof.
  intros N k K. destruct (starts_with k s) eqn:E; auto. exfalso. apply starts_with_spec in E as [r ->]. apply N. now exists k, r.
Qed.
Lemma not_asking_all l : Forall (fun s => ~ asks_for s) l ->
  Forall (fun s => forall k, In k ["branch="; "tag="; "rev="] -> starts_with k s = false) l.
Proof. apply Forall_impl. exact not_asking. Qed.
Lemma repository_ok u t : source_to_vcs_url ("git+" ++ u) = Done t -> exists t', t = ("git+" ++ t')%string /\ repository_at u t'.
Proof.
  intros H.
  assert (L : forall t', source_to_vcs_url ("git+" ++ u) = Done ("git+" ++ t')%string -> repository_at u t' ->
     exists t', t = ("git+" ++ t')%string /\ repository_at u t').
  { intros t' E R. exists t'. split; [congruence|exact R]. }
  assert (O : forall a b, u = (a ++ String "#" b)%string -> clean a -> ~ clean b -> exists t', t = ("git+" ++ t')%string /\ repository_at u t').
  { intros a b -> A B. assert (G : exists t', t = ("git+" ++ t')%string).
    { revert H. generalize (a ++ String "#" b)%string as u. clear. intros u. unfold source_to_vcs_url. cbn. replace (prefix "" u) with true by now destruct u.
      destruct (find_char "?" u), (find_char "#" u); cbn; intros E; injection E; intros K; rewrite <- K; eexists; reflexivity. }
    destruct G as [t' ->]. exists t'. split; [reflexivity|]. now apply (r_odd a b). }
  destruct (contains_char "?" u) eqn:Q.
  - destruct (first_char _ _ Q) as (a & r & E & A). destruct (contains_char "#" a) eqn:HA.
    + destruct (first_char _ _ HA) as (a1 & a2 & E1 & A1). apply (O a1 (a2 ++ String "?" r)%string).
      * rewrite E, E1, append_assoc. reflexivity.
      * split; [|exact A1]. rewrite E1, contains_char_app in A. now apply orb_false_iff in A as [A _].
      * intros [N _]. rewrite contains_char_app in N. cbn in N. rewrite orb_true_r in N. discriminate.
    + destruct (contains_char "#" r) eqn:HR.
      * destruct (first_char _ _ HR) as (q & c & -> & C). subst u. apply (L (a ++ "@" ++ c)%string).
        { now apply GenProofs6.vcs_query_commit. }
        { now apply (r_query_commit a q c). }
      * destruct (split_joins "&" r) as (J & N & F).
        assert (F' : Forall (fun s => contains_char "#" s = false /\ contains_char "&" s = false) (split_char "&" r)).
        { revert F. apply Forall_impl. tauto. }
        clear F. revert J N F'. generalize (split_char "&" r) as l. intros l <- N F.
        destruct (first_asked l) as [K|(b & k & v & z & -> & K & B)]; subst u.
        { apply (L (a ++ "@" ++ join "&" l)%string).
          - apply (vcs_query_none a l); auto using not_asking_all.
          - apply (r_query a l); auto. now split. }
        { apply (L (a ++ "@" ++ v)%string).
          - apply (vcs_query_first a b k v z); auto using not_asking_all.
          - apply (r_asked a b k v z); auto. now split. }
  - destruct (contains_char "#" u) eqn:HU.
    + destruct (first_char _ _ HU) as (a & c & E & A). rewrite E, contains_char_app in Q. apply orb_false_iff in Q as [Q1 Q2]. cbn in Q2.
      destruct (contains_char "#" c) eqn:HC; [apply (O a c E); [now split|intros [_ N]; congruence]|].
      subst u. apply (L (a ++ "@" ++ c)%string); [now apply GenProofs6.vcs_commit|]. apply r_commit; now split.
    + apply (L u); [now apply GenProofs6.vcs_plain|]. apply r_plain. now split.
Qed.
Lemma strip_prefix_iff pre p rest : path_strip_prefix pre p = Some rest <-> p = pre ++ rest.
Proof.
  revert p; induction pre as [|a pre IH]; intros p; cbn.
  - split; [intros [= <-]; reflexivity|now intros ->].
  - destruct p as [|b p]; [split; discriminate|]. destruct (String.eqb_spec a b) as [->|N].
    + rewrite IH. split; [now intros ->|now intros [= ->]].
    + split; [discriminate|]. intros [= E _]. congruence.
Qed.
Lemma starts_with_iff p pre : path_starts_with p pre = true <-> exists rest, p = pre ++ rest.
Proof.
  unfold path_starts_with. destruct (path_strip_prefix pre p) as [r|] eqn:E.
  - apply strip_prefix_iff in E. split; eauto.
  - split; [discriminate|]. intros [r Hr]. apply strip_prefix_iff in Hr. congruence.
Qed.
Lemma parent_iff p d : parent p = Some d <-> exists f, p = d ++ [f].
Proof.
  destruct p as [|a p]; cbn [parent].
  - split; [discriminate|]. intros [f H]. symmetry in H. now apply app_eq_nil in H as [_ H].
  - split.
    + intros [= <-]. exists (last (a :: p) ""). now apply app_removelast_last.
    + intros [f ->]. now rewrite removelast_app, app_nil_r by discriminate.
Qed.
Lemma purl_qualifier_ok p root ws q : purl_qualifier p root ws = Done q -> qualifier_of p root ws q.
Proof.
  unfold purl_qualifier. destruct (pk_source p) as [s|] eqn:Es.
  - unfold is_crates_io. destruct (String.eqb_spec s "registry+https://github.com/rust-lang/crates.io-index") as [->|N].
    + intros [= <-]. now apply q_crates_io.
    + assert (Split : forall k, In k ["registry"; "sparse"; "git"] -> starts_with (k ++ "+") s = true ->
         exists r, split_once "+" s = Some (k, r)).
      { intros k Hk Hs. apply starts_with_spec in Hs as [r ->]. exists r.
        repeat (destruct Hk as [<-|Hk]; [reflexivity|]). destruct Hk. }
      assert (Other : (forall k r, In k ["registry"; "sparse"; "git"] -> split_once "+" s <> Some (k, r)) ->
         qualifier_of p root ws None).
      { intros H. eapply q_other; eauto. intros k Hk. destruct (starts_with k s) eqn:E; auto. exfalso.
        repeat (destruct Hk as [<-|Hk]; [match type of E with starts_with ?t _ = _ =>
          destruct (Split (String.substring 0 (String.length t - 1) t)) as [r Hr]; [cbn; tauto|exact E|];
          eapply H; [|exact Hr]; cbn; tauto end|]). destruct Hk. }
      destruct (split_once "+" s) as [[k u]|] eqn:E.
      * pose proof E as E'. apply split_once_spec in E' as [Hs _]. 
        destruct (String.eqb_spec k "git") as [->|N1].
        { intros H. inv_bind H. injection H as <-. subst s. destruct (repository_ok _ _ Hv) as (t & -> & R).
          eapply q_git; [exact Es|exact R]. }
        destruct (String.eqb_spec k "registry") as [->|N2]; cbn [orb].
        { intros [= <-]. subst s. apply q_registry; [exact Es|]. intros ->. now apply N. }
        destruct (String.eqb_spec k "sparse") as [->|N3].
        { intros [= <-]. subst s. apply q_sparse. exact Es. }
        intros [= <-]. apply Other. intros k' r Hk [= -> ->]. cbn in Hk. intuition congruence.
      * intros [= <-]. apply Other. discriminate.
  - intros H. inv_bind H. destruct (parent (pk_manifest p)) as [d|] eqn:Ed; [|discriminate]. injection Hv as <-.
    apply parent_iff in Ed as [f Ed]. destruct (path_starts_with d ws) eqn:Ew.
    + inv_bind H. destruct (parent (pk_manifest root)) as [rd|] eqn:Er; [|discriminate]. injection Hv as <-.
      apply parent_iff in Er as [rf Er]. injection H as <-. eapply q_inside; eauto using diff_leads. now apply starts_with_iff.
    + injection H as <-. eapply q_outside; eauto. intros H. apply starts_with_iff in H. congruence.
Qed.

Theorem C51_package_urls w fuel meta nodes cfg m g :
  well_formed meta nodes -> sbom_of w fuel meta cfg m g ->
  exists root, In root (cm_packages meta) /\ pk_id root = m
  /\ (forall c, main_component (g_bom g) = Some c -> purl_of w root root (cm_workspace_root meta) (c_purl c))
  /\ forall c, In c (component_list (g_bom g)) -> exists p,
       In p (cm_packages meta) /\ c_bom_ref c = Some (pk_id p) /\ purl_of w p root (cm_workspace_root meta) (c_purl c).
Proof.
  intros wf H. apply (sbom_of_ok _ _ _ nodes) in H; auto. destruct H as [H Hm].
  apply GenProofs3.create_sbom_inv in H as (kinds & ps & ns & rp & comps & md & tk & Hk & Hsel & Hin & Hid & Hc & Hmd & _ & _ & _ & _ & Eb & Ec & _ & Eg); auto.
  exists rp. split; auto. split; auto.
  assert (P : forall p h k c, create_component w cfg (cm_workspace_root meta) h p rp k = Done c ->
     purl_of w p rp (cm_workspace_root meta) (c_purl c) /\ c_bom_ref c = Some (pk_id p)).
  { intros p h k c H. unfold create_component in H. inv_bind H. injection H as <-. split; [|reflexivity].
    unfold get_purl in Hv. inv_bind Hv. injection Hv as <-. exists v0. split; [now apply purl_qualifier_ok|reflexivity]. }
  split.
  - intros c Hmc. unfold main_component in Hmc. rewrite Eb in Hmc.
    unfold create_metadata in Hmd. inv_bind Hmd. inv_bind Hmd. inv_bind Hmd. injection Hmd as <- _.
    cbn in Hmc. injection Hmc as <-. unfold create_toplevel_component in Hv0. inv_bind Hv0. inv_bind Hv0. inv_bind Hv0.
    injection Hv0 as <-. cbn. eapply P; eauto.
  - intros c Hcin. unfold component_list in Hcin. rewrite Ec in Hcin.
    assert (exists p, In p (filter (fun p => negb (pk_id p =? m)%string) (map snd ps)) /\
       create_component w cfg (cm_workspace_root meta) (crate_hashes w (pk_manifest rp)) p rp kinds = Done c) as (p & Hp & E).
    { clear -Hc Hcin. induction Hc as [|p y l l' E _ IH]; [destruct Hcin|]. destruct Hcin as [->|Hc'].
      - exists p. split; auto. now left.
      - destruct (IH Hc') as (p' & A & B). exists p'. split; auto. now right. }
    apply filter_In in Hp as [Hp _]. apply in_map_iff in Hp as ([k p'] & Ep & Hp). cbn in Ep; subst p'.
    apply bm_In_get in Hp; [|apply Hsel]. apply (GenProofs3.sel_ps _ _ _ _ _ _ Hsel) in Hp as (_ & P1 & _).
    exists p. split; auto. destruct (P _ _ _ _ E). auto.
Qed.
Example C51_example : exists c, In c (component_list (g_bom ex_gen)) /\ c_purl c = Some "pkg:cargo/liba@1.0.0".
Proof. eexists. split; [vm_compute; left; reflexivity|reflexivity]. Qed.
(** a package beside the one described, and one above it *)
Example C51_leads_example :
  leads ["home"; "ws"; "app"] ["home"; "ws"; "lib"] "../lib" /\ leads ["home"; "ws"; "app"] ["home"; "ws"] ".."
  /\ ~ leads ["home"; "ws"; "app"] ["home"; "ws"] "".
Proof.
  split; [|split].
  - apply (lead _ _ ["home"; "ws"] ["app"] ["lib"]); auto. intros ? ? ? ? [= <- _] [= <- _]. discriminate.
  - apply (lead _ _ ["home"; "ws"] ["app"] []); auto. discriminate.
  - intros L. inversion L as [c u w A B K E].
    assert (N : u <> []).
    { intros ->. rewrite app_nil_r in A. subst c. discriminate B. }
    destruct u as [|x u]; [now apply N|]. cbn in E. destruct (repeat ".." (List.length u) ++ w); discriminate E.
Qed.
Print Assumptions C51_package_urls.

(** Moving the workspace to another directory changes the package URL of no
    package that has a source or lives in the workspace. *)
Definition relocated (a b : path) (p q : package) : Prop :=
  pk_name q = pk_name p /\ pk_version q = pk_version p /\ pk_source q = pk_source p
  /\ exists rel, rel <> [] /\ pk_manifest p = a ++ rel /\ pk_manifest q = b ++ rel.
Lemma diff_paths_app a p q : diff_paths (a ++ p) (a ++ q) = diff_paths p q.
Proof. induction a as [|x a IH]; [reflexivity|]. cbn [app diff_paths]. now rewrite String.eqb_refl. Qed.
Lemma parent_app a rel : rel <> [] -> parent (a ++ rel) = Some (a ++ removelast rel).
Proof. intros H. destruct (a ++ rel) as [|y l] eqn:E; [apply app_eq_nil in E; tauto|]. cbn [parent]. rewrite <- E. now rewrite removelast_app. Qed.
Lemma starts_app a p q : path_starts_with (a ++ p) (a ++ q) = path_starts_with p q.
Proof. unfold path_starts_with. induction a as [|x a IH]; [reflexivity|]. cbn. now rewrite String.eqb_refl. Qed.
Theorem C51_location_independent w a b ws p p' root root' sub :
  relocated a b p p' -> relocated a b root root' ->
  (pk_source p <> None \/ exists rest f, pk_manifest p = (a ++ ws ++ rest) ++ [f]) ->
  get_purl w p' root' (b ++ ws) sub = get_purl w p root (a ++ ws) sub.
Proof.
  intros (N & V & S & rel & R0 & R1 & R2) (_ & _ & _ & rrel & Q0 & Q1 & Q2) H.
  unfold get_purl. rewrite N, V. f_equal. unfold purl_qualifier. rewrite S. destruct (pk_source p) as [s|]; [reflexivity|].
  destruct H as [H|(rest & f & H)]; [congruence|].
  rewrite R1 in H. rewrite R1, R2, Q1, Q2, !parent_app by auto. cbn [bind unwrap].
  rewrite !starts_app. assert (path_starts_with (removelast rel) ws = true) as ->.
  { apply starts_with_iff. exists rest. rewrite <- app_assoc in H. apply app_inv_head in H. rewrite H.
    now rewrite removelast_app, app_nil_r by discriminate. }
  cbn [bind unwrap]. now rewrite !diff_paths_app.
Qed.
Example C51_location_example :
  let p d := ex_pkg "id" "lib" "1.0.0" None (d ++ ["ws"; "lib"]) [] in
  let r d := ex_pkg "rid" "app" "1.0.0" None (d ++ ["ws"; "app"]) [] in
  relocated ["home"; "me"] ["ci"] (p ["home"; "me"]) (p ["ci"]) /\ relocated ["home"; "me"] ["ci"] (r ["home"; "me"]) (r ["ci"])
  /\ purl_qualifier (p ["ci"]) (r ["ci"]) ["ci"; "ws"] = Done (Some ("download_url", "file://../lib")).
Proof.
  cbn zeta. split; [|split].
  - repeat (split; [reflexivity|]). exists ["ws"; "lib"; "Cargo.toml"]. repeat split. discriminate.
  - repeat (split; [reflexivity|]). exists ["ws"; "app"; "Cargo.toml"]. repeat split. discriminate.
  - vm_compute. reflexivity.
Qed.
Print Assumptions C51_location_independent.

(** From the per-member lemmas to statements about [sbom_of]; file names, authors, vcs. *)
From Verif Require Import Base Strings Base64 ModelTypes ConfigModel GenModel GenSpec
  GenProofs GenProofs2 GenProofs3 GenProofs4 GenProofs5 GenProofs6 GenProofs7.
From Coq Require Import NArith ZArith.
Open Scope string_scope.
Open Scope list_scope.

Lemma combine_Forall2 {A B} (P : A -> B -> Prop) l r a b : Forall2 P l r -> In (a, b) (combine l r) -> P a b.
Proof. induction 1; cbn; [tauto|]. intros [E|H']; auto. injection E as <- <-. auto. Qed.

Lemma sbom_of_ok w fuel meta nodes cfg m g : well_formed meta nodes ->
  sbom_of w fuel meta cfg m g -> sbom_ok w fuel meta nodes cfg (cm_workspace_root meta) m g.
Proof.
  intros wf (gs & E & Hin). exact (combine_Forall2 _ _ _ _ _ (create_sboms_forall _ _ _ _ _ _ (wf_resolve _ _ wf) E) Hin).
Qed.

Lemma reach_runtime nodes m id : reach nodes true m id -> runtime_dep nodes m id.
Proof.
  induction 1 as [p|p q r _ (ks & W & F) (k & E & K)]; [exists []; split; constructor|].
  exists (ks ++ [k]). split; [now apply walk_step with q|]. apply Forall_app. split; auto.
Qed.
Lemma walk_reach_normal nodes m ks id : walk nodes m ks id -> Forall (fun k => k = KNormal) ks -> reach nodes true m id.
Proof.
  induction 1 as [p|p ks q k r W IH E]; intros F; [constructor|].
  apply Forall_app in F as [F1 F2]. inversion F2; subst. apply reach_step with q; auto. exists KNormal. split; auto. reflexivity.
Qed.

Lemma no_slash_app a b : no_slash a -> no_slash b -> no_slash (a ++ b).
Proof. unfold no_slash. intros H1 H2. now rewrite contains_char_app, H1, H2. Qed.
Lemma contains_crlf c s : c <> " "%char -> contains_char c s = false -> contains_char c (replace_crlf s) = false.
Proof.
  intros Hc. assert (H : forall n s, String.length s <= n -> contains_char c s = false -> contains_char c (replace_crlf s) = false).
  { induction n as [|n IH]; intros [|a [|b t]] Hl Hs; cbn [String.length] in Hl; try lia; auto.
    cbn [replace_crlf]. destruct (Ascii.eqb a CR && Ascii.eqb b LF) eqn:E.
    - cbn [contains_char] in *. apply orb_false_iff in Hs as [_ Hs]. apply orb_false_iff in Hs as [_ Hs].
      rewrite IH; auto; try lia. destruct (Ascii.eqb_spec " " c); [congruence|reflexivity].
    - change (contains_char c (String a (replace_crlf (String b t))) = false).
      cbn [contains_char] in Hs |- *. apply orb_false_iff in Hs as [H1 Hs]. rewrite H1. cbn [orb]. apply IH; auto. cbn [String.length]. lia. }
  intros Hs. now apply (H (String.length s)).
Qed.
Lemma contains_ctl c s : c <> " "%char -> contains_char c s = false -> contains_char c (replace_ctl s) = false.
Proof.
  intros Hc. induction s as [|a s IH]; auto. cbn. intros H. apply orb_false_iff in H as [H1 H2]. rewrite IH by auto.
  destruct (is_newline_tab a); [|now rewrite H1]. destruct (Ascii.eqb_spec " " c); [congruence|reflexivity].
Qed.
Lemma no_slash_normalize s : no_slash s -> no_slash (normalize s).
Proof. unfold no_slash. intros H. apply contains_ctl; [discriminate|]. apply contains_crlf; [discriminate|auto]. Qed.
Lemma no_slash_join sep l : no_slash sep -> (forall s, In s l -> no_slash s) -> no_slash (join sep l).
Proof. apply join_contains. Qed.
Lemma no_slash_platform cfg : plain_target cfg -> no_slash (platform_part cfg).
Proof.
  unfold plain_target, platform_part. destruct (cf_output cfg) as [[pat []]|]; try reflexivity.
  destruct (cf_target cfg) as [[|t]|]; try reflexivity. intros H. now apply no_slash_app.
Qed.
Lemma no_slash_ext f : no_slash (extension f).
Proof. destruct f; reflexivity. Qed.

(** The configuration that comes from the command line. *)
Lemma resolved_target a env host cfg : resolve_config a env host = Done cfg ->
  cf_target cfg = Some match env with
                       | Some e => SingleTarget e
                       | None => match a_target a with
                                 | Some t => if String.eqb t "all" then AllTargets else SingleTarget t
                                 | None => SingleTarget host
                                 end
                       end.
Proof.
  unfold resolve_config. intros H. inv_bind H. injection H as <-. unfold as_config in Hv. inv_bind Hv. injection Hv as <-. rename v0 into x.
  destruct env as [e|]; cbn; [reflexivity|]. destruct (a_target a) as [t|]; cbn; [|reflexivity]. now destruct (String.eqb t "all").
Qed.
Lemma resolved_describe a env host cfg : resolve_config a env host = Done cfg -> cf_describe cfg = a_describe a.
Proof.
  unfold resolve_config. intros H. inv_bind H. injection H as <-. unfold as_config in Hv. inv_bind Hv. injection Hv as <-. rename v0 into x.
  destruct env as [e|]; cbn; [reflexivity|]. destruct (a_target a) as [t|]; cbn; [|reflexivity]. now destruct (String.eqb t "all").
Qed.
Lemma resolved_output a env host cfg : resolve_config a env host = Done cfg ->
  custom_name cfg = a_filename_override a /\ (forall n, custom_name cfg = Some n -> no_slash n).
Proof.
  unfold resolve_config. intros H. inv_bind H. injection H as <-. unfold as_config in Hv. inv_bind Hv. injection Hv as <-. rename v0 into x.
  assert (X : (match x with CrateName => None | Custom n => Some n end) = a_filename_override a /\
              forall n, x = Custom n -> no_slash n).
  { destruct (a_filename_override a) as [s|].
    - inv_bind Hv0. injection Hv0 as <-. unfold filename_override in Hv. destruct (contains_char "/" s) eqn:C; [discriminate|].
      injection Hv as <-. split; auto. intros n [= <-]. exact C.
    - injection Hv0 as <-. split; auto. intros n Hn; discriminate Hn. }
  destruct X as [X1 X2].
  assert (Y : forall c, cf_output c = Some (mkOut x (if a_target_in_filename a then Included else NotIncluded)) ->
     custom_name c = a_filename_override a /\ (forall n, custom_name c = Some n -> no_slash n)).
  { intros c Hc. unfold custom_name. rewrite Hc. split; auto. destruct x; [discriminate|]. intros n [= <-]. auto. }
  apply Y. destruct env as [e|]; cbn; [reflexivity|]. destruct (a_target a) as [t|]; cbn; [|reflexivity].
  destruct (String.eqb t "all"); reflexivity.
Qed.

Lemma files_spec w fuel meta nodes cfg a env host m g :
  well_formed meta nodes -> clap_accepts a -> resolve_config a env host = Done cfg ->
  sbom_of w fuel meta cfg m g -> distinct_targets meta ->
  exists p files, In p (cm_packages meta) /\ pk_id p = m /\ write_plan g = Done files
    /\ NoDup (map f_path files)
    /\ (describe_of cfg = DCrate -> exists f, files = [f] /\ f_bom f = g_bom g)
    /\ forall f, In f files ->
         f_format f = chosen_format cfg
         /\ f_version f = match cf_spec cfg with Some v => v | None => V1_3 end
         /\ exists stem, f_path f = removelast (pk_manifest p) ++ [(stem ++ extension (chosen_format cfg))%string]
              /\ (plain_names meta -> plain_target cfg -> no_slash (stem ++ extension (chosen_format cfg))).
Proof.
  intros wf [Hclap _] Hr Hof Hd. apply (sbom_of_ok _ _ _ nodes) in Hof; auto.
  assert (Ht : cf_target cfg <> None) by (rewrite (resolved_target _ _ _ _ Hr); discriminate).
  destruct (resolved_output _ _ _ _ Hr) as [Hcn Hns]. pose proof (resolved_describe _ _ _ _ Hr) as Hde.
  assert (Case : describe_of cfg = DCrate \/ describe_of cfg <> DCrate) by (destruct (describe_of cfg); auto; right; discriminate).
  destruct Case as [Hc|Hc].
  - destruct (crate_plan _ _ _ _ _ _ wf _ _ Hof Hc Ht) as (p & Hp & Hid & Hw).
    exists p. eexists. split; [exact Hp|]. split; [exact Hid|]. split; [exact Hw|].
    split; [repeat constructor; auto|]. split; [intros _; eexists; split; reflexivity|].
    intros f [<-|[]]. cbn [f_format f_version f_path]. split; [reflexivity|]. split; [reflexivity|].
    unfold crate_file_name. destruct (custom_name cfg) as [n|] eqn:En.
    + exists (n ++ platform_part cfg ++ (if suffix_requested cfg then ".cdx" else ""))%string.
      rewrite !append_assoc. split; [reflexivity|]. intros Pn Pt.
      repeat apply no_slash_app; auto using no_slash_platform, no_slash_ext. destruct (suffix_requested cfg); reflexivity.
    + exists (pk_name p ++ platform_part cfg ++ ".cdx")%string. rewrite !append_assoc. split; [reflexivity|]. intros Pn Pt.
      repeat apply no_slash_app; auto using no_slash_platform, no_slash_ext; [apply (Pn p Hp)|reflexivity].
  - assert (En : custom_name cfg = None).
    { rewrite Hcn. destruct Hclap as [H|H]; auto. exfalso. apply Hc. unfold describe_of. now rewrite Hde, H. }
    destruct (artifact_plan _ _ _ _ _ _ wf _ _ Hof Hc Ht En) as (p & sel & files & Hp & Hid & S & Hw & F).
    exists p, files. repeat (split; [assumption|]).
    split; [eapply artifact_paths_distinct; eauto|]. split; [congruence|].
    intros f Hf.
    assert (exists t, In t sel /\ f_path f = removelast (pk_manifest p) ++ [artifact_name cfg t] /\ f_format f = chosen_format cfg
        /\ f_version f = match cf_spec cfg with Some v => v | None => V1_3 end) as (t & Hts & P1 & P2 & P3).
    { clear -F Hf. induction F as [|t f0 sel files H F IH]; [destruct Hf|]. destruct Hf as [->|Hf].
      - exists t. split; [now left|]. tauto.
      - destruct (IH Hf) as (t' & X & Y). exists t'. split; auto. now right. }
    split; [exact P2|]. split; [exact P3|].
    exists (normalize (tg_name t) ++ "_" ++ join "-" (tg_kind t) ++ platform_part cfg ++ ".cdx")%string.
    rewrite !append_assoc. split; [exact P1|]. intros Pn Pt. apply (sublist_In _ _ _ S) in Hts as [Hts _].
    destruct (Pn p Hp) as [_ Hn]. destruct (Hn t Hts) as [N1 N2].
    repeat apply no_slash_app; auto using no_slash_platform, no_slash_ext, no_slash_normalize; try reflexivity.
    now apply no_slash_join.
Qed.

(** *** C17: a single branch, tag or revision in the query *)
Lemma split_char_single c s : contains_char c s = false -> split_char c s = [s].
Proof.
  induction s as [|a s IH]; auto. cbn. intros H. apply orb_false_iff in H as [H1 H2]. rewrite H1, (IH H2). reflexivity.
Qed.
Lemma vcs_query_ref url k v : contains_char "?" url = false -> contains_char "#" url = false ->
  In k ["branch"; "tag"; "rev"] -> contains_char "#" v = false -> contains_char "&" v = false ->
  source_to_vcs_url ("git+" ++ url ++ "?" ++ k ++ "=" ++ v) = Done ("git+" ++ url ++ "@" ++ v)%string.
Proof.
  intros H1 H2 Hk Hv1 Hv2. rewrite vcs_query; auto.
  - rewrite split_char_single.
    + destruct Hk as [<-|[<-|[<-|[]]]]; reflexivity.
    + rewrite !contains_char_app, Hv2. destruct Hk as [<-|[<-|[<-|[]]]]; reflexivity.
  - rewrite !contains_char_app, Hv1. destruct Hk as [<-|[<-|[<-|[]]]]; reflexivity.
Qed.

(** *** C17: several parameters in the query *)
Lemma split_char_app c a b : contains_char c a = false ->
  split_char c (a ++ String c b) = a :: split_char c b.
Proof.
  induction a as [|x a IH]; cbn; [now rewrite Ascii.eqb_refl|]. intros H. apply orb_false_iff in H as [H1 H2].
  now rewrite H1, (IH H2).
Qed.
Lemma split_char_join c l : l <> [] -> Forall (fun s => contains_char c s = false) l ->
  split_char c (join (String c "") l) = l.
Proof.
  intros N F. induction F as [|s l H F IH]; [congruence|]. destruct l as [|t l]; [now apply split_char_single|].
  change (join (String c "") (s :: t :: l)) with (s ++ String c (join (String c "") (t :: l)))%string.
  rewrite split_char_app by exact H. now rewrite IH.
Qed.
Lemma ref_value_skips l r : Forall (fun s => forall k, In k ["branch="; "tag="; "rev="] -> starts_with k s = false) l ->
  ref_value (l ++ r) = ref_value r.
Proof.
  assert (S : forall k s, starts_with k s = false -> strip_prefix k s = None).
  { intros k s H. destruct (strip_prefix k s) as [t|] eqn:E; auto. apply strip_prefix_spec in E.
    assert (starts_with k s = true) by (apply starts_with_spec; eauto). congruence. }
  induction 1 as [|s l H F IH]; [reflexivity|]. cbn [app ref_value].
  rewrite !S by (apply H; cbn; tauto). exact IH.
Qed.
Lemma no_hash_join l : Forall (fun s => contains_char "#" s = false) l -> contains_char "#" (join "&" l) = false.
Proof.
  induction 1 as [|s l H F IH]; [reflexivity|]. destruct l as [|t l]; [exact H|].
  change (join "&" (s :: t :: l)) with (s ++ "&" ++ join "&" (t :: l))%string. now rewrite !contains_char_app, H, IH.
Qed.
Lemma vcs_query_first url before k v after : contains_char "?" url = false -> contains_char "#" url = false ->
  In k ["branch="; "tag="; "rev="] ->
  Forall (fun s => contains_char "#" s = false /\ contains_char "&" s = false) (before ++ [k ++ v]%string ++ after) ->
  Forall (fun s => forall k, In k ["branch="; "tag="; "rev="] -> starts_with k s = false) before ->
  source_to_vcs_url ("git+" ++ url ++ "?" ++ join "&" (before ++ [k ++ v]%string ++ after)) = Done ("git+" ++ url ++ "@" ++ v)%string.
Proof.
  intros H1 H2 Hk F B. rewrite vcs_query; auto.
  - rewrite split_char_join; [|now destruct before|revert F; apply Forall_impl; tauto].
    rewrite ref_value_skips by exact B. cbn [app]. destruct Hk as [<-|[<-|[<-|[]]]]; reflexivity.
  - apply no_hash_join. revert F. apply Forall_impl. tauto.
Qed.
Lemma vcs_query_none url params : contains_char "?" url = false -> contains_char "#" url = false -> params <> [] ->
  Forall (fun s => contains_char "#" s = false /\ contains_char "&" s = false) params ->
  Forall (fun s => forall k, In k ["branch="; "tag="; "rev="] -> starts_with k s = false) params ->
  source_to_vcs_url ("git+" ++ url ++ "?" ++ join "&" params) = Done ("git+" ++ url ++ "@" ++ join "&" params)%string.
Proof.
  intros H1 H2 N F B. rewrite vcs_query; auto.
  - rewrite split_char_join; [|exact N|revert F; apply Forall_impl; tauto].
    rewrite <- (app_nil_r params) at 1. now rewrite ref_value_skips by exact B.
  - apply no_hash_join. revert F. apply Forall_impl. tauto.
Qed.

(** *** C18 *)
Lemma author_dec s : (exists n e, author_shape s n e) \/ ~ (exists n e, author_shape s n e).
Proof.
  destruct (author_captures s) as [[n e]|] eqn:E.
  - left. exists n, e. now apply author_captures_sound.
  - right. intros (n & e & H). apply author_captures_complete in H. congruence.
Qed.
Lemma parse_author_email w s name email : author_shape s name (Some email) ->
  parse_author w s = if w_email_ok w email
    then Some (mkContact None (Some (normalize (trim name))) (Some (normalize email)) None) else None.
Proof. intros H. unfold parse_author. rewrite (author_captures_complete _ _ _ H). reflexivity. Qed.
Lemma parse_author_name w s name : author_shape s name None ->
  parse_author w s = Some (mkContact None (Some (normalize (trim name))) None None).
Proof. intros H. unfold parse_author. rewrite (author_captures_complete _ _ _ H). reflexivity. Qed.
Lemma parse_author_other w s : ~ (exists n e, author_shape s n e) ->
  parse_author w s = Some (mkContact None (Some (normalize s)) None None).
Proof.
  intros H. unfold parse_author. destruct (author_captures s) as [[n e]|] eqn:E; [|reflexivity].
  apply author_captures_sound in E. destruct H. eauto.
Qed.

(** *** C19 *)
Lemma external_refs_spec w p :
  match get_external_references w p with
  | None => declared_links w p = []
  | Some l => l <> [] /\ map (fun r => (er_type r, uri_text (er_url r))) l = declared_links w p
      /\ Forall (fun r => er_comment r = None /\ er_hashes r = None) l
  end.
Proof.
  assert (H : forall l, map (fun r => (er_type r, uri_text (er_url r))) l = declared_links w p ->
     Forall (fun r => er_comment r = None /\ er_hashes r = None) l ->
    match match l with [] => None | _ => Some l end with
    | None => declared_links w p = []
    | Some l => l <> [] /\ map (fun r => (er_type r, uri_text (er_url r))) l = declared_links w p
        /\ Forall (fun r => er_comment r = None /\ er_hashes r = None) l
    end).
  { intros [|a l] E F; auto. split; auto. discriminate. }
  unfold get_external_references. apply H; clear H.
  - unfold declared_links. cbn [flat_map fst snd]. rewrite !map_app, app_nil_r.
    assert (O : forall t o, map (fun r => (er_type r, uri_text (er_url r))) (opt_ref w t o)
       = match o with Some s => if w_uri_ok w s then [(t, s)] else [] | None => [] end).
    { intros t [s|]; auto. cbn. destruct (w_uri_ok w s); auto. cbn. unfold uri_of. destruct (starts_with "urn:cdx" s); reflexivity. }
    now rewrite !O.
  - assert (O : forall t o, Forall (fun r => er_comment r = None /\ er_hashes r = None) (opt_ref w t o)).
    { intros t [s|]; cbn; auto. destruct (w_uri_ok w s); auto. }
    repeat (apply Forall_app; split; auto).
Qed.

(** *** C20 *)
Lemma map_fst_combine {A B} (l : list A) (r : list B) : List.length l = List.length r -> map fst (combine l r) = l.
Proof. revert r; induction l as [|a l IH]; intros [|b r]; cbn; intros H; try discriminate; auto. rewrite IH; auto. Qed.
Lemma targets_spec w fuel meta nodes cfg m g : well_formed meta nodes -> sbom_of w fuel meta cfg m g ->
  exists c subs refs, main_component (g_bom g) = Some c /\ c_bom_ref c = Some m /\ c_components c = Some subs
    /\ map c_bom_ref subs = map Some refs /\ NoDup refs /\ ~ In m refs
    /\ (forall r, In r refs -> exists t, bm_get r (g_target_kinds g) = Some (tg_kind t) /\ described_target t
          /\ exists p, In p (cm_packages meta) /\ pk_id p = m /\ In t (pk_targets p)).
Proof.
  intros wf Hof. apply (sbom_of_ok _ _ _ nodes) in Hof; auto.
  destruct (sbom_main _ _ _ _ _ _ wf _ _ Hof) as (rp & c & subs & sel & md & A & B & M1 & M2 & R & C & S & G1 & G2 & G3 & Refs & K & F).
  exists c, subs, (map (sub_ref m) (seq 0 (List.length sel))).
  unfold main_component. rewrite M1. repeat (split; [assumption|]).
  split; [apply sub_refs_nodup|]. split.
  - intros Hin. apply in_map_iff in Hin as (i & E & _). now apply sub_ref_neq in E.
  - intros r Hin. rewrite K.
    assert (exists t, In (r, tg_kind t) (combine (map (sub_ref m) (seq 0 (List.length sel))) (map tg_kind sel)) /\ In t sel) as (t & Ht & Hs).
    { clear -Hin. revert Hin. generalize 0. induction sel as [|t sel IH]; cbn; [tauto|]. intros n [<-|H].
      - exists t. split; left; reflexivity.
      - destruct (IH (S n) H) as (t' & X & Y). exists t'. split; right; auto. }
    exists t. split.
    + rewrite bm_of_list_get. apply assoc_last_unique; auto.
      rewrite map_fst_combine by (now rewrite !map_length, seq_length). apply sub_refs_nodup.
    + apply (sublist_In _ _ _ S) in Hs as [Hs Hd]. split; auto. exists rp. auto.
Qed.

Lemma prefix_length_eq (d d' p : path) : is_prefix d p -> is_prefix d' p -> List.length d = List.length d' -> d = d'.
Proof.
  intros [r ->] [r' E]. revert d' E; induction d as [|a d IH]; intros [|b d'] E L; cbn in *; try discriminate; auto.
  injection E as <- E. f_equal. apply IH; auto.
Qed.
Lemma nearest_lock_unique ex p f f' : nearest_lock ex p f -> nearest_lock ex p f' -> f = f'.
Proof.
  intros (d & P & -> & X & M) (d' & P' & -> & X' & M').
  destruct (Nat.lt_trichotomy (List.length d) (List.length d')) as [L|[L|L]].
  - rewrite (M d' P' L) in X'. discriminate.
  - now rewrite (prefix_length_eq d d' p P P' L).
  - rewrite (M' d P L) in X. discriminate.
Qed.

Lemma feature_list_id l :
  (forall f, In f l -> f <> "" /\ contains_char "," f = false /\ contains_char " " f = false) -> feature_list l = l.
Proof.
  induction l as [|f l IH]; intros H; [reflexivity|]. unfold feature_list in *. cbn [flat_map].
  rewrite IH by (intros; apply H; now right). destruct (H f (or_introl eq_refl)) as (N & A & B).
  rewrite (split_char_single "," f A). cbn [flat_map]. rewrite (split_char_single " " f B). cbn [filter].
  unfold is_nonempty. rewrite (proj2 (String.eqb_neq f "") N). reflexivity.
Qed.

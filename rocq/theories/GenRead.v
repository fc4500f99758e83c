(** Generated SBOMs, written and read again: proofs for C57 *)
From Verif Require Import Base Strings Base64 ModelTypes ConfigModel GenModel GenSpec
  GenProofs GenProofs2 GenProofs3 GenProofs4 GenProofs5 GenProofs6 GenProofs7 GenProofs8
  Regex Enums Json JsonLemmas JsonModel JsonSpec JsonProofs JsonProofs4 ValModel ValSpec ValProofs3 GenValProofs
  Xml XmlSpec GenReadSpec.
From Coq Require Import NArith ZArith Lia.
Open Scope string_scope.
Open Scope list_scope.

Ltac equations := repeat match goal with E : ?l = _ |- _ => rewrite E; clear E end; reflexivity.

(** ** Blanks *)
Lemma xtrim_end_blank s : xtrim_end s = "" <-> blank s = true.
Proof.
  unfold blank. induction s as [|a s IH]; [split; reflexivity|]. cbn [xtrim_end list_ascii_of_string forallb].
  destruct (xtrim_end s) as [|b t].
  - rewrite (proj1 IH eq_refl), andb_true_r. destruct (xml_space a); split; congruence.
  - split; [discriminate|]. rewrite andb_true_iff. intros [_ H]. apply IH in H. discriminate.
Qed.
Lemma xtrim_blank s : xtrim s = "" <-> blank s = true.
Proof.
  unfold xtrim. rewrite xtrim_end_blank. unfold blank. induction s as [|a s IH]; [reflexivity|].
  cbn [xtrim_start list_ascii_of_string forallb]. destruct (xml_space a) eqn:E; [exact IH|].
  cbn [list_ascii_of_string forallb]. rewrite E. reflexivity.
Qed.
Lemma blank_ctl s : blank (replace_ctl s) = blank s.
Proof.
  unfold blank. induction s as [|a s IH]; [reflexivity|]. cbn [replace_ctl list_ascii_of_string forallb]. rewrite IH. f_equal.
  destruct a as [[] [] [] [] [] [] [] []]; reflexivity.
Qed.
Lemma blank_crlf s : blank (replace_crlf s) = blank s.
Proof.
  assert (G : forall n s, String.length s <= n -> blank (replace_crlf s) = blank s).
  { induction n as [|n IH]; intros [|a r] L; try reflexivity; cbn [String.length] in L; [lia|].
    destruct r as [|b r]; [reflexivity|].
    change (replace_crlf (String a (String b r))) with
      (if (Ascii.eqb a CR && Ascii.eqb b LF)%bool then String " " (replace_crlf r) else String a (replace_crlf (String b r))).
    pose proof (IH r ltac:(cbn [String.length] in L; lia)) as H1.
    pose proof (IH (String b r) ltac:(cbn [String.length] in *; lia)) as H2.
    destruct (Ascii.eqb a CR && Ascii.eqb b LF)%bool eqn:E.
    - apply andb_true_iff in E as [E1 E2]. apply Ascii.eqb_eq in E1, E2. subst.
      unfold blank in *. cbn [list_ascii_of_string forallb]. rewrite H1. reflexivity.
    - unfold blank in *. change (list_ascii_of_string (String a (replace_crlf (String b r)))) with
        (a :: list_ascii_of_string (replace_crlf (String b r))). cbn [forallb]. rewrite H2. reflexivity. }
  eapply G. reflexivity.
Qed.
Lemma blank_normalize s : blank (normalize s) = blank s.
Proof. unfold normalize. now rewrite blank_ctl, blank_crlf. Qed.
Lemma nonblank_some s : blank s = false -> nonblank s = Some (xtrim s).
Proof.
  intros H. unfold nonblank. destruct (xtrim s) eqn:E; [|reflexivity]. apply xtrim_blank in E. congruence.
Qed.

Definition solid (s : string) : bool := forallb (fun a => negb (xml_space a)) (list_ascii_of_string s).
Lemma xtrim_solid s : solid s = true -> xtrim s = s.
Proof.
  unfold solid, xtrim. intros H.
  assert (xtrim_start s = s) as ->. { destruct s as [|a s]; [reflexivity|]. cbn in H |- *. destruct (xml_space a); [discriminate|reflexivity]. }
  induction s as [|a s IH]; [reflexivity|]. cbn [list_ascii_of_string forallb] in H. apply andb_true_iff in H as [A H].
  cbn [xtrim_end]. rewrite (IH H). destruct s; [|reflexivity]. destruct (xml_space a); [discriminate|reflexivity].
Qed.
Lemma high_solid a : (33 <= N_of_ascii a)%N -> xml_space a = false.
Proof. destruct a as [[] [] [] [] [] [] [] []]; intros H; try reflexivity; exfalso; vm_compute in H; now apply H. Qed.
Lemma solid_char n : xml_space (b64_char n) = false.
Proof.
  apply high_solid. unfold b64_char. rewrite N_ascii_embedding.
  all: destruct (N.ltb_spec n 26), (N.ltb_spec n 52), (N.ltb_spec n 62), (N.eqb_spec n 62); lia.
Qed.
Lemma solid_b64 : forall s, solid (b64_encode s) = true.
Proof.
  fix IH 1. intros [|a [|b [|c r]]]; unfold solid; cbn [b64_encode list_ascii_of_string forallb]; rewrite ?solid_char; cbn [negb andb]; try reflexivity.
  exact (IH r).
Qed.
Lemma blank_solid s : solid s = true -> blank s = true -> s = "".
Proof.
  destruct s as [|a s]; [reflexivity|]. unfold solid, blank. cbn. destruct (xml_space a); discriminate.
Qed.
Lemma b64_filled s : s <> "" -> blank (b64_encode s) = false.
Proof.
  intros H. destruct (blank (b64_encode s)) eqn:E; [|reflexivity]. apply blank_solid in E; [|apply solid_b64].
  pose proof (b64_roundtrip s) as R. rewrite E in R. cbn in R. congruence.
Qed.

(** ** Parts *)
Section Parts.
Variable w : world.
Variable cfg : config.
Variable v : spec_version.

Lemma kept_uri_of s : kept_uri (uri_of s) = uri_of s.
Proof. unfold uri_of. destruct (starts_with "urn:cdx" s) eqn:E; unfold kept_uri; now rewrite E. Qed.
Lemma in_refs p e : In e (olist (get_external_references w p)) -> exists t s, e = ext_ref_new t s /\ In t [ERDocumentation; ERWebsite; EROther; ERVcs].
Proof.
  unfold get_external_references. intros H.
  assert (K : In e (opt_ref w ERDocumentation (pk_documentation p) ++ opt_ref w ERWebsite (pk_homepage p)
               ++ opt_ref w EROther (pk_links p) ++ opt_ref w ERVcs (pk_repository p))).
  { destruct (_ ++ _) as [|a l]; [destruct H|exact H]. }
  assert (O : forall t o, In e (opt_ref w t o) -> exists s, e = ext_ref_new t s).
  { intros t [s|] Hs; [|destruct Hs]. unfold opt_ref in Hs. destruct (w_uri_ok w s); [|destruct Hs]. destruct Hs as [<-|[]]. eauto. }
  repeat (apply in_app_or in K as [K|K]); apply O in K as [s ->]; do 2 eexists; (split; [reflexivity|cbn; tauto]).
Qed.
Lemma map_same {A} (f : A -> A) o : (forall a, In a (olist o) -> f a = a) -> option_map (map f) o = o.
Proof.
  destruct o as [l|]; [|reflexivity]. cbn. intros H. f_equal. rewrite <- (map_id l) at 2. now apply map_ext_in.
Qed.
Lemma map_alike {A B} (f g : A -> B) o : (forall a, In a (olist o) -> f a = g a) -> option_map (map f) o = option_map (map g) o.
Proof. destruct o as [l|]; [|reflexivity]. cbn. intros H. f_equal. now apply map_ext_in. Qed.
Lemma refs_kept p : option_map (map kept_external_reference) (get_external_references w p) = get_external_references w p.
Proof.
  apply map_same. intros e H. apply in_refs in H as (t & s & -> & T). unfold kept_external_reference, ext_ref_new. cbn -[kept_uri].
  rewrite kept_uri_of. cbn in T. decompose [or] T; subst; try reflexivity; tauto.
Qed.
Lemma kx_uri_of x : kx_uri x = t_uri x.
Proof. destruct x; unfold kx_uri, t_uri, kept_uri, uri_of; reflexivity. Qed.
Lemma refs_trimmed p : option_map (map kx_external_reference) (get_external_references w p) = option_map (map t_reference) (get_external_references w p).
Proof.
  apply map_alike. intros e H. apply in_refs in H as (t & s & -> & T). unfold kx_external_reference, t_reference, ext_ref_new. cbn -[kx_uri t_uri].
  rewrite kx_uri_of. cbn in T. decompose [or] T; subst; try reflexivity; tauto.
Qed.
Lemma in_hashes hs p h : In h (olist (get_hashes hs p)) -> h_alg h = SHA_256.
Proof. unfold get_hashes. destruct (bm_get (pk_id p) hs); [|intros []]. intros [<-|[]]. reflexivity. Qed.
Lemma hashes_kept hs p : option_map (map kept_hash) (get_hashes hs p) = get_hashes hs p.
Proof.
  apply map_same. intros h H. apply in_hashes in H. destruct h; cbn in *; subst. reflexivity.
Qed.
Lemma hashes_trimmed hs p : option_map (map kx_hash) (get_hashes hs p) = option_map (map t_hash) (get_hashes hs p).
Proof. apply map_alike. intros h H. apply in_hashes in H. destruct h; cbn in *; subst. reflexivity. Qed.
Lemma licenses_kept p : option_map (map (kept_license_choice v)) (get_licenses w cfg p) = get_licenses w cfg p.
Proof.
  unfold get_licenses. destruct (pk_license p) as [l|].
  - match goal with |- context [match ?o with Some e => [LicExpression None e] | None => _ end] =>
      destruct o as [e|] end; [reflexivity|]. destruct v; reflexivity.
  - destruct (pk_license_file p) as [f|]; [|reflexivity]. destruct (w_read_file w _ f) as [content|]; [|reflexivity].
    destruct v; reflexivity.
Qed.
Lemma licenses_trimmed p :
  (forall l, pk_license p = Some l -> blank l = false) ->
  (forall f s, pk_license p = None -> pk_license_file p = Some f -> w_read_file w (removelast (pk_manifest p)) f = Some s -> s <> "") ->
  kx_licenses v (get_licenses w cfg p) = Some (option_map (map t_license) (get_licenses w cfg p)).
Proof.
  intros H1 H2. unfold get_licenses. destruct (pk_license p) as [l|].
  - match goal with |- context [match ?o with Some e => [LicExpression None e] | None => _ end] =>
      destruct o as [e|] end; [reflexivity|].
    unfold kx_licenses, named_license, kx_license_choice, kx_license, kx_license_identifier, maybe, each. cbn -[nonblank normalize xtrim].
    rewrite nonblank_some by (rewrite blank_normalize; auto). destruct v; reflexivity.
  - destruct (pk_license_file p) as [f|]; [|reflexivity]. destruct (w_read_file w _ f) as [content|] eqn:E; [|reflexivity].
    specialize (H2 _ _ eq_refl eq_refl E).
    unfold kx_licenses, attached_text_new, kx_license_choice, kx_license, kx_license_identifier, kx_attached_text, maybe, each.
    cbn -[nonblank normalize xtrim b64_encode].
    rewrite (nonblank_some (normalize "Unknown")) by reflexivity. cbn -[nonblank normalize xtrim b64_encode].
    rewrite nonblank_some by now apply b64_filled. rewrite xtrim_solid with (s := b64_encode content) by apply solid_b64.
    destruct v; reflexivity.
Qed.

(** ** Components *)
Definition legible (p : package) : Prop :=
  (forall l, pk_license p = Some l -> blank l = false) /\
  (forall f s, pk_license p = None -> pk_license_file p = Some f -> w_read_file w (removelast (pk_manifest p)) f = Some s -> s <> "").
(** as written and read; [subs]: the components inside it *)
Record plain (c : component) : Prop := {
  pl_json : kept_component v c = c;
  pl_version : c_version c <> None;
  pl_pedigree : c_pedigree c = None;
  pl_evidence : c_evidence c = None }.
Definition readable (c : component) : Prop := kx_component v c = Some (t_component c).

Lemma component_plain ws hs p root kinds c : create_component w cfg ws hs p root kinds = Done c -> plain c /\ c_components c = None.
Proof.
  unfold create_component. intros H. inv_bind H. injection H as <-. split; [|reflexivity]. constructor; try reflexivity; [|discriminate].
  rewrite kept_component_eq. cbn -[get_hashes get_licenses get_external_references normalize].
  rewrite hashes_kept, licenses_kept, refs_kept.
  destruct (unwrap_or KNormal (bm_get (pk_id p) kinds)), v; reflexivity.
Qed.
Lemma component_readable ws hs p root kinds c : legible p -> create_component w cfg ws hs p root kinds = Done c -> readable c.
Proof.
  intros [L1 L2]. unfold create_component. intros H. inv_bind H. injection H as <-. unfold readable.
  cbn -[get_hashes get_licenses get_external_references normalize kx_licenses xtrim].
  rewrite licenses_trimmed; auto. unfold bindo.
  rewrite hashes_trimmed, refs_trimmed.
  destruct (unwrap_or KNormal (bm_get (pk_id p) kinds)), v; reflexivity.
Qed.
Lemma subs_plain ws p top : forall ts n subs ks, subcomponents w ws p top n ts = Done (subs, ks) ->
  forall c, In c subs -> plain c /\ c_components c = None /\ readable c.
Proof.
  induction ts as [|t ts IH]; intros n subs ks H c Hc; cbn [subcomponents] in H.
  - injection H as <- <-. destruct Hc.
  - destruct (target_class t) as [cls|] eqn:Ec; [|eauto].
    inv_bind H. inv_bind H. inv_bind H. destruct v2 as [subs' ks']. injection H as <- <-.
    destruct Hc as [<-|Hc]; [|eauto].
    assert (K : kept_classification cls = cls).
    { unfold target_class in Ec. repeat match type of Ec with (if ?b then _ else _) = _ => destruct b end; try discriminate; injection Ec as <-; reflexivity. }
    split; [|split; [reflexivity|]].
    + constructor; try reflexivity; [|discriminate].
      cbn -[normalize kept_classification]. rewrite K. destruct v; reflexivity.
    + unfold readable. cbn -[normalize kept_classification xtrim]. rewrite K. destruct v; reflexivity.
Qed.
Lemma leaf_trimmed c : c_components c = None -> t_component c = t_leaf c.
Proof. intros H. unfold t_component, t_leaf. now rewrite H. Qed.
Lemma each_readable l : (forall c, In c l -> readable c) -> each (kx_component v) l = Some (map t_component l).
Proof.
  induction l as [|c l IH]; intros H; [reflexivity|]. cbn [each map]. rewrite (H c) by now left. unfold bindo.
  rewrite IH by (intros; apply H; now right). reflexivity.
Qed.

Lemma top_plain ws hs p c tk : create_toplevel_component w cfg ws hs p = Done (c, tk) ->
  plain c /\ exists subs, c_components c = Some subs /\ (forall s, In s subs -> plain s /\ c_components s = None /\ readable s)
    /\ (legible p -> readable c).
Proof.
  unfold create_toplevel_component. intros H. inv_bind H. inv_bind H. inv_bind H. injection H as <- <-.
  destruct v2 as [subs ks]. cbn [fst snd] in *.
  pose proof (subs_plain _ _ _ _ _ _ _ Hv1) as S.
  destruct (component_plain _ _ _ _ _ _ Hv) as [P _]. destruct P as [P1 P2 P3 P4].
  assert (K : kept_classification (get_classification p) = get_classification p).
  { unfold get_classification. destruct (existsb _ _); reflexivity. }
  assert (Ks : map (kept_component v) subs = subs).
  { rewrite <- (map_id subs) at 2. apply map_ext_in. intros a Ha. apply S, Ha. }
  split; [|exists subs; split; [reflexivity|split; [exact S|]]].
  - constructor; cbn [c_version c_pedigree c_evidence]; auto.
    rewrite kept_component_eq in P1 |- *. destruct v0; cbn -[kept_component kept_classification] in *. rewrite K, Ks.
    injection P1. intros. equations.
  - intros L. pose proof (component_readable _ _ _ _ _ _ L Hv) as R.
    assert (E : each (kx_component v) subs = Some (map t_leaf subs)).
    { rewrite each_readable by (intros; now apply S). f_equal. apply map_ext_in. intros a Ha. apply leaf_trimmed, S, Ha. }
    unfold readable in *. unfold create_component in Hv. inv_bind Hv. injection Hv as <-.
    cbn -[get_hashes get_licenses get_external_references normalize kx_licenses xtrim each kept_classification] in R |- *.
    destruct (kx_licenses v (get_licenses w cfg p)) as [li|]; [|discriminate R]. unfold bindo in *.
    rewrite E, K. destruct v; injection R; intros; equations.
Qed.

Lemma authors_trimmed l : (forall c, In c l -> exists n e, c = contact_new n e) ->
  map kx_contact (filter contact_has_data l) = map (fun c => mkContact (ct_bom_ref c) (t_opt (ct_name c)) (t_opt (ct_email c)) (ct_phone c)) l.
Proof.
  induction l as [|c l IH]; intros H; [reflexivity|].
  destruct (H c (or_introl eq_refl)) as (n & e & ->). cbn [filter contact_has_data contact_new ct_name map].
  rewrite IH by (intros; apply H; now right). reflexivity.
Qed.
Lemma author_new a c : parse_author w a = Some c -> exists n e, c = contact_new n e.
Proof.
  unfold parse_author. destruct (author_captures a) as [[n [e|]]|]; [destruct (w_email_ok w e); [|discriminate]| |]; intros [= <-]; eauto.
Qed.
Lemma metadata_plain ws hs p md tk : create_metadata w cfg ws hs p = Done (md, tk) ->
  kept_metadata v md = md /\ (forall t, m_tools md = Some t -> tools_components v t = []) /\
  (legible p -> kx_metadata v md = Some (t_metadata md)) /\
  exists c subs, m_component md = Some c /\ plain c /\ c_components c = Some subs /\
    (forall s, In s subs -> plain s /\ c_components s = None /\ readable s) /\ (legible p -> readable c).
Proof.
  intros H. unfold create_metadata in H. inv_bind H. inv_bind H. inv_bind H. injection H as <- <-.
  destruct v1 as [c tk']. cbn [fst snd] in *.
  destruct (top_plain _ _ _ _ _ Hv0) as (P & subs & Es & S & R).
  split; [|split; [|split]].
  - unfold kept_metadata. cbn -[kept_component create_authors tool_new property_new]. rewrite (pl_json _ P). destruct v; reflexivity.
  - cbn. intros t [= <-]. reflexivity.
  - intros L. specialize (R L). unfold kx_metadata, t_metadata.
    cbn -[kx_component t_component create_authors tool_new property_new xtrim kx_tools t_tools]. rewrite R. unfold bindo.
    assert (T : forall t, kx_tools v (TList [tool_new "CycloneDX" "cargo-cyclonedx" t]) = Some (t_tools (TList [tool_new "CycloneDX" "cargo-cyclonedx" t]))).
    { intros t. destruct v; reflexivity. }
    rewrite T. 
    assert (A : option_map (fun l => map kx_contact (filter contact_has_data l)) (match create_authors w p with [] => None | l => Some l end)
      = option_map (map (fun c => mkContact (ct_bom_ref c) (t_opt (ct_name c)) (t_opt (ct_email c)) (ct_phone c))) (match create_authors w p with [] => None | l => Some l end)).
    { destruct (create_authors w p) as [|a l] eqn:Ea; [reflexivity|]. unfold option_map. f_equal. apply authors_trimmed; auto.
      rewrite <- Ea. intros x Hx. unfold create_authors in Hx. apply in_flat_map in Hx as (s & _ & Hs).
      destruct (parse_author w s) eqn:Ep; [|destruct Hs]. destruct Hs as [->|[]]. eapply author_new; eauto. }
    rewrite A. destruct v; reflexivity.
  - exists c, subs. auto.
Qed.
End Parts.

(** ** The whole SBOM *)
Section Sbom.
Variables (w : world) (fuel : nat) (meta : cargo_metadata) (nodes : list node) (cfg : config) (m : string) (g : generated).
Hypothesis wf : well_formed meta nodes.
Hypothesis Hg : sbom_of w fuel meta cfg m g.
Variable v : spec_version.

Lemma generated_plain : exists md c subs comps,
  b_metadata (g_bom g) = Some md /\ m_component md = Some c /\ plain v c /\ c_components c = Some subs
  /\ (forall s, In s subs -> plain v s /\ c_components s = None /\ readable v s)
  /\ b_components (g_bom g) = Some comps /\ (forall s, In s comps -> plain v s /\ c_components s = None)
  /\ kept_metadata v md = md /\ (forall t, m_tools md = Some t -> tools_components v t = [])
  /\ (licenses_written_down w meta -> kx_metadata v md = Some (t_metadata md) /\ readable v c /\ forall s, In s comps -> readable v s)
  /\ b_services (g_bom g) = None /\ b_external_references (g_bom g) = None /\ b_compositions (g_bom g) = None
  /\ b_properties (g_bom g) = None /\ b_vulnerabilities (g_bom g) = None /\ b_signature (g_bom g) = None
  /\ b_annotations (g_bom g) = None /\ b_formulation (g_bom g) = None.
Proof.
  pose proof (sbom_of_ok _ _ _ nodes _ _ _ wf Hg) as Hok. destruct Hok as [H Hm].
  apply create_sbom_inv in H as (kinds & ps & ns & rp & comps & md & tk & Hk & Hsel & Hin & Hid & Hc & Hmd & _ & _ & _ & _ & Eb & Ec & Ed & Eg); auto.
  destruct (metadata_plain _ _ v _ _ _ _ _ Hmd) as (M1 & M2 & M3 & c & subs & C1 & C2 & C3 & C4 & C5).
  assert (Each : forall c, In c comps -> plain v c /\ c_components c = None /\ (licenses_written_down w meta -> readable v c)).
  { intros a Ha.
    assert (exists p, In p (filter (fun p => negb (pk_id p =? m)%string) (map snd ps)) /\
         create_component w cfg (cm_workspace_root meta) (crate_hashes w (pk_manifest rp)) p rp kinds = Done a) as (p & Hp & E).
    { clear -Hc Ha. induction Hc as [|p y l l' E _ IH]; [destruct Ha|]. destruct Ha as [->|Ha].
      - exists p. split; auto. now left.
      - destruct (IH Ha) as (p' & A & B). exists p'. split; auto. now right. }
    apply filter_In in Hp as [Hp _]. apply in_map_iff in Hp as ([k p'] & Ep & Hp). cbn in Ep; subst p'.
    apply bm_In_get in Hp; [|apply Hsel]. apply (sel_ps _ _ _ _ _ _ Hsel) in Hp as (_ & P1 & _).
    destruct (component_plain _ _ v _ _ _ _ _ _ E). split; auto. split; auto. intros L. eapply component_readable; eauto. apply L, P1. }
  exists md, c, subs, comps. rewrite Eg. cbn.
  repeat (split; [solve [auto | intros s Hs; destruct (Each s Hs) as (? & ? & ?); auto]|]).
  split; [|repeat split].
  intros L. split; [apply M3, L, Hin|]. split; [apply C5, L, Hin|]. intros s Hs. now apply Each.
Qed.

(** the described component replaced by one of its targets *)
Lemma retarget_plain c s : plain v c -> plain v s -> plain v
  {| c_type := c_type s; c_mime_type := c_mime_type c; c_bom_ref := c_bom_ref c;
      c_supplier := c_supplier c; c_author := c_author c; c_publisher := c_publisher c;
      c_group := c_group c; c_name := c_name s; c_version := c_version c;
      c_description := c_description c; c_scope := c_scope c; c_hashes := c_hashes c;
      c_licenses := c_licenses c; c_copyright := c_copyright c; c_cpe := c_cpe c;
      c_purl := c_purl s; c_swid := c_swid c; c_modified := c_modified c;
      c_pedigree := c_pedigree c; c_external_references := c_external_references c;
      c_properties := c_properties c; c_components := None;
      c_evidence := c_evidence c; c_signature := c_signature c;
      c_model_card := c_model_card c; c_data := c_data c |}.
Proof.
  intros [P1 P2 P3 P4] [Q1 _ _ _]. constructor; cbn [c_version c_pedigree c_evidence]; auto.
  rewrite kept_component_eq in P1, Q1 |- *. destruct c, s. cbn -[kept_component kept_classification] in *.
  injection P1. injection Q1. intros. equations.
Qed.
Lemma retarget_readable c s : readable v c -> readable v s -> readable v
  {| c_type := c_type s; c_mime_type := c_mime_type c; c_bom_ref := c_bom_ref c;
      c_supplier := c_supplier c; c_author := c_author c; c_publisher := c_publisher c;
      c_group := c_group c; c_name := c_name s; c_version := c_version c;
      c_description := c_description c; c_scope := c_scope c; c_hashes := c_hashes c;
      c_licenses := c_licenses c; c_copyright := c_copyright c; c_cpe := c_cpe c;
      c_purl := c_purl s; c_swid := c_swid c; c_modified := c_modified c;
      c_pedigree := c_pedigree c; c_external_references := c_external_references c;
      c_properties := c_properties c; c_components := None;
      c_evidence := c_evidence c; c_signature := c_signature c;
      c_model_card := c_model_card c; c_data := c_data c |}.
Proof.
  unfold readable. destruct c as [c1 c2 c3 c4 c5 c6 c7 c8 c9 c10 c11 c12 c13 c14 c15 c16 c17 c18 c19 c20 c21 c22 c23 c24 c25 c26],
    s as [s1 s2 s3 s4 s5 s6 s7 s8 s9 s10 s11 s12 s13 s14 s15 s16 s17 s18 s19 s20 s21 s22 s23 s24 s25 s26].
  intros C S.
  assert (K : kept_classification s1 = s1).
  { clear -S. unfold t_component, t_component_with in S. cbn [kx_component c_type c_mime_type c_bom_ref c_supplier c_author c_publisher c_group c_name c_version c_description c_scope c_hashes
    c_licenses c_copyright c_cpe c_purl c_swid c_modified c_pedigree c_external_references c_properties c_components c_evidence c_signature c_model_card c_data] in S.
    repeat match type of S with bindo ?o _ = _ => destruct o; [cbn [bindo] in S|discriminate S] end. now injection S. }
  unfold t_component, t_component_with in *.
  cbn [kx_component c_type c_mime_type c_bom_ref c_supplier c_author c_publisher c_group c_name c_version c_description c_scope c_hashes
    c_licenses c_copyright c_cpe c_purl c_swid c_modified c_pedigree c_external_references c_properties c_components c_evidence c_signature c_model_card c_data] in *.
  clear S.
  repeat (match type of C with bindo ?o _ = _ => destruct o; [cbn [bindo maybe option_map] in *|discriminate C] end).
  injection C. intros. rewrite K. equations.
Qed.

Lemma no_members c : c_pedigree c = None -> forall e, within c e ->
  e = c \/ exists d, In d (olist (c_components c)) /\ within d e.
Proof. intros P e H. inversion H; subst; eauto. congruence. Qed.
Lemma leaf_within c e : c_pedigree c = None -> c_components c = None -> within c e -> e = c.
Proof. intros P N H. destruct (no_members c P e H) as [->|(d & D & _)]; [reflexivity|]. rewrite N in D. destruct D. Qed.

Lemma file_parts files f : write_plan g = Done files -> In f files -> exists md c comps,
  b_metadata (f_bom f) = Some md /\ m_component md = Some c /\ plain v c
  /\ (forall s, In s (olist (c_components c)) -> plain v s /\ c_components s = None)
  /\ b_components (f_bom f) = Some comps /\ (forall s, In s comps -> plain v s /\ c_components s = None)
  /\ kept_metadata v md = md /\ (forall t, m_tools md = Some t -> tools_components v t = [])
  /\ (licenses_written_down w meta -> kx_metadata v md = Some (t_metadata md) /\ forall s, In s comps -> readable v s)
  /\ b_services (f_bom f) = None /\ b_external_references (f_bom f) = None /\ b_compositions (f_bom f) = None
  /\ b_properties (f_bom f) = None /\ b_vulnerabilities (f_bom f) = None /\ b_signature (f_bom f) = None
  /\ b_annotations (f_bom f) = None /\ b_formulation (f_bom f) = None.
Proof.
  intros Hp Hf. destruct generated_plain as (md & c & subs & comps & A & B & C & D & E & G & K & M1 & M2 & M3 & R).
  destruct (planned _ _ _ Hp Hf) as [->|(md' & c' & subs' & s & A' & B' & C' & D' & ->)].
  - exists md, c, comps. rewrite D. cbn [olist].
    split; [exact A|]. split; [exact B|]. split; [exact C|]. split; [intros s Hs; destruct (E s Hs) as (? & ? & _); auto|].
    split; [exact G|]. split; [exact K|]. split; [exact M1|]. split; [exact M2|].
    split; [intros L; destruct (M3 L) as (? & ? & ?); auto|exact R].
  - assert (md' = md) by congruence. subst md'. assert (c' = c) by congruence. subst c'.
    assert (subs' = subs) by congruence. subst subs'. destruct (E s D') as (S1 & S2 & S3).
    eexists; eexists; exists comps.
    cbn [retarget b_metadata b_components b_services b_external_references b_compositions b_properties b_vulnerabilities b_signature b_annotations b_formulation].
    split; [reflexivity|]. split; [reflexivity|]. split; [apply retarget_plain; auto|]. split; [intros ? []|].
    split; [exact G|]. split; [exact K|].
    split. { unfold kept_metadata in *. rewrite B in M1. cbn -[kept_component] in M1 |- *. rewrite (pl_json _ _ (retarget_plain _ _ C S1)).
             destruct md. cbn -[kept_component] in *. injection M1. intros. equations. }
    split; [exact M2|]. split; [|exact R].
    intros L. destruct (M3 L) as (X1 & X2 & X3). split; [|exact X3].
    unfold kx_metadata, t_metadata in *. rewrite B in X1. cbn -[kx_component t_component] in X1 |- *.
    rewrite (retarget_readable _ _ X2 S3). rewrite X2 in X1.
    destruct md. cbn -[kx_component t_component] in *.
    repeat (match type of X1 with bindo ?o _ = _ => destruct o; [cbn -[kx_component t_component] in *|discriminate X1] end).
    injection X1. intros. equations.
Qed.

Lemma file_kept files f : write_plan g = Done files -> In f files -> kept_bom v (f_bom f) = as_version v (f_bom f).
Proof.
  intros Hp Hf. destruct (file_parts files f Hp Hf) as (md & c & comps & A & B & C & D & E & G & M1 & M2 & M3 & R1 & R2 & R3 & R4 & R5 & R6 & R7 & R8).
  unfold kept_bom, as_version. rewrite A, E, R1, R2, R3, R4, R5, R6, R7, R8. cbn [option_map]. rewrite M1.
  replace (map (kept_component v) comps) with comps; [destruct v; reflexivity|].
  rewrite <- (map_id comps) at 1. apply map_ext_in. intros a Ha. symmetry. apply G, Ha.
Qed.
Lemma file_components files f : write_plan g = Done files -> In f files ->
  forall a, bom_component v (f_bom f) a -> plain v a.
Proof.
  intros Hp Hf. destruct (file_parts files f Hp Hf) as (md & c & comps & A & B & C & D & E & G & M1 & M2 & M3 & R1 & R2 & R3 & R4 & R5 & R6 & R7 & R8).
  intros a (r & Hr & W). unfold bom_roots in Hr. rewrite A, E, R5, R7, R8 in Hr. cbn [JsonSpec.one olist flat_map] in Hr.
  assert (In r (flat_map (tools_components v) (JsonSpec.one (m_tools md)) ++ JsonSpec.one (m_component md))%list \/ In r comps) as H.
  { destruct v; cbn in Hr; rewrite ?app_nil_r in Hr; now apply in_app_or in Hr. }
  destruct H as [H|H].
  - rewrite B in H. apply in_app_or in H as [H|H].
    + destruct (m_tools md) as [t|] eqn:T; [|destruct H]. cbn [JsonSpec.one flat_map] in H. rewrite (M2 t eq_refl) in H. destruct H.
    + destruct H as [<-|[]]. destruct (no_members _ (pl_pedigree _ _ C) _ W) as [->|(d & Hd & Wd)]; [exact C|].
      destruct (D d Hd) as [P N]. rewrite (leaf_within _ _ (pl_pedigree _ _ P) N Wd). exact P.
  - destruct (G r H) as [P N]. rewrite (leaf_within _ _ (pl_pedigree _ _ P) N W). exact P.
Qed.
Lemma file_trimmed files f : licenses_written_down w meta -> write_plan g = Done files -> In f files ->
  kx_bom v (f_bom f) = Some (as_version v (trimmed (f_bom f))).
Proof.
  intros L Hp Hf. destruct (file_parts files f Hp Hf) as (md & c & comps & A & B & C & D & E & G & M1 & M2 & M3 & R1 & R2 & R3 & R4 & R5 & R6 & R7 & R8).
  destruct (M3 L) as [X Y].
  unfold kx_bom, as_version, trimmed.
  cbn [b_version b_serial_number b_metadata b_components b_services b_external_references b_dependencies b_compositions b_properties
    b_vulnerabilities b_signature b_annotations b_formulation].
  rewrite A, E, R1, R2, R3, R4, R5, R6, R7, R8. cbn [option_map maybe]. rewrite X. cbn [bindo]. rewrite (each_readable _ _ Y). cbn [bindo].
  destruct v; reflexivity.
Qed.
End Sbom.

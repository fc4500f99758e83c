(** Round trips through XML: numbers, components, services and everything that contains them. *)
From Coq Require Import NArith ZArith Decimal DecimalString DecimalN.
From Verif Require Import Base ModelTypes Strings Enums GenModel Json JsonLemmas JsonModel Xml XmlLemmas XmlModel XmlSpec XmlRead XmlProofs.
Open Scope string_scope.
Open Scope list_scope.
Open Scope nat_scope.
Open Scope shape_scope.

(** ** Numbers *)
Inductive digits : string -> Prop :=
| digits_nil : digits ""
| digits_cons a s : In a ["0"; "1"; "2"; "3"; "4"; "5"; "6"; "7"; "8"; "9"]%char -> digits s -> digits (String a s).
Lemma string_of_uint_digits d : digits (NilEmpty.string_of_uint d).
Proof. induction d; cbn [NilEmpty.string_of_uint]; constructor; auto; cbn; tauto. Qed.
Lemma string_of_N_digits n : digits (string_of_N n) /\ string_of_N n <> "".
Proof.
  unfold string_of_N. destruct (N.to_uint n) eqn:E; cbn [NilZero.string_of_uint].
  - split; [constructor; [cbn; tauto|constructor]|discriminate].
  - split; [apply string_of_uint_digits|discriminate].
  - split; [apply string_of_uint_digits|discriminate].
  - split; [apply string_of_uint_digits|discriminate].
  - split; [apply string_of_uint_digits|discriminate].
  - split; [apply string_of_uint_digits|discriminate].
  - split; [apply string_of_uint_digits|discriminate].
  - split; [apply string_of_uint_digits|discriminate].
  - split; [apply string_of_uint_digits|discriminate].
  - split; [apply string_of_uint_digits|discriminate].
  - split; [apply string_of_uint_digits|discriminate].
Qed.
Ltac digit_cases H := cbn [In] in H; repeat (destruct H as [<-|H]; [|]); [..|contradiction H].
Lemma trim_start_digits s : digits s -> trim_start s = s.
Proof.
  intros [|a s' Ha _]; [reflexivity|]. unfold trim_start. cbn [String.length trim_start_n].
  digit_cases Ha; destruct s' as [|b [|c t]]; reflexivity.
Qed.
Lemma trim_digits s : digits s -> trim s = s.
Proof.
  intros H. unfold trim. rewrite trim_start_digits by exact H.
  induction H as [|a s Ha Hs IH]; [reflexivity|]. cbn [trim_end].
  rewrite trim_start_digits by now constructor. cbn [String.eqb]. now rewrite IH.
Qed.
Lemma xtrim_digits s : digits s -> xtrim s = s.
Proof.
  intros H. unfold xtrim.
  assert (E : xtrim_start s = s).
  { destruct H as [|a s' Ha _]; [reflexivity|]. digit_cases Ha; reflexivity. }
  rewrite E. clear E. induction H as [|a s Ha Hs IH]; [reflexivity|]. cbn [xtrim_end]. rewrite IH.
  destruct s; [|reflexivity]. digit_cases Ha; reflexivity.
Qed.

Fixpoint value (d : uint) (acc : N) : N :=
  match d with
  | Nil => acc
  | D0 d => value d (acc * 10 + 0)
  | D1 d => value d (acc * 10 + 1)
  | D2 d => value d (acc * 10 + 2)
  | D3 d => value d (acc * 10 + 3)
  | D4 d => value d (acc * 10 + 4)
  | D5 d => value d (acc * 10 + 5)
  | D6 d => value d (acc * 10 + 6)
  | D7 d => value d (acc * 10 + 7)
  | D8 d => value d (acc * 10 + 8)
  | D9 d => value d (acc * 10 + 9)
  end%N.
Lemma digits_acc_value d : forall acc, digits_acc (NilEmpty.string_of_uint d) acc = Some (value d acc).
Proof. induction d; intros acc; cbn [NilEmpty.string_of_uint]; [reflexivity|..]; apply IHd. Qed.
Lemma value_pos d : forall p, value d (Npos p) = Npos (Pos.of_uint_acc d p).
Proof.
  induction d; intros p; cbn [value Pos.of_uint_acc]; [reflexivity|..];
    rewrite <- IHd; f_equal; lia.
Qed.
Lemma value_zero d : value d 0 = N.of_uint d.
Proof.
  unfold N.of_uint. induction d; cbn [value Pos.of_uint]; try reflexivity; try (rewrite <- value_pos; f_equal; reflexivity).
  rewrite <- IHd. reflexivity.
Qed.
Lemma parse_string_of_N n : parse_digits (string_of_N n) = Some n.
Proof.
  pose proof (DecimalN.Unsigned.of_to n) as E. unfold string_of_N.
  rewrite <- value_zero in E. destruct (N.to_uint n) eqn:D; cbn [NilZero.string_of_uint];
    [cbn in E; subst n; reflexivity|..];
    (transitivity (digits_acc (NilEmpty.string_of_uint (N.to_uint n)) 0);
     [rewrite D; reflexivity|rewrite digits_acc_value, D, E; reflexivity]).
Qed.
Lemma xml_u32_text n : xml_u32 (u32_text n) = Some n.
Proof.
  unfold xml_u32, u32_text. destruct (string_of_N_digits (u32_N n)) as [D _].
  assert (E : match string_of_N (u32_N n) with String "+" s' => s' | _ => string_of_N (u32_N n) end = string_of_N (u32_N n)).
  { destruct D as [|a s Ha _]; [reflexivity|]. digit_cases Ha; reflexivity. }
  rewrite E, parse_string_of_N. cbn [bindo]. apply u32_of_N_u32.
Qed.
Lemma rt_u32 tag n : reads tag d_u32 (txt u32_text tag n) (Some n).
Proof.
  apply reads_attr_text; [reflexivity|]. destruct (string_of_N_digits (u32_N n)) as [D N].
  unfold nonblank. fold (u32_text n) in *. rewrite xtrim_digits by exact D.
  destruct (u32_text n) as [|a s] eqn:E; [congruence|]. cbn [bindo]. rewrite <- E in *.
  unfold xml_u32_trim. rewrite trim_digits by exact D. apply xml_u32_text.
Qed.
Global Hint Resolve rt_u32 : rt.

(** ** Evidence, SWID tags *)
Lemma evidence_written_eq x : evidence_written x = evidence_has_data x.
Proof. unfold evidence_written, evidence_has_data. destruct (ev_licenses x), (ev_copyright x); reflexivity. Qed.
Lemma from_none {A} a v : (if since a v then (None : option A) else None) = None.
Proof. now destruct (since a v). Qed.
Lemma init_from {A} b (sh : shape (option A)) : init sh = None -> init (from b sh) = None.
Proof. intros H. destruct b; [exact H|cbn; exact H]. Qed.
Lemma rt_evidence F v n x : reads "evidence" (rd_evidence F v n) (wr_evidence v x) (kx_evidence v x).
Proof.
  unfold kx_evidence. eapply reads_struct_eq.
  - eapply fills_pair; [leaf|fields|reflexivity].
  - reflexivity.
  - steps. cbn [init]. rewrite !init_from by reflexivity. reflexivity.
Qed.
Lemma xml_bool_text b : xml_bool (bool_text b) = Some b.
Proof. destruct b; reflexivity. Qed.
Lemma rt_swid x : reads "swid" rd_swid (wr_swid x) (kx_swid x).
Proof.
  unfold kx_swid. eapply reads_struct_eq; [fields|attrs_distinct|]. steps. unfold attr_of.
  rewrite ?attr_opt_app, ?attr_opt_only; cbn [attr app String.eqb Ascii.eqb Bool.eqb bindo].
  rewrite ?attr_opt_app, ?attr_opt_only; cbn [attr app String.eqb Ascii.eqb Bool.eqb bindo].
  rewrite ?opt_eta.
  destruct (sw_tag_version x); cbn [option_map bindo]; rewrite ?xml_u32_text; cbn [bindo];
  destruct (sw_patch x); cbn [option_map bindo]; rewrite ?xml_bool_text; cbn [bindo]; reflexivity.
Qed.
Global Hint Resolve rt_swid : rt.

(** ** Components *)
Lemma wr_component_eq v x :
  wr_component v x =
  Elem "component"
    ([("type", text_classification (c_type x))] ++ attr_opt "mime-type" (c_mime_type x)
     ++ attr_opt "bom-ref" (c_bom_ref x))
    (opt (wr_entity "supplier") (keep entity_written (c_supplier x))
     ++ opt (simple "author") (c_author x) ++ opt (simple "publisher") (c_publisher x)
     ++ opt (simple "group") (c_group x) ++ [simple "name" (c_name x)]
     ++ opt (simple "version") (c_version x) ++ opt (simple "description") (c_description x)
     ++ opt (txt text_scope "scope") (c_scope x) ++ wr_hashes (c_hashes x) ++ wr_licenses v (c_licenses x)
     ++ opt (simple "copyright") (c_copyright x) ++ opt (simple "cpe") (c_cpe x)
     ++ opt (simple "purl") (c_purl x) ++ opt wr_swid (c_swid x)
     ++ opt (txt bool_text "modified") (c_modified x)
     ++ opt (wr_pedigree (wr_component v)) (c_pedigree x)
     ++ wr_external_references (c_external_references x) ++ wr_properties (c_properties x)
     ++ opt_list "components" (wr_component v) (c_components x)
     ++ opt (wr_evidence v) (keep evidence_written (c_evidence x))
     ++ when (since V1_4 v) (opt wr_signature (c_signature x))
     ++ when (since V1_5 v) (opt wr_model_card (c_model_card x))
     ++ when (since V1_5 v) (opt (wr_component_data "data") (c_data x))).
Proof. destruct x; reflexivity. Qed.
Lemma kx_component_eq v x :
  kx_component v x =
  (let? li := kx_licenses v (c_licenses x) in
  let? sw := maybe kx_swid (c_swid x) in
  let? pe := maybe (kx_pedigree (kx_component v)) (c_pedigree x) in
  let? cs := maybe (each (kx_component v)) (c_components x) in
  let? ev := maybe (kx_evidence v) (only_if evidence_has_data (c_evidence x)) in
  let? mc := gate V1_5 v (maybe kx_model_card (c_model_card x)) in
  let? da := gate V1_5 v (maybe kx_component_data (c_data x)) in
  let? ve := match trimo (c_version x) with
             | None => if version_leb V1_4 v then Some None else None
             | Some s => Some (Some s)
             end in
  Some (mkComponent (JsonSpec.kept_classification (c_type x)) (c_mime_type x) (c_bom_ref x)
          (option_map kx_entity (only_if entity_has_data (c_supplier x)))
          (trimo (c_author x)) (trimo (c_publisher x)) (trimo (c_group x)) (xtrim (c_name x)) ve
          (trimo (c_description x)) (option_map kx_scope (c_scope x)) (option_map (map kx_hash) (c_hashes x)) li
          (trimo (c_copyright x)) (trimo (c_cpe x)) (trimo (c_purl x)) sw (c_modified x) pe
          (option_map (map kx_external_reference) (c_external_references x)) (kx_properties (c_properties x))
          cs ev (JsonSpec.from V1_4 v (option_map kx_signature (c_signature x))) mc da)).
Proof. destruct x; reflexivity. Qed.
Lemma wr_service_eq v x :
  wr_service v x =
  Elem "service" (attr_opt "bom-ref" (s_bom_ref x))
    (opt (wr_entity "provider") (s_provider x) ++ opt (simple "group") (s_group x) ++ [simple "name" (s_name x)]
     ++ opt (simple "version") (s_version x) ++ opt (simple "description") (s_description x)
     ++ opt_list "endpoints" (simple "endpoint") (s_endpoints x)
     ++ opt (txt bool_text "authenticated") (s_authenticated x)
     ++ opt (txt bool_text "x-trust-boundary") (s_x_trust_boundary x)
     ++ opt (wr_data v) (s_data x) ++ wr_licenses v (s_licenses x)
     ++ wr_external_references (s_external_references x) ++ wr_properties (s_properties x)
     ++ opt_list "services" (wr_service v) (s_services x)
     ++ when (since V1_4 v) (opt wr_signature (s_signature x))
     ++ when (since V1_5 v) (opt (simple "trustZone") (s_trust_zone x))).
Proof. destruct x; reflexivity. Qed.
Lemma kx_service_eq v x :
  kx_service v x =
  (let? da := maybe (kx_data v) (s_data x) in
  let? li := kx_licenses v (s_licenses x) in
  let? ss := maybe (each (kx_service v)) (s_services x) in
  Some (mkService (s_bom_ref x) (option_map kx_entity (s_provider x)) (trimo (s_group x)) (xtrim (s_name x))
          (trimo (s_version x)) (trimo (s_description x)) (option_map (map xtrim) (s_endpoints x))
          (s_authenticated x) (s_x_trust_boundary x) da li
          (option_map (map kx_external_reference) (s_external_references x)) (kx_properties (s_properties x)) ss
          (JsonSpec.from V1_4 v (option_map kx_signature (s_signature x))) (JsonSpec.from V1_5 v (trimo (s_trust_zone x))))).
Proof. destruct x; reflexivity. Qed.

Lemma in_opt {A} (f : A -> xml) o a : o = Some a -> In (f a) (opt f o).
Proof. intros ->. now left. Qed.
Lemma in_opt_list {A} n (f : A -> xml) o l : o = Some l -> In (list_tag n f l) (opt_list n f o).
Proof. intros ->. now left. Qed.
Lemma height_list {A} n (f : A -> xml) l a : In a l -> height (f a) < height (list_tag n f l).
Proof. intros H. apply height_in. now apply in_map. Qed.

Ltac somewhere H := repeat (apply in_or_app; first [left; exact H | right]); exact H.

Global Hint Resolve rt_evidence : rt.
Lemma rt_component F v n : forall x, height (wr_component v x) < n ->
  reads "component" (rd_component F v n) (wr_component v x) (kx_component v x).
Proof.
  induction n as [|n IH]; intros x H; [lia|].
  assert (HC : forall l a, c_components x = Some l -> In a l ->
            reads "component" (rd_component F v n) (wr_component v a) (kx_component v a)).
  { intros l a E Ha. apply IH. pose proof (in_opt_list "components" (wr_component v) _ l E) as K.
    pose proof (height_list "components" (wr_component v) l a Ha) as K2.
    rewrite wr_component_eq in H.
    match type of H with height (Elem ?n ?a ?ks) < _ =>
      assert (K3 : height (list_tag "components" (wr_component v) l) < height (Elem n a ks))
        by (apply height_in; somewhere K) end. lia. }
  assert (HP : forall p, c_pedigree x = Some p ->
            reads "pedigree" (rd_pedigree (rd_component F v n)) (wr_pedigree (wr_component v) p)
              (kx_pedigree (kx_component v) p)).
  { intros p E. apply rt_pedigree. intros c Hc. apply IH.
    pose proof (in_opt (wr_pedigree (wr_component v)) _ p E) as K.
    rewrite wr_component_eq in H.
    match type of H with height (Elem ?n ?a ?ks) < _ =>
      assert (K3 : height (wr_pedigree (wr_component v) p) < height (Elem n a ks))
        by (apply height_in; somewhere K) end.
    clear K.
    assert (K4 : height (wr_component v c) < height (wr_pedigree (wr_component v) p)).
    { unfold wr_pedigree. destruct Hc as [Hc|[Hc|Hc]].
      - destruct (pd_ancestors p) as [l|] eqn:El; [|contradiction].
        eapply Nat.lt_trans; [apply (height_list "ancestors" _ l c Hc)|].
        apply height_in. pose proof (in_opt_list "ancestors" (wr_component v) _ l El) as K. rewrite El in K. somewhere K.
      - destruct (pd_descendants p) as [l|] eqn:El; [|contradiction].
        eapply Nat.lt_trans; [apply (height_list "descendants" _ l c Hc)|].
        apply height_in. pose proof (in_opt_list "descendants" (wr_component v) _ l El) as K. rewrite El in K. somewhere K.
      - destruct (pd_variants p) as [l|] eqn:El; [|contradiction].
        eapply Nat.lt_trans; [apply (height_list "variants" _ l c Hc)|].
        apply height_in. pose proof (in_opt_list "variants" (wr_component v) _ l El) as K. rewrite El in K. somewhere K. }
    lia. }
  rewrite kx_component_eq, wr_component_eq. cbn [rd_component].
  clear H IH.
  eapply reads_struct_eq.
  - fields.
  - attrs_distinct.
  - rewrite (keep_only_if _ _ entity_written_eq), (keep_only_if _ _ evidence_written_eq).
    steps. unfold since, trimo.
    destruct (c_version x), (version_leb V1_4 v); cbn [option_map bindo]; try reflexivity;
      cbn [attr app String.eqb Ascii.eqb Bool.eqb]; attr_simp; rewrite ?classification_back; try reflexivity.
Qed.

(** Writing and reading XML documents: C40, C41, C42, C43, C45. *)
From Coq Require Import NArith ZArith.
From Verif Require Import Base ModelTypes Strings Enums GenModel Json JsonLemmas JsonModel JsonSpec JsonProofs4
  Xml XmlLemmas XmlModel XmlSpec XmlRead XmlProofs2 XmlProofs3 XmlProofs4.
Open Scope string_scope.
Open Scope list_scope.
Open Scope nat_scope.

(** ** Floating point numbers
    The theorems below assume that the text of an [f32] reads back as the [f32]
    ([float_text_ok]); this is a way to do it. *)
Fixpoint until_e (s : string) : string * string :=
  match s with
  | "" => ("", "")
  | String a s' => if Ascii.eqb a "e" then ("", s') else let (x, y) := until_e s' in (String a x, y)
  end.
Definition sample_floats : float_text :=
  {| show_f32 f :=
       match f with
       | F_nan => "NaN"
       | F_inf true => "-inf"
       | F_inf false => "inf"
       | F_fin s m e =>
           (if s then "-" else "+") ++ string_of_N m ++ "e" ++ (if (e <? 0)%Z then "-" else "+") ++ string_of_N (Z.abs_N e)
       end;
     read_f32 t :=
       if String.eqb t "NaN" then Some F_nan
       else if String.eqb t "-inf" then Some (F_inf true)
       else if String.eqb t "inf" then Some (F_inf false)
       else match t with
            | String c t' =>
                let (m, r) := until_e t' in
                match parse_digits m, r with
                | Some m, String c' r' =>
                    match parse_digits r' with
                    | Some e => Some (F_fin (Ascii.eqb c "-") m
                                        (if Ascii.eqb c' "-" then Z.opp (Z.of_N e) else Z.of_N e))
                    | None => None
                    end
                | _, _ => None
                end
            | "" => None
            end |}%string.
Lemma until_e_digits s r : digits s -> until_e (s ++ String "e" r) = (s, r).
Proof.
  induction 1 as [|a s Ha Hs IH]; [reflexivity|]. cbn [append until_e]. rewrite IH.
  digit_cases Ha; reflexivity.
Qed.
Fixpoint no_space (s : string) : bool :=
  match s with "" => true | String a s' => negb (xml_space a) && no_space s' end.
Lemma xtrim_no_space s : no_space s = true -> xtrim s = s.
Proof.
  intros H. unfold xtrim.
  assert (E : xtrim_start s = s).
  { destruct s as [|a s]; [reflexivity|]. cbn [no_space xtrim_start] in *. now destruct (xml_space a). }
  rewrite E. clear E. induction s as [|a s IH]; [reflexivity|]. cbn [no_space xtrim_end] in *.
  apply Bool.andb_true_iff in H. destruct H as [Ha Hs]. rewrite IH by exact Hs.
  destruct s; [|reflexivity]. now destruct (xml_space a).
Qed.
Lemma no_space_app s t : no_space s = true -> no_space t = true -> no_space (s ++ t) = true.
Proof.
  intros Hs Ht. induction s as [|a s IH]; [exact Ht|]. cbn [append no_space] in *.
  apply Bool.andb_true_iff in Hs. destruct Hs as [Ha Hs]. now rewrite Ha, IH.
Qed.
Lemma no_space_digits s : digits s -> no_space s = true.
Proof. induction 1 as [|a s Ha Hs IH]; [reflexivity|]. cbn [no_space]. rewrite IH. digit_cases Ha; reflexivity. Qed.
Example sample_floats_ok : float_text_ok sample_floats.
Proof.
  intros [|[]|s m e]; try (split; reflexivity).
  destruct (string_of_N_digits m) as [Dm _]. destruct (string_of_N_digits (Z.abs_N e)) as [De _]. split.
  - assert (G : forall c c', (c = "-" \/ c = "+")%char -> (c' = "-" \/ c' = "+")%char ->
        read_f32 sample_floats (String c (string_of_N m ++ String "e" (String c' (string_of_N (Z.abs_N e)))))
        = Some (F_fin (Ascii.eqb c "-") m (if Ascii.eqb c' "-" then Z.opp (Z.of_N (Z.abs_N e)) else Z.of_N (Z.abs_N e)))).
    { intros c c' Hc Hc'. cbn [read_f32 sample_floats].
      assert (X : forall u, In u ["NaN"; "-inf"; "inf"] ->
         String.eqb (String c (string_of_N m ++ String "e" (String c' (string_of_N (Z.abs_N e))))) u = false).
      { intros u Hu. apply String.eqb_neq. intros K.
        destruct Dm as [|a t Ha _].
        - destruct Hu as [<-|[<-|[<-|[]]]]; destruct Hc as [->| ->]; discriminate K.
        - destruct Hu as [<-|[<-|[<-|[]]]]; injection K as K1 K2 K3; subst; cbn [In] in Ha;
            repeat (destruct Ha as [Ha|Ha]; [discriminate|]); exact Ha. }
      rewrite !X by (cbn; tauto). rewrite until_e_digits by exact Dm.
      rewrite !parse_string_of_N. reflexivity. }
    destruct s; [pose proof (G "-"%char) as G1 | pose proof (G "+"%char) as G1];
      (destruct (Z.ltb_spec e 0); [specialize (G1 "-"%char) | specialize (G1 "+"%char)]); cbn [append show_f32 sample_floats];
      unfold show_f32, sample_floats;
      (destruct (Z.ltb_spec e 0); [|lia] || idtac); (try (destruct (Z.ltb_spec e 0); [lia|]));
      (etransitivity; [apply G1; tauto|]); cbn [Ascii.eqb Bool.eqb]; do 2 f_equal; lia.
  - apply xtrim_no_space. cbn [show_f32 sample_floats].
    repeat apply no_space_app; try (apply no_space_digits; assumption); try reflexivity.
    + now destruct s.
    + now destruct (e <? 0)%Z.
Qed.

(** ** Example documents *)
Definition xml_component (n : string) (ver : option string) (li : option (list license_choice))
  (sub : option (list component)) : component :=
  {| c_type := CLibrary; c_mime_type := Some "text/plain"; c_bom_ref := Some n; c_supplier := None;
     c_author := Some " A. Author "; c_publisher := None; c_group := None; c_name := n; c_version := ver;
     c_description := None; c_scope := Some ScRequired; c_hashes := Some [mkHash SHA_256 "00"];
     c_licenses := li; c_copyright := None; c_cpe := None; c_purl := Some "pkg:cargo/a@1.0.0"; c_swid := None;
     c_modified := Some true; c_pedigree := None;
     c_external_references := Some [mkExtRef ERWebsite (RUrl "https://example.com") None None];
     c_properties := Some [mkProp "p" "v"]; c_components := sub; c_evidence := None; c_signature := None;
     c_model_card := None; c_data := None |}.
Definition xml_service : service :=
  {| s_bom_ref := None; s_provider := None; s_group := None; s_name := "svc"; s_version := None;
     s_description := None; s_endpoints := Some ["https://example.com"]; s_authenticated := Some false;
     s_x_trust_boundary := None; s_data := Some (DClassification [mkDataClass DFInbound "PII"]);
     s_licenses := None; s_external_references := None; s_properties := None; s_services := None;
     s_signature := None; s_trust_zone := Some "zone" |}.
Definition xml_vulnerability (detail : option string) : vulnerability :=
  {| v_bom_ref := Some "v1"; v_id := Some "CVE-1"; v_source := None; v_references := None;
     v_ratings := Some [mkRating None (Some (F_fin false 3%N (-1)%Z)) (Some SevHigh) None None None];
     v_cwes := Some [u32_1]; v_description := None; v_detail := detail; v_recommendation := None;
     v_workaround := None; v_proof_of_concept := None; v_advisories := None; v_created := None;
     v_published := None; v_updated := None; v_rejected := None; v_credits := None; v_tools := None;
     v_analysis := None;
     v_targets := Some [mkTarget "a" (Some [mkVersion (VRVersion "1.0") StAffected])]; v_properties := None |}.
Definition xml_bom (v : spec_version) (cs : list component) : bom :=
  {| b_version := u32_1; b_serial_number := Some "urn:uuid:3e671687-395b-41f5-a30f-a58921a69b79";
     b_metadata := None; b_components := Some cs; b_services := Some [xml_service];
     b_external_references := None; b_dependencies := Some [mkDependency "a" ["b"]];
     b_compositions := Some [mkComposition None AComplete (Some ["a"]) None None None]; b_properties := None;
     b_vulnerabilities := Some [xml_vulnerability (Some "detail")]; b_signature := None; b_annotations := None;
     b_formulation := None; b_spec_version := v |}.
Definition mit : license_choice := LicLicense (mkLicense None (LSpdxId "MIT") None None None None).
Definition nested_xml (v : spec_version) : bom :=
  xml_bom v [xml_component "a" (Some "1.0.0") (Some [mit]) (Some [xml_component "b" (Some "2.0.0") None None])].

(** ** C40, C41, C42: a document that was written reads back as what its XML says of the BOM
    [kx_bom] (XmlSpec.v) says what that is; it is [None] for the few BOMs whose document the parser of the
    same version refuses. *)
Theorem C40_xml_round_trip F b w :
  output_as_xml F V1_3 b = Done w ->
  parse_from_xml F V1_3 (written w) = match kx_bom V1_3 b with Some b' => XOk b' [] | None => XErr end.
Proof.
  unfold output_as_xml. destruct (check_bom V1_3 b); try discriminate. intros [= <-].
  apply write_then_parse. discriminate.
Qed.
Theorem C41_xml_round_trip F b w :
  float_text_ok F -> output_as_xml F V1_4 b = Done w ->
  parse_from_xml F V1_4 (written w) = match kx_bom V1_4 b with Some b' => XOk b' [] | None => XErr end.
Proof.
  unfold output_as_xml. destruct (check_bom V1_4 b); try discriminate. intros HF [= <-].
  apply write_then_parse. auto.
Qed.
Theorem C42_xml_round_trip F b w :
  float_text_ok F -> output_as_xml F V1_5 b = Done w ->
  parse_from_xml F V1_5 (written w) = match kx_bom V1_5 b with Some b' => XOk b' [] | None => XErr end.
Proof.
  unfold output_as_xml. destruct (check_bom V1_5 b); try discriminate. intros HF [= <-].
  apply write_then_parse. auto.
Qed.
(** Written for 1.3 the example loses its vulnerabilities, the service its trust zone, the authors their
    blanks; nothing else. *)
Example C40_example : exists w b',
  output_as_xml sample_floats V1_3 (nested_xml V1_3) = Done w
  /\ parse_from_xml sample_floats V1_3 (written w) = XOk b' []
  /\ b_vulnerabilities b' = None
  /\ option_map (map c_author) (b_components b') = Some [Some "A. Author"]
  /\ option_map (map s_trust_zone) (b_services b') = Some [None]
  /\ option_map (map c_licenses) (b_components b') = Some [Some [mit]]
  /\ option_map (map (fun c => option_map (map c_name) (c_components c))) (b_components b') = Some [Some ["b"]].
Proof.
  eexists _, _. split; [reflexivity|]. split; [rewrite (C40_xml_round_trip _ (nested_xml V1_3)) by reflexivity; reflexivity|].
  repeat split.
Qed.
Example C42_example : exists w b',
  output_as_xml sample_floats V1_5 (nested_xml V1_5) = Done w
  /\ parse_from_xml sample_floats V1_5 (written w) = XOk b' []
  /\ b_vulnerabilities b' = b_vulnerabilities (nested_xml V1_5) /\ b_services b' = b_services (nested_xml V1_5).
Proof.
  eexists _, _. split; [reflexivity|].
  split; [rewrite (C42_xml_round_trip _ (nested_xml V1_5) _ sample_floats_ok) by reflexivity; reflexivity|]. repeat split.
Qed.

(** what every document keeps in any case *)
Theorem C40_always_kept v b b' :
  kx_bom v b = Some b' ->
  b_version b' = b_version b /\ b_serial_number b' = b_serial_number b
  /\ b_dependencies b' = b_dependencies b /\ b_spec_version b' = v
  /\ map c_name (olist (b_components b')) = map xtrim (map c_name (olist (b_components b)))
  /\ map c_bom_ref (olist (b_components b')) = map c_bom_ref (olist (b_components b))
  /\ map c_version (olist (b_components b')) = map (option_map xtrim) (map c_version (olist (b_components b)))
  /\ map s_name (olist (b_services b')) = map xtrim (map s_name (olist (b_services b))).
Proof.
  unfold kx_bom. intros H.
  destruct (maybe (kx_metadata v) (b_metadata b)); [cbn [bindo] in H|discriminate].
  destruct (maybe (each (kx_component v)) (b_components b)) as [cs|] eqn:EC; [cbn [bindo] in H|discriminate].
  destruct (maybe (each (kx_service v)) (b_services b)) as [ss|] eqn:ES; [cbn [bindo] in H|discriminate].
  destruct (gate V1_4 v _); [cbn [bindo] in H|discriminate].
  destruct (gate V1_5 v _); [cbn [bindo] in H|discriminate].
  injection H as <-. cbn [b_version b_serial_number b_dependencies b_spec_version b_components b_services].
  assert (MO : forall A B (k : A -> option B) o r, maybe (each k) o = Some r ->
            Forall2 (fun x y => k x = Some y) (olist o) (olist r)).
  { clear. intros A B k o r H. destruct o as [l|]; cbn in H; [|injection H as <-; constructor].
    destruct (each k l) as [l'|] eqn:E; [|discriminate]. injection H as <-. cbn [olist].
    revert l' E. induction l as [|x l IH]; cbn; intros l' E; [injection E as <-; constructor|].
    destruct (k x) as [y|] eqn:K; [|discriminate]. cbn in E. destruct (each k l); [|discriminate]. injection E as <-.
    constructor; auto. }
  apply MO in EC, ES.
  assert (MM : forall A B C (R : A -> B -> Prop) (f : A -> C) (g : B -> C) l l',
            (forall x y, R x y -> g y = f x) -> Forall2 R l l' -> map g l' = map f l).
  { clear. intros A B C R f g l l' H. induction 1; cbn; f_equal; auto. }
  repeat (split; [reflexivity|]). rewrite !map_map.
  assert (KC : forall x y, kx_component v x = Some y ->
            c_name y = xtrim (c_name x) /\ c_bom_ref y = c_bom_ref x /\ c_version y = option_map xtrim (c_version x)).
  { intros x y K. rewrite kx_component_eq in K.
    do 7 (match type of K with bindo ?e _ = _ => destruct e; [cbn [bindo] in K|discriminate] end).
    destruct (c_version x); cbn [trimo option_map bindo] in K; [|destruct (version_leb V1_4 v); [|discriminate]];
      injection K as <-; auto. }
  repeat split.
  - eapply MM; [|exact EC]. intros x y K. apply (KC x y K).
  - eapply MM; [|exact EC]. intros x y K. apply (KC x y K).
  - eapply MM; [|exact EC]. intros x y K. apply (KC x y K).
  - eapply MM; [|exact ES]. intros x y K. cbv beta in K. rewrite kx_service_eq in K.
    repeat match type of K with bindo ?e _ = _ => destruct e; [cbn [bindo] in K|discriminate] end.
    injection K as <-. reflexivity.
Qed.
Example C40_always_kept_example : exists b', kx_bom V1_3 (nested_xml V1_3) = Some b' /\ olist (b_components b') <> [].
Proof. eexists. split; [vm_compute; reflexivity|discriminate]. Qed.

(** Not every document that is written can be read: in every version a license whose name is blank. *)
Theorem C40_unreadable_refuted : forall v, exists b w,
  output_as_xml sample_floats v b = Done w /\ parse_from_xml sample_floats v (written w) = XErr.
Proof.
  intros v. exists (xml_bom v [xml_component "a" (Some "1") (Some [LicLicense (mkLicense None (LName " ") None None None None)]) None]).
  eexists. split; [destruct v; reflexivity|]. rewrite write_then_parse by (intros _; exact sample_floats_ok).
  destruct v; reflexivity.
Qed.
(** In 1.5 the documents also lose what the version could represent: the signature of the BOM. *)
Definition signed : bom :=
  {| b_version := u32_1; b_serial_number := None; b_metadata := None; b_components := None; b_services := None;
     b_external_references := None; b_dependencies := None; b_compositions := None; b_properties := None;
     b_vulnerabilities := None; b_signature := Some (SigSingle (mkSigner HS512 "1234567890"));
     b_annotations := None; b_formulation := None; b_spec_version := V1_5 |}.
Theorem C42_lossy_refuted : exists w b',
  output_as_xml sample_floats V1_5 signed = Done w
  /\ parse_from_xml sample_floats V1_5 (written w) = XOk b' [] /\ b_signature b' = None
  /\ b_signature (kept_bom V1_5 signed) <> None.
Proof.
  eexists _, _. split; [reflexivity|].
  split; [rewrite (C42_xml_round_trip _ signed _ sample_floats_ok) by reflexivity; reflexivity|].
  split; [reflexivity|discriminate].
Qed.
Print Assumptions C40_xml_round_trip.
Print Assumptions C41_xml_round_trip.
Print Assumptions C42_xml_round_trip.
Print Assumptions C40_always_kept.

(** ** C43: when writing fails *)
Theorem C43_xml_output_fails_iff F v b :
  (exists w, output_as_xml F v b = Done w) <->
  (v = V1_3 -> forall c, bom_component v b c -> c_version c <> None).
Proof.
  rewrite <- all_versioned_components. unfold output_as_xml.
  destruct (check_bom_iff v b) as [[-> H]|[-> H]]; cbn; split; eauto; try tauto.
  intros [? ?]. discriminate.
Qed.
Theorem C43_xml_output_error F v b :
  (exists w, output_as_xml F v b = Done w)
  \/ (output_as_xml F v b = Fail "Failed to convert Bom: Failed to serialize BOM with version V1_3: version missing"
      /\ v = V1_3 /\ exists c, bom_component v b c /\ c_version c = None).
Proof.
  unfold output_as_xml. destruct (check_bom_iff v b) as [[E H]|[E H]]; rewrite E; cbn; [left; eauto|right].
  split; [reflexivity|]. apply (output_fails v b missing_version). unfold output_as_json. now rewrite E.
Qed.
Example C43_xml_example :
  (exists w, output_as_xml sample_floats V1_4 (xml_bom V1_4 [xml_component "a" None None None]) = Done w)
  /\ output_as_xml sample_floats V1_3 (xml_bom V1_4 [xml_component "a" None None None]) = Fail missing_version.
Proof. split; [eexists; vm_compute; reflexivity|vm_compute; reflexivity]. Qed.
Print Assumptions C43_xml_output_fails_iff.
Print Assumptions C43_xml_output_error.

(** ** C45: the parser of a version accepts only documents in the namespace of the version *)
Theorem C45_xml_namespace F v d b rest :
  parse_from_xml F v d = XOk b rest ->
  (exists ats evs, doc_events d = EStart "bom" ats :: evs)
  /\ doc_namespace d = Some (match v with
                            | V1_3 => "http://cyclonedx.org/schema/bom/1.3"
                            | V1_4 => "http://cyclonedx.org/schema/bom/1.4"
                            | V1_5 => "http://cyclonedx.org/schema/bom/1.5"
                            end)
  /\ b_spec_version b = v /\ rest = [].
Proof.
  unfold parse_from_xml. destruct (doc_events d) as [|[n ats| | | | |] evs] eqn:E; try discriminate.
  destruct (String.eqb_spec n "bom") as [->|]; [|discriminate].
  destruct (doc_namespace d) as [ns|]; [|discriminate].
  destruct (String.eqb_spec ns (namespace v)) as [->|]; [|discriminate].
  intros H. split; [eauto|]. split; [destruct v; reflexivity|].
  destruct (run _ "bom" ats evs) as [b' r| | |] eqn:R; try discriminate. cbn [xbind] in H.
  destruct r; [|discriminate]. injection H as <- <-. split; [|reflexivity].
  unfold rd_bom, struct in R. cbn [run] in R.
  match type of R with xbind ?e _ = _ => destruct e as [st r'| | |]; try discriminate end. cbn [xbind] in R.
  destruct st as (m & c & s & er & de & co & p & vu & f & sg & an).
  destruct (attr_of xml_u32 "version" ats); [|discriminate]. cbn [bindo] in R. now injection R as <-.
Qed.
(** hence a document written for one version is refused by the parsers of the others *)
Theorem C45_xml_other_version F F' v v' b w :
  output_as_xml F v b = Done w -> v <> v' -> forall b' rest, parse_from_xml F' v' (written w) <> XOk b' rest.
Proof.
  intros O N b' rest P. apply C45_xml_namespace in P. destruct P as (_ & P & _).
  unfold output_as_xml in O. destruct (check_bom v b); try discriminate. injection O as <-.
  cbn in P. destruct v, v'; try discriminate; congruence.
Qed.
Example C45_xml_example : exists w b', output_as_xml sample_floats V1_4 (nested_xml V1_4) = Done w
  /\ parse_from_xml sample_floats V1_4 (written w) = XOk b' [] /\ parse_from_xml sample_floats V1_5 (written w) = XErr.
Proof.
  eexists _, _. split; [reflexivity|].
  split; [rewrite (C41_xml_round_trip _ (nested_xml V1_4) _ sample_floats_ok) by reflexivity; reflexivity|reflexivity].
Qed.
Print Assumptions C45_xml_namespace.
Print Assumptions C45_xml_other_version.

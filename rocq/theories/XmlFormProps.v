(** Reading documents in the form of the standard (C66). *)
From Coq Require Import NArith ZArith.
From Verif Require Import Base ModelTypes Strings Enums Json JsonModel JsonSpec Xml XmlLemmas XmlModel XmlSpec XmlRead XmlProofs
  XmlProofs2 XmlProofs3 XmlProofs4 XmlProps XmlResaveProps XmlForm XmlFormRead XmlFormProofs2.
Open Scope string_scope.
Open Scope list_scope.
Open Scope nat_scope.

(** ** C66: every document that says the same as the standard form of a BOM is read as that BOM
    [form_bom], [said_bom] and [same_document] are in XmlForm.v. *)
Theorem C66_reads_the_format F v b b' y :
  float_text_exact F -> said_bom v b = Some b' -> same_document (form_bom (show_f32 F) v b) y ->
  parse_from_xml F v (written (namespace v, y)) = XOk b' [].
Proof.
  intros HF E Y.
  assert (H : reads "bom" (rd_bom F v (S (pred (List.length (flats (reparse y)))))) y (Some b')).
  { destruct (te_bom F v HF (S (pred (List.length (flats (reparse y))))) b) as [_ H]. apply H; [exact Y| |exact E].
    pose proof (height_flats y). lia. }
  unfold written. cbn [fst snd]. destruct H as (ats & ks & -> & H).
  unfold checked in H. destruct (attrs_ok (Elem "bom" ats ks)); [|discriminate].
  cbn [reparse] in *. fold (reparses ks) in *. unfold flats in H |- * at 1. cbn [flat_map flat app] in H |- *. rewrite app_nil_r in *.
  fold (flats (reparses ks)) in *.
  unfold parse_from_xml. cbn [doc_events doc_namespace]. rewrite String.eqb_refl.
  cbn [String.eqb Ascii.eqb Bool.eqb]. rewrite String.eqb_refl. cbn [List.length pred] in H.
  pose proof (run_tr (rd_bom F v (S (List.length (flats (reparses ks) ++ [EEnd "bom"])))) "bom" ats (reparses ks) []) as R.
  rewrite H in R. cbn [of_opt agree] in R. rewrite R. reflexivity.
Qed.
(** in particular a BOM of version [v] without unneeded white space is read exactly *)
Corollary C66_reads_exactly F v b y :
  float_text_exact F -> said_bom v b = Some b -> same_document (form_bom (show_f32 F) v b) y ->
  parse_from_xml F v (written (namespace v, y)) = XOk b [].
Proof. apply C66_reads_the_format. Qed.
(** documents of different BOMs never say the same *)
Corollary C66_unambiguous F v b c b' c' y :
  float_text_exact F -> said_bom v b = Some b' -> said_bom v c = Some c' ->
  same_document (form_bom (show_f32 F) v b) y -> same_document (form_bom (show_f32 F) v c) y -> b' = c'.
Proof.
  intros HF B C Sb Sc. pose proof (C66_reads_the_format F v b b' y HF B Sb) as X.
  rewrite (C66_reads_the_format F v c c' y HF C Sc) in X. congruence.
Qed.

(** ** The hypotheses are met *)
Definition dense (a : ascii) : Prop := forall t, strip_ws (String a t) = None.
Fixpoint solid (s : string) : Prop := match s with "" => True | String a s' => dense a /\ solid s' end.
Lemma solid_start s : solid s -> trim_start s = s.
Proof. destruct s as [|a s]; [reflexivity|]. intros [D _]. unfold trim_start. cbn [String.length trim_start_n]. now rewrite D. Qed.
Lemma solid_trim s : solid s -> trim s = s.
Proof.
  intros H. unfold trim. rewrite solid_start by exact H. induction s as [|a s IH]; [reflexivity|]. cbn [trim_end].
  rewrite solid_start by exact H. cbn [String.eqb]. rewrite IH; [reflexivity|apply H].
Qed.
Lemma solid_app s t : solid s -> solid t -> solid (s ++ t).
Proof. intros Hs Ht. induction s as [|a s IH]; [exact Ht|]. cbn [append solid] in *. destruct Hs. split; auto. Qed.
Lemma solid_digits s : digits s -> solid s.
Proof.
  induction 1 as [|a s Ha Hs IH]; [exact I|]. split; [|exact IH]. intros t.
  digit_cases Ha; destruct t as [|b [|c t]]; reflexivity.
Qed.
Ltac solid := repeat split; intros [|? [|? ?]]; reflexivity.
Example C66_floats : float_text_exact sample_floats.
Proof.
  intros f. destruct (sample_floats_ok f) as [R X]. split; [exact R|]. split; [exact X|]. split.
  - apply solid_trim. destruct f as [|[]|s m e]; cbn [show_f32 sample_floats]; try solid.
    repeat apply solid_app; try (apply solid_digits, string_of_N_digits); try solid.
    + destruct s; solid.
    + destruct (e <? 0)%Z; solid.
  - destruct f as [|[]|[] m e]; discriminate.
Qed.

(** A document that says the same: attributes in another order, white space before every child and text, and the children
    that are called as the first one after the others. *)
Definition same_name (x y : xml) : bool := called (name_of x) y.
Definition reorder (n : string) (l : list xml) : list xml :=
  match l with
  | x :: _ => if mixed_list n then l else filter (fun y => negb (same_name x y)) l ++ filter (same_name x) l
  | [] => []
  end.
Definition apart (l : list xml) : list xml := flat_map (fun x => [Text " "; x]) l.
Fixpoint mess (x : xml) : xml :=
  match x with
  | Elem n ats ks => Elem n (rev ats) (apart (reorder n (map mess ks)))
  | Text s => Text (String " " s)
  | other => other
  end.
Fixpoint plain (x : xml) : bool :=
  match x with
  | Elem _ _ ks => (fix all l := match l with k :: l' => plain k && all l' | [] => true end) ks
  | PI => false
  | _ => true
  end.
Lemma called_name m x : called m x = true <-> name_of x = m.
Proof.
  unfold called. destruct m as [a|], (name_of x) as [b|]; try (split; congruence).
  rewrite String.eqb_eq. split; congruence.
Qed.
Lemma visible_apart l : visible (apart l) = visible l.
Proof. induction l as [|x l IH]; [reflexivity|]. change (apart (x :: l)) with ([Text " "; x] ++ apart l). unfold visible in *. cbn. now rewrite IH. Qed.
Lemma filter_pull {A} (p q : A -> bool) l : filter p (filter q l) = filter (fun x => q x && p x) l.
Proof. induction l as [|x l IH]; [reflexivity|]. cbn. destruct (q x); cbn; [destruct (p x)|]; now rewrite ?IH. Qed.
Lemma filter_none {A} (p : A -> bool) l : (forall x, p x = false) -> filter p l = [].
Proof. intros H. induction l as [|x l IH]; [reflexivity|]. cbn. now rewrite H. Qed.
Lemma reorder_shuffled n l : mixed_list n = false -> shuffled l (reorder n l).
Proof.
  intros M m. unfold reorder. destruct l as [|x l]; [reflexivity|]. rewrite M. remember (x :: l) as k. clear Heqk.
  unfold visible. rewrite filter_app, filter_app, !filter_pull.
  destruct (called m x) eqn:E.
  - rewrite (filter_none (fun y => negb (same_name x y) && (negb (blank y) && called m y)) k); [cbn [app]|].
    + apply filter_ext. intros y. unfold same_name. apply called_name in E. rewrite E. now destruct (called m y), (blank y).
    + intros y. unfold same_name. apply called_name in E. rewrite E. destruct (called m y), (blank y); reflexivity.
  - rewrite (filter_none (fun y => same_name x y && (negb (blank y) && called m y)) k); [rewrite app_nil_r|].
    + apply filter_ext. intros y. unfold same_name. destruct (called m y) eqn:C; [|now destruct (blank y), (called (name_of x) y)].
      destruct (called (name_of x) y) eqn:D; [|reflexivity]. apply called_name in C, D. rewrite C in D.
      rewrite (proj2 (called_name m x)) in E; congruence.
    + intros y. unfold same_name. destruct (called (name_of x) y) eqn:D; [|reflexivity]. destruct (called m y) eqn:C; [|now destruct (blank y)].
      apply called_name in C, D. rewrite C in D. rewrite (proj2 (called_name m x)) in E; congruence.
Qed.
Lemma mess_same : forall x, plain x = true -> same_document x (mess x).
Proof.
  induction x as [n ats ks IH|s|s|] using xml_ind'; intros P; try discriminate.
  - cbn [mess]. eapply same_elem with (ks' := map mess ks); [apply Permutation_rev| |].
    + cbn [plain] in P. induction IH as [|k ks Hk Hks IHks]; [constructor|]. apply andb_prop in P. destruct P as [P1 P2].
      constructor; auto.
    + destruct (mixed_list n) eqn:M.
      * rewrite visible_apart. destruct ks; [reflexivity|]. cbn [map reorder]. now rewrite M.
      * intros m. rewrite visible_apart. now apply reorder_shuffled.
  - constructor. reflexivity.
  - constructor.
Qed.
Corollary C66_messy F v b b' :
  float_text_exact F -> said_bom v b = Some b' -> plain (form_bom (show_f32 F) v b) = true ->
  parse_from_xml F v (written (namespace v, mess (form_bom (show_f32 F) v b))) = XOk b' [].
Proof. intros HF E P. eapply C66_reads_the_format; eauto using mess_same. Qed.

Definition xml_component_plain : component :=
  mkComponent CFile None None None None None None "f" (Some "2") None None None None None None None None None None None None None
    None None None None.
(** an example with the parts the library reads and never writes *)
Definition acme : license_contact := LCOrganization (mkEntity (Some "o") (Some "Acme") (Some ["https://acme.example"]) None).
Definition paid : licensing :=
  mkLicensing (Some ["a"; "b"]) (Some acme) (Some (LCContact (mkContact None (Some "Sam") None None))) None (Some "PO-1")
    (Some [LTPerpetual; LTUser]) (Some "2022-01-01T00:00:00Z") None.
Definition proof_of_origin : evidence :=
  mkEvidence (Some [LicExpression None "MIT OR Apache-2.0"]) (Some ["Copyright 2023"]) (Some [mkOccurrence (Some "oc") "/lib"])
    (Some [mkFrame (Some "p") "m" (Some "f") (Some ["x"; "y"]) (Some u32_1) None (Some "f.rs")])
    (Some (mkIdentity IFPurl (Some (F_fin false 5 (-1)%Z)) (Some [mkMethod "filename" (F_fin false 1 0%Z) (Some "v")])
             (Some ["t1"; "t2"]))).
Definition standard_component : component :=
  {| c_type := CLibrary; c_mime_type := Some "text/plain"; c_bom_ref := Some "c"; c_supplier := None;
     c_author := Some "A. Author"; c_publisher := None; c_group := None; c_name := "n"; c_version := Some "1";
     c_description := None; c_scope := Some ScRequired; c_hashes := Some [mkHash SHA_256 "00"];
     c_licenses := Some [LicLicense (mkLicense (Some "l") (LName "own") None None (Some paid) None); mit];
     c_copyright := None; c_cpe := None; c_purl := Some "pkg:cargo/a@1.0.0"; c_swid := None;
     c_modified := Some true; c_pedigree := Some (mkPedigree (Some [xml_component_plain]) None None None None (Some "notes"));
     c_external_references := None; c_properties := Some [mkProp "p" "v"]; c_components := Some [xml_component_plain];
     c_evidence := Some proof_of_origin; c_signature := None; c_model_card := None; c_data := None |}.
Definition standard_workflow : workflow :=
  {| wf_bom_ref := "w"; wf_uid := "u"; wf_name := None; wf_description := None;
     wf_resource_references := Some [RRRef "r"; RRExternal (mkExtRef ERWebsite (RUrl "https://example.com") None None)];
     wf_tasks := Some [mkTask "t" "u" None None None [TTBuild; TTTest] None
                         (Some [mkStep (Some [mkCommand (Some "make") None]) None (Some "s") None])
                         (Some [mkInput (RIData (mkAttachment "AA" (Some "text/plain") (Some "base64"))) None None None])
                         None None None None None None];
     wf_task_dependencies := None; wf_task_types := [TTBuild]; wf_trigger := None; wf_steps := None;
     wf_inputs := Some [mkInput (RIEnvironmentVars [EVProperty "n" "v"; EVValue "w"; EVProperty "m" "x"]) None (Some (RRRef "r")) None];
     wf_outputs := None; wf_time_start := None; wf_time_end := None; wf_workspaces := None; wf_runtime_topology := None;
     wf_properties := None |}.
Definition standard_vulnerability : vulnerability :=
  {| v_bom_ref := Some "v1"; v_id := Some "CVE-1"; v_source := None; v_references := None;
     v_ratings := Some [mkRating None (Some (F_fin false 3%N (-1)%Z)) (Some SevHigh) None None None];
     v_cwes := Some [u32_1]; v_description := None; v_detail := None; v_recommendation := None;
     v_workaround := None;
     v_proof_of_concept := Some (mkPoc (Some "steps") (Some "env") (Some [mkAttachment "AA" None (Some "base64")]));
     v_advisories := None; v_created := None;
     v_published := None; v_updated := None; v_rejected := None; v_credits := None; v_tools := None;
     v_analysis := None;
     v_targets := Some [mkTarget "a" (Some [mkVersion (VRVersion "1.0") StAffected])]; v_properties := None |}.
Definition standard_bom : bom :=
  {| b_version := u32_1; b_serial_number := Some "urn:uuid:3e671687-395b-41f5-a30f-a58921a69b79";
     b_metadata := None; b_components := Some [standard_component; xml_component_plain]; b_services := Some [xml_service];
     b_external_references := None; b_dependencies := Some [mkDependency "a" ["b"; "c"]];
     b_compositions := None; b_properties := None;
     b_vulnerabilities := Some [standard_vulnerability]; b_signature := Some (SigSingle (mkSigner ES256 "sig"));
     b_annotations := Some [mkAnnotation (Some "an") ["c"; "w"] (AnIndividual (mkContact None (Some "Sam") None None))
                              "2022-01-01T00:00:00Z" "Good." None];
     b_formulation := Some [mkFormula None None None (Some [standard_workflow]) None]; b_spec_version := V1_5 |}.
Example C66_case : parse_from_xml sample_floats V1_5
    (written (namespace V1_5, mess (form_bom (show_f32 sample_floats) V1_5 standard_bom))) = XOk standard_bom [].
Proof. apply C66_messy; [exact C66_floats|reflexivity|vm_compute; reflexivity]. Qed.
Example C66_case_differs : form_bom (show_f32 sample_floats) V1_5 standard_bom
    <> mess (form_bom (show_f32 sample_floats) V1_5 standard_bom).
Proof. vm_compute. discriminate. Qed.

(** ** The parts of the format that [said_bom] leaves out: properties of model cards are ignored, references to datasets and
    parameters of inputs make the document unreadable. *)
Definition with_card (kids : list xml) : list xml := one_component [Elem "modelCard" [] kids].
Theorem C66_model_card_refuted F : exists b cs c,
  parse_from_xml F V1_5 (document_of V1_5 (with_card [Elem "properties" [] [Elem "property" [("name", "n")] [Text "v"]]])) = XOk b []
  /\ b_components b = Some cs /\ In c cs /\ c_model_card c = Some (mkModelCard None None None None None).
Proof. do 3 eexists. split; [parses|]. split; [reflexivity|]. split; [left; reflexivity|]. reflexivity. Qed.
Theorem C66_unreadable_refuted F :
  parse_from_xml F V1_5 (document_of V1_5 (with_card [Elem "modelParameters" [] [Elem "datasets" [] [Elem "dataset" [("ref", "r")] []]]]))
  = XErr
  /\ parse_from_xml F V1_5 (document_of V1_5 (one_workflow [Elem "inputs" [] [Elem "input" [] [Elem "parameters" []
       [Elem "parameter" [] [Elem "name" [] [Text "n"]]]]]])) = XErr.
Proof. split; lazy; reflexivity. Qed.

Print Assumptions C66_reads_the_format.
Print Assumptions C66_reads_exactly.
Print Assumptions C66_unambiguous.
Print Assumptions C66_messy.
Print Assumptions C66_model_card_refuted.
Print Assumptions C66_unreadable_refuted.

(** Saving as XML, again and again (C61), and saving XML documents that were read (C62). *)
From Coq Require Import NArith ZArith.
From Verif Require Import Base ModelTypes Strings Enums GenModel Json JsonLemmas JsonModel JsonSpec
  Xml XmlLemmas XmlModel XmlSpec XmlGeneral XmlProofs2 XmlProofs3 XmlProofs4 XmlProps XmlSettle ReqProps XmlYield XmlResaveSpec XmlResave.
Open Scope string_scope.
Open Scope list_scope.
Open Scope nat_scope.

Lemma parsed F v d b : parse_from_xml F v d = XOk b [] ->
  exists n ats evs, doc_events d = EStart "bom" ats :: evs /\ run (rd_bom F v n) "bom" ats evs = XOk b [].
Proof.
  unfold parse_from_xml. destruct (doc_events d) as [|[n ats| | | | |] evs]; try discriminate.
  destruct (String.eqb_spec n "bom") as [->|]; [|discriminate].
  destruct (doc_namespace d) as [ns|]; [|discriminate]. destruct (String.eqb ns (namespace v)); [|discriminate].
  intros H. destruct (run _ "bom" ats evs) as [b' r| | |] eqn:R; try discriminate. cbn [xbind] in H.
  destruct r; [|discriminate]. injection H as <-. eauto.
Qed.

(** ** C62: an XML document that was read can be saved
    The document is any sequence of events; the version it is saved in is the one it was read in or a later one. *)
Theorem C62_saves F v w d b :
  parse_from_xml F v d = XOk b [] -> version_leb v w = true -> exists x, output_as_xml F w b = Done x.
Proof.
  intros P L. apply C43_xml_output_fails_iff. intros ->. assert (v = V1_3) as -> by (destruct v; [reflexivity|discriminate..]).
  destruct (parsed F V1_3 d b P) as (n & ats & evs & _ & R).
  apply (v_bom F n "bom" ats evs b [] Logic.I); [|exact R]. apply Forall_forall. intros ? _. exact Logic.I.
Qed.
(** [saves_well v]: XmlResaveSpec.v *)
Theorem C62_saved_is_readable F v w d b x :
  (version_leb V1_4 w = true -> float_text_ok F) ->
  parse_from_xml F v d = XOk b [] -> version_leb v w = true -> Forall (saves_well v) (doc_events d) ->
  output_as_xml F w b = Done x -> exists b', parse_from_xml F w (written x) = XOk b' [] /\ kx_bom w b = Some b'.
Proof.
  intros HF P L G O. destruct (parsed F v d b P) as (n & ats & evs & D & R). rewrite D in G. inversion G as [|? ? G0 G1]; subst.
  destruct (y_bom v w F L n "bom" ats evs b [] G0 G1 R) as (b' & K). exists b'. split; [|exact K].
  unfold output_as_xml in O. destruct (check_bom w b); try discriminate. injection O as <-.
  rewrite (write_then_parse F w b HF), K. reflexivity.
Qed.

(** ** C61: saving as XML and reading back, twice, is as good as any number of times *)
Theorem C61_xml_settles F v b x b1 :
  (version_leb V1_4 v = true -> float_text_ok F) ->
  output_as_xml F v b = Done x -> parse_from_xml F v (written x) = XOk b1 [] ->
  exists x1 b2 x2,
    output_as_xml F v b1 = Done x1 /\ parse_from_xml F v (written x1) = XOk b2 []
    /\ output_as_xml F v b2 = Done x2 /\ parse_from_xml F v (written x2) = XOk b2 [].
Proof.
  intros HF O P. assert (LL : version_leb v v = true) by now destruct v.
  pose proof P as P'. unfold output_as_xml in O. destruct (check_bom v b); try discriminate. injection O as <-.
  rewrite (write_then_parse F v b HF) in P'. destruct (kx_bom v b) as [b1'|] eqn:K1; [|discriminate]. injection P' as ->.
  destruct (st_bom v b b1 K1) as (b2 & K2 & K3).
  destruct (C62_saves F v v _ _ P LL) as (x1 & O1).
  assert (P1 : parse_from_xml F v (written x1) = XOk b2 []).
  { unfold output_as_xml in O1. destruct (check_bom v b1); try discriminate. injection O1 as <-.
    now rewrite (write_then_parse F v b1 HF), K2. }
  destruct (C62_saves F v v _ _ P1 LL) as (x2 & O2). exists x1, b2, x2. repeat split; try assumption.
  unfold output_as_xml in O2. destruct (check_bom v b2); try discriminate. injection O2 as <-.
  now rewrite (write_then_parse F v b2 HF), K3.
Qed.

(** saving and reading [n] times *)
Fixpoint saved_and_read (F : float_text) (v : spec_version) (n : nat) (b : bom) : option bom :=
  match n with
  | 0 => Some b
  | S n' => match output_as_xml F v b with
            | Done x => match parse_from_xml F v (written x) with XOk b' [] => saved_and_read F v n' b' | _ => None end
            | _ => None
            end
  end.
Theorem C61_any_number F v b b1 :
  (version_leb V1_4 v = true -> float_text_ok F) -> saved_and_read F v 1 b = Some b1 ->
  exists b2, forall n, 2 <= n -> saved_and_read F v n b = Some b2.
Proof.
  intros HF H. cbn [saved_and_read] in H. destruct (output_as_xml F v b) as [x| | |] eqn:O; try discriminate H.
  destruct (parse_from_xml F v (written x)) as [b1' r| | |] eqn:P; try discriminate H. destruct r; [|discriminate H]. injection H as ->.
  destruct (C61_xml_settles F v b x b1 HF O P) as (x1 & b2 & x2 & O1 & P1 & O2 & P2).
  exists b2. intros n L. destruct n as [|[|n]]; try lia. clear L. cbn [saved_and_read]. rewrite O, P, O1, P1.
  induction n as [|n IH]; [reflexivity|]. cbn [saved_and_read]. now rewrite O2, P2.
Qed.
(** A document that was read and saved settles in the same way. *)
Theorem C62_settles F v w d b :
  (version_leb V1_4 w = true -> float_text_ok F) ->
  parse_from_xml F v d = XOk b [] -> version_leb v w = true -> Forall (saves_well v) (doc_events d) ->
  exists b2, forall n, 2 <= n -> saved_and_read F w n b = Some b2.
Proof.
  intros HF P L G. destruct (C62_saves F v w d b P L) as (x & O).
  destruct (C62_saved_is_readable F v w d b x HF P L G O) as (b1 & P1 & _).
  apply (C61_any_number F w b b1 HF). cbn [saved_and_read]. now rewrite O, P1.
Qed.

(** *** Cases *)
(** once is not enough: the supplier with an empty list of addresses is written as an empty element, which is read, but
    not written *)
Definition empty_supplier : bom :=
  xml_bom V1_5 [(fun c => mkComponent (c_type c) (c_mime_type c) (c_bom_ref c) (Some (mkEntity None None (Some []) None)) (c_author c)
    (c_publisher c) (c_group c) (c_name c) (c_version c) (c_description c) (c_scope c) (c_hashes c) (c_licenses c)
    (c_copyright c) (c_cpe c) (c_purl c) (c_swid c) (c_modified c) (c_pedigree c) (c_external_references c) (c_properties c)
    (c_components c) (c_evidence c) (c_signature c) (c_model_card c) (c_data c)) (xml_component "a" (Some "1") None None)].
Lemma once F v b b' n : (version_leb V1_4 v = true -> float_text_ok F) -> check_bom v b = Done tt -> kx_bom v b = Some b' ->
  saved_and_read F v (S n) b = saved_and_read F v n b'.
Proof. intros HF C K. cbn [saved_and_read]. unfold output_as_xml. rewrite C. cbn [bind]. now rewrite (write_then_parse F v b HF), K. Qed.
Theorem C61_one_round_refuted : exists b b1 b2,
  saved_and_read sample_floats V1_5 1 b = Some b1 /\ saved_and_read sample_floats V1_5 2 b = Some b2 /\ b1 <> b2
  /\ map c_supplier (olist (b_components b1)) = [Some (mkEntity None None None None)]
  /\ map c_supplier (olist (b_components b2)) = [None].
Proof.
  exists empty_supplier. eexists _, _.
  assert (HF : version_leb V1_4 V1_5 = true -> float_text_ok sample_floats) by (intros _; exact sample_floats_ok).
  split; [etransitivity; [eapply once; [exact HF|reflexivity|reflexivity]|reflexivity]|].
  split; [etransitivity; [eapply once; [exact HF|reflexivity|reflexivity]|etransitivity; [eapply once; [exact HF|reflexivity|reflexivity]|reflexivity]]|].
  split; [discriminate|]. split; reflexivity.
Qed.

(** the conditions of C61 and C62 are met by a document with nested components, licenses with texts, services, flows of
    data and tools *)
Definition rich_kids : list xml :=
  [Elem "metadata" [] [Elem "tools" [] [Elem "tool" [] [Elem "name" [] [Text "t"]]]];
   Elem "components" [] [Elem "component" [("type", "library")]
     [Elem "name" [] [Text "a"]; Elem "version" [] [Text "1"];
      Elem "licenses" [] [Elem "license" [] [Elem "name" [] [Text "own"];
                                             Elem "text" [("content-type", "text/plain"); ("encoding", "base64")] [CData " MIT "]]];
      Elem "components" [] [Elem "component" [("type", "file")] [Elem "name" [] [Text "b"]; Elem "version" [] [Text "2"]]];
      Elem "x-vendor" [] [Elem "y" [] []]]];
   Elem "services" [] [Elem "service" [] [Elem "name" [] [Text "s"];
     Elem "data" [] [Elem "classification" [("flow", "inbound")] [Text "pii"]]]]].
Definition document_of (v : spec_version) (kids : list xml) : document :=
  mkDocument (Some (namespace v)) (flat (Elem "bom" [] kids)).
Ltac parses := eapply (reading _ _ _ _ _ 90); [cbn; lia| |reflexivity]; lazy; reflexivity.
Ltac well := unfold document_of, doc_events; cbn [flat flat_map app]; repeat (constructor; [cbn; try discriminate;
  try (intros _; unfold has_attr; cbn; repeat split; try discriminate; intros; intuition congruence)|]); constructor.
Example C62_case F v : exists b, parse_from_xml F v (document_of v rich_kids) = XOk b [].
Proof. destruct v; eexists; parses. Qed.
Example C62_case_well v : Forall (saves_well v) (doc_events (document_of v rich_kids)).
Proof. destruct v; well. Qed.

(** Each of the conditions is needed: a document that is read and saved, and the result cannot be read. *)
Definition lost (F : float_text) (v : spec_version) (kids : list xml) : Prop := exists b x,
  parse_from_xml F v (document_of v kids) = XOk b [] /\ output_as_xml F v b = Done x /\ parse_from_xml F v (written x) = XErr.
Lemma lost_intro F v kids b : (version_leb V1_4 v = true -> float_text_ok F) ->
  parse_from_xml F v (document_of v kids) = XOk b [] -> check_bom v b = Done tt -> kx_bom v b = None -> lost F v kids.
Proof.
  intros HF P C K. exists b, (namespace v, wr_bom F v b). split; [exact P|]. unfold output_as_xml. rewrite C. split; [reflexivity|].
  now rewrite (write_then_parse F v b HF), K.
Qed.
Definition one_component (kids : list xml) : list xml :=
  [Elem "components" [] [Elem "component" [("type", "library")]
     (Elem "name" [] [Text "a"] :: Elem "version" [] [Text "1"] :: kids)]].
Definition one_workflow (kids : list xml) : list xml :=
  [Elem "formulation" [] [Elem "formula" [] [Elem "workflows" [] [Elem "workflow" [("bom-ref", "w")]
     (Elem "uid" [] [Text "u"] :: Elem "taskTypes" [] [Elem "taskType" [] [Text "build"]] :: kids)]]]].
(* a license whose id is white space in a CDATA section *)
Definition blank_license := one_component [Elem "licenses" [] [Elem "license" [] [Elem "id" [] [CData " "]]]].
(* an attachment with both attributes *)
Definition both_attachment := one_component
  [Elem "data" [] [Elem "type" [] [Text "other"];
                   Elem "contents" [] [Elem "attachment" [("content-type", "text/plain"); ("encoding", "base64")] [Text "AA"]]]].
(* a flow of data with both attributes *)
Definition both_flow := [Elem "services" [] [Elem "service" [] [Elem "name" [] [Text "s"];
  Elem "data" [] [Elem "dataflow" [("name", "n"); ("description", "d")] [Elem "classification" [("flow", "inbound")] [Text "pii"]]]]]].
(* a workflow with a task *)
Definition with_task := one_workflow [Elem "tasks" [] [Elem "task" [("bom-ref", "t")]
  [Elem "uid" [] [Text "u"]; Elem "taskTypes" [] [Elem "taskType" [] [Text "build"]]]]].
(* a workflow with a resource outside the document *)
Definition with_reference := one_workflow [Elem "resourceReferences" [] [Elem "resourceReference" []
  [Elem "externalReference" [("type", "other")] [Elem "url" [] [Text "https://example.com"]]]]].
Theorem C62_always_readable_refuted F : float_text_ok F ->
  (forall v, lost F v blank_license) /\ lost F V1_5 both_attachment /\ lost F V1_5 both_flow /\ lost F V1_5 with_task
  /\ lost F V1_5 with_reference.
Proof.
  intros HF. assert (H5 : forall v, version_leb V1_4 v = true -> float_text_ok F) by auto.
  split; [intros v; destruct v|repeat split]; (eapply lost_intro; [apply H5|parses|reflexivity|reflexivity]).
Qed.
(** nor can a document be saved in an earlier version than it was read in *)
Theorem C62_earlier_refuted F : exists b,
  parse_from_xml F V1_4 (document_of V1_4 [Elem "components" [] [Elem "component" [("type", "library")] [Elem "name" [] [Text "a"]]]]) = XOk b []
  /\ output_as_xml F V1_3 b = Fail missing_version.
Proof. eexists. split; [parses|reflexivity]. Qed.

Print Assumptions C61_xml_settles.
Print Assumptions C61_any_number.
Print Assumptions C61_one_round_refuted.
Print Assumptions C62_saves.
Print Assumptions C62_saved_is_readable.
Print Assumptions C62_settles.
Print Assumptions C62_always_readable_refuted.
Print Assumptions C62_earlier_refuted.

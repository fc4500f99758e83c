(** The documents that are saved are in the form of the standard (C67). *)
From Coq Require Import NArith ZArith.
From Verif Require Import Base ModelTypes Strings Enums Json JsonModel JsonSpec Xml XmlLemmas XmlModel XmlSpec XmlRead XmlProofs
  XmlProofs2 XmlProofs3 XmlProofs4 XmlProps XmlResaveProps XmlFitSpec XmlForm XmlFormRead XmlFormProofs2 XmlFormProps
  XmlWrittenSpec XmlWrittenProofs.
Open Scope string_scope.
Open Scope list_scope.
Open Scope nat_scope.

(** ** C67: what is saved is the standard form of what is written of the BOM
    [form_bom] is the specification of the format that C66 uses as well (XmlForm.v), [written_part] and [part_standard] are in
    XmlWrittenSpec.v, [parts_bom] is in XmlFitSpec.v. *)
Theorem C67_writes_the_format F v b ns d :
  output_as_xml F v b = Done (ns, d) -> (forall p, In p (parts_bom v b) -> part_standard p) ->
  ns = namespace v /\ d = form_bom (show_f32 F) v (written_part v b).
Proof.
  unfold output_as_xml. destruct (check_bom v b); try discriminate. cbn. intros [= <- <-] H. split; [reflexivity|].
  apply put_bom. apply Forall_forall. exact H.
Qed.
(** in particular that of the BOM itself if all of it is written *)
Corollary C67_writes_exactly F v b ns d :
  output_as_xml F v b = Done (ns, d) -> (forall p, In p (parts_bom v b) -> part_standard p) -> written_part v b = b ->
  d = form_bom (show_f32 F) v b.
Proof. intros O H E. destruct (C67_writes_the_format F v b ns d O H) as [_ ->]. now rewrite E. Qed.
(** and any reader of the format, the library or another program, that finds the BOM [said_bom] in every document that says
    the same as [form_bom], finds the written part in the document *)
Corollary C67_interoperates F v b ns d b' (other : spec_version -> xml -> option bom) :
  (forall v b b' y, said_bom v b = Some b' -> same_document (form_bom (show_f32 F) v b) y -> other v y = Some b') ->
  output_as_xml F v b = Done (ns, d) -> (forall p, In p (parts_bom v b) -> part_standard p) ->
  said_bom v (written_part v b) = Some b' -> forall y, same_document d y -> other v y = Some b'.
Proof. intros R O H E y Y. destruct (C67_writes_the_format F v b ns d O H) as [_ ->]. eapply R; eauto. Qed.
(** so reformatting the saved document, with attributes and children of different names in another order, with white space and
    comments, does not change what the library reads from it *)
Corollary C67_reformatted F v b ns d b' y :
  float_text_exact F -> output_as_xml F v b = Done (ns, d) -> (forall p, In p (parts_bom v b) -> part_standard p) ->
  said_bom v (written_part v b) = Some b' -> same_document d y -> parse_from_xml F v (written (ns, y)) = XOk b' [].
Proof.
  intros HF O H E Y. destruct (C67_writes_the_format F v b ns d O H) as [-> ->]. eapply C66_reads_the_format; eauto.
Qed.

(** ** The hypotheses are met: everything the library writes *)
Definition written_case : bom :=
  {| b_version := u32_1; b_serial_number := Some "urn:uuid:3e671687-395b-41f5-a30f-a58921a69b79";
     b_metadata := None; b_components := Some [standard_component; xml_component_plain]; b_services := Some [xml_service];
     b_external_references := None; b_dependencies := Some [mkDependency "a" ["b"; "c"]];
     b_compositions := None; b_properties := None;
     b_vulnerabilities := Some [standard_vulnerability]; b_signature := Some (SigSingle (mkSigner ES256 "sig"));
     b_annotations := Some [mkAnnotation (Some "an") ["c"; "w"] (AnIndividual (mkContact None (Some "Sam") None None))
                              "2022-01-01T00:00:00Z" "Good." None];
     b_formulation := None; b_spec_version := V1_5 |}.
Definition written_d := form_bom (show_f32 sample_floats) V1_5 (written_part V1_5 written_case).
Example C67_case :
  output_as_xml sample_floats V1_5 written_case = Done (namespace V1_5, written_d)
  /\ (forall p, In p (parts_bom V1_5 written_case) -> part_standard p)
  /\ (exists b', said_bom V1_5 (written_part V1_5 written_case) = Some b'
                 /\ b_components b' = b_components (written_part V1_5 written_case))
  /\ same_document written_d (mess written_d).
Proof.
  split; [vm_compute; reflexivity|]. split; [|split; [eexists; vm_compute; split; reflexivity|apply mess_same; vm_compute; reflexivity]].
  apply Forall_forall. vm_compute. repeat (constructor; [try exact Logic.I; try reflexivity|]); constructor.
Qed.
(** and one of which all is written *)
Example C67_case_all : written_part V1_4 (nested_xml V1_4) = nested_xml V1_4
  /\ (exists d, output_as_xml sample_floats V1_4 (nested_xml V1_4) = Done d)
  /\ (forall p, In p (parts_bom V1_4 (nested_xml V1_4)) -> part_standard p).
Proof.
  split; [vm_compute; reflexivity|]. split; [eexists; vm_compute; reflexivity|].
  apply Forall_forall. vm_compute. repeat (constructor; [try exact Logic.I; try reflexivity|]); constructor.
Qed.

(** ** The parts that are not standard are written in another form
    The documents have elements the format does not have: attachments with their content type as encoding, flows of data with
    their description as second name, tasks without types, data sets and resources as other elements than those of the format. *)
Inductive inside (x : xml) : xml -> Prop :=
| inside_here : inside x x
| inside_below n ats ks k : In k ks -> inside x k -> inside x (Elem n ats ks).
Ltac find_inside := first [apply inside_here
  | eapply inside_below; [left; reflexivity|find_inside] | eapply inside_below; [right; left; reflexivity|find_inside]
  | eapply inside_below; [right; right; left; reflexivity|find_inside]
  | eapply inside_below; [right; right; right; left; reflexivity|find_inside]].
Ltac find_part := vm_compute; repeat first [left; reflexivity | right].
Definition of_workflow (w : workflow) : bom :=
  {| b_version := u32_1; b_serial_number := None; b_metadata := None; b_components := None; b_services := None;
     b_external_references := None; b_dependencies := None; b_compositions := None; b_properties := None;
     b_vulnerabilities := None; b_signature := None; b_annotations := None;
     b_formulation := Some [mkFormula None None None (Some [w]) None]; b_spec_version := V1_5 |}.
Definition flow_of (tasks : option (list task)) (inputs : option (list input)) (rs : option (list resource_reference)) : workflow :=
  {| wf_bom_ref := "w"; wf_uid := "u"; wf_name := None; wf_description := None; wf_resource_references := rs; wf_tasks := tasks;
     wf_task_dependencies := None; wf_task_types := [TTBuild]; wf_trigger := None; wf_steps := None; wf_inputs := inputs;
     wf_outputs := None; wf_time_start := None; wf_time_end := None; wf_workspaces := None; wf_runtime_topology := None;
     wf_properties := None |}.
Theorem C67_attachment_refuted F c : exists b d, output_as_xml F V1_5 b = Done (namespace V1_5, d)
  /\ In (PAttachment (mkAttachment c (Some "text/plain") (Some "base64"))) (parts_bom V1_5 b)
  /\ inside (Elem "data" [("encoding", "base64"); ("encoding", "text/plain")] [Text c]) d.
Proof.
  exists (of_workflow (flow_of None (Some [mkInput (RIData (mkAttachment c (Some "text/plain") (Some "base64"))) None None None]) None)).
  eexists. split; [reflexivity|]. split; [find_part|]. vm_compute. find_inside.
Qed.
Theorem C67_task_refuted F : exists b d, output_as_xml F V1_5 b = Done (namespace V1_5, d)
  /\ In (PTask (mkTask "t" "u" None None None [TTTest] None None None None None None None None None)) (parts_bom V1_5 b)
  /\ inside (Elem "task" [("bom-ref", "t")] [Elem "uid" [] [Text "u"]]) d.
Proof.
  exists (of_workflow (flow_of (Some [mkTask "t" "u" None None None [TTTest] None None None None None None None None None]) None None)).
  eexists. split; [reflexivity|]. split; [find_part|]. vm_compute. find_inside.
Qed.
Theorem C67_resource_refuted F : exists b d, output_as_xml F V1_5 b = Done (namespace V1_5, d)
  /\ In (PResource (RRExternal (mkExtRef ERWebsite (RUrl "https://example.com") None None))) (parts_bom V1_5 b)
  /\ inside (Elem "resourceReference" [] [Elem "reference" [("type", "website")] [Elem "url" [] [Text "https://example.com"]]]) d.
Proof.
  exists (of_workflow (flow_of None None (Some [RRExternal (mkExtRef ERWebsite (RUrl "https://example.com") None None)]))).
  eexists. split; [reflexivity|]. split; [find_part|]. vm_compute. find_inside.
Qed.
Definition of_component (c : component) : bom :=
  {| b_version := u32_1; b_serial_number := None; b_metadata := None; b_components := Some [c]; b_services := None;
     b_external_references := None; b_dependencies := None; b_compositions := None; b_properties := None;
     b_vulnerabilities := None; b_signature := None; b_annotations := None; b_formulation := None; b_spec_version := V1_5 |}.
Theorem C67_dataset_refuted F : exists b d, output_as_xml F V1_5 b = Done (namespace V1_5, d)
  /\ In (PDataset (DSReference "r")) (parts_bom V1_5 b) /\ inside (Elem "dataset" [] [Elem "ref" [] [Text "r"]]) d.
Proof.
  exists (of_component (mkComponent CMachineLearningModel None None None None None None "m" None None None None None None None None
    None None None None None None None None
    (Some (mkModelCard None (Some (mkModelParameters None None None None (Some [DSReference "r"]) None None)) None None None)) None)).
  eexists. split; [reflexivity|]. split; [find_part|]. vm_compute. find_inside.
Qed.
Theorem C67_flow_refuted F : exists b d, output_as_xml F V1_5 b = Done (namespace V1_5, d)
  /\ In (PFlow (mkServiceData (Some "n") (Some "about") (mkDataClass DFInbound "PII") None None None)) (parts_bom V1_5 b)
  /\ inside (Elem "dataflow" [("name", "n"); ("name", "about")] [Elem "classification" [("flow", "inbound")] [Text "PII"]]) d.
Proof.
  exists {| b_version := u32_1; b_serial_number := None; b_metadata := None; b_components := None;
     b_services := Some [mkService None None None "s" None None None None None
       (Some (DServiceData [mkServiceData (Some "n") (Some "about") (mkDataClass DFInbound "PII") None None None]))
       None None None None None None];
     b_external_references := None; b_dependencies := None; b_compositions := None; b_properties := None;
     b_vulnerabilities := None; b_signature := None; b_annotations := None; b_formulation := None; b_spec_version := V1_5 |}.
  eexists. split; [reflexivity|]. split; [find_part|]. vm_compute. find_inside.
Qed.

Print Assumptions C67_writes_the_format.
Print Assumptions C67_writes_exactly.
Print Assumptions C67_interoperates.
Print Assumptions C67_reformatted.
Print Assumptions C67_attachment_refuted.
Print Assumptions C67_task_refuted.
Print Assumptions C67_resource_refuted.
Print Assumptions C67_dataset_refuted.
Print Assumptions C67_flow_refuted.

(** Converting from XML to JSON (C63). *)
From Coq Require Import NArith ZArith.
From Verif Require Import Base ModelTypes Strings Enums GenModel Json JsonLemmas JsonModel JsonSpec JsonProofs4 JsonProps
  Xml XmlLemmas XmlModel XmlSpec XmlGeneral XmlProofs2 XmlProofs3 XmlProofs4 XmlProps XmlSettle ReqProps XmlYield XmlResaveSpec
  XmlResave XmlResaveProps ResaveSpec ConvertSpec ConvertProofs.
Open Scope string_scope.
Open Scope list_scope.
Open Scope nat_scope.

(** ** C63: an XML document that was read can be saved as JSON, and the saved document is read with the changes listed
    in ConvertSpec.v and no other *)
Theorem C63_saves F v w d b :
  parse_from_xml F v d = XOk b [] -> version_leb v w = true -> exists j, output_as_json w b = Done j.
Proof.
  intros P L. apply C43_json_output_fails_iff. intros ->. assert (v = V1_3) as -> by (destruct v; [reflexivity|discriminate..]).
  destruct (parsed F V1_3 d b P) as (n & ats & evs & _ & R).
  apply (v_bom F n "bom" ats evs b [] Logic.I); [|exact R]. apply Forall_forall. intros ? _. exact Logic.I.
Qed.
Lemma read_kept F v w d b : parse_from_xml F v d = XOk b [] -> version_leb v w = true -> kept_bom w b = as_json_bom w b.
Proof.
  intros P L. destruct (parsed F v d b P) as (n & ats & evs & _ & R).
  refine (cv_bom v w F L n "bom" ats evs b [] Logic.I _ R). apply Forall_forall. intros ? _. exact Logic.I.
Qed.
(** [like j j'] (JsonLemmas.v): [j'] is [j] with the members of its objects in any order *)
Theorem C63_converted F v w d b j j' :
  parse_from_xml F v d = XOk b [] -> version_leb v w = true ->
  (forall c, bom_component w b c -> methods_finite w c) ->
  output_as_json w b = Done j -> like j j' ->
  parse_from_json j' = Done (as_json_bom w b)
  /\ parse_from_json_with_version w j' = Done (as_json_bom w b)
  /\ parse_from_json_value_version w j' = Done (as_json_bom w b).
Proof.
  intros P L M O K. rewrite <- (read_kept F v w d b P L).
  split; [|split]; [eapply output_then_parse_any|eapply output_then_parse|eapply output_then_parse_value]; eassumption.
Qed.
(** in particular, a document in which none of these things occurs is converted without a change *)
Theorem C63_unchanged F v d b j j' :
  parse_from_xml F v d = XOk b [] -> as_json_bom v b = b ->
  (forall c, bom_component v b c -> methods_finite v c) ->
  output_as_json v b = Done j -> like j j' -> parse_from_json j' = Done b.
Proof.
  intros P E M O K. replace (Done b) with (Done (as_json_bom v b)) by now rewrite E.
  refine (proj1 (C63_converted F v v d b j j' P _ M O K)). now destruct v.
Qed.

(** What the changes are (those of the names are listed in C60_respelled). *)
Theorem C63_changes :
  (forall x, as_json_signer x <> x <-> exists s, sg_algorithm x = AlgUnknown s /\ s <> "Unknown")
  /\ (forall x, as_json_signature x <> x <->
        (exists l, x = SigChain l)
        \/ (exists s, x = SigSingle s /\ as_json_signer s <> s)
        \/ (exists l, x = SigSigners l /\ map as_json_signer l <> l))
  /\ (forall x, as_json_number x <> x <-> exists f, x = Some f /\ is_finite f = false)
  /\ (forall x, as_json_data x <> x <-> exists l, x = DServiceData l).
Proof.
  split; [|split; [|split]].
  - intros [a s]. unfold as_json_signer. cbn [sg_algorithm sg_value]. split.
    + intros H. destruct a; try (exfalso; apply H; reflexivity). eexists. split; [reflexivity|]. intros ->. now apply H.
    + intros (u & -> & N) E. injection E as E. now apply N.
  - intros x. split.
    + intros H. destruct x as [l|l|s]; cbn in H.
      * right; right. exists l. split; [reflexivity|congruence].
      * left. now exists l.
      * right; left. exists s. split; [reflexivity|congruence].
    + intros [(l & ->)|[(s & -> & N)|(l & -> & N)]] E; cbn in E; [discriminate| |]; injection E as E; now apply N.
  - intros x. split.
    + destruct x as [f|]; [|intros H; now exfalso; apply H]. intros H. exists f. split; [reflexivity|].
      destruct f; cbn in *; congruence.
    + intros (f & -> & N). destruct f; cbn in *; congruence.
  - intros x. split.
    + destruct x as [l|l]; cbn; intros H; [now exists l|congruence].
    + intros (l & ->). discriminate.
Qed.

(** *** Cases *)
Definition one_service (kids : list xml) : list xml :=
  [Elem "services" [] [Elem "service" [] (Elem "name" [] [Text "s"] :: kids)]].
Definition signed_chain : list xml := [Elem "signature" [] [Elem "chain" []
  [Elem "chain" [] [Elem "algorithm" [] [Text "RS256"]; Elem "value" [] [Text "x"]];
   Elem "chain" [] [Elem "algorithm" [] [Text "own"]; Elem "value" [] [Text "y"]]]]].
Definition flow_of_data : list xml := one_service [Elem "data" [] [Elem "dataflow" [("name", "n")]
  [Elem "classification" [("flow", "inbound")] [Text "pii"]]]].
Definition nan_score : list xml := [Elem "vulnerabilities" [] [Elem "vulnerability" [] [Elem "ratings" []
  [Elem "rating" [] [Elem "score" [] [Text "NaN"]]]]]].
Definition with_identity (kids : list xml) : list xml :=
  one_component [Elem "evidence" [] [Elem "identity" [] (Elem "field" [] [Text "name"] :: kids)]].
Definition method_of (confidence : string) : list xml := with_identity [Elem "methods" [] [Elem "method" []
  [Elem "technique" [] [Text "other"]; Elem "confidence" [] [Text confidence]]]].

(** the conditions of the theorems are met by a document with nested components, licenses with texts and a service, and
    by one with an identified component *)
Lemma within_cases c e : c_pedigree c = None -> within c e -> e = c \/ exists d, In d (olist (c_components c)) /\ within d e.
Proof. intros N W. inversion W; subst; [now left|right; eauto|congruence]. Qed.
Ltac below Hw := apply within_cases in Hw; [|reflexivity]; let d := fresh "d" in let Hd := fresh "Hd" in
  destruct Hw as [->|(d & Hd & Hw)]; [|cbn in Hd; first [destruct Hd as [<-|[]]; below Hw | destruct Hd]].
Ltac finite_methods := intros c (r & Hr & Hw) _ e i m He Hi Hm; cbn in Hr; destruct Hr as [<-|[]]; below Hw; try discriminate He.
Example C63_case F v w : version_leb v w = true -> exists b j,
  parse_from_xml F v (document_of v rich_kids) = XOk b [] /\ output_as_json w b = Done j /\ as_json_bom v b = b
  /\ (forall c, bom_component w b c -> methods_finite w c).
Proof.
  intros L. destruct v, w; try discriminate L; eexists _, _; (split; [parses|]; split; [reflexivity|]; split; [reflexivity|]).
  all: try (intros ? _ [=]; fail). all: finite_methods.
Qed.
Example C63_case_finite F : read_f32 F "0.5" = Some (F_fin false 1 (-1)) -> exists b,
  parse_from_xml F V1_5 (document_of V1_5 (method_of "0.5")) = XOk b []
  /\ (forall c, bom_component V1_5 b c -> methods_finite V1_5 c)
  /\ exists c e i m, bom_component V1_5 b c /\ c_evidence c = Some e /\ ev_identity e = Some i /\ id_methods i = Some [m].
Proof.
  destruct F as [sh rd]; cbn [read_f32]; intros H. eexists. split; [eapply (reading _ _ _ _ _ 90); [cbn; lia| |reflexivity]; lazy; rewrite H; reflexivity|]. split.
  - finite_methods. injection He as <-. cbn in Hi. injection Hi as <-. cbn in Hm. destruct Hm as [<-|[]]. reflexivity.
  - eexists _, _, _, _. split; [eexists; split; [left; reflexivity|constructor]|]. repeat split.
Qed.
(** the changes do happen: the chain is no longer one, the flow of data has lost its name, and the score is gone *)
Theorem C63_always_unchanged_refuted F : read_f32 F "NaN" = Some F_nan ->
  (exists b l, parse_from_xml F V1_4 (document_of V1_4 signed_chain) = XOk b []
     /\ b_signature b = Some (SigChain l) /\ forall j, output_as_json V1_4 b = Done j ->
       exists b', parse_from_json j = Done b' /\ b_signature b' = Some (SigSigners (map as_json_signer l))
         /\ map sg_algorithm (map as_json_signer l) <> map sg_algorithm l)
  /\ (exists b, parse_from_xml F V1_5 (document_of V1_5 flow_of_data) = XOk b []
     /\ forall j, output_as_json V1_5 b = Done j -> exists b', parse_from_json j = Done b' /\ b' <> b)
  /\ (exists b, parse_from_xml F V1_4 (document_of V1_4 nan_score) = XOk b []
     /\ forall j, output_as_json V1_4 b = Done j -> exists b', parse_from_json j = Done b' /\ b' <> b).
Proof.
  destruct F as [sh rd]; cbn [read_f32]; intros H. split; [|split].
  - eexists _, _. split; [parses|]. split; [reflexivity|]. intros j O. cbn in O. vm_compute in O. injection O as <-.
    eexists. split; [vm_compute; reflexivity|]. split; [reflexivity|discriminate].
  - eexists. split; [parses|]. intros j O. vm_compute in O. injection O as <-. eexists. split; [vm_compute; reflexivity|]. discriminate.
  - eexists. split; [eapply (reading _ _ _ _ _ 90); [cbn; lia| |reflexivity]; lazy; rewrite H; reflexivity|].
    intros j O. vm_compute in O. injection O as <-. eexists. split; [vm_compute; reflexivity|]. discriminate.
Qed.
(** and the condition on the confidences of methods is needed: the document is saved, and the result cannot be read *)
Theorem C63_always_readable_refuted F : read_f32 F "NaN" = Some F_nan -> exists b j e,
  parse_from_xml F V1_5 (document_of V1_5 (method_of "NaN")) = XOk b []
  /\ output_as_json V1_5 b = Done j /\ parse_from_json j = Fail e.
Proof.
  destruct F as [sh rd]; cbn [read_f32]; intros H. eexists _, _, _. split; [eapply (reading _ _ _ _ _ 90); [cbn; lia| |reflexivity]; lazy; rewrite H; reflexivity|].
  split; [vm_compute; reflexivity|]. vm_compute. reflexivity.
Qed.
(** nor can a document be saved in an earlier version than it was read in *)
Theorem C63_earlier_refuted F : exists b e,
  parse_from_xml F V1_4 (document_of V1_4 [Elem "components" [] [Elem "component" [("type", "library")] [Elem "name" [] [Text "a"]]]]) = XOk b []
  /\ output_as_json V1_3 b = Fail e.
Proof. eexists _, _. split; [parses|reflexivity]. Qed.

Print Assumptions C63_saves.
Print Assumptions C63_converted.
Print Assumptions C63_unchanged.
Print Assumptions C63_changes.
Print Assumptions C63_always_unchanged_refuted.
Print Assumptions C63_always_readable_refuted.
Print Assumptions C63_earlier_refuted.

(** C86: what is not expected in a document is refused, place by place *)
From Verif Require Import Base ModelTypes Strings Enums GenModel Json JsonLemmas JsonModel
  Xml XmlLemmas XmlModel XmlSpec2 XmlSpec3 XmlGeneral XmlFine XmlExact XmlProps2 ReqProps StrictSpec StrictProofs.
Open Scope string_scope.
Open Scope list_scope.
Open Scope nat_scope.

(** An orderly document with something in it that its place refuses is not parsed, whatever else it says *)
Theorem C86_refused F v ns ats kids :
  orderly v (Elem "bom" ats kids) = true ->
  unexpected v PBom kids ->
  parse_from_xml F v (mkDocument ns (flat (Elem "bom" ats kids))) = XErr.
Proof.
  intros T U.
  destruct (C48_parse_returns F v (mkDocument ns (flat (Elem "bom" ats kids)))
    (or_introl (ex_intro _ "bom" (ex_intro _ ats (ex_intro _ kids eq_refl))))) as [E|(b & E)]; [exact E|].
  exfalso. eapply (obeys_fails v _ PBom "bom" ats kids (obeys_bom F v _) U).
  eapply parsed_accepted; [exact T|exact E|apply le_n].
Qed.

(** Version 1.3: any document *)
Theorem C86_refused_1_3 F ns ats kids :
  unexpected V1_3 PBom kids ->
  parse_from_xml F V1_3 (mkDocument ns (flat (Elem "bom" ats kids))) = XErr.
Proof. now apply C86_refused. Qed.

(** *** Cases *)
Local Ltac below0 := eapply (unexpected_below _ _ [] _ _ _ []); [reflexivity|].
Local Ltac below1 := eapply (unexpected_below _ _ [_] _ _ _ []); [reflexivity|].
Local Ltac below2 := eapply (unexpected_below _ _ [_; _] _ _ _ []); [reflexivity|].
Definition in_inputs (l : list xml) : list xml :=
  [Elem "components" [] [];
   Elem "formulation" [] [Elem "formula" [] [Elem "workflows" [] [Elem "workflow" [("bom-ref", "w")]
     [Elem "uid" [] [Text "u"]; Elem "taskTypes" [] [Elem "taskType" [] [Text "build"]];
      Elem "inputs" [] (Elem "input" [] [Elem "resource" [] [Elem "ref" [] [Text "r"]]] :: l)]]]]].
Example C86_case : orderly V1_5 (Elem "bom" [] (in_inputs [Elem "x" [] []])) = true /\
  unexpected V1_5 PBom (in_inputs [Elem "x" [] []]) /\
  (* without the unknown element the document is read *)
  (forall F, exists b, parse_from_xml F V1_5 (mkDocument (Some (namespace V1_5)) (flat (Elem "bom" [] (in_inputs [])))) = XOk b []).
Proof.
  split; [reflexivity|]. split.
  - apply (unexpected_below V1_5 PBom [Elem "components" [] []] "formulation" [] _ [] _ eq_refl).
    below0.
    below0.
    below0.
    below2.
    exact (unexpected_here V1_5 (Items Refuses "input" PInput) [_] (Elem "x" [] []) [] eq_refl).
  - intros F. eexists. lazy. reflexivity.
Qed.
(** an unknown element among licenses, an element in a name, text in a component, something in a pointer *)
Definition in_component (l : list xml) : list xml :=
  [Elem "components" [] [Elem "component" [("type", "library")] (Elem "version" [] [Text "1"] :: l)]].
Example C86_cases v : 
  unexpected v PBom (in_component [Elem "name" [] [Text "a"]; Elem "licenses" [] [Elem "x" [] []]]) /\
  unexpected v PBom (in_component [Elem "name" [] [Text "a"; Elem "b" [] []]]) /\
  unexpected v PBom (in_component [Text "words"]) /\
  unexpected v PBom [Elem "dependencies" [] [Elem "dependency" [("ref", "a")] [Elem "dependency" [("ref", "b")] [PI]]]].
Proof.
  assert (C : forall l, unexpected v PComponent (Elem "version" [] [Text "1"] :: l) -> unexpected v PBom (in_component l)).
  { intros l H. below0.
    below0. exact H. }
  split; [|split; [|split]].
  - apply C. below2.
    exact (unexpected_here v PLicenses [] (Elem "x" [] []) [] eq_refl).
  - apply C. below1.
    exact (unexpected_here v PWords [_] (Elem "b" [] []) [] eq_refl).
  - apply C. exact (unexpected_here v PComponent [_] (Text "words") [] eq_refl).
  - below0.
    below0.
    below0.
    exact (unexpected_here v PPointer [] PI [] eq_refl).
Qed.

(** The condition is needed: a reader that looks through unknown elements may stop at the end tag of an element of
    its own name inside them, and what follows is then read by the readers around it, which look through it *)
Definition untidy : list xml :=
  [Elem "components" [] [Elem "component" [("type", "library")]
     [Elem "name" [] [Text "a"];
      Elem "modelCard" [] [Elem "modelParameters" []
        [Elem "x" [] [Elem "modelParameters" [] []]; Elem "datasets" [] [Elem "x" [] []]]]]]].
Theorem C86_untidy_refuted F : unexpected V1_5 PBom untidy /\
  exists b, parse_from_xml F V1_5 (mkDocument (Some (namespace V1_5)) (flat (Elem "bom" [] untidy))) = XOk b [].
Proof.
  split.
  - below0.
    below0.
    below1.
    below0.
    below1.
    exact (unexpected_here V1_5 (Items Refuses "dataset" PComponentData) [] (Elem "x" [] []) [] eq_refl).
  - eexists. lazy. reflexivity.
Qed.

Print Assumptions C86_refused.
Print Assumptions C86_untidy_refuted.

(** C92: XML documents that say the same are read alike *)
From Verif Require Import Base ModelTypes Strings Enums GenModel Json JsonLemmas JsonModel
  Xml XmlLemmas XmlModel XmlGeneral XmlSpec2 XmlSpec3 StrictSpec PassSpec PassProps AttrSpec AttrProps SwapSpec SwapProps CdataSpec CdataProps MixSpec.
Open Scope string_scope.
Open Scope list_scope.
Open Scope nat_scope.

Theorem C92_says_same F v ns ats kids ats' kids' :
  orderly v (Elem "bom" ats kids) = true -> says_same v ats kids ats' kids' ->
  parse_from_xml F v (mkDocument ns (flat (Elem "bom" ats kids))) =
  parse_from_xml F v (mkDocument ns (flat (Elem "bom" ats' kids'))).
Proof.
  intros T P. revert T.
  induction P as [ats kids|ats at1 kids ats' kids' S _ IH|ats kids k1 ats' kids' S _ IH|ats kids k1 ats' kids' S _ IH|ats kids k1 ats' kids' S _ IH
                  |ats kids k1 ats' kids' S _ IH]; intros T.
  - reflexivity.
  - rewrite <- IH by exact T. apply C89_attributes; [exact T|exact S|apply changed_none].
  - assert (X : all_changed v PBom kids k1) by (eapply changed_more; [exact S|apply changed_none]).
    rewrite <- IH by (now rewrite <- (all_changed_orderly v ats ats kids k1 X)).
    apply C89_attributes; [exact T|now intros a|exact X].
  - assert (X : reordered v PBom kids k1) by (eapply other_order; [exact S|apply same_order]).
    rewrite <- IH by (now rewrite <- (reordered_orderly v ats ats kids k1 X)). now apply C90_order.
  - rewrite <- IH by (now rewrite <- (written_as_orderly v ats ats kids k1 S)). now apply C91_cdata_partial.
  - assert (X : all_pass v "bom" PBom kids k1) by (eapply pass_more; [exact S|apply pass_none]).
    rewrite <- IH by (exact (all_pass_orderly v ats kids k1 X T)). now apply C87_passed.
Qed.
(** Two documents that say the same as a third *)
Theorem C92_both F v ns ats1 kids1 ats2 kids2 ats kids :
  orderly v (Elem "bom" ats1 kids1) = true -> orderly v (Elem "bom" ats2 kids2) = true ->
  says_same v ats1 kids1 ats kids -> says_same v ats2 kids2 ats kids ->
  parse_from_xml F v (mkDocument ns (flat (Elem "bom" ats1 kids1))) =
  parse_from_xml F v (mkDocument ns (flat (Elem "bom" ats2 kids2))).
Proof.
  intros T1 T2 P1 P2. now rewrite (C92_says_same F v ns _ _ _ _ T1 P1), (C92_says_same F v ns _ _ _ _ T2 P2).
Qed.
(** Version 1.3: any documents *)
Theorem C92_says_same_1_3 F ns ats kids ats' kids' :
  says_same V1_3 ats kids ats' kids' ->
  parse_from_xml F V1_3 (mkDocument ns (flat (Elem "bom" ats kids))) =
  parse_from_xml F V1_3 (mkDocument ns (flat (Elem "bom" ats' kids'))).
Proof. now apply C92_says_same. Qed.

(** A version 1.4 document with an element of 1.5, the version before the name, the name as a CDATA section and an attribute that
    is not read, and the document without *)
Definition long_form : list xml :=
  [Elem "annotations" [] [Text "?"];
   Elem "components" [] [Elem "component" [("note", "n"); ("type", "library")] [Elem "version" [] [Text "1"]; Elem "name" [] [CData "a"]]]].
Definition short_form : list xml :=
  [Elem "components" [] [Elem "component" [("type", "library")] [Elem "name" [] [Text "a"]; Elem "version" [] [Text "1"]]]].
Example C92_case :
  orderly V1_4 (Elem "bom" [("x", "y"); ("version", "3")] long_form) = true /\
  says_same V1_4 [("x", "y"); ("version", "3")] long_form [("version", "3")] short_form /\
  (forall F, exists b, parse_from_xml F V1_4 (mkDocument (Some (namespace V1_4)) (flat (Elem "bom" [("version", "3")] short_form))) = XOk b []).
Proof.
  split; [reflexivity|split].
  - eapply other_root with (ats' := [("version", "3")]); [intros a [<-|[<-|[]]]; reflexivity|].
    eapply less; [now apply (passes_skipped V1_4 "bom" PBom [] "annotations")|].
    eapply other_attributes.
    { eapply (changed_below V1_4 PBom [] "components"); [reflexivity|].
      eapply (changed_here V1_4 _ [] "component" _ [("type", "library")]); [reflexivity|].
      intros a I. cbn in I. destruct I as [<-|[<-|[<-|[]]]]; reflexivity. }
    eapply other_order_of_elements.
    { eapply (swapped_below V1_4 PBom [] "components"); [reflexivity|]. eapply (swapped_below V1_4 _ [] "component"); [reflexivity|].
      apply (swapped_here V1_4 PComponent [] "version" _ _ "name"); try discriminate. now intros []. }
    eapply other_sections with (kids' := short_form); [|apply same_document].
    eapply as_text; [|apply as_is].
    eapply (quoted_below V1_4 PBom [] "components"); [reflexivity|]. eapply (quoted_below V1_4 _ [] "component"); [reflexivity|].
    eapply (quoted_below V1_4 PComponent [] "name"); [reflexivity|]. now apply (quoted_here V1_4 PWords [] "a" []).
  - intros F. eexists. lazy. reflexivity.
Qed.

Print Assumptions C92_says_same.
Print Assumptions C92_both.
Print Assumptions C92_says_same_1_3.

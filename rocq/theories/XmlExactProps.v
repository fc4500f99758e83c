(** C48 for whole documents, and what C55 says of documents that are not orderly *)
From Verif Require Import Base ModelTypes Strings Enums GenModel Json JsonLemmas JsonModel
  Xml XmlLemmas XmlModel XmlSpec2 XmlSpec3 XmlGeneral XmlFine XmlExact XmlProps2 ReqSpec ReqProofs ReqProps.
Open Scope string_scope.
Open Scope list_scope.
Open Scope nat_scope.

(** ** C48 *)

(** Partial: false of documents that are not orderly ([C48_document_exact_refuted]).  When a document is parsed, the
    reader of every element that is read, at whatever depth, consumes exactly that element and leaves what follows it *)
Theorem C48_document_exact_partial F v ns ats kids b N :
  orderly v (Elem "bom" ats kids) = true ->
  parse_from_xml F v (mkDocument ns (flat (Elem "bom" ats kids))) = XOk b [] ->
  height (Elem "bom" ats kids) + List.length (flats kids) + 2 <= N ->
  forall A p (d : desc A) ats' kids', found (rd_bom F v N) "bom" ats kids A p d ats' kids' ->
  exists a, forall rest, run d (hd "" p) ats' (flats kids' ++ EEnd (hd "" p) :: rest) = XOk a rest.
Proof.
  intros T P L A p d ats' kids' H.
  pose proof (parsed_accepted F v ns ats kids b N T P L) as Ac.
  destruct (found_met v (rd_bom F v N) "bom" ats kids (meets_bom F v N) (ex_intro _ b Ac) A p d ats' kids' H) as (_ & a & Ad).
  exists a. intros rest. pose proof (run_tr d (hd "" p) ats' kids' rest) as R. rewrite Ad in R. exact R.
Qed.
(** Version 1.3: any document *)
Theorem C48_document_exact_1_3 F ns ats kids b N :
  parse_from_xml F V1_3 (mkDocument ns (flat (Elem "bom" ats kids))) = XOk b [] ->
  height (Elem "bom" ats kids) + List.length (flats kids) + 2 <= N ->
  forall A p (d : desc A) ats' kids', found (rd_bom F V1_3 N) "bom" ats kids A p d ats' kids' ->
  exists a, forall rest, run d (hd "" p) ats' (flats kids' ++ EEnd (hd "" p) :: rest) = XOk a rest.
Proof. intros P L. exact (C48_document_exact_partial F V1_3 ns ats kids b N eq_refl P L). Qed.

(** *** Cases: a document of version 1.3 that is read although it is not tidy *)
Definition untidy_kids : list xml :=
  [Elem "x-vendor" [] [Elem "data" [] [Elem "data" [] []]; Elem "signature" [] [Text "x"]];
   Elem "services" [] [Elem "service" [] [Elem "name" [] [Text "s"];
     Elem "data" [] [Elem "foreign" [] [Elem "classification" [("flow", "inbound")] [Text "x"]]]]]].
Example C48_document_case F : exists b,
  tidy (Elem "bom" [] untidy_kids) = false /\
  parse_from_xml F V1_3 (mkDocument (Some (namespace V1_3)) (flat (Elem "bom" [] untidy_kids))) = XOk b [].
Proof.
  eexists. split; [reflexivity|]. eapply (reading F V1_3 _ _ _ 40); [cbn; lia| |reflexivity].
  lazy. reflexivity.
Qed.
Example C48_document_found F n : exists A (d : desc A),
  found (rd_bom F V1_3 (S n)) "bom" [] untidy_kids A ["classification"; "data"; "service"; "services"; "bom"] d
    [("flow", "inbound")] [Text "x"].
Proof.
  do 2 eexists. eapply found_in; [going 3|eapply (seen_inside _ _ _ _ "foreign"); [reflexivity|reflexivity|left; reflexivity|apply seen_child; left; reflexivity]|reflexivity].
Qed.

(** ** C55 *)

(** Documents that are not orderly are read without required parts: in version 1.4 a signature without algorithm and
    value that holds a signature with both *)
Definition nested_signature : list xml :=
  [Elem "signature" [] [Elem "algorithm" [] [Text "HS512"]; Elem "value" [] [Text "x"]]].
Definition signature_kids : list xml :=
  [Elem "components" [] [Elem "component" [("type", "library")]
     [Elem "name" [] [Text "a"]; Elem "signature" [] nested_signature]]].
Theorem C55_signature_refuted F : exists b A (d : desc A),
  parse_from_xml F V1_4 (mkDocument (Some (namespace V1_4)) (flat (Elem "bom" [] signature_kids))) = XOk b [] /\
  found (rd_bom F V1_4 40) "bom" [] signature_kids A ["signature"; "component"; "components"; "bom"] d [] nested_signature /\
  exists q r, In (q, r) (requirements V1_4) /\ starts q ["signature"; "component"; "components"; "bom"] = true /\
    ~ met [] nested_signature r.
Proof.
  do 3 eexists. split; [lazy; reflexivity|]. split; [going 3|].
  exists ["signature"], (Req [] [["signers"; "chain"; "algorithm"]; ["signers"; "chain"; "value"]] []).
  split; [cbn; tauto|]. split; [reflexivity|]. intros (_ & H & _).
  destruct (H _ (or_introl eq_refl)) as (tag & a & ks & I1 & [I2|[]]). inversion I2 as [E]. subst tag.
  cbn in I1. intuition discriminate.
Qed.
(** ... and in version 1.5 a method of evidence without technique and confidence, behind an element [identity] inside
    an unknown element *)
Definition evidence_kids : list xml :=
  [Elem "components" [] [Elem "component" [("type", "library")]
     [Elem "name" [] [Text "a"];
      Elem "evidence" []
        [Elem "identity" []
           [Elem "field" [] [Text "purl"]; Elem "x-vendor" [] [Elem "identity" [] []];
            Elem "methods" [] [Elem "method" [] []]]]]]].
Definition method_path : list string := ["method"; "methods"; "identity"; "evidence"; "component"; "components"; "bom"].
Theorem C55_untidy_refuted F : exists b A (d : desc A),
  parse_from_xml F V1_5 (mkDocument (Some (namespace V1_5)) (flat (Elem "bom" [] evidence_kids))) = XOk b [] /\
  found (rd_bom F V1_5 60) "bom" [] evidence_kids A method_path d [] [] /\
  exists q r, In (q, r) (requirements V1_5) /\ starts q method_path = true /\ ~ met [] [] r.
Proof.
  do 3 eexists. split; [lazy; reflexivity|]. split; [going 6|].
  exists ["method"; "methods"], (Req [] [] [["technique"]; ["confidence"]]).
  split; [cbn; tauto|]. split; [reflexivity|]. intros (_ & _ & H).
  specialize (H _ (or_introl eq_refl)). inversion H as [k C|m a ks k C]; [destruct C as (? & ? & ? & _ & [])|destruct C].
Qed.
(** The same document: its reader of [identity] stops early *)
Theorem C48_document_exact_refuted F : exists b A (d : desc A) a kids',
  parse_from_xml F V1_5 (mkDocument (Some (namespace V1_5)) (flat (Elem "bom" [] evidence_kids))) = XOk b [] /\
  found (rd_bom F V1_5 60) "bom" [] evidence_kids A ["identity"; "evidence"; "component"; "components"; "bom"] d [] kids' /\
  run d "identity" [] (flats kids' ++ [EEnd "identity"]) =
    XOk a [EEnd "x-vendor"; EStart "methods" []; EStart "method" []; EEnd "method"; EEnd "methods"; EEnd "identity"].
Proof.
  do 5 eexists. split; [lazy; reflexivity|]. split; [going 4|]. lazy. reflexivity.
Qed.

Print Assumptions C48_document_exact_partial.
Print Assumptions C48_document_exact_1_3.
Print Assumptions C48_document_exact_refuted.
Print Assumptions C55_signature_refuted.
Print Assumptions C55_untidy_refuted.

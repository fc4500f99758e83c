(** C89: only the listed attributes matter *)
From Verif Require Import Base ModelTypes Strings Enums GenModel Json JsonLemmas JsonModel
  Xml XmlLemmas XmlModel XmlGeneral XmlSpec2 XmlSpec3 XmlFine XmlExact XmlProps2 ReqProps StrictSpec StrictProofs PassProps AttrSpec AttrProofs.
Open Scope string_scope.
Open Scope list_scope.
Open Scope nat_scope.

Lemma minds_all_changed v {A} (d : desc A) l q n ats kids kids' : obeys v d q -> minds v d l q -> all_changed v q kids kids' ->
  tr d n ats kids = tr d n ats kids'.
Proof.
  intros O K U. induction U as [|k k' k'' U _ IH]; [reflexivity|]. now rewrite (minds_changed v d l q n ats k k' O K U).
Qed.

(** ... and are equally orderly *)
Lemma changed_orderly v p l l' : changed v p l l' ->
  (forall m, forallb (absent m) l = forallb (absent m) l') /\ forallb is_signature_part l = forallb is_signature_part l' /\
  forallb tidy l = forallb tidy l' /\ forallb plain_signatures l = forallb plain_signatures l'.
Proof.
  induction 1 as [p before n ats ats' kids after q W E|p before n ats ats' kids after W E|p before n ats kids kids' after q W _ (H1 & H2 & H3 & H4)].
  - rewrite !forallb_app. repeat split; intros; now rewrite ?forallb_app.
  - rewrite !forallb_app. repeat split; intros; now rewrite ?forallb_app.
  - rewrite !forallb_app. cbn [forallb absent is_signature_part tidy plain_signatures]. rewrite H2, H3, H4.
    repeat split; try reflexivity; [intros m; rewrite !forallb_app; cbn [forallb absent]; now rewrite H1|].
    now rewrite (H1 n).
Qed.
Lemma all_changed_orderly v ats ats' kids kids' : all_changed v PBom kids kids' -> orderly v (Elem "bom" ats kids) = orderly v (Elem "bom" ats' kids').
Proof.
  intros P. assert (E : forallb tidy kids = forallb tidy kids' /\ forallb plain_signatures kids = forallb plain_signatures kids').
  { induction P as [|k k' k'' U _ (IH1 & IH2)]; [now split|]. destruct (changed_orderly v PBom k k' U) as (_ & _ & H3 & H4). now rewrite H3, H4.  }
  destruct E as (E & E'). unfold orderly. destruct v; [reflexivity|exact E'|exact E].
Qed.

(** Documents that differ only in attributes that are not read, or in the order of attributes, are parsed alike *)
Theorem C89_attributes F v ns ats ats' kids kids' :
  orderly v (Elem "bom" ats kids) = true ->
  same_values ["serialNumber"; "version"] ats ats' -> all_changed v PBom kids kids' ->
  parse_from_xml F v (mkDocument ns (flat (Elem "bom" ats kids))) =
  parse_from_xml F v (mkDocument ns (flat (Elem "bom" ats' kids'))).
Proof.
  intros T S P. assert (T' : orderly v (Elem "bom" ats' kids') = true) by (now rewrite <- (all_changed_orderly v ats ats' kids kids' P)).
  assert (Ns : forall a k b, parse_from_xml F v (mkDocument ns (flat (Elem "bom" a k))) = XOk b [] -> ns = Some (namespace v)).
  { intros a k b. unfold parse_from_xml. cbn [doc_events doc_namespace flat String.eqb Ascii.eqb Bool.eqb].
    destruct ns as [ns|]; [|discriminate]. destruct (String.eqb_spec ns (namespace v)) as [->|]; [reflexivity|discriminate]. }
  set (N := height (Elem "bom" ats kids) + height (Elem "bom" ats' kids') + List.length (flats kids) + List.length (flats kids') + 2).
  assert (E : tr (rd_bom F v N) "bom" ats kids = tr (rd_bom F v N) "bom" ats' kids').
  { rewrite (minds_here v (rd_bom F v N) _ PBom "bom" ats ats' kids (minds_bom F v N) S).
    exact (minds_all_changed v (rd_bom F v N) _ PBom "bom" ats' kids kids' (obeys_bom F v N) (minds_bom F v N) P). }
  assert (R : forall a k, parse_from_xml F v (mkDocument ns (flat (Elem "bom" a k))) = XErr \/
    exists b, parse_from_xml F v (mkDocument ns (flat (Elem "bom" a k))) = XOk b []).
  { intros a k. apply C48_parse_returns. left. now exists "bom", a, k. }
  destruct (R ats kids) as [R1|(b & R1)].
  - destruct (R ats' kids') as [R2|(b & R2)]; [congruence|]. exfalso.
    pose proof (parsed_accepted F v ns ats' kids' b N T' R2 ltac:(lia)) as A. rewrite <- E in A.
    rewrite (accepted_parsed F v ns ats kids b N A ltac:(lia) (Ns _ _ _ R2)) in R1. discriminate.
  - pose proof (parsed_accepted F v ns ats kids b N T R1 ltac:(lia)) as A. rewrite E in A.
    now rewrite (accepted_parsed F v ns ats' kids' b N A ltac:(lia) (Ns _ _ _ R1)).
Qed.
(** Version 1.3: any document *)
Theorem C89_attributes_1_3 F ns ats ats' kids kids' :
  same_values ["serialNumber"; "version"] ats ats' -> all_changed V1_3 PBom kids kids' ->
  parse_from_xml F V1_3 (mkDocument ns (flat (Elem "bom" ats kids))) =
  parse_from_xml F V1_3 (mkDocument ns (flat (Elem "bom" ats' kids'))).
Proof. now apply C89_attributes. Qed.

(** A component of version 1.3: its attributes in another order and with one more; one more at its name *)
Definition a_component (ats name : attrs) : list xml :=
  [Elem "components" [] [Elem "component" ats [Elem "name" name [Text "a"]; Elem "version" [] [Text "1"]]]].
Example C89_case :
  all_changed V1_3 PBom (a_component [("type", "library"); ("bom-ref", "r")] [])
    (a_component [("note", "n"); ("bom-ref", "r"); ("type", "library")] [("lang", "en")]) /\
  same_values ["serialNumber"; "version"] [("version", "2"); ("serialNumber", "s")] [("serialNumber", "s"); ("x", ""); ("version", "2")] /\
  (forall F, exists b, parse_from_xml F V1_3 (mkDocument (Some (namespace V1_3))
     (flat (Elem "bom" [("version", "2")] (a_component [("type", "library"); ("bom-ref", "r")] [])))) = XOk b []) /\
  (* the listed ones do matter *)
  (forall F, parse_from_xml F V1_3 (mkDocument (Some (namespace V1_3))
     (flat (Elem "bom" [("version", "2")] (a_component [("bom-ref", "r")] [])))) = XErr).
Proof.
  split; [|split; [|split]].
  - apply (changed_more V1_3 PBom _ (a_component [("note", "n"); ("bom-ref", "r"); ("type", "library")] [])).
    + eapply (changed_below V1_3 PBom []); [reflexivity|]. eapply (changed_here V1_3 _ [] "component"); [reflexivity|].
      intros a I. cbn in I. destruct I as [<-|[<-|[<-|[]]]]; reflexivity.
    + eapply changed_more; [|apply changed_none].
      eapply (changed_below V1_3 PBom []); [reflexivity|]. eapply (changed_below V1_3 _ [] "component"); [reflexivity|].
      eapply (changed_here V1_3 _ [] "name"); [reflexivity|]. intros a I. destruct I.
  - intros a I. destruct I as [<-|[<-|[]]]; reflexivity.
  - intros F. eexists. lazy. reflexivity.
  - intros F. lazy. reflexivity.
Qed.

Print Assumptions C89_attributes.
Print Assumptions C89_attributes_1_3.

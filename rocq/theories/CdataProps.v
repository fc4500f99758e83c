(** C91: a CDATA section means its text *)
From Verif Require Import Base ModelTypes Strings Enums GenModel Json JsonLemmas JsonModel
  Xml XmlLemmas XmlModel XmlGeneral XmlSpec2 XmlSpec3 XmlFine XmlExact XmlProps2 ReqProps StrictSpec StrictProofs PassProps CdataSpec.
Open Scope string_scope.
Open Scope list_scope.
Open Scope nat_scope.

Lemma prim_quoted {A} (p : prim A) before s after : tr_prim p (before ++ Text s :: after) = tr_prim p (before ++ CData s :: after).
Proof. destruct p, before as [|[] [|]], after; reflexivity. Qed.
Theorem obeys_quoted v {A} (d : desc A) : forall q n ats kids kids', obeys v d q -> quoted v q kids kids' ->
  tr d n ats kids = tr d n ats kids'.
Proof.
  induction d using desc_mut with
    (P0 := fun S sh => forall q, sobeys v sh q -> forall m r q' ats kids kids', tr_arm sh m = Some r -> within v q m = Some q' ->
       quoted v q' kids kids' -> r ats kids = r ats kids').
  - intros q n ats kids kids' (H & K) U. cbn [tr]. destruct U as [q before s after E|q before m a ks ks' after q' W U].
    + apply prim_quoted.
    + unfold within in W. rewrite K in W. discriminate.
  - intros q n ats kids kids' O U. cbn [tr]. now rewrite (IHd q n ats kids kids' O U).
  - intros q n ats kids kids' (H & C & N & O) U. cbn [tr].
    destruct U as [q before s after E|q before m a ks ks' after q' W U];
      rewrite !absorb_app; destruct (absorb p (tr_arm sh) (on_chars sh) n before (init sh)) as [st| |]; cbn [tbind]; try reflexivity; cbn [absorb absorb1].
    + now rewrite (C E).
    + assert (X : has_arm sh m = true) by (rewrite forallb_forall in N; apply N; eapply within_in, W).
      rewrite has_arm_tr in X. destruct (tr_arm sh m) as [r|] eqn:Er; [|discriminate].
      now rewrite (IHd q O m r q' a ks ks' Er W U).
  - intros q n ats kids kids' (H & N & O) U. cbn [tr].
    destruct U as [q before s after E|q before m a ks ks' after q' W U];
      rewrite !odd_absorb_app; destruct (odd_absorb (tr_arm sh) before (init sh)) as [st| |]; cbn [tbind]; try reflexivity; cbn [odd_absorb].
    assert (X : has_arm sh m = true) by (rewrite forallb_forall in N; apply N; eapply within_in, W).
    rewrite has_arm_tr in X. destruct (tr_arm sh m) as [r|] eqn:Er; [|discriminate].
    now rewrite (IHd q O m r q' a ks ks' Er W U).
  - reflexivity.
  - discriminate.
  - intros q O m r q' ats kids kids'. cbn [tr_arm sobeys] in *. destruct (String.eqb_spec m tag) as [->|]; [|discriminate].
    intros [= <-] W U. rewrite W in O. now rewrite (IHd q' tag ats kids kids' O U).
  - discriminate.
  - intros q (H1 & H2) m r q' ats kids kids'. cbn [tr_arm]. destruct (tr_arm a m) eqn:E.
    + intros [= <-]. now apply (IHd q).
    + now apply (IHd0 q).
  - intros q (H1 & H2) m r q' ats kids kids'. cbn [tr_arm]. destruct (tr_arm a m) eqn:E.
    + intros [= <-] W U. now rewrite (IHd q H1 m _ q' ats kids kids' E W U).
    + destruct (tr_arm b m) eqn:E'; [|discriminate]. intros [= <-] W U. now rewrite (IHd0 q H2 m _ q' ats kids kids' E' W U).
Qed.
Lemma obeys_written_as v {A} (d : desc A) q n ats kids kids' : obeys v d q -> written_as v q kids kids' -> tr d n ats kids = tr d n ats kids'.
Proof.
  intros O U. induction U as [|k k' k'' U _ IH|k k' k'' U _ IH]; [reflexivity|..]; rewrite <- IH.
  - now apply (obeys_quoted v d q).
  - symmetry. now apply (obeys_quoted v d q).
Qed.

(** ... and are equally orderly *)
Lemma quoted_orderly v p l l' : quoted v p l l' ->
  (forall m, forallb (absent m) l = forallb (absent m) l') /\ forallb is_signature_part l = forallb is_signature_part l' /\
  forallb tidy l = forallb tidy l' /\ forallb plain_signatures l = forallb plain_signatures l'.
Proof.
  induction 1 as [p before s after N|p before n ats kids kids' after q W _ (H1 & H2 & H3 & H4)].
  - rewrite !forallb_app. repeat split; intros; now rewrite ?forallb_app.
  - rewrite !forallb_app. cbn [forallb absent is_signature_part tidy plain_signatures]. rewrite H2, H3, H4.
    repeat split; try reflexivity; [intros m; rewrite !forallb_app; cbn [forallb absent]; now rewrite H1|].
    now rewrite (H1 n).
Qed.
Lemma written_as_orderly v ats ats' kids kids' : written_as v PBom kids kids' -> orderly v (Elem "bom" ats kids) = orderly v (Elem "bom" ats' kids').
Proof.
  intros P. assert (E : forallb tidy kids = forallb tidy kids' /\ forallb plain_signatures kids = forallb plain_signatures kids').
  { induction P as [|k k' k'' U _ (IH1 & IH2)|k k' k'' U _ (IH1 & IH2)]; [now split|..].
    - destruct (quoted_orderly v PBom k k' U) as (_ & _ & H3 & H4). now rewrite H3, H4.
    - destruct (quoted_orderly v PBom k' k U) as (_ & _ & H3 & H4). now rewrite <- H3, <- H4.  }
  destruct E as (E & E'). unfold orderly. destruct v; [reflexivity|exact E'|exact E].
Qed.

(** Documents that differ only in which texts are CDATA sections are parsed alike; attachments aside *)
Theorem C91_cdata_partial F v ns ats kids kids' :
  orderly v (Elem "bom" ats kids) = true ->
  written_as v PBom kids kids' ->
  parse_from_xml F v (mkDocument ns (flat (Elem "bom" ats kids))) =
  parse_from_xml F v (mkDocument ns (flat (Elem "bom" ats kids'))).
Proof.
  intros T P. assert (T' : orderly v (Elem "bom" ats kids') = true) by (now rewrite <- (written_as_orderly v ats ats kids kids' P)).
  assert (Ns : forall k b, parse_from_xml F v (mkDocument ns (flat (Elem "bom" ats k))) = XOk b [] -> ns = Some (namespace v)).
  { intros k b. unfold parse_from_xml. cbn [doc_events doc_namespace flat String.eqb Ascii.eqb Bool.eqb].
    destruct ns as [ns|]; [|discriminate]. destruct (String.eqb_spec ns (namespace v)) as [->|]; [reflexivity|discriminate]. }
  set (N := height (Elem "bom" ats kids) + height (Elem "bom" ats kids') + List.length (flats kids) + List.length (flats kids') + 2).
  pose proof (obeys_written_as v (rd_bom F v N) PBom "bom" ats kids kids' (obeys_bom F v N) P) as E.
  assert (R : forall k, parse_from_xml F v (mkDocument ns (flat (Elem "bom" ats k))) = XErr \/
    exists b, parse_from_xml F v (mkDocument ns (flat (Elem "bom" ats k))) = XOk b []).
  { intros k. apply C48_parse_returns. left. now exists "bom", ats, k. }
  destruct (R kids) as [R1|(b & R1)].
  - destruct (R kids') as [R2|(b & R2)]; [congruence|]. exfalso.
    pose proof (parsed_accepted F v ns ats kids' b N T' R2 ltac:(lia)) as A. rewrite <- E in A.
    rewrite (accepted_parsed F v ns ats kids b N A ltac:(lia) (Ns _ _ R2)) in R1. discriminate.
  - pose proof (parsed_accepted F v ns ats kids b N T R1 ltac:(lia)) as A. rewrite E in A.
    now rewrite (accepted_parsed F v ns ats kids' b N A ltac:(lia) (Ns _ _ R1)).
Qed.
(** Version 1.3, which has no attachments of that kind: any document *)
Theorem C91_cdata_1_3 F ns ats kids kids' :
  written_as V1_3 PBom kids kids' ->
  parse_from_xml F V1_3 (mkDocument ns (flat (Elem "bom" ats kids))) =
  parse_from_xml F V1_3 (mkDocument ns (flat (Elem "bom" ats kids'))).
Proof. now apply C91_cdata_partial. Qed.

(** The attachments of version 1.5: written as CDATA sections they are taken for missing, and the document is refused *)
Definition attached (x : xml) : xml :=
  Elem "bom" []
    [Elem "vulnerabilities" [] [Elem "vulnerability" []
       [Elem "proofOfConcept" [] [Elem "supportingMaterial" [] [Elem "attachment" [("content-type", "text/plain")] [x]]]]]].
Theorem C91_attachment_refuted F :
  (exists b, parse_from_xml F V1_5 (mkDocument (Some (namespace V1_5)) (flat (attached (Text "a < b")))) = XOk b []) /\
  parse_from_xml F V1_5 (mkDocument (Some (namespace V1_5)) (flat (attached (CData "a < b")))) = XErr.
Proof. split; [eexists|]; lazy; reflexivity. Qed.

(** A component whose name is a CDATA section and whose version is not, and the other way round *)
Definition component_of (name version : xml) : list xml :=
  [Elem "components" [] [Elem "component" [("type", "library")] [Elem "name" [] [name]; Elem "version" [] [version]]]].
Example C91_case :
  written_as V1_3 PBom (component_of (CData "a") (Text "1")) (component_of (Text "a") (CData "1")) /\
  (forall F, exists b, parse_from_xml F V1_3 (mkDocument (Some (namespace V1_3))
     (flat (Elem "bom" [] (component_of (Text "a") (CData "1"))))) = XOk b []).
Proof.
  split.
  - assert (B : forall n n' w w', quoted V1_3 PComponent [Elem "name" [] [n]; Elem "version" [] [w]] [Elem "name" [] [n']; Elem "version" [] [w']] ->
      quoted V1_3 PBom (component_of n w) (component_of n' w')).
    { intros n n' w w' H. eapply (quoted_below V1_3 PBom []); [reflexivity|]. now eapply (quoted_below V1_3 _ []); [reflexivity|]. }
    eapply (as_text V1_3 PBom _ (component_of (Text "a") (Text "1"))).
    { apply B. eapply (quoted_below V1_3 PComponent [] "name"); [reflexivity|]. now apply (quoted_here V1_3 PWords [] "a" []). }
    eapply (as_cdata V1_3 PBom _ (component_of (Text "a") (CData "1"))); [|apply as_is].
    apply B. eapply (quoted_below V1_3 PComponent [_] "version"); [reflexivity|]. now apply (quoted_here V1_3 PWords [] "1" []).
  - intros F. eexists. lazy. reflexivity.
Qed.

Print Assumptions C91_cdata_partial.
Print Assumptions C91_cdata_1_3.
Print Assumptions C91_attachment_refuted.

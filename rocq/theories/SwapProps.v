(** C90: the order of different elements inside an element does not matter *)
From Verif Require Import Base ModelTypes Strings Enums GenModel Json JsonLemmas JsonModel
  Xml XmlLemmas XmlModel XmlGeneral XmlSpec2 XmlSpec3 XmlFine XmlExact XmlProps2 ReqProps StrictSpec StrictProofs PassProps SwapSpec SwapProofs.
Open Scope string_scope.
Open Scope list_scope.
Open Scope nat_scope.

Lemma swapped_back v p l l' : swapped v p l l' -> swapped v p l' l.
Proof.
  induction 1 as [p before n ats kids n' ats' kids' after W W' N A|p before n ats kids kids' after q W _ IH].
  - apply swapped_here; try assumption; [now intros E; apply N|]. intros [I I']. now apply A.
  - now apply (swapped_below v p before n ats kids' kids after q).
Qed.
Lemma sorts_reordered v {A} (d : desc A) q n ats kids kids' a : obeys v d q -> sorts v d q -> reordered v q kids kids' ->
  tr d n ats kids = TOk a <-> tr d n ats kids' = TOk a.
Proof.
  intros O K U. induction U as [|k k' k'' U _ IH]; [reflexivity|]. rewrite <- IH. split.
  - now apply (sorts_swapped v d q n ats k k').
  - apply (sorts_swapped v d q n ats k' k); try assumption. now apply swapped_back.
Qed.

(** ... and are equally orderly *)
Lemma swapped_orderly v p l l' : swapped v p l l' ->
  (forall m, forallb (absent m) l = forallb (absent m) l') /\ forallb is_signature_part l = forallb is_signature_part l' /\
  forallb tidy l = forallb tidy l' /\ forallb plain_signatures l = forallb plain_signatures l'.
Proof.
  induction 1 as [p before n ats kids n' ats' kids' after W W' N A|p before n ats kids kids' after q W _ (H1 & H2 & H3 & H4)].
  - assert (E : forall f : xml -> bool, forallb f (before ++ Elem n ats kids :: Elem n' ats' kids' :: after) =
      forallb f (before ++ Elem n' ats' kids' :: Elem n ats kids :: after)).
    { intros f. rewrite !forallb_app. cbn [forallb]. now rewrite !andb_assoc, <- !andb_assoc, (andb_comm (f (Elem n ats kids))), <- !andb_assoc, (andb_comm (f (Elem n ats kids))). }
    repeat split; intros; apply E.
  - rewrite !forallb_app. cbn [forallb absent is_signature_part tidy plain_signatures]. rewrite H2, H3, H4.
    repeat split; try reflexivity; [intros m; rewrite !forallb_app; cbn [forallb absent]; now rewrite H1|].
    now rewrite (H1 n).
Qed.
Lemma reordered_orderly v ats ats' kids kids' : reordered v PBom kids kids' -> orderly v (Elem "bom" ats kids) = orderly v (Elem "bom" ats' kids').
Proof.
  intros P. assert (E : forallb tidy kids = forallb tidy kids' /\ forallb plain_signatures kids = forallb plain_signatures kids').
  { induction P as [|k k' k'' U _ (IH1 & IH2)]; [now split|]. destruct (swapped_orderly v PBom k k' U) as (_ & _ & H3 & H4). now rewrite H3, H4.  }
  destruct E as (E & E'). unfold orderly. destruct v; [reflexivity|exact E'|exact E].
Qed.

(** Documents that differ only in the order of different elements are parsed alike *)
Theorem C90_order F v ns ats kids kids' :
  orderly v (Elem "bom" ats kids) = true ->
  reordered v PBom kids kids' ->
  parse_from_xml F v (mkDocument ns (flat (Elem "bom" ats kids))) =
  parse_from_xml F v (mkDocument ns (flat (Elem "bom" ats kids'))).
Proof.
  intros T P. assert (T' : orderly v (Elem "bom" ats kids') = true) by (now rewrite <- (reordered_orderly v ats ats kids kids' P)).
  assert (Ns : forall k b, parse_from_xml F v (mkDocument ns (flat (Elem "bom" ats k))) = XOk b [] -> ns = Some (namespace v)).
  { intros k b. unfold parse_from_xml. cbn [doc_events doc_namespace flat String.eqb Ascii.eqb Bool.eqb].
    destruct ns as [ns|]; [|discriminate]. destruct (String.eqb_spec ns (namespace v)) as [->|]; [reflexivity|discriminate]. }
  set (N := height (Elem "bom" ats kids) + height (Elem "bom" ats kids') + List.length (flats kids) + List.length (flats kids') + 2).
  pose proof (fun b => sorts_reordered v (rd_bom F v N) PBom "bom" ats kids kids' b (obeys_bom F v N) (sorts_bom F v N) P) as E.
  assert (R : forall k, parse_from_xml F v (mkDocument ns (flat (Elem "bom" ats k))) = XErr \/
    exists b, parse_from_xml F v (mkDocument ns (flat (Elem "bom" ats k))) = XOk b []).
  { intros k. apply C48_parse_returns. left. now exists "bom", ats, k. }
  destruct (R kids) as [R1|(b & R1)].
  - destruct (R kids') as [R2|(b & R2)]; [congruence|]. exfalso.
    pose proof (parsed_accepted F v ns ats kids' b N T' R2 ltac:(lia)) as A. rewrite <- E in A.
    rewrite (accepted_parsed F v ns ats kids b N A ltac:(lia) (Ns _ _ R2)) in R1. discriminate.
  - pose proof (parsed_accepted F v ns ats kids b N T R1 ltac:(lia)) as A. rewrite E in A.
    now rewrite (accepted_parsed F v ns ats kids' b N A ltac:(lia) (Ns _ _ R1)).
Qed.
(** Version 1.3: any document *)
Theorem C90_order_1_3 F ns ats kids kids' :
  reordered V1_3 PBom kids kids' ->
  parse_from_xml F V1_3 (mkDocument ns (flat (Elem "bom" ats kids))) =
  parse_from_xml F V1_3 (mkDocument ns (flat (Elem "bom" ats kids'))).
Proof. now apply C90_order. Qed.

(** A component with its parts in two orders; and licenses, whose order is kept *)
Definition listing (l : list xml) : list xml := [Elem "components" [] [Elem "component" [("type", "library")] l]].
Definition name_ : xml := Elem "name" [] [Text "a"].
Definition version_ : xml := Elem "version" [] [Text "1"].
Definition license_ : xml := Elem "license" [] [Elem "id" [] [Text "MIT"]].
Definition expression_ : xml := Elem "expression" [] [Text "MIT OR BSD"].
Definition dependencies_ : xml := Elem "dependencies" [] [].
Example C90_case :
  reordered V1_3 PBom (listing [name_; version_; Elem "licenses" [] [license_; expression_]] ++ [dependencies_])
    (dependencies_ :: listing [version_; Elem "licenses" [] [license_; expression_]; name_]) /\
  (forall F, exists b, parse_from_xml F V1_3 (mkDocument (Some (namespace V1_3))
     (flat (Elem "bom" [] (dependencies_ :: listing [version_; Elem "licenses" [] [license_; expression_]; name_])))) = XOk b []) /\
  (forall F, parse_from_xml F V1_3 (mkDocument (Some (namespace V1_3))
      (flat (Elem "bom" [] (listing [name_; version_; Elem "licenses" [] [license_; expression_]])))) <>
    parse_from_xml F V1_3 (mkDocument (Some (namespace V1_3))
      (flat (Elem "bom" [] (listing [name_; version_; Elem "licenses" [] [expression_; license_]]))))).
Proof.
  split; [|split].
  - assert (B : forall l l', swapped V1_3 PComponent l l' -> swapped V1_3 PBom (listing l ++ [dependencies_]) (listing l' ++ [dependencies_])).
    { intros l l' H. eapply (swapped_below V1_3 PBom []); [reflexivity|]. now eapply (swapped_below V1_3 _ []); [reflexivity|]. }
    eapply other_order; [apply B, (swapped_here V1_3 PComponent [] "name" _ _ "version"); try discriminate; now intros []|].
    eapply other_order; [apply B, (swapped_here V1_3 PComponent [_] "name" _ _ "licenses"); try discriminate; now intros []|].
    eapply other_order; [apply (swapped_here V1_3 PBom [] "components" _ _ "dependencies"); try discriminate; now intros []|].
    apply same_order.
  - intros F. eexists. lazy. reflexivity.
  - intros F. lazy. discriminate.
Qed.

Print Assumptions C90_order.
Print Assumptions C90_order_1_3.

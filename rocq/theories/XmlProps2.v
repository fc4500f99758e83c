(** XML documents with unexpected content: C46 (foreign elements), C48 (readers and their
    elements). *)
From Verif Require Import Base ModelTypes Strings Enums GenModel Json JsonLemmas JsonModel
  Xml XmlLemmas XmlModel XmlSpec2 XmlSpec3 XmlGeneral XmlFine XmlExact.
Open Scope string_scope.
Open Scope list_scope.
Open Scope nat_scope.

(** ** C48 *)

(** Partial: the claim is false of untidy documents ([C48_always_exact_refuted]).  Every reader of the library, called for an element of a tidy document, either fails or consumes
    exactly that element: it leaves the events after the end tag, whatever they are.  [N]: the bound on
    nested readers, see [C48_bound]. *)
Theorem C48_reader_exact_partial F v N A p (d : desc A) ats kids rest :
  reader_at (rd_bom F v N) "bom" A p d ->
  tidy (Elem (hd "" p) ats kids) = true ->
  height (Elem (hd "" p) ats kids) + List.length p <= N ->
  run d (hd "" p) ats (flats kids ++ EEnd (hd "" p) :: rest) = XErr \/
  exists a, run d (hd "" p) ats (flats kids ++ EEnd (hd "" p) :: rest) = XOk a rest.
Proof.
  intros R T L.
  destruct (reader_at_fine (w := since V1_5 v) (rd_bom F v N) "bom" true N A p d) as (o & _ & H).
  { intros k Lk. apply fine_bom; [now intros _|exact Lk]. }
  { exact R. }
  apply known_run. apply (fine_known (w := since V1_5 v) d o (height (Elem (hd "" p) ats kids)) p); [|exact T|unfold name_of; lia].
  apply H. lia.
Qed.

(** In version 1.3, on any well-formed document, a reader never reads beyond the end tag of its element: the
    events after it are still there.  *)
Theorem C48_reader_inside_1_3 F N A p (d : desc A) ats kids T :
  reader_at (rd_bom F V1_3 N) "bom" A p d -> List.length p <= N ->
  let n := hd "" p in
  run d n ats (flats kids ++ EEnd n :: T) <> XHang /\
  forall a rest, run d n ats (flats kids ++ EEnd n :: T) = XOk a rest ->
    exists read unread, flats kids ++ [EEnd n] = read ++ unread /\ rest = unread ++ T.
Proof.
  intros R L n.
  destruct (reader_at_fine (w := false) (rd_bom F V1_3 N) "bom" false N A p d) as (o & E & H).
  { intros k Lk. apply (fine_bom F V1_3); [intros C; discriminate|exact Lk]. }
  { exact R. }
  rewrite (E eq_refl) in H. apply (fine_inside (w := false) d 0 p). apply H. cbn. lia.
Qed.

(** Signatures, from version 1.4 on: a reader that succeeds has consumed exactly the element, in any well-formed
    document, unless an element around it is called [signature], too. *)
Theorem C48_signature_exact ats kids T a rest : after_element T ->
  run rd_signature "signature" ats (flats kids ++ EEnd "signature" :: T) = XOk a rest -> rest = T.
Proof. apply signature_exact. Qed.

(** Parsing returns, on every well-formed document and on every document in which xml-rs reports an error *)
Theorem C48_parse_returns F v d :
  (exists n ats kids, doc_events d = flat (Elem n ats kids)) \/ In EBad (doc_events d) ->
  parse_from_xml F v d = XErr \/ exists b, parse_from_xml F v d = XOk b [].
Proof.
  intros H. unfold parse_from_xml.
  destruct (doc_events d) as [|e rest] eqn:Ed; [now left|].
  destruct e as [n ats| | | | |]; try now left.
  destruct (String.eqb_spec n "bom") as [->|]; [|now left].
  destruct (doc_namespace d) as [ns|]; [|now left]. destruct (String.eqb ns (namespace v)); [|now left].
  assert (Hf : run (rd_bom F v (S (List.length rest))) "bom" ats rest <> XFuel).
  { apply (fine_fuel (w := since V1_5 v) _ true (S (List.length rest)) ["bom"]); [|lia]. apply fine_bom; [now intros _|lia]. }
  assert (Hh : run (rd_bom F v (S (List.length rest))) "bom" ats rest <> XHang).
  { destruct H as [(n & a & kids & E)|H].
    - cbn [flat] in E. injection E as E1 E2 E3. subst. change (flat_map flat kids) with (flats kids).
      apply (fine_returns (w := since V1_5 v) _ true 0 ["bom"]).
      + apply fine_bom; [now intros _|lia].
      + apply (suffix_app [EStart "bom" a]). exists [], [Elem "bom" a kids]. cbn. rewrite app_nil_r. reflexivity.
      + left. reflexivity.
    - apply run_halts. destruct H as [H|H]; [discriminate|exact H]. }
  destruct (run (rd_bom F v (S (List.length rest))) "bom" ats rest) as [b r| | |]; cbn; try congruence; try now left.
  destruct r; [right; eauto|now left].
Qed.

(** The bound on nested readers: any number larger than the number of events gives the same result *)
Theorem C48_bound F v n m ats evs : List.length evs < n -> n <= m ->
  run (rd_bom F v m) "bom" ats evs = run (rd_bom F v n) "bom" ats evs.
Proof. apply rd_bom_fuel. Qed.

(** *** Cases *)
(* a component inside a component *)
Ltac arm := repeat (first [left; reflexivity | right]).
Example C48_component_reader F n :
  reader_at (rd_bom F V1_5 (S n)) "bom" component ["component"; "components"; "component"; "components"; "bom"]
    (rd_component F V1_5 n).
Proof.
  apply (at_arm _ _ _ _ (list_of Lax "component" (rd_component F V1_5 n))); [|arm].
  apply (at_arm _ _ _ _ (rd_component F V1_5 (S n))); [|cbn [rd_component arms_of struct arms one app]; arm].
  apply (at_arm _ _ _ _ (list_of Lax "component" (rd_component F V1_5 (S n)))); [|arm].
  apply (at_arm _ _ _ _ (rd_bom F V1_5 (S n))); [|arm].
  apply at_root.
Qed.
Definition signed_component : xml :=
  Elem "component" [("type", "library")]
    [Elem "name" [] [Text "a"];
     Elem "foreign" [] [Elem "name" [] [Text "b"]];
     Elem "signature" [] [Elem "algorithm" [] [Text "HS512"]; Elem "value" [] [Text "x"]];
     Elem "evidence" [] [Elem "foreign" [] []; Elem "copyright" [] [Elem "text" [] [Text "c"]]]].
Example C48_component_tidy : tidy signed_component = true /\ height signed_component + 5 <= 9.
Proof. split; [reflexivity|cbn; lia]. Qed.

(** The readers that look through unknown elements stop early at an element of their own name: not every
    reader consumes exactly its element on every well-formed document. *)
Definition nested_data : list xml :=
  [Elem "foreign" [] [Elem "data" [] []]; Elem "classification" [("flow", "inbound")] [Text "x"]].
Lemma data_reader F : reader_at (rd_bom F V1_3 9) "bom" data ["data"; "service"; "services"; "bom"] (rd_data V1_3).
Proof.
  apply (at_arm _ _ _ _ (rd_service V1_3 9)); [|cbn [rd_service arms_of struct arms one app]; arm].
  apply (at_arm _ _ _ _ (list_of Lax "service" (rd_service V1_3 9))); [|arm].
  apply (at_arm _ _ _ _ (rd_bom F V1_3 9)); [|arm].
  apply at_root.
Qed.
Theorem C48_always_exact_refuted : exists p A (d : desc A) kids a rest,
  (forall F, reader_at (rd_bom F V1_3 9) "bom" A p d) /\
  run d (hd "" p) [] (flats kids ++ EEnd (hd "" p) :: []) = XOk a rest /\ rest <> [].
Proof.
  exists ["data"; "service"; "services"; "bom"], data, (rd_data V1_3), nested_data, (DClassification []).
  exists [EEnd "foreign"; EStart "classification" [("flow", "inbound")]; EChars "x"; EEnd "classification"; EEnd "data"].
  split; [apply data_reader|]. split; [reflexivity|discriminate].
Qed.

(** ** C46 *)

(** [read_lax_validation_tag] consumes exactly the element it is called for *)
Theorem C46_skip_exact n kids rest : skip [n] (flats kids ++ EEnd n :: rest) = XOk tt rest.
Proof. apply skip_elem. Qed.

(** Partial: false for foreign elements that are children of elements with open readers ([open_names], see
    [C46_open_refuted]) or are below children such readers do not look for.  Adding foreign elements to an orderly
    document, in any number and at any depth, where the lax readers are at work, does not change what is parsed.  In
    version 1.3 every document is orderly.  In version 1.4 the signatures of both documents consist of known parts. *)
Theorem C46_foreign_elements_ignored_partial F v ns ats kids kids' :
  orderly v (Elem "bom" ats kids) = true ->
  (v = V1_4 -> plain_signatures (Elem "bom" ats kids') = true) ->
  grows v ["bom"] kids kids' ->
  parse_from_xml F v (mkDocument ns (flat (Elem "bom" ats kids'))) =
  parse_from_xml F v (mkDocument ns (flat (Elem "bom" ats kids))).
Proof.
  intros T T' G.
  assert (K : exists M, forall N, M <= N -> tr (rd_bom F v N) "bom" ats kids' = tr (rd_bom F v N) "bom" ats kids).
  { clear T T'. induction G as [l|l l' l'' G IH G']; [now exists 0|].
    destruct IH as (M & IH). exists (M + height (Elem "bom" ats l')). intros N L.
    rewrite <- (IH N ltac:(lia)).
    apply (fine_grown (w := since V1_5 v) (rd_bom F v N) v eq_refl true N ["bom"]); [|exact G'|cbn [name_of hd]; lia].
    apply fine_bom; [now intros _|lia]. }
  destruct K as (M & K).
  pose proof (C48_parse_returns F v (mkDocument ns (flat (Elem "bom" ats kids)))
    (or_introl (ex_intro _ "bom" (ex_intro _ ats (ex_intro _ kids eq_refl))))) as P.
  pose proof (C48_parse_returns F v (mkDocument ns (flat (Elem "bom" ats kids')))
    (or_introl (ex_intro _ "bom" (ex_intro _ ats (ex_intro _ kids' eq_refl))))) as P'.
  revert P P'.
  unfold parse_from_xml. cbn [doc_events doc_namespace flat String.eqb Ascii.eqb Bool.eqb].
  change (flat_map flat kids) with (flats kids). change (flat_map flat kids') with (flats kids').
  destruct ns as [ns|]; [|reflexivity]. destruct (String.eqb ns (namespace v)); [|reflexivity].
  set (e := flats kids ++ [EEnd "bom"]). set (e' := flats kids' ++ [EEnd "bom"]).
  set (N := M + S (List.length e) + S (List.length e') + height (Elem "bom" ats kids) + height (Elem "bom" ats kids')).
  specialize (K N ltac:(lia)).
  rewrite <- (rd_bom_fuel F v (S (List.length e)) N e ats) by lia.
  rewrite <- (rd_bom_fuel F v (S (List.length e')) N e' ats) by lia.
  pose proof (run_tr (rd_bom F v N) "bom" ats kids []) as R1.
  pose proof (run_tr (rd_bom F v N) "bom" ats kids' []) as R2.
  pose proof (fun b => orderly_known F v N ats kids b [] T ltac:(lia)) as O1.
  assert (O2 : forall b, run (rd_bom F v N) "bom" ats e' = XOk b [] -> tr (rd_bom F v N) "bom" ats kids' = TOk b).
  { intros b Rb. destruct (since V1_5 v) eqn:Hv.
    - rewrite K. rewrite K in R2.
      assert (U : tr (rd_bom F v N) "bom" ats kids <> TUnk).
      { apply (fine_known (w := since V1_5 v) (rd_bom F v N) true N ["bom"]);
          [|destruct v; try discriminate; exact T|cbn [name_of hd]; lia].
        apply fine_bom; [now intros _|lia]. }
      destruct (tr (rd_bom F v N) "bom" ats kids); cbn [agree] in R2; fold e' in R2; congruence.
    - apply (orderly_known F v N ats kids' b []); [|lia|exact Rb].
      destruct v; [reflexivity|now apply T'|discriminate]. }
  fold e in R1, O1. fold e' in R2. rewrite K in R2, O2. clearbody N. clear K.
  destruct (tr (rd_bom F v N) "bom" ats kids) as [b| |]; cbn [agree] in R1, R2.
  - now rewrite R1, R2.
  - now rewrite R1, R2.
  - assert (Q : forall x : xres bom, (forall b, x = XOk b [] -> TUnk = TOk b) ->
      (let y := xbind x (fun b rest' => match rest' with [] => XOk b [] | _ => XErr end) in y = XErr \/ (exists b, y = XOk b [])) ->
      xbind x (fun b rest' => match rest' with [] => XOk b [] | _ => XErr end) = XErr).
    { intros x H [H'|(b & H')]; [exact H'|]. destruct x as [a r| | |]; try discriminate. cbn [xbind] in H'. destruct r; [|discriminate].
      specialize (H a eq_refl). discriminate. }
    intros P P'. now rewrite (Q _ O1 P), (Q _ O2 P').
Qed.
(** Version 1.3: any document *)
Theorem C46_foreign_elements_ignored_1_3 F ns ats kids kids' :
  grows V1_3 ["bom"] kids kids' ->
  parse_from_xml F V1_3 (mkDocument ns (flat (Elem "bom" ats kids'))) =
  parse_from_xml F V1_3 (mkDocument ns (flat (Elem "bom" ats kids))).
Proof. now apply C46_foreign_elements_ignored_partial. Qed.

(** *** Cases: a document with components, and foreign elements with arbitrary content in the component, in
    the list and in the document *)
Definition plain_kids : list xml :=
  [Elem "components" [] [Elem "component" [("type", "library")] [Elem "name" [] [Text "a"]; Elem "version" [] [Text "1"]]]].
Definition foreign_thing : xml :=
  Elem "x-vendor" [("a", "b")] [Text "t"; Elem "component" [] [Elem "data" [] [Elem "data" [] []]]; PI].
Definition grown_kids : list xml :=
  [foreign_thing;
   Elem "components" []
     [Elem "component" [("type", "library")] [Elem "name" [] [Text "a"]; foreign_thing; Elem "version" [] [Text "1"]];
      foreign_thing]].
Example C46_case v : orderly v (Elem "bom" [] plain_kids) = true /\ plain_signatures (Elem "bom" [] grown_kids) = true /\
  grows v ["bom"] plain_kids grown_kids.
Proof.
  split; [now destruct v|]. split; [reflexivity|].
  set (c := Elem "component" [("type", "library")] [Elem "name" [] [Text "a"]; Elem "version" [] [Text "1"]]).
  set (c' := Elem "component" [("type", "library")] [Elem "name" [] [Text "a"]; foreign_thing; Elem "version" [] [Text "1"]]).
  eapply grows_more; [eapply grows_more; [eapply grows_more; [apply grows_none|]|]|].
  - apply (grown_below v "bom" [] [] "components" [] _ [c; foreign_thing] []); [reflexivity|].
    apply (grown_here v _ [c] foreign_thing []); reflexivity.
  - apply (grown_below v "bom" [] [] "components" [] _ [c'; foreign_thing] []); [reflexivity|].
    apply (grown_below v "components" ["bom"] [] "component" [("type", "library")] _ _ [foreign_thing]); [reflexivity|].
    apply (grown_here v _ [Elem "name" [] [Text "a"]] foreign_thing [Elem "version" [] [Text "1"]]); reflexivity.
  - apply (grown_here v _ [] foreign_thing [Elem "components" [] [c'; foreign_thing]]); reflexivity.
Qed.

(** Below evidence and model cards, whose readers look through unknown elements: in a license of the evidence and in
    the organization that owns a dataset *)
Definition deep_kids (inside below : list xml) : list xml :=
  [Elem "components" []
     [Elem "component" [("type", "library")]
        [Elem "name" [] [Text "a"]; Elem "version" [] [Text "1"];
         Elem "evidence" [] [Elem "licenses" [] [Elem "license" [] (inside ++ [Elem "id" [] [Text "MIT"]])]];
         Elem "modelCard" []
           [Elem "modelParameters" []
              [Elem "datasets" []
                 [Elem "dataset" []
                    [Elem "type" [] [Text "dataset"];
                     Elem "governance" []
                       [Elem "owners" [] [Elem "owner" [] [Elem "organization" [] (below ++ [Elem "name" [] [Text "o"]])]]]]]]]]]].
Local Ltac below a b := apply (grown_below _ _ _ a _ _ _ _ b); [reflexivity|].
Example C46_deep_case v : orderly v (Elem "bom" [] (deep_kids [] [])) = true /\
  plain_signatures (Elem "bom" [] (deep_kids [foreign_thing] [foreign_thing])) = true /\
  grows v ["bom"] (deep_kids [] []) (deep_kids [foreign_thing] [foreign_thing]).
Proof.
  split; [now destruct v|]. split; [reflexivity|]. apply (grows_more v _ _ (deep_kids [foreign_thing] [])); [apply (grows_more v _ _ (deep_kids [] [])); [apply grows_none|]|];
    unfold deep_kids; cbn [List.app].
  - below (@nil xml) (@nil xml). below (@nil xml) (@nil xml). set (mc := Elem "modelCard" _ _).
    below [Elem "name" [] [Text "a"]; Elem "version" [] [Text "1"]] [mc].
    below (@nil xml) (@nil xml). below (@nil xml) (@nil xml).
    apply (grown_here v _ [] foreign_thing [Elem "id" [] [Text "MIT"]]); reflexivity.
  - below (@nil xml) (@nil xml). below (@nil xml) (@nil xml). set (ev := Elem "evidence" _ _).
    below [Elem "name" [] [Text "a"]; Elem "version" [] [Text "1"]; ev] (@nil xml).
    below (@nil xml) (@nil xml). below (@nil xml) (@nil xml). below (@nil xml) (@nil xml).
    below [Elem "type" [] [Text "dataset"]] (@nil xml). below (@nil xml) (@nil xml). below (@nil xml) (@nil xml). below (@nil xml) (@nil xml).
    apply (grown_here v _ [] foreign_thing [Elem "name" [] [Text "o"]]); reflexivity.
Qed.

(** Where the readers look through unknown elements a foreign element is not ignored: the content of a foreign element
    inside [evidence] is read as evidence. *)
Theorem C46_open_refuted : exists kids x a b, foreign x /\ a <> b /\
  forall F v rest,
    run (rd_evidence F v 1) "evidence" [] (flats kids ++ EEnd "evidence" :: rest) = XOk a rest /\
    run (rd_evidence F v 1) "evidence" [] (flats (x :: kids) ++ EEnd "evidence" :: rest) = XOk b rest.
Proof.
  exists [], (Elem "foreign" [] [Elem "copyright" [] [Elem "text" [] [Text "c"]]]).
  exists (mkEvidence None None None None None), (mkEvidence None (Some ["c"]) None None None).
  split; [reflexivity|]. split; [discriminate|].
  intros F v rest. split; destruct v; reflexivity.
Qed.

Print Assumptions C48_reader_exact_partial.
Print Assumptions C48_reader_inside_1_3.
Print Assumptions C48_signature_exact.
Print Assumptions C48_parse_returns.
Print Assumptions C48_bound.
Print Assumptions C48_always_exact_refuted.
Print Assumptions C46_skip_exact.
Print Assumptions C46_foreign_elements_ignored_partial.
Print Assumptions C46_foreign_elements_ignored_1_3.
Print Assumptions C46_open_refuted.

(** C55: a document that is read has the parts CycloneDX requires, at every depth *)
From Verif Require Import Base ModelTypes Strings Enums GenModel Json JsonLemmas JsonModel
  Xml XmlLemmas XmlModel XmlSpec2 XmlSpec3 XmlGeneral XmlFine XmlExact ReqSpec ReqProofs.
Open Scope string_scope.
Open Scope list_scope.
Open Scope nat_scope.

(** ** XML *)

(** A parsed document was accepted by the reader of the document, whatever the bound on nested readers *)
Lemma parsed_accepted F v ns ats kids b N :
  orderly v (Elem "bom" ats kids) = true ->
  parse_from_xml F v (mkDocument ns (flat (Elem "bom" ats kids))) = XOk b [] ->
  height (Elem "bom" ats kids) + List.length (flats kids) + 2 <= N ->
  tr (rd_bom F v N) "bom" ats kids = TOk b.
Proof.
  intros T P L. unfold parse_from_xml in P. cbn [doc_events doc_namespace flat String.eqb Ascii.eqb Bool.eqb] in P.
  change (flat_map flat kids) with (flats kids) in P.
  destruct ns as [ns|]; [|discriminate]. destruct (String.eqb ns (namespace v)); [|discriminate].
  pose proof (rd_bom_fuel F v (S (List.length (flats kids ++ [EEnd "bom"]))) N (flats kids ++ [EEnd "bom"]) ats
    ltac:(lia) ltac:(rewrite app_length; cbn [List.length]; lia)) as R.
  apply (orderly_known F v N ats kids b []); [exact T|lia|]. rewrite R.
  revert P. generalize (run (rd_bom F v (S (List.length (flats kids ++ [EEnd "bom"])))) "bom" ats (flats kids ++ [EEnd "bom"])).
  intros x P. destruct x as [a r| | |]; try discriminate. cbn in P. destruct r; [|discriminate]. exact P.
Qed.

(** Every element that is read, at whatever depth, has the attributes and the children that
    ReqSpec.requirements lists for its place.  Partial: for orderly documents, which are all documents of version 1.3
    and those of version 1.4 whose signatures hold nothing but their known parts; for others it is false
    (XmlExactProps.C55_signature_refuted, C55_untidy_refuted). *)
Theorem C55_xml_required_parts_partial F v ns ats kids b N :
  orderly v (Elem "bom" ats kids) = true ->
  parse_from_xml F v (mkDocument ns (flat (Elem "bom" ats kids))) = XOk b [] ->
  height (Elem "bom" ats kids) + List.length (flats kids) + 2 <= N ->
  forall A p (d : desc A) ats' kids', found (rd_bom F v N) "bom" ats kids A p d ats' kids' ->
  forall q r, In (q, r) (requirements v) -> starts q p = true -> met ats' kids' r.
Proof.
  intros T P L A p d ats' kids' H q r I S.
  pose proof (parsed_accepted F v ns ats kids b N T P L) as Ac.
  destruct (found_met v (rd_bom F v N) "bom" ats kids (meets_bom F v N) (ex_intro _ b Ac) A p d ats' kids' H) as ((O & _) & Ad).
  assert (R : In r (rows v p)).
  { unfold rows. apply in_map_iff. exists (q, r). split; [reflexivity|]. apply filter_In. now split. }
  exact (proj1 (Forall_forall _ _) O r R ats' kids' Ad).
Qed.

(** All documents of version 1.3 *)
Theorem C55_xml_required_parts_1_3 F ns ats kids b N :
  parse_from_xml F V1_3 (mkDocument ns (flat (Elem "bom" ats kids))) = XOk b [] ->
  height (Elem "bom" ats kids) + List.length (flats kids) + 2 <= N ->
  forall A p (d : desc A) ats' kids', found (rd_bom F V1_3 N) "bom" ats kids A p d ats' kids' ->
  forall q r, In (q, r) (requirements V1_3) -> starts q p = true -> met ats' kids' r.
Proof. intros P L. exact (C55_xml_required_parts_partial F V1_3 ns ats kids b N eq_refl P L). Qed.

(** *** Every row of the table is about elements that are read: the names on the way to such elements *)
Definition component_path (p : list string) := ["components"; "component"] ++ p.
Definition workflow_path (p : list string) := ["formulation"; "formula"; "workflows"; "workflow"] ++ p.
Definition examples (v : spec_version) : list (list string) :=
  [ ["dependencies"; "dependency"]; ["compositions"; "composition"; "assemblies"; "assembly"];
    ["components"; "component"]; ["services"; "service"]; ["compositions"; "composition"];
    component_path ["properties"; "property"]; component_path ["hashes"; "hash"];
    component_path ["externalReferences"; "reference"]; component_path ["swid"];
    component_path ["pedigree"; "patches"; "patch"]; component_path ["pedigree"; "patches"; "patch"; "resolves"; "issue"];
    component_path ["licenses"; "license"] ] ++
  (if since V1_4 v then
     [ component_path ["signature"]; component_path ["signature"; "signers"; "signer"];
       component_path ["signature"; "chain"; "chain"];
       ["vulnerabilities"; "vulnerability"; "references"; "reference"];
       ["vulnerabilities"; "vulnerability"; "advisories"; "advisory"];
       ["vulnerabilities"; "vulnerability"; "affects"; "target"];
       ["vulnerabilities"; "vulnerability"; "affects"; "target"; "versions"; "version"] ]
   else []) ++
  (if since V1_5 v then
    [ ["services"; "service"; "data"; "dataflow"]; ["services"; "service"; "data"; "dataflow"; "classification"];
      ["compositions"; "composition"; "vulnerabilities"; "vulnerability"];
      ["annotations"; "annotation"]; ["annotations"; "annotation"; "annotator"];
      ["annotations"; "annotation"; "subjects"; "subject"]; ["metadata"; "lifecycles"; "lifecycle"];
      component_path ["licenses"; "license"; "licensing"; "licensor"];
      component_path ["licenses"; "license"; "licensing"; "licensee"];
      component_path ["licenses"; "license"; "licensing"; "purchaser"];
      component_path ["evidence"; "occurrences"; "occurrence"]; component_path ["evidence"; "callstack"; "frame"];
      component_path ["evidence"; "identity"]; component_path ["evidence"; "identity"; "methods"; "method"];
      component_path ["evidence"; "identity"; "tools"; "tool"]; component_path ["data"];
      component_path ["modelCard"; "modelParameters"; "datasets"; "dataset"];
      component_path ["data"; "governance"; "owners"; "owner"];
      component_path ["data"; "governance"; "custodians"; "custodian"];
      component_path ["data"; "governance"; "stewards"; "steward"];
      workflow_path []; workflow_path ["workspaces"; "workspace"]; workflow_path ["trigger"];
      workflow_path ["tasks"; "task"]; workflow_path ["resourceReferences"; "resourceReference"];
      workflow_path ["resourceReferences"; "resourceReference"; "externalReference"];
      workflow_path ["trigger"; "event"; "source"]; workflow_path ["trigger"; "event"; "target"];
      workflow_path ["inputs"; "input"; "resource"];
      workflow_path ["inputs"; "input"; "environmentVars"; "environmentVar"] ]
    ++ flat_map (fun p => map (fun q => workflow_path (p ++ q))
         [ ["inputs"; "input"]; ["inputs"; "input"; "source"]; ["inputs"; "input"; "target"];
           ["outputs"; "output"]; ["outputs"; "output"; "source"]; ["outputs"; "output"; "target"] ])
         [ []; ["tasks"; "task"]; ["trigger"] ]
   else [ ["services"; "service"; "data"; "classification"] ]).
Fixpoint follow {A} (d : desc A) (path : list string) : bool :=
  match path with
  | [] => true
  | tag :: path' => match lookup tag (arms_of d) with Some (existT _ _ d') => follow d' path' | None => false end
  end.
(* an element holding one element holding one element ... named by [path] *)
Fixpoint nest (path : list string) : list xml :=
  match path with [] => [] | tag :: path' => [Elem tag [] (nest path')] end.
Lemma follow_found {R} (root : desc R) n ats kids : forall path A p (d : desc A) a,
  found root n ats kids A p d a (nest path) -> follow d path = true ->
  exists B (d' : desc B) a', found root n ats kids B (rev path ++ p) d' a' [].
Proof.
  induction path as [|tag path IH]; intros A p d a H E; [now exists A, d, a|].
  cbn [follow] in E. destruct (lookup tag (arms_of d)) as [[B d']|] eqn:Lk; [|discriminate].
  assert (H' : found root n ats kids B (tag :: p) d' [] (nest path)).
  { eapply found_in; [exact H| |exact Lk]. apply seen_child. now left. }
  destruct (IH B (tag :: p) d' [] H' E) as (C & d'' & a' & H'').
  exists C, d'', a'. cbn [rev]. now rewrite <- app_assoc.
Qed.
Example C55_rows_reached F v path : In path (examples v) ->
  exists B (d' : desc B) a', found (rd_bom F v 2) "bom" [] (nest path) B (rev path ++ ["bom"]) d' a' [].
Proof.
  intros I. eapply follow_found; [apply found_root|].
  assert (H : forallb (follow (rd_bom F v 2)) (examples v) = true).
  { destruct v; vm_compute; reflexivity. }
  rewrite forallb_forall in H. now apply H.
Qed.
Example C55_rows_all q r : In (q, r) (requirements V1_5) ->
  exists v path, In path (examples v) /\ starts q (rev path ++ ["bom"]) = true.
Proof.
  assert (H : forallb (fun x => existsb (fun v => existsb (fun path => starts (fst x) (rev path ++ ["bom"])) (examples v)) [V1_3; V1_4; V1_5])
                (requirements V1_5) = true) by (vm_compute; reflexivity).
  rewrite forallb_forall in H. intros I. apply H in I. apply existsb_exists in I as (v & _ & I).
  apply existsb_exists in I as (path & I1 & I2). now exists v, path.
Qed.

(** *** Cases: a document that is read, with a component in a component and a stack frame inside an element that is
    looked through *)
Definition inner_component : list xml :=
  [Elem "name" [] [Text "b"]; Elem "evidence" [] [Elem "callstack" [] [Elem "frames" [] [Elem "frame" [] [Elem "module" [] [Text "m"]]]]]].
Definition outer_component : list xml :=
  [Elem "name" [] [Text "a"]; Elem "components" [] [Elem "component" [("type", "file")] inner_component]].
Definition read_kids : list xml := [Elem "components" [] [Elem "component" [("type", "library")] outer_component]].
Lemma reading F v ns ats kids N b : height (Elem "bom" ats kids) + List.length (flats kids) + 2 <= N ->
  tr (rd_bom F v N) "bom" ats kids = TOk b -> ns = namespace v ->
  parse_from_xml F v (mkDocument (Some ns) (flat (Elem "bom" ats kids))) = XOk b [].
Proof.
  intros L E ->. pose proof (run_tr (rd_bom F v N) "bom" ats kids []) as R. rewrite E in R. cbn [agree] in R.
  rewrite (rd_bom_fuel F v (S (List.length (flats kids ++ [EEnd "bom"]))) N) in R;
    [|lia|rewrite app_length; cbn [List.length]; lia].
  unfold parse_from_xml. cbn [doc_events doc_namespace flat String.eqb Ascii.eqb Bool.eqb].
  change (flat_map flat kids) with (flats kids). rewrite String.eqb_refl, R. reflexivity.
Qed.
Example C55_case F : exists b,
  orderly V1_5 (Elem "bom" [] read_kids) = true /\
  parse_from_xml F V1_5 (mkDocument (Some (namespace V1_5)) (flat (Elem "bom" [] read_kids))) = XOk b [].
Proof.
  eexists. split; [reflexivity|]. eapply (reading F V1_5 _ _ _ 40); [cbn; lia| |reflexivity].
  lazy. reflexivity.
Qed.
Ltac going k :=
  match k with
  | 0 => apply found_root
  | S ?k' => eapply found_in; [going k'|apply seen_child; repeat (first [left; reflexivity | right])|reflexivity]
  end.
Ltac through k :=
  eapply found_in; [going k|eapply (seen_inside _ _ _ _ "frames"); [reflexivity|reflexivity|left; reflexivity|apply seen_child; left; reflexivity]|reflexivity].
Example C55_case_component F n : exists A (d : desc A),
  found (rd_bom F V1_5 (S n)) "bom" [] read_kids A ["component"; "components"; "component"; "components"; "bom"] d
    [("type", "file")] inner_component.
Proof.
  do 2 eexists. going 4.
Qed.
Example C55_case_frame F n : exists A (d : desc A),
  found (rd_bom F V1_5 (S (S n))) "bom" [] read_kids A
    ["frame"; "callstack"; "evidence"; "component"; "components"; "component"; "components"; "bom"] d
    [] [Elem "module" [] [Text "m"]].
Proof.
  do 2 eexists. through 6.
Qed.
(* a stack frame without a module, however deep: the document is not read *)
Example C55_case_refused F b ns :
  parse_from_xml F V1_5 (mkDocument ns (flat (Elem "bom" [] [Elem "components" [] [Elem "component" [("type", "library")]
    [Elem "name" [] [Text "a"]; Elem "evidence" [] [Elem "callstack" [] [Elem "frames" [] [Elem "frame" [] []]]]]]]))) <> XOk b [].
Proof.
  intros H.
  pose proof (fun T => C55_xml_required_parts_partial F V1_5 ns _ _ b 40 T H) as K.
  specialize (K eq_refl ltac:(cbn; lia)).
  assert (Fd : exists A (d : desc A), found (rd_bom F V1_5 40) "bom" [] [Elem "components" [] [Elem "component" [("type", "library")]
    [Elem "name" [] [Text "a"]; Elem "evidence" [] [Elem "callstack" [] [Elem "frames" [] [Elem "frame" [] []]]]]]] A
    ["frame"; "callstack"; "evidence"; "component"; "components"; "bom"] d [] []).
  { do 2 eexists. through 4. }
  destruct Fd as (A & d & Fd).
  destruct (K A _ d _ _ Fd ["frame"] (Req [] [] [["module"]]) ltac:(cbn; tauto) eq_refl) as (_ & _ & M).
  specialize (M ["module"] (or_introl eq_refl)). inversion M as [kids C|m a ks kids C]; [destruct C as (? & ? & ? & _ & [])|destruct C].
Qed.

Print Assumptions C55_xml_required_parts_partial.
Print Assumptions C55_xml_required_parts_1_3.

(** C87: what is not expected and not refused is skipped or looked through *)
From Verif Require Import Base ModelTypes Strings Enums GenModel Json JsonLemmas JsonModel
  Xml XmlLemmas XmlModel XmlSpec2 XmlSpec3 XmlGeneral XmlFine XmlExact XmlProps2 ReqProps StrictSpec StrictProofs PassSpec.
Open Scope string_scope.
Open Scope list_scope.
Open Scope nat_scope.

Lemma absorb_splice {S} arm chars e n ats ks (st : S) : arm n = None -> n <> e ->
  absorb1 Open arm chars e (Elem n ats ks) st = absorb Open arm chars e ks st.
Proof.
  intros E N. cbn [absorb1]. rewrite E. destruct (String.eqb_spec n e); [contradiction|].
  revert st. induction ks as [|y l IH]; intros st; [reflexivity|]. cbn [absorb].
  destruct (absorb1 Open arm chars e y st); cbn [tbind]; [apply IH|reflexivity..].
Qed.

Section PASS.
Context (v : spec_version).
Theorem obeys_pass {A} (d : desc A) : forall q e ats kids kids', obeys v d q -> passes v e q kids kids' ->
  tr d e ats kids = tr d e ats kids'.
Proof.
  induction d using desc_mut with
    (P0 := fun S sh => forall q, sobeys v sh q -> forall m r q' ats kids kids', tr_arm sh m = Some r -> within v q m = Some q' ->
       passes v m q' kids kids' -> r ats kids = r ats kids').
  - intros q e ats kids kids' (H & K) U. exfalso.
    destruct U as [e q before n ats' ks after M W|e q before n ats' ks after M W N|e q before x after M X|e q before m ats' ks ks' after q' W U];
      try (rewrite H in M; destruct p; discriminate).
    unfold within in W. rewrite K in W. discriminate.
  - intros q e ats kids kids' H U. cbn [tr]. now rewrite (IHd q e ats kids kids' H U).
  - intros q e ats kids kids' (H & C & N & K) U. cbn [tr].
    assert (Arm : forall m, within v q m = None -> tr_arm sh m = None).
    { intros m W. destruct (tr_arm sh m) eqn:E; [|reflexivity]. exfalso.
      apply (sobeys_within v sh q m K); [rewrite has_arm_tr, E; reflexivity|exact W]. }
    destruct U as [e q before n ats' ks after M W|e q before n ats' ks after M W Ne|e q before x after M X|e q before m ats' ks ks' after q' W U].
    + rewrite !absorb_app. destruct (absorb p (tr_arm sh) (on_chars sh) e before (init sh)) as [st| |]; cbn [tbind]; try reflexivity.
      cbn [absorb absorb1]. rewrite (Arm n W). rewrite M in H. now destruct p.
    + rewrite M in H. destruct p; try discriminate.
      rewrite !absorb_app. destruct (absorb Open (tr_arm sh) (on_chars sh) e before (init sh)) as [st| |]; cbn [tbind]; try reflexivity.
      cbn [absorb]. now rewrite (absorb_splice _ _ _ _ _ _ _ (Arm n W) Ne), absorb_app.
    + rewrite M in H. destruct p; try discriminate.
      rewrite !absorb_app. destruct (absorb Open (tr_arm sh) (on_chars sh) e before (init sh)) as [st| |]; cbn [tbind]; try reflexivity.
      cbn [absorb]. destruct x; cbn [absorb1]; try contradiction; try reflexivity. now rewrite (C X).
    + apply absorb_ext. intros st. cbn [absorb1].
      assert (E : has_arm sh m = true).
      { rewrite forallb_forall in N. apply N. eapply within_in, W. }
      rewrite has_arm_tr in E. destruct (tr_arm sh m) as [r|] eqn:Er; [|discriminate].
      now rewrite (IHd q K m r q' ats' ks ks' Er W U).
  - intros q e ats kids kids' (H & N & K) U. cbn [tr].
    destruct U as [e q before n ats' ks after M W|e q before n ats' ks after M W Ne|e q before x after M X|e q before m ats' ks ks' after q' W U];
      try (rewrite H in M; discriminate).
    rewrite !odd_absorb_app. destruct (odd_absorb (tr_arm sh) before (init sh)) as [st| |]; cbn [tbind]; try reflexivity. cbn [odd_absorb].
    assert (E : has_arm sh m = true).
    { rewrite forallb_forall in N. apply N. eapply within_in, W. }
    rewrite has_arm_tr in E. destruct (tr_arm sh m) as [r|] eqn:Er; [|discriminate].
    now rewrite (IHd q K m r q' ats' ks ks' Er W U).
  - reflexivity.
  - discriminate.
  - intros q H m r q' ats kids kids'. cbn [tr_arm sobeys] in *. destruct (String.eqb_spec m tag) as [->|]; [|discriminate].
    intros [= <-] W U. rewrite W in H. now rewrite (IHd q' tag ats kids kids' H U).
  - discriminate.
  - intros q (H1 & H2) m r q' ats kids kids'. cbn [tr_arm]. destruct (tr_arm a m) eqn:E.
    + intros [= <-]. now apply (IHd q).
    + now apply (IHd0 q).
  - intros q (H1 & H2) m r q' ats kids kids'. cbn [tr_arm]. destruct (tr_arm a m) eqn:E.
    + intros [= <-] W U. now rewrite (IHd q H1 m _ q' ats kids kids' E W U).
    + destruct (tr_arm b m) eqn:E'; [|discriminate]. intros [= <-] W U. now rewrite (IHd0 q H2 m _ q' ats kids kids' E' W U).
Qed.
Lemma obeys_all_pass {A} (d : desc A) q e ats kids kids' : obeys v d q -> all_pass v e q kids kids' ->
  tr d e ats kids = tr d e ats kids'.
Proof.
  intros H P. induction P as [|l l' l'' P _ IH]; [reflexivity|]. rewrite <- IH. now apply (obeys_pass d q).
Qed.
End PASS.

(** A document accepted by the reader of the document is parsed *)
Lemma accepted_parsed F v ns ats kids b N :
  tr (rd_bom F v N) "bom" ats kids = TOk b ->
  List.length (flats kids) + 2 <= N -> ns = Some (namespace v) ->
  parse_from_xml F v (mkDocument ns (flat (Elem "bom" ats kids))) = XOk b [].
Proof.
  intros E L ->. unfold parse_from_xml. cbn [doc_events doc_namespace flat String.eqb Ascii.eqb Bool.eqb].
  change (flat_map flat kids) with (flats kids). rewrite String.eqb_refl.
  rewrite <- (rd_bom_fuel F v (S (List.length (flats kids ++ [EEnd "bom"]))) N (flats kids ++ [EEnd "bom"]) ats)
    by (rewrite ?app_length; cbn [List.length]; lia).
  pose proof (run_tr (rd_bom F v N) "bom" ats kids []) as R. rewrite E in R. cbn [agree] in R. now rewrite R.
Qed.

(** What passes leaves a document orderly *)
Fixpoint sane (p : place) : bool :=
  match p with Items _ tag q => negb (String.eqb tag "signature") && sane q | _ => true end.
Lemma within_pair v p n q : within v p n = Some q -> In (n, q) (snd (content v p)).
Proof.
  unfold within. induction (snd (content v p)) as [|[m x] l IH]; [discriminate|].
  destruct (String.eqb_spec n m) as [->|]; [intros [= ->]; now left|]. intros H. right. now apply IH.
Qed.
Definition is_signature (p : place) : bool := match p with PSignature => true | _ => false end.
Lemma sane_within v p n q : sane p = true -> within v p n = Some q -> sane q = true /\ (n = "signature" -> q = PSignature).
Proof.
  intros S W. apply within_pair in W.
  assert (K : forallb (fun x => sane (snd x) && (negb (String.eqb (fst x) "signature") || is_signature (snd x))) (snd (content v p)) = true).
  { destruct p; [|destruct v; reflexivity ..].
    cbn [sane] in S. apply andb_prop in S as [S1 S2]. cbn [content snd forallb fst]. now rewrite S1, S2. }
  rewrite forallb_forall in K. specialize (K (n, q) W). cbn [fst snd] in K. apply andb_prop in K as [K1 K2]. split; [exact K1|].
  intros ->. cbn [String.eqb Ascii.eqb Bool.eqb negb orb] in K2. now destruct q.
Qed.
Lemma passes_orderly v e p l l' : passes v e p l l' -> sane p = true -> (e = "signature" -> p = PSignature) ->
  (forall m, forallb (absent m) l = true -> forallb (absent m) l' = true) /\
  (e = "signature" -> forallb is_signature_part l = true -> forallb is_signature_part l' = true) /\
  (forallb tidy l = true -> forallb tidy l' = true) /\ (forallb plain_signatures l = true -> forallb plain_signatures l' = true).
Proof.
  assert (Less : forall (f : xml -> bool) a x b, forallb f (a ++ x :: b) = true -> forallb f (a ++ b) = true).
  { intros f a x b. rewrite !forallb_app. cbn [forallb]. intros H. apply andb_prop in H as [H1 H2]. apply andb_prop in H2 as [H2 H3]. now rewrite H1, H3. }
  assert (Through : forall (f : xml -> bool) a x k b, (f x = true -> forallb f k = true) -> forallb f (a ++ x :: b) = true -> forallb f (a ++ k ++ b) = true).
  { intros f a x k b X. rewrite !forallb_app. cbn [forallb]. intros H. apply andb_prop in H as [H1 H2]. apply andb_prop in H2 as [H2 H3]. now rewrite H1, H3, X. }
  assert (Other : forall (f : xml -> bool) a x y b, (f x = true -> f y = true) -> forallb f (a ++ x :: b) = true -> forallb f (a ++ y :: b) = true).
  { intros f a x y b X. rewrite !forallb_app. cbn [forallb]. intros H. apply andb_prop in H as [H1 H2]. apply andb_prop in H2 as [H2 H3]. now rewrite H1, H3, X. }
  induction 1 as [e p before n ats kids after M W|e p before n ats kids after M W N|e p before x after M X|e p before n ats kids kids' after q W U IH]; intros S Sg.
  - repeat split; intros; eapply Less; eassumption.
  - repeat split.
    + intros m. apply Through. cbn [absent]. intros H. now apply andb_prop in H as [_ H].
    + intros ->. rewrite (Sg eq_refl) in M. discriminate.
    + apply Through. cbn [tidy]. intros H. now apply andb_prop in H as [_ H].
    + apply Through. cbn [plain_signatures]. intros H. now apply andb_prop in H as [_ H].
  - repeat split; intros; eapply Less; eassumption.
  - destruct (sane_within v p n q S W) as [Sq Sn]. destruct (IH Sq Sn) as (H1 & H2 & H3 & H4). repeat split.
    + intros m. apply Other. cbn [absent]. intros H. apply andb_prop in H as [E H]. now rewrite E, (H1 m H).
    + intros _. now apply Other.
    + apply Other. cbn [tidy]. intros H. apply andb_prop in H as [H T]. apply andb_prop in H as [H G]. rewrite (H3 T), andb_true_r.
      apply andb_true_intro. split.
      * destruct (mem n open_names); [now apply H1|reflexivity].
      * destruct (String.eqb_spec n "signature"); [now apply H2|reflexivity].
    + apply Other. cbn [plain_signatures]. intros H. apply andb_prop in H as [G T]. rewrite (H4 T), andb_true_r.
      destruct (String.eqb_spec n "signature"); [now apply H2|reflexivity].
Qed.
Lemma all_pass_orderly v ats kids kids' : all_pass v "bom" PBom kids kids' ->
  orderly v (Elem "bom" ats kids) = true -> orderly v (Elem "bom" ats kids') = true.
Proof.
  intros P. assert (E : (forallb tidy kids = true -> forallb tidy kids' = true) /\ (forallb plain_signatures kids = true -> forallb plain_signatures kids' = true)).
  { induction P as [|l l' l'' P _ (IH1 & IH2)]; [now split|].
    destruct (passes_orderly v "bom" PBom l l' P eq_refl) as (_ & _ & H3 & H4); [discriminate|]. split; auto. }
  destruct E as (E & E'). unfold orderly. destruct v; [reflexivity|exact E'|exact E].
Qed.

(** Documents that differ only in what is skipped or looked through are parsed alike *)
Theorem C87_passed F v ns ats kids kids' :
  orderly v (Elem "bom" ats kids) = true ->
  all_pass v "bom" PBom kids kids' ->
  parse_from_xml F v (mkDocument ns (flat (Elem "bom" ats kids))) =
  parse_from_xml F v (mkDocument ns (flat (Elem "bom" ats kids'))).
Proof.
  intros T P. pose proof (all_pass_orderly v ats kids kids' P T) as T'.
  assert (Ns : forall k b, parse_from_xml F v (mkDocument ns (flat (Elem "bom" ats k))) = XOk b [] -> ns = Some (namespace v)).
  { intros k b. unfold parse_from_xml. cbn [doc_events doc_namespace flat String.eqb Ascii.eqb Bool.eqb].
    destruct ns as [ns|]; [|discriminate]. destruct (String.eqb_spec ns (namespace v)) as [->|]; [reflexivity|discriminate]. }
  set (N := height (Elem "bom" ats kids) + height (Elem "bom" ats kids') + List.length (flats kids) + List.length (flats kids') + 2).
  pose proof (obeys_all_pass v (rd_bom F v N) PBom "bom" ats kids kids' (obeys_bom F v N) P) as E.
  assert (R : forall k, parse_from_xml F v (mkDocument ns (flat (Elem "bom" ats k))) = XErr \/
    exists b, parse_from_xml F v (mkDocument ns (flat (Elem "bom" ats k))) = XOk b []).
  { intros k. apply C48_parse_returns. left. now exists "bom", ats, k. }
  destruct (R kids) as [R1|(b & R1)].
  - destruct (R kids') as [R2|(b & R2)]; [congruence|]. exfalso.
    pose proof (parsed_accepted F v ns ats kids' b N T' R2 ltac:(lia)) as A. rewrite <- E in A.
    rewrite (accepted_parsed F v ns ats kids b N A ltac:(lia) (Ns _ _ R2)) in R1. discriminate.
  - pose proof (parsed_accepted F v ns ats kids b N T R1 ltac:(lia)) as A. rewrite E in A.
    now rewrite (accepted_parsed F v ns ats kids' b N A ltac:(lia) (Ns _ _ R1)).
Qed.
(** Version 1.3: any document *)
Theorem C87_passed_1_3 F ns ats kids kids' :
  all_pass V1_3 "bom" PBom kids kids' ->
  parse_from_xml F V1_3 (mkDocument ns (flat (Elem "bom" ats kids))) =
  parse_from_xml F V1_3 (mkDocument ns (flat (Elem "bom" ats kids'))).
Proof. now apply C87_passed. Qed.

(** A component of version 1.3 with an element of a later version, and with evidence that has words and an unknown element
    around the copyright *)
Definition with_evidence (l : list xml) : list xml :=
  [Elem "components" [] [Elem "component" [("type", "library")] (Elem "name" [] [Text "a"] :: Elem "version" [] [Text "1"] :: l)]].
Definition copyright : xml := Elem "copyright" [] [Elem "text" [] [Text "c"]].
Example C87_case :
  all_pass V1_3 "bom" PBom
    (with_evidence [Elem "evidence" [] [Text "words"; Elem "x" [("y", "z")] [copyright; PI]];
                    Elem "modelCard" [] [Elem "hash" [] [Text "?"]]])
    (with_evidence [Elem "evidence" [] [copyright]]) /\
  (forall F, exists b, parse_from_xml F V1_3 (mkDocument (Some (namespace V1_3))
     (flat (Elem "bom" [] (with_evidence [Elem "evidence" [] [copyright]])))) = XOk b []).
Proof.
  assert (C : forall l l', passes V1_3 "component" PComponent (Elem "name" [] [Text "a"] :: Elem "version" [] [Text "1"] :: l)
    (Elem "name" [] [Text "a"] :: Elem "version" [] [Text "1"] :: l') -> passes V1_3 "bom" PBom (with_evidence l) (with_evidence l')).
  { intros l l' H. eapply (passes_below V1_3 "bom" PBom []); [reflexivity|]. eapply (passes_below V1_3 _ _ []); [reflexivity|exact H]. }
  assert (D : forall l l', passes V1_3 "evidence" PEvidence l l' ->
    passes V1_3 "bom" PBom (with_evidence [Elem "evidence" [] l]) (with_evidence [Elem "evidence" [] l'])).
  { intros l l' H. apply C. now apply (passes_below V1_3 _ _ [_; _] "evidence" [] l l' [] PEvidence). }
  split.
  - eapply pass_more; [apply C; now apply (passes_skipped V1_3 _ PComponent [_; _; _] "modelCard" [] _ [])|].
    eapply pass_more; [apply D; now apply (passes_text V1_3 _ PEvidence [] (Text "words") [_])|].
    eapply pass_more; [apply D; now apply (passes_through V1_3 _ PEvidence [] "x" _ [_; _] [])|].
    eapply pass_more; [apply D; now apply (passes_text V1_3 _ PEvidence [_] PI [])|].
    apply pass_none.
  - intros F. eexists. lazy. reflexivity.
Qed.

Print Assumptions C87_passed.
Print Assumptions C87_passed_1_3.

(** Converting generated SBOMs between the formats and the versions: C98. *)
From Verif Require Import Base Strings ModelTypes ConfigModel GenModel GenSpec GenExample
  Json JsonLemmas JsonModel JsonSpec JsonProofs4 JsonProps GenValProofs GenValProps
  Xml XmlModel XmlSpec XmlProofs2 XmlProofs3 XmlProps GenReadSpec GenRead GenReadProps ChainSpec ChainProofs TripSpec TripProofs.
Open Scope string_scope.
Open Scope list_scope.

Lemma json_step v u b : parts v b -> (exists b', converted v (at_version u b) b') /\
  forall b', converted v (at_version u b) b' -> b' = at_version v b.
Proof.
  intros P.
  assert (M : confidences_finite v (at_version u b)).
  { intros c Hc _ e i x He. rewrite (pl_evidence _ _ (parts_components v (at_version u b) c P Hc)) in He. discriminate. }
  assert (K : kept_bom v (at_version u b) = at_version v b) by exact (parts_kept v (at_version u b) P).
  split.
  - destruct (proj2 (C43_json_output_fails_iff v (at_version u b))) as [j J].
    { intros _ c Hc. apply (parts_components v (at_version u b) c P Hc). }
    eexists. exact (written_converted v _ j M J).
  - intros b' C. now rewrite (converted_kept _ _ _ M C).
Qed.
Lemma xml_step F v u b b1 : float_text_ok F -> parts v b -> kx_bom v (at_version u b) = Some b1 ->
  (exists b', carried F (InXml v) (at_version u b) b') /\ forall b', carried F (InXml v) (at_version u b) b' -> b' = b1.
Proof.
  intros HF P K. destruct (proj2 (C43_xml_output_fails_iff F v (at_version u b))) as [x X].
  { intros _ c Hc. apply (parts_components v (at_version u b) c P Hc). }
  assert (R : parse_from_xml F v (XmlModel.written x) = XOk b1 []).
  { destruct v; [rewrite (C40_xml_round_trip F _ _ X)|rewrite (C41_xml_round_trip F _ _ HF X)|rewrite (C42_xml_round_trip F _ _ HF X)];
      now rewrite K. }
  split; [exists b1, x; auto|]. intros b' (x' & X' & R'). rewrite X in X'. injection X' as <-. rewrite R in R'. now injection R'.
Qed.

(** ** C98: a generated SBOM can be converted between JSON and XML, in any versions *)
Section Touring.
Variables (F : float_text) (b : bom).
Hypotheses (HF : float_text_ok F) (P : forall v, parts v b)
  (X : forall v u, kx_bom v (at_version u b) = Some (at_version v (trimmed b))).
Definition stands (t : bool) : bom := if t then trimmed b else b.
Definition is_xml (s : stage) : bool := match s with InXml _ => true | InJson _ => false end.
Lemma stage_step t u s : (exists b', carried F s (at_version u (stands t)) b') /\
  forall b', carried F s (at_version u (stands t)) b' -> b' = at_version (stage_version s) (stands (is_xml s || t)).
Proof.
  destruct s as [v|v]; cbn [carried is_xml orb stage_version].
  - apply json_step. destruct t; [apply parts_trimmed|]; apply P.
  - apply xml_step; [exact HF|destruct t; [apply parts_trimmed|]; apply P|]. destruct t; [|apply X].
    apply trimmed_again; [apply P|]. exact (X v V1_3).
Qed.
Lemma tours ss : forall t u, (exists b', toured F ss (at_version u (stands t)) b') /\
  forall b', toured F ss (at_version u (stands t)) b' -> b' = at_version (last (map stage_version ss) u) (stands (through_xml ss || t)).
Proof.
  induction ss as [|s ss IH]; intros t u.
  - split; [eexists; constructor|]. intros b' T. now inversion T.
  - destruct (stage_step t u s) as [[b1 C] O]. pose proof (O b1 C) as ->. destruct (IH (is_xml s || t)%bool (stage_version s)) as [[b' T] U].
    assert (L : last (map stage_version (s :: ss)) u = last (map stage_version ss) (stage_version s)).
    { clear. cbn [map]. generalize (stage_version s). generalize (map stage_version ss). induction l as [|x l IH]; intros v; [reflexivity|].
      cbn [last] in *. destruct l; [reflexivity|]. apply IH. }
    split; [eexists; econstructor; [exact C|exact T]|].
    intros b'' T'. inversion T' as [|? ? ? b2 ? C2 T2]; subst. apply O in C2. subst b2. rewrite (U b'' T2), L. f_equal. f_equal.
    unfold through_xml. cbn [existsb]. fold (through_xml ss). unfold is_xml. destruct s, (through_xml ss), t; reflexivity.
Qed.
End Touring.

(** [toured F ss b b'] (TripSpec.v): [b] is saved and read in the formats and versions of [ss], one after the other, and
    the end is [b'].  No conversion fails, and nothing ever changes but the version number and, once it was saved as
    XML, the blanks around texts ([trimmed], GenReadSpec.v). *)
Theorem C98_same F w fuel meta nodes cfg m g files f ss :
  float_text_ok F -> well_formed meta nodes -> licenses_written_down w meta -> sbom_of w fuel meta cfg m g ->
  write_plan g = Done files -> In f files ->
  (exists b', toured F ss (f_bom f) b')
  /\ forall b', toured F ss (f_bom f) b' ->
      b' = at_version (last (map stage_version ss) (b_spec_version (f_bom f)))
             (if through_xml ss then trimmed (f_bom f) else f_bom f).
Proof.
  intros HF wf L Hg Hp Hf.
  assert (P : forall v, parts v (f_bom f)).
  { intros v. destruct (file_parts _ _ _ _ _ _ _ wf Hg v _ _ Hp Hf) as (md & c & comps & A & B & C & D & E & G & M1 & M2 & _ & R).
    exists md, c, comps. unfold whole. tauto. }
  assert (X : forall v u, kx_bom v (at_version u (f_bom f)) = Some (at_version v (trimmed (f_bom f)))).
  { intros v u. exact (file_trimmed _ _ _ _ _ _ _ wf Hg v _ _ L Hp Hf). }
  destruct (tours F (f_bom f) HF P X ss false (b_spec_version (f_bom f))) as [A B].
  unfold stands in *. rewrite orb_false_r in B.
  assert (E : at_version (b_spec_version (f_bom f)) (f_bom f) = f_bom f) by now destruct (f_bom f).
  rewrite E in *. split; assumption.
Qed.

(** *** The example of C57, from JSON to XML and back *)
Example C98_case : exists files f b', write_plan ex_gen = Done files /\ In f files
  /\ sbom_of ex_world 100 ex_meta ex_cfg ex_id_app ex_gen
  /\ well_formed ex_meta ex_nodes /\ licenses_written_down ex_world ex_meta /\ float_text_ok sample_floats
  /\ toured sample_floats [InJson V1_5; InXml V1_4; InXml V1_3; InJson V1_5] (f_bom f) b' /\ b_spec_version b' = V1_5
  /\ map c_name (olist (b_components b')) = ["liba"; "libb"].
Proof.
  destruct C57_case as (files & f & Hp & Hf & S & W & L & HF & N & _).
  destruct (C98_same sample_floats _ _ _ _ _ _ _ _ _ [InJson V1_5; InXml V1_4; InXml V1_3; InJson V1_5] HF W L S Hp Hf) as [[b' T] E].
  exists files, f, b'. repeat (split; [assumption|]). rewrite (E b' T). split; [reflexivity|].
  cbn [through_xml existsb orb]. unfold at_version, trimmed. cbn [b_components].
  destruct (b_components (f_bom f)) as [l|]; [|discriminate N]. cbn [option_map olist] in *.
  rewrite map_map. cbn [t_component t_component_with c_name]. rewrite <- (map_map c_name xtrim), N. reflexivity.
Qed.

Print Assumptions C98_same.

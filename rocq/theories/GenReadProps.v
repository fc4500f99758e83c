(** C57: what the generator writes can be read again *)
From Verif Require Import Base Strings Base64 ModelTypes ConfigModel GenModel GenSpec GenExample
  Json JsonLemmas JsonModel JsonSpec JsonProofs4 JsonProps ValModel GenValProofs GenValProps
  Xml XmlModel XmlSpec XmlProofs2 XmlProofs3 XmlProps GenReadSpec GenRead.
Open Scope string_scope.
Open Scope list_scope.

(** Every file of the plan can be written as JSON of any version, and whatever text that is (members in any
    order: [like]) it is read as the same BOM: nothing is lost or changed. *)
Theorem C57_json_read_back w fuel meta nodes cfg m g files f v :
  well_formed meta nodes -> sbom_of w fuel meta cfg m g -> write_plan g = Done files -> In f files ->
  exists j, output_as_json v (f_bom f) = Done j /\
    forall j', like j j' -> parse_from_json j' = Done (as_version v (f_bom f))
      /\ parse_from_json_with_version v j' = Done (as_version v (f_bom f)).
Proof.
  intros wf Hg Hp Hf. pose proof (file_components _ _ _ _ _ _ _ wf Hg v _ _ Hp Hf) as P.
  destruct (proj2 (C43_json_output_fails_iff v (f_bom f))) as [j J].
  { intros _ c Hc. apply (P c Hc). }
  exists j. split; [exact J|]. intros j' L. rewrite <- (file_kept _ _ _ _ _ _ _ wf Hg v _ _ Hp Hf).
  assert (M : forall c, bom_component v (f_bom f) c -> methods_finite v c).
  { intros c Hc _ e i x He. rewrite (pl_evidence _ _ (P c Hc)) in He. discriminate. }
  split; [eapply output_then_parse_any|eapply output_then_parse]; eauto.
Qed.

(** Every file of the plan can be written as XML of any version; if no license is blank it is read as the same
    BOM, but for blanks around texts. *)
Theorem C57_xml_read_back F w fuel meta nodes cfg m g files f v :
  float_text_ok F -> well_formed meta nodes -> sbom_of w fuel meta cfg m g ->
  write_plan g = Done files -> In f files ->
  exists x, output_as_xml F v (f_bom f) = Done x /\
    (licenses_written_down w meta -> parse_from_xml F v (written x) = XOk (as_version v (trimmed (f_bom f))) []).
Proof.
  intros HF wf Hg Hp Hf. destruct (C57_json_read_back w fuel meta nodes cfg m g files f v wf Hg Hp Hf) as (j & J & _).
  unfold output_as_json in J. destruct (check_bom v (f_bom f)) as [[]| | |] eqn:K; try discriminate J.
  exists (namespace v, wr_bom F v (f_bom f)). unfold output_as_xml. rewrite K. split; [reflexivity|]. intros L.
  assert (O : output_as_xml F v (f_bom f) = Done (namespace v, wr_bom F v (f_bom f))) by (unfold output_as_xml; now rewrite K).
  pose proof (file_trimmed _ _ _ _ _ _ _ wf Hg v _ _ L Hp Hf) as T.
  destruct v; [rewrite (C40_xml_round_trip F _ _ O)|rewrite (C41_xml_round_trip F _ _ HF O)|rewrite (C42_xml_round_trip F _ _ HF O)];
    now rewrite T.
Qed.

(** *** The condition on licenses is needed: an empty license file gives an XML document that cannot be read. *)
Definition unlicensed_app : package := {|
  pk_id := pk_id ex_app; pk_name := pk_name ex_app; pk_version := pk_version ex_app; pk_source := pk_source ex_app;
  pk_authors := pk_authors ex_app; pk_description := pk_description ex_app; pk_license := None;
  pk_license_file := Some "LICENSE"; pk_documentation := None; pk_homepage := None; pk_links := None; pk_repository := None;
  pk_targets := pk_targets ex_app; pk_manifest := pk_manifest ex_app |}.
Definition unlicensed_meta : cargo_metadata := mkMeta [ex_id_app] [unlicensed_app; ex_b; ex_a; ex_d] (Some ex_nodes) ["w"].
Definition unlicensed_world : world := {|
  w_uri_ok := w_uri_ok ex_world; w_spdx_strict := w_spdx_strict ex_world; w_spdx_lax := w_spdx_lax ex_world;
  w_email_ok := w_email_ok ex_world; w_purl := w_purl ex_world;
  w_read_file := fun _ f => if String.eqb f "LICENSE" then Some "" else None;
  w_absolute := w_absolute ex_world; w_is_file := w_is_file ex_world; w_lockfile := w_lockfile ex_world;
  w_uuid := w_uuid ex_world; w_now := w_now ex_world; w_epoch := w_epoch ex_world;
  w_format_time := w_format_time ex_world; w_tool_version := w_tool_version ex_world |}.
Theorem C57_empty_license_refuted F v : float_text_ok F -> exists w fuel meta nodes cfg m g files f x,
  well_formed meta nodes /\ sbom_of w fuel meta cfg m g /\ write_plan g = Done files /\ In f files /\
  output_as_xml F v (f_bom f) = Done x /\ parse_from_xml F v (written x) = XErr.
Proof.
  intros HF. exists unlicensed_world, 100, unlicensed_meta, ex_nodes, ex_cfg, ex_id_app.
  exists (match create_sboms unlicensed_world 100 unlicensed_meta ex_cfg with Done [g] => g | _ => ex_gen end).
  set (g := match create_sboms unlicensed_world 100 unlicensed_meta ex_cfg with Done [g] => g | _ => ex_gen end).
  assert (P : exists f, write_plan g = Done [f] /\ forall v, kx_bom v (f_bom f) = None).
  { eexists. split; [vm_compute; reflexivity|]. intros []; vm_compute; reflexivity. }
  destruct P as (f & P & N). exists [f], f.
  assert (W : well_formed unlicensed_meta ex_nodes).
  { constructor.
    - reflexivity.
    - repeat constructor; vm_compute; intros H; repeat (destruct H as [H|H]; [discriminate H|]); exact H.
    - repeat constructor; vm_compute; intros H; repeat (destruct H as [H|H]; [discriminate H|]); exact H.
    - intros m [<-|[]]. vm_compute. tauto.
    - intros n H. repeat (destruct H as [<-|H]; [vm_compute; tauto|]). destruct H.
    - intros n d H. repeat (destruct H as [<-|H]; [cbn [n_deps]; intros Hd; repeat (destruct Hd as [<-|Hd]; [vm_compute; tauto|]); destruct Hd|]). destruct H.
    - intros n d H. repeat (destruct H as [<-|H]; [cbn [n_deps]; intros Hd; repeat (destruct Hd as [<-|Hd]; [cbn; intuition discriminate|]); destruct Hd|]). destruct H.
    - intros p H. repeat (destruct H as [<-|H]; [discriminate|]). destruct H. }
  assert (S : sbom_of unlicensed_world 100 unlicensed_meta ex_cfg ex_id_app g).
  { eexists. split; [vm_compute; reflexivity|]. left. f_equal. }
  destruct (C57_xml_read_back F _ _ _ _ _ _ _ _ f v HF W S P (or_introl eq_refl)) as (x & O & _). exists x.
  repeat (split; [assumption|]). split; [now left|]. split; [exact O|].
  destruct v; [rewrite (C40_xml_round_trip F _ _ O)|rewrite (C41_xml_round_trip F _ _ HF O)|rewrite (C42_xml_round_trip F _ _ HF O)];
    now rewrite N.
Qed.

(** *** Instances *)
Example C57_case : exists files f, write_plan ex_gen = Done files /\ In f files /\ sbom_of ex_world 100 ex_meta ex_cfg ex_id_app ex_gen
  /\ well_formed ex_meta ex_nodes /\ licenses_written_down ex_world ex_meta /\ float_text_ok sample_floats
  /\ map c_name (olist (b_components (f_bom f))) = ["liba"; "libb"]
  /\ as_version V1_3 (trimmed (f_bom f)) = f_bom f.
Proof.
  do 2 eexists. split; [vm_compute; reflexivity|]. split; [now left|]. split; [exact ex_sbom_of|]. split; [exact ex_wf|].
  split; [|split; [exact sample_floats_ok|split; vm_compute; reflexivity]].
  intros p H. cbn in H. decompose [or] H; try tauto; subst; (split; [cbn; intros l [= <-]; reflexivity|cbn; discriminate]).
Qed.

Print Assumptions C57_json_read_back.
Print Assumptions C57_xml_read_back.
Print Assumptions C57_empty_license_refuted.

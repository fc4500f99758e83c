(** Which documents saved as XML can be read (C64), and saving JSON documents that were read as XML (C65). *)
From Coq Require Import NArith ZArith.
From Verif Require Import Base ModelTypes Strings Enums GenModel Json JsonLemmas JsonModel JsonSpec JsonMore JsonProps
  Xml XmlLemmas XmlModel XmlSpec XmlGeneral XmlProofs2 XmlProofs3 XmlProofs4 XmlProps XmlResaveProps ResaveProps
  XmlFitSpec XmlFitProofs ConvertProofs2.
Open Scope string_scope.
Open Scope list_scope.
Open Scope nat_scope.

(** ** C64: the document saved for a BOM is read iff every part of it fits (XmlFitSpec.v) *)
Theorem C64_readable_iff F w b x :
  (version_leb V1_4 w = true -> float_text_ok F) -> output_as_xml F w b = Done x ->
  (exists b', parse_from_xml F w (written x) = XOk b' []) <-> (forall p, In p (parts_bom w b) -> part_fits w p).
Proof.
  intros HF O. unfold output_as_xml in O. destruct (check_bom w b); try discriminate. injection O as <-.
  rewrite (write_then_parse F w b HF). pose proof (f_bom w b) as S. unfold same in S. rewrite <- Forall_forall, <- S.
  destruct (kx_bom w b) as [b'|]; split; eauto; try discriminate; try congruence. intros (b' & H). discriminate H.
Qed.
(** the reader reports an error otherwise *)
Theorem C64_unreadable F w b x p :
  (version_leb V1_4 w = true -> float_text_ok F) -> output_as_xml F w b = Done x ->
  In p (parts_bom w b) -> ~ part_fits w p -> parse_from_xml F w (written x) = XErr.
Proof.
  intros HF O I N. unfold output_as_xml in O. destruct (check_bom w b); try discriminate. injection O as <-.
  rewrite (write_then_parse F w b HF). destruct (kx_bom w b) as [b'|] eqn:K; [|reflexivity]. exfalso. apply N.
  assert (H : kx_bom w b <> None) by congruence. apply (f_bom w b) in H. rewrite Forall_forall in H. now apply H.
Qed.

(** ** C65: a JSON document that was read can be saved as XML *)
Definition read_from_json (v : spec_version) (j : json) (b : bom) : Prop :=
  parse_from_json_with_version v j = Done b \/ parse_from_json_value_version v j = Done b
  \/ (parse_from_json j = Done b /\ v = b_spec_version b).
Lemma read_from v j b : read_from_json v j b -> exists j', of_json_bom v j' = Some b.
Proof.
  intros [P|[P|[P ->]]]; [exists j; now apply deserialized|exists (to_value j); now apply deserialized|exists (to_value j); now apply read_any].
Qed.
Theorem C65_saves F v w j b :
  read_from_json v j b -> version_leb v w = true -> exists x, output_as_xml F w b = Done x.
Proof.
  intros P L. destruct (read_from v j b P) as (j' & R). apply C43_xml_output_fails_iff. intros ->.
  assert (v = V1_3) as -> by (destruct v; [reflexivity|discriminate..]). intros c. now apply (all_versioned j').
Qed.
(** A document of 1.3 or 1.4 is read again iff its license ids and names and its texts are not blank and its version
    ranges are known. *)
Definition old_part_fits (p : part) : Prop :=
  match p with
  | PText x => not_blank (at_content x)
  | PLicense (LSpdxId s) | PLicense (LName s) => not_blank s
  | PRange (VRUndefined _) => False
  | _ => True
  end.
Theorem C65_saved_is_readable_iff F v w j b x :
  (version_leb V1_4 w = true -> float_text_ok F) ->
  read_from_json v j b -> v <> V1_5 -> version_leb v w = true -> output_as_xml F w b = Done x ->
  (exists b', parse_from_xml F w (written x) = XOk b' []) <-> (forall p, In p (parts_bom w b) -> old_part_fits p).
Proof.
  intros HF P N L O. rewrite (C64_readable_iff F w b x HF O). destruct (read_from v j b P) as (j' & R).
  pose proof (bom_good v w j' b R) as G. rewrite Forall_forall in G.
  split; intros H p I; specialize (H p I); specialize (G p I); destruct p; cbn in *; try tauto.
  intros ->. apply G. now destruct v.
Qed.
(** A document of 1.5, which has no flows of data (C60): any of the other kinds of parts can be the reason. *)
Theorem C65_no_flows v w j b p : read_from_json v j b -> In p (parts_bom w b) -> forall d, p <> PFlow d.
Proof.
  intros P I d ->. destruct (read_from v j b P) as (j' & R). pose proof (bom_good v w j' b R) as G.
  rewrite Forall_forall in G. exact (G _ I).
Qed.
(** what is read, when something is *)
Theorem C65_result F v w j b x b' :
  (version_leb V1_4 w = true -> float_text_ok F) ->
  read_from_json v j b -> output_as_xml F w b = Done x -> parse_from_xml F w (written x) = XOk b' [] -> kx_bom w b = Some b'.
Proof.
  intros HF _ O P. unfold output_as_xml in O. destruct (check_bom w b); try discriminate. injection O as <-.
  rewrite (write_then_parse F w b HF) in P. destruct (kx_bom w b); [|discriminate]. now injection P as ->.
Qed.

(** *** Cases *)
(** the conditions are met by a document with nested components, a pedigree, a license and a vulnerability *)
Definition with_license (id : string) : json := JObj [
  ("version", JInt 2%Z); ("specVersion", JStr "1.4"); ("bomFormat", JStr "CycloneDX");
  ("components", JArr [
     read_component "a" [
       ("components", JArr [read_component "b" [("version", JStr "2")]]);
       ("pedigree", JObj [("ancestors", JArr [read_component "c" []]); ("notes", JStr "n")])];
     read_component "d" [("licenses", JArr [JObj [("license", JObj [("name", JStr id); ("text", JObj [("content", JStr "t")])])]])]]);
  ("vulnerabilities", JArr [JObj [("id", JStr "x");
     ("affects", JArr [JObj [("ref", JStr "d"); ("versions", JArr [JObj [("version", JStr "1"); ("status", JStr "affected")]])]])]])].
Example C65_case w : version_leb V1_4 w = true -> exists b, read_from_json V1_4 (with_license "own") b
  /\ (forall p, In p (parts_bom w b) -> old_part_fits p) /\ List.length (parts_bom w b) = 7.
Proof.
  intros L. eexists. split; [left; vm_compute; reflexivity|]. rewrite <- Forall_forall.
  destruct w; try discriminate L; (split; [|reflexivity]); cbn; repeat constructor; unfold not_blank; cbn; discriminate.
Qed.
(** a blank name of a license makes the saved document unreadable, in every version *)
Theorem C65_always_readable_refuted F w : float_text_ok F -> version_leb V1_4 w = true -> exists b x,
  parse_from_json (with_license " ") = Done b /\ output_as_xml F w b = Done x /\ parse_from_xml F w (written x) = XErr.
Proof.
  intros HF L. eexists. edestruct (C65_saves F V1_4 w (with_license " ")) as (x & O); [left; vm_compute; reflexivity|exact L|].
  exists x. split; [vm_compute; reflexivity|]. split; [exact O|].
  refine (C64_unreadable F w _ x (PLicense (LName " ")) _ O _ _); [auto|destruct w; try discriminate L; cbn; repeat first [left; reflexivity|right]|].
  intros H. now apply H.
Qed.
(** in 1.5 a task is enough *)
Definition with_task_json : json := JObj [
  ("version", JInt 2%Z); ("specVersion", JStr "1.5"); ("bomFormat", JStr "CycloneDX");
  ("formulation", JArr [JObj [("workflows", JArr [JObj [("bom-ref", JStr "w"); ("uid", JStr "u"); ("taskTypes", JArr [JStr "build"]);
     ("tasks", JArr [JObj [("bom-ref", JStr "t"); ("uid", JStr "u"); ("taskTypes", JArr [JStr "build"])]])]])]])].
Theorem C65_task_refuted F : float_text_ok F -> exists b x,
  parse_from_json with_task_json = Done b /\ output_as_xml F V1_5 b = Done x /\ parse_from_xml F V1_5 (written x) = XErr.
Proof.
  intros HF. eexists. edestruct (C65_saves F V1_5 V1_5 with_task_json) as (x & O); [left; vm_compute; reflexivity|reflexivity|].
  exists x. split; [vm_compute; reflexivity|]. split; [exact O|].
  eapply (C64_unreadable F V1_5 _ x (PTask _)); [auto|exact O|cbn; left; reflexivity|]. intros [].
Qed.
(** C64 has documents of both sorts in every version *)
Example C64_case w : exists b, (forall p, In p (parts_bom w b) -> part_fits w p) /\ 2 <= List.length (parts_bom w b)
  /\ exists x, output_as_xml sample_floats w b = Done x.
Proof.
  exists (xml_bom w [xml_component "a" (Some "1") (Some [LicLicense (mkLicense None (LName "own") None None None None)]) None]).
  rewrite <- Forall_forall. destruct w; (split; [match goal with |- Forall ?P ?l => let l' := eval vm_compute in l in change (Forall P l') end;
    repeat constructor; unfold part_fits, not_blank; try discriminate|]); (split; [vm_compute; lia|]); eexists; reflexivity.
Qed.
(** each kind of part can be the only one that does not fit *)
Example C64_kinds t d :
  ~ part_fits V1_5 (PText (mkText None None " ")) /\ ~ part_fits V1_5 (PLicense (LName ""))
  /\ ~ part_fits V1_5 (PAttachment (mkAttachment "a" (Some "t") (Some "e"))) /\ ~ part_fits V1_5 (PRange (VRUndefined "x"))
  /\ ~ part_fits V1_5 (PDataset (DSReference d)) /\ ~ part_fits V1_5 (PInput (RIParameters [])) /\ ~ part_fits V1_5 (PTask t)
  /\ ~ part_fits V1_3 (PVersion None) /\ part_fits V1_4 (PVersion None).
Proof. cbn. unfold not_blank. cbn. intuition congruence. Qed.

Print Assumptions C64_readable_iff.
Print Assumptions C64_unreadable.
Print Assumptions C65_saves.
Print Assumptions C65_saved_is_readable_iff.
Print Assumptions C65_no_flows.
Print Assumptions C65_result.
Print Assumptions C65_always_readable_refuted.
Print Assumptions C65_task_refuted.

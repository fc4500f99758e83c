(** Converting JSON documents from version to version: C93. *)
From Coq Require Import NArith ZArith.
From Verif Require Import Base ModelTypes Strings Enums GenModel Json JsonLemmas JsonModel JsonSpec JsonProps ResaveSpec ResaveProofs ResaveProps
  ChainSpec ChainProofs.
Open Scope string_scope.
Open Scope list_scope.

(** ** C93: a BOM that is converted again and again loses what the earliest version on the way cannot express, and
    nothing else *)

(** [kept_bom m b] (JsonSpec.v) is what a document of version [m] expresses of [b].  It is applied twice because the
    library misspells three names, which a second reader then takes for unknown ones (C60). *)
Theorem C93_journey v1 v2 vs b b' :
  confidences_finite v1 b -> travelled (v1 :: v2 :: vs) b b' ->
  let m := earliest v1 (v2 :: vs) in
  b' = at_version (last vs v2) (kept_bom m (kept_bom m b)).
Proof. exact (journey v1 v2 vs b b'). Qed.
(** one conversion *)
Theorem C93_single v b b' : confidences_finite v b -> travelled [v] b b' -> b' = kept_bom v b.
Proof.
  intros M T. inversion T as [|? ? ? b1 ? C T']; subst. inversion T'; subst. exact (converted_kept v b b' M C).
Qed.
(** [earliest] is one of the versions of the journey, and no version of the journey is earlier *)
Theorem C93_earliest v vs :
  In (earliest v vs) (v :: vs) /\ forall w, In w (v :: vs) -> version_leb (earliest v vs) w = true.
Proof.
  split.
  - revert v. induction vs as [|x vs IH]; intros v; [now left|]. cbn [earliest fold_left].
    destruct (IH (earlier x v)) as [E|I]; [|right; right; exact I].
    unfold earliest in E. rewrite <- E. unfold earlier. destruct (version_leb x v); [right; now left|now left].
  - intros w [<-|I]; [apply earliest_le|now apply earliest_in].
Qed.
(** so the way does not matter: only where it ends, and the earliest version on it *)
Theorem C93_any_way v1 v2 vs w1 w2 ws b b1 b2 :
  confidences_finite v1 b -> confidences_finite w1 b ->
  travelled (v1 :: v2 :: vs) b b1 -> travelled (w1 :: w2 :: ws) b b2 ->
  earliest v1 (v2 :: vs) = earliest w1 (w2 :: ws) -> last vs v2 = last ws w2 -> b1 = b2.
Proof.
  intros M1 M2 T1 T2 E L. rewrite (journey _ _ _ _ _ M1 T1), (journey _ _ _ _ _ M2 T2). cbv zeta. now rewrite E, L.
Qed.
(** A document that was read, taken through later versions only and brought back to its own, is what it was, but for the
    misspelt names of C60. *)
Theorem C93_there_and_back j b v vs b' :
  parse_from_json j = Done b -> numbers_fit j ->
  (forall w, In w (v :: vs) -> version_leb (b_spec_version b) w = true) -> last vs v = b_spec_version b ->
  travelled (v :: vs) b b' -> b' = respell_bom (b_spec_version b) b.
Proof. exact (there_and_back j b v vs b'). Qed.
(** No journey ends early, except at its first stop or on the way into 1.3 for the first time (where every component
    must have a version, C43). *)
Theorem C93_goes_on v vs w b b' :
  travelled (v :: vs) b b' -> w <> V1_3 \/ In V1_3 (v :: vs) -> exists b'', converted w b' b''.
Proof. exact (goes_on v vs w b b'). Qed.

(** *** Cases *)
(** a document of 1.5 whose tools, lifecycles and annotations no earlier version has *)
Definition latest_document : json := JObj [
  ("bomFormat", JStr "CycloneDX"); ("specVersion", JStr "1.5"); ("version", JInt 2%Z);
  ("metadata", JObj [("tools", JObj [("components", JArr [JObj [("type", JStr "application"); ("name", JStr "t"); ("version", JStr "1")]])]);
     ("lifecycles", JArr [JObj [("phase", JStr "build")]])]);
  ("components", JArr [JObj [("type", JStr "library"); ("name", JStr "a"); ("version", JStr "1");
     ("licenses", JArr [JObj [("license", JObj [("id", JStr "MIT"); ("bom-ref", JStr "l")])]]);
     ("externalReferences", JArr [JObj [("type", JStr "codified-infrastructure"); ("url", JStr "https://example.com")]])]]);
  ("vulnerabilities", JArr [JObj [("id", JStr "x"); ("workaround", JStr "none")]])].
Definition go (b : option bom) (v : spec_version) : option bom :=
  match b with
  | Some b => match output_as_json v b with Done j => match parse_from_json j with Done b' => Some b' | _ => None end | _ => None end
  | None => None
  end.
Lemma gone vs b b' : fold_left go vs (Some b) = Some b' -> travelled vs b b'.
Proof.
  revert b. induction vs as [|v vs IH]; intros b; cbn [fold_left]; [intros [= <-]; constructor|]. intros H.
  destruct (go (Some b) v) as [b1|] eqn:G; [|exfalso; clear - H; induction vs; [discriminate H|now apply IHvs]].
  apply (TGo v vs b b1 b'); [|now apply IH]. cbn [go] in G.
  destruct (output_as_json v b) as [j| | |] eqn:O; try discriminate G. exists j, j. split; [exact O|].
  split; [apply like_refl|]. left. destruct (parse_from_json j); congruence.
Qed.
Definition reading (j : json) : option bom := match parse_from_json j with Done b => Some b | _ => None end.
Lemma readingE j b : reading j = Some b -> parse_from_json j = Done b.
Proof. unfold reading. destruct (parse_from_json j); congruence. Qed.
Definition latest_read := Eval vm_compute in reading latest_document.
Definition latest_back := Eval vm_compute in fold_left go [V1_4; V1_3; V1_5] latest_read.
(** down to 1.3 and up again, with the loss of the metadata of 1.5, the reference of the license and the vulnerability *)
Example C93_case : exists b b',
  parse_from_json latest_document = Done b /\ (forall v, confidences_finite v b)
  /\ travelled [V1_4; V1_3; V1_5] b b'
  /\ b_vulnerabilities b <> None /\ b_vulnerabilities b' = None /\ b_spec_version b' = V1_5
  /\ List.length (olist (b_components b')) = 1%nat.
Proof.
  assert (R : reading latest_document = latest_read) by (vm_compute; reflexivity).
  assert (G : fold_left go [V1_4; V1_3; V1_5] latest_read = latest_back) by (vm_compute; reflexivity).
  assert (F : numbers_fit latest_document) by (vm_compute; intuition).
  unfold latest_back, latest_read in R, G. apply readingE in R. apply gone in G.
  eexists _, _. split; [exact R|]. split; [intros v; exact (read_confidences v _ _ R F)|].
  split; [exact G|]. cbn. intuition discriminate.
Qed.
Definition read_again := Eval vm_compute in reading (read_document "codified-infrastructure").
Definition read_back := Eval vm_compute in fold_left go [V1_5; V1_5; V1_4] read_again.
(** up to 1.5 and back *)
Example C93_back_case : exists b b',
  parse_from_json (read_document "codified-infrastructure") = Done b
  /\ numbers_fit (read_document "codified-infrastructure") /\ b_spec_version b = V1_4
  /\ travelled [V1_5; V1_5; V1_4] b b' /\ b' <> b.
Proof.
  assert (R : reading (read_document "codified-infrastructure") = read_again) by (vm_compute; reflexivity).
  assert (G : fold_left go [V1_5; V1_5; V1_4] read_again = read_back) by (vm_compute; reflexivity).
  unfold read_back, read_again in R, G. apply readingE in R. apply gone in G.
  eexists _, _. split; [exact R|]. split; [vm_compute; intuition|]. split; [reflexivity|].
  split; [exact G|]. discriminate.
Qed.

Print Assumptions C93_journey.
Print Assumptions C93_single.
Print Assumptions C93_earliest.
Print Assumptions C93_any_way.
Print Assumptions C93_there_and_back.
Print Assumptions C93_goes_on.

(** Validity of BOMs that are converted again and again: C97. *)
From Verif Require Import Base ModelTypes Strings Enums GenModel Json JsonModel JsonSpec ResaveSpec ValModel ValSpec ValProofs3 ValProps
  ChainSpec ChainProofs ChainProps StaySpec StayProofs StayProps UpSpec UpProofs UpProps HoldProofs.
Open Scope string_scope.
Open Scope list_scope.

(** ** C97: a BOM that passes validation for the earliest version of a journey passes it at the end *)

Lemma at_end x v vs b b' : safe_to_save x (earliest v vs) b -> confidences_finite v b -> travelled (v :: vs) b b' ->
  valid_bom x (earliest v vs) b' /\ b_spec_version b' = last vs v
  /\ forall w, unmixed_bom w b -> unmixed_bom w b'.
Proof.
  intros S M T. destruct vs as [|v2 vs].
  - rewrite (C93_single v b b' M T). split; [exact (stays_valid x v b S)|]. split; [reflexivity|]. intros w. apply x_bom.
  - rewrite (C93_journey v v2 vs b b' M T). cbv zeta. set (m := earliest v (v2 :: vs)) in *. split; [exact (holds_valid x m b S)|].
    split.
    + cbn [at_version b_spec_version]. clear. revert v v2. induction vs as [|y vs IH]; intros v v2; [reflexivity|].
      cbn [last] in *. destruct vs; [reflexivity|]. exact (IH v v2).
    + intros w U. exact (x_bom w m _ (x_bom w m b U)).
Qed.

(** [safe_to_save] (StaySpec.v) and [unmixed_bom] (UpSpec.v) are the conditions of C94 and C95: for the whole journey
    the former is needed once, for its earliest version. *)
Theorem C97_journey x v vs b b' :
  let m := earliest v vs in
  safe_to_save x m b -> confidences_finite v b -> travelled (v :: vs) b b' ->
  passes x m b' /\ forall w, version_leb m w = true -> unmixed_bom w b -> passes x w b'.
Proof.
  intros m S M T. destruct (at_end x v vs b b' S M T) as (V & _ & U). apply C25_passes_iff_valid in V.
  split; [exact V|]. intros w L N. apply (C95_later x m w b' L V). auto.
Qed.
(** the version it ends in is not earlier, so it passes its own validation *)
Theorem C97_own x v vs b b' :
  safe_to_save x (earliest v vs) b -> unmixed_bom (last vs v) b -> confidences_finite v b -> travelled (v :: vs) b b' ->
  exists r, validate x b' = Done r /\ passed r = true.
Proof.
  intros S N M T. destruct (at_end x v vs b b' S M T) as (_ & E & _).
  apply C25_validate_uses_own_version. rewrite E. apply C25_passes_iff_valid.
  apply (proj2 (C97_journey x v vs b b' S M T) (last vs v)); [|exact N].
  apply C93_earliest. destruct (last_in v vs) as [->|I]; [now left|now right].
Qed.

(** *** Cases *)
Definition held : option bom := Eval vm_compute in fold_left go [V1_5; V1_4; V1_5] (Some (licensed [expressed])).
Example C97_case : exists b', let b := licensed [expressed] in
  safe_to_save picky_parsers (earliest V1_5 [V1_4; V1_5]) b /\ unmixed_bom V1_5 b /\ confidences_finite V1_5 b
  /\ travelled [V1_5; V1_4; V1_5] b b' /\ b_spec_version b' = V1_5.
Proof.
  destruct C95_upgraded_case as (_ & S & U & M & _). cbv zeta.
  assert (G : fold_left go [V1_5; V1_4; V1_5] (Some (licensed [expressed])) = held) by (vm_compute; reflexivity).
  unfold held in G. apply gone in G. eexists. split; [exact S|]. split; [exact U|]. split; [exact M|]. split; [exact G|]. reflexivity.
Qed.

Print Assumptions C97_journey.
Print Assumptions C97_own.

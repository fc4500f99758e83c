(** C18 and C10: what is left of a text when the white space around it is taken off. *)
From Verif Require Import Base Strings SpaceSpec.
From Coq Require Import NArith Lia.
Open Scope string_scope.
Open Scope list_scope.

Definition spaces : list N := [9; 10; 11; 12; 13; 32; 133; 160; 5760; 8192; 8193; 8194; 8195; 8196; 8197; 8198; 8199; 8200; 8201; 8202; 8232; 8233; 8239; 8287; 12288]%N.
Lemma in_spaces c : white_space c <-> In c spaces.
Proof. unfold white_space, spaces. cbn [In]. lia. Qed.
Lemma byte_is a k : nat_of_ascii a = k -> a = ascii_of_nat k.
Proof. intros <-. symmetry. apply ascii_nat_embedding. Qed.
(** A character of white space is taken off, and nothing else *)
Theorem C18_white_space s s' : strip_ws s = Some s' <-> exists c, white_space c /\ s = (utf8 c ++ s')%string.
Proof.
  split.
  - destruct s as [|a s1]; [discriminate|]. cbn [strip_ws].
    destruct ((Nat.leb 9 (nat_of_ascii a) && Nat.leb (nat_of_ascii a) 13) || Nat.eqb (nat_of_ascii a) 32) eqn:E1.
    { intros [= <-]. rewrite orb_true_iff, andb_true_iff, !Nat.leb_le, Nat.eqb_eq in E1. exists (N.of_nat (nat_of_ascii a)).
      assert (X : In (nat_of_ascii a) [9; 10; 11; 12; 13; 32]) by (cbn [In]; lia).
      split; [unfold white_space; lia|]. rewrite <- (ascii_nat_embedding a) at 1. cbn [In] in X.
      repeat (destruct X as [<-|X]; [reflexivity|]). destruct X. }
    clear E1. destruct s1 as [|b s2]; [discriminate|].
    destruct (Nat.eqb (nat_of_ascii a) 194 && (Nat.eqb (nat_of_ascii b) 133 || Nat.eqb (nat_of_ascii b) 160)) eqn:E2.
    { intros [= <-]. rewrite andb_true_iff, orb_true_iff, !Nat.eqb_eq in E2. destruct E2 as [Ea Eb]. apply byte_is in Ea. subst a.
      destruct Eb as [Eb|Eb]; apply byte_is in Eb; subst b; [exists 133%N|exists 160%N]; (split; [unfold white_space; lia|reflexivity]). }
    clear E2. destruct s2 as [|c s3]; [discriminate|]. intros H.
    match type of H with (if ?b then _ else _) = _ => destruct b eqn:E3; [|discriminate H] end. injection H as <-.
    rewrite !orb_true_iff, !andb_true_iff, !orb_true_iff, !andb_true_iff, !Nat.leb_le, !Nat.eqb_eq in E3.
    destruct E3 as [[[((Ea & Eb) & Ec)|((Ea & Eb) & E)]|((Ea & Eb) & Ec)]|((Ea & Eb) & Ec)]; apply byte_is in Ea, Eb; subst a b.
    + apply byte_is in Ec. subst c. exists 5760%N. split; [unfold white_space; lia|reflexivity].
    + exists (8064 + N.of_nat (nat_of_ascii c))%N. split; [unfold white_space; lia|].
      assert (Y : In (nat_of_ascii c) [128; 129; 130; 131; 132; 133; 134; 135; 136; 137; 138; 168; 169; 175]) by (clear - E; cbn [In]; lia).
      rewrite <- (ascii_nat_embedding c) at 1. generalize dependent (nat_of_ascii c). clear. intros k _ Y. cbn [In] in Y. repeat (destruct Y as [<-|Y]; [reflexivity|]). destruct Y.
    + apply byte_is in Ec. subst c. exists 8287%N. split; [unfold white_space; lia|reflexivity].
    + apply byte_is in Ec. subst c. exists 12288%N. split; [unfold white_space; lia|reflexivity].
  - intros (c & W & ->). apply in_spaces in W. unfold spaces in W. cbn [In] in W. repeat (destruct W as [<-|W]; [reflexivity|]). destruct W.
Qed.

Lemma utf8_nonempty c : white_space c -> 0 < String.length (utf8 c).
Proof. intros W. apply in_spaces in W. unfold spaces in W. cbn [In] in W. repeat (destruct W as [<-|W]; [cbn; lia|]). destruct W. Qed.
Lemma strip_shorter s s' : strip_ws s = Some s' -> String.length s' < String.length s.
Proof. intros H. apply C18_white_space in H as (c & W & ->). rewrite length_append. pose proof (utf8_nonempty c W). lia. Qed.
Lemma trim_start_more n k s : String.length s <= n -> n <= k -> trim_start_n k s = trim_start_n n s.
Proof.
  revert k s. induction n as [|n IH]; intros k s L K.
  - destruct s; [|cbn in L; lia]. destruct k; reflexivity.
  - destruct k; [lia|]. cbn. destruct (strip_ws s) as [s'|] eqn:E; [|reflexivity]. apply strip_shorter in E. apply IH; lia.
Qed.
Lemma trim_start_step s : trim_start s = match strip_ws s with Some s' => trim_start s' | None => s end.
Proof.
  unfold trim_start. destruct s as [|a s]; [reflexivity|]. cbn [String.length trim_start_n]. destruct (strip_ws (String a s)) as [s'|] eqn:E; [|reflexivity].
  apply strip_shorter in E. cbn in E. apply trim_start_more; lia.
Qed.
Lemma trim_start_spec s : exists before, s = (before ++ trim_start s)%string /\ blank_text before /\ strip_ws (trim_start s) = None.
Proof.
  remember (String.length s) as n eqn:L. revert s L. induction n as [n IH] using lt_wf_ind. intros s ->. rewrite trim_start_step.
  destruct (strip_ws s) as [s'|] eqn:E; [|exists ""; auto using blank_nil]. destruct (IH (String.length s') (strip_shorter _ _ E) s' eq_refl) as (b & E' & B & N).
  apply C18_white_space in E as (c & W & ->). exists (utf8 c ++ b)%string. split; [rewrite append_assoc; congruence|]. split; [now constructor|exact N].
Qed.
Lemma blank_trim s : blank_text s <-> trim_start s = "".
Proof.
  split.
  - intros B. induction B as [|c s W B IH]; [reflexivity|]. rewrite trim_start_step. assert (E : strip_ws (utf8 c ++ s) = Some s) by (apply C18_white_space; eauto). now rewrite E.
  - intros E. destruct (trim_start_spec s) as (b & Es & B & _). rewrite E, append_nil_r in Es. now subst.
Qed.
Lemma trim_end_spec s : exists after, s = (trim_end s ++ after)%string /\ blank_text after.
Proof.
  induction s as [|a s (af & E & B)]; [exists ""; auto using blank_nil|]. cbn [trim_end]. destruct (String.eqb_spec (trim_start (String a s)) "") as [X|X].
  - exists (String a s). split; [reflexivity|]. now apply blank_trim.
  - exists af. split; [cbn; congruence|exact B].
Qed.
Lemma trim_end_short p x : blank_text x -> String.length (trim_end (p ++ x)) <= String.length p.
Proof.
  intros B. apply blank_trim in B. induction p as [|a p IH]; cbn [append].
  - destruct x as [|a x]; [reflexivity|]. cbn [trim_end]. rewrite B. reflexivity.
  - cbn [trim_end String.length]. destruct (String.eqb _ _); cbn; lia.
Qed.
(** Trimming takes off white space at both ends, and all of it *)
Theorem C18_trim s : exists before after, s = (before ++ trim s ++ after)%string /\ blank_text before /\ blank_text after
  /\ (forall c r, white_space c -> trim s <> (utf8 c ++ r)%string) /\ (forall c r, white_space c -> trim s <> (r ++ utf8 c)%string).
Proof.
  destruct (trim_start_spec s) as (b & E & B & N). destruct (trim_end_spec (trim_start s)) as (a & E' & A). exists b, a. unfold trim.
  split; [rewrite <- E'; exact E|]. split; [exact B|]. split; [exact A|]. split.
  - intros c r W X. rewrite E', X, append_assoc in N. assert (Y : strip_ws (utf8 c ++ (r ++ a)) = Some (r ++ a)%string) by (apply C18_white_space; eauto). congruence.
  - intros c r W X. rewrite X, append_assoc in E'. pose proof (trim_end_short r (utf8 c ++ a) (blank_cons c a W A)) as L. rewrite <- E', X, length_append in L.
    pose proof (utf8_nonempty c W). lia.
Qed.
(** So a text with no white space at its ends stays as it is *)
Theorem C18_trim_nothing s : (forall c r, white_space c -> s <> (utf8 c ++ r)%string) -> (forall c r, white_space c -> s <> (r ++ utf8 c)%string) -> trim s = s.
Proof.
  intros S E. destruct (C18_trim s) as (b & a & X & B & A & _). destruct B as [|c b W B].
  - cbn [append] in X. assert (Y : a = "" \/ exists r c, white_space c /\ a = (r ++ utf8 c)%string).
    { clear - A. induction A as [|c s W A [->|(r & c' & W' & ->)]]; [now left|right..]; [exists "", c; rewrite append_nil_r; auto|exists (utf8 c ++ r)%string, c'; now rewrite append_assoc]. }
    destruct Y as [->|(r & c & W & ->)]; [now rewrite append_nil_r in X|]. exfalso. apply (E c (trim s ++ r)%string W). now rewrite append_assoc.
  - exfalso. apply (S c (b ++ trim s ++ a)%string W). rewrite X at 1. now rewrite append_assoc.
Qed.
(** A text between an ideographic space, a no-break space and a tab *)
Example C18_trim_case : trim (utf8 12288 ++ utf8 160 ++ "Jane Doe" ++ utf8 9) = "Jane Doe" /\ white_space 12288 /\ blank_text (utf8 160 ++ utf8 8202).
Proof.
  split; [vm_compute; reflexivity|]. split; [unfold white_space; lia|]. apply blank_cons; [unfold white_space; lia|].
  rewrite <- (append_nil_r (utf8 8202)). apply blank_cons; [unfold white_space; lia|constructor].
Qed.
Print Assumptions C18_white_space.
Print Assumptions C18_trim.
Print Assumptions C18_trim_nothing.

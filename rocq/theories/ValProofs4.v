(** Lemmas used by ValProps.v: text, list errors, quoting of messages. *)
From Verif Require Import Base ModelTypes Strings Base64 Regex Enums ValModel ValSpec ValProofs ValProofs2 ValProofs3.
From Coq Require Import Sorted.
Open Scope string_scope.
Open Scope list_scope.
Open Scope nat_scope.

(** ** Normalization *)
Lemma newline_tab_In c : is_newline_tab c = true <-> In c [CR; LF; TAB].
Proof.
  unfold is_newline_tab. rewrite !orb_true_iff, !Ascii.eqb_eq. cbn [In].
  split; [intros [[->| ->]| ->]|intros [<-|[<-|[<-|[]]]]]; tauto.
Qed.
Lemma normalize_cons c s : ~ (c = CR /\ exists s', s = String LF s') ->
  normalize (String c s) = String (if is_newline_tab c then " "%char else c) (normalize s).
Proof.
  intros N. unfold normalize. destruct s as [|d s]; [reflexivity|].
  change (replace_crlf (String c (String d s))) with
    (if Ascii.eqb c CR && Ascii.eqb d LF then String " " (replace_crlf s) else String c (replace_crlf (String d s))).
  destruct (Ascii.eqb_spec c CR) as [->|], (Ascii.eqb_spec d LF) as [->|]; cbn [andb]; try reflexivity.
  exfalso. apply N. eauto.
Qed.
Lemma normalize_pair s : normalize (String CR (String LF s)) = String " " (normalize s).
Proof. reflexivity. Qed.
Lemma pair_dec c s : {c = CR /\ exists s', s = String LF s'} + {~ (c = CR /\ exists s', s = String LF s')}.
Proof.
  destruct (ascii_dec c CR) as [->|]; [|right; tauto]. destruct s as [|d s].
  - right. intros [_ [s' E]]. discriminate.
  - destruct (ascii_dec d LF) as [->|]; [left; eauto|]. right. intros [_ [s' E]]. congruence.
Qed.
Lemma normalize_flat n : forall s, String.length s <= n -> flattened s (normalize s).
Proof.
  induction n as [|n IH]; intros s L.
  - destruct s; [constructor|cbn in L; lia].
  - destruct s as [|c s]; [constructor|]. cbn [String.length] in L. destruct (pair_dec c s) as [[-> [s' ->]]|N].
    + rewrite normalize_pair. constructor. apply IH. cbn [String.length] in L. lia.
    + rewrite normalize_cons by exact N. pose proof (newline_tab_In c) as E. destruct (is_newline_tab c).
      * apply flat_control; [tauto|exact N|apply IH; lia].
      * apply flat_other; [|apply IH; lia]. intros I. apply E in I. discriminate.
Qed.
Lemma normalize_flattened s t : normalize s = t <-> flattened s t.
Proof.
  split.
  - intros <-. apply (normalize_flat (String.length s)). lia.
  - induction 1 as [|s t _ IH|c s t I N _ IH|c s t I _ IH].
    + reflexivity.
    + rewrite normalize_pair, IH. reflexivity.
    + rewrite normalize_cons by exact N. rewrite (proj2 (newline_tab_In c) I), IH. reflexivity.
    + rewrite normalize_cons.
      * destruct (is_newline_tab c) eqn:E; [apply newline_tab_In in E; contradiction|]. now rewrite IH.
      * intros [-> _]. apply I. left. reflexivity.
Qed.
Lemma occurs_cons c d s : occurs c (String d s) <-> c = d \/ occurs c s.
Proof.
  unfold occurs. split.
  - intros (a & b & E). destruct a as [|a0 a]; cbn in E; injection E as -> E; [left; reflexivity|right; eauto].
  - intros [->|(a & b & ->)]; [exists "", s; reflexivity|exists (String d a), b; reflexivity].
Qed.
Lemma occurs_nil c : ~ occurs c "".
Proof. intros (a & b & E). destruct a; discriminate. Qed.
Lemma single_line_iff s : single_line s <-> forall c, In c [CR; LF; TAB] -> ~ occurs c s.
Proof.
  unfold single_line. split.
  - intros (A & B & C) c [<-|[<-|[<-|[]]]]; auto.
  - intros H. repeat split; apply H; cbn; tauto.
Qed.
Lemma normalize_single_line s : single_line (normalize s).
Proof.
  assert (F : flattened s (normalize s)) by (apply normalize_flattened; reflexivity).
  apply single_line_iff. intros c I. induction F as [|s t _ IH|d s t I' N _ IH|d s t I' _ IH].
  - apply occurs_nil.
  - rewrite occurs_cons. intros [->|O]; [|exact (IH O)]. cbn in I. destruct I as [E|[E|[E|[]]]]; discriminate.
  - rewrite occurs_cons. intros [->|O]; [|exact (IH O)]. cbn in I. destruct I as [E|[E|[E|[]]]]; discriminate.
  - rewrite occurs_cons. intros [->|O]; [contradiction|exact (IH O)].
Qed.
Lemma normalize_id s : single_line s -> normalize s = s.
Proof.
  rewrite single_line_iff. intros H. apply normalize_flattened. induction s as [|c s IH]; [constructor|].
  apply flat_other.
  - intros I. apply (H c I). apply occurs_cons. auto.
  - apply IH. intros d I O. apply (H d I). apply occurs_cons. auto.
Qed.

(** ** Quoting *)
Lemma append_inj_r a b c : (a ++ c)%string = (b ++ c)%string -> a = b.
Proof.
  intros H. apply append_inj_same_len in H; [tauto|].
  apply (f_equal String.length) in H. rewrite !length_append in H. lia.
Qed.
Lemma quote_inj p q n m : (p ++ n ++ q)%string = (p ++ m ++ q)%string -> n = m.
Proof. intros H. apply append_inj_l, append_inj_r in H. exact H. Qed.

Lemma repeats_In l : forall seen n, In n (repeats seen l) <-> (In n seen /\ In n l) \/ twice n l.
Proof.
  assert (C : forall n r l, twice n (r :: l) <-> (n = r /\ In n l) \/ twice n l).
  { intros n r l'. unfold twice. split.
    - intros (a & b & c & E). destruct a as [|a0 a]; cbn [app] in E; injection E as -> ->.
      + left. split; [reflexivity|]. apply in_app_iff. right. left. reflexivity.
      + right. eauto.
    - intros [[-> I]|(a & b & c & ->)].
      + apply in_split in I as (b & c & ->). exists [], b, c. reflexivity.
      + exists (r :: a), b, c. reflexivity. }
  induction l as [|r l IH]; intros seen n; cbn [repeats].
  - split; [intros []|]. intros [[_ []]|(a & b & c & E)]. destruct a; discriminate.
  - rewrite C. destruct (refs_contain seen r) eqn:R.
    + apply refs_contain_In in R. cbn [In]. rewrite IH. cbn [In]. split.
      * intros [<-|[[[<-|A] B]|T]]; auto.
      * intros [[A [<-|B]]|[[-> B]|T]]; auto.
    + apply not_true_iff_false in R. rewrite refs_contain_In in R. rewrite IH. cbn [In]. split.
      * intros [[[<-|A] B]|T]; auto.
      * intros [[A [<-|B]]|[[-> B]|T]]; auto. contradiction.
Qed.
Lemma repeats_twice n l : In n (repeats [] l) <-> twice n l.
Proof. rewrite repeats_In. cbn. tauto. Qed.

Lemma reported_dangling b l (f : string -> string) n : (forall a c, f a = f c -> a = c) ->
  (exists ms, match map f (dangling b l) with [] => None | m0 :: ms0 => Some (ErrCustom (m0 :: ms0)) end = Some (ErrCustom ms)
              /\ In (f n) ms) <-> In n l /\ ~ In n (carried b).
Proof.
  intros J. assert (D : In n (dangling b l) <-> In n l /\ ~ In n (carried b)).
  { unfold dangling. rewrite filter_In, negb_true_iff, <- not_true_iff_false, refs_contain_In. tauto. }
  rewrite <- D. split.
  - intros (ms & E & I). destruct (map f (dangling b l)) eqn:M; [discriminate|]. injection E as <-.
    rewrite <- M in I. apply in_map_iff in I as (a & E & I). apply J in E. now subst.
  - intros I. apply (in_map f) in I. destruct (map f (dangling b l)) eqn:M; [destruct I|]. eauto.
Qed.

(** ** List errors *)
Lemma failing_sorted l : forall i, StronglySorted lt (map fst (failing i l)) .
Proof.
  assert (B : forall l i, Forall (fun j => i <= j) (map fst (failing i l))).
  { clear l. induction l as [|r l IH]; intros i; cbn [failing]; [constructor|].
    assert (H : Forall (fun j => i <= j) (map fst (failing (S i) l))).
    { eapply Forall_impl; [|apply IH]. cbn. intros; lia. }
    destruct (has_errors r); [constructor; [cbn; lia|exact H]|exact H]. }
  induction l as [|r l IH]; intros i; cbn [failing]; [constructor|].
  destruct (has_errors r); [|apply IH]. cbn [map fst]. constructor; [apply IH|].
  eapply Forall_impl; [|apply B]. cbn. intros; lia.
Qed.
Lemma failing_In l : forall k i r, In (i, r) (failing k l) <-> k <= i /\ nth_error l (i - k) = Some r /\ r <> [].
Proof.
  induction l as [|r0 l IH]; intros k i r; cbn [failing].
  - split; [intros []|]. intros (_ & N & _). destruct (i - k); discriminate.
  - assert (T : In (i, r) (failing (S k) l) <-> S k <= i /\ nth_error (r0 :: l) (i - k) = Some r /\ r <> []).
    { rewrite IH. split; intros (L & N & E); (split; [exact L|split; [|exact E]]).
      - replace (i - k) with (S (i - S k)) by lia. exact N.
      - replace (i - k) with (S (i - S k)) in N by lia. exact N. }
    destruct r0 as [|p r0]; cbn [has_errors passed negb].
    + rewrite T. split; intros (L & N & E); (split; [|split; [exact N|exact E]]); [lia|].
      destruct (Nat.eq_dec i k) as [->|]; [|lia]. rewrite Nat.sub_diag in N. cbn in N. congruence.
    + cbn [In]. rewrite T. split.
      * intros [E|(L & N & E)]; [|split; [lia|auto]]. injection E as <- <-. rewrite Nat.sub_diag.
        split; [lia|]. split; [reflexivity|discriminate].
      * intros (L & N & E). destruct (Nat.eq_dec i k) as [->|]; [|right; split; [lia|auto]].
        rewrite Nat.sub_diag in N. cbn in N. injection N as <-. left. reflexivity.
Qed.
Lemma Forall2_nth_r {A B} (R : A -> B -> Prop) l m : Forall2 R l m ->
  forall i b, nth_error m i = Some b -> exists a, nth_error l i = Some a /\ R a b.
Proof. induction 1; intros [|i] c N; cbn in *; try discriminate; [injection N as <-; eauto|eauto]. Qed.
Lemma Forall2_nth_l {A B} (R : A -> B -> Prop) l m : Forall2 R l m ->
  forall i a, nth_error l i = Some a -> exists b, nth_error m i = Some b /\ R a b.
Proof. induction 1; intros [|i] c N; cbn in *; try discriminate; [injection N as <-; eauto|eauto]. Qed.

(** ** Unique lists *)
Section Unique.
  Context {A : Type} (eqb : A -> A -> bool) (f : A -> outcome vresult).
  Lemma unique_length l : forall seen, List.length (unique_items eqb f seen l) = List.length l.
  Proof. induction l; intros seen; cbn; [reflexivity|]. now rewrite IHl. Qed.
  Lemma unique_nth l : forall seen i a, nth_error l i = Some a ->
    nth_error (unique_items eqb f seen l) i
    = Some (if existsb (eqb a) (rev (firstn i l) ++ seen) then Done (from_check (Some "repeated element")) else f a).
  Proof.
    induction l as [|b l IH]; intros seen [|i] a N; cbn [nth_error unique_items firstn rev app] in *; try discriminate.
    - injection N as ->. reflexivity.
    - rewrite (IH (b :: seen) i a N). now rewrite <- app_assoc.
  Qed.
  Lemma unique_map l : forall seen,
    (forall i j a b, i < j -> nth_error l i = Some a -> nth_error l j = Some b -> eqb b a = false) ->
    (forall a b, In a l -> In b seen -> eqb a b = false) ->
    unique_items eqb f seen l = map f l.
  Proof.
    induction l as [|a l IH]; intros seen H S; cbn [unique_items map]; [reflexivity|].
    assert (E : existsb (eqb a) seen = false).
    { apply not_true_iff_false. rewrite existsb_exists. intros (b & I & E).
      rewrite (S a b) in E; [discriminate|left; reflexivity|exact I]. }
    rewrite E. f_equal. apply IH.
    - intros i j c d L N1 N2. apply (H (1 + i) (1 + j)); [lia|exact N1|exact N2].
    - intros c b I [<-|J].
      + apply In_nth_error in I as [j N]. apply (H 0 (1 + j)); [lia|reflexivity|exact N].
      + apply S; [right; exact I|exact J].
  Qed.
End Unique.
Lemma nth_firstn {A} (l : list A) i : forall j, j < i -> nth_error (firstn i l) j = nth_error l j.
Proof.
  revert l. induction i as [|i IH]; intros l j L; [lia|]. destruct l as [|a l]; [reflexivity|].
  destruct j as [|j]; [reflexivity|]. cbn [firstn nth_error]. apply IH. lia.
Qed.
Lemma nth_firstn_lt {A} (l : list A) i j b : nth_error (firstn i l) j = Some b -> j < i.
Proof.
  intros N. assert (j < List.length (firstn i l)) by (apply nth_error_Some; congruence).
  rewrite firstn_length in H. lia.
Qed.

(** ** Generated serial numbers *)
Lemma hex_digit_ok n : n < 16 -> hex_lower (hex_digit n) = true.
Proof. intros L. do 16 (destruct n as [|n]; [reflexivity|]). lia. Qed.
Lemma hex_text_ok s : String.length (hex_text s) = 2 * String.length s /\ all_chars hex_lower (hex_text s) = true.
Proof.
  induction s as [|c s [IH1 IH2]]; [split; reflexivity|]. cbn [hex_text String.length all_chars]. split; [lia|].
  assert (B : nat_of_ascii c < 256) by apply nat_ascii_bounded.
  rewrite !hex_digit_ok, IH2; [reflexivity| |].
  - apply Nat.mod_upper_bound. lia.
  - apply Nat.div_lt_upper_bound; lia.
Qed.
Lemma substring_length s : forall n m, n + m <= String.length s -> String.length (substring n m s) = m.
Proof.
  induction s as [|c s IH]; intros n m L; cbn [String.length] in L.
  - destruct n, m; cbn; lia.
  - destruct n as [|n]; cbn [substring].
    + destruct m as [|m]; [reflexivity|]. cbn [String.length]. rewrite IH; lia.
    + apply IH. lia.
Qed.
Lemma urn_uuid_from_shape u : String.length u = 16 -> serial_shape (urn_uuid_from u).
Proof.
  intros L. exists (uuid_text u). split; [reflexivity|]. unfold uuid_shape. do 5 eexists. split; [reflexivity|].
  unfold hex_group. rewrite !all_of_iff.
  repeat split; try apply hex_text_ok; (etransitivity; [apply hex_text_ok|]); rewrite substring_length; lia.
Qed.

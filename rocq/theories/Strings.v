(** Operations on Rust strings used by the code.  A Rust [String]/[&str] is the
    sequence of its UTF-8 bytes. *)
From Verif Require Import Base.
From Coq Require Import NArith DecimalString Decimal DecimalN.
Open Scope string_scope.

Definition CR : ascii := "013"%char.
Definition LF : ascii := "010"%char.
Definition TAB : ascii := "009"%char.

(** [str::starts_with] *)
Definition starts_with (p s : string) : bool := String.prefix p s.

(** [str::strip_prefix] *)
Fixpoint strip_prefix (p s : string) : option string :=
  match p, s with
  | EmptyString, _ => Some s
  | String a p', String b s' => if Ascii.eqb a b then strip_prefix p' s' else None
  | String _ _, EmptyString => None
  end.

(** [str::contains(char)] *)
Fixpoint contains_char (c : ascii) (s : string) : bool :=
  match s with
  | EmptyString => false
  | String a s' => Ascii.eqb a c || contains_char c s'
  end.

(** [str::contains(&str)] *)
Fixpoint contains_str (sub s : string) : bool :=
  String.prefix sub s ||
  match s with
  | EmptyString => false
  | String _ s' => contains_str sub s'
  end.

(** [str::find(char)]: byte offset of the first occurrence *)
Fixpoint find_char (c : ascii) (s : string) : option nat :=
  match s with
  | EmptyString => None
  | String a s' => if Ascii.eqb a c then Some 0 else option_map S (find_char c s')
  end.

(** [&s[..n]] *)
Fixpoint take (n : nat) (s : string) : string :=
  match n, s with
  | S n', String a s' => String a (take n' s')
  | _, _ => EmptyString
  end.
(** [&s[n..]] *)
Fixpoint drop (n : nat) (s : string) : string :=
  match n, s with
  | S n', String _ s' => drop n' s'
  | _, _ => s
  end.

(** [str::replace(char, &str)] *)
Fixpoint replace_char (c : ascii) (r : string) (s : string) : string :=
  match s with
  | EmptyString => EmptyString
  | String a s' => if Ascii.eqb a c then r ++ replace_char c r s' else String a (replace_char c r s')
  end.

(** [str::split(char)]: always at least one piece *)
Fixpoint split_char (c : ascii) (s : string) : list string :=
  match s with
  | EmptyString => [EmptyString]
  | String a s' =>
      if Ascii.eqb a c then EmptyString :: split_char c s'
      else match split_char c s' with
           | [] => [String a EmptyString]
           | p :: ps => String a p :: ps
           end
  end.

(** [str::split_once(char)] *)
Fixpoint split_once (c : ascii) (s : string) : option (string * string) :=
  match s with
  | EmptyString => None
  | String a s' =>
      if Ascii.eqb a c then Some (EmptyString, s')
      else match split_once c s' with
           | Some (x, y) => Some (String a x, y)
           | None => None
           end
  end.

(** [[String]::join] *)
Definition join (sep : string) (l : list string) : string := String.concat sep l.

(** ** [str::trim]: Unicode White_Space at both ends, on UTF-8 bytes. *)
Definition byte (n : nat) : ascii := ascii_of_nat n.

(** Strips one leading white-space character, if there is one. *)
Definition strip_ws (s : string) : option string :=
  match s with
  | String a s1 =>
      let n := nat_of_ascii a in
      if (Nat.leb 9 n && Nat.leb n 13) || Nat.eqb n 32 then Some s1
      else match s1 with
      | String b s2 =>
          let m := nat_of_ascii b in
          (* U+0085, U+00A0 *)
          if Nat.eqb n 194 && (Nat.eqb m 133 || Nat.eqb m 160) then Some s2
          else match s2 with
          | String c s3 =>
              let k := nat_of_ascii c in
              if (* U+1680 *) (Nat.eqb n 225 && Nat.eqb m 154 && Nat.eqb k 128)
                 || (* U+2000-200A, U+2028, U+2029, U+202F *)
                    (Nat.eqb n 226 && Nat.eqb m 128
                     && ((Nat.leb 128 k && Nat.leb k 138) || Nat.eqb k 168 || Nat.eqb k 169 || Nat.eqb k 175))
                 || (* U+205F *) (Nat.eqb n 226 && Nat.eqb m 129 && Nat.eqb k 159)
                 || (* U+3000 *) (Nat.eqb n 227 && Nat.eqb m 128 && Nat.eqb k 128)
              then Some s3 else None
          | EmptyString => None
          end
      | EmptyString => None
      end
  | EmptyString => None
  end.

(** [str::trim_start], with the length of the string as loop bound (each step
    removes at least one byte). *)
Fixpoint trim_start_n (n : nat) (s : string) : string :=
  match n with
  | O => s
  | S n' => match strip_ws s with Some s' => trim_start_n n' s' | None => s end
  end.
Definition trim_start (s : string) : string := trim_start_n (String.length s) s.

(** [str::trim_end]: cuts at the first position from which only white space follows. *)
Fixpoint trim_end (s : string) : string :=
  match s with
  | EmptyString => EmptyString
  | String a s' => if String.eqb (trim_start s) EmptyString then EmptyString else String a (trim_end s')
  end.

(** [str::trim] *)
Definition trim (s : string) : string := trim_end (trim_start s).

(** ** Numbers: [Display] of unsigned integers. *)
Definition string_of_N (n : N) : string := NilZero.string_of_uint (N.to_uint n).
Definition string_of_nat (n : nat) : string := string_of_N (N.of_nat n).

(** [str::parse::<u32>] and [i64::from_str_radix(_, 10)] digits part:
    non-empty ASCII decimal digits. *)
Fixpoint digits_acc (s : string) (acc : N) : option N :=
  match s with
  | EmptyString => Some acc
  | String a s' =>
      let n := N_of_ascii a in
      if N.leb 48 n && N.leb n 57 then digits_acc s' (acc * 10 + (n - 48))%N else None
  end.
Definition parse_digits (s : string) : option N :=
  match s with EmptyString => None | _ => digits_acc s 0%N end.

(** external_models/normalized_string.rs:33-41: [NormalizedString::new], i.e.
    [value.replace("\r\n", " ").replace(['\r','\n','\t'], " ")]. *)
Fixpoint replace_crlf (s : string) : string :=
  match s with
  | EmptyString => EmptyString
  | String a s' =>
      match s' with
      | String b s'' =>
          if Ascii.eqb a CR && Ascii.eqb b LF then String " " (replace_crlf s'')
          else String a (replace_crlf s')
      | EmptyString => String a EmptyString
      end
  end.
Definition is_newline_tab (a : ascii) : bool := Ascii.eqb a CR || Ascii.eqb a LF || Ascii.eqb a TAB.
Fixpoint replace_ctl (s : string) : string :=
  match s with
  | EmptyString => EmptyString
  | String a s' => String (if is_newline_tab a then " "%char else a) (replace_ctl s')
  end.
Definition normalize (s : string) : string := replace_ctl (replace_crlf s).

(** external_models/normalized_string.rs:89-104: [validate_normalized_string]
    (the error message is constant). *)
Definition normalized_ok (s : string) : bool :=
  negb (contains_str (String CR (String LF EmptyString)) s || contains_char CR s
        || contains_char LF s || contains_char TAB s).

(** ** Facts *)
Lemma append_assoc a b c : (a ++ b) ++ c = a ++ (b ++ c).
Proof. induction a; simpl; congruence. Qed.
Lemma append_nil_r a : a ++ "" = a.
Proof. induction a; simpl; congruence. Qed.
Lemma append_inj_l a b c : a ++ b = a ++ c -> b = c.
Proof. induction a; simpl; intros H; [auto|]. injection H; auto. Qed.
Lemma length_append a b : String.length (a ++ b) = String.length a + String.length b.
Proof. induction a; simpl; congruence. Qed.
Lemma append_inj_same_len a b c d :
  String.length a = String.length c -> a ++ b = c ++ d -> a = c /\ b = d.
Proof.
  revert c; induction a as [|x a IH]; intros [|y c] Hl H; simpl in *; try discriminate; auto.
  injection H as -> H. destruct (IH c) as [-> ->]; auto.
Qed.

Lemma string_of_N_inj n m : string_of_N n = string_of_N m -> n = m.
Proof.
  unfold string_of_N. intros H.
  assert (E : forall k, NilZero.uint_of_string (NilZero.string_of_uint (N.to_uint k)) = Some (N.to_uint k)).
  { intros k. apply NilZero.usu.
    intros E. pose proof (DecimalN.Unsigned.of_to k) as K. rewrite E in K.
    destruct k; [discriminate|]. cbn in K. discriminate. }
  pose proof (E n) as En. rewrite H, E in En. injection En as En.
  rewrite <- (DecimalN.Unsigned.of_to n), <- En. apply DecimalN.Unsigned.of_to.
Qed.
Lemma string_of_nat_inj n m : string_of_nat n = string_of_nat m -> n = m.
Proof. intros H. apply string_of_N_inj in H. lia. Qed.

Lemma split_char_nonempty c s : split_char c s <> [].
Proof. destruct s; simpl; [discriminate|]. destruct (Ascii.eqb _ _); [discriminate|]. now destruct (split_char c s). Qed.

Lemma contains_char_app c a b : contains_char c (a ++ b) = contains_char c a || contains_char c b.
Proof. induction a; simpl; auto. now rewrite IHa, orb_assoc. Qed.

Lemma find_char_none c s : find_char c s = None <-> contains_char c s = false.
Proof.
  induction s as [|a s IH]; simpl; [tauto|].
  destruct (Ascii.eqb a c); simpl; [split; discriminate|].
  destruct (find_char c s); simpl; rewrite <- IH; split; congruence.
Qed.
Lemma find_char_some c s n : find_char c s = Some n ->
  s = take n s ++ String c (drop (S n) s) /\ contains_char c (take n s) = false.
Proof.
  revert n; induction s as [|a s IH]; simpl; intros n H; [discriminate|].
  destruct (Ascii.eqb_spec a c) as [E|N].
  - injection H as <-. simpl. subst. split; [|reflexivity]. now destruct s.
  - destruct (find_char c s) as [k|]; simpl in H; [|discriminate]. injection H as <-.
    destruct (IH k eq_refl) as [E C]. split.
    + cbn [take]. simpl. f_equal. exact E.
    + simpl. apply Ascii.eqb_neq in N. now rewrite N.
Qed.
Lemma find_char_first c a b : contains_char c a = false -> find_char c (a ++ String c b) = Some (String.length a).
Proof.
  induction a as [|x a IH]; simpl; intros H.
  - now rewrite Ascii.eqb_refl.
  - apply orb_false_iff in H as [-> H]. now rewrite IH.
Qed.
Lemma take_app a b : take (String.length a) (a ++ b) = a.
Proof. induction a; simpl; [now destruct b|congruence]. Qed.
Lemma drop_app a b : drop (String.length a) (a ++ b) = b.
Proof. induction a; simpl; [now destruct b|auto]. Qed.
Lemma take_length_le n s : String.length (take n s) <= String.length s.
Proof. revert s; induction n; intros [|a s]; simpl; try lia. specialize (IHn s). lia. Qed.
Lemma split_once_spec c s x y : split_once c s = Some (x, y) -> s = x ++ String c y /\ contains_char c x = false.
Proof.
  revert x y; induction s as [|a s IH]; simpl; intros x y H; [discriminate|].
  destruct (Ascii.eqb_spec a c) as [E|N].
  - injection H as <- <-. subst; auto.
  - destruct (split_once c s) as [[p q]|]; [|discriminate]. injection H as <- <-.
    destruct (IH _ _ eq_refl) as [-> C]. split; simpl; auto.
    apply Ascii.eqb_neq in N. now rewrite N.
Qed.
Lemma strip_prefix_spec p s r : strip_prefix p s = Some r <-> s = p ++ r.
Proof.
  revert s; induction p as [|a p IH]; intros s; simpl.
  - split; congruence.
  - destruct s as [|b s]; [split; discriminate|].
    destruct (Ascii.eqb_spec a b) as [E|N].
    + subst. rewrite IH. split; intros H; [now f_equal|now injection H].
    + split; [discriminate|]. intros H. injection H as H1 H2. congruence.
Qed.
Lemma strip_prefix_app p r : strip_prefix p (p ++ r) = Some r.
Proof. now apply strip_prefix_spec. Qed.
Lemma starts_with_spec p s : starts_with p s = true <-> exists r, s = p ++ r.
Proof.
  unfold starts_with. revert s; induction p as [|a p IH]; intros s; simpl.
  - split; [eauto|]. intros _. now destruct s.
  - destruct s as [|b s]; [split; [discriminate|intros [r H]; discriminate]|].
    cbn [prefix]. destruct (ascii_dec a b) as [->|N].
    + specialize (IH s). split; intros H.
      * apply IH in H as [r ->]. now exists r.
      * apply IH. destruct H as [r H]. injection H as ->. eauto.
    + split; [discriminate|]. intros [r H]. injection H as H1 H2. congruence.
Qed.
Lemma contains_str_spec p s : contains_str p s = true <-> exists a b, s = a ++ p ++ b.
Proof.
  revert p; induction s as [|c s IH]; intros p; cbn [contains_str].
  - rewrite orb_false_r. change (String.prefix p "") with (starts_with p ""). rewrite starts_with_spec.
    split.
    + intros [r H]. exists "", r. exact H.
    + intros [a [b H]]. destruct a; [|discriminate]. exists b. exact H.
  - rewrite orb_true_iff. change (String.prefix p (String c s)) with (starts_with p (String c s)).
    rewrite starts_with_spec, IH. split.
    + intros [[r H]|[a [b H]]].
      * exists "", r. exact H.
      * exists (String c a), b. simpl. now f_equal.
    + intros [a [b H]]. destruct a as [|x a].
      * left. exists b. exact H.
      * right. simpl in H. injection H as _ H. eauto.
Qed.
Lemma contains_char_In c s : contains_char c s = true <-> exists a b, s = a ++ String c b.
Proof.
  induction s as [|x s IH]; simpl.
  - split; [discriminate|]. intros [a [b H]]. destruct a; discriminate.
  - rewrite orb_true_iff, IH. split.
    + intros [E|[a [b H]]].
      * apply Ascii.eqb_eq in E as ->. exists "", s. reflexivity.
      * exists (String x a), b. simpl. now f_equal.
    + intros [a [b H]]. destruct a as [|y a]; simpl in H; injection H as H1 H2.
      * left. apply Ascii.eqb_eq. auto.
      * right. eauto.
Qed.

(** The standard padded Base64 of the [base64] crate ([engine::general_purpose::STANDARD]),
    used by [AttachedText::new] and its validation (models/attached_text.rs:35-82). *)
From Verif Require Import Base.
From Coq Require Import NArith.
Open Scope string_scope.
Local Open Scope N_scope.

(** Alphabet: A-Z a-z 0-9 + / *)
Definition b64_char (n : N) : ascii :=
  ascii_of_N (if n <? 26 then 65 + n
              else if n <? 52 then 71 + n
              else if n <? 62 then n - 4
              else if n =? 62 then 43 else 47).
Definition b64_value (c : ascii) : option N :=
  let n := N_of_ascii c in
  if (65 <=? n) && (n <=? 90) then Some (n - 65)
  else if (97 <=? n) && (n <=? 122) then Some (n - 71)
  else if (48 <=? n) && (n <=? 57) then Some (n + 4)
  else if n =? 43 then Some 62
  else if n =? 47 then Some 63
  else None.
Definition PAD : ascii := "="%char.

(** [STANDARD.encode] *)
Fixpoint b64_encode (s : string) : string :=
  match s with
  | EmptyString => EmptyString
  | String a EmptyString =>
      let x := N_of_ascii a in
      String (b64_char (x / 4)) (String (b64_char (x mod 4 * 16)) (String PAD (String PAD EmptyString)))
  | String a (String b EmptyString) =>
      let x := N_of_ascii a in let y := N_of_ascii b in
      String (b64_char (x / 4)) (String (b64_char (x mod 4 * 16 + y / 16))
        (String (b64_char (y mod 16 * 4)) (String PAD EmptyString)))
  | String a (String b (String c r)) =>
      let x := N_of_ascii a in let y := N_of_ascii b in let z := N_of_ascii c in
      String (b64_char (x / 4)) (String (b64_char (x mod 4 * 16 + y / 16))
        (String (b64_char (y mod 16 * 4 + z / 64)) (String (b64_char (z mod 64)) (b64_encode r))))
  end.

(** [STANDARD.decode]: canonical padding is required and non-zero trailing bits
    are rejected (the crate's default configuration). *)
Fixpoint b64_decode (s : string) : option string :=
  match s with
  | EmptyString => Some EmptyString
  | String a (String b (String c (String d r))) =>
      match b64_value a, b64_value b with
      | Some x, Some y =>
          if Ascii.eqb d PAD then
            match r with
            | EmptyString =>
                if Ascii.eqb c PAD then
                  if y mod 16 =? 0 then Some (String (ascii_of_N (x * 4 + y / 16)) EmptyString) else None
                else match b64_value c with
                | Some z =>
                    if z mod 4 =? 0 then
                      Some (String (ascii_of_N (x * 4 + y / 16))
                             (String (ascii_of_N (y mod 16 * 16 + z / 4)) EmptyString))
                    else None
                | None => None
                end
            | _ => None
            end
          else match b64_value c, b64_value d, b64_decode r with
          | Some z, Some w, Some t =>
              Some (String (ascii_of_N (x * 4 + y / 16))
                     (String (ascii_of_N (y mod 16 * 16 + z / 4))
                       (String (ascii_of_N (z mod 4 * 64 + w)) t)))
          | _, _, _ => None
          end
      | _, _ => None
      end
  | _ => None
  end.

Definition b64_ok (s : string) : bool := match b64_decode s with Some _ => true | None => false end.

(** *** Decoding undoes encoding *)
Lemma char_ok n : n < 64 -> b64_value (b64_char n) = Some n /\ Ascii.eqb (b64_char n) PAD = false.
Proof.
  intros H.
  assert (A : forallb (fun k => match b64_value (b64_char (N.of_nat k)) with
                                | Some m => (m =? N.of_nat k) && negb (Ascii.eqb (b64_char (N.of_nat k)) PAD)
                                | None => false end) (seq 0 64) = true) by (vm_compute; reflexivity).
  rewrite forallb_forall in A. specialize (A (N.to_nat n)).
  rewrite N2Nat.id in A. destruct (b64_value (b64_char n)) as [m|].
  - assert (I : In (N.to_nat n) (seq 0 64)) by (apply in_seq; lia).
    apply A in I. apply andb_true_iff in I as [E F]. apply N.eqb_eq in E. subst.
    apply negb_true_iff in F. auto.
  - exfalso. assert (I : In (N.to_nat n) (seq 0 64)) by (apply in_seq; lia). apply A in I. discriminate.
Qed.

Lemma value_char n : n < 64 -> b64_value (b64_char n) = Some n.
Proof. intros H. now apply char_ok. Qed.
Lemma char_not_pad n : n < 64 -> Ascii.eqb (b64_char n) PAD = false.
Proof. intros H. now apply char_ok. Qed.
Lemma byte_lt a : N_of_ascii a < 256.
Proof. apply N_ascii_bounded. Qed.

Lemma split_byte a k m : k <> 0 -> k * m = 256 ->
  exists q r, N_of_ascii a / k = q /\ N_of_ascii a mod k = r /\ N_of_ascii a = k * q + r /\ r < k /\ q < m.
Proof.
  intros Hk Hm. exists (N_of_ascii a / k), (N_of_ascii a mod k).
  repeat split.
  - now apply N.div_mod.
  - now apply N.mod_lt.
  - apply N.div_lt_upper_bound; auto. rewrite Hm. apply byte_lt.
Qed.

Lemma recombine (p q k r : N) : k <> 0 -> r < k -> (p * k + r) / k = p /\ (p * k + r) mod k = r.
Proof.
  intros Hk Hr. rewrite N.add_comm. split.
  - rewrite N.div_add by auto. rewrite N.div_small by auto. lia.
  - rewrite N.mod_add by auto. now apply N.mod_small.
Qed.

Ltac sp a k m q r :=
  let E := fresh in let F := fresh in
  destruct (split_byte a k m ltac:(discriminate) eq_refl) as [q [r [E [F [? [? ?]]]]]];
  rewrite ?E, ?F; clear E F.

Lemma back a x : x = N_of_ascii a -> ascii_of_N x = a.
Proof. intros ->. apply ascii_N_embedding. Qed.

Theorem b64_roundtrip : forall s, b64_decode (b64_encode s) = Some s.
Proof.
  fix IH 1. intros [|a [|b [|c r]]]; cbn [b64_encode].
  - reflexivity.
  - cbn [b64_decode].
    sp a 4 64 q r.
    rewrite (value_char q), (value_char (r * 16)), Ascii.eqb_refl by lia.
    destruct (recombine r 0 16 0) as [E F]; try lia.
    rewrite N.add_0_r in E, F. rewrite F, E. cbn [N.eqb].
    rewrite (back a); [reflexivity|]. lia.
  - cbn [b64_decode].
    sp a 4 64 q r. sp b 16 16 q1 r1.
    rewrite (value_char q), (value_char (r * 16 + q1)) by lia.
    rewrite Ascii.eqb_refl, (char_not_pad (r1 * 4)), (value_char (r1 * 4)) by lia.
    destruct (recombine r 0 16 q1) as [E F]; try lia.
    destruct (recombine r1 0 4 0) as [G K]; try lia.
    rewrite N.add_0_r in G, K. rewrite E, F, G, K. cbn [N.eqb].
    rewrite (back a), (back b); [reflexivity|lia|lia].
  - cbn [b64_decode].
    specialize (IH r).
    sp a 4 64 q s. sp b 16 16 q1 r1. sp c 64 4 q2 r2.
    rewrite (value_char q), (value_char (s * 16 + q1)) by lia.
    rewrite (char_not_pad r2), (value_char (r1 * 4 + q2)), (value_char r2), IH by lia.
    destruct (recombine s 0 16 q1) as [E F]; try lia.
    destruct (recombine r1 0 4 q2) as [G K]; try lia.
    rewrite E, F, G, K.
    rewrite (back a), (back b), (back c); [reflexivity|lia|lia|lia].
Qed.

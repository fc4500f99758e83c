(** Regular expressions as used through the [regex] crate ([Regex::is_match]):
    an executable matcher, its declarative meaning, and the proof that they
    agree.  Strings are bytes; every class used by the library is ASCII except
    [.], which stands for "any character but a line feed" (for valid UTF-8 a
    run of such characters and a run of such bytes are the same thing). *)
From Verif Require Import Base Strings.
Open Scope string_scope.
Open Scope list_scope.
Open Scope nat_scope.

Inductive re :=
| REps
| RSet (p : ascii -> bool)
| RSeq (a b : re)
| RAlt (a b : re)
| RStar (a : re)
| RBegin          (* ^ : start of the text *)
| REnd.           (* $ : end of the text *)

Definition is_nil (s : string) : bool := match s with "" => true | _ => false end.

(** All the texts that may remain after a match of [r] at the head of [s];
    [b] tells whether the head of [s] is the start of the whole text. *)
Fixpoint ends (r : re) (b : bool) (s : string) {struct r} : list string :=
  match r with
  | REps => [s]
  | RSet p => match s with "" => [] | String c s' => if p c then [s'] else [] end
  | RSeq x y =>
      flat_map (fun t => ends y (b && (String.length t =? String.length s)) t) (ends x b s)
  | RAlt x y => ends x b s ++ ends y b s
  | RStar x =>
      (fix go (n : nat) (b : bool) (s : string) {struct n} : list string :=
         s :: match n with
              | 0 => []
              | S n' => flat_map (fun t => if String.length t <? String.length s then go n' false t else [])
                                 (ends x b s)
              end) (String.length s) b s
  | RBegin => if b then [s] else []
  | REnd => match s with "" => [s] | _ => [] end
  end.

(** A match starting at the head of [s] or later. *)
Fixpoint search (r : re) (b : bool) (s : string) : bool :=
  match ends r b s with [] => false | _ => true end
  || match s with "" => false | String _ s' => search r false s' end.

(** [Regex::is_match] *)
Definition is_match (r : re) (s : string) : bool := search r true s.

(** ** Notation for writing patterns *)
Fixpoint lit (s : string) : re :=
  match s with "" => REps | String c s' => RSeq (RSet (Ascii.eqb c)) (lit s') end.
Fixpoint rep (n : nat) (r : re) : re := match n with 0 => REps | S n' => RSeq r (rep n' r) end.
Fixpoint upto (n : nat) (r : re) : re := match n with 0 => REps | S n' => RAlt (RSeq r (upto n' r)) REps end.
Fixpoint seqs (l : list re) : re :=
  match l with [] => REps | [r] => r | r :: l' => RSeq r (seqs l') end.
Definition plus (r : re) : re := RSeq r (RStar r).
Definition opt_re (r : re) : re := RAlt r REps.

Definition in_range (lo hi c : ascii) : bool :=
  (nat_of_ascii lo <=? nat_of_ascii c) && (nat_of_ascii c <=? nat_of_ascii hi).
Definition one_of (s : string) (c : ascii) : bool := contains_char c s.
Definition digit : ascii -> bool := in_range "0" "9".
Definition lower : ascii -> bool := in_range "a" "z".
Definition upper : ascii -> bool := in_range "A" "Z".
Definition hex_lower (c : ascii) : bool := digit c || in_range "a" "f" c.
Definition hex_any (c : ascii) : bool := digit c || in_range "a" "f" c || in_range "A" "F" c.

(** ** Declarative meaning
    [rmatch r b w t]: [r] matches [w] when [w] is followed by [t] and starts at
    the beginning of the text iff [b]. *)
Inductive rmatch : re -> bool -> string -> string -> Prop :=
| M_eps b t : rmatch REps b "" t
| M_set p c b t : p c = true -> rmatch (RSet p) b (String c "") t
| M_seq x y b w1 w2 t : rmatch x b w1 (w2 ++ t) -> rmatch y (b && is_nil w1) w2 t ->
    rmatch (RSeq x y) b (w1 ++ w2)%string t
| M_altl x y b w t : rmatch x b w t -> rmatch (RAlt x y) b w t
| M_altr x y b w t : rmatch y b w t -> rmatch (RAlt x y) b w t
| M_star0 x b t : rmatch (RStar x) b "" t
| M_starS x b w1 w2 t : w1 <> "" -> rmatch x b w1 (w2 ++ t) -> rmatch (RStar x) false w2 t ->
    rmatch (RStar x) b (w1 ++ w2)%string t
| M_begin t : rmatch RBegin true "" t
| M_end b : rmatch REnd b "" "".

Lemma len_app_nil w t : (String.length t =? String.length (w ++ t)%string) = is_nil w.
Proof.
  rewrite length_append. destruct w; cbn [is_nil String.length].
  - apply Nat.eqb_eq; lia.
  - apply Nat.eqb_neq; lia.
Qed.

Lemma ends_spec r : forall b s t, In t (ends r b s) <-> exists w, s = (w ++ t)%string /\ rmatch r b w t.
Proof.
  induction r as [|p|x IHx y IHy|x IHx y IHy|x IHx| |]; intros b s t; cbn [ends].
  - split.
    + intros [<-|[]]. exists "". split; [reflexivity|constructor].
    + intros (w & -> & H). inversion H; subst. left; reflexivity.
  - split.
    + destruct s as [|c s']; [intros []|]. destruct (p c) eqn:E; [|intros []].
      intros [<-|[]]. exists (String c ""). split; [reflexivity|constructor; exact E].
    + intros (w & -> & H). inversion H; subst. cbn. rewrite H1. left; reflexivity.
  - rewrite in_flat_map. split.
    + intros (u & Hu & Ht). apply IHx in Hu as (w1 & -> & H1). rewrite len_app_nil in Ht.
      apply IHy in Ht as (w2 & -> & H2).
      exists (w1 ++ w2)%string. split; [now rewrite append_assoc|]. constructor; assumption.
    + intros (w & -> & H). inversion H; subst. exists (w2 ++ t)%string. split.
      * apply IHx. exists w1. split; [now rewrite append_assoc|assumption].
      * rewrite append_assoc, len_app_nil. apply IHy. exists w2. split; [reflexivity|assumption].
  - rewrite in_app_iff, IHx, IHy. split.
    + intros [(w & -> & H)|(w & -> & H)]; exists w; split; auto; [apply M_altl|apply M_altr]; auto.
    + intros (w & -> & H). inversion H; subst; [left|right]; exists w; auto.
  - assert (G : forall n b s, String.length s <= n ->
      (In t ((fix go (n : nat) (b : bool) (s : string) {struct n} : list string :=
         s :: match n with
              | 0 => []
              | S n' => flat_map (fun t => if String.length t <? String.length s then go n' false t else [])
                                 (ends x b s)
              end) n b s) <-> exists w, s = (w ++ t)%string /\ rmatch (RStar x) b w t)).
    { clear b s. induction n as [|n IHn]; intros b s L.
      - destruct s; [|cbn in L; lia]. split.
        + intros [<-|[]]. exists "". split; [reflexivity|constructor].
        + intros (w & E & H). left. destruct w; [|discriminate]. exact E.
      - split.
        + intros [<-|H]; [exists ""; split; [reflexivity|constructor]|].
          apply in_flat_map in H as (u & Hu & H).
          destruct (String.length u <? String.length s) eqn:E; [|destruct H].
          apply Nat.ltb_lt in E. apply IHn in H; [|lia]. destruct H as (w2 & -> & H2).
          apply IHx in Hu as (w1 & -> & H1). rewrite !length_append in E.
          exists (w1 ++ w2)%string. split; [now rewrite append_assoc|].
          apply M_starS; auto. intros ->. cbn in E. lia.
        + intros (w & -> & H). inversion H; subst; [left; reflexivity|]. right.
          apply in_flat_map. exists (w2 ++ t)%string. rewrite append_assoc. split.
          * apply IHx. exists w1. auto.
          * assert (Q : String.length (w2 ++ t) < String.length (w1 ++ (w2 ++ t))).
            { rewrite (length_append w1). destruct w1; [congruence|cbn [String.length]; lia]. }
            rewrite append_assoc in L. apply Nat.ltb_lt in Q as Q'. rewrite Q'.
            apply IHn; [lia|]. exists w2. auto. }
    apply G. lia.
  - split.
    + destruct b; [|intros []]. intros [<-|[]]. exists "". split; [reflexivity|constructor].
    + intros (w & -> & H). inversion H; subst. left; reflexivity.
  - split.
    + destruct s; [|intros []]. intros [<-|[]]. exists "". split; [reflexivity|constructor].
    + intros (w & -> & H). inversion H; subst. left; reflexivity.
Qed.

Lemma search_spec r : forall s b, search r b s = true <->
  exists p w t, s = (p ++ w ++ t)%string /\ rmatch r (b && is_nil p) w t.
Proof.
  induction s as [|c s IH]; intros b; cbn [search]; rewrite orb_true_iff.
  - split.
    + intros [H|H]; [|discriminate]. destruct (ends r b "") as [|t l] eqn:E; [discriminate|].
      assert (I : In t (ends r b "")) by (rewrite E; left; reflexivity).
      apply ends_spec in I as (w & E1 & M). exists "", w, t. rewrite andb_true_r. auto.
    + intros (p & w & t & E & M). left. destruct p; [|discriminate]. cbn in E, M. rewrite andb_true_r in M.
      assert (I : In t (ends r b "")) by (apply ends_spec; exists w; auto).
      destruct (ends r b ""); [destruct I|reflexivity].
  - split.
    + intros [H|H].
      * destruct (ends r b (String c s)) as [|t l] eqn:E; [discriminate|].
        assert (I : In t (ends r b (String c s))) by (rewrite E; left; reflexivity).
        apply ends_spec in I as (w & E1 & M). exists "", w, t. rewrite andb_true_r. auto.
      * apply IH in H as (p & w & t & -> & M). exists (String c p), w, t. split; [reflexivity|].
        cbn [is_nil]. rewrite andb_false_r. exact M.
    + intros (p & w & t & E & M). destruct p as [|c' p].
      * left. cbn in E, M. rewrite andb_true_r in M.
        assert (I : In t (ends r b (String c s))) by (apply ends_spec; exists w; auto).
        destruct (ends r b (String c s)); [destruct I|reflexivity].
      * right. cbn in E. injection E as <- ->. apply IH. exists p, w, t. split; [reflexivity|].
        cbn [is_nil andb] in *. rewrite andb_false_r in M. exact M.
Qed.

Theorem is_match_spec r s : is_match r s = true <->
  exists p w t, s = (p ++ w ++ t)%string /\ rmatch r (is_nil p) w t.
Proof. apply search_spec. Qed.

(** ** Languages of anchor-free expressions *)
Inductive star (P : string -> Prop) : string -> Prop :=
| star0 : star P ""
| starS a b : P a -> star P b -> star P (a ++ b)%string.

Fixpoint lang (r : re) (w : string) : Prop :=
  match r with
  | REps => w = ""
  | RSet p => exists c, w = String c "" /\ p c = true
  | RSeq x y => exists a b, w = (a ++ b)%string /\ lang x a /\ lang y b
  | RAlt x y => lang x w \/ lang y w
  | RStar x => star (lang x) w
  | RBegin | REnd => False
  end.

Fixpoint anchor_free (r : re) : bool :=
  match r with
  | REps | RSet _ => true
  | RSeq x y | RAlt x y => anchor_free x && anchor_free y
  | RStar x => anchor_free x
  | RBegin | REnd => false
  end.

Lemma rmatch_lang r : anchor_free r = true -> forall b w t, rmatch r b w t <-> lang r w.
Proof.
  induction r as [|p|x IHx y IHy|x IHx y IHy|x IHx| |]; cbn [anchor_free lang]; intros A b w t.
  - split; [intros H; inversion H; auto|intros ->; constructor].
  - split.
    + intros H; inversion H; subst. exists c. auto.
    + intros (c & -> & E). constructor. exact E.
  - apply andb_true_iff in A as [Ax Ay]. split.
    + intros H; inversion H; subst. exists w1, w2. split; [reflexivity|]. split; [eapply IHx|eapply IHy]; eauto.
    + intros (a & c & -> & H1 & H2). constructor; [apply IHx|apply IHy]; auto.
  - apply andb_true_iff in A as [Ax Ay]. split.
    + intros H; inversion H; subst; [left; eapply IHx|right; eapply IHy]; eauto.
    + intros [H|H]; [apply M_altl, IHx|apply M_altr, IHy]; auto.
  - split.
    + intros H. remember (RStar x) as r eqn:E. induction H; inversion E; subst.
      * constructor.
      * constructor; [eapply IHx; eauto|auto].
    + intros H. revert b. induction H; intros b0; [constructor|].
      destruct a as [|c a].
      * exact (IHstar b0).
      * apply M_starS; [discriminate| |apply IHstar]. apply IHx; auto.
  - discriminate.
  - discriminate.
Qed.

(** an expression written [^...$] *)
Definition full (r : re) : re := RSeq RBegin (RSeq r REnd).

Lemma is_match_full r s : anchor_free r = true -> (is_match (full r) s = true <-> lang r s).
Proof.
  intros A. rewrite is_match_spec. split.
  - intros (p & w & t & -> & H). inversion H as [| |? ? ? w1 w2 ? H1 H2| | | | | |]; subst.
    inversion H1; subst. cbn [append] in *. destruct p; [|discriminate]. cbn [append].
    inversion H2 as [| |? ? ? w3 w4 ? H3 H4| | | | | |]; subst. inversion H4; subst.
    rewrite append_nil_r in *. rewrite append_nil_r. apply (rmatch_lang r A) in H3. exact H3.
  - intros H. exists "", s, "". cbn [append is_nil]. split; [now rewrite append_nil_r|].
    change s with ("" ++ s)%string. constructor; [constructor|]. cbn [is_nil andb].
    rewrite <- (append_nil_r s). constructor; [apply rmatch_lang; auto|constructor].
Qed.

Lemma is_match_free r s : anchor_free r = true ->
  (is_match r s = true <-> exists p w t, s = (p ++ w ++ t)%string /\ lang r w).
Proof.
  intros A. rewrite is_match_spec. split; intros (p & w & t & E & H); exists p, w, t; split; auto;
    eapply rmatch_lang; eauto.
Qed.

(** ** Languages of the pattern notations *)
Fixpoint all_chars (p : ascii -> bool) (s : string) : bool :=
  match s with "" => true | String c s' => p c && all_chars p s' end.

Lemma all_chars_app p a b : all_chars p (a ++ b) = all_chars p a && all_chars p b.
Proof. induction a as [|c a IH]; cbn; [reflexivity|]. rewrite IH, andb_assoc. reflexivity. Qed.

Lemma all_chars_forall p s : all_chars p s = true <-> (forall a c b, s = (a ++ String c b)%string -> p c = true).
Proof.
  induction s as [|d s IH]; cbn [all_chars].
  - split; [|reflexivity]. intros _ [|? ?] c b E; discriminate.
  - rewrite andb_true_iff, IH. split.
    + intros [H1 H2] [|e a] c b E; cbn in E; injection E as -> ->; eauto.
    + intros H. split; [apply (H "" d s); reflexivity|]. intros a c b ->. apply (H (String d a) c b). reflexivity.
Qed.

Lemma lang_lit s w : lang (lit s) w <-> w = s.
Proof.
  revert w. induction s as [|c s IH]; intros w; cbn [lit lang]; [tauto|]. split.
  - intros (a & b & -> & (d & -> & E) & H). apply IH in H. apply Ascii.eqb_eq in E. subst. reflexivity.
  - intros ->. exists (String c ""), s. split; [reflexivity|]. split; [|apply IH; reflexivity].
    exists c. split; [reflexivity|apply Ascii.eqb_refl].
Qed.

Lemma lang_rep_set n p w : lang (rep n (RSet p)) w <-> String.length w = n /\ all_chars p w = true.
Proof.
  revert w. induction n as [|n IH]; intros w; cbn [rep].
  - cbn [lang]. destruct w; cbn; split; intros H; try discriminate; intuition discriminate.
  - change (lang (RSeq (RSet p) (rep n (RSet p))) w)
      with (exists a b, w = (a ++ b)%string /\ lang (RSet p) a /\ lang (rep n (RSet p)) b). split.
    + intros (a & b & -> & (c & -> & E) & H). apply IH in H as [L A]. cbn. rewrite E, A. split; [lia|reflexivity].
    + intros [L A]. destruct w as [|c w]; [discriminate|]. cbn in L, A. apply andb_true_iff in A as [E A].
      exists (String c ""), w. split; [reflexivity|]. split; [exists c; auto|]. apply IH. split; [lia|exact A].
Qed.

Lemma lang_star_set p w : lang (RStar (RSet p)) w <-> all_chars p w = true.
Proof.
  cbn [lang]. split.
  - induction 1; [reflexivity|]. destruct H as (c & -> & E). cbn. rewrite E, IHstar. reflexivity.
  - induction w as [|c w IH]; intros A; [constructor|]. cbn in A. apply andb_true_iff in A as [E A].
    change (String c w) with (String c "" ++ w)%string. constructor; [exists c; auto|auto].
Qed.

Lemma lang_plus_set p w : lang (plus (RSet p)) w <-> w <> "" /\ all_chars p w = true.
Proof.
  unfold plus. change (lang (RSeq (RSet p) (RStar (RSet p))) w)
    with (exists a b, w = (a ++ b)%string /\ lang (RSet p) a /\ lang (RStar (RSet p)) b). split.
  - intros (a & b & -> & (c & -> & E) & H). apply lang_star_set in H. cbn. rewrite E, H. split; [discriminate|reflexivity].
  - intros [N A]. destruct w as [|c w]; [congruence|]. cbn in A. apply andb_true_iff in A as [E A].
    exists (String c ""), w. split; [reflexivity|]. split; [exists c; auto|]. apply lang_star_set. exact A.
Qed.

Lemma lang_seq x y w : lang (RSeq x y) w <-> exists a b, w = (a ++ b)%string /\ lang x a /\ lang y b.
Proof. reflexivity. Qed.

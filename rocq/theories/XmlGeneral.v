(** What holds of every described XML reader: it reads a suffix of the events, its result
    does not depend on the fuel, and, for readers that are [fine], it needs no more fuel than
    the document is long, it always returns, and it stops after its own end tag. *)
From Verif Require Import Base ModelTypes Strings Json JsonLemmas Xml XmlLemmas XmlSpec2.
Open Scope string_scope.
Open Scope list_scope.
Open Scope nat_scope.

Ltac xdone := solve [discriminate | congruence | lia | auto].

(** ** Reading goes forward *)
Definition forward {A} (evs : list event) (x : xres A) : Prop :=
  forall a rest, x = XOk a rest -> exists e pre, evs = e :: pre ++ rest.

Lemma forward_xbind {A B} evs (x : xres A) (f : A -> list event -> xres B) :
  forward evs x -> (forall a rest, x = XOk a rest ->
     forall b rest', f a rest = XOk b rest' -> exists pre, rest = pre ++ rest') ->
  forward evs (xbind x f).
Proof.
  intros H K b rest' E. destruct x as [a rest| | |]; cbn in E; try discriminate.
  destruct (H a rest eq_refl) as (e & pre & ->).
  destruct (K a rest eq_refl b rest' E) as (pre' & ->).
  exists e, (pre ++ pre'). now rewrite <- app_assoc.
Qed.
Lemma forward_xmap {A B} (f : A -> B) evs x : forward evs x -> forward evs (xmap f x).
Proof.
  intros H. apply forward_xbind; [exact H|]. intros a rest _ b rest' E.
  injection E as _ <-. now exists [].
Qed.
Lemma forward_cons {A} e evs (x : xres A) :
  (forall a rest, x = XOk a rest -> exists pre, evs = pre ++ rest) -> forward (e :: evs) x.
Proof. intros H a rest E. destruct (H a rest E) as (pre & ->). now exists e, pre. Qed.
Lemma forward_weak {A} evs (x : xres A) a rest : forward evs x -> x = XOk a rest -> exists pre, evs = pre ++ rest.
Proof. intros H E. destruct (H a rest E) as (e & pre & ->). now exists (e :: pre). Qed.

Lemma closing_forward {A} n (a : A) evs : forward evs (closing n a evs).
Proof.
  intros b rest. destruct evs as [|[] evs]; cbn; try discriminate.
  destruct (String.eqb n0 n); intros [= _ <-]. now exists (EEnd n0), [].
Qed.
Lemma skip_forward evs : forall open rest, open <> [] -> skip open evs = XOk tt rest ->
  exists e pre, evs = e :: pre ++ rest.
Proof.
  induction evs as [|e evs IH]; intros [|n open] rest Ho; try congruence; cbn [skip]; intros E; try discriminate.
  assert (K : forall o, o <> [] -> skip o evs = XOk tt rest -> exists e0 pre, e :: evs = e0 :: pre ++ rest).
  { intros o Hn Eo. destruct (IH o rest Hn Eo) as (e1 & pre & ->). now exists e, (e1 :: pre). }
  destruct e; try discriminate; try (apply (K (n :: open)); [discriminate|exact E]).
  - apply (K (n0 :: n :: open)); [discriminate|exact E].
  - destruct (String.eqb n0 n); [|discriminate]. destruct open as [|o open].
    + injection E as <-. now exists (EEnd n0), [].
    + apply (K (o :: open)); [discriminate|exact E].
Qed.

Section LOOP_FORWARD.
  Context {S : Type}.
  Variable p : policy.
  Variable arm : string -> option (attrs -> list event -> xres (S -> option S)).
  Variable chars : option (string -> S -> S).
  Variable n : string.
  Hypothesis Harm : forall m r ats evs, arm m = Some r -> forward evs (r ats evs).
  Lemma loop_forward fuel : forall evs st, forward evs (loop p arm chars n fuel evs st).
  Proof.
    induction fuel as [|fuel IH]; intros evs st a rest E; [discriminate|].
    cbn [loop] in E. destruct evs as [|e evs]; [destruct p; discriminate|].
    assert (K : forall st, loop p arm chars n fuel evs st = XOk a rest -> exists e0 pre, e :: evs = e0 :: pre ++ rest).
    { intros s El. destruct (IH _ _ _ _ El) as (e1 & pre & ->). now exists e, (e1 :: pre). }
    destruct e; try (destruct p; solve [discriminate|eapply K; exact E]).
    - destruct (arm n0) as [r|] eqn:Er.
      + destruct (r ats evs) as [u rest1| | |] eqn:Eu; try discriminate. cbn in E.
        destruct (u st) as [st'|]; [|discriminate].
        destruct (Harm _ _ ats evs Er _ _ Eu) as (e1 & pre1 & ->).
        destruct (IH _ _ _ _ E) as (e2 & pre2 & ->).
        exists (EStart n0 ats), (e1 :: pre1 ++ e2 :: pre2). cbn. now rewrite <- app_assoc.
      + destruct p; try discriminate; [|eapply K; exact E].
        destruct (skip [n0] evs) as [[] rest1| | |] eqn:Es; try discriminate. cbn in E.
        destruct (skip_forward evs [n0] rest1 ltac:(discriminate) Es) as (e1 & pre1 & ->).
        destruct (IH _ _ _ _ E) as (e2 & pre2 & ->).
        exists (EStart n0 ats), (e1 :: pre1 ++ e2 :: pre2). cbn. now rewrite <- app_assoc.
    - destruct (String.eqb n0 n).
      + injection E as _ <-. now exists (EEnd n0), [].
      + destruct p; try discriminate. eapply K; exact E.
    - destruct chars as [u|]; [eapply K; exact E|]. destruct p; try discriminate. eapply K; exact E.
  Qed.
  Variable odd : list event -> xres (S -> S).
  Hypothesis Hodd : forall evs, forward evs (odd evs).
  Lemma odd_forward fuel : forall evs st, forward evs (odd_loop arm n odd fuel evs st).
  Proof.
    induction fuel as [|fuel IH]; intros evs st a rest E; [discriminate|].
    cbn [odd_loop] in E.
    assert (K : forall e evs, evs = e :: tl evs -> xbind (odd (tl evs)) (fun u rest' => odd_loop arm n odd fuel rest' (u st)) = XOk a rest ->
      exists e0 pre, evs = e0 :: pre ++ rest).
    { intros e es Ee El. destruct (odd (tl es)) as [u rest1| | |] eqn:Eo; try discriminate. cbn in El.
      destruct (Hodd _ _ _ Eo) as (e1 & pre1 & E1). destruct (IH _ _ _ _ El) as (e2 & pre2 & ->).
      rewrite Ee, E1. exists e, (e1 :: pre1 ++ e2 :: pre2). cbn. now rewrite <- app_assoc. }
    destruct evs as [|e evs].
    - destruct (odd (tl [])) as [u rest1| | |] eqn:Eo; try discriminate.
      destruct (Hodd _ _ _ Eo) as (e1 & pre1 & E1). discriminate E1.
    - destruct e; try discriminate; try (eapply K; [|exact E]; reflexivity).
      + destruct (arm n0) as [r|] eqn:Er; [|eapply (K (EStart n0 ats) (EStart n0 ats :: evs)); [reflexivity|exact E]].
        destruct (r ats evs) as [u rest1| | |] eqn:Eu; try discriminate. cbn in E.
        destruct (u st) as [st'|]; [|discriminate].
        destruct (Harm _ _ ats evs Er _ _ Eu) as (e1 & pre1 & ->).
        destruct (IH _ _ _ _ E) as (e2 & pre2 & ->).
        exists (EStart n0 ats), (e1 :: pre1 ++ e2 :: pre2). cbn. now rewrite <- app_assoc.
      + destruct (String.eqb n0 n).
        * injection E as _ <-. now exists (EEnd n0), [].
        * eapply (K (EEnd n0) (EEnd n0 :: evs)); [reflexivity|exact E].
  Qed.
End LOOP_FORWARD.

Theorem run_forward {A} (d : desc A) : forall n ats evs, forward evs (run d n ats evs).
Proof.
  induction d using desc_mut with
    (P0 := fun S sh => forall m r ats evs, run_arm sh m = Some r -> forward evs (r ats evs)).
  - intros n ats evs. destruct p; cbn [run run_prim].
    1-3: unfold read_simple_tag, read_optional_tag, read_text; destruct evs as [|[] evs]; try discriminate.
    all: try apply closing_forward.
    all: intros a rest E;
      try (destruct (closing_forward _ _ _ _ _ E) as (e & pre & ->); eexists _, (_ :: _); reflexivity).
    + injection E as _ <-. now exists (EEnd n0), [].
    + destruct (String.eqb n0 n); [|discriminate]. injection E as _ <-. now exists (EEnd n0), [].
  - intros n ats evs. cbn [run]. apply forward_xbind; [apply IHd|].
    intros a rest _ b rest' E. destruct (f n ats a); [|discriminate]. injection E as _ <-. now exists [].
  - intros n ats evs. cbn [run]. apply loop_forward. exact IHd.
  - intros n ats evs. cbn [run]. apply odd_forward; [exact IHd|]. intros es. apply forward_xmap, IHd0.
  - intros n ats evs a rest E. discriminate.
  - intros m r ats evs E. discriminate.
  - intros m r ats evs. cbn [run_arm]. destruct (String.eqb m tag); [|discriminate].
    intros [= <-]. apply forward_xmap, IHd.
  - intros m r ats evs E. discriminate.
  - intros m r ats evs. cbn [run_arm]. destruct (run_arm a m) eqn:Ea.
    + intros [= <-]. eapply IHd; exact Ea.
    + apply IHd0.
  - intros m r ats evs. cbn [run_arm]. destruct (run_arm a m) eqn:Ea.
    + intros [= <-]. apply forward_xmap. eapply IHd; exact Ea.
    + destruct (run_arm b m) eqn:Eb; [|discriminate].
      intros [= <-]. apply forward_xmap. eapply IHd0; exact Eb.
Qed.

(** ** More fuel does not change a result *)
Definition more {A} (x y : xres A) : Prop := x <> XFuel -> y = x.
Definition approx {A} (d d' : desc A) : Prop := forall n ats evs, more (run d n ats evs) (run d' n ats evs).
Definition sapprox {S} (sh sh' : shape S) : Prop :=
  init sh = init sh' /\ on_chars sh = on_chars sh' /\
  forall m, match run_arm sh m, run_arm sh' m with
            | None, None => True
            | Some r, Some r' => forall ats evs, more (r ats evs) (r' ats evs)
            | _, _ => False
            end.

Lemma more_refl {A} (x : xres A) : more x x.
Proof. intros _. reflexivity. Qed.
Lemma more_xbind {A B} (x y : xres A) (f g : A -> list event -> xres B) :
  more x y -> (forall a rest, more (f a rest) (g a rest)) -> more (xbind x f) (xbind y g).
Proof.
  intros H K N. destruct x; cbn in N |- *.
  - rewrite (H ltac:(discriminate)). cbn. now apply K.
  - now rewrite (H ltac:(discriminate)).
  - now rewrite (H ltac:(discriminate)).
  - congruence.
Qed.
Lemma more_xmap {A B} (f : A -> B) x y : more x y -> more (xmap f x) (xmap f y).
Proof. intros H. apply more_xbind; [exact H|]. intros. apply more_refl. Qed.

Section LOOP_MORE.
  Context {S : Type}.
  Variable p : policy.
  Variables arm arm' : string -> option (attrs -> list event -> xres (S -> option S)).
  Variable chars : option (string -> S -> S).
  Variable n : string.
  Hypothesis Harm : forall m, match arm m, arm' m with
    | None, None => True
    | Some r, Some r' => forall ats evs, more (r ats evs) (r' ats evs)
    | _, _ => False
    end.
  Lemma loop_more fuel : forall evs st, more (loop p arm chars n fuel evs st) (loop p arm' chars n fuel evs st).
  Proof.
    induction fuel as [|fuel IH]; intros evs st; [apply more_refl|].
    cbn [loop]. destruct evs as [|e evs]; [apply more_refl|].
    destruct e; try (destruct p; solve [apply more_refl|apply IH]).
    - specialize (Harm n0). destruct (arm n0) as [r|], (arm' n0) as [r'|]; try contradiction.
      + apply more_xbind; [apply Harm|]. intros u rest. destruct (u st); [apply IH|apply more_refl].
      + destruct p; try apply more_refl; [|apply IH].
        apply more_xbind; [apply more_refl|]. intros. apply IH.
    - destruct (String.eqb n0 n); [apply more_refl|]. destruct p; [apply more_refl..|apply IH].
    - destruct chars; [apply IH|]. destruct p; [apply more_refl..|apply IH].
  Qed.
End LOOP_MORE.

Lemma approx_refl {A} (d : desc A) : approx d d.
Proof. intros n ats evs. apply more_refl. Qed.
Lemma approx_fuel {A} (d : desc A) : approx DFuel d.
Proof. intros n ats evs N. contradiction N. reflexivity. Qed.
Lemma approx_map {A B} (f : string -> attrs -> A -> option B) d d' : approx d d' -> approx (DMap f d) (DMap f d').
Proof. intros H n ats evs. cbn [run]. apply more_xbind; [apply H|]. intros. apply more_refl. Qed.
Lemma approx_loop {S} p (sh sh' : shape S) : sapprox sh sh' -> approx (DLoop p sh) (DLoop p sh').
Proof. intros (I & C & H) n ats evs. cbn [run]. rewrite <- I, <- C. now apply loop_more. Qed.
Lemma approx_struct {S A} p (sh sh' : shape S) (fin : attrs -> S -> option A) :
  sapprox sh sh' -> approx (struct p sh fin) (struct p sh' fin).
Proof. intros H. now apply approx_map, approx_loop. Qed.
Lemma sapprox_refl {S} (sh : shape S) : sapprox sh sh.
Proof.
  repeat split; intros. destruct (run_arm sh m); [|exact I]. intros. apply more_refl.
Qed.
Lemma sapprox_on {A S} tag (d d' : desc A) (i : S) u : approx d d' -> sapprox (SOn tag d i u) (SOn tag d' i u).
Proof.
  intros H. repeat split. intros m. cbn [run_arm]. destruct (String.eqb m tag); [|exact I].
  intros. apply more_xmap, H.
Qed.
Lemma sapprox_one {A} tag (d d' : desc A) : approx d d' -> sapprox (one tag d) (one tag d').
Proof. apply sapprox_on. Qed.
Lemma sapprox_many {A} tag (d d' : desc A) : approx d d' -> sapprox (many tag d) (many tag d').
Proof. apply sapprox_on. Qed.
Lemma sapprox_or {S} (a a' b b' : shape S) : sapprox a a' -> sapprox b b' -> sapprox (SOr a b) (SOr a' b').
Proof.
  intros (I & C & H) (J & D & K). repeat split; cbn [init on_chars run_arm].
  - exact I.
  - now rewrite C, D.
  - intros m. specialize (H m). specialize (K m).
    destruct (run_arm a m), (run_arm a' m); try contradiction; assumption.
Qed.
Lemma sapprox_pair {S T} (a a' : shape S) (b b' : shape T) :
  sapprox a a' -> sapprox b b' -> sapprox (SPair a b) (SPair a' b').
Proof.
  intros (Ia & C & H) (J & D & K). repeat split; cbn [init on_chars run_arm].
  - now rewrite Ia, J.
  - now rewrite C, D.
  - intros m. specialize (H m). specialize (K m).
    destruct (run_arm a m), (run_arm a' m); try contradiction.
    + intros. apply more_xmap, H.
    + destruct (run_arm b m), (run_arm b' m); try contradiction; [|exact I].
      intros. apply more_xmap, K.
Qed.
Lemma sapprox_from {S} c (a a' : shape S) : sapprox a a' -> sapprox (from c a) (from c a').
Proof.
  intros H. destruct c; cbn [Xml.from]; [exact H|]. destruct H as (E & _). rewrite E. apply sapprox_refl.
Qed.

(** ** Readers that are fine
    [fine d odd k p]: the reader [d] called for an element at [p] is lax where [lax_places] says so and looks
    through elements only where [open_names] says so, never through those in [passed_places w]; the loop of signatures is used for signatures, and
    not ([odd = false]) inside a reader that looks through elements; the limit of bounded
    unfolding is at least [k] elements deep. *)
Definition name_of (p : list string) : string := hd "" p.
Fixpoint fine (w : bool) {A} (d : desc A) (o : bool) (k : nat) (p : list string) {struct d} : Prop :=
  match d with
  | DPrim _ => lax_at p = false
  | DMap _ d => fine w d o k p
  | DLoop Strict sh => lax_at p = false /\ sfine w sh o (Nat.pred k) p
  | DLoop Lax sh => sfine w sh o (Nat.pred k) p
  | DLoop Open sh => lax_at p = false /\ mem (name_of p) open_names = true /\ sfine w sh false (Nat.pred k) p /\
      (forall m, passed_at w (m :: p) = true -> tr_arm sh m <> None)
  | DOdd sh d _ =>
      o = true /\ lax_at p = false /\ name_of p = "signature" /\
      (forall m, mem m signature_names = true -> tr_arm sh m <> None) /\
      sfine w sh o (Nat.pred k) p /\ fine w d o k p
  | DFuel => k = 0
  end
with sfine (w : bool) {S} (sh : shape S) (o : bool) (k : nat) (p : list string) {struct sh} : Prop :=
  match sh with
  | SNone _ | SChars _ _ => True
  | SOn tag d _ _ => mem tag known_names = true /\ fine w d o k (tag :: p)
  | SOr a b => sfine w a o k p /\ sfine w b o k p
  | SPair a b => sfine w a o k p /\ sfine w b o k p
  end.

Section FINE.
Context {w : bool}.
Lemma fine_odd {A} (d : desc A) : forall k p, fine w d false k p -> fine w d true k p.
Proof.
  induction d using desc_mut with (P0 := fun S sh => forall k p, sfine w sh false k p -> sfine w sh true k p);
    cbn [fine sfine]; intros.
  - assumption.
  - now apply IHd.
  - destruct p; intuition auto.
  - destruct H as (H & _). discriminate.
  - assumption.
  - exact I.
  - destruct H as (H1 & H2). split; [exact H1|]. now apply IHd.
  - exact I.
  - destruct H. split; [now apply IHd|now apply IHd0].
  - destruct H. split; [now apply IHd|now apply IHd0].
Qed.

Lemma lengths {A} n ats (d : desc A) evs a rest : run d n ats evs = XOk a rest -> List.length rest < List.length evs.
Proof. intros E. destruct (run_forward d n ats evs a rest E) as (e & pre & ->). cbn. rewrite app_length. lia. Qed.

(** *** The fuel suffices *)
Lemma xbind_fuel {A B} (x : xres A) (f : A -> list event -> xres B) :
  x <> XFuel -> (forall a rest, x = XOk a rest -> f a rest <> XFuel) -> xbind x f <> XFuel.
Proof. intros H K. destruct x; cbn; auto; discriminate. Qed.
Lemma xmap_fuel {A B} (f : A -> B) x : x <> XFuel -> xmap f x <> XFuel.
Proof. intros H. apply xbind_fuel; [exact H|]. discriminate. Qed.
Lemma skip_fuel evs : forall open, skip open evs <> XFuel.
Proof.
  induction evs as [|e evs IH]; intros [|o open]; cbn [skip]; try discriminate.
  destruct e; try discriminate; try apply IH.
  destruct (String.eqb n o); [|discriminate]. destruct open; [discriminate|apply IH].
Qed.
Lemma closing_fuel {A} n (a : A) evs : closing n a evs <> XFuel.
Proof. destruct evs as [|[] evs]; cbn; try discriminate. destruct (String.eqb n0 n); discriminate. Qed.

Section LOOP_FUEL.
  Context {S : Type}.
  Variable p : policy.
  Variable arm : string -> option (attrs -> list event -> xres (S -> option S)).
  Variable chars : option (string -> S -> S).
  Variable n : string.
  Hypothesis Hfor : forall m r ats evs, arm m = Some r -> forward evs (r ats evs).
  Variable k : nat.
  Hypothesis Harm : forall m r ats evs, arm m = Some r -> List.length evs < k -> r ats evs <> XFuel.
  Lemma loop_fuel fuel : forall evs st, List.length evs < fuel -> List.length evs <= k ->
    loop p arm chars n fuel evs st <> XFuel.
  Proof.
    induction fuel as [|fuel IH]; intros evs st L L'; [lia|].
    cbn [loop]. destruct evs as [|e evs]; [destruct p; discriminate|]. cbn [List.length] in L, L'.
    destruct e; try discriminate; try (destruct p; try discriminate; apply IH; lia).
    - destruct (arm n0) as [r|] eqn:Er.
      + apply xbind_fuel; [eapply Harm; [exact Er|lia]|]. intros u rest Eu.
        destruct (u st); [|discriminate].
        destruct (Hfor _ _ ats evs Er _ _ Eu) as (e1 & pre & Ee).
        assert (List.length rest < List.length evs) by (rewrite Ee; cbn; rewrite app_length; lia).
        apply IH; lia.
      + destruct p; try discriminate; [|apply IH; lia].
        apply xbind_fuel; [apply skip_fuel|]. intros [] rest Es.
        destruct (skip_forward evs [n0] rest ltac:(discriminate) Es) as (e1 & pre & Ee).
        assert (List.length rest < List.length evs) by (rewrite Ee; cbn; rewrite app_length; lia).
        apply IH; lia.
    - destruct (String.eqb n0 n); [discriminate|]. destruct p; try discriminate. apply IH; lia.
    - destruct chars; [apply IH; lia|]. destruct p; try discriminate. apply IH; lia.
  Qed.
  Variable odd : list event -> xres (S -> S).
  Hypothesis Hodd : forall evs, forward evs (odd evs).
  Hypothesis Hof : forall evs, List.length evs <= k -> odd evs <> XFuel.
  Lemma odd_fuel fuel : forall evs st, List.length evs < fuel -> List.length evs <= k ->
    odd_loop arm n odd fuel evs st <> XFuel.
  Proof.
    induction fuel as [|fuel IH]; intros evs st L L'; [lia|].
    cbn [odd_loop].
    assert (K : xbind (odd (tl evs)) (fun u rest' => odd_loop arm n odd fuel rest' (u st)) <> XFuel).
    { apply xbind_fuel; [apply Hof; destruct evs; cbn in *; lia|]. intros u rest Eu.
      destruct (Hodd _ _ _ Eu) as (e1 & pre & Ee).
      assert (List.length rest < List.length evs).
      { destruct evs as [|e evs]; [discriminate Ee|]. cbn in Ee |- *. rewrite Ee. cbn. rewrite app_length. lia. }
      apply IH; lia. }
    destruct evs as [|e evs]; [exact K|]. cbn [List.length tl] in *.
    destruct e; try discriminate; try exact K.
    - destruct (arm n0) as [r|] eqn:Er; [|exact K].
      apply xbind_fuel; [eapply Harm; [exact Er|lia]|]. intros u rest Eu.
      destruct (u st); [|discriminate].
      destruct (Hfor _ _ ats evs Er _ _ Eu) as (e1 & pre & Ee).
      assert (List.length rest < List.length evs) by (rewrite Ee; cbn; rewrite app_length; lia).
      apply IH; lia.
    - destruct (String.eqb n0 n); [discriminate|exact K].
  Qed.
End LOOP_FUEL.

Lemma arm_forward {S} (sh : shape S) : forall m r ats evs, run_arm sh m = Some r -> forward evs (r ats evs).
Proof.
  induction sh; intros m r ats evs; cbn [run_arm]; try discriminate.
  - destruct (String.eqb m tag); [|discriminate]. intros [= <-]. apply forward_xmap, run_forward.
  - destruct (run_arm sh1 m) eqn:Ea.
    + intros [= <-]. eapply IHsh1; exact Ea.
    + apply IHsh2.
  - destruct (run_arm sh1 m) eqn:Ea.
    + intros [= <-]. apply forward_xmap. eapply IHsh1; exact Ea.
    + destruct (run_arm sh2 m) eqn:Eb; [|discriminate].
      intros [= <-]. apply forward_xmap. eapply IHsh2; exact Eb.
Qed.

Theorem fine_fuel {A} (d : desc A) : forall o k p n ats evs,
  fine w d o k p -> List.length evs < k -> run d n ats evs <> XFuel.
Proof.
  induction d using desc_mut with
    (P0 := fun S sh => forall o k p, sfine w sh o k p ->
       forall m r ats evs, run_arm sh m = Some r -> List.length evs < k -> r ats evs <> XFuel);
    cbn [fine sfine].
  - intros o k q n ats evs _ _. destruct p; cbn [run run_prim]; try apply closing_fuel;
      unfold read_simple_tag, read_optional_tag, read_text; destruct evs as [|[] evs]; try discriminate;
      try apply closing_fuel.
    destruct (String.eqb n0 n); discriminate.
  - intros o k p n ats evs H L. cbn [run]. apply xbind_fuel; [now apply (IHd o k p)|].
    intros a rest _. destruct (f n ats a); discriminate.
  - intros o k q n ats evs H L. cbn [run].
    assert (K : exists o', sfine w sh o' (Nat.pred k) q) by (destruct p; [destruct H; eauto|eauto|destruct H as (_ & _ & H & _); eauto]).
    destruct K as (o' & K).
    apply (loop_fuel p _ _ _ (arm_forward sh) (Nat.pred k)); try lia.
    intros m r a e Er Le. eapply IHd; [exact K|exact Er|exact Le].
  - intros o k p n ats evs (_ & _ & _ & _ & H1 & H2) L. cbn [run].
    apply (odd_fuel _ _ (arm_forward sh) (Nat.pred k)); try lia.
    + intros m r a e Er Le. eapply IHd; [exact H1|exact Er|exact Le].
    + intros es. apply forward_xmap, run_forward.
    + intros es Le. apply xmap_fuel. apply (IHd0 o k p); [exact H2|lia].
  - intros o k p n ats evs -> L. lia.
  - discriminate.
  - intros o k p (_ & H) m r ats evs. cbn [run_arm]. destruct (String.eqb m tag); [|discriminate].
    intros [= <-] L. apply xmap_fuel. now apply (IHd o k (tag :: p)).
  - discriminate.
  - intros o k p (H1 & H2) m r ats evs. cbn [run_arm]. destruct (run_arm a m) eqn:Ea.
    + intros [= <-]. eapply IHd; eassumption.
    + intros E. eapply IHd0; eassumption.
  - intros o k p (H1 & H2) m r ats evs. cbn [run_arm]. destruct (run_arm a m) eqn:Ea.
    + intros [= <-] L. apply xmap_fuel. eapply IHd; eassumption.
    + destruct (run_arm b m) eqn:Eb; [|discriminate].
      intros [= <-] L. apply xmap_fuel. eapply IHd0; eassumption.
Qed.

(** *** Parts of well-formed documents *)
Definition suffix (evs : list event) : Prop := exists pre l, flats l = pre ++ evs.
Lemma suffix_app pre evs : suffix (pre ++ evs) -> suffix evs.
Proof. intros (q & l & E). exists (q ++ pre), l. now rewrite <- app_assoc. Qed.
Lemma suffix_cons e evs : suffix (e :: evs) -> suffix evs.
Proof. apply (suffix_app [e]). Qed.
Lemma suffix_flats l : suffix (flats l).
Proof. now exists [], l. Qed.
Lemma suffix_forward {A} evs (x : xres A) a rest : forward evs x -> x = XOk a rest -> suffix evs -> suffix rest.
Proof. intros H E. destruct (forward_weak _ _ _ _ H E) as (pre & ->). apply suffix_app. Qed.

(** a start tag has its end tag *)
Definition has_end (evs : list event) : Prop := forall pre m ats es,
  evs = pre ++ EStart m ats :: es -> exists ks rest, es = flats ks ++ EEnd m :: rest.
Lemma has_end_app a b : has_end a -> has_end b -> has_end (a ++ b).
Proof.
  intros Ha Hb pre m ats es E. apply app_eq_app in E. destruct E as (l & [[-> E]|[-> E]]).
  - destruct l as [|e l]; cbn in E.
    + subst b. now apply (Hb [] m ats es).
    + injection E as <- ->. destruct (Ha pre m ats l eq_refl) as (ks & rest & ->).
      exists ks, (rest ++ b). now rewrite <- app_assoc.
  - now apply (Hb l m ats es).
Qed.
Lemma has_end_flat x : has_end (flat x).
Proof.
  induction x as [n ats ks IH|s|s|] using xml_ind'.
  - assert (K : has_end (flats ks)).
    { induction IH as [|y l Hy Hl IHl].
      - intros pre m a es E. destruct pre; discriminate.
      - rewrite flats_cons. now apply has_end_app. }
    intros pre m a es E. destruct pre as [|e pre]; cbn in E.
    + injection E as -> -> <-. exists ks, []. reflexivity.
    + injection E as _ E. change (flat_map flat ks) with (flats ks) in E.
      apply app_eq_app in E. destruct E as (l & [[E1 E]|[E1 E]]).
      * destruct l as [|e1 l]; cbn in E; [discriminate|]. injection E as <- ->.
        destruct (K pre m a l E1) as (ks' & rest & ->). exists ks', (rest ++ [EEnd n]). now rewrite <- app_assoc.
      * destruct l as [|e1 [|e2 l]]; discriminate.
  - intros [|? [|]] m a es E; discriminate.
  - intros [|? [|]] m a es E; discriminate.
  - intros [|? [|]] m a es E; discriminate.
Qed.
Lemma has_end_flats l : has_end (flats l).
Proof.
  induction l as [|y l IH].
  - intros pre m a es E. destruct pre; discriminate.
  - rewrite flats_cons. apply has_end_app; [apply has_end_flat|exact IH].
Qed.
Lemma suffix_start m ats evs : suffix (EStart m ats :: evs) ->
  exists ks rest, evs = flats ks ++ EEnd m :: rest /\ suffix rest.
Proof.
  intros H. destruct H as (pre & l & E).
  destruct (has_end_flats l pre m ats evs E) as (ks & rest & ->). exists ks, rest. split; [reflexivity|].
  exists (pre ++ EStart m ats :: flats ks ++ [EEnd m]), l. rewrite E.
  rewrite <- !app_assoc. cbn. now rewrite <- app_assoc.
Qed.

(** *** A reader without the loop of signatures stays inside its element *)
Definition inside {A} (evs T : list event) (x : xres A) : Prop :=
  x <> XHang /\
  forall a rest, x = XOk a rest -> exists pre rest', evs = pre ++ rest' /\ rest = rest' ++ T.

Lemma inside_xbind {A B} evs T (x : xres A) (f : A -> list event -> xres B) :
  inside evs T x ->
  (forall a pre rest, x = XOk a (rest ++ T) -> evs = pre ++ rest -> inside rest T (f a (rest ++ T))) ->
  inside evs T (xbind x f).
Proof.
  intros (H & H') K. destruct x as [a rest| | |]; cbn; try (split; [congruence|discriminate]).
  destruct (H' a rest eq_refl) as (pre & rest' & -> & ->).
  destruct (K a pre rest' eq_refl eq_refl) as (K1 & K2). split; [exact K1|].
  intros b rest2 E. destruct (K2 b rest2 E) as (pre2 & rest3 & -> & ->).
  exists (pre ++ pre2), rest3. now rewrite <- app_assoc.
Qed.
Lemma inside_xmap {A B} (f : A -> B) evs T x : inside evs T x -> inside evs T (xmap f x).
Proof.
  intros H. apply inside_xbind; [exact H|]. intros a pre rest _ _. split; [discriminate|].
  intros b r [= _ <-]. now exists [], rest.
Qed.
Lemma inside_stop {A} evs T (a : A) : inside evs T (XOk a T).
Proof. split; [discriminate|]. intros b rest [= _ <-]. exists evs, []. now rewrite app_nil_r. Qed.
Lemma inside_err {A} evs T : inside evs T (XErr : xres A).
Proof. split; discriminate. Qed.
Lemma inside_fuel {A} evs T : inside evs T (XFuel : xres A).
Proof. split; discriminate. Qed.
Lemma inside_more {A} pre evs T (x : xres A) : inside evs T x -> inside (pre ++ evs) T x.
Proof.
  intros (H & K). split; [exact H|]. intros a rest E. destruct (K a rest E) as (q & r & -> & ->).
  exists (pre ++ q), r. now rewrite <- app_assoc.
Qed.
Lemma inside_cons {A} e evs T (x : xres A) : inside evs T x -> inside (e :: evs) T x.
Proof. apply (inside_more [e]). Qed.

Section LOOP_INSIDE.
  Context {S : Type}.
  Variable p : policy.
  Variable arm : string -> option (attrs -> list event -> xres (S -> option S)).
  Variable chars : option (string -> S -> S).
  Variable n : string.
  Hypothesis Harm : forall m r ats ks T, arm m = Some r ->
    inside (flats ks ++ [EEnd m]) T (r ats (flats ks ++ EEnd m :: T)).
  Variable T : list event.
  Lemma loop_inside fuel : forall s st, suffix s ->
    inside (s ++ [EEnd n]) T (loop p arm chars n fuel (s ++ EEnd n :: T) st).
  Proof.
    induction fuel as [|fuel IH]; intros s st Hs; [apply inside_fuel|].
    destruct s as [|e s]; cbn [app loop].
    - rewrite String.eqb_refl. apply inside_stop.
    - pose proof (suffix_cons _ _ Hs) as Hs'.
      assert (K : forall st, inside (e :: s ++ [EEnd n]) T (loop p arm chars n fuel (s ++ EEnd n :: T) st)).
      { intros st'. apply inside_cons, IH, Hs'. }
      destruct e; try apply inside_err; try (destruct p; solve [apply inside_err|apply K]).
      + destruct (suffix_start _ _ _ Hs) as (ks & rest & -> & Hr).
        rewrite <- !app_assoc. cbn [app].
        replace (EStart n0 ats :: flats ks ++ EEnd n0 :: rest ++ [EEnd n])
          with ((EStart n0 ats :: flats ks ++ [EEnd n0]) ++ rest ++ [EEnd n])
          by (cbn; now rewrite <- app_assoc).
        destruct (arm n0) as [r|] eqn:Er.
        * pose proof (Harm n0 r ats ks (rest ++ EEnd n :: T) Er) as (Hh & Ho).
          destruct (r ats (flats ks ++ EEnd n0 :: rest ++ EEnd n :: T)) as [u rr| | |]; cbn;
            try apply inside_err; try apply inside_fuel; try congruence.
          destruct (Ho u rr eq_refl) as (pre & r' & Ek & ->).
          destruct (u st) as [st'|]; [|apply inside_err].
          replace (r' ++ rest ++ EEnd n :: T) with ((r' ++ rest) ++ EEnd n :: T) by now rewrite <- app_assoc.
          replace (EStart n0 ats :: (flats ks ++ [EEnd n0]) ++ rest ++ [EEnd n])
            with ((EStart n0 ats :: pre) ++ (r' ++ rest) ++ [EEnd n])
            by (rewrite Ek; cbn; now rewrite <- !app_assoc).
          apply inside_more, IH.
          apply (suffix_app (EStart n0 ats :: pre)). cbn. rewrite app_assoc, <- Ek, <- app_assoc. exact Hs.
        * destruct p eqn:Ep.
          -- apply inside_err.
          -- rewrite skip_elem. cbn [xbind]. apply inside_more, IH, Hr.
          -- specialize (K st). rewrite <- !app_assoc in K. cbn [app] in K |- *. rewrite <- !app_assoc. exact K.
      + destruct (String.eqb n0 n).
        * split; [discriminate|]. intros a rr [= _ <-]. exists [EEnd n0], (s ++ [EEnd n]).
          split; [reflexivity|]. now rewrite <- app_assoc.
        * destruct p; [apply inside_err..|apply K].
      + destruct chars; [apply K|]. destruct p; [apply inside_err..|apply K].
  Qed.
End LOOP_INSIDE.

Theorem fine_inside {A} (d : desc A) : forall k p, fine w d false k p -> forall n ats ks T,
  inside (flats ks ++ [EEnd n]) T (run d n ats (flats ks ++ EEnd n :: T)).
Proof.
  induction d using desc_mut with
    (P0 := fun S sh => forall k p, sfine w sh false k p ->
       forall m r ats ks T, run_arm sh m = Some r -> inside (flats ks ++ [EEnd m]) T (r ats (flats ks ++ EEnd m :: T)));
    cbn [fine sfine].
  - intros k q _ n ats ks T. cbn [run].
    pose proof (prim_law p n ks T) as H. destruct (tr_prim p ks) eqn:E; cbn [agree] in H.
    + rewrite H. apply inside_stop.
    + rewrite H. apply inside_err.
    + destruct p, ks as [|[] [|]]; discriminate E.
  - intros k p H n ats ks T. cbn [run]. apply inside_xbind; [now apply (IHd k p)|].
    intros a pre rest _ _. destruct (f n ats a); [|apply inside_err].
    split; [discriminate|]. intros b0 r [= _ <-]. now exists [], rest.
  - intros k q H n ats ks T. cbn [run].
    assert (K : sfine w sh false (Nat.pred k) q) by (destruct p; intuition).
    apply loop_inside; [|apply suffix_flats]. eapply IHd, K.
  - intros k p (H & _). discriminate.
  - intros k p _ n ats ks T. apply inside_fuel.
  - discriminate.
  - intros k p (_ & H) m r ats ks T. cbn [run_arm]. destruct (String.eqb m tag); [|discriminate].
    intros [= <-]. apply inside_xmap. now apply (IHd k (tag :: p)).
  - discriminate.
  - intros k p (H1 & H2) m r ats ks T. cbn [run_arm]. destruct (run_arm a m) eqn:Ea.
    + intros [= <-]. eapply IHd; eassumption.
    + intros E. eapply IHd0; eassumption.
  - intros k p (H1 & H2) m r ats ks T0. cbn [run_arm]. destruct (run_arm a m) eqn:Ea.
    + intros [= <-]. apply inside_xmap. eapply IHd; eassumption.
    + destruct (run_arm b m) eqn:Eb; [|discriminate].
      intros [= <-]. apply inside_xmap. eapply IHd0; eassumption.
Qed.

(** *** Readers return *)
Fixpoint looks_through {A} (d : desc A) : bool :=
  match d with
  | DMap _ d => looks_through d
  | DLoop Open _ => true
  | _ => false
  end.
Lemma looks_through_fine {A} (d : desc A) : forall o k p, fine w d o k p ->
  mem (name_of p) open_names = false -> looks_through d = false.
Proof.
  induction d; cbn [fine looks_through]; intros o k q H N; try reflexivity.
  - eapply IHd; eassumption.
  - destruct p; try reflexivity. destruct H as (_ & H & _). congruence.
Qed.

Lemma xbind_hang {A B} (x : xres A) (f : A -> list event -> xres B) :
  x <> XHang -> (forall a rest, x = XOk a rest -> f a rest <> XHang) -> xbind x f <> XHang.
Proof. intros H K. destruct x; cbn; auto; discriminate. Qed.
Lemma xmap_hang {A B} (f : A -> B) x : x <> XHang -> xmap f x <> XHang.
Proof. intros H. apply xbind_hang; [exact H|]. discriminate. Qed.
Lemma skip_hang evs : forall open, skip open evs <> XHang.
Proof.
  induction evs as [|e evs IH]; intros [|o open]; cbn [skip]; try discriminate.
  destruct e; try discriminate; try apply IH.
  destruct (String.eqb n o); [|discriminate]. destruct open; [discriminate|apply IH].
Qed.
Lemma closing_hang {A} n (a : A) evs : closing n a evs <> XHang.
Proof. destruct evs as [|[] evs]; cbn; try discriminate. destruct (String.eqb n0 n); discriminate. Qed.
Lemma prim_hang {A} (p : prim A) n evs : run_prim p n evs <> XHang.
Proof.
  destruct p; cbn [run_prim]; try apply closing_hang;
    unfold read_simple_tag, read_optional_tag, read_text; destruct evs as [|[] evs]; try discriminate;
    try apply closing_hang.
  destruct (String.eqb n0 n); discriminate.
Qed.

Section LOOP_HANG.
  Context {S : Type}.
  Variable p : policy.
  Variable arm : string -> option (attrs -> list event -> xres (S -> option S)).
  Variable chars : option (string -> S -> S).
  Variable n : string.
  Hypothesis Hfor : forall m r ats evs, arm m = Some r -> forward evs (r ats evs).
  Hypothesis Harm : forall m r ats ks T, arm m = Some r -> suffix (flats ks ++ EEnd m :: T) ->
    r ats (flats ks ++ EEnd m :: T) <> XHang.
  Lemma loop_hang fuel : p <> Open -> forall evs st, suffix evs -> loop p arm chars n fuel evs st <> XHang.
  Proof.
    intros Hp. induction fuel as [|fuel IH]; intros evs st Hs; [discriminate|].
    cbn [loop]. destruct evs as [|e evs]; [destruct p; [discriminate..|congruence]|].
    pose proof (suffix_cons _ _ Hs) as Hs'.
    destruct e; try discriminate; try (destruct p; try discriminate; congruence).
    - destruct (arm n0) as [r|] eqn:Er.
      + destruct (suffix_start _ _ _ Hs) as (ks & rest & -> & Hr).
        apply xbind_hang; [now apply (Harm n0)|]. intros u rr Eu. destruct (u st); [|discriminate].
        apply IH. eapply suffix_forward; [eapply Hfor; exact Er|exact Eu|exact Hs'].
      + destruct p; try discriminate; [|congruence].
        apply xbind_hang; [apply skip_hang|]. intros [] rr Es. apply IH.
        destruct (skip_forward evs [n0] rr ltac:(discriminate) Es) as (e1 & pre & ->).
        apply (suffix_app (e1 :: pre)). exact Hs'.
    - destruct (String.eqb n0 n); [discriminate|]. destruct p; [discriminate..|congruence].
    - destruct chars; [now apply IH|]. destruct p; [discriminate..|congruence].
  Qed.
  Variable odd : list event -> xres (S -> S).
  Hypothesis Hodd : forall evs, forward evs (odd evs).
  Hypothesis Hoh : forall evs, suffix evs -> odd evs <> XHang.
  Lemma odd_hang fuel : forall evs st, suffix evs -> odd_loop arm n odd fuel evs st <> XHang.
  Proof.
    induction fuel as [|fuel IH]; intros evs st Hs; [discriminate|].
    cbn [odd_loop].
    assert (Ht : suffix (tl evs)) by (destruct evs; [exact Hs|eapply suffix_cons; exact Hs]).
    assert (K : xbind (odd (tl evs)) (fun u rest' => odd_loop arm n odd fuel rest' (u st)) <> XHang).
    { apply xbind_hang; [now apply Hoh|]. intros u rest Eu. apply IH.
      eapply suffix_forward; [apply Hodd|exact Eu|exact Ht]. }
    destruct evs as [|e evs]; [exact K|]. cbn [tl] in *.
    destruct e; try discriminate; try exact K.
    - destruct (arm n0) as [r|] eqn:Er; [|exact K].
      destruct (suffix_start _ _ _ Hs) as (ks & rest & -> & Hr).
      apply xbind_hang; [now apply (Harm n0)|]. intros u rr Eu. destruct (u st); [|discriminate].
      apply IH. eapply suffix_forward; [eapply Hfor; exact Er|exact Eu|exact Ht].
    - destruct (String.eqb n0 n); [discriminate|exact K].
  Qed.
End LOOP_HANG.

Theorem fine_returns {A} (d : desc A) : forall o k p, fine w d o k p -> forall n ats evs, suffix evs ->
  looks_through d = false \/ (exists ks T, evs = flats ks ++ EEnd n :: T) -> run d n ats evs <> XHang.
Proof.
  induction d using desc_mut with
    (P0 := fun S sh => forall o k p, sfine w sh o k p ->
       forall m r ats ks T, run_arm sh m = Some r -> suffix (flats ks ++ EEnd m :: T) ->
         r ats (flats ks ++ EEnd m :: T) <> XHang).
  - intros o k q _ n ats evs _ _. apply prim_hang.
  - intros o k p H n ats evs Hs Hl. cbn [run]. apply xbind_hang; [now apply (IHd o k p)|].
    intros a rest _. destruct (f n ats a); discriminate.
  - intros o k q H n ats evs Hs Hl. destruct p.
    + cbn [run fine] in *. apply loop_hang; [apply arm_forward|eapply IHd; apply H|discriminate|exact Hs].
    + cbn [run fine] in *. apply loop_hang; [apply arm_forward|eapply IHd; apply H|discriminate|exact Hs].
    + destruct Hl as [Hl|(ks & T & ->)]; [discriminate|].
      apply (fine_inside (DLoop Open sh) k q). cbn [fine] in *. exact H.
  - intros o k p (_ & _ & N & _ & H1 & H2) n ats evs Hs Hl. cbn [run].
    apply odd_hang; [apply arm_forward|eapply IHd; apply H1| |  |exact Hs].
    + intros es. apply forward_xmap, run_forward.
    + intros es He. apply xmap_hang. apply (IHd0 o k p); [exact H2|exact He|left].
      eapply looks_through_fine; [exact H2|]. rewrite N. reflexivity.
  - discriminate.
  - discriminate.
  - cbn [sfine]. intros o k p (_ & H) m r ats ks T. cbn [run_arm]. destruct (String.eqb m tag); [|discriminate].
    intros [= <-] Hs. apply xmap_hang. apply (IHd o k (tag :: p)); eauto.
  - discriminate.
  - cbn [sfine]. intros o k p (H1 & H2) m r ats ks T. cbn [run_arm]. destruct (run_arm a m) eqn:Ea.
    + intros [= <-]. eapply IHd; eassumption.
    + intros E. eapply IHd0; eassumption.
  - cbn [sfine]. intros o k p (H1 & H2) m r ats ks T0. cbn [run_arm]. destruct (run_arm a m) eqn:Ea.
    + intros [= <-] Hs. apply xmap_hang. eapply IHd; eassumption.
    + destruct (run_arm b m) eqn:Eb; [|discriminate].
      intros [= <-] Hs. apply xmap_hang. eapply IHd0; eassumption.
Qed.

(** *** Errors of xml-rs are never passed over *)
Definition halts {A} (x : xres A) : Prop := x <> XHang /\ forall a rest, x = XOk a rest -> In EBad rest.
Lemma halts_xbind {A B} (x : xres A) (f : A -> list event -> xres B) :
  halts x -> (forall a rest, In EBad rest -> halts (f a rest)) -> halts (xbind x f).
Proof.
  intros (H & H') K. destruct x as [a rest| | |]; cbn; try (split; [congruence|discriminate]).
  apply K. eapply H'. reflexivity.
Qed.
Lemma halts_xmap {A B} (f : A -> B) x : halts x -> halts (xmap f x).
Proof. intros H. apply halts_xbind; [exact H|]. intros a rest Hr. split; [discriminate|]. now intros b r [= _ <-]. Qed.
Lemma halts_err {A} : halts (XErr : xres A).
Proof. split; discriminate. Qed.
Lemma halts_ok {A} (a : A) rest : In EBad rest -> halts (XOk a rest).
Proof. intros H. split; [discriminate|]. now intros b r [= _ <-]. Qed.
Lemma closing_halts {A} n (a : A) evs : In EBad evs -> halts (closing n a evs).
Proof.
  intros H. destruct evs as [|[] evs]; cbn; try apply halts_err.
  destruct (String.eqb n0 n); [|apply halts_err]. apply halts_ok. destruct H as [H|H]; [discriminate|exact H].
Qed.
Lemma skip_halts evs : forall open, In EBad evs -> halts (skip open evs).
Proof.
  induction evs as [|e evs IH]; intros [|o open] H; cbn [skip]; try contradiction; try (now apply halts_ok).
  destruct e; try apply halts_err; try (apply IH; destruct H as [H|H]; [discriminate|exact H]).
  destruct H as [H|H]; [discriminate|].
  destruct (String.eqb n o); [|apply halts_err]. destruct open; [now apply halts_ok|now apply IH].
Qed.
Section LOOP_HALTS.
  Context {S : Type}.
  Variable p : policy.
  Variable arm : string -> option (attrs -> list event -> xres (S -> option S)).
  Variable chars : option (string -> S -> S).
  Variable n : string.
  Hypothesis Harm : forall m r ats evs, arm m = Some r -> In EBad evs -> halts (r ats evs).
  Lemma loop_halts fuel : forall evs st, In EBad evs -> halts (loop p arm chars n fuel evs st).
  Proof.
    induction fuel as [|fuel IH]; intros evs st H; [split; discriminate|].
    cbn [loop]. destruct evs as [|e evs]; [contradiction|].
    destruct e; try apply halts_err; (destruct H as [H|H]; [discriminate|]);
      try (destruct p; solve [apply halts_err|now apply IH]).
    - destruct (arm n0) as [r|] eqn:Er.
      + apply halts_xbind; [eapply Harm; eassumption|]. intros u rest Hr. destruct (u st); [now apply IH|apply halts_err].
      + destruct p; [apply halts_err| |now apply IH].
        apply halts_xbind; [now apply skip_halts|]. intros [] rest Hr. now apply IH.
    - destruct (String.eqb n0 n); [now apply halts_ok|]. destruct p; [apply halts_err..|now apply IH].
    - destruct chars; [now apply IH|]. destruct p; [apply halts_err..|now apply IH].
  Qed.
  Variable odd : list event -> xres (S -> S).
  Hypothesis Hoh : forall evs, In EBad evs -> halts (odd evs).
  Lemma odd_halts fuel : forall evs st, In EBad evs -> halts (odd_loop arm n odd fuel evs st).
  Proof.
    induction fuel as [|fuel IH]; intros evs st H; [split; discriminate|].
    cbn [odd_loop]. destruct evs as [|e evs]; [contradiction|]. cbn [tl].
    destruct e; try apply halts_err; (destruct H as [H|H]; [discriminate|]);
      assert (K : halts (xbind (odd evs) (fun u rest' => odd_loop arm n odd fuel rest' (u st))))
        by (apply halts_xbind; [now apply Hoh|]; intros u rest Hr; now apply IH);
      try exact K.
    - destruct (arm n0) as [r|] eqn:Er; [|exact K].
      apply halts_xbind; [eapply Harm; eassumption|]. intros u rest Hr. destruct (u st); [now apply IH|apply halts_err].
    - destruct (String.eqb n0 n); [now apply halts_ok|exact K].
  Qed.
End LOOP_HALTS.
Theorem run_halts {A} (d : desc A) : forall n ats evs, In EBad evs -> halts (run d n ats evs).
Proof.
  induction d using desc_mut with
    (P0 := fun S sh => forall m r ats evs, run_arm sh m = Some r -> In EBad evs -> halts (r ats evs)).
  - intros n ats evs H. destruct p; cbn [run run_prim]; try now apply closing_halts.
    all: unfold read_simple_tag, read_optional_tag, read_text; destruct evs as [|[] evs]; try apply halts_err;
      (destruct H as [H|H]; [discriminate|]); try now apply closing_halts.
    + now apply halts_ok.
    + destruct (String.eqb n0 n); [now apply halts_ok|apply halts_err].
  - intros n ats evs H. cbn [run]. apply halts_xbind; [now apply IHd|].
    intros a rest Hr. destruct (f n ats a); [now apply halts_ok|apply halts_err].
  - intros n ats evs H. cbn [run]. now apply loop_halts.
  - intros n ats evs H. cbn [run]. apply odd_halts; [exact IHd| |exact H]. intros es He. now apply halts_xmap, IHd0.
  - intros n ats evs H. split; discriminate.
  - discriminate.
  - intros m r ats evs. cbn [run_arm]. destruct (String.eqb m tag); [|discriminate].
    intros [= <-] H. now apply halts_xmap, IHd.
  - discriminate.
  - intros m r ats evs. cbn [run_arm]. destruct (run_arm a m) eqn:Ea.
    + intros [= <-]. eapply IHd; exact Ea.
    + apply IHd0.
  - intros m r ats evs. cbn [run_arm]. destruct (run_arm a m) eqn:Ea.
    + intros [= <-] H. apply halts_xmap. eapply IHd; eassumption.
    + destruct (run_arm b m) eqn:Eb; [|discriminate].
      intros [= <-] H. apply halts_xmap. eapply IHd0; eassumption.
Qed.

(** *** Tidy documents are read exactly *)
Lemma forallb_In {A} f (l : list A) x : forallb f l = true -> In x l -> f x = true.
Proof. intros H. now apply forallb_forall. Qed.

Section ABSORB_KNOWN.
  Context {S : Type}.
  Variable p : policy.
  Variable arm : string -> option (attrs -> list xml -> tres (S -> option S)).
  Variable chars : option (string -> S -> S).
  Variable n : string.
  Variable k : nat.
  Hypothesis Harm : forall m r ats ks, arm m = Some r -> tidy (Elem m ats ks) = true ->
    height (Elem m ats ks) <= k -> r ats ks <> TUnk.
  Lemma tbind_known {A B} (t : tres A) (f : A -> tres B) : t <> TUnk -> (forall a, f a <> TUnk) -> tbind t f <> TUnk.
  Proof. intros H K. destruct t; cbn; auto; discriminate. Qed.
  Lemma absorb1_known x : tidy x = true -> height x <= k -> (p = Open -> absent n x = true) ->
    forall st, absorb1 p arm chars n x st <> TUnk.
  Proof.
    induction x as [m ats ks IH|s|s|] using xml_ind'; intros Ht Hh Ha st; cbn [absorb1].
    - destruct (arm m) as [r|] eqn:Er.
      + apply tbind_known; [now apply (Harm m r ats ks)|]. intros u. destruct (u st); discriminate.
      + destruct p eqn:Ep; try discriminate. specialize (Ha eq_refl). cbn [absent] in Ha.
        apply andb_prop in Ha. destruct Ha as (Hm & Hk).
        apply negb_true_iff in Hm. rewrite Hm.
        assert (Ht' : forallb tidy ks = true).
        { cbn [tidy] in Ht. apply andb_prop in Ht. apply Ht. }
        assert (Hh' : forall y, In y ks -> height y <= k).
        { intros y Hy. pose proof (height_in m ats ks y Hy). lia. }
        clear Ht Hh Hm Er. revert st. induction IH as [|y l Hy Hl IHl]; intros st; [discriminate|].
        cbn [forallb] in Hk, Ht'. apply andb_prop in Hk, Ht'. destruct Hk, Ht'.
        apply tbind_known.
        * apply Hy; [assumption| |intros _; assumption]. apply Hh'. now left.
        * intros a. apply IHl; try assumption. intros z Hz. apply Hh'. now right.
    - destruct chars; [discriminate|]. destruct p; discriminate.
    - destruct p; discriminate.
    - destruct p; discriminate.
  Qed.
  Lemma absorb_known l : forallb tidy l = true -> (forall y, In y l -> height y <= k) ->
    (p = Open -> forallb (absent n) l = true) -> forall st, absorb p arm chars n l st <> TUnk.
  Proof.
    induction l as [|y l IH]; intros Ht Hh Ha st; cbn [absorb]; [discriminate|].
    cbn [forallb] in Ht. apply andb_prop in Ht. destruct Ht.
    assert (Ha' : p = Open -> absent n y = true /\ forallb (absent n) l = true).
    { intros E. specialize (Ha E). cbn [forallb] in Ha. now apply andb_prop in Ha. }
    apply tbind_known.
    - apply absorb1_known; [assumption|apply Hh; now left|]. intros E. now apply Ha'.
    - intros a. apply IH; [assumption|intros z Hz; apply Hh; now right|]. intros E. now apply Ha'.
  Qed.
  Lemma odd_known l : (forall m, mem m signature_names = true -> arm m <> None) ->
    forallb is_signature_part l = true -> forallb tidy l = true -> (forall y, In y l -> height y <= k) ->
    forall st, odd_absorb arm l st <> TUnk.
  Proof.
    intros Hn. induction l as [|y l IH]; intros Hp Ht Hh st; cbn [odd_absorb]; [discriminate|].
    cbn [forallb] in Hp, Ht. apply andb_prop in Hp, Ht. destruct Hp as (Hp & Hp'), Ht as (Ht & Ht').
    destruct y as [m ats ks|s|s|]; try discriminate. cbn [is_signature_part] in Hp.
    destruct (arm m) as [r|] eqn:Er; [|now destruct (Hn m Hp)].
    apply tbind_known.
    - apply (Harm m); [exact Er|exact Ht|]. apply Hh. now left.
    - intros u. destruct (u st) as [st'|]; cbn; [|discriminate].
      apply IH; try assumption. intros z Hz. apply Hh. now right.
  Qed.
End ABSORB_KNOWN.

Theorem fine_known {A} (d : desc A) : forall o k p, fine w d o k p -> forall ats ks,
  tidy (Elem (name_of p) ats ks) = true -> height (Elem (name_of p) ats ks) <= k ->
  tr d (name_of p) ats ks <> TUnk.
Proof.
  induction d using desc_mut with
    (P0 := fun S sh => forall o k p, sfine w sh o k p ->
       forall m r ats ks, tr_arm sh m = Some r -> tidy (Elem m ats ks) = true -> height (Elem m ats ks) <= k ->
         r ats ks <> TUnk).
  - intros o k q _ ats ks _ _. cbn [tr]. destruct p, ks as [|[] [|]]; discriminate.
  - intros o k p H ats ks Ht Hh. cbn [tr]. apply tbind_known; [now apply (IHd o k p)|].
    intros a. destruct (f (name_of p) ats a); discriminate.
  - intros o k q H ats ks Ht Hh. cbn [tr].
    assert (K : exists o', sfine w sh o' (Nat.pred k) q)
      by (cbn [fine] in H; destruct p; [destruct H; eauto|eauto|destruct H as (_ & _ & H & _); eauto]).
    destruct K as (o' & K).
    cbn [tidy] in Ht. apply andb_prop in Ht. destruct Ht as (Ht & Ht'). apply andb_prop in Ht. destruct Ht as (Ho & _).
    apply absorb_known with (k := Nat.pred k).
    + eapply IHd, K.
    + exact Ht'.
    + intros y Hy. pose proof (height_in (name_of q) ats ks y Hy). lia.
    + intros ->. destruct H as (_ & H & _). now rewrite H in Ho.
  - intros o k p (_ & _ & N & Hn & H1 & H2) ats ks Ht Hh. cbn [tr].
    cbn [tidy] in Ht. apply andb_prop in Ht. destruct Ht as (Ht & Ht'). apply andb_prop in Ht. destruct Ht as (_ & Hs).
    rewrite N in Hs. cbn in Hs.
    apply odd_known with (k := Nat.pred k); try assumption.
    + eapply IHd, H1.
    + intros y Hy. pose proof (height_in (name_of p) ats ks y Hy). lia.
  - intros o k p -> ats ks _ Hh. cbn [height] in Hh. lia.
  - discriminate.
  - cbn [sfine]. intros o k p (_ & H) m r ats ks. cbn [tr_arm]. destruct (String.eqb_spec m tag) as [->|]; [|discriminate].
    intros [= <-] Ht Hh. apply tbind_known; [|discriminate]. now apply (IHd o k (tag :: p)).
  - discriminate.
  - cbn [sfine]. intros o k p (H1 & H2) m r ats ks. cbn [tr_arm]. destruct (tr_arm a m) eqn:Ea.
    + intros [= <-]. eapply IHd; eassumption.
    + intros E. eapply IHd0; eassumption.
  - cbn [sfine]. intros o k p (H1 & H2) m r ats ks. cbn [tr_arm]. destruct (tr_arm a m) eqn:Ea.
    + intros [= <-] Ht Hh. apply tbind_known; [|discriminate]. eapply IHd; eassumption.
    + destruct (tr_arm b m) eqn:Eb; [|discriminate].
      intros [= <-] Ht Hh. apply tbind_known; [|discriminate]. eapply IHd0; eassumption.
Qed.

(** *** Foreign elements *)
Lemma unknown_arm {S} (sh : shape S) : forall o k p m, sfine w sh o k p -> mem m known_names = false -> tr_arm sh m = None.
Proof.
  induction sh; intros o k p m H N; cbn [tr_arm sfine] in *; try reflexivity.
  - destruct H as (H & _). destruct (String.eqb_spec m tag) as [->|]; [congruence|reflexivity].
  - destruct H as (H1 & H2). rewrite (IHsh1 _ _ _ _ H1 N). now apply (IHsh2 o k p).
  - destruct H as (H1 & H2). rewrite (IHsh1 _ _ _ _ H1 N). now rewrite (IHsh2 _ _ _ _ H2 N).
Qed.
Lemma prim_elem {A} (p : prim A) m ats ks a b : tr_prim p (a ++ Elem m ats ks :: b) = TErr.
Proof. destruct p, a as [|[] [|]]; try reflexivity; destruct b; reflexivity. Qed.
Lemma absorb_ext {S} p arm chars n x y a b (st : S) :
  (forall st, absorb1 p arm chars n x st = absorb1 p arm chars n y st) ->
  absorb p arm chars n (a ++ x :: b) st = absorb p arm chars n (a ++ y :: b) st.
Proof.
  intros H. rewrite !absorb_app. destruct (absorb p arm chars n a st); cbn; [|reflexivity..]. now rewrite H.
Qed.

Lemma not_passed_signature m p : passed_at w (m :: "signature" :: p) <> true.
Proof.
  intros H. apply existsb_exists in H. destruct H as (r & Hr & H). destruct w;
  repeat (destruct Hr as [<-|Hr]; [cbn [starts] in H; rewrite andb_false_r in H; discriminate|]); contradiction.
Qed.

Theorem fine_grown {A} (d : desc A) v : version_leb V1_5 v = w -> forall o k p, fine w d o k p -> forall ats ks ks', grown v p ks ks' ->
  height (Elem (name_of p) ats ks) <= k ->
  tr d (name_of p) ats ks' = tr d (name_of p) ats ks.
Proof.
  intros Ew. induction d using desc_mut with
    (P0 := fun S sh => forall o k p, sfine w sh o k p ->
       forall m r ats ks ks', tr_arm sh m = Some r -> grown v (m :: p) ks ks' ->
         height (Elem m ats ks) <= k -> r ats ks' = r ats ks).
  - intros o k q H ats ks ks' G _. cbn [tr fine] in *. destruct G; [congruence|]. now rewrite !prim_elem.
  - intros o k p H ats ks ks' G Hh. cbn [tr]. now rewrite (IHd o k p H ats ks ks' G Hh).
  - intros o k q H ats ks ks' G Hh. cbn [tr].
    assert (K : exists o', sfine w sh o' (Nat.pred k) q)
      by (cbn [fine] in H; destruct p; [destruct H; eauto|eauto|destruct H as (_ & _ & H & _); eauto]).
    destruct K as (o' & K).
    destruct G as [q a x b L F|n q a m ats' l l' b No G].
    + destruct p; [cbn [fine] in H; destruct H; congruence| |cbn [fine] in H; destruct H; congruence].
      rewrite !absorb_app. destruct (absorb Lax (tr_arm sh) (on_chars sh) (name_of q) a (init sh)); cbn; try reflexivity.
      destruct x as [m ats' ks| | |]; try contradiction. cbn [absorb absorb1].
      now rewrite (unknown_arm sh _ _ _ m K F).
    + apply absorb_ext. intros st. cbn [absorb1].
      destruct (tr_arm sh m) as [r|] eqn:Er.
      * rewrite (IHd _ _ _ K m r ats' l l' Er G); [reflexivity|].
        assert (Hy : In (Elem m ats' l) (a ++ Elem m ats' l :: b)) by (apply in_or_app; right; now left).
        pose proof (height_in (name_of (n :: q)) ats _ _ Hy). lia.
      * destruct p; try reflexivity. cbn [fine] in H. destruct H as (_ & H & _ & H'). cbn [name_of hd] in H.
        unfold reached in No. rewrite H, Ew in No. cbn [negb andb orb] in No. now destruct (H' m No).
  - intros o k p (_ & L & N & _) ats ks ks' G Hh. destruct G as [q a x b L' F|n q a m ats' l l' b No G]; [congruence|].
    cbn [name_of hd] in N. subst n. exfalso. revert No. unfold reached. cbn [mem existsb String.eqb Ascii.eqb Bool.eqb negb andb orb].
    rewrite andb_false_r. cbn [orb]. rewrite Ew. apply not_passed_signature.
  - reflexivity.
  - discriminate.
  - cbn [sfine]. intros o k p (_ & H) m r ats ks ks'. cbn [tr_arm]. destruct (String.eqb_spec m tag) as [->|]; [|discriminate].
    intros [= <-] G Hh. pose proof (IHd o k (tag :: p) H ats ks ks' G Hh) as E. cbn [name_of hd] in E. now rewrite E.
  - discriminate.
  - cbn [sfine]. intros o k p (H1 & H2) m r ats ks ks'. cbn [tr_arm]. destruct (tr_arm a m) eqn:Ea.
    + intros [= <-]. eapply IHd; eassumption.
    + intros E. eapply IHd0; eassumption.
  - cbn [sfine]. intros o k p (H1 & H2) m r ats ks ks'. cbn [tr_arm]. destruct (tr_arm a m) eqn:Ea.
    + intros [= <-] G Hh. erewrite IHd; [reflexivity|eassumption..].
    + destruct (tr_arm b m) eqn:Eb; [|discriminate].
      intros [= <-] G Hh. erewrite IHd0; [reflexivity|eassumption..].
Qed.

(** *** Readers inside fine readers are fine *)
Lemma arms_fine {S} (sh : shape S) : forall o k p tag B (d : desc B),
  sfine w sh o k p -> In (tag, existT desc B d) (arms sh) -> fine w d o k (tag :: p).
Proof.
  induction sh as [|A0 S0 t d0| | |]; intros o k p tag B d' H K; cbn [arms sfine] in *; try contradiction.
  - destruct K as [K|[]]. pose proof (f_equal fst K) as E1. pose proof (f_equal snd K) as E2.
    cbn [fst snd] in E1, E2. subst t. destruct H as (_ & H).
    change ((fun x : {B : Type & desc B} => fine w (projT2 x) o k (tag :: p)) (existT desc B d')).
    rewrite <- E2. exact H.
  - apply in_app_or in K. destruct H, K; eauto.
  - apply in_app_or in K. destruct H, K; eauto.
Qed.
Lemma arms_of_fine {A} (d : desc A) : forall o k p tag B (d' : desc B),
  fine w d o k p -> In (tag, existT desc B d') (arms_of d) ->
  exists o', (o = false -> o' = false) /\ fine w d' o' (Nat.pred k) (tag :: p).
Proof.
  induction d; intros o k q tag B' d' H K; cbn [arms_of fine] in *; try contradiction.
  - eapply IHd; eassumption.
  - destruct p.
    + exists o. split; [auto|]. eapply arms_fine; [apply H|exact K].
    + exists o. split; [auto|]. eapply arms_fine; [apply H|exact K].
    + exists false. split; [auto|]. eapply arms_fine; [apply H|exact K].
  - exists o. split; [auto|]. eapply arms_fine; [apply H|exact K].
Qed.
Lemma reader_at_fine {R} (root : desc R) n o N A p (d : desc A) :
  (forall k, k <= N -> fine w root o k [n]) -> reader_at root n A p d ->
  exists o', (o = false -> o' = false) /\ forall k, k + List.length p <= S N -> fine w d o' k p.
Proof.
  intros H K. induction K as [|A p d tag B d' K IH Hin].
  - exists o. split; [auto|]. intros k L. apply H. cbn in L. lia.
  - destruct IH as (o1 & E1 & H1).
    assert (G : forall k, k + List.length (tag :: p) <= S N -> exists o2, (o1 = false -> o2 = false) /\ fine w d' o2 k (tag :: p)).
    { intros k L. change k with (Nat.pred (S k)). eapply arms_of_fine; [apply H1; cbn in L; lia|exact Hin]. }
    destruct o1.
    + exists true. split; [intros ->; now apply E1|]. intros k L. destruct (G k L) as ([] & _ & G'); [exact G'|].
      now apply fine_odd.
    + exists false. split; [auto|]. intros k L. destruct (G k L) as (o2 & E2 & G'). now rewrite (E2 eq_refl) in G'.
Qed.
Lemma reader_at_name {R} (root : desc R) n A p (d : desc A) : reader_at root n A p d -> exists q r, p = q :: r.
Proof. intros H. destruct H; eauto. Qed.
End FINE.

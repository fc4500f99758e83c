(** What readers of XML return: a property that holds of every result, from properties of the events. *)
From Verif Require Import Base ModelTypes Strings Json Xml XmlLemmas XmlModel XmlGeneral.
Open Scope string_scope.
Open Scope list_scope.
Open Scope nat_scope.

Section YIELD.
  Variable E : event -> Prop.

  (** every result of the reader for an element [tag] has the property *)
  Definition yields {A} (tag : string) (d : desc A) (P : A -> Prop) : Prop :=
    forall ats evs a rest, E (EStart tag ats) -> Forall E evs -> run d tag ats evs = XOk a rest -> P a.
  (** every state of the loop has the property *)
  Definition keeps {S} (sh : shape S) (P : S -> Prop) : Prop :=
    P (init sh)
    /\ (forall u s st, on_chars sh = Some u -> E (EChars s) -> P st -> P (u s st))
    /\ (forall m r ats evs u rest st st', run_arm sh m = Some r -> E (EStart m ats) -> Forall E evs ->
          r ats evs = XOk u rest -> P st -> u st = Some st' -> P st').

  Lemma rest_events {A} evs (x : xres A) a rest : forward evs x -> x = XOk a rest -> Forall E evs -> Forall E rest.
  Proof. intros H X L. destruct (forward_weak evs x a rest H X) as (pre & ->). now apply Forall_app in L. Qed.

  Lemma loop_keeps {S} p (sh : shape S) P n : keeps sh P -> forall fuel evs st a rest,
    Forall E evs -> P st -> loop p (run_arm sh) (on_chars sh) n fuel evs st = XOk a rest -> P a.
  Proof.
    intros (Hi & Hc & Ha). induction fuel as [|fuel IH]; intros evs st a rest L Hs R; [discriminate|].
    cbn [loop] in R. destruct evs as [|e evs]; [destruct p; discriminate|].
    inversion L as [|? ? He Le]; subst. destruct e as [m ats|m|s|s| |]; try discriminate R.
    - destruct (run_arm sh m) as [r|] eqn:Ea.
      + destruct (r ats evs) as [u rest'| | |] eqn:Er; try discriminate R. cbn [xbind] in R.
        destruct (u st) as [st'|] eqn:Eu; [|discriminate R].
        refine (IH rest' st' a rest _ _ R); [|exact (Ha m r ats evs u rest' st st' Ea He Le Er Hs Eu)].
        exact (rest_events evs (r ats evs) u rest' (arm_forward sh m r ats evs Ea) Er Le).
      + destruct p; [discriminate R| |exact (IH evs st a rest Le Hs R)].
        destruct (skip [m] evs) as [[] rest'| | |] eqn:Es; try discriminate R. cbn [xbind] in R.
        refine (IH rest' st a rest _ Hs R).
        destruct (skip_forward evs [m] rest') as (e & pre & ->); [discriminate|exact Es|].
        now apply (Forall_app E (e :: pre) rest') in Le.
    - destruct (String.eqb m n); [now injection R as <- <-|]. destruct p; try discriminate R. exact (IH evs st a rest Le Hs R).
    - destruct (on_chars sh) as [u|] eqn:Eu.
      + exact (IH evs (u s st) a rest Le (Hc u s st eq_refl He Hs) R).
      + destruct p; try discriminate R. exact (IH evs st a rest Le Hs R).
    - destruct p; try discriminate R; exact (IH evs st a rest Le Hs R).
    - destruct p; try discriminate R; exact (IH evs st a rest Le Hs R).
  Qed.

  Lemma yields_loop {S} tag p (sh : shape S) P : keeps sh P -> yields tag (DLoop p sh) P.
  Proof. intros H ats evs a rest _ L R. cbn [run] in R. eapply loop_keeps; [exact H|exact L|exact (proj1 H)|exact R]. Qed.
  Lemma yields_map {A B} tag (f : string -> attrs -> A -> option B) d (P : A -> Prop) (Q : B -> Prop) :
    yields tag d P -> (forall ats a b, E (EStart tag ats) -> P a -> f tag ats a = Some b -> Q b) -> yields tag (DMap f d) Q.
  Proof.
    intros H K ats evs b rest He L R. cbn [run] in R. destruct (run d tag ats evs) as [a rest'| | |] eqn:X; try discriminate R.
    cbn [xbind] in R. destruct (f tag ats a) as [b'|] eqn:F; [|discriminate R]. injection R as <- <-.
    exact (K ats a b' He (H ats evs a rest' He L X) F).
  Qed.
  Lemma yields_struct {S A} tag p (sh : shape S) (fin : attrs -> S -> option A) (P : S -> Prop) (Q : A -> Prop) :
    keeps sh P -> (forall ats st b, E (EStart tag ats) -> P st -> fin ats st = Some b -> Q b) -> yields tag (struct p sh fin) Q.
  Proof. intros H K. apply (yields_map tag _ _ P); [now apply yields_loop|]. exact K. Qed.
  Lemma yields_true {A} tag (d : desc A) : yields tag d (fun _ => True).
  Proof. intros ? ? ? ? ? ? ?. exact Logic.I. Qed.
  Lemma yields_fuel {A} tag P : yields tag (@DFuel A) P.
  Proof. intros ? ? ? ? _ _ R. discriminate R. Qed.
  Lemma yields_weaken {A} tag (d : desc A) (P Q : A -> Prop) : (forall a, P a -> Q a) -> yields tag d P -> yields tag d Q.
  Proof. intros H K ats evs a rest He L R. apply H. exact (K ats evs a rest He L R). Qed.

  Lemma keep_true {S} (sh : shape S) : keeps sh (fun _ => True).
  Proof. repeat split. Qed.
  Lemma keep_on {A S} tag (d : desc A) (i : S) upd (P : S -> Prop) (Q : A -> Prop) :
    yields tag d Q -> P i -> (forall a st st', Q a -> P st -> upd a st = Some st' -> P st') -> keeps (SOn tag d i upd) P.
  Proof.
    intros Y I U. split; [exact I|]. split; [discriminate|].
    intros m r ats evs u rest st st' R He L X Hs Hu. cbn [run_arm] in R.
    destruct (String.eqb_spec m tag) as [->|]; [|discriminate R]. injection R as <-.
    destruct (run d tag ats evs) as [a rest'| | |] eqn:Y'; try discriminate X. cbn in X. injection X as <- <-.
    exact (U a st st' (Y ats evs a rest' He L Y') Hs Hu).
  Qed.
  Lemma keep_pair {S T} (a : shape S) (b : shape T) (P : S -> Prop) (Q : T -> Prop) :
    keeps a P -> keeps b Q -> keeps (SPair a b) (fun st => P (fst st) /\ Q (snd st)).
  Proof.
    intros (Pi & Pc & Pa) (Qi & Qc & Qa). split; [now split|]. split.
    - intros u s [x y] Hu He [Hx Hy]. cbn [on_chars fst snd] in *. destruct (on_chars a) as [ua|] eqn:Ea.
      + injection Hu as <-. cbn. split; [now apply Pc|exact Hy].
      + destruct (on_chars b) as [ub|] eqn:Eb; [|discriminate]. injection Hu as <-. cbn. split; [exact Hx|now apply Qc].
    - intros m r ats evs u rest [x y] st' R He L X [Hx Hy] Hu. cbn [run_arm fst snd] in *.
      destruct (run_arm a m) as [ra|] eqn:Ea.
      + injection R as <-. destruct (ra ats evs) as [ua rest'| | |] eqn:Xa; try discriminate X. cbn in X. injection X as <- <-.
        unfold on_fst in Hu. cbn [fst snd] in Hu. destruct (ua x) as [x'|] eqn:Ux; [|discriminate]. cbn in Hu. injection Hu as <-. cbn.
        split; [exact (Pa m ra ats evs ua rest' x x' Ea He L Xa Hx Ux)|exact Hy].
      + destruct (run_arm b m) as [rb|] eqn:Eb; [|discriminate]. injection R as <-.
        destruct (rb ats evs) as [ub rest'| | |] eqn:Xb; try discriminate X. cbn in X. injection X as <- <-.
        unfold on_snd in Hu. cbn [fst snd] in Hu. destruct (ub y) as [y'|] eqn:Uy; [|discriminate]. cbn in Hu. injection Hu as <-. cbn.
        split; [exact Hx|exact (Qa m rb ats evs ub rest' y y' Eb He L Xb Hy Uy)].
  Qed.
  Lemma keep_or {S} (a b : shape S) P : keeps a P -> keeps b P -> keeps (SOr a b) P.
  Proof.
    intros (Pi & Pc & Pa) (Qi & Qc & Qa). split; [exact Pi|]. split.
    - intros u s st Hu. cbn [on_chars] in Hu. destruct (on_chars a) as [ua|] eqn:Ea; [injection Hu as <-; now apply Pc|now apply Qc].
    - intros m r ats evs u rest st st' R. cbn [run_arm] in R. destruct (run_arm a m) as [ra|] eqn:Ea; [injection R as <-|]; eauto.
  Qed.
  Lemma keep_from {S} c (sh : shape S) P : keeps sh P -> keeps (from c sh) P.
  Proof. intros H. destruct c; [exact H|]. split; [exact (proj1 H)|]. split; [discriminate|]. intros m r ats evs u rest st st' R. discriminate R. Qed.
  Lemma keep_gated {S} c (sh : shape S) P : (c = true -> keeps sh P) -> P (init sh) -> keeps (from c sh) P.
  Proof.
    intros H I. destruct c; [exact (H eq_refl)|]. split; [exact I|]. split; [discriminate|].
    intros m r ats evs u rest st st' R. discriminate R.
  Qed.

End YIELD.

(** ** Values [k] accepts *)
Definition ok {A B} (k : A -> option B) (a : A) : Prop := exists b, k a = Some b.
Definition ok_item {A B} (k : A -> option B) (o : option A) : Prop := forall a, o = Some a -> ok k a.

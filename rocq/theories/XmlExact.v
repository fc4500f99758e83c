(** Readers that are fine except that they may stop early at an element of their own name: where such a reader
    stops early, an end tag is left over that no reader around it, unless it looks through unknown elements itself, can
    take, so a document that is read was read exactly.  This needs no tidy document. *)
From Coq Require Import ZArith.
From Verif Require Import Base ModelTypes Strings Enums GenModel Json JsonLemmas JsonModel
  Xml XmlLemmas XmlModel XmlSpec2 XmlSpec3 XmlGeneral XmlFine.
Open Scope string_scope.
Open Scope list_scope.
Open Scope nat_scope.
Open Scope shape_scope.

(** ** Start tags less end tags *)
Definition weight (e : event) : Z := match e with EStart _ _ => 1 | EEnd _ => -1 | _ => 0 end%Z.
Definition bal (l : list event) : Z := fold_right (fun e z => (weight e + z)%Z) 0%Z l.
Lemma bal_cons e l : bal (e :: l) = (weight e + bal l)%Z.
Proof. reflexivity. Qed.
Lemma bal_app a b : bal (a ++ b) = (bal a + bal b)%Z.
Proof. induction a as [|e a IH]; [reflexivity|]. cbn [app]. rewrite !bal_cons, IH. lia. Qed.
Lemma bal_flat x : bal (flat x) = 0%Z.
Proof.
  induction x as [n ats ks IH|s|s|] using xml_ind'; try reflexivity.
  rewrite <- (app_nil_r (flat _)), flat_elem, bal_cons, bal_app, bal_cons.
  assert (K : bal (flats ks) = 0%Z).
  { induction IH as [|y l Hy Hl IHl]; [reflexivity|]. rewrite flats_cons, bal_app, Hy, IHl. reflexivity. }
  rewrite K. reflexivity.
Qed.
Lemma bal_flats l : bal (flats l) = 0%Z.
Proof. induction l as [|x l IH]; [reflexivity|]. rewrite flats_cons, bal_app, bal_flat, IH. reflexivity. Qed.

(** a beginning of well-formed content has no more end tags than start tags *)
Definition upright (l : list event) : Prop := forall a b, l = a ++ b -> (0 <= bal a)%Z.
Lemma upright_app l l' : upright l -> bal l = 0%Z -> upright l' -> upright (l ++ l').
Proof.
  intros H B H' a b E. apply app_eq_app in E. destruct E as (m & [[-> E]|[-> E]]).
  - now apply (H a m).
  - rewrite bal_app, B. specialize (H' m b E). lia.
Qed.
Lemma upright_nil : upright [].
Proof. intros a b E. symmetry in E. apply app_eq_nil in E as (-> & _). cbn. lia. Qed.
Lemma upright_flat x : upright (flat x).
Proof.
  induction x as [n ats ks IH|s|s|] using xml_ind'.
  - assert (K : upright (flats ks)).
    { induction IH as [|y l Hy Hl IHl]; [apply upright_nil|].
      rewrite flats_cons. apply upright_app; [exact Hy|apply bal_flat|exact IHl]. }
    intros a b E. destruct a as [|e a]; [cbn; lia|].
    cbn [flat app] in E. injection E as <- E. change (flat_map flat ks) with (flats ks) in E.
    rewrite bal_cons. cbn [weight]. apply app_eq_app in E. destruct E as (m & [[E1 E]|[E1 E]]).
    + pose proof (K a m E1). lia.
    + subst a. rewrite bal_app, bal_flats. destruct m as [|e [|e2 m]]; [cbn; lia| |discriminate E].
      injection E as <- _. cbn. lia.
  - intros [|e [|e2 a]] b E; try discriminate E; [cbn; lia|injection E as <- _; cbn; lia].
  - intros [|e [|e2 a]] b E; try discriminate E; [cbn; lia|injection E as <- _; cbn; lia].
  - intros [|e [|e2 a]] b E; try discriminate E; [cbn; lia|injection E as <- _; cbn; lia].
Qed.
Lemma upright_flats l : upright (flats l).
Proof.
  induction l as [|x l IH]; [apply upright_nil|].
  rewrite flats_cons. apply upright_app; [apply upright_flat|apply bal_flat|exact IH].
Qed.
(** the beginnings of what is left of an element *)
Lemma bal_part ks m a b : flats ks ++ [EEnd m] = a ++ b -> (-1 <= bal a)%Z /\ (b <> [] -> 0 <= bal a)%Z.
Proof.
  intros E. apply app_eq_app in E. destruct E as (l & [[E1 E]|[E1 E]]).
  - pose proof (upright_flats ks a l E1). split; intros; lia.
  - subst a. rewrite bal_app, bal_flats. destruct l as [|e [|e2 l]]; [|injection E as <- <-|discriminate];
      cbn; split; intros; try lia. congruence.
Qed.

(** *** The class of readers *)
Fixpoint snug (ok : xml -> bool) {A} (d : desc A) (n : string) {struct d} : Prop :=
  match d with
  | DPrim _ => True
  | DMap _ d => snug ok d n
  | DLoop Open sh => all_known sh
  | DLoop _ sh => ssnug ok sh
  | DOdd sh d u => forall ats ks, ok (Elem n ats ks) = true -> odd_absorb (tr_arm sh) ks (init sh) <> TUnk
  | DFuel => True
  end
with ssnug (ok : xml -> bool) {S} (sh : shape S) {struct sh} : Prop :=
  match sh with
  | SNone _ | SChars _ _ => True
  | SOn tag d _ _ => snug ok d tag
  | SOr a b => ssnug ok a /\ ssnug ok b
  | SPair a b => ssnug ok a /\ ssnug ok b
  end.

(** ** Parts of documents in which every element satisfies a condition *)
Section OK.
Variable ok : xml -> bool.
Hypothesis Hok : forall n ats ks, ok (Elem n ats ks) = true -> forallb ok ks = true.

Definition osuffix (evs : list event) : Prop := exists pre l, flats l = pre ++ evs /\ forallb ok l = true.
Lemma osuffix_app pre evs : osuffix (pre ++ evs) -> osuffix evs.
Proof. intros (q & l & E & H). exists (q ++ pre), l. split; [now rewrite <- app_assoc|exact H]. Qed.
Lemma osuffix_cons e evs : osuffix (e :: evs) -> osuffix evs.
Proof. apply (osuffix_app [e]). Qed.
Lemma osuffix_flats l : forallb ok l = true -> osuffix (flats l).
Proof. intros H. now exists [], l. Qed.

Definition ends (evs : list event) : Prop := forall pre m ats es,
  evs = pre ++ EStart m ats :: es -> exists ks rest, es = flats ks ++ EEnd m :: rest /\ ok (Elem m ats ks) = true.
Lemma ends_app a b : ends a -> ends b -> ends (a ++ b).
Proof.
  intros Ha Hb pre m ats es E. apply app_eq_app in E. destruct E as (l & [[-> E]|[-> E]]).
  - destruct l as [|e l]; cbn in E.
    + subst b. now apply (Hb [] m ats es).
    + injection E as <- ->. destruct (Ha pre m ats l eq_refl) as (ks & rest & -> & O).
      exists ks, (rest ++ b). split; [now rewrite <- app_assoc|exact O].
  - now apply (Hb l m ats es).
Qed.
Lemma ends_flat x : ok x = true -> ends (flat x).
Proof.
  induction x as [n ats ks IH|s|s|] using xml_ind'; intros O.
  - assert (K : ends (flats ks)).
    { apply Hok in O. induction IH as [|y l Hy Hl IHl].
      - intros pre m a es E. destruct pre; discriminate.
      - cbn [forallb] in O. apply andb_prop in O as (O1 & O2).
        rewrite flats_cons. apply ends_app; [now apply Hy|now apply IHl]. }
    intros pre m a es E. destruct pre as [|e pre]; cbn in E.
    + injection E as -> -> <-. now exists ks, [].
    + injection E as _ E. change (flat_map flat ks) with (flats ks) in E.
      apply app_eq_app in E. destruct E as (l & [[E1 E]|[E1 E]]).
      * destruct l as [|e1 l]; cbn in E; [discriminate|]. injection E as <- ->.
        destruct (K pre m a l E1) as (ks' & rest & -> & O'). exists ks', (rest ++ [EEnd n]).
        split; [now rewrite <- app_assoc|exact O'].
      * destruct l as [|e1 [|e2 l]]; discriminate.
  - intros [|? [|]] m a es E; discriminate.
  - intros [|? [|]] m a es E; discriminate.
  - intros [|? [|]] m a es E; discriminate.
Qed.
Lemma ends_flats l : forallb ok l = true -> ends (flats l).
Proof.
  induction l as [|y l IH]; intros O.
  - intros pre m a es E. destruct pre; discriminate.
  - cbn [forallb] in O. apply andb_prop in O as (O1 & O2).
    rewrite flats_cons. apply ends_app; [now apply ends_flat|now apply IH].
Qed.
Lemma osuffix_start m ats evs : osuffix (EStart m ats :: evs) ->
  exists ks rest, evs = flats ks ++ EEnd m :: rest /\ ok (Elem m ats ks) = true /\ osuffix rest.
Proof.
  intros H. pose proof H as (pre & l & E & O).
  destruct (ends_flats l O pre m ats evs E) as (ks & rest & -> & K). exists ks, rest. repeat split; [exact K|].
  apply (osuffix_app (EStart m ats :: flats ks ++ [EEnd m])). cbn. rewrite <- app_assoc. exact H.
Qed.

(** ** Readers that read exactly if they read all of their element *)
Definition exact_if {A} (m : string) (ks : list xml) (T : list event) (x : xres A) (t : tres A) : Prop :=
  forall a rest, x = XOk a rest ->
  exists read unread, flats ks ++ [EEnd m] = read ++ unread /\ rest = unread ++ T /\ (unread = [] -> t = TOk a).

Lemma exact_known {A} m ks T (x : xres A) t : agree t x T -> t <> TUnk -> exact_if m ks T x t.
Proof.
  intros H U a rest E. destruct t as [b| |]; cbn [agree] in H; try congruence.
  rewrite H in E. injection E as <- <-. exists (flats ks ++ [EEnd m]), []. split; [now rewrite app_nil_r|]. now split.
Qed.
Lemma exact_xmap {A B} (f : A -> B) m ks T x t : exact_if m ks T x t -> exact_if m ks T (xmap f x) (tmap f t).
Proof.
  intros H b rest E. unfold xmap in E. destruct x as [a r| | |]; try discriminate. cbn in E. injection E as <- <-.
  destruct (H a r eq_refl) as (read & unread & E1 & E2 & K). exists read, unread. repeat split; try assumption.
  intros U. rewrite (K U). reflexivity.
Qed.

Section CLOSED.
  Context {S : Type}.
  Variable p : policy.
  Hypothesis Hp : p <> Open.
  Variable tarm : string -> option (attrs -> list xml -> tres (S -> option S)).
  Variable arm : string -> option (attrs -> list event -> xres (S -> option S)).
  Variable chars : option (string -> S -> S).
  Variable n : string.
  Hypothesis Harm : forall m,
    match tarm m, arm m with
    | None, None => True
    | Some r, Some q => forall ats ks T, ok (Elem m ats ks) = true ->
        exact_if m ks T (q ats (flats ks ++ EEnd m :: T)) (r ats ks)
    | _, _ => False
    end.
  Variable T : list event.
  (* what is read has at most one end tag more than start tags *)
  Lemma closed_part fuel : forall s st a rest, osuffix s ->
    loop p arm chars n fuel (s ++ EEnd n :: T) st = XOk a rest ->
    exists read unread, s ++ [EEnd n] = read ++ unread /\ rest = unread ++ T /\ (-1 <= bal read)%Z.
  Proof.
    induction fuel as [|fuel IH]; intros s st a rest Hs E; [discriminate|].
    destruct s as [|e s]; cbn [app loop] in E.
    - rewrite String.eqb_refl in E. injection E as _ <-. exists [EEnd n], []. cbn. repeat split. lia.
    - pose proof (osuffix_cons _ _ Hs) as Hs'. destruct e; try discriminate; try (destruct p; congruence).
      + destruct (osuffix_start _ _ _ Hs) as (ks & rest0 & -> & O & Hr).
        rewrite <- !app_assoc in E. cbn [app] in E. specialize (Harm n0).
        destruct (tarm n0) as [t|], (arm n0) as [r|]; try contradiction.
        * destruct (r ats (flats ks ++ EEnd n0 :: rest0 ++ EEnd n :: T)) as [u rr| | |] eqn:Eu; try discriminate. cbn in E.
          destruct (u st) as [st'|]; [|discriminate].
          destruct (Harm ats ks _ O u rr Eu) as (read & unread & E1 & -> & _).
          rewrite app_assoc in E. apply IH in E.
          -- destruct E as (read' & unread' & E2 & -> & B).
             exists (EStart n0 ats :: read ++ read'), unread'. repeat split.
             ++ cbn [app]. f_equal. rewrite <- (app_assoc read read' unread'), <- E2, (app_assoc read), (app_assoc read), <- E1.
                rewrite <- !app_assoc. reflexivity.
             ++ rewrite bal_cons, bal_app. cbn [weight]. pose proof (proj1 (bal_part ks n0 read unread E1)). lia.
          -- apply (osuffix_app (EStart n0 ats :: read)). cbn. rewrite app_assoc, <- E1, <- app_assoc. exact Hs.
        * destruct p eqn:Ep; [discriminate| |congruence].
          rewrite skip_elem in E. cbn [xbind] in E. apply IH in E; [|exact Hr].
          destruct E as (read' & unread' & E2 & -> & B).
          exists (EStart n0 ats :: flats ks ++ EEnd n0 :: read'), unread'. repeat split.
          -- cbn. rewrite <- !app_assoc. cbn. now rewrite E2.
          -- rewrite bal_cons, bal_app, bal_flats, bal_cons. cbn [weight]. lia.
      + destruct (String.eqb_spec n0 n) as [->|N].
        * injection E as _ <-. exists [EEnd n], (s ++ [EEnd n]). cbn. repeat split; [|lia]. now rewrite <- app_assoc.
        * destruct p; congruence.
      + destruct chars as [u|].
        * apply IH in E; [|exact Hs']. destruct E as (read' & unread' & E2 & -> & B).
          exists (EChars s0 :: read'), unread'. cbn [app]. repeat split; [now rewrite E2|exact B].
        * destruct p; congruence.
  Qed.
  (* if all is read, every child was read exactly *)
  Lemma closed_all ks : forall fuel st a, forallb ok ks = true ->
    loop p arm chars n fuel (flats ks ++ EEnd n :: T) st = XOk a T -> absorb p tarm chars n ks st = TOk a.
  Proof.
    induction ks as [|x l IH]; intros fuel st a O E; (destruct fuel as [|fuel]; [discriminate|]).
    - cbn in E. rewrite String.eqb_refl in E. injection E as <-. reflexivity.
    - cbn [forallb] in O. apply andb_prop in O as (O1 & O2).
      rewrite flats_cons, <- app_assoc in E. cbn [absorb].
      destruct x as [m ats ks|s|s|]; cbn [absorb1].
      + rewrite flat_elem in E. cbn [loop] in E. pose proof (Harm m) as Hm.
        destruct (tarm m) as [t|] eqn:Et, (arm m) as [r|] eqn:Er; try contradiction.
        * destruct (r ats (flats ks ++ EEnd m :: flats l ++ EEnd n :: T)) as [u rr| | |] eqn:Eu; try discriminate. cbn in E.
          destruct (u st) as [st'|] eqn:Es; [|discriminate].
          destruct (Hm ats ks _ O1 u rr Eu) as (read & unread & E1 & -> & K).
          destruct unread as [|e unread].
          -- rewrite (K eq_refl). cbn. rewrite Es. cbn. eapply IH; [exact O2|exact E].
          -- exfalso. rewrite app_assoc in E. apply closed_part in E.
             ++ destruct E as (read' & unread' & E2 & E3 & B).
                assert (unread' = []) as ->.
                { destruct unread'; [reflexivity|]. apply (f_equal (@List.length event)) in E3.
                  cbn in E3. rewrite app_length in E3. lia. }
                rewrite app_nil_r in E2. subst read'. rewrite !bal_app, bal_flats in B.
                assert (B1 : bal (flats ks ++ [EEnd m]) = (-1)%Z) by (rewrite bal_app, bal_flats; reflexivity).
                rewrite E1, bal_app in B1.
                pose proof (proj2 (bal_part ks m read (e :: unread) E1) ltac:(discriminate)).
                cbn [bal fold_right weight] in B. unfold bal in B1, B, H. cbn [fold_right] in B1, B. fold (bal unread) in *. lia.
             ++ apply (osuffix_app (EStart m ats :: read)). cbn [app]. change (e :: unread ++ flats l) with ((e :: unread) ++ flats l). rewrite app_assoc, <- E1, <- app_assoc. cbn.
                exists [], (Elem m ats ks :: l). rewrite flats_cons, flat_elem. split; [reflexivity|].
                cbn [forallb]. now rewrite O1, O2.
        * destruct p eqn:Ep; [discriminate| |congruence].
          rewrite skip_elem in E. cbn [xbind] in E. cbn. eapply IH; [exact O2|exact E].
      + cbn [flat app loop] in E. destruct chars as [u|].
        * cbn. eapply IH; [exact O2|exact E].
        * destruct p; congruence.
      + cbn [flat app loop] in E. destruct p; congruence.
      + cbn [flat app loop] in E. destruct p; congruence.
  Qed.
  Lemma closed_exact fuel ks st : forallb ok ks = true ->
    exact_if n ks T (loop p arm chars n fuel (flats ks ++ EEnd n :: T) st) (absorb p tarm chars n ks st).
  Proof.
    intros O a rest E. destruct (closed_part fuel _ _ _ _ (osuffix_flats ks O) E) as (read & unread & E1 & -> & _).
    exists read, unread. repeat split; [exact E1|]. intros ->. eapply closed_all; [exact O|exact E].
  Qed.
End CLOSED.

(** *** A reader that looks through unknown elements, with children that are always read exactly *)
Section OPEN.
  Context {S : Type}.
  Variable tarm : string -> option (attrs -> list xml -> tres (S -> option S)).
  Variable arm : string -> option (attrs -> list event -> xres (S -> option S)).
  Variable chars : option (string -> S -> S).
  Variable n : string.
  Hypothesis Harm : forall m,
    match tarm m, arm m with
    | None, None => True
    | Some r, Some q => forall ats ks rest, agree (r ats ks) (q ats (flats ks ++ EEnd m :: rest)) rest
    | _, _ => False
    end.
  Hypothesis Hknown : forall m r ats ks, tarm m = Some r -> r ats ks <> TUnk.
  Let lp := loop Open arm chars n.
  Let ab := absorb1 Open tarm chars n.
  (* it fails, it stops inside the element, or it goes on behind it having read it exactly *)
  Definition passes (t : tres S) (evs rest : list event) (fuel : nat) (st : S) : Prop :=
    lp fuel evs st = XErr \/ lp fuel evs st = XFuel \/
    (exists a u, lp fuel evs st = XOk a (u ++ rest)) \/
    (exists st' fuel', t = TOk st' /\ lp fuel evs st = lp fuel' rest st').
  Lemma open_passes x : forall st rest fuel, passes (ab x st) (flat x ++ rest) rest fuel st.
  Proof.
    unfold passes, ab, lp. induction x as [m ats ks IH|s|s|] using xml_ind'; intros st rest fuel;
      (destruct fuel as [|fuel]; [right; left; reflexivity|]).
    - rewrite flat_elem. cbn [absorb1 loop]. specialize (Harm m).
      destruct (tarm m) as [t|] eqn:Et, (arm m) as [r|] eqn:Er; try contradiction.
      + specialize (Harm ats ks rest). specialize (Hknown m t ats ks Et).
        destruct (t ats ks) as [u| |]; cbn [agree] in Harm; try congruence; rewrite Harm; cbn; [|now left].
        destruct (u st) as [st'|]; cbn; [|now left].
        right. right. right. now exists st', fuel.
      + assert (K : forall fuel st,
          loop Open arm chars n fuel (flats ks ++ EEnd m :: rest) st = XErr \/
          loop Open arm chars n fuel (flats ks ++ EEnd m :: rest) st = XFuel \/
          (exists a u, loop Open arm chars n fuel (flats ks ++ EEnd m :: rest) st = XOk a (u ++ rest)) \/
          (exists st' fuel', (if String.eqb m n then TUnk
                 else (fix go (l : list xml) (st : S) : tres S :=
                         match l with [] => TOk st | y :: l' => tbind (absorb1 Open tarm chars n y st) (go l') end) ks st)
                 = TOk st' /\
             loop Open arm chars n fuel (flats ks ++ EEnd m :: rest) st = loop Open arm chars n fuel' rest st')).
        { clear fuel st. induction IH as [|y l Hy Hl IHl]; intros fuel st.
          - destruct fuel as [|fuel]; [right; left; reflexivity|]. cbn. destruct (String.eqb m n).
            + right. right. left. now exists st, [].
            + right. right. right. now exists st, fuel.
          - rewrite flats_cons, <- app_assoc.
            destruct (Hy st (flats l ++ EEnd m :: rest) fuel) as [H|[H|[(a & u & H)|(st' & f' & H & H')]]].
            + now left.
            + now right; left.
            + right. right. left. exists a, (u ++ flats l ++ [EEnd m]). rewrite H. now rewrite <- !app_assoc.
            + rewrite H'. rewrite H. cbn [tbind]. apply IHl. }
        apply K.
    - cbn [absorb1 flat app loop]. destruct chars; right; right; right; eexists _, fuel; split; reflexivity.
    - cbn [absorb1 flat app loop]. right; right; right; exists st, fuel; split; reflexivity.
    - cbn [absorb1 flat app loop]. right; right; right; exists st, fuel; split; reflexivity.
  Qed.
  Lemma open_exact T ks : forall fuel st a rest,
    lp fuel (flats ks ++ EEnd n :: T) st = XOk a rest ->
    exists unread, rest = unread ++ T /\ (unread = [] -> absorb Open tarm chars n ks st = TOk a).
  Proof.
    induction ks as [|x l IH]; intros fuel st a rest E.
    - destruct fuel as [|fuel]; [discriminate|]. unfold lp in E. cbn in E. rewrite String.eqb_refl in E.
      injection E as <- <-. now exists [].
    - rewrite flats_cons, <- app_assoc in E. cbn [absorb].
      destruct (open_passes x st (flats l ++ EEnd n :: T) fuel) as [H|[H|[(b & u & H)|(st' & f' & H & H')]]].
      + congruence.
      + congruence.
      + rewrite H in E. injection E as <- <-. exists (u ++ flats l ++ [EEnd n]). split; [now rewrite <- !app_assoc|].
        intros K. destruct u; [|discriminate]. destruct (flats l); discriminate.
      + rewrite H' in E. unfold ab in H. rewrite H. cbn [tbind]. eapply IH, E.
  Qed.
End OPEN.

Lemma arm_law_all {S} (sh : shape S) : arm_law sh.
Proof.
  induction sh; intros m; cbn [tr_arm run_arm].
  - exact I.
  - destruct (String.eqb m tag); [|exact I]. intros ats ks rest. apply agree_xmap, run_tr.
  - exact I.
  - specialize (IHsh1 m). specialize (IHsh2 m).
    destruct (tr_arm sh1 m), (run_arm sh1 m); try contradiction; [exact IHsh1|exact IHsh2].
  - specialize (IHsh1 m). specialize (IHsh2 m).
    destruct (tr_arm sh1 m), (run_arm sh1 m); try contradiction.
    + intros ats ks rest. apply agree_xmap, IHsh1.
    + destruct (tr_arm sh2 m), (run_arm sh2 m); try contradiction; [|exact I].
      intros ats ks rest. apply agree_xmap, IHsh2.
Qed.

Theorem snug_exact {A} (d : desc A) : forall n ats ks T, snug ok d n -> ok (Elem n ats ks) = true ->
  exact_if n ks T (run d n ats (flats ks ++ EEnd n :: T)) (tr d n ats ks).
Proof.
  induction d using desc_mut with
    (P0 := fun S sh => ssnug ok sh -> forall m,
       match tr_arm sh m, run_arm sh m with
       | None, None => True
       | Some r, Some q => forall ats ks T, ok (Elem m ats ks) = true ->
           exact_if m ks T (q ats (flats ks ++ EEnd m :: T)) (r ats ks)
       | _, _ => False
       end); cbn [snug ssnug].
  - intros n ats ks T _ _. apply exact_known; [apply (run_tr (DPrim p))|apply known_prim].
  - intros n ats ks T H O b rest E. cbn [run tr] in *.
    destruct (run d n ats (flats ks ++ EEnd n :: T)) as [a r| | |] eqn:Ex; try discriminate. cbn in E.
    destruct (f n ats a) as [c|] eqn:Ef; [|discriminate]. injection E as <- <-.
    destruct (IHd n ats ks T H O a r Ex) as (read & unread & E1 & E2 & K). exists read, unread. repeat split; try assumption.
    intros U. rewrite (K U). cbn. now rewrite Ef.
  - intros n ats ks T H O. destruct p.
    + cbn [run tr]. apply closed_exact; [discriminate|apply IHd, H|eapply Hok, O].
    + cbn [run tr]. apply closed_exact; [discriminate|apply IHd, H|eapply Hok, O].
    + intros a rest E. cbn [run tr] in *.
      pose proof (open_exact (tr_arm sh) (run_arm sh) (on_chars sh) n (arm_law_all sh) H T ks _ _ _ _ E) as (unread & -> & K).
      pose proof (run_forward (DLoop Open sh) n ats (flats ks ++ EEnd n :: T)) as Fw. cbn [run] in Fw.
      destruct (Fw a _ E) as (e & pre & Ee).
      exists (e :: pre), unread. repeat split; [|exact K].
      apply (app_inv_tail T). rewrite <- !app_assoc. cbn [app]. exact Ee.
  - intros n ats ks T H O. apply exact_known; [apply (run_tr (DOdd sh d upd))|]. cbn [tr]. now apply (H ats).
  - intros n ats ks T _ _ a rest E. discriminate.
  - intros _ m. exact I.
  - intros H m. cbn [tr_arm run_arm]. destruct (String.eqb_spec m tag) as [->|]; [|exact I].
    intros ats ks T O. apply exact_xmap. now apply IHd.
  - intros _ m. exact I.
  - intros (H1 & H2) m. cbn [tr_arm run_arm]. specialize (IHd H1 m). specialize (IHd0 H2 m).
    destruct (tr_arm a m), (run_arm a m); try contradiction; assumption.
  - intros (H1 & H2) m. cbn [tr_arm run_arm]. specialize (IHd H1 m). specialize (IHd0 H2 m).
    destruct (tr_arm a m), (run_arm a m); try contradiction.
    + intros ats ks T0 O. apply exact_xmap. now apply IHd.
    + destruct (tr_arm b m), (run_arm b m); try contradiction; [|exact I].
      intros ats ks T0 O. apply exact_xmap. now apply IHd0.
Qed.
End OK.

(** ** The readers of versions 1.3 and 1.4 *)
Definition sigs (v : spec_version) (x : xml) : bool := match v with V1_3 => true | _ => plain_signatures x end.
Lemma sigs_below v n ats ks : sigs v (Elem n ats ks) = true -> forallb (sigs v) ks = true.
Proof.
  destruct v; cbn [sigs plain_signatures]; intros H; try (apply andb_prop in H as (_ & H); exact H).
  clear. induction ks; [reflexivity|exact IHks].
Qed.
Lemma known_lax {S} (sh : shape S) : all_known sh -> forall n ats ks, tr (DLoop Lax sh) n ats ks <> TUnk.
Proof.
  intros H n ats ks. cbn [tr]. generalize (init sh). induction ks as [|x l IH]; intros st; cbn [absorb]; [discriminate|].
  apply tbind_known; [|exact IH].
  destruct x as [m a ks|s|s|]; cbn [absorb1]; try discriminate.
  - destruct (tr_arm sh m) as [r|] eqn:E; [|discriminate]. apply tbind_known; [eapply H, E|].
    intros u. destruct (u st); discriminate.
  - destruct (on_chars sh); discriminate.
Qed.
Lemma known_from {S} c (sh : shape S) : (c = true -> all_known sh) -> all_known (from c sh).
Proof. intros H. destruct c; [now apply H|apply known_none]. Qed.
Ltac known_it :=
  intros;
  repeat first
    [ apply known_prim | apply known_none
    | match goal with
      | |- tr (DMap _ _) _ _ _ <> _ => apply known_map
      | |- tr (DLoop Strict _) _ _ _ <> _ => apply known_strict
      | |- tr (DLoop Lax _) _ _ _ <> _ => apply known_lax
      | |- all_known (SOn _ _ _ _) => apply known_on; intros
      | |- all_known (SOr _ _) => apply known_or
      | |- all_known (SPair _ _) => apply known_pair
      | |- all_known (from _ _) => apply known_from; intro; try congruence
      end
    | progress unfold struct, one, many, many_opt, single, list_of, one_list, d_map, d_text, d_enum, d_string, d_bool,
        rd_hashes, rd_properties, rd_licenses, rd_license_identifier, rd_license_list, rd_license, rd_expression,
        rd_attached_text, rd_property, rd_classification ].
Lemma snug_from {S} ok c (sh : shape S) : (c = true -> ssnug ok sh) -> ssnug ok (from c sh).
Proof. intros H. destruct c; [now apply H|exact I]. Qed.
Create HintDb snug discriminated.
Ltac snu :=
  intros;
  repeat first
    [ exact I
    | match goal with
      | |- _ /\ _ => split
      | |- ssnug _ (from _ _) => apply snug_from; intro; try congruence
      end
    | solve [auto 3 with snug nocore]
    | progress cbn [snug ssnug struct one many many_opt single list_of one_list d_map d_text d_enum d_string d_bool d_u32
                    d_score d_f32 rd_hashes rd_properties rd_external_references rd_licenses rd_license_identifier
                    rd_resources rd_components rd_services rd_ref rd_attached_text rd_property rd_hash rd_contact
                    rd_entity rd_external_reference rd_signer rd_license rd_expression rd_license_list rd_action rd_commit
                    rd_diff rd_source rd_issue rd_patch rd_pedigree rd_swid rd_classification rd_tool rd_tools
                    rd_metadata rd_dependency rd_composition rd_vuln_source rd_vuln_reference rd_rating rd_advisory
                    rd_credits rd_analysis rd_version_status rd_target rd_vulnerability rd_bom] ].
Section SNUG.
Context (F : float_text) (v : spec_version) (Hv : since V1_5 v = false).
Lemma snug_signature : since V1_4 v = true -> snug (sigs v) rd_signature "signature".
Proof.
  intros H4. unfold rd_signature. cbn [snug]. intros ats ks O.
  assert (P : forallb is_signature_part ks = true).
  { destruct v; try discriminate. cbn [sigs plain_signatures String.eqb Ascii.eqb Bool.eqb] in O.
    now apply andb_prop in O as (O & _). }
  change (odd_absorb (tr_arm sig_shape) ks (init sig_shape) <> TUnk). generalize (init sig_shape).
  clear O. revert P. induction ks as [|x l IH]; intros P st; cbn [odd_absorb]; [discriminate|].
  cbn [forallb] in P. apply andb_prop in P as (P1 & P2).
  destruct x as [m a ks|s|s|]; try discriminate.
  destruct (tr_arm sig_shape m) as [r|] eqn:E.
  - apply tbind_known; [eapply known_sig, E|]. intros u. apply tbind_known; [destruct (u st); discriminate|].
    intros st'. now apply IH.
  - exfalso. revert E. cbn [is_signature_part] in P1. unfold mem in P1. apply existsb_exists in P1 as (x & Hx & E).
    apply String.eqb_eq in E. subst x. repeat (destruct Hx as [<-|Hx]; [cbn; discriminate|]). contradiction.
Qed.
Lemma known_evidence n : all_known (rd_licenses v ** one_list Strict "copyright" "text" d_string
     ** from (since V1_5 v) (one_list Strict "occurrences" "occurrence" rd_occurrence)
     ** from (since V1_5 v) (one_list Open "callstack" "frame" rd_frame)
     ** from (since V1_5 v) (one "identity" (rd_identity F n))).
Proof. known_it. Qed.
Lemma snug_evidence n t : snug (sigs v) (rd_evidence F v n) t.
Proof. unfold rd_evidence, struct. cbn [snug]. apply known_evidence. Qed.
Lemma snug_data t : snug (sigs v) (rd_data v) t.
Proof. unfold rd_data, struct. cbn [snug]. known_it. Qed.
Hint Resolve snug_signature snug_evidence snug_data : snug.
Lemma snug_component n : forall t, snug (sigs v) (rd_component F v n) t.
Proof. induction n as [|n IH]; intros t; [exact I|]. cbn [rd_component]. snu. Qed.
Lemma snug_service n : forall t, snug (sigs v) (rd_service v n) t.
Proof. induction n as [|n IH]; intros t; [exact I|]. cbn [rd_service]. snu. Qed.
Hint Resolve snug_component snug_service : snug.
Theorem snug_bom n : snug (sigs v) (rd_bom F v n) "bom".
Proof. unfold rd_bom. snu. Qed.
End SNUG.

(** ** Orderly documents that are read are read exactly *)
Theorem orderly_known F v N ats kids b rest :
  orderly v (Elem "bom" ats kids) = true -> height (Elem "bom" ats kids) <= N ->
  run (rd_bom F v N) "bom" ats (flats kids ++ EEnd "bom" :: rest) = XOk b rest ->
  tr (rd_bom F v N) "bom" ats kids = TOk b.
Proof.
  intros O L R. destruct (since V1_5 v) eqn:Hv.
  - assert (U : tr (rd_bom F v N) "bom" ats kids <> TUnk).
    { apply (fine_known (w := since V1_5 v) (rd_bom F v N) true N ["bom"]); [|destruct v; try discriminate; exact O|exact L].
      apply fine_bom; [now intros _|lia]. }
    pose proof (run_tr (rd_bom F v N) "bom" ats kids rest) as K.
    destruct (tr (rd_bom F v N) "bom" ats kids); cbn [agree] in K; congruence.
  - assert (O' : sigs v (Elem "bom" ats kids) = true) by (destruct v; try discriminate; exact O).
    destruct (snug_exact (sigs v) (sigs_below v) (rd_bom F v N) "bom" ats kids rest (snug_bom F v Hv N) O' b rest R)
      as (read & unread & _ & E & K).
    apply K. destruct unread; [reflexivity|]. apply (f_equal (@List.length event)) in E.
    cbn in E. rewrite app_length in E. lia.
Qed.

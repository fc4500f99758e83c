(** C85: two invocations at the same time on the same files. *)
From Verif Require Import Base Strings Json JsonModel ModelTypes ConfigModel GenModel GenSpec GenExample GenProps ValModel ValSpec RunModel RunSpec RunProofs RunProps
  OptionSpec OptionProps StopSpec CliModel CliSpec CliProofs CliProps InvokeModel InvokeSpec InvokeProps HistorySpec HistoryProps TogetherSpec TogetherProps ShareModel ShareSpec.
From Coq Require Import Lia.
Open Scope string_scope.
Open Scope list_scope.

Lemma drop_nil n : drop n "" = "".
Proof. now destruct n. Qed.
Lemma write_at_end c s : write_at c (String.length c) s = (c ++ s)%string.
Proof.
  induction c as [|a c IH]; cbn [String.length write_at]; [rewrite drop_nil; cbn; apply append_nil_r|]. now rewrite IH.
Qed.
Lemma drop_get n (s : string) i : String.get i (drop n s) = String.get (n + i) s.
Proof. revert s. induction n as [|n IH]; intros s; [reflexivity|]. destruct s; [destruct i; reflexivity|]. cbn. apply IH. Qed.
Lemma get_app (a b : string) i : String.get i (a ++ b) = if (i <? String.length a)%nat then String.get i a else String.get (i - String.length a) b.
Proof.
  revert i. induction a as [|x a IH]; intros i; cbn; [now rewrite Nat.sub_0_r|]. destruct i as [|i]; [reflexivity|]. rewrite IH. reflexivity.
Qed.
Lemma get_none (s : string) i : String.length s <= i -> String.get i s = None.
Proof. revert i. induction s as [|a s IH]; intros i L; cbn in *; [now destruct i|]. destruct i; [lia|]. apply IH. lia. Qed.
Lemma get_some (s : string) i : i < String.length s -> exists a, String.get i s = Some a.
Proof. revert i. induction s as [|a s IH]; intros i L; cbn in *; [lia|]. destruct i; [eauto|]. apply IH. lia. Qed.
(** What is where after a write *)
Lemma write_at_get c pos s i : String.get i (write_at c pos s) =
  if (i <? pos)%nat then (if (i <? String.length c)%nat then String.get i c else Some "000"%char)
  else if (i <? pos + String.length s)%nat then String.get (i - pos) s else String.get i c.
Proof.
  revert c i. induction pos as [|p IH]; intros c i.
  - cbn [write_at]. rewrite get_app, drop_get. replace (i <? 0)%nat with false by (symmetry; apply Nat.ltb_ge; lia). rewrite Nat.sub_0_r. change (0 + String.length s) with (String.length s).
    destruct (Nat.ltb_spec i (String.length s)); [reflexivity|]. f_equal. lia.
  - destruct c as [|a c]; cbn [write_at]; destruct i as [|i]; try reflexivity; cbn [String.get].
    + rewrite IH. change (S i <? S p)%nat with (i <? p)%nat. change (S i <? S p + String.length s)%nat with (i <? p + String.length s)%nat.
      cbn [String.length]. destruct (i <? p)%nat; [reflexivity|]. destruct (i <? p + _)%nat; [reflexivity|]. now destruct i.
    + rewrite IH. reflexivity.
Qed.
Lemma write_at_length c pos s : String.length (write_at c pos s) <= Nat.max (String.length c) (pos + String.length s).
Proof.
  destruct (Nat.le_gt_cases (String.length (write_at c pos s)) (Nat.max (String.length c) (pos + String.length s))) as [L|L]; [exact L|exfalso].
  destruct (get_some _ _ L) as (a & G). rewrite write_at_get in G.
  destruct (Nat.ltb_spec (Nat.max (String.length c) (pos + String.length s)) pos); [lia|].
  destruct (Nat.ltb_spec (Nat.max (String.length c) (pos + String.length s)) (pos + String.length s)); [lia|].
  rewrite get_none in G by lia. discriminate G.
Qed.

(** Alone, a program that keeps its position writes what the program of RunModel.v writes *)
Lemma alone_position m s n t k : psteps m s n t k -> writing s = false -> match t with Writing f (Done _) _ _ d => String.length (content d (f_path f)) = k /\ d (f_path f) <> None | _ => True end.
Proof.
  intros H W. induction H as [s n|s n t k u j H IH T]; [now destruct s|]. specialize (IH W).
  destruct T as [f s0 t0 fs gs d n0 N|s0 t0 n0 T E].
  - destruct IH as [L X]. unfold content in *. rewrite put_same. rewrite <- L, write_at_end. split; [|discriminate].
    clear. generalize (match d (f_path f) with Some c => c | None => "" end). intros c. induction c; cbn; auto.
  - destruct T; auto; try discriminate E. cbn. destruct (file_text m f); auto. unfold content. rewrite put_same. split; [reflexivity|discriminate].
Qed.
Theorem C85_alone m s t : writing s = false -> ((exists k, psteps m s 0 t k) <-> steps m s t).
Proof.
  intros W. split.
  - intros (k & H). remember 0 as z eqn:Z. induction H as [s n|s n t k u j H IH T]; [constructor|]. pose proof (alone_position _ _ _ _ _ H W) as L. specialize (IH W Z).
    eapply steps_next; [exact IH|]. destruct T as [f s0 t0 fs gs d n0 N|s0 t0 n0 T E]; [|exact T]. destruct L as [L X]. rewrite <- L, write_at_end.
    replace (put d (f_path f) (content d (f_path f) ++ s0)) with (append_to d (f_path f) s0); [now constructor|]. unfold append_to, content. now destruct (d (f_path f)).
  - intros H. induction H as [s|s t u H IH T]; [exists 0; constructor|]. destruct (IH W) as (k & P). pose proof (alone_position _ _ _ _ _ P W) as L.
    destruct (writing t && writing u) eqn:E; [|exists 0; eapply psteps_next; [exact P|now apply p_other]].
    destruct T; try discriminate E. exists (k + String.length s0). eapply psteps_next; [exact P|]. destruct L as [L X].
    replace (append_to d (f_path f) s0) with (put d (f_path f) (write_at (content d (f_path f)) k s0)); [now constructor|].
    rewrite <- L, write_at_end. unfold append_to, content. now destruct (d (f_path f)).
Qed.

(** *** Different files: the positions make no difference, so C84 holds of programs that keep them *)
Definition position (s : state) (n : nat) (e : disk) : Prop :=
  match s with Writing f (Done _) _ _ _ => String.length (content e (f_path f)) = n /\ e (f_path f) <> None | _ => True end.
Lemma position_step m s e n t k : pstep m (on s e) n t k -> position s n e -> step m (on s e) t /\ position t k (disk_of t).
Proof.
  intros P L. remember (on s e) as s' eqn:Es. destruct P as [f a u fs gs d n0 N|s0 t n0 T E].
  - destruct s; try discriminate Es. cbn [on] in Es. injection Es as -> <- -> -> ->. destruct L as [L X]. cbn [position disk_of]. rewrite <- L, write_at_end. split.
    + replace (put e (f_path f0) (content e (f_path f0) ++ a)) with (append_to e (f_path f0) a); [now constructor|]. unfold append_to, content. now destruct (e (f_path f0)).
    + unfold content at 1. rewrite put_same, length_append. split; [lia|discriminate].
  - subst s0. split; [exact T|]. destruct T; cbn; auto; try (destruct s; discriminate E).
    destruct (file_text m f); auto. unfold content. rewrite put_same. split; [reflexivity|discriminate].
Qed.
Theorem C85_apart m1 argv1 m2 argv2 d s1 s2 d' : cargo_is_cargo m1 -> cargo_is_cargo m2 -> apart m1 argv1 m2 argv2 ->
  at_once m1 argv1 m2 argv2 d s1 s2 d' -> together m1 argv1 m2 argv2 d s1 s2 d'.
Proof.
  intros K1 K2 A (a & b & n1 & n2 & Ba & Bb & S). exists a, b. split; [exact Ba|]. split; [exact Bb|].
  set (P1 := fun q => exists o, asked argv1 o /\ sbom_path m1 o q). set (P2 := fun q => exists o, asked argv2 o /\ sbom_path m2 o q).
  assert (Dj : forall q, P1 q -> P2 q -> False) by (intros q (o1 & A1 & S1) (o2 & A2 & S2); exact (A o1 o2 q A1 A2 S1 S2)).
  assert (Keep : forall (P : path -> Prop) s n e e', (forall f, In f (pending s) -> P (f_path f)) -> (forall q, P q -> e' q = e q) -> position s n e -> position s n e').
  { intros P s n e e' F E L. destruct s; auto. cbn in *. destruct rest; auto. unfold content in *. rewrite (E (f_path f)) by (apply F; now left). exact L. }
  assert (H : schedule m1 m2 a b d s1 s2 d' /\ (forall f, In f (pending s1) -> P1 (f_path f)) /\ (forall f, In f (pending s2) -> P2 (f_path f)) /\ position s1 n1 d' /\ position s2 n2 d').
  { induction S as [|s1 n1 s2 n2 e t k S IH T|s1 n1 s2 n2 e t k S IH T].
    - split; [constructor|]. split; [intros f; now apply (begins_pending m1 argv1 d a f)|]. split; [intros f; now apply (begins_pending m2 argv2 d b f)|].
      assert (W : forall m argv s, begins m argv d s -> position s 0 d) by (intros m argv s [o s' C X|r C X]; [destruct X|]; exact I). split; eauto.
    - destruct IH as (H & F1 & F2 & L1 & L2). destruct (position_step _ _ _ _ _ _ T L1) as [T' L1'].
      destruct (step_on m1 P1 s1 e t e T' F1 (fun _ _ => eq_refl)) as (_ & _ & _ & _ & Q & F1').
      split; [eapply first_steps; eauto|]. split; [exact F1'|]. split; [exact F2|]. split; [exact L1'|]. apply (Keep P2 _ _ e); auto. intros q X. apply Q. intros Y. now apply (Dj q).
    - destruct IH as (H & F1 & F2 & L1 & L2). destruct (position_step _ _ _ _ _ _ T L2) as [T' L2'].
      destruct (step_on m2 P2 s2 e t e T' F2 (fun _ _ => eq_refl)) as (_ & _ & _ & _ & Q & F2').
      split; [eapply second_steps; eauto|]. split; [exact F1|]. split; [exact F2'|]. split; [|exact L2']. apply (Keep P1 _ _ e); auto. intros q X. apply Q. intros Y. now apply (Dj q). }
  exact (proj1 H).
Qed.

(** *** Two programs that write the same texts to the same files *)
Definition broken (s : state) : Prop := exists d, s = Ended Failed d \/ s = Ended Panicked d.
Section SAME.
  Variables (text : output_file -> outcome string) (all : list output_file).
  Hypothesis distinct : NoDup (map f_path all).
  (** Where a program is: it has written [past] *)
  Definition stage (s : state) (n : nat) (past : list output_file) : Prop :=
    all = past ++ pending s /\ match s with
    | Writing f r _ _ _ => match r with Done u => exists t, text f = Done (t ++ u)%string /\ String.length t = n | _ => forall t, text f <> Done t end
    | _ => True
    end.
  Definition current (s : state) (f : output_file) : Prop := match s with Writing g _ _ _ _ => f = g | _ => False end.
  Definition reached (s : state) (n : nat) (past : list output_file) (f : output_file) (k : nat) : Prop :=
    (In f past /\ exists t, text f = Done t /\ k = String.length t) \/ (current s f /\ k = n).
  Definition sound (R1 R2 : output_file -> nat -> Prop) (e : disk) : Prop :=
    forall f t, In f all -> text f = Done t -> (exists k, R1 f k \/ R2 f k) ->
      exists c, e (f_path f) = Some c /\ String.length c <= String.length t
        /\ exists k, (R1 f k \/ R2 f k) /\ forall i, i < k -> String.get i c = String.get i t.
  Lemma sound_ext (R1 R1' R2 : output_file -> nat -> Prop) e : (forall f k, R1 f k <-> R1' f k) -> sound R1 R2 e -> sound R1' R2 e.
  Proof.
    intros X S f t I T (k & K). destruct (S f t I T) as (c & C & L & k' & K' & G); [exists k; rewrite X; tauto|]. exists c. split; [exact C|]. split; [exact L|].
    exists k'. rewrite <- X. auto.
  Qed.
  Lemma path_file f g : In f all -> In g all -> f_path f = f_path g -> f = g.
  Proof. apply nodup_inj. exact distinct. Qed.

  Lemma share_step m s n past e t k R2 : (forall f, file_text m f = text f) -> stage s n past -> pstep m (on s e) n t k -> ~ broken t -> sound (reached s n past) R2 e ->
    exists past', stage t k past' /\ sound (reached t k past') R2 (disk_of t) /\ forall q, ~ In q (map f_path all) -> disk_of t q = e q.
  Proof.
    intros Tx [St Sr] P B S.
    assert (Mid : forall f fs, pending s = f :: fs -> In f all /\ ~ In f past).
    { intros f fs E. rewrite E in St. split; [rewrite St; apply in_or_app; right; now left|]. intros I. pose proof distinct as D. rewrite St, map_app in D.
      apply NoDup_remove_2 in D. apply D, in_or_app. left. now apply in_map. }
    assert (Other : forall f e' t n' past', In f all -> (forall q, q <> f_path f -> e' q = e q) -> past' = past -> (forall g, current s g -> g = f) -> (forall g, current t g -> g = f) ->
      (forall tx, text f = Done tx -> (exists k, reached t n' past' f k \/ R2 f k) -> exists c, e' (f_path f) = Some c /\ String.length c <= String.length tx
        /\ exists k, (reached t n' past' f k \/ R2 f k) /\ forall i, i < k -> String.get i c = String.get i tx) -> sound (reached t n' past') R2 e').
    { intros f e' u n' past' If Q -> Cs Ct F g tx I Tg K. destruct (list_eq_dec string_dec (f_path g) (f_path f)) as [Eg|Ng]; [apply path_file in Eg; auto; subst g; now apply F|].
      assert (X : forall j, reached u n' past g j <-> reached s n past g j).
      { intros j. unfold reached. split; (intros [X|[X _]]; [now left|exfalso; apply Ng]); [rewrite (Ct _ X)|rewrite (Cs _ X)]; reflexivity. }
      rewrite (Q _ Ng). destruct (S g tx I Tg) as (c & C & L & j & J & G); [destruct K as (j & J); exists j; rewrite <- X; exact J|].
      exists c. split; [exact C|]. split; [exact L|]. exists j. rewrite X. auto. }
    remember (on s e) as s' eqn:Es. destruct P as [f a u fs gs d n0 Na|s0 t n0 T E].
    - (* a piece is written *)
      destruct s; try discriminate Es. cbn [on] in Es. injection Es as -> <- -> -> ->. destruct Sr as (t0 & T0 & L0).
      destruct (Mid _ _ eq_refl) as [If Np]. exists past. split; [split; [exact St|]; exists (t0 ++ a)%string; rewrite append_assoc; split; [exact T0|rewrite length_append; now rewrite L0]|].
      split; [|cbn [disk_of]; intros q Q; apply put_other; intros ->; apply Q; now apply in_map].
      cbn [disk_of]. apply (Other f0 _ _ _ past If); auto; [intros q Q; now apply put_other|].
      intros tx Tg _. rewrite T0 in Tg. injection Tg as <-. destruct (S f0 _ If T0) as (c & C & L & j & J & G); [exists n0; left; right; split; [reflexivity|reflexivity]|].
      unfold content. rewrite C, put_same. exists (write_at c n0 a). split; [reflexivity|].
      split; [pose proof (write_at_length c n0 a); rewrite !length_append in *; lia|].
      assert (W : forall i, i < n0 + String.length a -> (i < n0 -> String.get i c = String.get i (t0 ++ a ++ u)%string) -> String.get i (write_at c n0 a) = String.get i (t0 ++ a ++ u)%string).
      { intros i Li Gi. rewrite write_at_get. destruct (Nat.ltb_spec i n0) as [X|X].
        - specialize (Gi X). destruct (Nat.ltb_spec i (String.length c)) as [Y|Y]; [exact Gi|]. rewrite get_none in Gi by exact Y.
          destruct (get_some (t0 ++ a ++ u) i) as (x & Gx); [rewrite length_append; lia|]. congruence.
        - destruct (Nat.ltb_spec i (n0 + String.length a)) as [_|Y]; [|lia]. rewrite !get_app.
          destruct (Nat.ltb_spec i (String.length t0)); [lia|]. destruct (Nat.ltb_spec (i - String.length t0) (String.length a)); [|lia]. now rewrite L0. }
      destruct J as [[[I _]|[_ ->]]|J]; [contradiction| |].
      + exists (n0 + String.length a). split; [left; right; split; reflexivity|]. intros i Li. apply W; auto.
      + exists j. split; [now right|]. intros i Li. destruct (Nat.lt_ge_cases i (n0 + String.length a)) as [X|X]; [apply W; auto|].
        rewrite write_at_get. destruct (Nat.ltb_spec i n0); [lia|]. destruct (Nat.ltb_spec i (n0 + String.length a)); [lia|]. auto.
    - subst s0. destruct s; cbn [on] in T; inversion T; subst; try (exfalso; apply B; eexists; solve [left; reflexivity|right; reflexivity]); cbn [disk_of] in *; try discriminate E.
      + exists past. split; [split; [exact St|exact I]|]. split; [|auto]. revert S; apply sound_ext; intros x j; unfold reached; cbn [current]; tauto.
      + exists past. split; [split; [|exact I]|split; [(revert S; apply sound_ext; intros x j; unfold reached; cbn [current]; tauto)|auto]]. cbn [pending] in *. rewrite St. unfold announced. cbn [flat_map].
        match goal with W : write_plan _ = Done _ |- _ => rewrite W end. reflexivity.
      + exists past. split; [split; [exact St|exact I]|]. split; [(revert S; apply sound_ext; intros x j; unfold reached; cbn [current]; tauto)|auto].
      + destruct (Mid _ _ eq_refl) as [If Np]. exists past. split.
        { split; [exact St|]. rewrite Tx. destruct (text f) eqn:Ef; try discriminate. exists "". auto. }
        split; [|intros q Q; apply put_other; intros ->; apply Q; now apply in_map].
        apply (Other f _ _ _ past If); auto; [intros q Q; now apply put_other|intros g []|].
        intros tx Tg _. rewrite put_same. exists "". split; [reflexivity|]. split; [cbn; lia|]. exists 0. split; [left; right; split; reflexivity|lia].
      + exists (past ++ [f]). split; [split; [rewrite St, <- app_assoc; reflexivity|exact I]|]. split; [|auto].
        destruct Sr as (t0 & T0 & L0). rewrite append_nil_r in T0. revert S. apply sound_ext. intros g j. unfold reached. rewrite in_app_iff. cbn [current In]. split.
        * intros [[X Y]|[-> ->]]; left; [auto|]. split; [right; now left|]. eauto.
        * intros [[[X|[<-|[]]] Y]|[[] _]]; [left; auto|]. right. destruct Y as (t & Y & ->). split; [reflexivity|]. congruence.
  Qed.

  (** ... in every schedule *)
  Lemma share_run m1 m2 d a b s1 n1 s2 n2 e : (forall f, file_text m1 f = text f) -> (forall f, file_text m2 f = text f) ->
    stage a 0 [] -> stage b 0 [] -> writing a = false -> writing b = false -> shared m1 m2 a b d s1 n1 s2 n2 e -> ~ broken s1 -> ~ broken s2 ->
    exists p1 p2, stage s1 n1 p1 /\ stage s2 n2 p2 /\ sound (reached s1 n1 p1) (reached s2 n2 p2) e /\ forall q, ~ In q (map f_path all) -> e q = d q.
  Proof.
    intros X1 X2 Sa Sb Wa Wb H.
    assert (Back : forall m s e n t k, pstep m (on s e) n t k -> ~ broken s).
    { intros m s e0 n t k P (d0 & [-> | ->]); cbn [on] in P; inversion P as [|s0 t0 n0 T]; subst; inversion T. }
    assert (Sym : forall R1 R2 e, sound R1 R2 e -> sound R2 R1 e).
    { intros R1 R2 e0 S f t I T (k & K). destruct (S f t I T) as (c & C & L & j & J & G); [exists k; tauto|]. exists c. split; [exact C|]. split; [exact L|]. exists j. split; [tauto|exact G]. }
    induction H as [|s1 n1 s2 n2 e t k H IH P|s1 n1 s2 n2 e t k H IH P]; intros B1 B2.
    - exists [], []. split; [exact Sa|]. split; [exact Sb|]. split; [|auto]. intros f t _ _ (k & [[[[] _]|[C _]]|[[[] _]|[C _]]]); [destruct a|destruct b]; (discriminate || destruct C).
    - destruct (IH (Back _ _ _ _ _ _ P) B2) as (p1 & p2 & S1 & S2 & S & Q). destruct (share_step m1 s1 n1 p1 e t k _ X1 S1 P B1 S) as (p1' & T1 & T2 & T3).
      exists p1', p2. split; [exact T1|]. split; [exact S2|]. split; [exact T2|]. intros q N. rewrite (T3 q N). auto.
    - destruct (IH B1 (Back _ _ _ _ _ _ P)) as (p1 & p2 & S1 & S2 & S & Q). destruct (share_step m2 s2 n2 p2 e t k _ X2 S2 P B2 (Sym _ _ _ S)) as (p2' & T1 & T2 & T3).
      exists p1, p2'. split; [exact S1|]. split; [exact T1|]. split; [now apply Sym|]. intros q N. rewrite (T3 q N). auto.
  Qed.
  Lemma share_done m1 m2 d a b e1 n1 e2 n2 e : (forall f, file_text m1 f = text f) -> (forall f, file_text m2 f = text f) ->
    stage a 0 [] -> stage b 0 [] -> writing a = false -> writing b = false -> shared m1 m2 a b d (Ended Succeeded e1) n1 (Ended Succeeded e2) n2 e ->
    (forall f t, In f all -> text f = Done t -> e (f_path f) = Some t) /\ forall q, ~ In q (map f_path all) -> e q = d q.
  Proof.
    intros X1 X2 Sa Sb Wa Wb H.
    destruct (share_run m1 m2 d a b _ n1 _ n2 e X1 X2 Sa Sb Wa Wb H) as (p1 & p2 & [S1 _] & [S2 _] & S & Q); try (intros (d0 & [E|E]); discriminate E).
    split; [|exact Q]. intros f t I T. cbn [pending] in S1, S2. rewrite app_nil_r in S1, S2. subst p1 p2.
    destruct (S f t I T) as (c & C & L & k & K & G); [exists (String.length t); left; left; eauto|]. rewrite C. f_equal.
    assert (k = String.length t) as -> by (destruct K as [[[_ (t' & T' & ->)]|[[] _]]|[[_ (t' & T' & ->)]|[[] _]]]; congruence).
    apply get_correct. intros i. destruct (Nat.lt_ge_cases i (String.length t)) as [X|X]; [now apply G|]. rewrite !get_none by lia. reflexivity.
  Qed.
End SAME.

Lemma begins_made m argv o d s gs : asked argv o -> made m o gs -> begins m argv d s -> s = Packages gs d.
Proof.
  intros A [fuel M] B. apply C80_command_line in A. destruct B as [o' s' C S|r C _]; [|congruence]. assert (o' = o) as -> by congruence.
  destruct S as [fuel' gs' G|fuel' x G|fuel' x G].
  - assert (E : Done gs' = Done gs) by (eapply generate_unique; eauto; discriminate). congruence.
  - assert (E : Fail x = Done gs) by (eapply generate_unique; eauto; discriminate). discriminate E.
  - assert (E : Panic x = Done gs) by (eapply generate_unique; eauto; discriminate). discriminate E.
Qed.
(** If two invocations make the same SBOMs, they may run at the same time on the same files: when both have succeeded, the disk is as
    after one of them, whatever the schedule *)
Theorem C85_same_sboms m1 argv1 o1 m2 argv2 o2 gs d e1 e2 d' d1 : asked argv1 o1 -> asked argv2 o2 -> made m1 o1 gs -> made m2 o2 gs ->
  (forall f, file_text m1 f = file_text m2 f) -> NoDup (map f_path (announced gs)) ->
  at_once m1 argv1 m2 argv2 d (Ended Succeeded e1) (Ended Succeeded e2) d' -> invocation m1 argv1 d (Ended Succeeded d1) -> forall q, d' q = d1 q.
Proof.
  intros A1 A2 M1 M2 T N (a & b & n1 & n2 & Ba & Bb & S) I q.
  apply (begins_made _ _ _ _ _ gs A1 M1) in Ba. apply (begins_made _ _ _ _ _ gs A2 M2) in Bb. subst a b.
  destruct (share_done (file_text m1) (announced gs) N m1 m2 d (Packages gs d) (Packages gs d) e1 n1 e2 n2 d') as [F G]; auto; try (split; [reflexivity|exact Logic.I]).
  assert (R : run m1 o1 d (Ended Succeeded d1)) by (apply C80_command_line in A1; inversion I as [o' s C R E|r C _ E]; congruence).
  destruct (C69_success _ _ _ _ R) as (gs' & M' & _ & F1 & F2). assert (gs' = gs) as -> by (eapply C69_made_once; eauto).
  destruct (in_dec (list_eq_dec string_dec) q (map f_path (announced gs))) as [X|X].
  - apply last_of in X as (bf & f & af & Ea & <- & L). destruct (F1 bf f af Ea L) as (t & Tf & ->). apply F; [|exact Tf]. rewrite Ea. apply in_or_app. right. now left.
  - rewrite (G q X). symmetry. apply F2. intros f Hf <-. apply X. now apply in_map.
Qed.
Lemma made_at_another_time m o o' now uuid now' uuid' epoch gs : w_epoch (mc_world m) = Some epoch -> same_but_loudness o o' ->
  made (at_another_time m now uuid) o gs -> made (at_another_time m now' uuid') o' gs.
Proof.
  intros E [S1 S2] [fuel M]. exists fuel. rewrite <- M. clear M. unfold generate_sboms, run_config, locate_manifest. rewrite <- S1, <- S2.
  fold (run_config (at_another_time m now' uuid') o). fold (run_config (at_another_time m now uuid) o).
  change (run_config (at_another_time m now' uuid') o) with (run_config (at_another_time m now uuid) o).
  destruct (run_config (at_another_time m now uuid) o) as [cfg| | |]; cbn [bind]; auto.
  fold (locate_manifest (at_another_time m now' uuid') o). fold (locate_manifest (at_another_time m now uuid) o).
  change (locate_manifest (at_another_time m now' uuid') o) with (locate_manifest (at_another_time m now uuid) o).
  destruct (locate_manifest _ _) as [p| | |]; cbn [bind]; auto.
  change (get_metadata (at_another_time m now' uuid') p cfg) with (get_metadata (at_another_time m now uuid) p cfg).
  destruct (get_metadata _ _ _) as [meta| | |]; cbn [bind]; auto. cbn [mc_world at_another_time]. eapply C08_reproducible; eauto.
Qed.
(** So it is with SOURCE_DATE_EPOCH, for the same request *)
Theorem C85_same_request m o meta epoch m1 argv1 m2 argv2 d e1 e2 d' d1 : cargo_is_cargo m -> w_epoch (mc_world m) = Some epoch ->
  workspace m o meta -> distinct_targets meta -> NoDup (cm_members meta) -> directories_differ meta ->
  same_request m o (m1, argv1) -> same_request m o (m2, argv2) ->
  at_once m1 argv1 m2 argv2 d (Ended Succeeded e1) (Ended Succeeded e2) d' -> invocation m1 argv1 d (Ended Succeeded d1) -> forall q, d' q = d1 q.
Proof.
  intros K E (cfg & man & X & L & G) Dt Nm Dd (now1 & uuid1 & o1 & E1 & A1 & S1) (now2 & uuid2 & o2 & E2 & A2 & S2) T I. cbn [fst snd] in *. subst m1 m2.
  destruct (K _ _ _ _ G) as (nodes & W).
  assert (R : run (at_another_time m now1 uuid1) o1 d (Ended Succeeded d1)) by (pose proof A1 as C1; apply C80_command_line in C1; inversion I as [o' s C R Z|r C _ Z]; congruence).
  destruct (C69_success _ _ _ _ R) as (gs & M & _).
  apply (C85_same_sboms (at_another_time m now1 uuid1) argv1 o1 (at_another_time m now2 uuid2) argv2 o2 gs d e1 e2 d' d1); auto.
  - apply (made_at_another_time m o1 o2 now1 uuid1 now2 uuid2 epoch gs E); [|exact M]. destruct S1, S2. split; congruence.
  - destruct S1 as [Q1 Q2].
    assert (X1 : run_config (at_another_time m now1 uuid1) o1 = Done cfg) by (unfold run_config in *; rewrite <- Q1; exact X).
    assert (L1 : locate_manifest (at_another_time m now1 uuid1) o1 = Done man) by (unfold locate_manifest in *; rewrite <- Q2; exact L).
    eapply (announced_distinct (at_another_time m now1 uuid1) o1 cfg man meta nodes); eauto. exact (asked_clap _ _ A1).
Qed.

(** *** A schedule: both have created the file before either writes *)
Lemma both_write m1 m2 g1 g2 f1 f2 a1 b1 a2 b2 d : write_plan g1 = Done [f1] -> write_plan g2 = Done [f2] -> f_path f2 = f_path f1 ->
  valid_or_unchecked m1 f1 = Done true -> valid_or_unchecked m2 f2 = Done true -> file_text m1 f1 = Done (a1 ++ b1)%string -> file_text m2 f2 = Done (a2 ++ b2)%string ->
  a1 <> "" -> b1 <> "" -> a2 <> "" -> b2 <> "" ->
  exists e1 e2 d', shared m1 m2 (Packages [g1] d) (Packages [g2] d) d (Ended Succeeded e1) 0 (Ended Succeeded e2) 0 d'
    /\ d' (f_path f1) = Some (write_at (write_at (write_at (write_at "" 0 a1) 0 a2) (String.length a2) b2) (String.length a1) b1).
Proof.
  intros W1 W2 P V1 V2 T1 T2 A1 B1 A2 B2. set (p := f_path f1) in *.
  pose proof (shared_first m1 m2 (Packages [g1] d) (Packages [g2] d) d) as H.
  eapply shared_one in H; [|apply p_other; [apply step_package; exact W1|reflexivity]].
  eapply shared_two in H; [|apply p_other; [apply step_package; exact W2|reflexivity]].
  eapply shared_one in H; [|apply p_other; [apply step_create; exact V1|reflexivity]]. rewrite T1 in H.
  eapply shared_two in H; [|apply p_other; [apply step_create; exact V2|reflexivity]]. rewrite T2 in H.
  eapply shared_one in H; [|apply p_write; exact A1]. eapply shared_two in H; [|apply p_write; exact A2].
  rewrite <- (append_nil_r b2) in H. eapply shared_two in H; [|apply p_write; exact B2].
  eapply shared_two in H; [|apply p_other; [apply step_close|reflexivity]]. eapply shared_two in H; [|apply p_other; [apply step_package_done|reflexivity]].
  eapply shared_two in H; [|apply p_other; [apply step_exit|reflexivity]].
  rewrite <- (append_nil_r b1) in H. eapply shared_one in H; [|apply p_write; exact B1].
  eapply shared_one in H; [|apply p_other; [apply step_close|reflexivity]]. eapply shared_one in H; [|apply p_other; [apply step_package_done|reflexivity]].
  eapply shared_one in H; [|apply p_other; [apply step_exit|reflexivity]].
  do 3 eexists. split; [exact H|]. cbn [disk_of Nat.add]. rewrite P. fold p. unfold content. now rewrite !put_same.
Qed.

(** A machine that shows of a document only its serial number; one package, one file *)
Definition sh_world (epoch : option string) : world :=
  mkWorld (w_uri_ok ex_world) (w_spdx_strict ex_world) (w_spdx_lax ex_world) (w_email_ok ex_world) (w_purl ex_world) (w_read_file ex_world) (w_absolute ex_world)
    (w_is_file ex_world) (w_lockfile ex_world) (w_uuid ex_world) (w_now ex_world) epoch (w_format_time ex_world) (w_tool_version ex_world).
Definition sh_machine (epoch : option string) : machine :=
  let m := ex_machine true in
  mkMachine (sh_world epoch) (mc_rustc_var m) (mc_rustc m) (mc_build_target m) (mc_absolute m) (mc_cwd m) (mc_cargo m) (mc_debug m) (mc_parsers m) (mc_floats m)
    (fun j => match j with JObj l => match find (fun x => String.eqb (fst x) "serialNumber") l with Some (_, JStr s) => s | _ => "no serial number" end | _ => "?" end)
    (mc_xml_text m) (mc_disk_ok m).
Definition sh_words : list string := ["cargo-cyclonedx"; "cyclonedx"; "-fjson"].
Definition sh_options : options := mkOptions {|
  a_format := Some FJson; a_describe := None; a_all_features := false; a_no_default_features := false;
  a_features := []; a_target := None; a_target_in_filename := false; a_all := false; a_top_level := false;
  a_filename_override := None; a_license_strict := false; a_license_accept_named := []; a_spec_version := None;
  a_no_build_deps := false |} None 0 0.
Definition time1 (m : machine) := at_another_time m "2024-01-01T00:00:00Z" "urn:uuid:11111111-1111-4111-8111-111111111111".
Definition time2 (m : machine) := at_another_time m "1970-01-01T00:00:00Z" "urn:uuid:22222222-2222-4222-8222-222222222222".
Lemma sh_asked : asked sh_words sh_options.
Proof. apply C80_command_line. vm_compute. reflexivity. Qed.
Lemma sh_plan m t : In (m, t) [(time1 (sh_machine None), "urn:uuid:11111111-1111-4111-8111-111111111111"); (time2 (sh_machine None), "urn:uuid:22222222-2222-4222-8222-222222222222");
    (time1 (sh_machine (Some "0")), "no serial number"); (time2 (sh_machine (Some "0")), "no serial number")] ->
  exists g f, generate_sboms m 100 sh_options = Done [g] /\ write_plan g = Done [f] /\ f_path f = ["w"; "app"; "app.cdx.json"] /\ valid_or_unchecked m f = Done true
    /\ file_text m f = Done t.
Proof.
  intros I. cbn [In] in I.
  repeat destruct I as [I|I]; try (injection I as <- <-; destruct (generate_sboms _ 100 sh_options) as [gs| | |] eqn:G; vm_compute in G; try discriminate G; injection G as <-;
    do 2 eexists; split; [reflexivity|]; split; [vm_compute; reflexivity|]; repeat split; vm_compute; reflexivity). destruct I.
Qed.
(** At the same time, the same request: with SOURCE_DATE_EPOCH the hypotheses of [C85_same_request] are met *)
Example C85_case : exists d e1 e2 d' d1, let m := sh_machine (Some "0") in
  cargo_is_cargo m /\ w_epoch (mc_world m) = Some "0" /\ workspace m sh_options ex_meta /\ distinct_targets ex_meta /\ NoDup (cm_members ex_meta) /\ directories_differ ex_meta
  /\ same_request m sh_options (time1 m, sh_words) /\ same_request m sh_options (time2 m, sh_words)
  /\ at_once (time1 m) sh_words (time2 m) sh_words d (Ended Succeeded e1) (Ended Succeeded e2) d'
  /\ invocation (time1 m) sh_words d (Ended Succeeded d1) /\ d' ["w"; "app"; "app.cdx.json"] = Some "no serial number".
Proof.
  destruct (sh_plan (time1 (sh_machine (Some "0"))) "no serial number") as (g1 & f1 & G1 & W1 & P1 & V1 & T1); [cbn; auto|].
  destruct (sh_plan (time2 (sh_machine (Some "0"))) "no serial number") as (g2 & f2 & G2 & W2 & P2 & V2 & T2); [cbn; auto 6|].
  destruct (both_write (time1 (sh_machine (Some "0"))) (time2 (sh_machine (Some "0"))) g1 g2 f1 f2 "no se" "rial number" "no serial " "number" ex_disk) as (e1 & e2 & d' & S & D); auto; try discriminate; [congruence|].
  destruct C69_case as (_ & _ & _ & _ & _ & _ & _ & _ & Dt & _ & _ & Nm & Dd).
  pose proof sh_asked as A. pose proof A as C. apply C80_command_line in C.
  exists ex_disk, e1, e2, d'. eexists. cbn zeta.
  split. { intros p fs os meta H. cbn in H. destruct (path_eqb p _); [|discriminate H]. injection H as <-. exists ex_nodes. exact ex_wf. }
  split; [reflexivity|].
  split. { destruct (run_config (sh_machine (Some "0")) sh_options) as [cfg| | |] eqn:R; vm_compute in R; try discriminate R. exists cfg, ["w"; "Cargo.toml"].
    split; [injection R as <-; vm_compute; reflexivity|]. split; reflexivity. }
  do 3 (split; [assumption|]). split; [do 3 eexists; split; [reflexivity|]; split; [exact A|split; reflexivity]|].
  split; [do 3 eexists; split; [reflexivity|]; split; [exact A|split; reflexivity]|].
  split. { exists (Packages [g1] ex_disk), (Packages [g2] ex_disk), 0, 0. split; [apply (begins_run _ _ _ _ _ C); eapply starts_writing; exact G1|].
    split; [apply (begins_run _ _ _ _ _ C); eapply starts_writing; exact G2|exact S]. }
  split; [|rewrite <- P1, D; vm_compute; reflexivity].
  apply (invoked _ _ _ _ _ C). exists (Packages [g1] ex_disk). split; [eapply starts_writing; exact G1|].
  eapply steps_next; [|apply step_exit]. eapply steps_next; [|apply step_package_done]. eapply steps_next; [|apply step_close].
  eapply steps_next; [|apply (step_write _ f1 "no serial number" ""); discriminate]. rewrite append_nil_r, <- T1. now apply first_begun.
Qed.
(** Without it the file may be a mixture of the two, although both report success *)
Theorem C85_mixture_refuted : exists m1 m2 argv o d e1 e2 d' q t1 t2,
  asked argv o /\ same_request (sh_machine None) o (m1, argv) /\ same_request (sh_machine None) o (m2, argv)
  /\ (forall d1, invocation m1 argv d (Ended Succeeded d1) -> d1 q = Some t1) /\ (forall d2, invocation m2 argv d (Ended Succeeded d2) -> d2 q = Some t2)
  /\ at_once m1 argv m2 argv d (Ended Succeeded e1) (Ended Succeeded e2) d' /\ d' q <> Some t1 /\ d' q <> Some t2.
Proof.
  destruct (sh_plan (time1 (sh_machine None)) "urn:uuid:11111111-1111-4111-8111-111111111111") as (g1 & f1 & G1 & W1 & P1 & V1 & T1); [cbn; auto|].
  destruct (sh_plan (time2 (sh_machine None)) "urn:uuid:22222222-2222-4222-8222-222222222222") as (g2 & f2 & G2 & W2 & P2 & V2 & T2); [cbn; auto 6|].
  destruct (both_write (time1 (sh_machine None)) (time2 (sh_machine None)) g1 g2 f1 f2 "urn:uuid:11111111-1111-" "4111-8111-111111111111" "urn:uuid:22222222-2222-" "4222-8222-222222222222" ex_disk)
    as (e1 & e2 & d' & S & D); auto; try discriminate; [congruence|].
  pose proof sh_asked as A. pose proof A as C. apply C80_command_line in C.
  assert (Only : forall m g f t d1, generate_sboms m 100 sh_options = Done [g] -> write_plan g = Done [f] -> f_path f = ["w"; "app"; "app.cdx.json"] -> file_text m f = Done t ->
    invocation m sh_words ex_disk (Ended Succeeded d1) -> d1 ["w"; "app"; "app.cdx.json"] = Some t).
  { clear - C. intros m g f t d1 G W P T I. assert (R : run m sh_options ex_disk (Ended Succeeded d1)) by (inversion I as [o' s C' R E|r C' _ E]; congruence).
    destruct (C69_success _ _ _ _ R) as (gs & M & _ & F & _). assert (gs = [g]) as -> by (eapply C69_made_once; [exact M|now exists 100]).
    destruct (F [] f []) as (t' & T' & D); [unfold announced; cbn [flat_map]; now rewrite W|intros f' []|]. rewrite <- P, D. congruence. }
  exists (time1 (sh_machine None)), (time2 (sh_machine None)), sh_words, sh_options, ex_disk, e1, e2, d', ["w"; "app"; "app.cdx.json"].
  exists "urn:uuid:11111111-1111-4111-8111-111111111111", "urn:uuid:22222222-2222-4222-8222-222222222222".
  split; [exact A|]. split; [do 3 eexists; split; [reflexivity|]; split; [exact A|split; reflexivity]|].
  split; [do 3 eexists; split; [reflexivity|]; split; [exact A|split; reflexivity]|].
  split; [intros d1; now apply (Only _ g1 f1)|]. split; [intros d2; now apply (Only _ g2 f2)|].
  split. { exists (Packages [g1] ex_disk), (Packages [g2] ex_disk), 0, 0. split; [apply (begins_run _ _ _ _ _ C); eapply starts_writing; exact G1|].
    split; [apply (begins_run _ _ _ _ _ C); eapply starts_writing; exact G2|exact S]. }
  rewrite <- P1, D. vm_compute. split; discriminate.
Qed.
Print Assumptions C85_alone.
Print Assumptions C85_apart.
Print Assumptions C85_same_sboms.
Print Assumptions C85_same_request.
Print Assumptions C85_mixture_refuted.

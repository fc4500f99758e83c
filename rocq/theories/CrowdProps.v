(** C88: any number of invocations at the same time, and one after the other. *)
From Verif Require Import Base Strings Json JsonModel ModelTypes ConfigModel GenModel GenSpec GenExample GenProps ValModel ValSpec RunModel RunSpec RunProofs RunProps
  OptionSpec OptionProps StopSpec CliModel CliSpec CliProofs CliProps InvokeModel InvokeSpec InvokeProps HistorySpec HistoryProps TogetherSpec TogetherProps
  ShareModel ShareSpec ShareProps CrowdSpec.
From Coq Require Import Lia.
Open Scope string_scope.
Open Scope list_scope.

Lemma begins_on m argv d e s : begins m argv e s -> begins m argv d (on s d).
Proof.
  intros [o s' C S|r C R]; [|now constructor]. apply (begins_run _ _ _ o _ C). destruct S; cbn [on]; econstructor; eassumption.
Qed.
Lemma begins_position m argv d s : begins m argv d s -> forall e, position s 0 e.
Proof. intros [o s' C X|r C X] e; [destruct X|]; exact I. Qed.
Lemma pstep_touches m s e n t k : pstep m (on s e) n t k ->
  (forall q, disk_of t q <> e q -> exists f, In f (pending s) /\ f_path f = q) /\ (forall f, In f (pending t) -> exists g, In g (pending s) /\ f_path g = f_path f).
Proof.
  intros P. remember (on s e) as s' eqn:Es. destruct P as [f a u fs gs d n0 N|s0 t n0 T E].
  - destruct s; try discriminate Es. cbn [on] in Es. injection Es as -> <- -> -> ->. cbn [disk_of pending]. split.
    + intros q Q. exists f0. split; [now left|]. destruct (list_eq_dec string_dec q (f_path f0)) as [X|X]; [auto|]. now rewrite put_other in Q.
    + intros f Hf. exists f. auto.
  - subst s0. destruct (step_on m (fun q => exists f, In f (pending s) /\ f_path f = q) s e t e T) as (e' & _ & _ & _ & Q & F); eauto. split; [|exact F].
    intros q D. destruct (in_dec (list_eq_dec string_dec) q (map f_path (pending s))) as [X|X].
    + apply in_map_iff in X as (f & Ef & Hf). eauto.
    + exfalso. apply D, Q. intros (f & Hf & Ef). apply X. rewrite <- Ef. now apply in_map.
Qed.
(** Every file that is still to be written is one that is asked for *)
Lemma crowd_pending d l d' : crowd d l d' -> (forall m argv s, member l m argv s -> cargo_is_cargo m) ->
  forall m argv s n f, In ((m, argv), (s, n)) l -> In f (pending s) -> exists o, asked argv o /\ sbom_path m o (f_path f).
Proof.
  intros H. induction H as [|l e m argv s H IH B|l m argv s n l' e t k H IH P]; intros K m0 argv0 s0 n0 f0 M F; [destruct M|..].
  - apply in_app_or in M as [M|[M|[]]].
    + apply (IH (fun m a s (Q : member l m a s) => K m a s (match Q with ex_intro _ n Q => ex_intro _ n (in_or_app _ _ _ (or_introl Q)) end)) m0 argv0 s0 n0 f0 M F).
    + injection M as <- <- <- <-. apply (begins_pending m argv e s f0); auto. apply (K m argv s). exists 0. apply in_or_app. right. now left.
  - assert (K' : forall m1 argv1 s1, member (l ++ ((m, argv), (s, n)) :: l') m1 argv1 s1 -> cargo_is_cargo m1).
    { intros m1 argv1 s1 (n1 & Q). apply in_app_or in Q as [Q|[Q|Q]].
      - apply (K m1 argv1 s1). exists n1. apply in_or_app. now left.
      - injection Q as <- <- <- <-. apply (K m argv t). exists k. apply in_or_app. right. now left.
      - apply (K m1 argv1 s1). exists n1. apply in_or_app. right. now right. }
    specialize (IH K'). destruct (pstep_touches _ _ _ _ _ _ P) as [_ Q].
    apply in_app_or in M as [M|[M|M]].
    + apply (IH m0 argv0 s0 n0 f0); auto. apply in_or_app. now left.
    + injection M as <- <- <- <-. destruct (Q f0 F) as (g & G & <-). apply (IH m argv s n g); auto. apply in_or_app. right. now left.
    + apply (IH m0 argv0 s0 n0 f0); auto. apply in_or_app. right. now right.
Qed.

(** Whatever the invocations and the schedule, a file that has changed is an SBOM one of them is asked for *)
Theorem C88_only_sboms d l d' q : crowd d l d' -> (forall m argv s, member l m argv s -> cargo_is_cargo m) -> d' q <> d q ->
  exists m argv s o, member l m argv s /\ asked argv o /\ sbom_path m o q.
Proof.
  intros H. induction H as [|l e m argv s H IH B|l m argv s n l' e t k H IH P]; intros K N; [congruence|..].
  - destruct IH as (m0 & argv0 & s0 & o & (n & M) & A & S); auto.
    + intros m0 argv0 s0 (n & M). apply (K m0 argv0 s0). exists n. apply in_or_app. now left.
    + exists m0, argv0, s0, o. split; [exists n; apply in_or_app; now left|auto].
  - assert (K' : forall m1 argv1 s1, member (l ++ ((m, argv), (s, n)) :: l') m1 argv1 s1 -> cargo_is_cargo m1).
    { intros m1 argv1 s1 (n1 & Q). apply in_app_or in Q as [Q|[Q|Q]].
      - apply (K m1 argv1 s1). exists n1. apply in_or_app. now left.
      - injection Q as <- <- <- <-. apply (K m argv t). exists k. apply in_or_app. right. now left.
      - apply (K m1 argv1 s1). exists n1. apply in_or_app. right. now right. }
    destruct (disk_dec e (disk_of t) q) as [E|E].
    + destruct (IH K') as (m0 & argv0 & s0 & o & (n0 & M) & A & S); [congruence|].
      apply in_app_or in M as [M|[M|M]].
      * exists m0, argv0, s0, o. split; [exists n0; apply in_or_app; now left|auto].
      * injection M as <- <- <- <-. exists m, argv, t, o. split; [exists k; apply in_or_app; right; now left|auto].
      * exists m0, argv0, s0, o. split; [exists n0; apply in_or_app; right; now right|auto].
    + destruct (pstep_touches _ _ _ _ _ _ P) as [Q _]. destruct (Q q E) as (f & F & <-).
      destruct (crowd_pending _ _ _ H K' m argv s n f) as (o & A & S); auto; [apply in_or_app; right; now left|].
      exists m, argv, t, o. split; [exists k; apply in_or_app; right; now left|auto].
Qed.
(** ... and no file is removed *)
Theorem C88_nothing_removed d l d' q : crowd d l d' -> d q <> None -> d' q <> None.
Proof.
  intros H N. induction H as [|l e m argv s H IH B|l m argv s n l' e t k H IH P]; auto.
  assert (Pu : forall e p c, e q <> None -> put e p c q <> None).
  { intros e0 p c X. destruct (list_eq_dec string_dec q p) as [->|Y]; [rewrite put_same; discriminate|now rewrite put_other]. }
  remember (on s e) as s' eqn:Es. assert (X : disk_of s' q <> None) by (subst s'; destruct s; exact IH). clear Es.
  destruct P as [f a u fs gs d0 n0 Na|s0 t n0 T E]; [now apply Pu|]. destruct T; cbn [disk_of] in *; auto. unfold append_to. destruct (d0 (f_path f)); now apply Pu.
Qed.

Lemma apart_sym m1 argv1 m2 argv2 : apart m1 argv1 m2 argv2 -> apart m2 argv2 m1 argv1.
Proof. intros A o1 o2 q A1 A2 S1 S2. exact (A o2 o1 q A2 A1 S2 S1). Qed.
Lemma all_apart_other l m argv x l' : all_apart (l ++ ((m, argv), x) :: l') -> forall m0 argv0 y, In ((m0, argv0), y) (l ++ l') -> apart m argv m0 argv0.
Proof.
  intros A m0 argv0 y M. apply in_app_or in M as [M|M]; apply in_split in M as (u & w & ->).
  - apply apart_sym. apply (A u m0 argv0 y w m argv x l'). now rewrite <- app_assoc.
  - apply (A l m argv x u m0 argv0 y w). reflexivity.
Qed.
Lemma all_apart_init l x : all_apart (l ++ [x]) -> all_apart l.
Proof. intros A b m1 a1 x1 c m2 a2 x2 e E. apply (A b m1 a1 x1 c m2 a2 x2 (e ++ [x])). rewrite E. rewrite <- !app_assoc. cbn. now rewrite <- app_assoc. Qed.
Lemma split_at {A} (l l' b w : list A) x x1 : b ++ x1 :: w = l ++ x :: l' ->
  (exists u, b = l ++ x :: u /\ l' = u ++ x1 :: w) \/ (b = l /\ x1 = x /\ w = l') \/ (exists u, l = b ++ x1 :: u /\ w = u ++ x :: l').
Proof.
  revert l. induction b as [|y b IH]; intros [|z l] E; cbn in E; injection E as -> E.
  - right. left. auto.
  - right. right. exists l. auto.
  - left. exists b. auto.
  - destruct (IH l E) as [(u & -> & ->)|[(-> & -> & ->)|(u & -> & ->)]]; [left; exists u|right; left|right; right; exists u]; auto.
Qed.
Lemma all_apart_same l m argv x y l' : all_apart (l ++ ((m, argv), x) :: l') -> all_apart (l ++ ((m, argv), y) :: l').
Proof.
  intros A b m1 a1 x1 c m2 a2 x2 e E. symmetry in E. pose proof (all_apart_other l m argv x l' A) as O.
  destruct (split_at _ _ _ _ _ _ E) as [(u & -> & F)|[(-> & F & G)|(u & -> & F)]].
  - apply (A (l ++ ((m, argv), x) :: u) m1 a1 x1 c m2 a2 x2 e). rewrite F, <- app_assoc. reflexivity.
  - injection F as <- <- <-. apply (O m2 a2 x2). rewrite <- G. apply in_or_app. right. apply in_or_app. right. now left.
  - destruct (split_at _ _ _ _ _ _ F) as [(w & -> & G)|[(-> & G & H)|(w & -> & G)]].
    + apply (A b m1 a1 x1 (u ++ ((m, argv), x) :: w) m2 a2 x2 e). rewrite G, <- !app_assoc. reflexivity.
    + injection G as <- <- <-. apply apart_sym. apply (O m1 a1 x1). apply in_or_app. left. apply in_or_app. right. now left.
    + apply (A b m1 a1 x1 c m2 a2 x2 (w ++ ((m, argv), x) :: l')). rewrite <- !app_assoc. cbn. try rewrite <- app_assoc. reflexivity.
Qed.
Lemma pending_keep (P : path -> Prop) s n e e' : (forall f, In f (pending s) -> P (f_path f)) -> (forall q, P q -> e' q = e q) -> position s n e -> position s n e'.
Proof. intros F E L. destruct s; auto. cbn in *. destruct rest; auto. unfold content in *. rewrite (E (f_path f)) by (apply F; now left). exact L. Qed.

(** Invocations of which no two are asked for the same file do not disturb each other, however many they are, whenever they begin, in every
    schedule: each of them is where it might be if it had been alone on the first disk; the disk has what they have written, and nothing else has changed *)
Theorem C88_any_number d l d' : crowd d l d' -> (forall m argv s, member l m argv s -> cargo_is_cargo m) -> all_apart l ->
  (forall m argv s, member l m argv s -> exists e, invocation m argv d (on s e)
     /\ (forall q, e q <> d q -> d' q = e q) /\ (forall q o, asked argv o -> sbom_path m o q -> d' q = e q))
  /\ (forall q, (forall m argv s o, member l m argv s -> asked argv o -> ~ sbom_path m o q) -> d' q = d q).
Proof.
  intros H K A. split; [|intros q N; destruct (disk_dec d d' q) as [E|E]; [exact E|exfalso];
    destruct (C88_only_sboms d l d' q H K E) as (m & argv & s & o & M & Q & S); exact (N m argv s o M Q S)].
  set (P := fun (m : machine) (argv : list string) (q : path) => exists o, asked argv o /\ sbom_path m o q).
  set (Q := fun (l : list (invoked_as * (state * nat))) (e : disk) m argv s n => exists a di, begins m argv d a /\ steps m a (on s di)
    /\ (forall f, In f (pending s) -> P m argv (f_path f)) /\ (forall q, P m argv q -> e q = di q) /\ (forall q, ~ P m argv q -> di q = d q) /\ position s n e).
  assert (G : forall m argv s n, In ((m, argv), (s, n)) l -> Q l d' m argv s n).
  { clear - H K A. induction H as [|l e m argv s H IH B|l m argv s n l' e t k H IH T]; intros m0 argv0 s0 n0 M; [destruct M|..].
    - assert (K' : forall m argv s, member l m argv s -> cargo_is_cargo m) by (intros m1 a1 s1 (n1 & X); apply (K m1 a1 s1); exists n1; apply in_or_app; now left).
      apply in_app_or in M as [M|[M|[]]]; [now apply (IH K' (all_apart_init _ _ A))|]. injection M as <- <- <- <-.
      assert (Km : cargo_is_cargo m) by (apply (K m argv s); exists 0; apply in_or_app; right; now left).
      assert (O : forall q, P m argv q -> e q = d q).
      { intros q (o & Ao & So). destruct (disk_dec d e q) as [E|E]; [exact E|exfalso]. destruct (C88_only_sboms d l e q H K' E) as (m1 & a1 & s1 & o1 & (n1 & M1) & A1 & S1).
        pose proof (all_apart_other l m argv (s, 0) [] A m1 a1 (s1, n1)) as Z. rewrite app_nil_r in Z. exact (Z M1 o o1 q Ao A1 So S1). }
      exists (on s d), d. split; [eapply begins_on; exact B|]. split; [constructor|].
      split; [intros f; now apply (begins_pending m argv e s f)|]. split; [exact O|]. split; [auto|]. exact (begins_position _ _ _ _ B _).
    - assert (K' : forall m1 argv1 s1, member (l ++ ((m, argv), (s, n)) :: l') m1 argv1 s1 -> cargo_is_cargo m1).
      { intros m1 argv1 s1 (n1 & X). apply in_app_or in X as [X|[X|X]].
        - apply (K m1 argv1 s1). exists n1. apply in_or_app. now left.
        - injection X as <- <- <- <-. apply (K m argv t). exists k. apply in_or_app. right. now left.
        - apply (K m1 argv1 s1). exists n1. apply in_or_app. right. now right. }
      pose proof (all_apart_same _ _ _ _ (s, n) _ A) as A'. specialize (IH K' A').
      destruct (IH m argv s n) as (a & di & B & St & F & E1 & E2 & L); [apply in_or_app; right; now left|].
      destruct (position_step _ _ _ _ _ _ T L) as [T' L'].
      destruct (step_on m (P m argv) s e t di T' F E1) as (di' & T1 & T2 & T3 & T4 & T5).
      assert (M' : In ((m0, argv0), (s0, n0)) (l ++ l') \/ ((m0, argv0), (s0, n0)) = ((m, argv), (t, k))) by (rewrite in_app_iff in *; destruct M as [M|[M|M]]; auto).
      destruct M' as [M'|M'].
      + pose proof (all_apart_other _ _ _ _ _ A m0 argv0 _ M') as Ap.
        assert (M0 : In ((m0, argv0), (s0, n0)) (l ++ ((m, argv), (s, n)) :: l')) by (rewrite in_app_iff in *; cbn; tauto).
        destruct (IH m0 argv0 s0 n0 M0) as (a0 & d0 & B0 & S0 & F0 & E01 & E02 & L0).
        assert (O : forall q, P m0 argv0 q -> disk_of t q = e q) by (intros q (o0 & A0 & P0); apply T4; intros (o1 & A1 & P1); exact (Ap o1 o0 q A1 A0 P1 P0)).
        exists a0, d0. repeat split; auto; [intros q X; rewrite (O q X); auto|]. now apply (pending_keep (P m0 argv0) _ _ e).
      + injection M' as -> -> -> ->. exists a, di'. split; [exact B|]. split; [eapply steps_next; eauto|]. split; [exact T5|]. split; [exact T2|].
        split; [intros q X; rewrite (T3 q X); auto|exact L']. }
  intros m argv s (n & M). destruct (G m argv s n M) as (a & di & B & S & F & E1 & E2 & L).
  assert (R : invocation m argv d (on s di)) by (eapply begins_steps; eauto).
  exists di. split; [exact R|]. split.
  - intros q N. apply E1. apply (C82_touched m argv d _ q (K m argv s (ex_intro _ n M)) R). destruct s; exact N.
  - intros q o Ao So. apply E1. now exists o.
Qed.

(** When all have succeeded, neither the schedule nor the order in which they were begun makes a difference *)
Theorem C88_any_order d l1 d1 l2 d2 : crowd d l1 d1 -> crowd d l2 d2 -> (forall x, In x (map fst l1) <-> In x (map fst l2)) ->
  (forall m argv s, member l1 m argv s -> cargo_is_cargo m) -> all_apart l1 -> all_apart l2 ->
  (forall m argv s, member l1 m argv s \/ member l2 m argv s -> exists e, s = Ended Succeeded e) -> forall q, d1 q = d2 q.
Proof.
  intros H1 H2 Same K1 A1 A2 Ok q.
  assert (To : forall l l' m argv s, (forall x, In x (map fst l) -> In x (map fst l')) -> member l m argv s -> exists s', member l' m argv s').
  { intros l l' m argv s I (n & M). destruct (proj1 (in_map_iff fst l' (m, argv)) (I _ (in_map fst _ _ M))) as ([x [s' n']] & E & M'). cbn in E. subst x. exists s', n'. exact M'. }
  assert (K2 : forall m argv s, member l2 m argv s -> cargo_is_cargo m).
  { intros m argv s M. destruct (To l2 l1 m argv s (fun x => proj2 (Same x)) M) as (s' & M'). exact (K1 _ _ _ M'). }
  assert (Eq : forall m argv s1 s2 o, member l1 m argv s1 -> member l2 m argv s2 -> asked argv o -> sbom_path m o q -> d1 q = d2 q).
  { intros m argv s1 s2 o M1 M2 A S.
    destruct (proj1 (C88_any_number _ _ _ H1 K1 A1) _ _ _ M1) as (e1 & I1 & _ & E1). destruct (proj1 (C88_any_number _ _ _ H2 K2 A2) _ _ _ M2) as (e2 & I2 & _ & E2).
    destruct (Ok m argv s1 (or_introl M1)) as (x1 & ->). destruct (Ok m argv s2 (or_intror M2)) as (x2 & ->). cbn [on] in *.
    rewrite (E1 q o A S), (E2 q o A S). destruct (C83_overwrites _ _ _ _ _ _ q I1 I2) as [E|[E E']]; congruence. }
  destruct (disk_dec d d1 q) as [D1|D1].
  - destruct (disk_dec d d2 q) as [D2|D2]; [congruence|]. destruct (C88_only_sboms _ _ _ q H2 K2 D2) as (m & argv & s & o & M & A & S).
    destruct (To l2 l1 m argv s (fun x => proj2 (Same x)) M) as (s' & M'). eauto.
  - destruct (C88_only_sboms _ _ _ q H1 K1 D1) as (m & argv & s & o & M & A & S).
    destruct (To l1 l2 m argv s (fun x => proj1 (Same x)) M) as (s' & M'). eauto.
Qed.

(** *** Any number of programs that write the same texts to the same files *)
Section SAME.
  Variables (text : output_file -> outcome string) (gs : list generated).
  Hypothesis distinct : NoDup (map f_path (announced gs)).
  Local Notation all := (announced gs).
  Local Notation held := ((invoked_as * (state * nat)) * list output_file)%type (only parsing).
  Definition reaches (l : list held) (f : output_file) (k : nat) : Prop :=
    exists x s n past, In ((x, (s, n)), past) l /\ reached text s n past f k.
  Lemma sound_iff (R1 R2 R1' R2' : output_file -> nat -> Prop) e : (forall f k, (R1 f k \/ R2 f k) <-> (R1' f k \/ R2' f k)) ->
    sound text all R1 R2 e -> sound text all R1' R2' e.
  Proof.
    intros X S f t I T (k & K). destruct (S f t I T) as (c & C & L & k' & K' & G); [exists k; now rewrite X|]. exists c. split; [exact C|]. split; [exact L|].
    exists k'. rewrite <- X. auto.
  Qed.
  Lemma crowd_share d l d' : crowd d l d' ->
    (forall m argv s, member l m argv s -> (exists o, asked argv o /\ made m o gs) /\ (forall f, file_text m f = text f) /\ ~ broken s) ->
    exists h : list held, map fst h = l /\ (forall x s n past, In ((x, (s, n)), past) h -> stage text all s n past)
      /\ sound text all (reaches h) (fun _ _ => False) d' /\ forall q, ~ In q (map f_path all) -> d' q = d q.
  Proof.
    intros H. induction H as [|l e m argv s H IH B|l m argv s n l' e t k H IH P]; intros K.
    - exists []. split; [reflexivity|]. split; [intros x s n past []|]. split; [|auto]. intros f t _ _ (k & [(x & s & n & past & [] & _)|[]]).
    - destruct IH as (h & E & St & S & Q); [intros m0 a0 s0 (n0 & M); apply (K m0 a0 s0); exists n0; apply in_or_app; now left|].
      destruct (K m argv s) as ((o & A & Md) & Tx & Nb); [exists 0; apply in_or_app; right; now left|].
      pose proof (begins_made _ _ _ _ _ gs A Md B) as ->.
      exists (h ++ [(((m, argv), (Packages gs e, 0)), [])]). split; [now rewrite map_app, E|].
      split; [intros x s n past M; apply in_app_or in M as [M|[M|[]]]; [eauto|injection M as <- <- <- <-; split; [reflexivity|exact I]]|].
      split; [|exact Q]. revert S. apply sound_iff. intros f k. unfold reaches. split; (intros [(x & s & n & past & M & R)|[]]; left).
      + exists x, s, n, past. split; [apply in_or_app; now left|exact R].
      + apply in_app_or in M as [M|[M|[]]]; [now exists x, s, n, past|]. injection M as <- <- <- <-. destruct R as [[[] _]|[[] _]].
    - assert (Nb : ~ broken s) by (intros (d0 & [-> | ->]); cbn [on] in P; inversion P as [|s0 t0 n0 T]; subst; inversion T).
      destruct IH as (h & E & St & S & Q).
      { intros m0 a0 s0 (n0 & M). apply in_app_or in M as [M|[M|M]].
        - apply (K m0 a0 s0). exists n0. apply in_or_app. now left.
        - injection M as <- <- <- <-. destruct (K m argv t) as (X & Y & _); [exists k; apply in_or_app; right; now left|]. auto.
        - apply (K m0 a0 s0). exists n0. apply in_or_app. right. now right. }
      destruct (K m argv t) as (_ & Tx & Nt); [exists k; apply in_or_app; right; now left|].
      apply map_eq_app in E as (h1 & h2' & -> & E1 & E2). destruct h2' as [|[x past] h2]; [discriminate|]. cbn [map fst] in E2. injection E2 as -> E2.
      set (R2 := fun f j => reaches (h1 ++ h2) f j).
      assert (S' : sound text all (reached text s n past) R2 e).
      { revert S. apply sound_iff. intros f j. unfold R2, reaches. split.
        - intros [(x & s0 & n0 & p0 & M & R)|[]]. apply in_app_or in M as [M|[M|M]].
          + right. exists x, s0, n0, p0. split; [apply in_or_app; now left|exact R].
          + injection M as <- <- <- <-. now left.
          + right. exists x, s0, n0, p0. split; [apply in_or_app; now right|exact R].
        - intros [R|(x & s0 & n0 & p0 & M & R)]; left.
          + exists (m, argv), s, n, past. split; [apply in_or_app; right; now left|exact R].
          + exists x, s0, n0, p0. split; [|exact R]. apply in_app_or in M as [M|M]; apply in_or_app; [now left|right; now right]. }
      assert (Sx : stage text all s n past) by (apply (St (m, argv)); apply in_or_app; right; now left).
      destruct (share_step text all distinct m s n past e t k R2 Tx Sx P Nt S') as (past' & T1 & T2 & T3).
      exists (h1 ++ (((m, argv), (t, k)), past') :: h2). split; [rewrite map_app; cbn [map fst]; rewrite <- E1, <- E2; reflexivity|].
      split; [intros x s0 n0 p0 M; apply in_app_or in M as [M|[M|M]]; [apply (St x); apply in_or_app; now left|now injection M as <- <- <- <-|apply (St x); apply in_or_app; right; now right]|].
      split; [|intros q N; rewrite (T3 q N); auto]. revert T2. apply sound_iff. intros f j. unfold R2, reaches. split.
      + intros [R|(x & s0 & n0 & p0 & M & R)]; left.
        * exists (m, argv), t, k, past'. split; [apply in_or_app; right; now left|exact R].
        * exists x, s0, n0, p0. split; [|exact R]. apply in_app_or in M as [M|M]; apply in_or_app; [now left|right; now right].
      + intros [(x & s0 & n0 & p0 & M & R)|[]]. apply in_app_or in M as [M|[M|M]].
        * right. exists x, s0, n0, p0. split; [apply in_or_app; now left|exact R].
        * injection M as <- <- <- <-. now left.
        * right. exists x, s0, n0, p0. split; [apply in_or_app; now right|exact R].
  Qed.
  Lemma crowd_share_done d l d' : crowd d l d' -> l <> [] ->
    (forall m argv s, member l m argv s -> (exists o, asked argv o /\ made m o gs) /\ (forall f, file_text m f = text f) /\ exists e, s = Ended Succeeded e) ->
    (forall f t, In f all -> text f = Done t -> d' (f_path f) = Some t) /\ forall q, ~ In q (map f_path all) -> d' q = d q.
  Proof.
    intros H Ne K. destruct (crowd_share d l d' H) as (h & E & St & S & Q).
    { intros m argv s M. destruct (K m argv s M) as (X & Y & e & ->). split; [exact X|]. split; [exact Y|]. intros (d0 & [Z|Z]); discriminate Z. }
    split; [|exact Q]. intros f t I T.
    assert (P : forall x s n past, In ((x, (s, n)), past) h -> past = all /\ exists e, s = Ended Succeeded e).
    { intros [m argv] s n past M. destruct (K m argv s) as (_ & _ & e & ->); [exists n; rewrite <- E; apply in_map_iff; now exists (((m, argv), (s, n)), past)|].
      destruct (St _ _ _ _ M) as [X _]. cbn [pending] in X. rewrite app_nil_r in X. eauto. }
    destruct (S f t I T) as (c & C & L & k & K' & G).
    { destruct h as [|[[x [s n]] past] h]; [subst l; contradiction|]. destruct (P x s n past) as [-> (e & ->)]; [now left|].
      exists (String.length t). left. exists x, (Ended Succeeded e), n, all. split; [now left|]. left. eauto. }
    rewrite C. f_equal.
    assert (k = String.length t) as ->.
    { destruct K' as [(x & s & n & past & M & R)|[]]. destruct (P _ _ _ _ M) as [-> (e & ->)]. destruct R as [[_ (t' & T' & ->)]|[[] _]]. congruence. }
    apply get_correct. intros i. destruct (Nat.lt_ge_cases i (String.length t)) as [X|X]; [now apply G|]. rewrite !get_none by lia. reflexivity.
  Qed.
End SAME.

(** Invocations that make the same SBOMs may overlap in any way: when all have succeeded the disk is as after one of them *)
Theorem C88_same_sboms d l d' gs m argv s d1 : crowd d l d' -> NoDup (map f_path (announced gs)) ->
  (forall m0 argv0 s0, member l m0 argv0 s0 -> (exists o, asked argv0 o /\ made m0 o gs) /\ (forall f, file_text m0 f = file_text m f) /\ exists e, s0 = Ended Succeeded e) ->
  member l m argv s -> invocation m argv d (Ended Succeeded d1) -> forall q, d' q = d1 q.
Proof.
  intros H N K M I q. destruct (K m argv s M) as ((o & A & Md) & _ & _).
  destruct (crowd_share_done (file_text m) gs N d l d' H) as [F G]; [destruct M as (n & M); now intros ->|exact K|].
  assert (R : run m o d (Ended Succeeded d1)) by (apply C80_command_line in A; inversion I as [o' s' C R E|r C _ E]; congruence).
  destruct (C69_success _ _ _ _ R) as (gs' & M' & _ & F1 & F2). assert (gs' = gs) as -> by (eapply C69_made_once; eauto).
  destruct (in_dec (list_eq_dec string_dec) q (map f_path (announced gs))) as [X|X].
  - apply last_of in X as (bf & f & af & Ea & <- & L). destruct (F1 bf f af Ea L) as (t & Tf & ->). apply F; [|exact Tf]. rewrite Ea. apply in_or_app. right. now left.
  - rewrite (G q X). symmetry. apply F2. intros f Hf <-. apply X. now apply in_map.
Qed.
(** So it is with SOURCE_DATE_EPOCH, for the same request, any number of times *)
Theorem C88_same_request m o meta epoch d l d' m1 argv1 s1 d1 : cargo_is_cargo m -> w_epoch (mc_world m) = Some epoch ->
  workspace m o meta -> distinct_targets meta -> NoDup (cm_members meta) -> directories_differ meta ->
  crowd d l d' -> (forall m0 argv0 s0, member l m0 argv0 s0 -> same_request m o (m0, argv0) /\ exists e, s0 = Ended Succeeded e) ->
  member l m1 argv1 s1 -> invocation m1 argv1 d (Ended Succeeded d1) -> forall q, d' q = d1 q.
Proof.
  intros K E (cfg & man & X & L & G) Dt Nm Dd H Rq M I. destruct (K _ _ _ _ G) as (nodes & W).
  destruct (Rq _ _ _ M) as ((now1 & uuid1 & o1 & E1 & A1 & S1) & e1 & _). cbn [fst snd] in *. subst m1.
  assert (R : run (at_another_time m now1 uuid1) o1 d (Ended Succeeded d1)) by (pose proof A1 as C1; apply C80_command_line in C1; inversion I as [o' s C R Z|r C _ Z]; congruence).
  destruct (C69_success _ _ _ _ R) as (gs & Md & _).
  apply (C88_same_sboms d l d' gs (at_another_time m now1 uuid1) argv1 s1 d1); auto.
  - destruct S1 as [Q1 Q2].
    assert (X1 : run_config (at_another_time m now1 uuid1) o1 = Done cfg) by (unfold run_config in *; rewrite <- Q1; exact X).
    assert (L1 : locate_manifest (at_another_time m now1 uuid1) o1 = Done man) by (unfold locate_manifest in *; rewrite <- Q2; exact L).
    eapply (announced_distinct (at_another_time m now1 uuid1) o1 cfg man meta nodes); eauto. exact (asked_clap _ _ A1).
  - intros m0 argv0 s0 M0. destruct (Rq _ _ _ M0) as ((now2 & uuid2 & o2 & E2 & A2 & S2) & e2 & ->). cbn [fst snd] in *. subst m0. split; [|split; [reflexivity|eauto]].
    exists o2. split; [exact A2|]. apply (made_at_another_time m o1 o2 now1 uuid1 now2 uuid2 epoch gs E); [|exact Md]. destruct S1, S2. split; congruence.
Qed.

(** *** Histories (C83) and two at once (C84, C85) are such crowds *)
Lemma psteps_crowd m argv d l e s n t k : psteps m s n t k -> disk_of s = e -> crowd d (l ++ [((m, argv), (s, n))]) e ->
  crowd d (l ++ [((m, argv), (t, k))]) (disk_of t).
Proof.
  intros H <- C. induction H as [s n|s n t k u j H IH P]; [exact C|]. specialize (IH C). apply (goes_on d l m argv t k [] (disk_of t) u j IH). now rewrite on_same.
Qed.
Theorem C88_then d l e m argv s : crowd d l e -> invocation m argv e s -> exists n, crowd d (l ++ [((m, argv), (s, n))]) (disk_of s).
Proof.
  intros H [o s' C (a & St & Sp)|r C R].
  - assert (B : begins m argv e a) by (apply (begins_run _ _ _ o _ C); exact St).
    assert (W : writing a = false) by (now destruct St). apply (C85_alone m a s' W) in Sp as (k & Sp). exists k.
    apply (psteps_crowd m argv d l e a 0 s' k Sp); [now destruct St|]. now apply joins.
  - exists 0. apply joins; [exact H|]. now apply begins_not.
Qed.
Theorem C88_histories d l d' : history d l d' -> exists l', map fst l' = l /\ crowd d l' d'.
Proof.
  intros H. assert (G : forall d0 l0, crowd d0 l0 d -> exists l', map fst l' = map fst l0 ++ l /\ crowd d0 l' d').
  { induction H as [d|d m argv s l d' I H IH]; intros d0 l0 C; [exists l0; split; [now rewrite app_nil_r|exact C]|].
    destruct (C88_then _ _ _ _ _ _ C I) as (n & C'). destruct (IH _ _ C') as (l' & E & C''). exists l'. split; [|exact C''].
    rewrite E, map_app, <- app_assoc. reflexivity. }
  destruct (G d [] (nobody d)) as (l' & E & C). exists l'. auto.
Qed.
Theorem C88_two m1 argv1 m2 argv2 d s1 s2 d' : at_once m1 argv1 m2 argv2 d s1 s2 d' ->
  exists n1 n2, crowd d [((m1, argv1), (s1, n1)); ((m2, argv2), (s2, n2))] d'.
Proof.
  intros (a & b & n1 & n2 & Ba & Bb & S). exists n1, n2.
  induction S as [|s1 n1 s2 n2 e t k S IH T|s1 n1 s2 n2 e t k S IH T].
  - apply (joins d [_] d m2 argv2 b); [|exact Bb]. apply (joins d [] d m1 argv1 a); [constructor|exact Ba].
  - exact (goes_on d [] m1 argv1 s1 n1 [_] e t k IH T).
  - exact (goes_on d [_] m2 argv2 s2 n2 [] e t k IH T).
Qed.

(** Two at once for JSON and XML, and somebody who asks for help; all three are on their way *)
Example C88_case : exists l d', crowd ex_disk l d' /\ all_apart l /\ (forall m argv s, member l m argv s -> cargo_is_cargo m)
  /\ List.length l = 3 /\ d' ["w"; "app"; "one_bin.cdx.json"] = Some "" /\ d' ["w"; "app"; "one_bin.cdx.xml"] = Some "".
Proof.
  assert (A1 : command_line ex_words = Some (ex_options DBinaries)) by (vm_compute; reflexivity).
  assert (A2 : command_line xml_words = Some xml_options) by (vm_compute; reflexivity).
  assert (A3 : command_line ["cargo-cyclonedx"; "cyclonedx"; "--help"] = None) by (vm_compute; reflexivity).
  assert (Kc : cargo_is_cargo (ex_machine true)).
  { intros p fs os meta H. cbn in H. destruct (path_eqb p _); [|discriminate H]. injection H as <-. exists ex_nodes. exact ex_wf. }
  assert (A4 : forall o, asked ["cargo-cyclonedx"; "cyclonedx"; "--help"] o -> False) by (intros o B; apply C80_command_line in B; congruence).
  destruct (ex_plan (ex_machine true) (ex_options DBinaries)) as (g & f1 & f2 & G & W & P1 & _ & _ & _ & V & _); auto.
  assert (X : exists g f1 f2, generate_sboms (ex_machine true) 100 xml_options = Done [g] /\ write_plan g = Done [f1; f2] /\ f_path f1 = ["w"; "app"; "one_bin.cdx.xml"]
    /\ valid_or_unchecked (ex_machine true) f1 = Done true).
  { destruct (generate_sboms (ex_machine true) 100 xml_options) as [gs| | |] eqn:E; vm_compute in E; try discriminate E; injection E as <-.
    do 3 eexists. split; [reflexivity|]. split; [vm_compute; reflexivity|]. split; vm_compute; reflexivity. }
  destruct X as (h & h1 & h2 & H & Wh & Ph & Vh).
  pose proof (nobody ex_disk) as C.
  apply (joins _ _ _ (ex_machine true) ex_words (Packages [g] ex_disk)) in C; [|apply (begins_run _ _ _ _ _ A1); eapply starts_writing; exact G]. cbn [app] in C.
  eapply (goes_on _ []) in C; [|apply p_other; [apply step_package; exact W|reflexivity]]. cbn [app disk_of on] in C.
  apply (joins _ _ _ (ex_machine true) xml_words (Packages [h] ex_disk)) in C; [|apply (begins_run _ _ _ _ _ A2); eapply starts_writing; exact H]. cbn [app] in C.
  eapply (goes_on _ [_]) in C; [|apply p_other; [apply step_package; exact Wh|reflexivity]]. cbn [app disk_of on] in C.
  eapply (goes_on _ []) in C; [|apply p_other; [apply step_create; exact V|reflexivity]]. cbn [app disk_of on] in C.
  eapply (joins _ _ _ (ex_machine true) ["cargo-cyclonedx"; "cyclonedx"; "--help"]) in C; [|apply (begins_not _ _ _ Succeeded A3); now left]. cbn [app] in C.
  eapply (goes_on _ [_]) in C; [|apply p_other; [apply step_create; exact Vh|reflexivity]]. cbn [app disk_of on] in C.
  do 2 eexists. split; [exact C|]. split; [|split; [|split; [reflexivity|]]].
  - assert (Ap : apart (ex_machine true) ex_words (ex_machine true) xml_words) by exact (proj1 C84_case).
    intros bf m1 w1 x1 bt m2 w2 x2 af E. destruct bf as [|y0 bf]; cbn [app] in E.
    + injection E as <- <- <- E. destruct bt as [|y1 bt]; cbn [app] in E; [injection E as <- <- <- _; exact Ap|]. injection E as <- E.
      destruct bt as [|y2 bt]; cbn [app] in E; [injection E as <- <- <- _; intros o1 o2 q _ B; destruct (A4 _ B)|]. injection E as <- E. destruct bt; discriminate E.
    + injection E as <- E. destruct bf as [|y1 bf]; cbn [app] in E.
      * injection E as <- <- <- E. destruct bt as [|y1 bt]; cbn [app] in E; [injection E as <- <- <- _; intros o1 o2 q _ B; destruct (A4 _ B)|]. injection E as <- E. destruct bt; discriminate E.
      * injection E as <- E. destruct bf as [|y2 bf]; cbn [app] in E; [injection E as <- <- <- E; destruct bt; discriminate E|]. injection E as <- E. destruct bf; discriminate E.
  - intros m argv s (n & M). cbn [In] in M. destruct M as [M|[M|[M|[]]]]; injection M as <- <- <- <-; exact Kc.
  - rewrite P1, Ph. split; reflexivity.
Qed.
(** The same request three times with SOURCE_DATE_EPOCH: two at once, and then once more *)
Example C88_case_same : exists l d', let m := sh_machine (Some "0") in
  cargo_is_cargo m /\ w_epoch (mc_world m) = Some "0" /\ workspace m sh_options ex_meta /\ distinct_targets ex_meta /\ NoDup (cm_members ex_meta) /\ directories_differ ex_meta
  /\ crowd ex_disk l d' /\ List.length l = 3 /\ (forall m0 argv0 s0, member l m0 argv0 s0 -> same_request m sh_options (m0, argv0) /\ exists e, s0 = Ended Succeeded e)
  /\ d' ["w"; "app"; "app.cdx.json"] = Some "no serial number".
Proof.
  destruct (sh_plan (time1 (sh_machine (Some "0"))) "no serial number") as (g1 & f1 & G1 & W1 & P1 & V1 & T1); [cbn; auto|].
  destruct (sh_plan (time2 (sh_machine (Some "0"))) "no serial number") as (g2 & f2 & G2 & W2 & P2 & V2 & T2); [cbn; auto 6|].
  destruct (both_write (time1 (sh_machine (Some "0"))) (time2 (sh_machine (Some "0"))) g1 g2 f1 f2 "no se" "rial number" "no serial " "number" ex_disk) as (e1 & e2 & d' & S & D); auto; try discriminate; [congruence|].
  destruct C85_case as (_ & _ & _ & _ & _ & K & E & Wk & Dt & Nm & Dd & Q1 & Q2 & _).
  pose proof sh_asked as A. pose proof A as C. apply C80_command_line in C.
  destruct (C88_two (time1 (sh_machine (Some "0"))) sh_words (time2 (sh_machine (Some "0"))) sh_words ex_disk (Ended Succeeded e1) (Ended Succeeded e2) d') as (n1 & n2 & H).
  { exists (Packages [g1] ex_disk), (Packages [g2] ex_disk), 0, 0. split; [apply (begins_run _ _ _ _ _ C); eapply starts_writing; exact G1|].
    split; [apply (begins_run _ _ _ _ _ C); eapply starts_writing; exact G2|exact S]. }
  assert (R : exists d3, invocation (time1 (sh_machine (Some "0"))) sh_words d' (Ended Succeeded d3) /\ d3 (f_path f1) = Some "no serial number").
  { eexists. split.
    - apply (invoked _ _ _ _ _ C). exists (Packages [g1] d'). split; [eapply starts_writing; exact G1|].
      eapply steps_next; [|apply step_exit]. eapply steps_next; [|apply step_package_done]. eapply steps_next; [|apply step_close].
      eapply steps_next; [|apply (step_write _ f1 "no serial number" ""); discriminate]. rewrite append_nil_r, <- T1. now apply first_begun.
    - unfold append_to. rewrite !put_same. reflexivity. }
  destruct R as (d3 & R & D3). destruct (C88_then _ _ _ _ _ _ H R) as (n3 & H3). cbn [app disk_of] in H3.
  do 2 eexists. cbn zeta. split; [exact K|]. split; [exact E|]. split; [exact Wk|]. split; [exact Dt|]. split; [exact Nm|]. split; [exact Dd|].
  split; [exact H3|]. split; [reflexivity|]. split; [|rewrite <- P1; exact D3].
  intros m0 argv0 s0 (n & M). cbn [In] in M. destruct M as [M|[M|[M|[]]]]; injection M as <- <- <- <-; split; eauto.
Qed.

Print Assumptions C88_only_sboms.
Print Assumptions C88_any_number.
Print Assumptions C88_any_order.
Print Assumptions C88_same_request.
Print Assumptions C88_histories.

(** Documents that are accepted have the parts listed in ReqSpec.v *)
From Verif Require Import Base ModelTypes Strings Enums GenModel Json JsonLemmas JsonModel
  Xml XmlLemmas XmlModel XmlSpec2 XmlGeneral XmlFine ReqSpec.
Open Scope string_scope.
Open Scope list_scope.
Open Scope nat_scope.
Open Scope shape_scope.

(** ** Every element that is read has been accepted by its reader *)
Lemma tbind_ok {A B} (r : tres A) (f : A -> tres B) b : tbind r f = TOk b -> exists a, r = TOk a /\ f a = TOk b.
Proof. destruct r; cbn; try discriminate. eauto. Qed.
Lemma of_opt_ok {A} (o : option A) a : of_opt o = TOk a -> o = Some a.
Proof. destruct o; cbn; congruence. Qed.

Definition accepts {A} (d : desc A) n ats kids : Prop := exists a, tr d n ats kids = TOk a.

(** an element among [kids], or inside elements that [arm] does not know *)
Inductive deep {X} (arm : string -> option X) (o : bool) (m : string) (ats : attrs) (ks : list xml) : list xml -> Prop :=
| deep_child kids : In (Elem m ats ks) kids -> deep arm o m ats ks kids
| deep_inside q a l kids : o = true -> arm q = None -> In (Elem q a l) kids -> deep arm o m ats ks l -> deep arm o m ats ks kids.
Lemma absorb_in {S} p arm chars n m ats ks r kids :
  deep arm (match p with Open => true | _ => false end) m ats ks kids -> arm m = Some r ->
  forall (st st' : S), absorb p arm chars n kids st = TOk st' -> exists u, r ats ks = TOk u.
Proof.
  intros D Er. induction D as [kids I|q a l kids Hp Eq I D IH].
  - induction kids as [|y l IH]; intros st st' E; [contradiction|].
    cbn [absorb] in E. apply tbind_ok in E as (s & E1 & E2). destruct I as [->|I]; [|eapply IH; eauto].
    cbn [absorb1] in E1. rewrite Er in E1. apply tbind_ok in E1 as (u & E1 & _). eauto.
  - destruct p; try discriminate. clear D. induction kids as [|y k IHk]; intros st st' E; [contradiction|].
    cbn [absorb] in E. apply tbind_ok in E as (s & E1 & E2). destruct I as [->|I]; [|eapply IHk; eauto].
    cbn [absorb1] in E1. rewrite Eq in E1. destruct (String.eqb q n); [discriminate|].
    exact (IH st s E1).
Qed.
Lemma odd_in {S} arm : forall kids (st st' : S) m ats ks r,
  odd_absorb arm kids st = TOk st' -> In (Elem m ats ks) kids -> arm m = Some r -> exists u, r ats ks = TOk u.
Proof.
  induction kids as [|y l IH]; intros st st' m ats ks r E I Er; [contradiction|].
  destruct y as [m' ats' ks'| | |]; cbn [odd_absorb] in E; try discriminate.
  destruct (arm m') as [r'|] eqn:Em; [|discriminate].
  apply tbind_ok in E as (u & E1 & E2). apply tbind_ok in E2 as (s & E2 & E3).
  destruct I as [[= <- <- <-]|I]; [|eapply IH; eauto]. rewrite Er in Em. injection Em as <-. eauto.
Qed.
Lemma lookup_app {X} k (a b : list (string * X)) : lookup k (a ++ b) = match lookup k a with Some x => Some x | None => lookup k b end.
Proof. induction a as [|[k' x] a IH]; cbn; [reflexivity|]. destruct (String.eqb k k'); auto. Qed.

(** the first arm for a name *)
Definition arm_ok {S} (sh : shape S) m (e : option {B : Type & desc B}) : Prop :=
  match e with
  | Some (existT _ B d) => exists r, tr_arm sh m = Some r /\ forall ats ks u, r ats ks = TOk u -> accepts d m ats ks
  | None => tr_arm sh m = None
  end.
Lemma arms_ok {S} (sh : shape S) m : arm_ok sh m (lookup m (arms sh)).
Proof.
  induction sh as [| A S tag d i u| |S a IHa b IHb|S T a IHa b IHb]; cbn [arms lookup]; try reflexivity.
  - destruct (String.eqb m tag) eqn:Em; cbn [arm_ok tr_arm]; rewrite Em; [|reflexivity]. eexists. split; [reflexivity|].
    intros ats ks w E. apply tbind_ok in E as (x & E & _). now exists x.
  - rewrite lookup_app. destruct (lookup m (arms a)) as [[B d]|]; unfold arm_ok in *; cbn [tr_arm].
    + destruct IHa as (r & -> & H). eauto.
    + rewrite IHa. exact IHb.
  - rewrite lookup_app. destruct (lookup m (arms a)) as [[B d]|]; unfold arm_ok in *; cbn [tr_arm].
    + destruct IHa as (r & -> & H). eexists. split; [reflexivity|].
      intros ats ks w E. apply tbind_ok in E as (x & E & _). eapply H; eauto.
    + rewrite IHa. destruct (lookup m (arms b)) as [[B d]|]; [|now rewrite IHb].
      destruct IHb as (r & -> & H). eexists. split; [reflexivity|].
      intros ats ks w E. apply tbind_ok in E as (x & E & _). eapply H; eauto.
Qed.
Lemma seen_deep {A} (d : desc A) S (sh : shape S) m ats ks kids :
  arms_of d = arms sh -> seen d m ats ks kids -> deep (tr_arm sh) (looks_inside d) m ats ks kids.
Proof.
  intros E D. induction D as [kids I|o a l kids Hp Eq I D IH]; [now apply deep_child|].
  eapply deep_inside; eauto. pose proof (arms_ok sh o) as H. rewrite <- E, Eq in H. exact H.
Qed.
Lemma seen_map {A B} (f : string -> attrs -> A -> option B) (d : desc A) m ats ks kids :
  seen (DMap f d) m ats ks kids -> seen d m ats ks kids.
Proof. intros D. induction D; [now apply seen_child|eapply seen_inside; eauto]. Qed.
Lemma accepts_child {A} (d : desc A) : forall n ats kids m ats' ks B (d' : desc B),
  accepts d n ats kids -> seen d m ats' ks kids -> lookup m (arms_of d) = Some (existT desc B d') ->
  accepts d' m ats' ks.
Proof.
  induction d as [A p|A B f d IH|S p sh|S A sh d IH upd|A] using desc_ind; intros n ats kids m ats' ks X d' (a & E) I L; cbn [arms_of] in L; try discriminate.
  - cbn [tr] in E. apply tbind_ok in E as (x & E & _). eapply IH; [exists x; exact E|eapply seen_map; exact I|exact L].
  - cbn [tr] in E. pose proof (arms_ok sh m) as H. rewrite L in H. destruct H as (r & Er & H).
    apply (seen_deep _ S sh) in I; [|reflexivity]. cbn [looks_inside] in I.
    destruct (absorb_in _ _ _ _ _ _ _ _ _ I Er _ _ E) as (u & Eu). eapply H; eauto.
  - cbn [tr] in E. pose proof (arms_ok sh m) as H. rewrite L in H. destruct H as (r & Er & H).
    destruct I as [kids I|]; [|discriminate].
    destruct (odd_in _ _ _ _ _ _ _ _ E I Er) as (u & Eu). eapply H; eauto.
Qed.

(** ** What an accepting reader has seen *)
Definition needs {A} (d : desc A) (n : string) (r : requirement) : Prop :=
  forall ats kids, accepts d n ats kids -> met ats kids r.

Lemma attr_in k ats : attr k ats <> None -> exists x, In (k, x) ats.
Proof.
  induction ats as [|[k' x] l IH]; cbn; [congruence|]. destruct (String.eqb_spec k' k) as [->|].
  - eauto.
  - intros H. destruct (IH H) as (y & Hy). eauto.
Qed.

(** [sh] keeps [Q] as long as none of the elements [tags] is met *)
Inductive holds (tags : list string) : forall S, shape S -> (S -> Prop) -> Prop :=
| h_on A S tag (d : desc A) (i : S) upd (Q : S -> Prop) : In tag tags -> Q i -> holds tags S (SOn tag d i upd) Q
| h_or S (a b : shape S) Q : holds tags S a Q -> holds tags S b Q -> holds tags S (SOr a b) Q
| h_fst S T (a : shape S) (b : shape T) Q : holds tags S a Q -> holds tags (S * T) (SPair a b) (fun s => Q (fst s))
| h_snd S T (a : shape S) (b : shape T) Q : holds tags T b Q -> holds tags (S * T) (SPair a b) (fun s => Q (snd s))
| h_and S T (a : shape S) (b : shape T) Q R : holds tags S a Q -> holds tags T b R ->
    holds tags (S * T) (SPair a b) (fun s => Q (fst s) /\ R (snd s)).

Definition keeps (tags : list string) {S} (sh : shape S) (Q : S -> Prop) : Prop :=
  Q (init sh)
  /\ (forall m r ats ks u st st', tr_arm sh m = Some r -> ~ In m tags -> r ats ks = TOk u ->
        Q st -> u st = Some st' -> Q st')
  /\ (forall u, on_chars sh = Some u -> forall s st, Q st -> Q (u s st)).

Lemma on_fst_ok {S T} (f : S -> option S) (p q : S * T) : on_fst f p = Some q -> f (fst p) = Some (fst q) /\ snd q = snd p.
Proof. unfold on_fst. destruct (f (fst p)); [|discriminate]. intros [= <-]. auto. Qed.
Lemma on_snd_ok {S T} (f : T -> option T) (p q : S * T) : on_snd f p = Some q -> f (snd p) = Some (snd q) /\ fst q = fst p.
Proof. unfold on_snd. destruct (f (snd p)); [|discriminate]. intros [= <-]. auto. Qed.

Lemma keeps_fst tags {S T} (a : shape S) (b : shape T) Q : keeps tags a Q -> keeps tags (SPair a b) (fun s => Q (fst s)).
Proof.
  intros (A1 & A2 & A3). split; [exact A1|]. split.
  - intros m r ats ks u st st' E N R Hq U. cbn [tr_arm] in E. destruct (tr_arm a m) as [ra|] eqn:Ea.
    + injection E as <-. apply tbind_ok in R as (w & Rw & [= <-]). apply on_fst_ok in U as (U & _). eapply A2; eauto.
    + destruct (tr_arm b m) as [rb|]; [|discriminate]. injection E as <-. apply tbind_ok in R as (w & Rw & [= <-]).
      apply on_snd_ok in U as (_ & ->). exact Hq.
  - intros u E s st Hq. cbn [on_chars] in E. destruct (on_chars a) eqn:Ea.
    + injection E as <-. cbn [fst]. eapply A3; eauto.
    + destruct (on_chars b); [|discriminate]. injection E as <-. exact Hq.
Qed.
Lemma keeps_snd tags {S T} (a : shape S) (b : shape T) Q : keeps tags b Q -> keeps tags (SPair a b) (fun s => Q (snd s)).
Proof.
  intros (B1 & B2 & B3). split; [exact B1|]. split.
  - intros m r ats ks u st st' E N R Hq U. cbn [tr_arm] in E. destruct (tr_arm a m) as [ra|] eqn:Ea.
    + injection E as <-. apply tbind_ok in R as (w & Rw & [= <-]). apply on_fst_ok in U as (_ & ->). exact Hq.
    + destruct (tr_arm b m) as [rb|] eqn:Eb; [|discriminate]. injection E as <-. apply tbind_ok in R as (w & Rw & [= <-]).
      apply on_snd_ok in U as (U & _). eapply B2; eauto.
  - intros u E s st Hq. cbn [on_chars] in E. destruct (on_chars a) eqn:Ea.
    + injection E as <-. exact Hq.
    + destruct (on_chars b) eqn:Eb; [|discriminate]. injection E as <-. cbn [snd]. eapply B3; eauto.
Qed.
Lemma holds_keeps tags S (sh : shape S) Q : holds tags S sh Q -> keeps tags sh Q.
Proof.
  induction 1 as [A S tag d i upd Q I Qi|S a b Q _ (A1 & A2 & A3) _ (B1 & B2 & B3)
                 |S T a b Q _ IH|S T a b Q _ IH|S T a b Q R _ IH _ IH'].
  - split; [exact Qi|]. split; [|discriminate]. intros m r ats ks u st st' E N _ _ _. cbn [tr_arm] in E.
    destruct (String.eqb_spec m tag) as [->|]; [contradiction|discriminate].
  - split; [exact A1|]. split.
    + intros m r ats ks u st st' E. cbn [tr_arm] in E.
      destruct (tr_arm a m) eqn:Ea; [injection E as ->; now apply (A2 m)|now apply (B2 m)].
    + intros u E. cbn [on_chars] in E. destruct (on_chars a) eqn:Ea; [injection E as ->; now apply A3|now apply B3].
  - now apply keeps_fst.
  - now apply keeps_snd.
  - apply (keeps_fst _ a b) in IH. apply (keeps_snd _ a b) in IH'.
    destruct IH as (A1 & A2 & A3), IH' as (B1 & B2 & B3). split; [now split|]. split.
    + intros m r ats ks u st st' E N Er (H & K) U. split; [eapply A2; eauto|eapply B2; eauto].
    + intros u E s st (H & K). split; [now apply A3|now apply B3].
Qed.

Lemma in_tags (m : string) tags : In m tags \/ ~ In m tags.
Proof. destruct (in_dec string_dec m tags); auto. Qed.
Lemma child_later tags y l : child tags l -> child tags (y :: l).
Proof. intros (t & a & k & I & J). exists t, a, k. split; [exact I|]. now right. Qed.
Lemma inside_later tags y l : inside tags l -> inside tags (y :: l).
Proof.
  intros H. inversion H; subst.
  - apply inside_child. now apply child_later.
  - eapply inside_other; [right; eassumption|assumption].
Qed.

Lemma absorb_child tags {S} p (sh : shape S) Q n : p <> Open -> keeps tags sh Q -> forall kids st st',
  absorb p (tr_arm sh) (on_chars sh) n kids st = TOk st' -> Q st -> child tags kids \/ Q st'.
Proof.
  intros P (_ & K & C). induction kids as [|y l IH]; intros st st' E Hq; [cbn in E; injection E as <-; now right|].
  cbn [absorb] in E. apply tbind_ok in E as (s & E1 & E2).
  enough (child tags (y :: l) \/ Q s) as [H|H]; [now left| |].
  { destruct (IH _ _ E2 H) as [H'|H']; [left; now apply child_later|now right]. }
  destruct y as [m ats ks|t|t|]; cbn [absorb1] in E1.
  - destruct (in_tags m tags) as [I|N]; [left; exists m, ats, ks; split; [exact I|now left]|]. right.
    destruct (tr_arm sh m) as [r|] eqn:Er.
    + apply tbind_ok in E1 as (u & Eu & E1). apply of_opt_ok in E1. eapply K; eauto.
    + destruct p; [discriminate| |congruence]. injection E1 as <-. exact Hq.
  - right. destruct (on_chars sh) as [u|] eqn:Eu; [injection E1 as <-; now apply C|].
    destruct p; congruence.
  - destruct p; congruence.
  - destruct p; congruence.
Qed.

Lemma absorb_inside tags {S} (sh : shape S) Q n : keeps tags sh Q -> forall kids st st',
  absorb Open (tr_arm sh) (on_chars sh) n kids st = TOk st' -> Q st -> inside tags kids \/ Q st'.
Proof.
  intros (_ & K & C).
  assert (G : forall l, Forall (fun y => forall st st', absorb1 Open (tr_arm sh) (on_chars sh) n y st = TOk st' -> Q st ->
      inside tags [y] \/ Q st') l -> forall st st',
      absorb Open (tr_arm sh) (on_chars sh) n l st = TOk st' -> Q st -> inside tags l \/ Q st').
  { induction 1 as [|y l Hy Hl IH]; intros st st' E Hq; [cbn in E; injection E as <-; now right|].
    cbn [absorb] in E. apply tbind_ok in E as (s & E1 & E2).
    destruct (Hy _ _ E1 Hq) as [H|H].
    - left. inversion H as [? (t & a & k & I & J)|m a k ? J J']; subst.
      + apply inside_child. exists t, a, k. split; [exact I|]. destruct J as [->|[]]. now left.
      + eapply inside_other; [|exact J']. destruct J as [->|[]]. now left.
    - destruct (IH _ _ E2 H) as [H'|H']; [left; now apply inside_later|now right]. }
  intros kids. apply G. apply Forall_forall. intros y _.
  induction y as [m ats ks IH|t|t|] using xml_ind'; intros st st' E Hq; cbn [absorb1] in E.
  - destruct (in_tags m tags) as [I|N].
    { left. apply inside_child. exists m, ats, ks. split; [exact I|now left]. }
    destruct (tr_arm sh m) as [r|] eqn:Er.
    + right. apply tbind_ok in E as (u & Eu & E1). apply of_opt_ok in E1. eapply K; eauto.
    + destruct (String.eqb m n); [discriminate|].
      change (absorb Open (tr_arm sh) (on_chars sh) n ks st = TOk st') in E.
      destruct (G ks IH _ _ E Hq) as [H|H]; [left|now right].
      eapply inside_other; [now left|exact H].
  - right. destruct (on_chars sh) as [u|] eqn:Eu; [injection E as <-; now apply C|]. injection E as <-. exact Hq.
  - injection E as <-. now right.
  - injection E as <-. now right.
Qed.
Lemma odd_child tags {S} (sh : shape S) Q : keeps tags sh Q -> forall kids st st',
  odd_absorb (tr_arm sh) kids st = TOk st' -> Q st -> child tags kids \/ Q st'.
Proof.
  intros (_ & K & _). induction kids as [|y l IH]; intros st st' E Hq; [cbn in E; injection E as <-; now right|].
  destruct y as [m ats ks| | |]; cbn [odd_absorb] in E; try discriminate.
  destruct (tr_arm sh m) as [r|] eqn:Er; [|discriminate].
  apply tbind_ok in E as (u & E1 & E2). apply tbind_ok in E2 as (s & E2 & E3). apply of_opt_ok in E2.
  destruct (in_tags m tags) as [I|N]; [left; exists m, ats, ks; split; [exact I|now left]|].
  destruct (IH _ _ E3) as [H|H]; [eapply K; eauto|left; now apply child_later|now right].
Qed.

(** Loops with a final step *)
Definition refuses {S A} (sh : shape S) (fin : attrs -> S -> option A) (tags : list string) : Prop :=
  exists Q, holds tags S sh Q /\ forall ats st, Q st -> fin ats st = None.
Definition wants {S A} (fin : attrs -> S -> option A) (k : string) : Prop :=
  forall ats st, attr k ats = None -> fin ats st = None.
Lemma loop_needs {S A} p (sh : shape S) (fin : string -> attrs -> S -> option A) n ats' tags' :
  p <> Open -> Forall (wants (fin n)) ats' -> Forall (refuses sh (fin n)) tags' ->
  needs (DMap fin (DLoop p sh)) n (Req ats' tags' []).
Proof.
  intros P Ha Hc ats kids (a & E). cbn [tr] in E. apply tbind_ok in E as (st & E & E'). apply of_opt_ok in E'.
  rewrite Forall_forall in Ha, Hc. repeat split; cbn [r_attributes r_children r_inside]; [| |contradiction].
  - intros k I. apply attr_in. intros N. rewrite (Ha _ I _ st N) in E'. discriminate.
  - intros tags I. destruct (Hc _ I) as (Q & HQ & F). pose proof (holds_keeps _ _ _ _ HQ) as K.
    destruct (absorb_child tags p sh Q n P K _ _ _ E (proj1 K)) as [H|H]; [exact H|]. rewrite (F ats st H) in E'. discriminate.
Qed.
Lemma open_needs {S A} (sh : shape S) (fin : string -> attrs -> S -> option A) n tags' :
  Forall (refuses sh (fin n)) tags' -> needs (DMap fin (DLoop Open sh)) n (Req [] [] tags').
Proof.
  intros Hc ats kids (a & E). cbn [tr] in E. apply tbind_ok in E as (st & E & E'). apply of_opt_ok in E'.
  rewrite Forall_forall in Hc. repeat split; cbn [r_attributes r_children r_inside]; try contradiction.
  intros tags I. destruct (Hc _ I) as (Q & HQ & F). pose proof (holds_keeps _ _ _ _ HQ) as K.
  destruct (absorb_inside tags sh Q n K _ _ _ E (proj1 K)) as [H|H]; [exact H|]. rewrite (F ats st H) in E'. discriminate.
Qed.
Lemma odd_needs {S B A} (sh : shape S) (d : desc B) upd (fin : string -> attrs -> S -> option A) n tags' :
  Forall (refuses sh (fin n)) tags' -> needs (DMap fin (DOdd sh d upd)) n (Req [] tags' []).
Proof.
  intros Hc ats kids (a & E). cbn [tr] in E. apply tbind_ok in E as (st & E & E'). apply of_opt_ok in E'.
  rewrite Forall_forall in Hc. repeat split; cbn [r_attributes r_children r_inside]; try contradiction.
  intros tags I. destruct (Hc _ I) as (Q & HQ & F). pose proof (holds_keeps _ _ _ _ HQ) as K.
  destruct (odd_child tags sh Q K _ _ _ E (proj1 K)) as [H|H]; [exact H|]. rewrite (F ats st H) in E'. discriminate.
Qed.
Lemma prim_needs {A B} (q : desc B) (fin : string -> attrs -> B -> option A) n ats' :
  Forall (wants (fin n)) ats' -> needs (DMap fin q) n (Req ats' [] []).
Proof.
  intros Ha ats kids (a & E). cbn [tr] in E. apply tbind_ok in E as (st & E & E'). apply of_opt_ok in E'.
  rewrite Forall_forall in Ha. repeat split; cbn [r_attributes r_children r_inside]; try contradiction.
  intros k I. apply attr_in. intros N. rewrite (Ha _ I _ st N) in E'. discriminate.
Qed.
Lemma map_needs {A B} (d : desc A) (f : string -> attrs -> A -> option B) n r : needs d n r -> needs (DMap f d) n r.
Proof. intros H ats kids (b & E). cbn [tr] in E. apply tbind_ok in E as (a & E & _). apply H. now exists a. Qed.
Lemma fuel_needs A n r : needs (@DFuel A) n r.
Proof. intros ats kids (a & E). discriminate. Qed.

(** ** Every reader meets the requirements of its place *)
Definition rows (v : spec_version) (p : list string) : list requirement :=
  map snd (filter (fun r => starts (fst r) p) (requirements v)).
Definition own (v : spec_version) {A} (d : desc A) (p : list string) : Prop := Forall (needs d (hd "" p)) (rows v p).
Fixpoint below (v : spec_version) {A} (d : desc A) (p : list string) {struct d} : Prop :=
  match d with
  | DMap _ d => below v d p
  | DLoop _ sh => sbelow v sh p
  | DOdd sh _ _ => sbelow v sh p
  | DPrim _ | DFuel => True
  end
with sbelow (v : spec_version) {S} (sh : shape S) (p : list string) {struct sh} : Prop :=
  match sh with
  | SOn tag d _ _ => own v d (tag :: p) /\ below v d (tag :: p)
  | SOr a b => sbelow v a p /\ sbelow v b p
  | SPair a b => sbelow v a p /\ sbelow v b p
  | SNone _ | SChars _ _ => True
  end.
Definition meets (v : spec_version) {A} (d : desc A) (p : list string) : Prop := own v d p /\ below v d p.

Section MEETS.
Variable v : spec_version.
Notation sbelow := (sbelow v). Notation below := (below v). Notation meets := (meets v).

Lemma sbelow_lookup {S} (sh : shape S) p m B (d : desc B) :
  sbelow sh p -> lookup m (arms sh) = Some (existT desc B d) -> meets d (m :: p).
Proof.
  induction sh as [| A S tag d' i u| |S a IHa b IHb|S T a IHa b IHb]; cbn [arms sbelow]; try discriminate.
  - cbn [lookup]. destruct (String.eqb_spec m tag) as [->|]; [|discriminate]. intros H E.
    apply (f_equal (fun o => match o with Some (existT _ X y) => meets y (tag :: p) | None => False end)) in E.
    change (meets d' (tag :: p) = meets d (tag :: p)) in E. rewrite <- E. exact H.
  - intros (Ha & Hb). rewrite lookup_app. destruct (lookup m (arms a)) eqn:E; [intros [= ->]; auto|auto].
  - intros (Ha & Hb). rewrite lookup_app. destruct (lookup m (arms a)) eqn:E; [intros [= ->]; auto|auto].
Qed.
Lemma below_lookup {A} (d : desc A) p m B (d' : desc B) :
  below d p -> lookup m (arms_of d) = Some (existT desc B d') -> meets d' (m :: p).
Proof.
  induction d as [A q|A X f d IH|S q sh|S X sh d IH upd|A]; cbn [arms_of below]; try discriminate.
  - exact IH.
  - apply sbelow_lookup.
  - apply sbelow_lookup.
Qed.
Theorem found_met {R} (root : desc R) n ats kids : meets root [n] -> accepts root n ats kids ->
  forall A p (d : desc A) ats' kids', found root n ats kids A p d ats' kids' ->
  meets d p /\ accepts d (hd "" p) ats' kids'.
Proof.
  intros M Ac A p d ats' kids' H. induction H as [|A p d a ks m B d' a' ks' H (Hm & Ha) Sn L]; [now split|].
  split; [eapply below_lookup; [apply Hm|exact L]|]. cbn [hd]. eapply accepts_child; eauto.
Qed.
End MEETS.

(** *** The required parts of each reader *)
Ltac split_states := repeat match goal with x : (_ * _)%type |- _ => destruct x end.
Ltac fails :=
  intros; split_states; cbn [fst snd] in *;
  repeat match goal with H : _ /\ _ |- _ => destruct H end; subst; unfold bindo; cbn beta iota zeta;
  repeat match goal with H : attr _ _ = None |- _ => rewrite H; clear H end;
  repeat match goal with |- match ?x with _ => _ end = None => destruct x end; reflexivity.
Ltac hold :=
  first [ apply (h_on _ _ _ _ _ _ _ (fun o => o = None)); [cbn; tauto|reflexivity]
        | apply h_or; [hold|hold]
        | apply h_and; [hold|hold]
        | apply h_fst; hold
        | apply h_snd; hold ].
Ltac by_loop :=
  apply loop_needs;
  [ discriminate
  | repeat (apply Forall_cons; [unfold wants; fails|]); apply Forall_nil
  | cbn [app]; repeat (apply Forall_cons; [unfold refuses; eexists; split; [hold|fails]|]); apply Forall_nil ].
Ltac by_open := apply open_needs; repeat (apply Forall_cons; [unfold refuses; eexists; split; [hold|fails]|]); apply Forall_nil.
Ltac by_prim := apply prim_needs; repeat (apply Forall_cons; [unfold wants; fails|]); apply Forall_nil.

Section READERS.
Context (F : float_text) (v : spec_version).

Lemma needs_ref e : In e ["dependency"; "assembly"; "vulnerability"; "subject"] -> needs rd_ref e (Req ["ref"] [] []).
Proof. intros I. cbn [In] in I. repeat destruct I as [<-|I]; try contradiction; (unfold rd_ref; by_prim). Qed.
Lemma needs_property : needs rd_property "property" (Req ["name"] [] []).
Proof. unfold rd_property. by_prim. Qed.
Lemma needs_hash : needs rd_hash "hash" (Req ["alg"] [] []).
Proof. unfold rd_hash. by_prim. Qed.
Lemma needs_classification : needs rd_classification "classification" (Req ["flow"] [] []).
Proof. unfold rd_classification. by_prim. Qed.
Lemma needs_external_reference e : In e ["reference"; "externalReference"] -> needs rd_external_reference e (Req ["type"] [["url"]] []).
Proof. intros I. cbn [In] in I. repeat destruct I as [<-|I]; try contradiction; (unfold rd_external_reference; by_loop). Qed.
Lemma needs_signer e : In e ["signer"; "chain"] -> needs rd_signer e (Req [] [["algorithm"]; ["value"]] []).
Proof. intros I. cbn [In] in I. repeat destruct I as [<-|I]; try contradiction; (unfold rd_signer; by_loop). Qed.
Lemma needs_license : needs (rd_license v) "license" (Req [] [["id"; "name"]] []).
Proof. unfold rd_license. by_loop. Qed.
Lemma needs_license_contact e : In e ["licensor"; "licensee"; "purchaser"] -> needs rd_license_contact e (Req [] [["organization"; "individual"]] []).
Proof. intros I. cbn [In] in I. repeat destruct I as [<-|I]; try contradiction; (unfold rd_license_contact; by_loop). Qed.
Lemma needs_issue : needs rd_issue "issue" (Req ["type"] [] []).
Proof. unfold rd_issue. by_loop. Qed.
Lemma needs_patch : needs rd_patch "patch" (Req ["type"] [] []).
Proof. unfold rd_patch. by_loop. Qed.
Lemma needs_responsible_party e : In e ["owner"; "custodian"; "steward"] -> needs rd_responsible_party e (Req [] [["organization"; "contact"]] []).
Proof. intros I. cbn [In] in I. repeat destruct I as [<-|I]; try contradiction; (unfold rd_responsible_party; by_loop). Qed.
Lemma needs_component_data e : In e ["data"; "dataset"] -> needs rd_component_data e (Req [] [] [["type"]]).
Proof. intros I. cbn [In] in I. repeat destruct I as [<-|I]; try contradiction; (unfold rd_component_data; by_open). Qed.
Lemma needs_occurrence : needs rd_occurrence "occurrence" (Req [] [["location"]] []).
Proof. unfold rd_occurrence. by_loop. Qed.
Lemma needs_frame : needs rd_frame "frame" (Req [] [] [["module"]]).
Proof. unfold rd_frame. by_open. Qed.
Lemma needs_method : needs (rd_method F) "method" (Req [] [] [["technique"]; ["confidence"]]).
Proof. unfold rd_method. by_open. Qed.
Lemma needs_identity n : needs (rd_identity F n) "identity" (Req [] [] [["field"]]).
Proof. unfold rd_identity. by_open. Qed.
Lemma needs_swid : needs rd_swid "swid" (Req ["tagId"; "name"] [] []).
Proof. unfold rd_swid. by_loop. Qed.
Lemma needs_service_data : needs rd_service_data "dataflow" (Req [] [] [["classification"]]).
Proof. unfold rd_service_data. by_open. Qed.
Lemma needs_lifecycle : needs rd_lifecycle "lifecycle" (Req [] [["phase"; "name"]] []).
Proof. unfold rd_lifecycle. by_loop. Qed.
Lemma needs_dependency : needs rd_dependency "dependency" (Req ["ref"] [] []).
Proof. unfold rd_dependency. by_loop. Qed.
Lemma needs_composition : needs (rd_composition v) "composition" (Req [] [["aggregate"]] []).
Proof. unfold rd_composition. by_loop. Qed.
Lemma needs_annotator n : needs (rd_annotator F v n) "annotator" (Req [] [["organization"; "individual"; "component"; "service"]] []).
Proof. unfold rd_annotator. by_loop. Qed.
Lemma needs_annotation n : needs (rd_annotation F v n) "annotation" (Req [] [["annotator"]; ["timestamp"]; ["text"]] []).
Proof. unfold rd_annotation. by_loop. Qed.
Lemma needs_vuln_reference : needs rd_vuln_reference "reference" (Req [] [["id"]; ["source"]] []).
Proof. unfold rd_vuln_reference. by_loop. Qed.
Lemma needs_advisory : needs rd_advisory "advisory" (Req [] [["url"]] []).
Proof. unfold rd_advisory. by_loop. Qed.
Lemma needs_version_status : needs rd_version_status "version" (Req [] [["version"; "range"]] []).
Proof. unfold rd_version_status. by_loop. Qed.
Lemma needs_target : needs rd_target "target" (Req [] [["ref"]] []).
Proof. unfold rd_target. by_loop. Qed.
Lemma needs_resource e : In e ["resource"; "resourceReference"; "source"; "target"] -> needs rd_resource e (Req [] [["ref"; "externalReference"]] []).
Proof. intros I. cbn [In] in I. repeat destruct I as [<-|I]; try contradiction; (unfold rd_resource; by_loop). Qed.
Lemma needs_input : needs rd_input "input" (Req [] [["resource"; "environmentVars"; "data"]] []).
Proof. unfold rd_input. by_loop. Qed.
Lemma needs_output : needs rd_output "output" (Req [] [["resource"; "environmentVars"; "data"]] []).
Proof. unfold rd_output. by_loop. Qed.
Lemma needs_workspace : needs rd_workspace "workspace" (Req ["bom-ref"] [["uid"]] []).
Proof. unfold rd_workspace. by_loop. Qed.
Lemma needs_trigger : needs rd_trigger "trigger" (Req ["bom-ref"] [["uid"]; ["type"]] []).
Proof. unfold rd_trigger. by_loop. Qed.
Lemma needs_task : needs rd_task "task" (Req ["bom-ref"] [["uid"]; ["taskTypes"]] []).
Proof. unfold rd_task. by_loop. Qed.
Lemma needs_workflow : needs rd_workflow "workflow" (Req ["bom-ref"] [["uid"]; ["taskTypes"]] []).
Proof. unfold rd_workflow. by_loop. Qed.

Lemma needs_environment_var : needs (DMap (fun _ ats s => let? n := attr "name" ats in Some (EVProperty n s)) (DPrim PSimple))
  "environmentVar" (Req ["name"] [] []).
Proof. by_prim. Qed.
Lemma needs_tool_ref n : needs (DMap (fun _ ats l => let? r := attr "ref" ats in Some (r :: l)) (rd_tool_refs n))
  "tool" (Req ["ref"] [] []).
Proof. by_prim. Qed.
Lemma needs_service n : needs (rd_service v n) "service" (Req [] [["name"]] []).
Proof. destruct n as [|n]; [apply fuel_needs|]. cbn [rd_service]. by_loop. Qed.
Lemma needs_component n : needs (rd_component F v n) "component"
  (Req ["type"] ([["name"]] ++ if since V1_4 v then [] else [["version"]]) []).
Proof.
  destruct n as [|n]; [apply fuel_needs|]. cbn [rd_component].
  destruct (since V1_4 v); by_loop.
Qed.
Lemma needs_signature : needs rd_signature "signature" (Req [] [["signers"; "chain"; "algorithm"]; ["signers"; "chain"; "value"]] []).
Proof.
  unfold rd_signature. apply odd_needs.
  repeat (apply Forall_cons; [unfold refuses; eexists; split; [hold|fails]|]); apply Forall_nil.
Qed.
End READERS.

(** *** The readers at their places *)
Lemma own_free v {A} (d : desc A) p : rows v p = [] -> own v d p.
Proof. unfold own. intros ->. constructor. Qed.
Lemma own_one v {A} (d : desc A) p r : rows v p = [r] -> needs d (hd "" p) r -> own v d p.
Proof. unfold own. intros -> H. apply Forall_cons; [exact H|apply Forall_nil]. Qed.
Lemma own_map v {A B} (d : desc A) (f : string -> attrs -> A -> option B) p : own v d p -> own v (DMap f d) p.
Proof. unfold own. apply Forall_impl. intros r. apply map_needs. Qed.
Lemma sbelow_from {S} v c (sh : shape S) p : (c = true -> sbelow v sh p) -> sbelow v (from c sh) p.
Proof. intros H. destruct c; [now apply H|exact I]. Qed.
Create HintDb below discriminated.
Ltac known := first [reflexivity | assumption | solve [cbn [In]; auto 8 | cbn; tauto]].
Ltac owned :=
  match goal with
  | |- own _ _ _ => first [ apply own_free; known
                          | eapply own_one; [reflexivity|]; cbn [hd];
                            first [solve [auto 3 with below nocore] | apply map_needs; solve [auto 3 with below nocore]]
                          | apply own_map; solve [auto 3 with below nocore] ]
  end.
#[export] Hint Extern 1 (In _ _) => (cbn [In]; tauto) : below.
#[export] Hint Extern 1 (_ = _) => reflexivity : below.
Ltac bel :=
  intros;
  repeat first
    [ exact I
    | match goal with
      | |- _ /\ _ => split
      | |- sbelow _ (from _ _) _ => apply sbelow_from; intro
      end
    | owned
    | solve [auto 3 with below nocore]
    | progress cbn [below sbelow struct one many many_opt single list_of one_list d_map d_text d_enum d_string d_bool d_u32
                    d_score d_f32 rd_hashes rd_properties rd_external_references rd_licenses rd_license_identifier
                    rd_resources rd_components rd_services] ].
#[export] Hint Resolve needs_ref needs_property needs_hash needs_classification needs_external_reference needs_signer
  needs_license needs_license_contact needs_issue needs_patch needs_responsible_party needs_component_data
  needs_occurrence needs_frame needs_method needs_identity needs_swid needs_service_data needs_lifecycle
  needs_dependency needs_composition needs_annotator needs_annotation needs_vuln_reference needs_advisory
  needs_version_status needs_target needs_resource needs_input needs_output needs_workspace needs_trigger
  needs_task needs_workflow needs_environment_var needs_tool_ref needs_service needs_component needs_signature : below.

Section PLACES.
Context (F : float_text) (v : spec_version).
Local Ltac go r := intros; unfold r; bel.

Lemma below_ref p : below v rd_ref p.
Proof. go rd_ref. Qed.
Hint Resolve below_ref : below.
Lemma below_attached_text p : below v rd_attached_text p.
Proof. go rd_attached_text. Qed.
Hint Resolve below_attached_text : below.
Lemma below_attachment p : below v rd_attachment p.
Proof. go rd_attachment. Qed.
Hint Resolve below_attachment : below.
Lemma below_property p : below v rd_property p.
Proof. go rd_property. Qed.
Hint Resolve below_property : below.
Lemma below_hash p : below v rd_hash p.
Proof. go rd_hash. Qed.
Hint Resolve below_hash : below.
Lemma below_contact p : below v rd_contact p.
Proof. go rd_contact. Qed.
Hint Resolve below_contact : below.
Lemma below_entity p : below v rd_entity p.
Proof. go rd_entity. Qed.
Hint Resolve below_entity : below.
Lemma below_external_reference p : below v rd_external_reference p.
Proof. go rd_external_reference. Qed.
Hint Resolve below_external_reference : below.
Lemma below_signer p : below v rd_signer p.
Proof. go rd_signer. Qed.
Hint Resolve below_signer : below.
Lemma below_signature p : below v rd_signature ("signature" :: p).
Proof. go rd_signature. Qed.
Hint Resolve below_signature : below.
Lemma below_license_contact p : below v rd_license_contact p.
Proof. go rd_license_contact. Qed.
Hint Resolve below_license_contact : below.
Lemma below_licensing p : below v rd_licensing p.
Proof. go rd_licensing. Qed.
Hint Resolve below_licensing : below.
Lemma below_license p : below v (rd_license v) p.
Proof. go rd_license. Qed.
Hint Resolve below_license : below.
Lemma below_expression p : below v rd_expression p.
Proof. go rd_expression. Qed.
Hint Resolve below_expression : below.
Lemma below_license_list p : below v (rd_license_list v) p.
Proof. go rd_license_list. Qed.
Hint Resolve below_license_list : below.
Lemma below_action p : below v rd_action p.
Proof. go rd_action. Qed.
Hint Resolve below_action : below.
Lemma below_commit p : below v rd_commit p.
Proof. go rd_commit. Qed.
Hint Resolve below_commit : below.
Lemma below_diff p : below v rd_diff p.
Proof. go rd_diff. Qed.
Hint Resolve below_diff : below.
Lemma below_source p : below v rd_source p.
Proof. go rd_source. Qed.
Hint Resolve below_source : below.
Lemma below_issue p : below v rd_issue ("issue" :: p).
Proof. go rd_issue. Qed.
Hint Resolve below_issue : below.
Lemma below_patch p : below v rd_patch p.
Proof. go rd_patch. Qed.
Hint Resolve below_patch : below.
Lemma below_pedigree {C} (rc : desc C) p :
  (forall q, own v rc ("component" :: q)) -> (forall q, below v rc ("component" :: q)) -> below v (rd_pedigree rc) p.
Proof. intros H K. unfold rd_pedigree. bel; auto. Qed.
Lemma below_responsible_party p : below v rd_responsible_party p.
Proof. go rd_responsible_party. Qed.
Hint Resolve below_responsible_party : below.
Lemma below_governance p : below v rd_governance p.
Proof. go rd_governance. Qed.
Hint Resolve below_governance : below.
Lemma below_graphic p : below v rd_graphic p.
Proof. go rd_graphic. Qed.
Hint Resolve below_graphic : below.
Lemma below_graphics p : below v rd_graphics p.
Proof. go rd_graphics. Qed.
Hint Resolve below_graphics : below.
Lemma below_contents p : below v rd_contents p.
Proof. go rd_contents. Qed.
Hint Resolve below_contents : below.
Lemma below_component_data p : below v rd_component_data ("data" :: "component" :: p).
Proof. go rd_component_data. Qed.
Hint Resolve below_component_data : below.
Lemma below_dataset_data p : below v rd_component_data ("dataset" :: p).
Proof. go rd_component_data. Qed.
Hint Resolve below_dataset_data : below.
Lemma below_approach p : below v rd_approach p.
Proof. go rd_approach. Qed.
Hint Resolve below_approach : below.
Lemma below_dataset p : below v rd_dataset ("dataset" :: p).
Proof. go rd_dataset. Qed.
Hint Resolve below_dataset : below.
Lemma below_ml_parameter p : below v rd_ml_parameter p.
Proof. go rd_ml_parameter. Qed.
Hint Resolve below_ml_parameter : below.
Lemma below_model_parameters p : below v rd_model_parameters ("modelParameters" :: p).
Proof. go rd_model_parameters. Qed.
Hint Resolve below_model_parameters : below.
Lemma below_interval p : below v rd_interval p.
Proof. go rd_interval. Qed.
Hint Resolve below_interval : below.
Lemma below_metric p : below v rd_metric p.
Proof. go rd_metric. Qed.
Hint Resolve below_metric : below.
Lemma below_quantitative p : below v rd_quantitative p.
Proof. go rd_quantitative. Qed.
Hint Resolve below_quantitative : below.
Lemma below_model_card p : below v rd_model_card p.
Proof. go rd_model_card. Qed.
Hint Resolve below_model_card : below.
Lemma below_occurrence p : below v rd_occurrence p.
Proof. go rd_occurrence. Qed.
Hint Resolve below_occurrence : below.
Lemma below_frame p : below v rd_frame p.
Proof. go rd_frame. Qed.
Hint Resolve below_frame : below.
Lemma below_method p : below v (rd_method F) p.
Proof. go rd_method. Qed.
Hint Resolve below_method : below.
Lemma below_tool_refs n : forall p q, p = "tools" :: "identity" :: q \/ p = "tool" :: "tools" :: q \/ p = "tool" :: "tool" :: q ->
  below v (rd_tool_refs n) p.
Proof.
  induction n as [|n IH]; intros p q H; [exact I|]. cbn [rd_tool_refs below sbelow].
  destruct H as [->|[->| ->]]; (split; [owned|]); (eapply IH; eauto).
Qed.
Lemma below_identity n p : below v (rd_identity F n) ("identity" :: p).
Proof. go rd_identity. eapply below_tool_refs; eauto. Qed.
Hint Resolve below_identity : below.
Lemma below_evidence n p : below v (rd_evidence F v n) p.
Proof. go rd_evidence. Qed.
Hint Resolve below_evidence : below.
Lemma below_swid p : below v rd_swid p.
Proof. go rd_swid. Qed.
Hint Resolve below_swid : below.
Lemma own_component n p : own v (rd_component F v n) ("component" :: p).
Proof. eapply own_one; [reflexivity|]. apply needs_component. Qed.
Hint Resolve own_component : below.
Lemma below_component n : forall p, below v (rd_component F v n) ("component" :: p).
Proof.
  induction n as [|n IH]; intros p; [exact I|]. cbn [rd_component]. bel.
  apply below_pedigree; [|exact IH]. intros q. apply own_component.
Qed.
Hint Resolve below_component : below.
Lemma below_classification p : below v rd_classification p.
Proof. go rd_classification. Qed.
Hint Resolve below_classification : below.
Lemma below_service_data p : below v rd_service_data ("dataflow" :: p).
Proof. go rd_service_data. Qed.
Hint Resolve below_service_data : below.
Lemma below_data p : below v (rd_data v) ("data" :: "service" :: p).
Proof. go rd_data. Qed.
Hint Resolve below_data : below.
Lemma below_service n : forall p, below v (rd_service v n) ("service" :: p).
Proof. induction n as [|n IH]; intros p; [exact I|]. cbn [rd_service]. bel. Qed.
Hint Resolve below_service : below.
Lemma below_tool p : below v (rd_tool v) ("tool" :: p).
Proof. go rd_tool. Qed.
Hint Resolve below_tool : below.
Lemma below_tools_metadata n p : below v (rd_tools F v n) ("tools" :: "metadata" :: p).
Proof. go rd_tools. Qed.
Hint Resolve below_tools_metadata : below.
Lemma below_tools_vulnerability n p : below v (rd_tools F v n) ("tools" :: "vulnerability" :: p).
Proof. go rd_tools. Qed.
Hint Resolve below_tools_vulnerability : below.
Lemma below_lifecycle p : below v rd_lifecycle p.
Proof. go rd_lifecycle. Qed.
Hint Resolve below_lifecycle : below.
Lemma below_metadata n p : below v (rd_metadata F v n) ("metadata" :: p).
Proof. go rd_metadata. Qed.
Hint Resolve below_metadata : below.
Lemma below_dependency p : below v rd_dependency p.
Proof. go rd_dependency. Qed.
Hint Resolve below_dependency : below.
Lemma below_composition p : below v (rd_composition v) ("composition" :: p).
Proof. go rd_composition. Qed.
Hint Resolve below_composition : below.
Lemma below_annotator n p : below v (rd_annotator F v n) p.
Proof. go rd_annotator. Qed.
Hint Resolve below_annotator : below.
Lemma below_annotation n p : below v (rd_annotation F v n) p.
Proof. go rd_annotation. Qed.
Hint Resolve below_annotation : below.
Lemma below_vuln_source p : below v rd_vuln_source p.
Proof. go rd_vuln_source. Qed.
Hint Resolve below_vuln_source : below.
Lemma below_vuln_reference p : below v rd_vuln_reference ("reference" :: p).
Proof. go rd_vuln_reference. Qed.
Hint Resolve below_vuln_reference : below.
Lemma below_rating p : below v (rd_rating F) ("rating" :: p).
Proof. go rd_rating. Qed.
Hint Resolve below_rating : below.
Lemma below_advisory p : below v rd_advisory p.
Proof. go rd_advisory. Qed.
Hint Resolve below_advisory : below.
Lemma below_credits p : below v rd_credits p.
Proof. go rd_credits. Qed.
Hint Resolve below_credits : below.
Lemma below_analysis p : below v (rd_analysis v) p.
Proof. go rd_analysis. Qed.
Hint Resolve below_analysis : below.
Lemma below_version_status p : below v rd_version_status ("version" :: p).
Proof. go rd_version_status. Qed.
Hint Resolve below_version_status : below.
Lemma below_target p : below v rd_target p.
Proof. go rd_target. Qed.
Hint Resolve below_target : below.
Lemma below_poc p : below v rd_poc p.
Proof. go rd_poc. Qed.
Hint Resolve below_poc : below.
Lemma below_vulnerability n p : below v (rd_vulnerability F v n) ("vulnerability" :: "vulnerabilities" :: "bom" :: p).
Proof. go rd_vulnerability. Qed.
Hint Resolve below_vulnerability : below.
Lemma below_resource p : below v rd_resource p.
Proof. go rd_resource. Qed.
Hint Resolve below_resource : below.
Lemma below_environment_vars p : below v rd_environment_vars p.
Proof. go rd_environment_vars. Qed.
Hint Resolve below_environment_vars : below.
Lemma below_input q p : In q ["trigger"; "task"; "workflow"] -> below v rd_input ("input" :: "inputs" :: q :: p).
Proof. intros Hq. cbn [In] in Hq. unfold rd_input. repeat destruct Hq as [<-|Hq]; try contradiction; bel. Qed.
Hint Resolve below_input : below.
Lemma below_output q p : In q ["trigger"; "task"; "workflow"] -> below v rd_output ("output" :: "outputs" :: q :: p).
Proof. intros Hq. cbn [In] in Hq. unfold rd_output. repeat destruct Hq as [<-|Hq]; try contradiction; bel. Qed.
Hint Resolve below_output : below.
Lemma below_command p : below v rd_command p.
Proof. go rd_command. Qed.
Hint Resolve below_command : below.
Lemma below_step p : below v rd_step p.
Proof. go rd_step. Qed.
Hint Resolve below_step : below.
Lemma below_volume p : below v rd_volume p.
Proof. go rd_volume. Qed.
Hint Resolve below_volume : below.
Lemma below_workspace p : below v rd_workspace p.
Proof. go rd_workspace. Qed.
Hint Resolve below_workspace : below.
Lemma below_condition p : below v rd_condition p.
Proof. go rd_condition. Qed.
Hint Resolve below_condition : below.
Lemma below_event p : below v rd_event ("event" :: p).
Proof. go rd_event. Qed.
Hint Resolve below_event : below.
Lemma below_trigger p : below v rd_trigger ("trigger" :: p).
Proof. go rd_trigger. Qed.
Hint Resolve below_trigger : below.
Lemma below_task p : below v rd_task ("task" :: "tasks" :: p).
Proof. go rd_task. Qed.
Hint Resolve below_task : below.
Lemma below_workflow p : below v rd_workflow ("workflow" :: p).
Proof. go rd_workflow. Qed.
Hint Resolve below_workflow : below.
Lemma below_formula n p : below v (rd_formula F v n) p.
Proof. go rd_formula. Qed.
Hint Resolve below_formula : below.
Theorem meets_bom n : meets v (rd_bom F v n) ["bom"].
Proof. split; [now apply own_free|]. go rd_bom. Qed.
End PLACES.

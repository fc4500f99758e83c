(** Reading documents whose children come in another order, with other white space: the logic of
    XmlRead.v for all documents that say the same ([same_document], XmlForm.v). *)
From Verif Require Import Base ModelTypes Strings Enums Json JsonModel Xml XmlLemmas XmlModel XmlSpec XmlRead XmlProofs2 XmlForm.
Open Scope string_scope.
Open Scope list_scope.
Open Scope nat_scope.
Open Scope shape_scope.

(** the same elements of every name *)
Definition shuf (l l' : list xml) : Prop := forall m, filter (called m) l = filter (called m) l'.
(** every document up to the height [h] that says the same as [x] is read as [r] *)
Definition tells {A} (h : nat) (tag : string) (d : desc A) (x : xml) (r : option A) : Prop :=
  name_of x = Some tag /\ forall y a, same_document x y -> height y < h -> r = Some a -> reads tag d y (Some a).
Definition label (ts : list string) (x : xml) : Prop := exists m, name_of x = Some m /\ In m ts.
Record parts {S} (h : nat) (sh : shape S) (ts : list string) (nodes : list xml) (r : option S) : Prop := mkParts {
  p_covers : covers sh ts;
  p_label : Forall (label ts) nodes;
  p_fills : forall mid ks a, Forall2 same_document nodes mid -> shuf mid ks -> Forall (fun y => height y < h) ks ->
            r = Some a -> fills sh ts ks (Some a) }.

(** ** Lists of children *)
Lemma called_name x : called (name_of x) x = true.
Proof. destruct x; cbn; auto. apply String.eqb_refl. Qed.
Lemma called_iff m x : called m x = true <-> name_of x = m.
Proof.
  unfold called. destruct m as [a|], (name_of x) as [b|]; split; try congruence.
  - intros H. apply String.eqb_eq in H. now subst.
  - intros H. injection H as ->. apply String.eqb_refl.
Qed.
Lemma shuf_in l l' x : shuf l l' -> In x l' -> In x l.
Proof.
  intros H Hx. assert (K : In x (filter (called (name_of x)) l')) by (apply filter_In; split; [exact Hx|apply called_name]).
  rewrite <- H in K. apply filter_In in K. apply K.
Qed.
Lemma shuf_sym l l' : shuf l l' -> shuf l' l.
Proof. intros H m. now rewrite H. Qed.
Lemma filter_all {A} (p : A -> bool) l : (forall x, In x l -> p x = true) -> filter p l = l.
Proof.
  induction l as [|a l IH]; intros H; [reflexivity|]. cbn. rewrite (H a) by now left. f_equal. apply IH.
  intros x Hx. apply H. now right.
Qed.
Lemma filter_no {A} (p : A -> bool) l : (forall x, In x l -> p x = false) -> filter p l = [].
Proof.
  induction l as [|a l IH]; intros H; [reflexivity|]. cbn. rewrite (H a) by now left. apply IH.
  intros x Hx. apply H. now right.
Qed.
(** children of one name keep their order *)
Lemma shuf_one_name m l l' : (forall x, In x l -> name_of x = m) -> shuf l l' -> l' = l.
Proof.
  intros H S. pose proof (S m) as E.
  rewrite !filter_all in E; [now symmetry| |].
  - intros x Hx. apply called_iff, H. eapply shuf_in; eauto.
  - intros x Hx. now apply called_iff, H.
Qed.
Lemma shuf_nil l : shuf [] l -> l = [].
Proof. intros H. apply (shuf_one_name None [] l); [contradiction|exact H]. Qed.

Definition named_in (ts : list string) (x : xml) : bool :=
  match name_of x with Some m => existsb (String.eqb m) ts | None => false end.
Lemma named_in_label ts x : named_in ts x = true <-> label ts x.
Proof.
  unfold named_in, label. destruct (name_of x) as [m|].
  - split.
    + intros H. apply existsb_exists in H. destruct H as (k & Hk & E). apply String.eqb_eq in E. subst k. eauto.
    + intros (k & E & Hk). injection E as <-. apply existsb_exists. exists m. split; [exact Hk|apply String.eqb_refl].
  - split; [discriminate|]. intros (k & E & _). discriminate.
Qed.
Lemma filter_filter {A} (p q : A -> bool) l : filter p (filter q l) = filter (fun x => p x && q x) l.
Proof.
  induction l as [|a l IH]; [reflexivity|]. cbn. destruct (q a); cbn; destruct (p a); cbn; now rewrite ?IH.
Qed.
Lemma label_disjoint ta tb x : disjoint ta tb = true -> label ta x -> label tb x -> False.
Proof. intros D (m & E & H) (m' & E' & H'). rewrite E in E'. injection E' as <-. eapply disjoint_in; eauto. Qed.
Lemma filter_swap {A} (p q : A -> bool) l : filter p (filter q l) = filter q (filter p l).
Proof. rewrite !filter_filter. apply filter_ext. intros x. apply Bool.andb_comm. Qed.
(** the part of the children that belongs to the first, the second field *)
Lemma shuf_fst ta tb ma mb ks : disjoint ta tb = true -> Forall (label ta) ma -> Forall (label tb) mb ->
  shuf (ma ++ mb) ks -> shuf ma (filter (named_in ta) ks).
Proof.
  intros D Ha Hb H m. transitivity (filter (called m) (filter (named_in ta) (ma ++ mb)));
    [|rewrite !(filter_swap (called m)); now rewrite H].
  f_equal. rewrite filter_app, (filter_all _ ma), (filter_no _ mb), app_nil_r; [reflexivity| |].
  - intros x Hx. rewrite Forall_forall in Hb. destruct (named_in ta x) eqn:E; [|reflexivity].
    apply named_in_label in E. destruct (label_disjoint ta tb x D E (Hb x Hx)).
  - intros x Hx. rewrite Forall_forall in Ha. now apply named_in_label, Ha.
Qed.
Lemma shuf_snd ta tb ma mb ks : disjoint ta tb = true -> Forall (label ta) ma -> Forall (label tb) mb ->
  shuf (ma ++ mb) ks -> shuf mb (filter (fun x => negb (named_in ta x)) ks).
Proof.
  intros D Ha Hb H m. transitivity (filter (called m) (filter (fun x => negb (named_in ta x)) (ma ++ mb)));
    [|rewrite !(filter_swap (called m)); now rewrite H].
  f_equal. rewrite filter_app, (filter_no _ ma), (filter_all _ mb); [reflexivity| |].
  - intros x Hx. rewrite Forall_forall in Hb. destruct (named_in ta x) eqn:E; [|reflexivity].
    apply named_in_label in E. destruct (label_disjoint ta tb x D E (Hb x Hx)).
  - intros x Hx. rewrite Forall_forall in Ha. apply Ha, named_in_label in Hx. now rewrite Hx.
Qed.

(** ** Visible children *)
Lemma visible_cons x l : visible (x :: l) = if blank x then visible l else x :: visible l.
Proof. unfold visible. cbn [filter]. now destruct (blank x). Qed.
Lemma reparses_visible l : reparses (visible l) = reparses l.
Proof.
  induction l as [|x l IH]; [reflexivity|]. rewrite visible_cons, reparses_cons. destruct (blank x) eqn:E.
  - destruct x as [| s | |]; try discriminate. cbn [blank] in E. apply String.eqb_eq in E. cbn [reparse]. now rewrite E.
  - rewrite reparses_cons. now rewrite IH.
Qed.
Lemma attrs_ok_visible l : forallb attrs_ok (visible l) = forallb attrs_ok l.
Proof.
  induction l as [|x l IH]; [reflexivity|]. rewrite visible_cons. cbn [forallb]. destruct (blank x) eqn:E.
  - destruct x as [| s | |]; try discriminate. exact IH.
  - cbn [forallb]. now rewrite IH.
Qed.
Lemma visible_in x l : In x (visible l) -> In x l.
Proof. unfold visible. intros H. apply filter_In in H. apply H. Qed.
Lemma visible_labels ts l : Forall (label ts) l -> visible l = l.
Proof.
  intros H. apply filter_all. intros x Hx. rewrite Forall_forall in H. destruct (H x Hx) as (m & E & _).
  now destruct x.
Qed.
Lemma reads_visible {A} tag (d : desc A) ats ks r :
  reads tag d (Elem tag ats (visible ks)) r -> reads tag d (Elem tag ats ks) r.
Proof.
  intros (ats' & ks' & E & H). injection E as <- <-. exists ats, ks. split; [reflexivity|].
  rewrite attrs_ok_elem, attrs_ok_visible, reparses_visible in H. rewrite attrs_ok_elem. exact H.
Qed.

Lemma same_name x y : same_document x y -> forall m, name_of x = Some m -> name_of y = Some m.
Proof. intros H m E. destruct H; cbn in *; congruence. Qed.
Lemma same_labels ts l l' : Forall2 same_document l l' -> Forall (label ts) l -> Forall (label ts) l'.
Proof.
  intros H. induction H as [|x y l l' Hxy H IH]; intros K; [constructor|]. inversion K as [|? ? (m & E & Hm) K']; subst.
  constructor; [exists m; split; [eapply same_name; eauto|exact Hm]|auto].
Qed.

(** ** Attributes *)
Lemma distinct_NoDup l : distinct l = true <-> NoDup l.
Proof.
  induction l as [|x l IH]; cbn; [split; [constructor|reflexivity]|]. rewrite andb_true_iff, IH, negb_true_iff. split.
  - intros [H K]. constructor; [|exact K]. intros Hx.
    assert (E : existsb (String.eqb x) l = true) by (apply existsb_exists; exists x; split; [exact Hx|apply String.eqb_refl]).
    congruence.
  - intros K. inversion K as [|? ? Hx K']; subst. split; [|exact K'].
    destruct (existsb (String.eqb x) l) eqn:E; [|reflexivity]. apply existsb_exists in E. destruct E as (y & Hy & E).
    apply String.eqb_eq in E. now subst y.
Qed.
Lemma distinct_perm (ats ats' : attrs) : Permutation ats ats' -> distinct (map fst ats) = true -> distinct (map fst ats') = true.
Proof.
  intros P D. apply distinct_NoDup. apply distinct_NoDup in D. eapply Permutation_NoDup; [|exact D]. now apply Permutation_map.
Qed.
Lemma attr_in k s (ats : attrs) : distinct (map fst ats) = true -> (attr k ats = Some s <-> In (k, s) ats).
Proof.
  induction ats as [|[k' s'] l IH]; cbn [map fst distinct attr In]; intros D; [split; [discriminate|contradiction]|].
  apply andb_prop in D. destruct D as [D1 D2]. specialize (IH D2). destruct (String.eqb_spec k' k) as [->|N].
  - split.
    + intros E. injection E as ->. now left.
    + intros [E|E]; [now injection E as ->|]. exfalso. apply negb_true_iff in D1.
      assert (K : existsb (String.eqb k) (map fst l) = true).
      { apply existsb_exists. exists k. split; [apply (in_map fst) in E; exact E|apply String.eqb_refl]. }
      congruence.
  - rewrite IH. split; [auto|]. intros [E|E]; [congruence|exact E].
Qed.
Lemma attr_perm (ats ats' : attrs) : Permutation ats ats' -> distinct (map fst ats) = true -> forall k, attr k ats' = attr k ats.
Proof.
  intros P D k. pose proof (distinct_perm _ _ P D) as D'. destruct (attr k ats) as [s|] eqn:E.
  - apply attr_in; [exact D'|]. apply attr_in in E; [|exact D]. eapply Permutation_in; eauto.
  - destruct (attr k ats') as [s|] eqn:E'; [|reflexivity]. apply attr_in in E'; [|exact D'].
    apply Permutation_sym in P. eapply Permutation_in in E'; [|exact P]. apply attr_in in E'; [congruence|exact D].
Qed.
Lemma attr_last_perm (ats ats' : attrs) : Permutation ats ats' -> distinct (map fst ats) = true -> forall k, attr_last k ats' = attr k ats.
Proof.
  intros P D k. unfold attr_last. rewrite (attr_perm ats); [reflexivity| |exact D].
  transitivity ats'; [exact P|apply Permutation_rev].
Qed.

(** ** Elements *)
Lemma tells_weak {A} h h' tag (d : desc A) x r : tells h tag d x r -> h' <= h -> tells h' tag d x r.
Proof. intros [N H] L. split; [exact N|]. intros y a S K. apply H; [exact S|lia]. Qed.
Lemma tells_eq {A} h tag (d : desc A) x r r' : tells h tag d x r -> r = r' -> tells h tag d x r'.
Proof. now intros H <-. Qed.
(** what a document that says the same as an element looks like *)
Lemma same_elem_inv n ats ks y : same_document (Elem n ats ks) y ->
  exists ats' mid ks', y = Elem n ats' ks' /\ Permutation ats ats' /\ Forall2 same_document ks mid
    /\ shuf (visible mid) (visible ks') /\ (mixed_list n = true -> visible mid = visible ks').
Proof.
  intros H. inversion H as [| | |n' a a' k k' k'' P F M]; subst. exists a', k', k''. split; [reflexivity|].
  split; [exact P|]. split; [exact F|]. destruct (mixed_list n).
  - split; [|auto]. intros m. now rewrite M.
  - split; [exact M|discriminate].
Qed.
Lemma visible_heights n ats ks h : height (Elem n ats ks) < S h -> Forall (fun y => height y < h) (visible ks).
Proof.
  intros H. apply Forall_forall. intros y Hy. apply visible_in in Hy. pose proof (height_in n ats ks y Hy). lia.
Qed.

Lemma parts_children {S} h (sh : shape S) ts n ats ks r y a :
  parts h sh ts ks r -> same_document (Elem n ats ks) y -> height y < Datatypes.S h -> r = Some a ->
  exists ats' ks', y = Elem n ats' ks' /\ Permutation ats ats' /\ fills sh ts (visible ks') (Some a).
Proof.
  intros [C L F] Sm Hy E. apply same_elem_inv in Sm. destruct Sm as (ats' & mid & ks' & -> & P & M & Sh & _).
  exists ats', ks'. split; [reflexivity|]. split; [exact P|].
  rewrite (visible_labels ts mid) in Sh by (eapply same_labels; eauto).
  eapply F; eauto. eapply visible_heights, Hy.
Qed.
Lemma tells_loop_S {S} h p (sh : shape S) ts tag ats ks r :
  parts h sh ts ks r -> distinct (map fst ats) = true -> tells (Datatypes.S h) tag (DLoop p sh) (Elem tag ats ks) r.
Proof.
  intros H D. split; [reflexivity|]. intros y a Sm Hy E.
  destruct (parts_children _ _ _ _ _ _ _ _ _ H Sm Hy E) as (ats' & ks' & -> & P & Fl).
  apply reads_visible. eapply reads_loop; [exact Fl|]. eapply distinct_perm; eauto.
Qed.
Lemma tells_odd {S A} h (sh : shape S) (d : desc A) upd ts tag ats ks r :
  parts h sh ts ks r -> distinct (map fst ats) = true -> tells h tag (DOdd sh d upd) (Elem tag ats ks) r.
Proof.
  intros H D. split; [reflexivity|]. intros y a Sm Hy E.
  destruct (parts_children _ _ _ _ _ _ _ _ _ H Sm (Nat.lt_lt_succ_r _ _ Hy) E) as (ats' & ks' & -> & P & Fl).
  apply reads_visible. eapply reads_odd; [exact Fl|]. eapply distinct_perm; eauto.
Qed.
Lemma tells_dmap {A B} h (f : string -> attrs -> A -> option B) tag d ats ks r r' :
  tells h tag d (Elem tag ats ks) r -> distinct (map fst ats) = true ->
  (forall ats', (forall k, attr k ats' = attr k ats) -> (forall k, attr_last k ats' = attr k ats) ->
   bindo r (f tag ats') = r') ->
  tells h tag (DMap f d) (Elem tag ats ks) r'.
Proof.
  intros [N H] D K. split; [reflexivity|]. intros y a Sm Hy E.
  destruct (same_elem_inv _ _ _ _ Sm) as (ats' & mid & ks' & -> & P & _).
  specialize (K ats' (attr_perm _ _ P D) (attr_last_perm _ _ P D)). subst r'.
  destruct r as [b|]; [|discriminate]. eapply reads_dmap; [apply H; [exact Sm|exact Hy|reflexivity]|exact E].
Qed.
Lemma tells_loop {S} h p (sh : shape S) ts tag ats ks r :
  parts h sh ts ks r -> distinct (map fst ats) = true -> tells h tag (DLoop p sh) (Elem tag ats ks) r.
Proof. intros H D. eapply tells_weak; [eapply tells_loop_S; eauto|lia]. Qed.
Lemma tells_struct_S {S A} h p (sh : shape S) (fin : attrs -> S -> option A) ts tag ats ks r r' :
  parts h sh ts ks r -> distinct (map fst ats) = true ->
  (forall ats', (forall k, attr k ats' = attr k ats) -> bindo r (fin ats') = r') ->
  tells (Datatypes.S h) tag (struct p sh fin) (Elem tag ats ks) r'.
Proof. intros H D K. eapply tells_dmap; [eapply tells_loop_S; eauto|exact D|]. intros ats' E _. now apply K. Qed.
Lemma tells_struct {S A} h p (sh : shape S) (fin : attrs -> S -> option A) ts tag ats ks r r' :
  parts h sh ts ks r -> distinct (map fst ats) = true ->
  (forall ats', (forall k, attr k ats' = attr k ats) -> bindo r (fin ats') = r') ->
  tells h tag (struct p sh fin) (Elem tag ats ks) r'.
Proof. intros H D K. eapply tells_weak; [eapply tells_struct_S; eauto|lia]. Qed.
Lemma tells_map {A B} h (f : A -> B) tag d x r r' :
  tells h tag d x r -> r' = (let? a := r in Some (f a)) -> tells h tag (d_map f d) x r'.
Proof.
  intros [N H] ->. split; [exact N|]. intros y b Sm Hy E. destruct r as [a|]; [|discriminate]. injection E as <-.
  eapply reads_map; [apply H; eauto|reflexivity].
Qed.

(** ** Text *)
Lemma text_children n ats s y : same_document (Elem n ats [Text s]) y ->
  exists ats' ks, y = Elem n ats' ks /\ Permutation ats ats' /\ reparses ks = reparses [Text s] /\ forallb attrs_ok ks = true.
Proof.
  intros H. apply same_elem_inv in H. destruct H as (ats' & mid & ks & -> & P & M & Sh & _).
  exists ats', ks. split; [reflexivity|]. split; [exact P|].
  inversion M as [|x t l l' Ht Hl]; subst. inversion Hl; subst. inversion Ht as [s1 s' Es|? |? ? Es|]; subst.
  assert (V : visible ks = visible [Text s']).
  { apply (shuf_one_name None); [|exact Sh]. intros x Hx. apply visible_in in Hx. destruct Hx as [<-|[]]. reflexivity. }
  split.
  - rewrite <- reparses_visible, V, reparses_visible, !reparses_text. now rewrite Es.
  - rewrite <- attrs_ok_visible, V, attrs_ok_visible. reflexivity.
Qed.
Lemma tells_prim {A} h (p : prim A) tag ats s r :
  distinct (map fst ats) = true -> tr_prim p (reparses [Text s]) = of_opt r -> tells h tag (DPrim p) (Elem tag ats [Text s]) r.
Proof.
  intros D K. split; [reflexivity|]. intros y a Sm Hy E.
  destruct (text_children _ _ _ _ Sm) as (ats' & ks & -> & P & R & O). exists ats', ks. split; [reflexivity|].
  rewrite attrs_ok_elem, (distinct_perm _ _ P D), O. cbn [andb checked tr]. rewrite R, K, E. reflexivity.
Qed.
Lemma tells_attr_simple {A} h (f : string -> attrs -> string -> option A) tag ats s r :
  distinct (map fst ats) = true ->
  (forall ats', (forall k, attr k ats' = attr k ats) -> f tag ats' (xtrim s) = r) ->
  tells h tag (DMap f (DPrim PSimple)) (Elem tag ats [Text s]) r.
Proof.
  intros D K. eapply tells_dmap; [apply (tells_prim _ _ _ _ _ (Some (xtrim s))); [exact D|apply tr_simple_text]|exact D|].
  intros ats' E _. exact (K ats' E).
Qed.
Lemma tells_attr_text {A} h (f : string -> attrs -> string -> option A) tag ats s r :
  distinct (map fst ats) = true ->
  (forall ats', (forall k, attr k ats' = attr k ats) -> (forall k, attr_last k ats' = attr k ats) ->
   (let? t := nonblank s in f tag ats' t) = r) ->
  tells h tag (DMap f (DPrim PText)) (Elem tag ats [Text s]) r.
Proof.
  intros D K. eapply tells_dmap; [apply (tells_prim _ _ _ _ _ (nonblank s)); [exact D|apply tr_text_text]|exact D|exact K].
Qed.
Lemma tells_string h tag s : tells h tag d_string (words tag s) (Some (xtrim s)).
Proof. apply tells_prim; [reflexivity|apply tr_simple_text]. Qed.
Lemma tells_ptext h tag s : tells h tag (DPrim PText) (words tag s) (nonblank s).
Proof. apply tells_prim; [reflexivity|apply tr_text_text]. Qed.
Lemma tells_optional h tag s : tells h tag (DPrim POptional) (words tag s) (Some (nonblank s)).
Proof. apply tells_prim; [reflexivity|apply tr_optional_text]. Qed.
Lemma tells_text {A} h (f : string -> option A) tag s : tells h tag (d_text f) (words tag s) (f (xtrim s)).
Proof. apply tells_attr_simple; reflexivity. Qed.
Lemma tells_enum {A} h (of_text : string -> A) (t : A -> string) tag x y :
  of_text (xtrim (t x)) = y -> tells h tag (d_enum of_text) (named t tag x) (Some y).
Proof. intros <-. apply (tells_text h (fun s => Some (of_text s))). Qed.
Lemma tells_cdata h tag s : tells h tag d_string (Elem tag [] [CData s]) (Some s).
Proof.
  split; [reflexivity|]. intros y a Sm Hy E. injection E as <-.
  apply same_elem_inv in Sm. destruct Sm as (ats' & mid & ks & -> & P & M & Sh & _).
  apply Permutation_nil in P. subst ats'.
  inversion M as [|x t l l' Ht Hl]; subst. inversion Hl; subst.
  assert (V : visible ks = visible [t]).
  { apply (shuf_one_name None); [|exact Sh]. intros x Hx. apply visible_in in Hx. destruct Hx as [<-|[]].
    inversion Ht; reflexivity. }
  apply reads_visible. rewrite V.
  inversion Ht as [|? |? s' Es|]; subst.
  - apply reads_cdata.
  - exists [], (visible [Text s']). split; [reflexivity|].
    rewrite attrs_ok_elem, attrs_ok_visible, reparses_visible. cbn [map distinct forallb attrs_ok andb checked tr d_string].
    apply tr_simple_text.
Qed.
Lemma tells_ref h tag s : tells h tag rd_ref (pointer tag s) (Some s).
Proof.
  eapply (tells_dmap h _ tag _ _ _ (Some tt)); [|reflexivity|].
  - split; [reflexivity|]. intros y a Sm Hy E. injection E as <-.
    apply same_elem_inv in Sm. destruct Sm as (ats' & mid & ks & -> & P & M & Sh & _).
    inversion M; subst. apply shuf_nil in Sh.
    exists ats', ks. split; [reflexivity|].
    rewrite attrs_ok_elem, <- attrs_ok_visible, <- reparses_visible, Sh.
    rewrite (distinct_perm _ _ P) by reflexivity. reflexivity.
  - intros ats' E _. cbn [bindo]. rewrite E. reflexivity.
Qed.

(** ** Fields *)
Lemma parts_nil {S} h (sh : shape S) ts : covers sh ts -> parts h sh ts [] (Some (init sh)).
Proof.
  intros C. constructor; [exact C|constructor|]. intros mid ks a M Sh Hh E. injection E as <-.
  inversion M; subst. apply shuf_nil in Sh. subst. now apply fills_nil.
Qed.
Lemma tells_label {A} h tag (d : desc A) x r : tells h tag d x r -> label [tag] x.
Proof. intros [N _]. exists tag. split; [exact N|now left]. Qed.
(** children of one name *)
Lemma label_one tag l : Forall (label [tag]) l -> forall x, In x l -> name_of x = Some tag.
Proof.
  intros H x Hx. rewrite Forall_forall in H. destruct (H x Hx) as (m & E & [<-|[]]). exact E.
Qed.
Lemma parts_one_name {S} h (sh : shape S) tag nodes r :
  covers sh [tag] -> Forall (label [tag]) nodes ->
  (forall mid a, Forall2 same_document nodes mid -> Forall (fun y => height y < h) mid -> r = Some a -> fills sh [tag] mid (Some a)) ->
  parts h sh [tag] nodes r.
Proof.
  intros C L H. constructor; [exact C|exact L|]. intros mid ks a M Sh Hh E.
  assert (K : ks = mid).
  { apply (shuf_one_name (Some tag)); [|exact Sh]. apply label_one. eapply same_labels; eauto. }
  subst ks. eapply H; eauto.
Qed.
Lemma parts_on1 {A S} h tag (d : desc A) (i : S) upd x r :
  tells h tag d x r -> parts h (SOn tag d i upd) [tag] [x] (let? a := r in upd a i).
Proof.
  intros H. apply parts_one_name; [apply covers_on|constructor; [eapply tells_label, H|constructor]|].
  intros mid a M Hh E. inversion M as [|? y ? ? Hy Hn]; subst. inversion Hn; subst. inversion Hh; subst.
  destruct r as [b|]; [|discriminate]. cbn [bindo] in E.
  destruct H as [_ H]. pose proof (fills_on1 tag d i upd y _ (H y b Hy ltac:(assumption) eq_refl)) as K. cbn [bindo] in K.
  rewrite E in K. exact K.
Qed.
Lemma parts_req {A} h tag (d : desc A) x r :
  tells h tag d x r -> parts h (one tag d) [tag] [x] (let? a := r in Some (Some a)).
Proof. intros H. exact (parts_on1 h tag d None (fun a _ => Some (Some a)) x r H). Qed.
Lemma parts_req_t {A} h tag (d : desc A) x a :
  tells h tag d x (Some a) -> parts h (one tag d) [tag] [x] (Some (Some a)).
Proof. intros H. exact (parts_req _ _ _ _ _ H). Qed.
Lemma parts_opt {A B} h tag (d : desc B) (f : A -> xml) k o :
  (forall a, tells h tag d (f a) (k a)) -> parts h (one tag d) [tag] (perhaps f o) (maybe k o).
Proof.
  intros H. destruct o as [a|]; [|apply parts_nil, covers_one]. apply parts_req, H.
Qed.
Lemma parts_opt_t {A B} h tag (d : desc B) (f : A -> xml) g o :
  (forall a, tells h tag d (f a) (Some (g a))) -> parts h (one tag d) [tag] (perhaps f o) (Some (option_map g o)).
Proof. intros H. destruct o as [a|]; exact (parts_opt h tag d f (fun a => Some (g a)) _ H). Qed.
Lemma parts_opt_id {A} h tag (d : desc A) (f : A -> xml) o :
  (forall a, tells h tag d (f a) (Some a)) -> parts h (one tag d) [tag] (perhaps f o) (Some o).
Proof. intros H. destruct o as [a|]; exact (parts_opt h tag d f (fun a => Some a) _ H). Qed.

(** lists *)
Lemma fills_many_each {A} tag (d : desc A) mid l :
  Forall2 (fun y a => reads tag d y (Some a)) mid l -> fills (many tag d) [tag] mid (Some l).
Proof.
  intros H.
  assert (E : mid = map fst (combine mid l) /\ l = map snd (combine mid l)).
  { clear -H. induction H as [|y a mid l _ _ IH]; [split; reflexivity|]. cbn. destruct IH as [E1 E2].
    split; f_equal; assumption. }
  destruct E as [E1 E2]. cut (fills (many tag d) [tag] (map fst (combine mid l)) (Some (map snd (combine mid l)))).
  { now rewrite <- E1, <- E2. }
  apply fills_many_t. intros p Hp.
  clear E1 E2. induction H as [|y a mid l Hy H IH]; [contradiction|]. cbn in Hp. destruct Hp as [<-|Hp]; [exact Hy|auto].
Qed.
Lemma tells_each {A B} h tag (d : desc B) (f : A -> xml) k l :
  (forall a, In a l -> tells h tag d (f a) (k a)) -> forall mid l',
  Forall2 same_document (map f l) mid -> Forall (fun y => height y < h) mid -> each k l = Some l' ->
  Forall2 (fun y b => reads tag d y (Some b)) mid l'.
Proof.
  induction l as [|a l IH]; intros H mid l' M Hh E.
  - inversion M; subst. cbn in E. injection E as <-. constructor.
  - cbn [map] in M. inversion M as [|? y ? mid' Hy Hm]; subst. inversion Hh; subst.
    cbn [each] in E. destruct (k a) as [b|] eqn:Eb; [|discriminate]. cbn [bindo] in E.
    destruct (each k l) as [l''|] eqn:El; [|discriminate]. cbn [bindo] in E. injection E as <-.
    constructor.
    + destruct (H a (or_introl eq_refl)) as [_ K]. apply K; assumption.
    + apply (IH (fun a Ha => H a (or_intror Ha))); auto.
Qed.
Lemma labels_map {A B} h tag (d : desc B) (f : A -> xml) k l :
  (forall a, tells h tag d (f a) (k a)) -> Forall (label [tag]) (map f l).
Proof.
  intros H. apply Forall_forall. intros x Hx. apply in_map_iff in Hx. destruct Hx as (a & <- & _). eapply tells_label, H.
Qed.
Lemma parts_many {A B} h tag (d : desc B) (f : A -> xml) k l :
  (forall a, tells h tag d (f a) (k a)) -> parts h (many tag d) [tag] (map f l) (each k l).
Proof.
  intros H. apply parts_one_name; [apply covers_on|eapply labels_map, H|]. intros mid l' M Hh E.
  apply fills_many_each. eapply (tells_each h tag d f k l); eauto.
Qed.
Lemma parts_many_t {A B} h tag (d : desc B) (f : A -> xml) g l :
  (forall a, tells h tag d (f a) (Some (g a))) -> parts h (many tag d) [tag] (map f l) (Some (map g l)).
Proof. intros H. rewrite <- each_total. now apply parts_many. Qed.
Lemma parts_many_id {A} h tag (d : desc A) (f : A -> xml) l :
  (forall a, tells h tag d (f a) (Some a)) -> parts h (many tag d) [tag] (map f l) (Some l).
Proof. intros H. rewrite <- each_id. now apply parts_many. Qed.
Lemma tells_list {A B} h p n tag (d : desc B) (f : A -> xml) k l :
  (forall a, tells h tag d (f a) (k a)) -> tells h n (list_of p tag d) (group n f l) (each k l).
Proof. intros H. eapply tells_loop; [apply parts_many, H|reflexivity]. Qed.
Lemma tells_list_t {A B} h p n tag (d : desc B) (f : A -> xml) g l :
  (forall a, tells h tag d (f a) (Some (g a))) -> tells h n (list_of p tag d) (group n f l) (Some (map g l)).
Proof. intros H. eapply tells_loop; [apply parts_many_t, H|reflexivity]. Qed.
Lemma tells_list_id {A} h p n tag (d : desc A) (f : A -> xml) l :
  (forall a, tells h tag d (f a) (Some a)) -> tells h n (list_of p tag d) (group n f l) (Some l).
Proof. intros H. eapply tells_loop; [apply parts_many_id, H|reflexivity]. Qed.
Lemma parts_list {A B} h p n tag (d : desc B) (f : A -> xml) k o :
  (forall a, tells h tag d (f a) (k a)) -> parts h (one_list p n tag d) [n] (perhaps_group n f o) (maybe (each k) o).
Proof. intros H. apply parts_opt. intros l. now apply tells_list. Qed.
Lemma parts_list_t {A B} h p n tag (d : desc B) (f : A -> xml) g o :
  (forall a, tells h tag d (f a) (Some (g a))) ->
  parts h (one_list p n tag d) [n] (perhaps_group n f o) (Some (option_map (map g) o)).
Proof. intros H. apply parts_opt_t. intros l. now apply tells_list_t. Qed.
Lemma parts_list_id {A} h p n tag (d : desc A) (f : A -> xml) o :
  (forall a, tells h tag d (f a) (Some a)) -> parts h (one_list p n tag d) [n] (perhaps_group n f o) (Some o).
Proof. intros H. apply parts_opt_id. intros l. now apply tells_list_id. Qed.
(** lists without an element of their own *)
Lemma fills_many_opt_each {A} tag (d : desc A) mid a l :
  Forall2 (fun y a => reads tag d y (Some a)) mid (a :: l) -> fills (many_opt tag d) [tag] mid (Some (Some (a :: l))).
Proof.
  intros H. destruct (fills_many_each tag d mid (a :: l) H) as [_ O Fo].
  constructor; [apply covers_on| |].
  - eapply Forall_impl; [|exact O]. intros [m ats ks|s|s|]; cbn; auto; try (destruct (String.eqb m tag); congruence).
  - destruct (forallb attrs_ok mid); [|discriminate]. cbn [checked of_opt] in *.
    cbn [init many many_opt] in *.
    assert (K : forall nodes acc r, tfold (tr_arm (many tag d)) nodes acc = TOk r ->
      tfold (tr_arm (many_opt tag d)) nodes (Some acc) = TOk (Some r)).
    { clear. induction nodes as [|x nodes IH]; intros acc r E; cbn [tfold] in *; [congruence|].
      destruct x as [m ats ks|s|s|]; try discriminate. cbn [tr_arm many many_opt] in *.
      destruct (String.eqb m tag); [|discriminate]. destruct (tr d m ats (reparses ks)); cbn [tmap tbind of_opt] in *; try discriminate.
      apply IH, E. }
    destruct mid as [|x mid]; [inversion H|]. cbn [tfold] in Fo |- *.
    destruct x as [m ats ks|s|s|]; try discriminate. cbn [tr_arm many many_opt] in Fo |- *.
    destruct (String.eqb m tag); [|discriminate]. destruct (tr d m ats (reparses ks)); cbn [tmap tbind of_opt] in *; try discriminate.
    apply K, Fo.
Qed.
Lemma parts_items {A B} h tag (d : desc B) (f : A -> xml) g o :
  (forall a, tells h tag d (f a) (Some (g a))) ->
  parts h (many_opt tag d) [tag] (loose f o) (Some (some_items g o)).
Proof.
  intros H. destruct o as [[|a l]|]; try apply (parts_nil h (many_opt tag d)), covers_on.
  apply parts_one_name; [apply covers_on|eapply (labels_map h tag d), H|]. intros mid b M Hh E. injection E as <-.
  apply fills_many_opt_each. eapply (tells_each h tag d f (fun a => Some (g a))); [intros; apply H|exact M|exact Hh|].
  rewrite each_total. reflexivity.
Qed.

(** ** Several fields *)
Lemma fills_ok {S} (sh : shape S) ts nodes a : fills sh ts nodes (Some a) ->
  forallb attrs_ok nodes = true /\ tfold (tr_arm sh) nodes (init sh) = TOk a.
Proof. intros [_ _ F]. destruct (forallb attrs_ok nodes); [|discriminate]. split; [reflexivity|exact F]. Qed.
Lemma tfold_interleave {S T} (a : shape S) (b : shape T) ta ks : 
  covers a ta -> Forall (owned b) (filter (fun x => negb (named_in ta x)) ks) ->
  forall sa sb ra rb,
  tfold (tr_arm a) (filter (named_in ta) ks) sa = TOk ra ->
  tfold (tr_arm b) (filter (fun x => negb (named_in ta x)) ks) sb = TOk rb ->
  tfold (tr_arm (SPair a b)) ks (sa, sb) = TOk (ra, rb).
Proof.
  intros C. induction ks as [|x ks IH]; intros O sa sb ra rb Ea Eb.
  - cbn in *. congruence.
  - cbn [filter] in *. destruct (named_in ta x) eqn:N; cbn [negb] in *.
    + cbn [tfold] in Ea |- *. destruct x as [m ats kids|s|s|]; try discriminate. cbn [tr_arm].
      destruct (tr_arm a m) as [r|]; [|discriminate]. destruct (r ats (reparses kids)) as [u| |]; try discriminate.
      cbn [tbind tmap] in *. unfold on_fst. cbn [fst snd]. destruct (u sa) as [sa'|]; [|discriminate]. cbn [of_opt tbind] in *.
      now apply IH.
    + inversion O as [|? ? O1 O2]; subst. cbn [tfold] in Eb |- *. destruct x as [m ats kids|s|s|]; try discriminate. cbn [tr_arm].
      assert (Na : tr_arm a m = None).
      { destruct (tr_arm a m) eqn:E; [|reflexivity]. exfalso. assert (L : label ta (Elem m ats kids)).
        { exists m. split; [reflexivity|]. apply C. rewrite E. discriminate. }
        apply named_in_label in L. congruence. }
      rewrite Na. destruct (tr_arm b m) as [r|]; [|discriminate]. destruct (r ats (reparses kids)) as [u| |]; try discriminate.
      cbn [tbind tmap] in *. unfold on_snd. cbn [fst snd]. destruct (u sb) as [sb'|]; [|discriminate]. cbn [of_opt tbind] in *.
      now apply IH.
Qed.
Lemma forallb_split {A} (p q : A -> bool) l :
  forallb p (filter q l) = true -> forallb p (filter (fun x => negb (q x)) l) = true -> forallb p l = true.
Proof.
  induction l as [|a l IH]; [reflexivity|]. cbn. destruct (q a); cbn; intros H1 H2.
  - apply andb_prop in H1. destruct H1 as [H1 H1']. rewrite H1. now apply IH.
  - apply andb_prop in H2. destruct H2 as [H2 H2']. rewrite H2. now apply IH.
Qed.
Lemma Forall_split {A} (P : A -> Prop) (q : A -> bool) l :
  Forall P (filter q l) -> Forall P (filter (fun x => negb (q x)) l) -> Forall P l.
Proof.
  rewrite !Forall_forall. intros H1 H2 x Hx. destruct (q x) eqn:E; [apply H1|apply H2]; apply filter_In; split; auto.
  now rewrite E.
Qed.
Lemma parts_pair {S T} h (a : shape S) (b : shape T) ta tb na nb ra rb :
  parts h a ta na ra -> parts h b tb nb rb -> disjoint ta tb = true ->
  parts h (SPair a b) (ta ++ tb) (na ++ nb) (let? x := ra in let? y := rb in Some (x, y)).
Proof.
  intros [Ca La Fa] [Cb Lb Fb] D. pose proof (covers_disjoint a b ta tb Ca Cb D) as N. constructor.
  - now apply covers_pair.
  - apply Forall_app. split; [eapply Forall_impl; [|exact La]|eapply Forall_impl; [|exact Lb]];
      intros x (m & E & H); exists m; (split; [exact E|apply in_or_app; auto]).
  - intros mid ks r M Sh Hh E.
    destruct ra as [xa|]; [|discriminate]. destruct rb as [xb|]; [|discriminate]. cbn [bindo] in E. injection E as <-.
    apply Forall2_app_inv_l in M. destruct M as (ma & mb & Ma & Mb & ->).
    pose proof (same_labels _ _ _ Ma La) as La'. pose proof (same_labels _ _ _ Mb Lb) as Lb'.
    pose proof (Fa _ _ xa Ma (shuf_fst ta tb ma mb ks D La' Lb' Sh) (incl_Forall (incl_filter _ _) Hh) eq_refl) as Ka.
    pose proof (Fb _ _ xb Mb (shuf_snd ta tb ma mb ks D La' Lb' Sh) (incl_Forall (incl_filter _ _) Hh) eq_refl) as Kb.
    destruct (fills_ok _ _ _ _ Ka) as [Oa Ta]. destruct (fills_ok _ _ _ _ Kb) as [Ob Tb].
    constructor.
    + now apply covers_pair.
    + eapply Forall_split.
      * eapply Forall_impl; [|apply (f_owned _ _ _ _ Ka)]. intros [m ats kids|s|s|] Hx; cbn in *; try contradiction.
        destruct (tr_arm a m); [discriminate|congruence].
      * eapply Forall_impl; [|apply (f_owned _ _ _ _ Kb)]. intros [m ats kids|s|s|] Hx; cbn in *; try contradiction.
        rewrite (N m Hx). destruct (tr_arm b m); [discriminate|congruence].
    + rewrite (forallb_split attrs_ok (named_in ta) ks Oa Ob). cbn [checked of_opt init].
      eapply tfold_interleave; eauto. apply (f_owned _ _ _ _ Kb).
Qed.
Lemma parts_pair_none {S T} h (a : shape S) (b : shape T) ta tb na ra :
  parts h a ta na ra -> covers b tb -> disjoint ta tb = true ->
  parts h (SPair a b) (ta ++ tb) na (let? x := ra in Some (x, init b)).
Proof.
  intros Ha Hb D. rewrite <- (app_nil_r na).
  exact (parts_pair h a b ta tb na [] ra (Some (init b)) Ha (parts_nil h b tb Hb) D).
Qed.
Lemma parts_none_pair {S T} h (a : shape S) (b : shape T) ta tb nb rb :
  covers a ta -> parts h b tb nb rb -> disjoint ta tb = true ->
  parts h (SPair a b) (ta ++ tb) nb (let? y := rb in Some (init a, y)).
Proof.
  intros Ha Hb D. exact (parts_pair h a b ta tb [] nb (Some (init a)) rb (parts_nil h a ta Ha) Hb D).
Qed.
Lemma label_app_l ta tb l : Forall (label ta) l -> Forall (label (ta ++ tb)) l.
Proof. apply Forall_impl. intros x (m & E & H). exists m. split; [exact E|apply in_or_app; auto]. Qed.
Lemma label_app_r ta tb l : Forall (label tb) l -> Forall (label (ta ++ tb)) l.
Proof. apply Forall_impl. intros x (m & E & H). exists m. split; [exact E|apply in_or_app; auto]. Qed.
Lemma parts_or_l {S} h (a b : shape S) ta tb nodes r :
  parts h a ta nodes r -> covers b tb -> parts h (SOr a b) (ta ++ tb) nodes r.
Proof.
  intros [C L F] Hb. constructor; [now apply covers_or|now apply label_app_l|].
  intros mid ks x M Sh Hh E. apply fills_or_l; eauto.
Qed.
Lemma parts_or_r {S} h (a b : shape S) ta tb nodes r :
  covers a ta -> parts h b tb nodes r -> disjoint ta tb = true -> init a = init b ->
  parts h (SOr a b) (ta ++ tb) nodes r.
Proof.
  intros Ca [C L F] D I. constructor; [now apply covers_or|now apply label_app_r|].
  intros mid ks x M Sh Hh E. apply fills_or_r; eauto.
Qed.
Lemma parts_gate {A} h a v (sh : shape (option A)) ts nodes r :
  init sh = None -> parts h sh ts nodes r ->
  parts h (Xml.from (since a v) sh) ts (in_version a v nodes) (gate a v r).
Proof.
  intros I H. unfold since, in_version, gate. destruct (version_leb a v); [exact H|]. cbn [Xml.from]. rewrite I.
  apply (parts_nil h (SNone None)). apply (covers_from false sh). apply H.
Qed.
Lemma parts_from_to {A} h a v (sh : shape (option A)) ts nodes x :
  init sh = None -> parts h sh ts nodes (Some x) ->
  parts h (Xml.from (since a v) sh) ts (in_version a v nodes) (Some (JsonSpec.from a v x)).
Proof.
  intros I H. pose proof (parts_gate h a v sh ts nodes _ I H) as K. unfold gate in K. unfold JsonSpec.from.
  destruct (version_leb a v); exact K.
Qed.

(** lists of items of two kinds keep their order *)
Lemma fills_many2_each {A} t1 (d1 : desc A) t2 (d2 : desc A) mid l :
  String.eqb t2 t1 = false ->
  Forall2 (fun y a => reads t1 d1 y (Some a) \/ reads t2 d2 y (Some a)) mid l ->
  fills (SOr (many t1 d1) (many t2 d2)) [t1; t2] mid (Some l).
Proof.
  intros N H.
  assert (E : mid = map fst (combine mid l) /\ l = map snd (combine mid l)).
  { clear -H. induction H as [|y a mid l _ _ IH]; [split; reflexivity|]. cbn. destruct IH as [E1 E2].
    split; f_equal; assumption. }
  destruct E as [E1 E2].
  cut (fills (SOr (many t1 d1) (many t2 d2)) [t1; t2] (map fst (combine mid l)) (Some (map snd (combine mid l)))).
  { now rewrite <- E1, <- E2. }
  rewrite <- each_total. apply fills_many2; [exact N|]. intros p Hp.
  clear E1 E2. induction H as [|y a mid l Hy H IH]; [contradiction|]. cbn in Hp. destruct Hp as [<-|Hp]; [exact Hy|auto].
Qed.
Lemma tells_mixed {A B} h p n t1 (d1 : desc B) t2 (d2 : desc B) (f : A -> xml) k l :
  mixed_list n = true -> String.eqb t2 t1 = false ->
  (forall a, tells h t1 d1 (f a) (k a) \/ tells h t2 d2 (f a) (k a)) ->
  tells h n (DLoop p (SOr (many t1 d1) (many t2 d2))) (group n f l) (each k l).
Proof.
  intros Mx N H. split; [reflexivity|]. intros y a Sm Hy E.
  apply same_elem_inv in Sm. destruct Sm as (ats' & mid & ks & -> & P & M & _ & V). specialize (V Mx).
  apply Permutation_nil in P. subst ats'.
  pose proof (visible_heights n [] ks h (Nat.lt_lt_succ_r _ _ Hy)) as Hh. clear Hy. rewrite <- V in Hh.
  apply reads_visible. rewrite <- V. clear V ks.
  eapply reads_loop; [|reflexivity]. apply fills_many2_each; [exact N|].
  assert (La : Forall (label [t1; t2]) (map f l)).
  { apply Forall_forall. intros x Hx. apply in_map_iff in Hx. destruct Hx as (c & <- & _).
    destruct (H c) as [[E1 _]|[E1 _]]; eexists; (split; [exact E1|]); cbn; auto. }
  rewrite (visible_labels [t1; t2]) in * by (eapply same_labels; eauto). clear La.
  revert mid a M Hh E. induction l as [|c l IH]; intros mid r M Hh E.
  - inversion M; subst. cbn in E. injection E as <-. constructor.
  - cbn [map] in M. inversion M as [|? y ? mid' Hy Hm]; subst. inversion Hh; subst.
    cbn [each] in E. destruct (k c) as [b|] eqn:Eb; [|discriminate]. cbn [bindo] in E.
    destruct (each k l) as [l''|] eqn:El; [|discriminate]. cbn [bindo] in E. injection E as <-.
    constructor; [|now apply IH].
    destruct (H c) as [[_ K]|[_ K]]; [left|right]; apply K; assumption.
Qed.

(** ** Attributes of the format *)
Lemma with_attr_app k k' o l :
  attr k (with_attr k' o ++ l)
  = if String.eqb k' k then match o with Some s => Some s | None => attr k l end else attr k l.
Proof. destruct o; cbn; destruct (String.eqb k' k); reflexivity. Qed.
Lemma with_attr_only k k' o : attr k (with_attr k' o) = if String.eqb k' k then o else None.
Proof. destruct o; cbn; destruct (String.eqb k' k); reflexivity. Qed.

(** Reading what was written: how the tree semantics of XmlLemmas.v acts on the children that a
    writer emits field by field. *)
From Verif Require Import Base ModelTypes Strings Enums Json Xml XmlLemmas XmlModel XmlSpec.
Open Scope string_scope.
Open Scope list_scope.
Open Scope nat_scope.

Definition checked {A} (ok : bool) (t : tres A) : tres A := if ok then t else TErr.

(** [x] is an element [tag] and reading it with [d] gives [r]; a repeated attribute anywhere in it is an error *)
Definition reads {A} (tag : string) (d : desc A) (x : xml) (r : option A) : Prop :=
  exists ats ks, x = Elem tag ats ks /\ checked (attrs_ok x) (tr d tag ats (reparses ks)) = of_opt r.

Lemma reads_eq {A} tag (d : desc A) x r r' : reads tag d x r -> r = r' -> reads tag d x r'.
Proof. now intros H <-. Qed.

(** ** The arms of a loop on the nodes of one field *)
Section TFOLD.
  Context {S : Type} (arm : string -> option (attrs -> list xml -> tres (S -> option S))).
  Fixpoint tfold (nodes : list xml) (st : S) : tres S :=
    match nodes with
    | [] => TOk st
    | Elem m ats ks :: l =>
        match arm m with
        | Some r => tbind (r ats (reparses ks)) (fun u => tbind (of_opt (u st)) (tfold l))
        | None => TUnk
        end
    | _ => TUnk
    end.
End TFOLD.
Definition owned {S} (sh : shape S) (x : xml) : Prop :=
  match x with Elem m _ _ => tr_arm sh m <> None | _ => False end.
Definition covers {S} (sh : shape S) (ts : list string) : Prop := forall m, tr_arm sh m <> None -> In m ts.

Record fills {S} (sh : shape S) (ts : list string) (nodes : list xml) (r : option S) : Prop := mkFills {
  f_covers : covers sh ts;
  f_owned : Forall (owned sh) nodes;
  f_fold : checked (forallb attrs_ok nodes) (tfold (tr_arm sh) nodes (init sh)) = of_opt r }.

Lemma reparses_cons x l : reparses (x :: l) = reparse x ++ reparses l.
Proof. reflexivity. Qed.
Lemma reparses_app a b : reparses (a ++ b) = reparses a ++ reparses b.
Proof. apply flat_map_app. Qed.

Lemma tbind_assoc {A B C} (t : tres A) (f : A -> tres B) (g : B -> tres C) :
  tbind (tbind t f) g = tbind t (fun a => tbind (f a) g).
Proof. destruct t; reflexivity. Qed.
Lemma tbind_ext {A B} (t : tres A) (f g : A -> tres B) : (forall a, f a = g a) -> tbind t f = tbind t g.
Proof. intros H. destruct t; cbn; auto. Qed.

Lemma absorb_tfold {S} p (sh : shape S) chars n nodes st :
  Forall (owned sh) nodes ->
  absorb p (tr_arm sh) chars n (reparses nodes) st = tfold (tr_arm sh) nodes st.
Proof.
  intros H. revert st. induction H as [|x l Hx Hl IH]; intros st; [reflexivity|].
  destruct x as [m ats ks|s|s|]; try contradiction. cbn [owned] in Hx.
  rewrite reparses_cons. cbn [reparse app absorb absorb1 tfold].
  destruct (tr_arm sh m) as [r|]; [|congruence].
  rewrite tbind_assoc. apply tbind_ext. intros u.
  destruct (u st); cbn; [apply IH|reflexivity].
Qed.
Lemma odd_tfold {S} (sh : shape S) nodes st :
  Forall (owned sh) nodes ->
  odd_absorb (tr_arm sh) (reparses nodes) st = tfold (tr_arm sh) nodes st.
Proof.
  intros H. revert st. induction H as [|x l Hx Hl IH]; intros st; [reflexivity|].
  destruct x as [m ats ks|s|s|]; try contradiction. cbn [owned] in Hx.
  rewrite reparses_cons. cbn [reparse app odd_absorb tfold].
  destruct (tr_arm sh m) as [r|]; [|congruence].
  apply tbind_ext. intros u. destruct (u st); cbn; [apply IH|reflexivity].
Qed.

(** ** Structures *)
Lemma attrs_ok_elem n ats ks : attrs_ok (Elem n ats ks) = distinct (map fst ats) && forallb attrs_ok ks.
Proof. reflexivity. Qed.

Lemma checked_tbind {A B} ok (t : tres A) (f : A -> tres B) r (g : A -> option B) :
  checked ok t = of_opt r -> (forall a, f a = of_opt (g a)) -> checked ok (tbind t f) = of_opt (bindo r g).
Proof.
  intros H K. destruct ok; cbn in *; [|destruct r; [discriminate|reflexivity]].
  subst t. destruct r; cbn; auto.
Qed.

Lemma reads_loop {S} p (sh : shape S) ts tag ats ks r :
  fills sh ts ks r -> distinct (map fst ats) = true -> reads tag (DLoop p sh) (Elem tag ats ks) r.
Proof.
  intros H D. exists ats, ks. split; [reflexivity|].
  rewrite attrs_ok_elem, D. cbn [andb tr]. rewrite absorb_tfold by apply H. apply H.
Qed.
Lemma reads_struct {S A} p (sh : shape S) (fin : attrs -> S -> option A) ts tag ats ks r :
  fills sh ts ks r -> distinct (map fst ats) = true ->
  reads tag (struct p sh fin) (Elem tag ats ks) (bindo r (fin ats)).
Proof.
  intros H D. exists ats, ks. split; [reflexivity|].
  rewrite attrs_ok_elem, D. cbn [andb struct tr].
  apply checked_tbind; [|reflexivity]. rewrite absorb_tfold by apply H. apply H.
Qed.
Lemma reads_struct_eq {S A} p (sh : shape S) (fin : attrs -> S -> option A) ts tag ats ks r r' :
  fills sh ts ks r -> distinct (map fst ats) = true -> bindo r (fin ats) = r' ->
  reads tag (struct p sh fin) (Elem tag ats ks) r'.
Proof. intros H D <-. eapply reads_struct; eauto. Qed.
Lemma reads_map {A B} (f : A -> B) tag d x r r' :
  reads tag d x r -> r' = (let? a := r in Some (f a)) -> reads tag (d_map f d) x r'.
Proof.
  intros (ats & ks & -> & H) ->. exists ats, ks. split; [reflexivity|].
  cbn [d_map tr]. apply checked_tbind; [exact H|reflexivity].
Qed.
Lemma reads_dmap {A B} (f : string -> attrs -> A -> option B) tag d ats ks r r' :
  reads tag d (Elem tag ats ks) r -> bindo r (f tag ats) = r' -> reads tag (DMap f d) (Elem tag ats ks) r'.
Proof.
  intros (ats' & ks' & E & H) <-. injection E as <- <-. exists ats, ks. split; [reflexivity|].
  cbn [tr]. apply checked_tbind; [exact H|reflexivity].
Qed.
Lemma reads_odd {S A} (sh : shape S) (d : desc A) upd ts tag ats ks r :
  fills sh ts ks r -> distinct (map fst ats) = true -> reads tag (DOdd sh d upd) (Elem tag ats ks) r.
Proof.
  intros H D. exists ats, ks. split; [reflexivity|].
  rewrite attrs_ok_elem, D. cbn [andb tr]. rewrite odd_tfold by apply H. apply H.
Qed.

(** ** Fields *)
Lemma covers_on {A S} tag (d : desc A) (i : S) upd : covers (SOn tag d i upd) [tag].
Proof. intros m H. cbn in H. destruct (String.eqb_spec m tag); [now left|congruence]. Qed.
Lemma covers_one {A} tag (d : desc A) : covers (one tag d) [tag].
Proof. apply covers_on. Qed.
Lemma covers_none {S} (i : S) : covers (SNone i) [].
Proof. intros m H. now destruct H. Qed.
Lemma covers_or {S} (a b : shape S) ta tb : covers a ta -> covers b tb -> covers (SOr a b) (ta ++ tb).
Proof.
  intros Ha Hb m H. cbn [tr_arm] in H. apply in_or_app. specialize (Ha m). specialize (Hb m).
  destruct (tr_arm a m); [left; apply Ha; discriminate|right; apply Hb, H].
Qed.
Lemma covers_pair {S T} (a : shape S) (b : shape T) ta tb :
  covers a ta -> covers b tb -> covers (SPair a b) (ta ++ tb).
Proof.
  intros Ha Hb m H. cbn [tr_arm] in H. apply in_or_app. specialize (Ha m). specialize (Hb m).
  destruct (tr_arm a m); [left; apply Ha; discriminate|right; apply Hb].
  destruct (tr_arm b m); [discriminate|congruence].
Qed.
Lemma covers_from {S} b (sh : shape S) ts : covers sh ts -> covers (from b sh) ts.
Proof. intros H. destruct b; [exact H|]. intros m K. now destruct K. Qed.

Lemma fills_nil {S} (sh : shape S) ts : covers sh ts -> fills sh ts [] (Some (init sh)).
Proof. intros H. constructor; [exact H|constructor|reflexivity]. Qed.

Lemma fills_on1 {A S} tag (d : desc A) (i : S) upd x r :
  reads tag d x r -> fills (SOn tag d i upd) [tag] [x] (let? a := r in upd a i).
Proof.
  intros (ats & ks & -> & H). constructor.
  - apply covers_on.
  - constructor; [|constructor]. cbn. rewrite String.eqb_refl. discriminate.
  - cbn [forallb]. rewrite Bool.andb_true_r. cbn [tfold tr_arm init]. rewrite String.eqb_refl.
    unfold tmap. rewrite tbind_assoc. eapply (checked_tbind _ _ _ _ (fun a => upd a i)); [exact H|].
    intros a. cbn. destruct (upd a i); reflexivity.
Qed.
Lemma fills_req {A} tag (d : desc A) x r :
  reads tag d x r -> fills (one tag d) [tag] [x] (let? a := r in Some (Some a)).
Proof. intros H. exact (fills_on1 tag d None (fun a _ => Some (Some a)) x r H). Qed.
Lemma fills_req_t {A} tag (d : desc A) x a :
  reads tag d x (Some a) -> fills (one tag d) [tag] [x] (Some (Some a)).
Proof. intros H. exact (fills_req _ _ _ _ H). Qed.
Lemma fills_opt {A B} tag (d : desc B) (f : A -> xml) k o :
  (forall a, o = Some a -> reads tag d (f a) (k a)) -> fills (one tag d) [tag] (opt f o) (maybe k o).
Proof.
  intros H. destruct o as [a|]; [|apply fills_nil, covers_one].
  apply fills_req, H. reflexivity.
Qed.
Lemma fills_opt_t {A B} tag (d : desc B) (f : A -> xml) g o :
  (forall a, o = Some a -> reads tag d (f a) (Some (g a))) ->
  fills (one tag d) [tag] (opt f o) (Some (option_map g o)).
Proof. intros H. destruct o as [a|]; exact (fills_opt tag d f (fun a => Some (g a)) _ H). Qed.
Lemma fills_opt_id {A} tag (d : desc A) (f : A -> xml) o :
  (forall a, o = Some a -> reads tag d (f a) (Some a)) -> fills (one tag d) [tag] (opt f o) (Some o).
Proof. intros H. destruct o as [a|]; exact (fills_opt tag d f (fun a => Some a) _ H). Qed.

(** lists *)
Definition pushes {A} (sh : shape (list A)) (x : xml) (r : option A) : Prop :=
  exists tag ats ks (d : desc A),
    x = Elem tag ats ks
    /\ tr_arm sh tag = Some (fun ats ks => tmap (fun a l => Some (l ++ [a])) (tr d tag ats ks))
    /\ checked (attrs_ok x) (tr d tag ats (reparses ks)) = of_opt r.
Lemma tfold_pushes {A B} (sh : shape (list B)) (f : A -> xml) k l :
  (forall a, In a l -> pushes sh (f a) (k a)) -> forall acc,
  checked (forallb attrs_ok (map f l)) (tfold (tr_arm sh) (map f l) acc)
  = of_opt (let? l' := each k l in Some (acc ++ l')).
Proof.
  induction l as [|a l IH]; intros H acc.
  - cbn. now rewrite app_nil_r.
  - destruct (H a (or_introl eq_refl)) as (tag & ats & ks & d & E & T & R).
    specialize (IH (fun a Ha => H a (or_intror Ha))).
    cbn [map forallb each]. rewrite E in *. cbn [tfold]. rewrite T.
    destruct (attrs_ok (Elem tag ats ks)); cbn [checked andb] in *.
    + rewrite R. destruct (k a) as [b|]; cbn [of_opt tmap tbind bindo].
      * rewrite IH. destruct (each k l) as [l'|]; cbn; [|reflexivity]. now rewrite <- app_assoc.
      * destruct (forallb attrs_ok (map f l)); reflexivity.
    + destruct (k a); [discriminate|reflexivity].
Qed.
Lemma pushes_owned {A} (sh : shape (list A)) x r : pushes sh x r -> owned sh x.
Proof. intros (tag & ats & ks & d & -> & T & _). cbn. rewrite T. discriminate. Qed.
Lemma fills_pushes {A B} (sh : shape (list B)) ts (f : A -> xml) k l :
  covers sh ts -> init sh = [] -> (forall a, In a l -> pushes sh (f a) (k a)) ->
  fills sh ts (map f l) (each k l).
Proof.
  intros C I H. constructor; [exact C| |].
  - apply Forall_forall. intros x Hx. apply in_map_iff in Hx. destruct Hx as (a & <- & Ha).
    eapply pushes_owned, H, Ha.
  - rewrite I, (tfold_pushes sh f k l H []). destruct (each k l); reflexivity.
Qed.
Lemma pushes_many {A} tag (d : desc A) x r : reads tag d x r -> pushes (many tag d) x r.
Proof.
  intros (ats & ks & -> & H). exists tag, ats, ks, d. split; [reflexivity|split; [|exact H]].
  cbn. now rewrite String.eqb_refl.
Qed.
Lemma fills_many {A B} tag (d : desc B) (f : A -> xml) k l :
  (forall a, In a l -> reads tag d (f a) (k a)) -> fills (many tag d) [tag] (map f l) (each k l).
Proof. intros H. apply fills_pushes; [apply covers_on|reflexivity|]. intros a Ha. apply pushes_many, H, Ha. Qed.
Lemma fills_many2 {A B} t1 (d1 : desc B) t2 (d2 : desc B) (f : A -> xml) k l :
  String.eqb t2 t1 = false ->
  (forall a, In a l -> reads t1 d1 (f a) (k a) \/ reads t2 d2 (f a) (k a)) ->
  fills (SOr (many t1 d1) (many t2 d2)) [t1; t2] (map f l) (each k l).
Proof.
  intros N H. apply fills_pushes; [|reflexivity|].
  - apply (covers_or _ _ [t1] [t2]); apply covers_on.
  - intros a Ha. destruct (H a Ha) as [(ats & ks & E & R)|(ats & ks & E & R)].
    + exists t1, ats, ks, d1. split; [exact E|split; [|exact R]]. cbn. now rewrite String.eqb_refl.
    + exists t2, ats, ks, d2. split; [exact E|split; [|exact R]]. cbn. now rewrite N, String.eqb_refl.
Qed.
Lemma each_total {A B} (g : A -> B) l : each (fun a => Some (g a)) l = Some (map g l).
Proof. induction l as [|a l IH]; [reflexivity|]. cbn. now rewrite IH. Qed.
Lemma each_id {A} (l : list A) : each Some l = Some l.
Proof. induction l as [|a l IH]; [reflexivity|]. cbn. now rewrite IH. Qed.
Lemma each_ext {A B} (k k' : A -> option B) l : (forall a, In a l -> k a = k' a) -> each k l = each k' l.
Proof.
  induction l as [|a l IH]; intros H; [reflexivity|]. cbn. rewrite (H a) by now left.
  rewrite IH by (intros b Hb; apply H; now right). reflexivity.
Qed.
Lemma fills_many_t {A B} tag (d : desc B) (f : A -> xml) g l :
  (forall a, In a l -> reads tag d (f a) (Some (g a))) -> fills (many tag d) [tag] (map f l) (Some (map g l)).
Proof. intros H. rewrite <- each_total. now apply fills_many. Qed.
Lemma fills_many_id {A} tag (d : desc A) (f : A -> xml) l :
  (forall a, In a l -> reads tag d (f a) (Some a)) -> fills (many tag d) [tag] (map f l) (Some l).
Proof. intros H. rewrite <- each_id. now apply fills_many. Qed.

Lemma reads_list {A B} p n tag (d : desc B) (f : A -> xml) k l :
  (forall a, In a l -> reads tag d (f a) (k a)) -> reads n (list_of p tag d) (list_tag n f l) (each k l).
Proof. intros H. eapply reads_loop; [apply fills_many, H|reflexivity]. Qed.
Lemma reads_list_t {A B} p n tag (d : desc B) (f : A -> xml) g l :
  (forall a, In a l -> reads tag d (f a) (Some (g a))) ->
  reads n (list_of p tag d) (list_tag n f l) (Some (map g l)).
Proof. intros H. eapply reads_loop; [apply fills_many_t, H|reflexivity]. Qed.
Lemma reads_list_id {A} p n tag (d : desc A) (f : A -> xml) l :
  (forall a, In a l -> reads tag d (f a) (Some a)) -> reads n (list_of p tag d) (list_tag n f l) (Some l).
Proof. intros H. eapply reads_loop; [apply fills_many_id, H|reflexivity]. Qed.
Lemma fills_list {A B} p n tag (d : desc B) (f : A -> xml) k o :
  (forall l a, o = Some l -> In a l -> reads tag d (f a) (k a)) ->
  fills (one_list p n tag d) [n] (opt_list n f o) (maybe (each k) o).
Proof. intros H. apply fills_opt. intros l E. apply reads_list. intros a. now apply H. Qed.
Lemma fills_list_t {A B} p n tag (d : desc B) (f : A -> xml) g o :
  (forall l a, o = Some l -> In a l -> reads tag d (f a) (Some (g a))) ->
  fills (one_list p n tag d) [n] (opt_list n f o) (Some (option_map (map g) o)).
Proof. intros H. apply fills_opt_t. intros l E. apply reads_list_t. intros a. now apply H. Qed.
Lemma fills_list_id {A} p n tag (d : desc A) (f : A -> xml) o :
  (forall l a, o = Some l -> In a l -> reads tag d (f a) (Some a)) ->
  fills (one_list p n tag d) [n] (opt_list n f o) (Some o).
Proof. intros H. apply fills_opt_id. intros l E. apply reads_list_id. intros a. now apply H. Qed.

(** lists without an element of their own *)
Lemma fills_items {A B} tag (d : desc B) (f : A -> xml) g o :
  (forall a, reads tag d (f a) (Some (g a))) ->
  fills (many_opt tag d) [tag] (items f o) (Some (some_items g o)).
Proof.
  intros H. destruct o as [[|a l]|]; try apply (fills_nil (many_opt tag d)), covers_on.
  constructor.
  - apply covers_on.
  - apply Forall_forall. intros x Hx. apply in_map_iff in Hx. destruct Hx as (b & <- & _).
    destruct (H b) as (ats & ks & -> & _). cbn. rewrite String.eqb_refl. discriminate.
  - cbn [items some_items].
    assert (K : forall l acc,
      checked (forallb attrs_ok (map f l)) (tfold (tr_arm (many_opt tag d)) (map f l) (Some acc))
      = TOk (Some (acc ++ map g l))).
    { clear l. induction l as [|b l IH]; intros acc; [cbn; now rewrite app_nil_r|].
      destruct (H b) as (ats & ks & E & R).
      cbn [map forallb]. rewrite E in *.
      destruct (attrs_ok (Elem tag ats ks)); cbn [checked of_opt andb] in *; [|discriminate].
      cbn [tfold tr_arm many_opt]. rewrite String.eqb_refl, R. cbn [tmap tbind of_opt].
      rewrite IH. now rewrite <- app_assoc. }
    destruct (H a) as (ats & ks & E & R).
    cbn [map forallb]. rewrite E in *.
    destruct (attrs_ok (Elem tag ats ks)); cbn [checked of_opt andb] in *; [|discriminate].
    cbn [tfold tr_arm many_opt init]. rewrite String.eqb_refl, R. cbn [tmap tbind of_opt app].
    exact (K l [g a]).
Qed.

(** ** Several fields *)
Fixpoint disjoint (a b : list string) : bool :=
  match a with [] => true | x :: a' => negb (existsb (String.eqb x) b) && disjoint a' b end.
Lemma disjoint_in a b x : disjoint a b = true -> In x a -> In x b -> False.
Proof.
  induction a as [|y a IH]; cbn; intros D Ha Hb; [contradiction|].
  apply andb_prop in D. destruct D as [D1 D2]. destruct Ha as [->|Ha]; [|eauto].
  apply negb_true_iff in D1. assert (K : existsb (String.eqb x) b = true).
  { apply existsb_exists. exists x. split; [exact Hb|apply String.eqb_refl]. }
  congruence.
Qed.
Lemma tfold_fst {S T} (a : shape S) (b : shape T) na nb sa sb :
  Forall (owned a) na ->
  tfold (tr_arm (SPair a b)) (na ++ nb) (sa, sb)
  = tbind (tfold (tr_arm a) na sa) (fun sa' => tfold (tr_arm (SPair a b)) nb (sa', sb)).
Proof.
  intros H. revert sa. induction H as [|x l Hx Hl IH]; intros sa; [reflexivity|].
  destruct x as [m ats ks|s|s|]; try contradiction. cbn [owned] in Hx.
  cbn [app tfold tr_arm]. destruct (tr_arm a m) as [r|]; [|congruence].
  unfold tmap. rewrite !tbind_assoc. apply tbind_ext. intros u. cbn [tbind]. unfold on_fst. cbn [fst].
  destruct (u sa) as [sa'|]; cbn; [apply IH|reflexivity].
Qed.
Lemma tfold_snd {S T} (a : shape S) (b : shape T) nb sa sb :
  Forall (owned b) nb -> (forall m, tr_arm b m <> None -> tr_arm a m = None) ->
  tfold (tr_arm (SPair a b)) nb (sa, sb) = tmap (pair sa) (tfold (tr_arm b) nb sb).
Proof.
  intros H N. revert sb. induction H as [|x l Hx Hl IH]; intros sb; [reflexivity|].
  destruct x as [m ats ks|s|s|]; try contradiction. cbn [owned] in Hx.
  cbn [app tfold tr_arm]. rewrite (N m Hx). destruct (tr_arm b m) as [r|]; [|congruence].
  unfold tmap. rewrite !tbind_assoc. apply tbind_ext. intros u. cbn [tbind]. unfold on_snd. cbn [snd].
  destruct (u sb) as [sb'|]; cbn; [apply IH|reflexivity].
Qed.
Lemma covers_disjoint {S T} (a : shape S) (b : shape T) ta tb :
  covers a ta -> covers b tb -> disjoint ta tb = true -> forall m, tr_arm b m <> None -> tr_arm a m = None.
Proof.
  intros Ha Hb D m Hm. destruct (tr_arm a m) eqn:E; [|reflexivity].
  exfalso. eapply disjoint_in; [exact D|apply Ha|apply Hb, Hm]. rewrite E. discriminate.
Qed.
Lemma fills_pair {S T} (a : shape S) (b : shape T) ta tb na nb ra rb :
  fills a ta na ra -> fills b tb nb rb -> disjoint ta tb = true ->
  fills (SPair a b) (ta ++ tb) (na ++ nb) (let? x := ra in let? y := rb in Some (x, y)).
Proof.
  intros [Ca Oa Fa] [Cb Ob Fb] D. pose proof (covers_disjoint a b ta tb Ca Cb D) as N. constructor.
  - now apply covers_pair.
  - apply Forall_app. split.
    + eapply Forall_impl; [|exact Oa]. intros [m ats ks|s|s|] Hx; cbn in *; try contradiction.
      destruct (tr_arm a m); [discriminate|congruence].
    + eapply Forall_impl; [|exact Ob]. intros [m ats ks|s|s|] Hx; cbn in *; try contradiction.
      rewrite (N m Hx). destruct (tr_arm b m); [discriminate|congruence].
  - cbn [init]. rewrite tfold_fst by exact Oa. rewrite forallb_app.
    destruct (forallb attrs_ok na); cbn [checked andb] in *.
    + rewrite Fa. destruct ra as [x|]; cbn [of_opt tbind bindo].
      * rewrite tfold_snd by assumption. destruct (forallb attrs_ok nb); cbn [checked] in *.
        -- rewrite Fb. destruct rb; reflexivity.
        -- destruct rb; [discriminate|reflexivity].
      * destruct (forallb attrs_ok nb); reflexivity.
    + destruct ra; [discriminate|reflexivity].
Qed.
Lemma fills_pair_none {S T} (a : shape S) (b : shape T) ta tb na ra :
  fills a ta na ra -> covers b tb -> disjoint ta tb = true ->
  fills (SPair a b) (ta ++ tb) na (let? x := ra in Some (x, init b)).
Proof.
  intros Ha Hb D. rewrite <- (app_nil_r na).
  exact (fills_pair a b ta tb na [] ra (Some (init b)) Ha (fills_nil b tb Hb) D).
Qed.
Lemma fills_none_pair {S T} (a : shape S) (b : shape T) ta tb nb rb :
  covers a ta -> fills b tb nb rb -> disjoint ta tb = true ->
  fills (SPair a b) (ta ++ tb) nb (let? y := rb in Some (init a, y)).
Proof.
  intros Ha Hb D.
  exact (fills_pair a b ta tb [] nb (Some (init a)) rb (fills_nil a ta Ha) Hb D).
Qed.
Lemma fills_or_l {S} (a b : shape S) ta tb nodes r :
  fills a ta nodes r -> covers b tb -> fills (SOr a b) (ta ++ tb) nodes r.
Proof.
  intros [Ca Oa Fa] Hb. constructor.
  - now apply covers_or.
  - eapply Forall_impl; [|exact Oa]. intros [m ats ks|s|s|] Hx; cbn in *; try contradiction.
    destruct (tr_arm a m); [discriminate|congruence].
  - cbn [init]. rewrite <- Fa. f_equal. clear Fa. generalize (init a) as st.
    induction Oa as [|x l Hx Hl IH]; intros st; [reflexivity|].
    destruct x as [m ats ks|s|s|]; try contradiction. cbn [owned] in Hx.
    cbn [tfold tr_arm]. destruct (tr_arm a m); [|congruence].
    apply tbind_ext. intros u. destruct (u st); cbn; [apply IH|reflexivity].
Qed.
Lemma fills_or_r {S} (a b : shape S) ta tb nodes r :
  covers a ta -> fills b tb nodes r -> disjoint ta tb = true -> init a = init b ->
  fills (SOr a b) (ta ++ tb) nodes r.
Proof.
  intros Ca [Cb Ob Fb] D I. pose proof (covers_disjoint a b ta tb Ca Cb D) as N. constructor.
  - now apply covers_or.
  - eapply Forall_impl; [|exact Ob]. intros [m ats ks|s|s|] Hx; cbn in *; try contradiction.
    now rewrite (N m Hx).
  - cbn [init]. rewrite I, <- Fb. f_equal. clear Fb. generalize (init b) as st.
    induction Ob as [|x l Hx Hl IH]; intros st; [reflexivity|].
    destruct x as [m ats ks|s|s|]; try contradiction. cbn [owned] in Hx.
    cbn [tfold tr_arm]. rewrite (N m Hx).  destruct (tr_arm b m); [|congruence].
    apply tbind_ext. intros u. destruct (u st); cbn; [apply IH|reflexivity].
Qed.
Lemma fills_from {S} c (sh : shape S) ts nodes r :
  fills sh ts nodes r -> fills (from c sh) ts (when c nodes) (if c then r else Some (init sh)).
Proof.
  intros H. destruct c; [exact H|]. constructor; [|constructor|reflexivity].
  apply (covers_from false). apply H.
Qed.
Lemma fills_from_t {S} c (sh : shape S) ts nodes x :
  fills sh ts nodes (Some x) -> fills (from c sh) ts (when c nodes) (Some (if c then x else init sh)).
Proof. intros H. apply (fills_from c) in H. now destruct c. Qed.

(** ** Text *)
Lemma reparses_text s : reparses [Text s] = match xtrim s with "" => [] | t => [Text t] end.
Proof. unfold reparses. cbn. now rewrite app_nil_r. Qed.
Lemma tr_simple_text s : tr_prim PSimple (reparses [Text s]) = TOk (xtrim s).
Proof. rewrite reparses_text. destruct (xtrim s); reflexivity. Qed.
Lemma tr_text_text s : tr_prim PText (reparses [Text s]) = of_opt (nonblank s).
Proof. rewrite reparses_text. unfold nonblank. destruct (xtrim s); reflexivity. Qed.
Lemma tr_optional_text s : tr_prim POptional (reparses [Text s]) = TOk (nonblank s).
Proof. rewrite reparses_text. unfold nonblank. destruct (xtrim s); reflexivity. Qed.

(** an element with attributes and text *)
Lemma reads_attr_simple {A} (f : string -> attrs -> string -> option A) tag ats s r :
  distinct (map fst ats) = true -> f tag ats (xtrim s) = r ->
  reads tag (DMap f (DPrim PSimple)) (Elem tag ats [Text s]) r.
Proof.
  intros D <-. exists ats, [Text s]. split; [reflexivity|].
  rewrite attrs_ok_elem, D. cbn [andb forallb attrs_ok checked tr]. now rewrite tr_simple_text.
Qed.
Lemma reads_attr_text {A} (f : string -> attrs -> string -> option A) tag ats s r :
  distinct (map fst ats) = true -> (let? t := nonblank s in f tag ats t) = r ->
  reads tag (DMap f (DPrim PText)) (Elem tag ats [Text s]) r.
Proof.
  intros D <-. exists ats, [Text s]. split; [reflexivity|].
  rewrite attrs_ok_elem, D. cbn [andb forallb attrs_ok checked tr]. rewrite tr_text_text.
  destruct (nonblank s); reflexivity.
Qed.
Lemma reads_string tag s : reads tag d_string (simple tag s) (Some (xtrim s)).
Proof. exists [], [Text s]. split; [reflexivity|]. cbn [attrs_ok map distinct forallb checked andb tr d_string]. apply tr_simple_text. Qed.
Lemma reads_ptext tag s : reads tag (DPrim PText) (simple tag s) (nonblank s).
Proof. exists [], [Text s]. split; [reflexivity|]. cbn [attrs_ok map distinct forallb checked andb tr]. apply tr_text_text. Qed.
Lemma reads_optional tag s : reads tag (DPrim POptional) (simple tag s) (Some (nonblank s)).
Proof. exists [], [Text s]. split; [reflexivity|]. cbn [attrs_ok map distinct forallb checked andb tr]. apply tr_optional_text. Qed.
Lemma reads_text {A} (f : string -> option A) tag s : reads tag (d_text f) (simple tag s) (f (xtrim s)).
Proof. apply reads_attr_simple; reflexivity. Qed.
Lemma reads_enum {A} (of_text : string -> A) (t : A -> string) tag x y :
  of_text (xtrim (t x)) = y -> reads tag (d_enum of_text) (txt t tag x) (Some y).
Proof. intros <-. apply (reads_text (fun s => Some (of_text s))). Qed.
Lemma reads_cdata tag s : reads tag d_string (Elem tag [] [CData s]) (Some s).
Proof. exists [], [CData s]. split; reflexivity. Qed.
Lemma reads_ref tag s : reads tag rd_ref (wr_ref tag s) (Some s).
Proof. exists [("ref", s)], []. split; reflexivity. Qed.

(** ** Attributes *)
Lemma attr_opt_app k k' o l :
  attr k (attr_opt k' o ++ l)
  = if String.eqb k' k then match o with Some s => Some s | None => attr k l end else attr k l.
Proof. destruct o; cbn; destruct (String.eqb k' k); reflexivity. Qed.
Lemma attr_opt_only k k' o : attr k (attr_opt k' o) = if String.eqb k' k then o else None.
Proof. destruct o; cbn; destruct (String.eqb k' k); reflexivity. Qed.
Lemma opt_eta {A} (o : option A) : match o with Some s => Some s | None => None end = o.
Proof. now destruct o. Qed.

(** The order of members does not matter: proofs *)
From Coq Require Import ZArith Permutation.
From Verif Require Import Base ModelTypes Strings Enums GenModel Json JsonLemmas JsonModel JsonProps
  GrammarSpec GrammarProofs SameSpec SameProofs.
Open Scope string_scope.
Open Scope list_scope.
Open Scope bool_scope.

(** ** Members in another order *)
Lemma filter_key k (m : list (string * json)) y : NoDup (map fst m) -> In y m -> fst y = k ->
  filter (fun m => String.eqb k (fst m)) m = [y].
Proof.
  induction m as [|z m IH]; intros N I E; [destruct I|]. cbn [filter]. inversion N as [|? ? N1 N2]; subst.
  destruct I as [->|I].
  - rewrite String.eqb_refl. f_equal. clear IH N N2.
    induction m as [|w m IH]; [reflexivity|]. cbn [filter]. destruct (String.eqb_spec (fst y) (fst w)) as [E|].
    + exfalso. apply N1. left. now symmetry.
    + apply IH. intros H. apply N1. now right.
  - destruct (String.eqb_spec (fst y) (fst z)) as [E|]; [|now apply IH].
    exfalso. apply N1. rewrite <- E. now apply in_map.
Qed.
Lemma filter_no_key k (m : list (string * json)) : ~ In k (map fst m) -> filter (fun m => String.eqb k (fst m)) m = [].
Proof.
  intros H. induction m as [|y m IH]; [reflexivity|]. cbn [filter]. destruct (String.eqb_spec k (fst y)) as [E|].
  - exfalso. apply H. left. now symmetry.
  - apply IH. intros K. apply H. now right.
Qed.
Lemma values_permuted k l l' : NoDup (map fst l) -> Permutation l l' -> values k l = values k l'.
Proof.
  intros N P. unfold values. f_equal. destruct (in_dec string_dec k (map fst l)) as [I|I].
  - apply in_map_iff in I. destruct I as (y & E & I). rewrite (filter_key k l y N I E), (filter_key k l' y); auto.
    + eapply Permutation_NoDup; [apply Permutation_map, P|exact N].
    + eapply Permutation_in; eauto.
  - rewrite !filter_no_key; auto. intros K. apply I. eapply Permutation_in; [apply Permutation_map, Permutation_sym, P|exact K].
Qed.
Lemma like_keys l m : Forall2 (fun p q => fst p = fst q /\ like (snd p) (snd q)) l m -> map (@fst string json) l = map fst m.
Proof. induction 1 as [|p q l m [E _] _ IH]; [reflexivity|]. cbn. now rewrite E, IH. Qed.
Lemma like_values k l j' : NoDup (map fst l) -> like (JObj l) j' -> exists l', j' = JObj l' /\ Forall2 like (values k l) (values k l').
Proof.
  intros N H. inversion H as [| | | | | |l0 m l' F P]; subst. exists l'. split; [reflexivity|].
  rewrite <- (values_permuted k m l'); [|rewrite <- (like_keys l m F); exact N|exact P].
  clear - F. induction F as [|[k1 x] [k2 y] l m [E L] _ IH]; [constructor|]. cbn [fst snd] in *. subst. unfold values in *. cbn [filter fst].
  destruct (String.eqb k k2); [constructor; auto|auto].
Qed.
Lemma like_null_l x y : like x y -> (x = JNull <-> y = JNull).
Proof. intros []; split; auto; discriminate. Qed.
Lemma like_present p a b : Forall2 like a b -> Forall2 like (present p a) (present p b).
Proof.
  intros H. destruct p; auto. destruct H as [|x y a b Hx Hl]; [constructor|].
  destruct Hl as [|? ? ? ? H1 H2].
  - destruct Hx; cbn; repeat constructor; auto. econstructor; eauto.
  - destruct Hx; cbn; repeat (constructor; auto). econstructor; eauto.
Qed.

(** ** Parts *)
Lemma orderly_arr l x : orderly (JArr l) -> In x l -> orderly x.
Proof.
  intros [A B] H. split; intros; [eapply A|eapply B]; eauto; right; apply in_flat_map; eauto.
Qed.
Lemma orderly_obj l k x : orderly (JObj l) -> In (k, x) l -> orderly x.
Proof.
  intros [A B] H. split; intros; [eapply A|eapply B]; eauto; right; apply in_flat_map; exists (k, x); auto.
Qed.
Lemma plain_elem l x : plain (JArr l) -> In x l -> plain x.
Proof. intros H I. inversion H as [| | | | |? F|]; subst. rewrite Forall_forall in F. auto. Qed.
Lemma plain_member l k x : plain (JObj l) -> In (k, x) l -> plain x.
Proof. intros H I. inversion H as [| | | | | |? N F]; subst. rewrite Forall_forall in F. apply (F (k, x) I). Qed.
Lemma plain_keys l : plain (JObj l) -> NoDup (map fst l).
Proof. intros H. now inversion H. Qed.
Lemma in_values k l x : In x (values k l) -> In (k, x) l.
Proof.
  unfold values. intros H. apply in_map_iff in H. destruct H as ([k' y] & <- & H). apply filter_In in H. destruct H as [H E].
  apply String.eqb_eq in E. cbn in *. now subst.
Qed.

(** ** The kinds the theorem is about: a license only under the name "license" *)
(* no name where the value is not taken apart *)
Fixpoint flat (t : kind) : bool :=
  match t with
  | Named _ => false
  | OneOf ks => (fix all (l : list kind) := match l with [] => true | t :: l' => flat t && all l' end) ks
  | Both a b => flat a && flat b
  | _ => true
  end.
Fixpoint guarded (t : kind) : bool :=
  let all := (fix all (l : list (string * (presence * kind))) :=
                match l with [] => true | (_, (_, t)) :: l' => guarded t && all l' end) in
  match t with
  | Named s => negb (String.eqb s "license")
  | ListOf t => guarded t
  | Object fs | Struct fs => all fs
  | Tagged vs => (fix all (l : list (string * kind)) :=
      match l with
      | [] => true
      | (k, t) :: l' => (guarded t || match t with Named s => String.eqb s "license" && String.eqb k "license" | _ => false end) && all l'
      end) vs
  | FirstMember ks t => (if list_eq_dec string_dec ks ["version"; "range"; "undefinedVersionRange"] then true else false)
                        && match t with Str => true | _ => false end
  | OneOf ks => (fix all (l : list kind) := match l with [] => true | t :: l' => (guarded t && flat t) && all l' end) ks
  | Both a b => (guarded a && flat a) && (guarded b && flat b)
  | _ => true
  end.
Lemma guarded_all v s t : In (s, t) (grammar v) -> s <> "license" -> guarded t = true /\ flat t = true.
Proof.
  assert (H : forallb (fun p => (String.eqb (fst p) "license" || guarded (snd p)) && flat (snd p)) (grammar v) = true)
    by (destruct v; vm_compute; reflexivity).
  intros I N. rewrite forallb_forall in H. specialize (H _ I). cbn [fst snd] in H. apply andb_true_iff in H. destruct H as [H F].
  split; [|exact F]. apply orb_true_iff in H. destruct H as [H|H]; [apply String.eqb_eq in H; congruence|exact H].
Qed.
Lemma guarded_kind v s : s <> "license" -> guarded (kind_of v s) = true /\ flat (kind_of v s) = true.
Proof.
  intros N. unfold kind_of. destruct (named s (grammar v)) as [t|] eqn:E; [|split; reflexivity].
  apply named_In in E. eapply guarded_all; eauto.
Qed.
Lemma guarded_fields (fs : list entry) : guarded (Struct fs) = true -> forall k p t, In (k, (p, t)) fs -> guarded t = true.
Proof.
  induction fs as [|[k' [p' t']] fs IH]; intros H k p t I; [destruct I|]. cbn [guarded] in H. apply andb_true_iff in H.
  destruct H as [H1 H2]. destruct I as [[= -> -> ->]|I]; [exact H1|]. eapply IH; eauto.
Qed.
Lemma guarded_tag vs k t : guarded (Tagged vs) = true -> named k vs = Some t ->
  guarded t = true \/ (k = "license" /\ t = Named "license").
Proof.
  induction vs as [|[k' t'] vs IH]; intros H N; [discriminate|]. cbn [guarded] in H. apply andb_true_iff in H. destruct H as [H1 H2].
  cbn [named] in N. destruct (String.eqb_spec k k') as [->|]; [|auto]. injection N as ->. apply orb_true_iff in H1.
  destruct H1 as [H1|H1]; [now left|right]. destruct t; try discriminate H1. apply andb_true_iff in H1. destruct H1 as [E1 E2].
  apply String.eqb_eq in E1, E2. now subst.
Qed.
Lemma not_named_flat t : flat t = true -> match t with Named _ => False | _ => True end.
Proof. destruct t; cbn; auto. discriminate. Qed.
Lemma flat_in ks : flat (OneOf ks) = true -> forall t, In t ks -> flat t = true.
Proof.
  induction ks as [|a ks IH]; intros H t I; [destruct I|]. cbn [flat] in H. apply andb_true_iff in H. destruct H as [H1 H2].
  destruct I as [<-|I]; [exact H1|]. apply IH; auto.
Qed.
Lemma guarded_in ks : guarded (OneOf ks) = true -> forall t, In t ks -> guarded t = true.
Proof.
  induction ks as [|a ks IH]; intros H t I; [destruct I|]. cbn [guarded] in H. apply andb_true_iff in H. destruct H as [H1 H2].
  apply andb_true_iff in H1. destruct H1 as [H1 _].
  destruct I as [<-|I]; [exact H1|]. apply IH; auto.
Qed.
Lemma guarded_named t : guarded t = true -> flat t = false -> exists s, t = Named s /\ s <> "license".
Proof.
  intros H F. destruct t as [| | | |ws|t|s|fs|fs|vs|ks t|ks|a b]; try discriminate F.
  - exists s. split; [reflexivity|]. now apply String.eqb_neq, negb_true_iff.
  - exfalso. assert (flat (OneOf ks) = true); [|congruence]. clear F. induction ks as [|a ks IH]; [reflexivity|].
    cbn [guarded flat] in *. apply andb_true_iff in H. destruct H as [H1 H2]. apply andb_true_iff in H1. destruct H1 as [_ H1].
    rewrite H1. now apply IH.
  - cbn [guarded flat] in *. destruct (flat a), (flat b); try discriminate; rewrite ?andb_false_r in H; discriminate.
Qed.
Fixpoint ksize (t : kind) : nat :=
  match t with
  | OneOf ks => S ((fix all (l : list kind) := match l with [] => 0 | t :: l' => ksize t + all l' end) ks)
  | Both a b => S (ksize a + ksize b)
  | _ => 0
  end.
Lemma ksize_in ks t : In t ks -> ksize t < ksize (OneOf ks).
Proof.
  cbn [ksize]. induction ks as [|a ks IH]; intros H; [destruct H|]. destruct H as [<-|H]; [lia|]. specialize (IH H). lia.
Qed.

(** ** One of several names *)
Lemma find_named ks test l : first_named ks test l = match find (fun m => among (fst m) ks) l with Some m => test (snd m) | None => false end.
Proof. induction l as [|[k x] l IH]; [reflexivity|]. cbn [first_named find fst]. destruct (among k ks); [reflexivity|exact IH]. Qed.
Lemma like_find ks l j' : ~ two_of ks l -> like (JObj l) j' -> exists l', j' = JObj l' /\
  match find (fun m => among (fst m) ks) l, find (fun m => among (fst m) ks) l' with
  | Some (k, x), Some (k', x') => k = k' /\ like x x' /\ In (k, x) l
  | None, None => True
  | _, _ => False
  end.
Proof.
  intros T H. inversion H as [| | | | | |l0 m l' F P]; subst. exists l'. split; [reflexivity|].
  set (f := fun m : string * json => among (fst m) ks) in *.
  assert (A : Forall2 (fun p q => fst p = fst q /\ like (snd p) (snd q)) (filter f l) (filter f m)).
  { clear - F. induction F as [|p q l m [E L] _ IH]; [constructor|]. cbn [filter].
    replace (f q) with (f p) by (unfold f; now rewrite E). destruct (f p); [constructor; auto|auto]. }
  assert (B : Permutation (filter f m) (filter f l')).
  { clear - P. induction P.
    - constructor.
    - cbn [filter]. destruct (f x); [now constructor|exact IHP].
    - cbn [filter]. destruct (f x), (f y); try apply Permutation_refl. constructor.
    - eapply Permutation_trans; eauto. }
  assert (C : forall l : list (string * json), find f l = match filter f l with x :: _ => Some x | [] => None end).
  { clear. induction l as [|x l IH]; [reflexivity|]. cbn [find filter]. destruct (f x); [reflexivity|exact IH]. }
  rewrite !C. assert (I : forall x, In x (filter f l) -> In x l) by (intros x Hx; apply filter_In in Hx; apply Hx).
  unfold two_of in T. change (fun m => among (fst m) ks) with f in T.
  destruct A as [|[k x] [k2 y] a b [E L] Hab].
  - apply Permutation_nil in B. now rewrite B.
  - assert (a = []) as -> by (destruct a; [reflexivity|cbn in T; exfalso; apply T; cbn; lia]). inversion Hab; subst.
    apply Permutation_length_1_inv in B. rewrite B. cbn in E. subst. repeat split; auto. apply I. now left.
Qed.
Section ORDER.
Variable v : spec_version.
Notation G := (kind_of v).
Definition in_order (j j' : json) := plain j /\ orderly j /\ like j j'.
Lemma F2_in {X Y} (R S : X -> Y -> Prop) l l' : (forall x y, In x l -> R x y -> S x y) -> Forall2 R l l' -> Forall2 S l l'.
Proof.
  intros H F. induction F; constructor.
  - apply H; [now left|assumption].
  - apply IHF. intros; apply H; [now right|assumption].
Qed.
Lemma like_same_shape fs j j' : like j j' -> container j -> shapes fs j j'.
Proof. intros []; cbn; try tauto. intros _. now apply F2_length in H. Qed.
Lemma members_alike fs j j' : guarded (Struct fs) = true -> in_order j j' -> container j ->
  (forall x x', size x < size j -> in_order x x' -> forall t, guarded t = true -> either G t x x') ->
  forall k p t, In (k, (p, t)) fs -> agree p (either G t) (values_in fs j k) (values_in fs j' k).
Proof.
  intros Gd (Pl & Or & L) C IH k p t I. pose proof (guarded_fields fs Gd k p t I) as Gt. unfold agree.
  assert (E : Forall2 (fun x x' => either G t x x') (values_in fs j k) (values_in fs j' k) /\
              Forall2 like (values_in fs j k) (values_in fs j' k)).
  { destruct j as [| | | | |l|l]; try contradiction.
    - inversion L as [| | | | |? l' F|]; subst. cbn [values_in].
      assert (A : Forall2 like (at_place k (map fst fs) l) (at_place k (map fst fs) l')).
      { clear - F. revert l l' F. induction (map fst fs) as [|k' ks IH]; intros l l' F; [destruct F; constructor|].
        destruct F as [|x x' l l' Hx F]; [constructor|]. cbn [at_place]. destruct (String.eqb k k'); [repeat constructor; auto|auto]. }
      split; [|exact A]. eapply F2_in; [|exact A]. intros x x' Ix Lx. 
      assert (In x l). { clear - Ix. revert l Ix. induction (map fst fs) as [|k' ks IH]; intros l H; [destruct H|].
        destruct l as [|y l]; [destruct H|]. cbn [at_place] in H. destruct (String.eqb k k'); [destruct H as [->|[]]; now left|right; auto]. }
      apply IH; auto; [now apply size_arr|]. split; [eapply plain_elem; eauto|]. split; [eapply orderly_arr; eauto|exact Lx].
    - destruct (like_values k l j' (plain_keys l Pl) L) as (l' & -> & A). cbn [values_in]. split; [|exact A].
      eapply F2_in; [|exact A]. intros x x' Ix Lx. apply in_values in Ix.
      apply IH; auto; [eapply size_obj; eauto|]. split; [eapply plain_member; eauto|]. split; [eapply orderly_obj; eauto|exact Lx]. }
  destruct E as [E A]. destruct p; try exact E.
  destruct E as [|x y a b Hx Hl]; [constructor|]. inversion A as [|? ? ? ? L1 L2]; subst.
  destruct Hl as [|? ? ? ? H1 H2].
  - destruct L1; cbn [present]; [apply Forall2_nil|..]; (apply Forall2_cons; [exact Hx|apply Forall2_nil]).
  - destruct L1; cbn [present]; (apply Forall2_cons; [exact Hx|apply Forall2_cons; assumption]).
Qed.
Lemma like_word ws j j' : like j j' -> either G (Word ws) j j'.
Proof.
  intros []; try (left; apply same_refl); try (right; split; reflexivity).
  destruct H as [|[k x] [k' y] l m [E L] F].
  - apply Permutation_nil in H0. subst. left. constructor.
  - destruct F as [|? ? l m HF F].
    + apply Permutation_length_1_inv in H0. subst. cbn in E, L. subst k'. destruct L; [left; apply same_refl|right..]; split; reflexivity.
    + right. pose proof (Permutation_length H0) as Z. cbn in Z. split.
      * cbn. now destruct x.
      * destruct l' as [|[k1 x1] [|? ?]]; cbn in Z; try discriminate. cbn. now destruct x1.
Qed.
Definition license_ok (j : json) : Prop := match j with JObj m => ~ two_of ["id"; "name"] m | _ => True end.
Lemma first_alike ks j j' : in_order j j' -> match j with JObj m => ~ two_of ks m | _ => True end -> either G (FirstMember ks Str) j j'.
Proof.
  intros (Pl & Or & L) T. destruct j as [| | | | |l|l]; try (inversion L; subst; left; apply same_refl);
    try (inversion L; subst; right; split; reflexivity).
  destruct (like_find ks l j' T L) as (l' & -> & F).
  destruct (find (fun m => among (fst m) ks) l) as [[k x]|] eqn:E, (find (fun m => among (fst m) ks) l') as [[k' x']|] eqn:E'; try contradiction.
  - destruct F as (<- & Lx & _). left. eapply same_first; eauto. destruct Lx; try (left; apply same_refl); right; split; reflexivity.
  - right. split; cbn [fits]; rewrite find_named; [rewrite E|rewrite E']; reflexivity.
Qed.
Lemma either_both a b j j' : flat a = true -> flat b = true -> either G a j j' -> either G b j j' -> either G (Both a b) j j'.
Proof.
  intros Fa Fb A B. apply not_named_flat in Fa, Fb. destruct A as [A|[A A']].
  - destruct B as [B|[B B']]; [left; now constructor|]. right. split; rewrite fits_both by assumption; [rewrite B|rewrite B']; apply andb_false_r.
  - right. split; rewrite fits_both by assumption; [rewrite A|rewrite A']; reflexivity.
Qed.
Lemma either_named s j j' : flat (G s) = true -> either G (G s) j j' -> either G (Named s) j j'.
Proof.
  intros F [A|[A A']]; [left; now constructor|right]. apply not_named_flat in F. split; now rewrite fits_named.
Qed.
Lemma flat_step j j' : in_order j j' ->
  (forall x x', size x < size j -> in_order x x' -> forall t, guarded t = true \/ (t = Named "license" /\ license_ok x) -> either G t x x') ->
  forall n t, ksize t < n -> guarded t = true -> flat t = true -> either G t j j'.
Proof.
  intros O IH. pose proof O as (Pl & Or & L).
  assert (IH' : forall x x', size x < size j -> in_order x x' -> forall t, guarded t = true -> either G t x x') by (intros; apply IH; auto).
  induction n as [|n IHn]; intros t Z Gd Fl; [lia|].
  destruct t as [| | | |ws|t|s|fs|fs|vs|ks t|ks|a b].
  1-4: destruct L; try (left; apply same_refl); right; split; reflexivity.
  - now apply like_word.
  - destruct j as [| | | | |l|l]; try (inversion L; subst; left; apply same_refl); try (inversion L; subst; right; split; reflexivity).
    inversion L as [| | | | |? l' F|]; subst. left. apply same_list. eapply F2_in; [|exact F]. intros x x' Ix Lx.
    apply IH'; auto; [now apply size_arr|]. split; [eapply plain_elem; eauto|]. split; [eapply orderly_arr; eauto|exact Lx].
  - discriminate Fl.
  - destruct j as [| | | | |l|l]; try (inversion L; subst; left; apply same_refl); try (inversion L; subst; right; split; reflexivity).
    pose proof (members_alike fs (JObj l) j' Gd O Logic.I IH') as M.
    inversion L as [| | | | | |? m l' F P]; subst. left. apply same_object. exact M.
  - assert (D : container j \/ ~ container j) by (destruct j; cbn; tauto). destruct D as [C|C].
    + left. apply same_struct; [now apply like_same_shape|]. apply (members_alike fs j j' Gd O C IH').
    + destruct L; try (left; apply same_refl); cbn in C; tauto.
  - destruct j as [| | | | |l|l]; try (inversion L; subst; left; apply same_refl); try (inversion L; subst; right; split; reflexivity).
    inversion L as [| | | | | |? m l' F P]; subst. destruct F as [|[k x] [k' y] l m [E Lx] F].
    + apply Permutation_nil in P. subst. left. constructor.
    + destruct F as [|? ? l m HF F].
      * apply Permutation_length_1_inv in P. subst. cbn in E, Lx. subst k'. destruct (named k vs) as [t|] eqn:Nk.
        -- left. eapply same_tagged; eauto. apply IH; [eapply size_obj; now left| |].
           { split; [eapply plain_member; [exact Pl|now left]|]. split; [eapply orderly_obj; [exact Or|now left]|exact Lx]. }
           destruct (guarded_tag vs k t Gd Nk) as [H|[-> ->]]; [now left|right]. split; [reflexivity|].
           destruct x as [| | | | | |m]; cbn; auto. destruct Or as [_ Or]. eapply Or; [left; reflexivity|now left].
        -- right. split; cbn [fits]; now rewrite Nk.
      * right. pose proof (Permutation_length P) as Z'. cbn in Z'. split; [reflexivity|].
        destruct l' as [|[k1 x1] [|? ?]]; cbn in Z'; try discriminate. reflexivity.
  - cbn [guarded] in Gd. apply andb_true_iff in Gd. destruct Gd as [Gk Gt].
    destruct (list_eq_dec string_dec ks ["version"; "range"; "undefinedVersionRange"]) as [->|]; [|discriminate].
    destruct t; try discriminate. apply first_alike; [exact O|]. destruct j; auto. destruct Or as [Or _]. apply Or. now left.
  - left. apply same_one_of. intros t I. apply IHn.
    + pose proof (ksize_in ks t I). lia.
    + eapply guarded_in; eauto.
    + eapply flat_in; eauto.
  - cbn [guarded flat ksize] in *. apply andb_true_iff in Gd, Fl. destruct Gd as [Ga Gb], Fl. apply andb_true_iff in Ga, Gb. destruct Ga, Gb.
    apply either_both; auto; apply IHn; auto; lia.
Qed.
Lemma license_kind : exists fs, G "license" = Both (FirstMember ["id"; "name"] Str) (Object fs) /\ guarded (Object fs) = true.
Proof. destruct v; eexists; split; reflexivity. Qed.
Lemma order_alike : forall n j j', size j < n -> in_order j j' -> forall t, guarded t = true \/ (t = Named "license" /\ license_ok j) -> either G t j j'.
Proof.
  induction n as [|n IH]; intros j j' Z O t Gd; [lia|].
  assert (S : forall t, guarded t = true -> flat t = true -> either G t j j').
  { intros u Gu Fu. eapply flat_step; eauto. intros x x' Zx Ox w Gw. apply IH; auto. lia. }
  destruct Gd as [Gd|[-> K]].
  - destruct (flat t) eqn:F; [now apply S|]. destruct (guarded_named t Gd F) as (s & -> & N).
    destruct (guarded_kind v s N). apply either_named; auto.
  - destruct license_kind as (fs & E & Gf). apply either_named; rewrite E; [reflexivity|]. apply either_both; try reflexivity.
    + apply first_alike; auto.
    + now apply S.
Qed.
End ORDER.

(** Reading what was written: the general facts about [Json] the round-trip proofs use. *)
From Verif Require Import Base ModelTypes Json.
From Coq Require Import ZArith.
Open Scope string_scope.
Open Scope list_scope.

(** ** Documents that differ in the order of members only *)

(** [like j j'] holds when [j'] is [j] with the members of its objects, at any
    depth, written in any order. *)
Inductive like : json -> json -> Prop :=
| like_null : like JNull JNull
| like_bool b : like (JBool b) (JBool b)
| like_int z : like (JInt z) (JInt z)
| like_float f : like (JFloat f) (JFloat f)
| like_str s : like (JStr s) (JStr s)
| like_arr l l' : Forall2 like l l' -> like (JArr l) (JArr l')
| like_obj l m l' :
    Forall2 (fun p q => fst p = fst q /\ like (snd p) (snd q)) l m -> Permutation m l' ->
    like (JObj l) (JObj l').

Section JsonInd.
  Variable P : json -> Prop.
  Hypothesis Hn : P JNull.
  Hypothesis Hb : forall b, P (JBool b).
  Hypothesis Hi : forall z, P (JInt z).
  Hypothesis Hf : forall f, P (JFloat f).
  Hypothesis Hs : forall s, P (JStr s).
  Hypothesis Ha : forall l, Forall P l -> P (JArr l).
  Hypothesis Ho : forall l, Forall (fun p => P (snd p)) l -> P (JObj l).
  Fixpoint json_ind' (j : json) : P j :=
    match j with
    | JNull => Hn
    | JBool b => Hb b
    | JInt z => Hi z
    | JFloat f => Hf f
    | JStr s => Hs s
    | JArr l =>
        Ha l ((fix go (l : list json) : Forall P l :=
                 match l with [] => Forall_nil _ | x :: l' => Forall_cons x (json_ind' x) (go l') end) l)
    | JObj l =>
        Ho l ((fix go (l : list (string * json)) : Forall (fun p => P (snd p)) l :=
                 match l with
                 | [] => Forall_nil _
                 | p :: l' => Forall_cons p (json_ind' (snd p)) (go l')
                 end) l)
    end.
End JsonInd.

Lemma like_refl j : like j j.
Proof.
  induction j using json_ind'; try constructor.
  - induction H; constructor; auto.
  - apply like_obj with l; [|reflexivity]. induction H; constructor; auto.
Qed.

(** ** Looking members up *)

Lemma memb_In k ks : memb k ks = true <-> In k ks.
Proof.
  induction ks as [|k' ks IH]; cbn [memb In]; [split; [discriminate|tauto]|].
  rewrite orb_true_iff, IH, String.eqb_eq. split; intros [->|H]; auto.
Qed.
Lemma nodupb_NoDup ks : nodupb ks = true <-> NoDup ks.
Proof.
  induction ks as [|k ks IH]; cbn [nodupb]; [split; [constructor|reflexivity]|].
  rewrite andb_true_iff, negb_true_iff, IH, NoDup_cons_iff, <- memb_In.
  destruct (memb k ks); split; intros [H1 H2]; split; congruence.
Qed.

Lemma count_key_In k l : In k (map fst l) <-> 1 <= count_key k l.
Proof.
  induction l as [|[k' x] l IH]; cbn [map fst In count_key]; [split; [tauto|lia]|].
  destruct (String.eqb_spec k k') as [->|N]; rewrite IH; split; intros; [lia|now left| |]; auto.
  - destruct H as [->|H]; [congruence|lia].
Qed.
Lemma count_key_NoDup l : NoDup (map fst l) -> forall k, count_key k l <= 1.
Proof.
  induction l as [|[k' x] l IH]; cbn [map fst count_key]; intros H k; [lia|].
  apply NoDup_cons_iff in H as [H1 H2]. specialize (IH H2 k).
  destruct (String.eqb_spec k k') as [->|N]; [|lia].
  rewrite count_key_In in H1. lia.
Qed.
Lemma count_key_app k l1 l2 : count_key k (l1 ++ l2) = count_key k l1 + count_key k l2.
Proof. induction l1 as [|[k' x] l1 IH]; cbn; [auto|rewrite IH; lia]. Qed.

Lemma assoc_In {A} k (x : A) l : NoDup (map fst l) -> assoc k l = Some x <-> In (k, x) l.
Proof.
  induction l as [|[k' y] l IH]; cbn [map fst assoc In]; intros H.
  - split; [discriminate|tauto].
  - apply NoDup_cons_iff in H as [H1 H2]. specialize (IH H2).
    destruct (String.eqb_spec k k') as [->|N].
    + split; [intros [= ->]; now left|]. intros [[= ->]|H]; [reflexivity|].
      exfalso. apply H1. apply (in_map fst) in H. exact H.
    + rewrite IH. split; [now right|]. intros [[= -> ->]|H]; [congruence|exact H].
Qed.
Lemma assoc_None {A} k (l : list (string * A)) : assoc k l = None <-> ~ In k (map fst l).
Proof.
  induction l as [|[k' y] l IH]; cbn [map fst assoc In]; [tauto|].
  destruct (String.eqb_spec k k') as [->|N]; [split; [discriminate|tauto]|].
  rewrite IH. split; intros H; [intros [->|H']; auto|tauto].
Qed.

(** the members of a written struct *)
Lemma members_keys fs : NoDup (map fst fs) -> NoDup (map fst (members fs)).
Proof.
  induction fs as [|[k [x|]] fs IH]; cbn [map fst members]; intros H; auto.
  - apply NoDup_cons_iff in H as [H1 H2]. apply NoDup_cons; [|auto].
    intros H. apply H1. clear - H. induction fs as [|[k' [y|]] fs IH]; cbn in *; tauto.
  - apply NoDup_cons_iff in H as [H1 H2]. auto.
Qed.
Lemma assoc_members k fs : NoDup (map fst fs) ->
  assoc k (members fs) = match assoc k fs with Some (Some x) => Some x | _ => None end.
Proof.
  induction fs as [|[k' o] fs IH]; cbn [map fst members assoc]; intros H; auto.
  apply NoDup_cons_iff in H as [H1 H2]. specialize (IH H2).
  destruct o as [x|]; cbn [assoc]; destruct (String.eqb_spec k k') as [->|N]; auto.
  rewrite IH. destruct (assoc k' fs) as [o|] eqn:E; auto.
  exfalso. apply H1. apply assoc_In in E; [|exact H2]. apply (in_map fst) in E. exact E.
Qed.

(** what [like] preserves in an object without repetitions *)
Lemma like_obj_inv l j : like (JObj l) j -> NoDup (map fst l) ->
  exists l', j = JObj l' /\ NoDup (map fst l') /\ List.length l' = List.length l /\
    forall k, match assoc k l with
              | Some x => exists x', assoc k l' = Some x' /\ like x x'
              | None => assoc k l' = None
              end.
Proof.
  intros H N. inversion H as [| | | | | |l0 m l' F P]; subst. exists l'. split; auto.
  assert (Km : map fst m = map fst l).
  { clear - F. induction F as [|p q l m [E _] F IH]; cbn; congruence. }
  assert (Nm : NoDup (map fst m)) by now rewrite Km.
  assert (N' : NoDup (map fst l')).
  { eapply Permutation_NoDup; [apply Permutation_map; exact P|exact Nm]. }
  split; [exact N'|]. split.
  { rewrite <- (Permutation_length P). clear - F. induction F; cbn; congruence. }
  intros k. destruct (assoc k l) as [x|] eqn:E.
  - assert (G : exists x', assoc k m = Some x' /\ like x x').
    { clear - F E. induction F as [|[k1 y] [k2 y'] l m [E1 L] F IH]; cbn in *; [discriminate|].
      subst k2. destruct (String.eqb k k1); [|auto]. injection E as <-. eauto. }
    destruct G as [x' [G L]]. exists x'. split; [|exact L].
    apply assoc_In; [exact N'|]. eapply Permutation_in; [exact P|]. now apply assoc_In.
  - apply assoc_None. apply assoc_None in E. rewrite <- Km in E. intros I. apply E.
    eapply Permutation_in; [apply Permutation_map, Permutation_sym, P|exact I].
Qed.

(** ** Reading the fields of a written struct *)

Lemma struct_ok_NoDup ks l : NoDup (map fst l) -> struct_ok ks (JObj l) = true.
Proof.
  intros H. unfold struct_ok. apply forallb_forall. intros k _.
  apply Nat.leb_le, count_key_NoDup, H.
Qed.
Lemma get_JObj {A} (f : json -> option A) ks k l :
  get f ks k (JObj l) = match assoc k l with Some x => let? a := f x in Some (Some a) | None => Some None end.
Proof.
  unfold get. induction l as [|[k' x] l IH]; cbn [assoc]; auto.
  destruct (String.eqb k k'); auto.
Qed.

(** [written fs j]: [j] is the struct with the fields [fs], its members in any order *)
Definition written (fs : list (string * option json)) (j : json) : Prop :=
  exists l, j = JObj l /\ NoDup (map fst l) /\ List.length l = List.length (members fs) /\
    forall k, match assoc k fs with
              | Some (Some x) => exists x', assoc k l = Some x' /\ like x x'
              | _ => assoc k l = None
              end.

Lemma like_written fs j : nodupb (map fst fs) = true -> like (obj fs) j -> written fs j.
Proof.
  intros H L. apply nodupb_NoDup in H.
  destruct (like_obj_inv _ _ L (members_keys _ H)) as [l' [-> [N [Ln G]]]].
  exists l'. repeat split; auto. intros k. specialize (G k). rewrite assoc_members in G by exact H.
  destruct (assoc k fs) as [[x|]|]; auto.
Qed.

Lemma written_ok ks fs j : written fs j -> struct_ok ks j = true.
Proof. intros [l [-> [N _]]]. now apply struct_ok_NoDup. Qed.

Lemma field_written {A} (f : json -> option A) ks k fs j x a :
  written fs j -> assoc k fs = Some (Some x) -> (forall y, like x y -> f y = Some a) ->
  field f ks k j = Some a.
Proof.
  intros [l [-> [N [_ G]]]] H F. specialize (G k). rewrite H in G. destruct G as [x' [G L]].
  unfold field. rewrite get_JObj, G. cbn. now rewrite (F x' L).
Qed.

Lemma nullable_some {A} (f : json -> option A) x : x <> JNull ->
  nullable f x = let? a := f x in Some (Some a).
Proof. destruct x; try congruence; reflexivity. Qed.

Lemma like_nonnull x y : like x y -> x <> JNull -> y <> JNull.
Proof. intros L N ->. inversion L; subst. now apply N. Qed.

Lemma field_opt_written {A B} (f : json -> option A) (g : B -> json) (h : B -> A) ks k fs j o :
  written fs j -> assoc k fs = Some (opt g o) ->
  (forall x, g x <> JNull) -> (forall x y, o = Some x -> like (g x) y -> f y = Some (h x)) ->
  field_opt f ks k j = Some (option_map h o).
Proof.
  intros [l [-> [N [_ G]]]] H NN F. specialize (G k). rewrite H in G.
  unfold field_opt. rewrite get_JObj. destruct o as [x|]; cbn in G |- *.
  - destruct G as [x' [G L]]. rewrite G. cbn.
    rewrite nullable_some by (eapply like_nonnull; eauto). now rewrite (F x x' eq_refl L).
  - now rewrite G.
Qed.
Lemma field_opt_written_id {A} (f : json -> option A) (g : A -> json) ks k fs j o :
  written fs j -> assoc k fs = Some (opt g o) ->
  (forall x, g x <> JNull) -> (forall x y, o = Some x -> like (g x) y -> f y = Some x) ->
  field_opt f ks k j = Some o.
Proof.
  intros H1 H2 H3 H4. rewrite (field_opt_written f g (fun x => x) ks k fs j o H1 H2 H3 H4).
  now destruct o.
Qed.
(** fields written as [null] when absent *)
Lemma field_null_written {A B} (f : json -> option A) (g : B -> json) (h : B -> A) ks k fs j o :
  written fs j -> assoc k fs = Some (opt_null g o) ->
  (forall x, g x <> JNull) -> (forall x y, o = Some x -> like (g x) y -> f y = Some (h x)) ->
  field_opt f ks k j = Some (option_map h o).
Proof.
  intros [l [-> [N [_ G]]]] H NN F. specialize (G k). rewrite H in G. unfold opt_null in G.
  destruct G as [x' [G L]]. unfold field_opt. rewrite get_JObj, G. destruct o as [x|]; cbn.
  - rewrite nullable_some by (eapply like_nonnull; eauto). now rewrite (F x x' eq_refl L).
  - inversion L; subst. reflexivity.
Qed.
Lemma field_null_written_id {A} (f : json -> option A) (g : A -> json) ks k fs j o :
  written fs j -> assoc k fs = Some (opt_null g o) ->
  (forall x, g x <> JNull) -> (forall x y, o = Some x -> like (g x) y -> f y = Some x) ->
  field_opt f ks k j = Some o.
Proof.
  intros H1 H2 H3 H4. rewrite (field_null_written f g (fun x => x) ks k fs j o H1 H2 H3 H4).
  now destruct o.
Qed.
(** fields that may be written as [null] although present: [f32] *)
Lemma field_f32_written ks k fs j o :
  written fs j -> assoc k fs = Some (opt to_json_f32 o) ->
  field_opt dec_f32 ks k j =
  Some (match o with Some (F_fin s m e) => Some (F_fin s m e) | _ => None end).
Proof.
  intros [l [-> [N [_ G]]]] H. specialize (G k). rewrite H in G.
  unfold field_opt. rewrite get_JObj. destruct o as [x|]; cbn in G |- *.
  - destruct G as [x' [G L]]. rewrite G. destruct x; cbn in L; inversion L; subst; reflexivity.
  - now rewrite G.
Qed.
Lemma field_default_written {A} (d : list A) (f : json -> option (list A)) (g : list A -> json)
  ks k fs j l0 :
  written fs j -> assoc k fs = Some (match l0 with [] => None | l => Some (g l) end) -> d = [] ->
  (forall y, like (g l0) y -> f y = Some l0) ->
  field_default d f ks k j = Some l0.
Proof.
  intros [l [-> [N [_ G]]]] H -> F. specialize (G k). rewrite H in G.
  unfold field_default. rewrite get_JObj. destruct l0 as [|a l0].
  - now rewrite G.
  - destruct G as [x' [G L]]. rewrite G. cbn. now rewrite (F x' L).
Qed.

Lemma like_arr_inv {B} (g : B -> json) l j : like (arr g l) j ->
  exists l', j = JArr l' /\ Forall2 (fun x y => like (g x) y) l l'.
Proof.
  unfold arr. intros L. inversion L as [| | | | |l0 l' F|]; subst. exists l'. split; auto.
  remember (map g l) as m eqn:E. revert l E L.
  induction F as [|x y m l' Lx F IH]; intros [|b l] E L; try discriminate; constructor.
  - cbn in E. injection E as -> _. exact Lx.
  - cbn in E. injection E as _ ->. apply IH; auto. now constructor.
Qed.
Lemma dec_list_like {A B} (f : json -> option A) (g : B -> json) (h : B -> A) l j :
  like (arr g l) j -> (forall x y, In x l -> like (g x) y -> f y = Some (h x)) ->
  dec_list f j = Some (map h l).
Proof.
  intros L F. apply like_arr_inv in L as [l' [-> L]]. unfold dec_list.
  induction L as [|x y l l' Lx L IH]; cbn; auto.
  rewrite (F x y) by (auto; now left). cbn. rewrite IH by (intros; apply F; auto; now right).
  reflexivity.
Qed.
Lemma dec_list_like_id {A} (f : json -> option A) (g : A -> json) l j :
  like (arr g l) j -> (forall x y, In x l -> like (g x) y -> f y = Some x) ->
  dec_list f j = Some l.
Proof.
  intros L F. rewrite (dec_list_like f g (fun x => x) l j L F). now rewrite map_id.
Qed.

Lemma bindo_intro {A B} (x : option A) (f : A -> option B) a r :
  x = Some a -> f a = r -> bindo x f = r.
Proof. now intros -> <-. Qed.

Lemma dec_str_like s j : like (JStr s) j -> dec_str j = Some s.
Proof. intros H. inversion H. reflexivity. Qed.
Lemma dec_bool_like s j : like (JBool s) j -> dec_bool j = Some s.
Proof. intros H. inversion H. reflexivity. Qed.
Lemma u32_of_N_u32 n : u32_of_N (u32_N n) = Some n.
Proof.
  destruct n as [n H]. unfold u32_of_N. cbn [u32_N].
  assert (G : forall b (E : (n <? 4294967296)%N = b), b = true ->
    match b as b0 return ((n <? 4294967296)%N = b0 -> option u32) with
    | true => fun H => Some (mkU32 n H)
    | false => fun _ => None
    end E = Some (mkU32 n H)).
  { intros [|] E Eb; [|discriminate]. f_equal. f_equal.
    apply Eqdep_dec.UIP_dec. decide equality. }
  apply G. exact H.
Qed.
Lemma dec_u32_like n j : like (to_json_u32 n) j -> dec_u32 j = Some n.
Proof.
  intros H. inversion H; subst. unfold dec_u32. rewrite N2Z.id.
  destruct (Z.ltb_spec (Z.of_N (u32_N n)) 0) as [L|L]; [lia|]. apply u32_of_N_u32.
Qed.
Lemma dec_f32_like s m e j : like (to_json_f32 (F_fin s m e)) j -> dec_f32 j = Some (F_fin s m e).
Proof. intros H. inversion H. reflexivity. Qed.

(** ** Written documents and [serde_json::Value] *)

(** no object, at any depth, repeats a key, and every number is finite *)
Inductive plain : json -> Prop :=
| plain_null : plain JNull
| plain_bool b : plain (JBool b)
| plain_int z : plain (JInt z)
| plain_float n m e : plain (JFloat (F_fin n m e))
| plain_str s : plain (JStr s)
| plain_arr l : Forall plain l -> plain (JArr l)
| plain_obj l : NoDup (map fst l) -> Forall (fun p => plain (snd p)) l -> plain (JObj l).

Lemma put_fresh k x l : ~ In k (map fst l) -> Permutation (put k x l) ((k, x) :: l).
Proof.
  induction l as [|[k' x'] l IH]; cbn [put map fst In]; intros H; [reflexivity|].
  destruct (String.compare k k') eqn:E.
  - apply String.compare_eq_iff in E. subst. tauto.
  - reflexivity.
  - rewrite IH by tauto. apply perm_swap.
Qed.

Lemma like_to_value j : plain j -> like j (to_value j).
Proof.
  induction j using json_ind'; intros Q; cbn [to_value]; try constructor.
  - inversion Q as [| | | | |l0 F|]; subst. clear Q.
    induction H as [|x l Hx H IH]; cbn [map]; constructor.
    + apply Hx. now inversion F.
    + apply IH. now inversion F.
  - inversion Q as [| | | | | |l0 N F]; subst. clear Q.
    apply like_obj with (map (fun p => (fst p, to_value (snd p))) l).
    + clear N. induction H as [|p l Hx H IH]; cbn [map]; constructor.
      * cbn. split; auto. apply Hx. now inversion F.
      * apply IH. now inversion F.
    + assert (G : forall acc, NoDup (map fst l ++ map fst acc) ->
        Permutation (map (fun p => (fst p, to_value (snd p))) l ++ acc)
          (fold_left (fun m p => put (fst p) (to_value (snd p)) m) l acc)).
      { clear. induction l as [|[k x] l IH]; intros acc N; cbn [map fold_left app fst snd]; [reflexivity|].
        cbn [map fst app] in N. apply NoDup_cons_iff in N as [N1 N2].
        assert (Q : Permutation (put k (to_value x) acc) ((k, to_value x) :: acc)).
        { apply put_fresh. intros H. apply N1. apply in_or_app. now right. }
        rewrite <- IH.
        - rewrite Q. apply Permutation_middle.
        - eapply Permutation_NoDup;
            [apply Permutation_app_head, Permutation_map, Permutation_sym, Q|].
          cbn [map fst]. eapply Permutation_NoDup; [apply Permutation_middle|].
          apply NoDup_cons; auto. }
      specialize (G []). rewrite !app_nil_r in G. now apply G.
Qed.

Lemma plain_written fs : nodupb (map fst fs) = true ->
  Forall (fun p => match snd p with Some x => plain x | None => True end) fs -> plain (obj fs).
Proof.
  intros N F. apply nodupb_NoDup in N. unfold obj. constructor; [now apply members_keys|].
  clear N. induction F as [|[k [x|]] fs P F IH]; cbn [members]; auto.
Qed.
Lemma plain_list {A} (g : A -> json) l : (forall x, In x l -> plain (g x)) -> plain (arr g l).
Proof.
  intros H. constructor. apply Forall_forall. intros y I. apply in_map_iff in I as [x [<- I]]. auto.
Qed.

(** ** Enumerations that take one member *)

Lemma like_single k x j : like (JObj [(k, x)]) j -> exists y, j = JObj [(k, y)] /\ like x y.
Proof.
  intros L. destruct (like_obj_inv _ _ L) as [l' [-> [N [Ln G]]]].
  { cbn. constructor; [tauto|constructor]. }
  destruct l' as [|[k' y] [|? ?]]; try discriminate. specialize (G k). cbn in G.
  rewrite String.eqb_refl in G. destruct G as [x' [G L']].
  destruct (String.eqb_spec k k') as [->|Nk]; [|discriminate]. injection G as ->. eauto.
Qed.

(** members of an object that no longer matter to a reader *)
Lemma assoc_app {A} k (l1 l2 : list (string * A)) :
  assoc k (l1 ++ l2) = match assoc k l1 with Some x => Some x | None => assoc k l2 end.
Proof. induction l1 as [|[k' x] l1 IH]; cbn; auto. destruct (String.eqb k k'); auto. Qed.

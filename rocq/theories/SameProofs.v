(** Documents that say the same are read alike: proofs *)
From Coq Require Import ZArith.
From Verif Require Import Base ModelTypes Strings Enums GenModel Json JsonLemmas JsonModel GrammarSpec GrammarProofs SameSpec.
Open Scope string_scope.
Open Scope list_scope.
Open Scope bool_scope.

Lemma ok_none {A} (o : option A) : ok o = false -> o = None.
Proof. now destruct o. Qed.
Lemma named_In {X} k (l : list (string * X)) x : named k l = Some x -> In (k, x) l.
Proof.
  induction l as [|[k' y] l IH]; [discriminate|]. cbn [named]. destruct (String.eqb_spec k k') as [->|].
  - intros [= ->]. now left.
  - intros H. right. auto.
Qed.

Section S.
Variable G : string -> kind.
Notation same := (same G).
Definition either (t : kind) (x x' : json) : Prop := same t x x' \/ neither G t x x'.

(** ** Inversions *)
Lemma leaf_inv t j j' : match t with Str | Bool | Nat32 | Number | Word _ => True | _ => False end -> same t j j' -> j = j'.
Proof. intros K H. destruct H; now try contradiction. Qed.
Lemma named_inv s j j' : same (Named s) j j' -> same (G s) j j'.
Proof. intros H. inversion H; subst; [constructor|assumption]. Qed.
Lemma list_inv t j j' : same (ListOf t) j j' -> j = j' \/ exists l l', j = JArr l /\ j' = JArr l' /\ Forall2 (either t) l l'.
Proof. intros H. inversion H; subst; eauto 7. Qed.
Definition fields_same (fs : list entry) (j j' : json) : Prop :=
  shapes fs j j' /\
  forall k p t, In (k, (p, t)) fs -> agree p (either t) (values_in fs j k) (values_in fs j' k).
Lemma struct_inv fs j j' : same (Struct fs) j j' -> j = j' \/ fields_same fs j j'.
Proof. intros H. inversion H; subst; [now left|right; now split]. Qed.
Lemma object_inv fs j j' : same (Object fs) j j' ->
  j = j' \/ (fields_same fs j j' /\ exists l l', j = JObj l /\ j' = JObj l').
Proof. intros H. inversion H; subst; [now left|right]. split; [|eauto]. split; [exact Logic.I|assumption]. Qed.
Lemma tagged_inv vs j j' : same (Tagged vs) j j' ->
  j = j' \/ exists k t x x', j = JObj [(k, x)] /\ j' = JObj [(k, x')] /\ named k vs = Some t /\ either t x x'.
Proof. intros H. inversion H; subst; [now left|right; eauto 10]. Qed.
Lemma first_inv ks t j j' : same (FirstMember ks t) j j' ->
  j = j' \/ exists l l' k x x', j = JObj l /\ j' = JObj l' /\ find (fun m => among (fst m) ks) l = Some (k, x) /\
    find (fun m => among (fst m) ks) l' = Some (k, x') /\ either t x x'.
Proof. intros H. inversion H; subst; [now left|right; eauto 12]. Qed.
Lemma one_of_inv ks j j' : same (OneOf ks) j j' -> forall t, In t ks -> either t j j'.
Proof. intros H. inversion H; subst; [|assumption]. intros t _. left. constructor. Qed.
Lemma both_inv a b j j' : same (Both a b) j j' -> same a j j' /\ same b j j'.
Proof. intros H. inversion H; subst; [split; constructor|now split]. Qed.
Lemma either_read {A} (r : json -> option A) t x x' : ok (r x) = fits G x t -> ok (r x') = fits G x' t ->
  (same t x x' -> r x = r x') -> either t x x' -> r x = r x'.
Proof.
  intros F F' E [H|[N N']]; [auto|]. rewrite <- F in N. rewrite <- F' in N'. apply ok_none in N, N'. congruence.
Qed.

(** ** Members *)
Lemma values_size fs j k x : In x (values_in fs j k) -> size x < size j.
Proof.
  destruct j as [| | | | |l|l]; try (intros []).
  - cbn [values_in]. intros H. apply size_arr. revert l H. induction (map fst fs) as [|k' ks IH]; intros l H; [destruct H|].
    destruct l as [|y l]; [destruct H|]. cbn [at_place] in H. destruct (String.eqb k k').
    { destruct H as [->|[]]. now left. }
    right. apply (IH l H).
  - cbn [values_in]. intros H. unfold values in H. apply in_map_iff in H. destruct H as ([k' y] & <- & H).
    apply filter_In in H. eapply size_obj. apply H.
Qed.
Lemma whole_place k ks l : List.length l = List.length ks -> In k ks -> exists x, at_place k ks l = [x].
Proof.
  revert l. induction ks as [|k' ks IH]; intros l L H; [destruct H|]. destruct l as [|x l]; [discriminate|].
  cbn [at_place]. destruct (String.eqb_spec k k') as [->|N]; [eauto|]. destruct H as [<-|H]; [congruence|].
  apply IH; auto.
Qed.
Definition container (j : json) : Prop := match j with JObj _ | JArr _ => True | _ => False end.
Lemma shapes_container fs j j' : shapes fs j j' -> container j /\ container j'.
Proof. destruct j, j'; cbn; tauto. Qed.
Lemma get_values {A} (f : json -> option A) fs k j : container j ->
  get f (keys_of fs) k j = match values_in fs j k with x :: _ => let? a := f x in Some (Some a) | [] => Some None end.
Proof.
  destruct j as [| | | | |l|l]; try contradiction; intros W; clear W.
  - cbn [get values_in]. unfold keys_of. generalize (map fst fs) as ks. intros ks. revert ks.
    induction l as [|x l IH]; intros ks; [destruct ks; reflexivity|]. destruct ks as [|k' ks]; [reflexivity|].
    cbn [at_place]. destruct (String.eqb k k'); [reflexivity|]. apply IH.
  - cbn [get values_in]. induction l as [|[k' x] l IH]; [reflexivity|]. unfold values. cbn [filter fst].
    destruct (String.eqb k k'); [reflexivity|]. apply IH.
Qed.
Lemma field_same {A} fs k t (f : json -> option A) j j' : fields_same fs j j' -> named k fs = Some (Required, t) ->
  (forall x x', size x < size j -> either t x x' -> f x = f x') -> field f (keys_of fs) k j = field f (keys_of fs) k j'.
Proof.
  intros (W & V) N E. destruct (shapes_container _ _ _ W). unfold field. rewrite !get_values by assumption.
  pose proof (values_size fs j k) as Z. apply named_In in N. specialize (V _ _ _ N). unfold agree, present in V.
  destruct V as [|x x' l l' Hx Hl]; [reflexivity|]. rewrite (E x x'); [reflexivity| |assumption]. apply Z. now left.
Qed.
Lemma default_same {A} (d : A) fs k t (f : json -> option A) j j' : fields_same fs j j' -> named k fs = Some (Defaulted, t) ->
  (forall x x', size x < size j -> either t x x' -> f x = f x') ->
  field_default d f (keys_of fs) k j = field_default d f (keys_of fs) k j'.
Proof.
  intros (W & V) N E. destruct (shapes_container _ _ _ W). unfold field_default. rewrite !get_values by assumption.
  pose proof (values_size fs j k) as Z. apply named_In in N. specialize (V _ _ _ N). unfold agree, present in V.
  destruct V as [|x x' l l' Hx Hl]; [reflexivity|]. rewrite (E x x'); [reflexivity| |assumption]. apply Z. now left.
Qed.
Definition opt_of {A} (missing : option (option A)) (f : json -> option A) (vs : list json) : option (option A) :=
  match vs with x :: _ => nullable f x | [] => missing end.
Definition missing {A} (j : json) : option (option A) := match j with JObj _ => Some None | _ => None end.
Lemma field_opt_values {A} (f : json -> option A) fs k j : container j ->
  field_opt f (keys_of fs) k j = opt_of (missing j) f (values_in fs j k).
Proof.
  intros W. unfold field_opt. rewrite get_values by assumption. destruct (values_in fs j k) as [|x l]; [reflexivity|].
  cbn [opt_of]. now destruct (nullable f x).
Qed.
Lemma opt_present {A} (f : json -> option A) vs : opt_of (Some None) f vs = opt_of (Some None) f (present Optional vs).
Proof. destruct vs as [|[] [|? ?]]; reflexivity. Qed.
Lemma present_in vs x l : present Optional vs = x :: l -> In x vs.
Proof. destruct vs as [|[] [|? ?]]; cbn; intros [= <- <-]; now left. Qed.
Lemma short_null vs x l : present Optional vs = x :: l -> (List.length vs <= 1)%nat -> x <> JNull.
Proof. destruct vs as [|[] [|? ?]]; cbn; intros [= <- <-] L; try discriminate; lia. Qed.
Lemma nullable_same {A} (f : json -> option A) x x' : x <> JNull -> x' <> JNull -> f x = f x' -> nullable f x = nullable f x'.
Proof. intros N N' E. unfold nullable. destruct x; try congruence; destruct x'; try congruence; now rewrite E. Qed.
Lemma short_place k ks l : (List.length (at_place k ks l) <= 1)%nat.
Proof.
  revert l. induction ks as [|k' ks IH]; intros l; [cbn; lia|]. destruct l as [|x l]; [cbn; lia|]. cbn [at_place].
  destruct (String.eqb k k'); [cbn; lia|apply IH].
Qed.
Lemma present_length p a : Nat.leb (List.length (present p a)) 1 = Nat.leb (List.length a) 1.
Proof. destruct p, a as [|[] [|? ?]]; reflexivity. Qed.
Lemma F2_length {X Y} (R : X -> Y -> Prop) l l' : Forall2 R l l' -> List.length l = List.length l'.
Proof. induction 1; cbn; congruence. Qed.
Lemma struct_ok_short fs j k : struct_ok (keys_of fs) j = true -> In k (keys_of fs) -> (List.length (values_in fs j k) <= 1)%nat.
Proof.
  destruct j as [| | | | |l|l]; try discriminate; cbn [values_in]; [intros _ _; apply short_place|].
  rewrite struct_ok_obj, forallb_forall. intros H K. apply H in K. apply Nat.leb_le in K. unfold values. now rewrite map_length.
Qed.
Lemma struct_ok_same fs j j' : fields_same fs j j' -> struct_ok (keys_of fs) j = struct_ok (keys_of fs) j'.
Proof.
  intros (W & V).
  assert (K : forall k, In k (keys_of fs) -> exists p t, In (k, (p, t)) fs).
  { intros k H. apply in_map_iff in H. destruct H as ([k' [p t]] & <- & H). eauto. }
  assert (L : forall k, In k (keys_of fs) ->
     Nat.leb (List.length (values_in fs j k)) 1 = Nat.leb (List.length (values_in fs j' k)) 1).
  { intros k Hk. destruct (K k Hk) as (p & t & H). specialize (V _ _ _ H). apply F2_length in V.
    rewrite <- (present_length p (values_in fs j k)), <- (present_length p (values_in fs j' k)). now rewrite V. }
  assert (Z : forall l : list json, List.length l = List.length fs -> Nat.leb (List.length l) (List.length (keys_of fs)) = true).
  { intros l E. apply Nat.leb_le. unfold keys_of. rewrite map_length. rewrite E. apply le_n. }
  assert (T : forall l, (forall k, In k (keys_of fs) -> Nat.leb (List.length (values k l)) 1 = true) ->
     forallb (fun k => at_most_once k l) (keys_of fs) = true).
  { intros l H. apply forallb_forall. intros k Hk. unfold at_most_once. rewrite <- (map_length snd). now apply H. }
  assert (P : forall k l, Nat.leb (List.length (at_place k (map fst fs) l)) 1 = true).
  { intros k l. apply Nat.leb_le, short_place. }
  destruct j as [| | | | |l|l], j' as [| | | | |l'|l']; try contradiction; cbn [values_in shapes] in *.
  - cbn [struct_ok]. now rewrite W.
  - rewrite struct_ok_obj, T; [cbn [struct_ok]; now apply Z|]. intros k Hk. rewrite <- (L k Hk). apply P.
  - rewrite struct_ok_obj, T; [cbn [struct_ok]; symmetry; now apply Z|]. intros k Hk. rewrite (L k Hk). apply P.
  - rewrite !struct_ok_obj. clear - L. induction (keys_of fs) as [|k ks IH]; [reflexivity|]. cbn [forallb].
    rewrite IH by (intros; apply L; now right). f_equal. unfold at_most_once. specialize (L k (or_introl eq_refl)).
    unfold values in L. now rewrite !map_length in L.
Qed.
Definition fields_once (fs : list entry) (j j' : json) : Prop :=
  fields_same fs j j' /\ struct_ok (keys_of fs) j = true /\ struct_ok (keys_of fs) j' = true.
Lemma field_opt_same {A} fs k t (f : json -> option A) j j' : fields_once fs j j' -> named k fs = Some (Optional, t) ->
  (forall x x', size x < size j -> either t x x' -> f x = f x') -> field_opt f (keys_of fs) k j = field_opt f (keys_of fs) k j'.
Proof.
  intros ((W & V) & O & O') N E. apply named_In in N. assert (K : In k (keys_of fs)) by (apply in_map_iff; now exists (k, (Optional, t))).
  destruct (shapes_container _ _ _ W). rewrite !field_opt_values by assumption.
  pose proof (struct_ok_short fs j k O K) as L. pose proof (struct_ok_short fs j' k O' K) as L'.
  pose proof (values_size fs j k) as Z. specialize (V _ _ _ N). unfold agree in V.
  assert (M : (values_in fs j k = [] /\ values_in fs j' k = [] /\ @missing A j = missing j') \/
    (opt_of (missing j) f (values_in fs j k) = opt_of (Some None) f (values_in fs j k) /\
     opt_of (missing j') f (values_in fs j' k) = opt_of (Some None) f (values_in fs j' k))).
  { assert (Q : forall l, List.length l = List.length fs -> exists x, at_place k (map fst fs) l = [x]).
    { intros l El. apply whole_place; [now rewrite map_length|exact K]. }
    destruct j as [| | | | |l|l], j' as [| | | | |l'|l']; try contradiction; cbn [values_in shapes missing] in *.
    - clear V L L' Z O O' E H H0 N K. revert l' W. generalize (map fst fs) as ks. clear Q. intros ks. revert l.
      induction ks as [|k' ks IH]; intros l l' W; [left; auto|]. destruct l as [|x l], l' as [|x' l']; try discriminate W; [left; auto|].
      cbn [at_place]. destruct (String.eqb k k'); [right; auto|]. apply IH. now injection W.
    - right. destruct (Q l W) as [x ->]. auto.
    - right. destruct (Q l' W) as [x ->]. auto.
    - right. auto. }
  destruct M as [(-> & -> & ->)|[-> ->]]; [reflexivity|].
  rewrite (opt_present f (values_in fs j k)), (opt_present f (values_in fs j' k)).
  remember (present Optional (values_in fs j k)) as a eqn:Ea. remember (present Optional (values_in fs j' k)) as b eqn:Eb.
  destruct V as [|x x' l l' Hx Hl]; [reflexivity|]. cbn [opt_of]. apply nullable_same.
  - eapply short_null; eauto.
  - eapply short_null; eauto.
  - apply E; auto. apply Z. eapply present_in. eauto.
Qed.
Lemma field_once {A} fs k t (f : json -> option A) j j' : fields_once fs j j' -> named k fs = Some (Required, t) ->
  (forall x x', size x < size j -> either t x x' -> f x = f x') -> field f (keys_of fs) k j = field f (keys_of fs) k j'.
Proof. intros [H _]. now apply field_same. Qed.
Lemma default_once {A} (d : A) fs k t (f : json -> option A) j j' : fields_once fs j j' -> named k fs = Some (Defaulted, t) ->
  (forall x x', size x < size j -> either t x x' -> f x = f x') ->
  field_default d f (keys_of fs) k j = field_default d f (keys_of fs) k j'.
Proof. intros [H _]. now apply default_same. Qed.
Lemma struct_same {A} fs (a a' : option A) j j' :
  (fields_once fs j j' -> a = a') -> (j = j' -> a = a') -> same (Struct fs) j j' ->
  (if struct_ok (keys_of fs) j then a else None) = (if struct_ok (keys_of fs) j' then a' else None).
Proof.
  intros E R H. apply struct_inv in H. destruct H as [->|H]; [now rewrite R|]. pose proof (struct_ok_same _ _ _ H) as S.
  rewrite <- S. destruct (struct_ok (keys_of fs) j) eqn:O; [|reflexivity]. apply E. split; [exact H|]. split; congruence.
Qed.
Lemma object_same {A} fs (a a' : option A) j j' :
  (fields_once fs j j' -> a = a') -> (j = j' -> a = a') -> same (Object fs) j j' ->
  (if object_ok (keys_of fs) j then a else None) = (if object_ok (keys_of fs) j' then a' else None).
Proof.
  intros E R H. apply object_inv in H. destruct H as [->|(H & l & l' & -> & ->)]; [now rewrite R|].
  apply (struct_same fs a a'); auto. constructor; apply H.
Qed.
Lemma bind_same {A B} (o o' : option A) (f f' : A -> option B) : o = o' -> (forall a, f a = f' a) -> bindo o f = bindo o' f'.
Proof. intros -> H. destruct o'; cbn; auto. Qed.
Lemma dec_list_same {A} (f : json -> option A) t x x' :
  (forall y y', size y < size x -> either t y y' -> f y = f y') -> same (ListOf t) x x' -> dec_list f x = dec_list f x'.
Proof.
  intros E H. apply list_inv in H. destruct H as [->|(l & l' & -> & -> & H)]; [reflexivity|].
  assert (K : forall y y', In y l -> either t y y' -> f y = f y') by (intros y y' Hy; apply E; now apply size_arr). clear E.
  cbn [dec_list]. induction H as [|y y' l l' Hy Hl IH]; [reflexivity|].
  rewrite (K y y') by (auto; now left). rewrite IH by (intros; apply K; auto; now right). reflexivity.
Qed.
(** an alternative *)
Lemma alt2 {A} (a a' : option A) t ks j j' : ok a = fits G j t -> ok a' = fits G j' t -> (same t j j' -> a = a') ->
  In t ks -> same (OneOf ks) j j' -> a = a'.
Proof.
  intros F F' E I H. destruct (one_of_inv _ _ _ H t I) as [S|[N N']]; [auto|].
  rewrite <- F in N. rewrite <- F' in N'. apply ok_none in N, N'. congruence.
Qed.
Lemma orelse_same {A} (a a' b b' : option A) : a = a' -> b = b' -> orelse a b = orelse a' b'.
Proof. now intros -> ->. Qed.
End S.

(** ** The readers *)
Create HintDb alike.
Ltac same_leaf := intros; first
  [ match goal with H : SameSpec.same _ _ ?a ?b |- _ => apply leaf_inv in H; [now subst|exact Logic.I] end
  | eapply dec_list_same; [|eassumption]; intros; leaf_same
  | solve [eauto 3 with alike] ]
with leaf_same := intros; first
  [ solve [eauto 2]
  | eapply either_read; [leaf|leaf|same_leaf|eassumption] ].
Ltac a_member H :=
  first [ eapply (field_once _ _ _ _ _ _ _ H); [reflexivity|leaf_same]
        | eapply (field_opt_same _ _ _ _ _ _ _ H); [reflexivity|leaf_same]
        | eapply (default_once _ _ _ _ _ _ _ _ H); [reflexivity|leaf_same] ].
Ltac open_kind H :=
  apply named_inv in H;
  match type of H with SameSpec.same (kind_of ?v) (kind_of ?v ?s) ?j ?j' =>
    let t := eval lazy in (kind_of v s) in change (SameSpec.same (kind_of v) t j j') in H end.
Ltac all_members H :=
  repeat first
    [ match goal with |- bindo (field_when false _) _ = _ => cbn [field_when bindo] end
    | apply bind_same; [first [a_member H | versions; cbn [field_when]; first [a_member H|apply bind_same; [a_member H|reflexivity]|exact (eq_refl (Some None))]]|intros ?] ];
  reflexivity.
Ltac a_struct_same H :=
  match type of H with SameSpec.same ?G (Struct ?fs) ?j ?j' =>
    refine (struct_same G fs _ _ j j' _ _ H); clear H; [intros H; all_members H|now intros ->]
  end.
Ltac an_object_same H :=
  match type of H with SameSpec.same ?G (Object ?fs) ?j ?j' =>
    refine (object_same G fs _ _ j j' _ _ H); clear H; [intros H; all_members H|now intros ->]
  end.
Ltac a_tagged_same H :=
  let N := fresh "N" in let S := fresh "S" in
  apply tagged_inv in H; destruct H as [->|(? & ? & ? & ? & -> & -> & N & S)]; [reflexivity|];
  cbn [ext_tag bindo]; cbn [named] in N;
  repeat (match type of N with context [String.eqb ?k ?s] =>
            destruct (String.eqb k s); [injection N as <-; apply bind_same; [leaf_same|reflexivity]|] end);
  discriminate N.
(* [t] is one of the alternatives; [fit] shows what the reader accepts, [go] that it reads alike *)
Tactic Notation "alternative" constr(H) "as" constr(t) "by" tactic3(fit) "then" tactic3(go) :=
  match type of H with SameSpec.same ?G (OneOf ?ks) ?j ?j' =>
    refine (alt2 G _ _ t ks j j' _ _ _ _ H); [fit|fit|go|cbn [In]; tauto]
  end.
Lemma first_same ks t j j' {A} (f : string -> json -> option A) G : same G (FirstMember ks t) j j' ->
  (forall k x x', either G t x x' -> f k x = f k x') ->
  (let? (k, x) := first_of ks j in f k x) = (let? (k, x) := first_of ks j' in f k x).
Proof.
  intros H E. apply first_inv in H. destruct H as [->|(l & l' & k & x & x' & -> & -> & F & F' & S)]; [reflexivity|].
  assert (Q : forall l, first_member ks l = find (fun m => among (fst m) ks) l).
  { intros m. induction m as [|[k0 y] m IH]; [reflexivity|]. cbn [first_member find fst].
    replace (memb k0 ks) with (among k0 ks) by (clear; induction ks as [|k1 ks IH]; [reflexivity|]; cbn; now rewrite <- IH).
    destruct (among k0 ks); auto. }
  cbn [first_of]. rewrite !Q, F, F'. cbn [bindo]. auto.
Qed.
Lemma identifier_same G j j' : same G (FirstMember ["id"; "name"] Str) j j' ->
  of_json_license_identifier j = of_json_license_identifier j'.
Proof.
  intros H. unfold of_json_license_identifier. apply (first_same _ _ _ _ _ _ H). intros k x x' S.
  apply bind_same; [leaf_same|reflexivity].
Qed.
Lemma range_same G j j' : same G (FirstMember ["version"; "range"; "undefinedVersionRange"] Str) j j' ->
  of_json_version_range j = of_json_version_range j'.
Proof.
  intros H. unfold of_json_version_range. apply (first_same _ _ _ _ _ _ H). intros k x x' S.
  apply bind_same; [leaf_same|reflexivity].
Qed.
Lemma variant_same G {A B} k (f : json -> option A) (c : A -> B) t j j' :
  (forall x x', size x < size j -> either G t x x' -> f x = f x') -> same G (Object [req k t]) j j' ->
  variant k f c j = variant k f c j'.
Proof.
  intros E H. unfold variant. refine (object_same G [req k t] _ _ j j' _ _ H); clear H; [intros H|now intros ->].
  apply bind_same; [|reflexivity]. eapply (field_once _ _ _ _ _ _ _ H); [cbn [named req]; now rewrite String.eqb_refl|exact E].
Qed.
Lemma same_attached_text_ v j j' : same (kind_of v) (Named "attached_text") j j' -> of_json_attached_text j = of_json_attached_text j'.
Proof. intros H. open_kind H. unfold of_json_attached_text. a_struct_same H. Qed.
Global Hint Resolve same_attached_text_ : alike.
Lemma same_attachment_ v j j' : same (kind_of v) (Named "attachment") j j' -> of_json_attachment j = of_json_attachment j'.
Proof. intros H. open_kind H. unfold of_json_attachment. a_struct_same H. Qed.
Global Hint Resolve same_attachment_ : alike.
Lemma same_hash_ v j j' : same (kind_of v) (Named "hash") j j' -> of_json_hash j = of_json_hash j'.
Proof. intros H. open_kind H. unfold of_json_hash. a_struct_same H. Qed.
Global Hint Resolve same_hash_ : alike.
Lemma same_property_ v j j' : same (kind_of v) (Named "property") j j' -> of_json_property j = of_json_property j'.
Proof. intros H. open_kind H. unfold of_json_property. a_struct_same H. Qed.
Global Hint Resolve same_property_ : alike.
Lemma same_contact_ v j j' : same (kind_of v) (Named "contact") j j' -> of_json_contact j = of_json_contact j'.
Proof. intros H. open_kind H. unfold of_json_contact. a_struct_same H. Qed.
Global Hint Resolve same_contact_ : alike.
Lemma same_entity_ v j j' : same (kind_of v) (Named "entity") j j' -> of_json_entity j = of_json_entity j'.
Proof. intros H. open_kind H. unfold of_json_entity. a_struct_same H. Qed.
Global Hint Resolve same_entity_ : alike.
Lemma same_external_reference_ v j j' : same (kind_of v) (Named "external_reference") j j' -> of_json_external_reference j = of_json_external_reference j'.
Proof. intros H. open_kind H. unfold of_json_external_reference. a_struct_same H. Qed.
Global Hint Resolve same_external_reference_ : alike.
Lemma same_algorithm_ v j j' : same (kind_of v) (Named "algorithm") j j' -> of_json_algorithm j = of_json_algorithm j'.
Proof.
  intros H. destruct (of_json_algorithm j) as [a|] eqn:E.
  - assert (F : fits (kind_of v) j (Named "algorithm") = true) by (rewrite <- acc_algorithm, E; reflexivity).
    rewrite fits_named in F by exact Logic.I. open_kind H. change (kind_of v "algorithm") with (OneOf [Word ["RS256"; "RS384"; "RS512"; "PS256"; "PS384"; "PS512"; "ES256"; "ES384";
            "ES512"; "Ed25519"; "Ed448"; "HS256"; "HS384"; "HS512"]; Tagged [("Unknown", Str)]]) in F.
    rewrite one_of2 in F by exact Logic.I.
    destruct (one_of_inv _ _ _ _ H (Word ["RS256"; "RS384"; "RS512"; "PS256"; "PS384"; "PS512"; "ES256"; "ES384";
            "ES512"; "Ed25519"; "Ed448"; "HS256"; "HS384"; "HS512"])) as [S|[N _]]; [now left| |].
    { apply leaf_inv in S; [now subst|exact Logic.I]. }
    rewrite N in F. destruct (one_of_inv _ _ _ _ H (Tagged [("Unknown", Str)])) as [S|[N' _]]; [right; now left| |].
    2: { rewrite N' in F. discriminate F. }
    apply tagged_inv in S. destruct S as [->|(k & t & x & x' & -> & -> & K & S)]; [now symmetry|].
    cbn [named] in K. destruct (String.eqb k "Unknown") eqn:U; [|discriminate K]. injection K as <-. destruct S as [S|[S1 S2]]; [apply leaf_inv in S; [now subst|exact Logic.I]|].
    change (match named k [("Unknown", Str)] with Some t => fits (kind_of v) x t | None => false end = true) in F.
    cbn [named] in F. rewrite U in F. congruence.
  - assert (F : fits (kind_of v) j (Named "algorithm") = false) by (rewrite <- acc_algorithm, E; reflexivity).
    symmetry. apply ok_none. rewrite (acc_algorithm v). revert F. rewrite !fits_named by exact Logic.I. open_kind H.
    change (kind_of v "algorithm") with (OneOf [Word ["RS256"; "RS384"; "RS512"; "PS256"; "PS384"; "PS512"; "ES256"; "ES384";
            "ES512"; "Ed25519"; "Ed448"; "HS256"; "HS384"; "HS512"]; Tagged [("Unknown", Str)]]).
    rewrite !one_of2 by exact Logic.I. intros F. apply orb_false_iff in F. destruct F as [F1 F2].
    destruct (one_of_inv _ _ _ _ H (Word ["RS256"; "RS384"; "RS512"; "PS256"; "PS384"; "PS512"; "ES256"; "ES384";
            "ES512"; "Ed25519"; "Ed448"; "HS256"; "HS384"; "HS512"])) as [S|[_ N]]; [now left| |].
    { apply leaf_inv in S; [|exact Logic.I]. subst. now rewrite F1, F2. }
    rewrite N. destruct (one_of_inv _ _ _ _ H (Tagged [("Unknown", Str)])) as [S|[_ N']]; [right; now left| |exact N'].
    apply tagged_inv in S. destruct S as [->|(k & t & x & x' & -> & -> & K & S)]; [exact F2|].
    cbn [named] in K. destruct (String.eqb k "Unknown") eqn:U; [|discriminate K]. injection K as <-.
    destruct S as [S|[S1 S2]]; [apply leaf_inv in S; [now subst|exact Logic.I]|].
    change (match named k [("Unknown", Str)] with Some t => fits (kind_of v) x' t | None => false end = false).
    cbn [named]. now rewrite U.
Qed.
Global Hint Resolve same_algorithm_ : alike.
Lemma same_signer_ v j j' : same (kind_of v) (Named "signer") j j' -> of_json_signer j = of_json_signer j'.
Proof. intros H. open_kind H. unfold of_json_signer. a_struct_same H. Qed.
Global Hint Resolve same_signer_ : alike.
Lemma same_signature_ v j j' : same (kind_of v) (Named "signature") j j' -> of_json_signature j = of_json_signature j'.
Proof.
  intros H. open_kind H. unfold of_json_signature.
  assert (L : dec_list of_json_signer j = dec_list of_json_signer j').
  { alternative H as (ListOf (Named "signer")) by (apply fits_dec_list; intros; leaf) then (intros S; same_leaf). }
  assert (S : of_json_signer j = of_json_signer j').
  { alternative H as (Struct signer) by (rewrite (acc_signer v), fits_named by exact Logic.I; reflexivity) then (intros S; unfold of_json_signer; a_struct_same S). }
  now rewrite L, S.
Qed.
Global Hint Resolve same_signature_ : alike.
Lemma same_license_contact_ v j j' : same (kind_of v) (Named "license_contact") j j' -> of_json_license_contact j = of_json_license_contact j'.
Proof. intros H. open_kind H. unfold of_json_license_contact. a_tagged_same H. Qed.
Global Hint Resolve same_license_contact_ : alike.
Lemma same_licensing_ v j j' : same (kind_of v) (Named "licensing") j j' -> of_json_licensing j = of_json_licensing j'.
Proof. intros H. open_kind H. unfold of_json_licensing. a_struct_same H. Qed.
Global Hint Resolve same_licensing_ : alike.
Lemma same_license_ v j j' : same (kind_of v) (Named "license") j j' -> of_json_license v j = of_json_license v j'.
Proof.
  intros H. destruct v; open_kind H; apply both_inv in H; destruct H as [I H]; apply identifier_same in I; unfold of_json_license;
    match type of H with SameSpec.same ?G (Object ?fs) ?j ?j' => refine (object_same G fs _ _ j j' _ _ H); clear H; [intros H|now intros ->] end;
    rewrite I; versions; cbn [field_when bindo];
    repeat (apply bind_same; [first [a_member H|reflexivity]|intros ?]); reflexivity.
Qed.
Global Hint Resolve same_license_ : alike.
Lemma same_license_choice_ v j j' : same (kind_of v) (Named "license_choice") j j' -> of_json_license_choice v j = of_json_license_choice v j'.
Proof.
  intros H. open_kind H. unfold of_json_license_choice. apply orelse_same.
  - alternative H as (Tagged [("license", Named "license")]) by a_tagged then (intros S; a_tagged_same S).
  - alternative H as (Struct [GrammarSpec.opt "bomRef" Str; req "expression" Str]) by a_struct then (intros S; a_struct_same S).
Qed.
Global Hint Resolve same_license_choice_ : alike.
Lemma same_identifiable_action_ v j j' : same (kind_of v) (Named "identifiable_action") j j' -> of_json_identifiable_action j = of_json_identifiable_action j'.
Proof. intros H. open_kind H. unfold of_json_identifiable_action. a_struct_same H. Qed.
Global Hint Resolve same_identifiable_action_ : alike.
Lemma same_commit_ v j j' : same (kind_of v) (Named "commit") j j' -> of_json_commit j = of_json_commit j'.
Proof. intros H. open_kind H. unfold of_json_commit. a_struct_same H. Qed.
Global Hint Resolve same_commit_ : alike.
Lemma same_diff_ v j j' : same (kind_of v) (Named "diff") j j' -> of_json_diff j = of_json_diff j'.
Proof. intros H. open_kind H. unfold of_json_diff. a_struct_same H. Qed.
Global Hint Resolve same_diff_ : alike.
Lemma same_source_ v j j' : same (kind_of v) (Named "source") j j' -> of_json_source j = of_json_source j'.
Proof. intros H. open_kind H. unfold of_json_source. a_struct_same H. Qed.
Global Hint Resolve same_source_ : alike.
Lemma same_issue_ v j j' : same (kind_of v) (Named "issue") j j' -> of_json_issue j = of_json_issue j'.
Proof. intros H. open_kind H. unfold of_json_issue. a_struct_same H. Qed.
Global Hint Resolve same_issue_ : alike.
Lemma same_patch_ v j j' : same (kind_of v) (Named "patch") j j' -> of_json_patch j = of_json_patch j'.
Proof. intros H. open_kind H. unfold of_json_patch. a_struct_same H. Qed.
Global Hint Resolve same_patch_ : alike.
Lemma same_responsible_party_ v j j' : same (kind_of v) (Named "responsible_party") j j' -> of_json_responsible_party j = of_json_responsible_party j'.
Proof. intros H. open_kind H. unfold of_json_responsible_party. a_tagged_same H. Qed.
Global Hint Resolve same_responsible_party_ : alike.
Lemma same_data_governance_ v j j' : same (kind_of v) (Named "data_governance") j j' -> of_json_data_governance j = of_json_data_governance j'.
Proof. intros H. open_kind H. unfold of_json_data_governance. a_struct_same H. Qed.
Global Hint Resolve same_data_governance_ : alike.
Lemma same_data_contents_ v j j' : same (kind_of v) (Named "data_contents") j j' -> of_json_data_contents j = of_json_data_contents j'.
Proof. intros H. open_kind H. unfold of_json_data_contents. a_struct_same H. Qed.
Global Hint Resolve same_data_contents_ : alike.
Lemma same_graphic_ v j j' : same (kind_of v) (Named "graphic") j j' -> of_json_graphic j = of_json_graphic j'.
Proof. intros H. open_kind H. unfold of_json_graphic. a_struct_same H. Qed.
Global Hint Resolve same_graphic_ : alike.
Lemma same_graphics_collection_ v j j' : same (kind_of v) (Named "graphics_collection") j j' -> of_json_graphics_collection j = of_json_graphics_collection j'.
Proof. intros H. open_kind H. unfold of_json_graphics_collection. a_struct_same H. Qed.
Global Hint Resolve same_graphics_collection_ : alike.
Lemma same_component_data_ v j j' : same (kind_of v) (Named "component_data") j j' -> of_json_component_data j = of_json_component_data j'.
Proof. intros H. open_kind H. unfold of_json_component_data. a_struct_same H. Qed.
Global Hint Resolve same_component_data_ : alike.
Lemma same_approach_ v j j' : same (kind_of v) (Named "approach") j j' -> of_json_approach j = of_json_approach j'.
Proof. intros H. open_kind H. unfold of_json_approach. a_struct_same H. Qed.
Global Hint Resolve same_approach_ : alike.
Lemma same_dataset_ v j j' : same (kind_of v) (Named "dataset") j j' -> of_json_dataset j = of_json_dataset j'.
Proof.
  intros H. open_kind H. unfold of_json_dataset. apply orelse_same.
  - alternative H as (Struct component_data) by (rewrite ok_map, (acc_component_data v), fits_named by exact Logic.I; reflexivity) then (intros S; apply bind_same; [unfold of_json_component_data; a_struct_same S|reflexivity]).
  - alternative H as Str by (rewrite ok_map; apply fits_str) then (intros S; apply leaf_inv in S; [now subst|exact Logic.I]).
Qed.
Global Hint Resolve same_dataset_ : alike.
Lemma same_ml_parameter_ v j j' : same (kind_of v) (Named "ml_parameter") j j' -> of_json_ml_parameter j = of_json_ml_parameter j'.
Proof. intros H. open_kind H. unfold of_json_ml_parameter. a_struct_same H. Qed.
Global Hint Resolve same_ml_parameter_ : alike.
Lemma same_model_parameters_ v j j' : same (kind_of v) (Named "model_parameters") j j' -> of_json_model_parameters j = of_json_model_parameters j'.
Proof. intros H. open_kind H. unfold of_json_model_parameters. a_struct_same H. Qed.
Global Hint Resolve same_model_parameters_ : alike.
Lemma same_confidence_interval_ v j j' : same (kind_of v) (Named "confidence_interval") j j' -> of_json_confidence_interval j = of_json_confidence_interval j'.
Proof. intros H. open_kind H. unfold of_json_confidence_interval. a_struct_same H. Qed.
Global Hint Resolve same_confidence_interval_ : alike.
Lemma same_performance_metric_ v j j' : same (kind_of v) (Named "performance_metric") j j' -> of_json_performance_metric j = of_json_performance_metric j'.
Proof. intros H. open_kind H. unfold of_json_performance_metric. a_struct_same H. Qed.
Global Hint Resolve same_performance_metric_ : alike.
Lemma same_quantitative_analysis_ v j j' : same (kind_of v) (Named "quantitative_analysis") j j' -> of_json_quantitative_analysis j = of_json_quantitative_analysis j'.
Proof. intros H. open_kind H. unfold of_json_quantitative_analysis. a_struct_same H. Qed.
Global Hint Resolve same_quantitative_analysis_ : alike.
Lemma same_considerations_ v j j' : same (kind_of v) (Named "considerations") j j' -> of_json_considerations j = of_json_considerations j'.
Proof. intros H. open_kind H. unfold of_json_considerations. a_struct_same H. Qed.
Global Hint Resolve same_considerations_ : alike.
Lemma same_model_card_ v j j' : same (kind_of v) (Named "model_card") j j' -> of_json_model_card j = of_json_model_card j'.
Proof. intros H. open_kind H. unfold of_json_model_card. a_struct_same H. Qed.
Global Hint Resolve same_model_card_ : alike.
Lemma same_occurrence_ v j j' : same (kind_of v) (Named "occurrence") j j' -> of_json_occurrence j = of_json_occurrence j'.
Proof. intros H. open_kind H. unfold of_json_occurrence. a_struct_same H. Qed.
Global Hint Resolve same_occurrence_ : alike.
Lemma same_frame_ v j j' : same (kind_of v) (Named "frame") j j' -> of_json_frame j = of_json_frame j'.
Proof. intros H. open_kind H. unfold of_json_frame. a_struct_same H. Qed.
Global Hint Resolve same_frame_ : alike.
Lemma same_callstack_ v j j' : same (kind_of v) (Named "callstack") j j' -> of_json_callstack j = of_json_callstack j'.
Proof.
  intros H. open_kind H. unfold of_json_callstack.
  match type of H with SameSpec.same ?G (Struct ?fs) ?j ?j' => refine (struct_same G fs _ _ j j' _ _ H); clear H; [intros H|now intros ->] end.
  a_member H.
Qed.
Global Hint Resolve same_callstack_ : alike.
Lemma same_method_ v j j' : same (kind_of v) (Named "method") j j' -> of_json_method j = of_json_method j'.
Proof. intros H. open_kind H. unfold of_json_method. a_struct_same H. Qed.
Global Hint Resolve same_method_ : alike.
Lemma same_identity_ v j j' : same (kind_of v) (Named "identity") j j' -> of_json_identity j = of_json_identity j'.
Proof. intros H. open_kind H. unfold of_json_identity. a_struct_same H. Qed.
Global Hint Resolve same_identity_ : alike.
Lemma same_copyright_ v j j' : same (kind_of v) (Named "copyright") j j' -> of_json_copyright j = of_json_copyright j'.
Proof.
  intros H. open_kind H. unfold of_json_copyright.
  match type of H with SameSpec.same ?G (Struct ?fs) ?j ?j' => refine (struct_same G fs _ _ j j' _ _ H); clear H; [intros H|now intros ->] end.
  a_member H.
Qed.
Global Hint Resolve same_copyright_ : alike.
Lemma same_evidence_ v j j' : same (kind_of v) (Named "evidence") j j' -> of_json_evidence v j = of_json_evidence v j'.
Proof. intros H. destruct v; open_kind H; unfold of_json_evidence; a_struct_same H. Qed.
Global Hint Resolve same_evidence_ : alike.
Lemma same_swid_ v j j' : same (kind_of v) (Named "swid") j j' -> of_json_swid j = of_json_swid j'.
Proof. intros H. open_kind H. unfold of_json_swid. a_struct_same H. Qed.
Global Hint Resolve same_swid_ : alike.
Lemma same_pedigree_ v of j j' : (forall x, ok (of x) = fits (kind_of v) x (Named "component")) ->
  (forall x x', size x < size j -> either (kind_of v) (Named "component") x x' -> of x = of x') ->
  same (kind_of v) (Named "pedigree") j j' -> of_json_pedigree of j = of_json_pedigree of j'.
Proof.
  intros F IH H. open_kind H. unfold of_json_pedigree.
  assert (L : forall x x', size x < size j -> either (kind_of v) (ListOf (Named "component")) x x' -> dec_list of x = dec_list of x').
  { intros x x' Hx. apply either_read; [apply fits_dec_list; auto|apply fits_dec_list; auto|]. apply dec_list_same. intros y y' Hy. apply IH. lia. }
  a_struct_same H.
Qed.
Lemma same_component_ v : forall j j', same (kind_of v) (Named "component") j j' -> of_json_component v j = of_json_component v j'.
Proof.
  intros j. remember (size j) as n eqn:E. revert j E. induction n as [n IHn] using lt_wf_ind. intros j -> j'.
  pose proof (acc_component v) as F.
  assert (IH : forall x x', size x < size j -> either (kind_of v) (Named "component") x x' -> of_json_component v x = of_json_component v x').
  { intros x x' Hx. apply either_read; [apply F|apply F|]. now apply (IHn (size x)). }
  clear IHn. rewrite !of_json_component_eq. generalize dependent (of_json_component v). intros of F IH H.
  assert (L : forall x x', size x < size j -> either (kind_of v) (ListOf (Named "component")) x x' -> dec_list of x = dec_list of x').
  { intros x x' Hx. apply either_read; [apply fits_dec_list; auto|apply fits_dec_list; auto|]. apply dec_list_same. intros y y' Hy. apply IH. lia. }
  assert (Pd : forall x x', size x < size j -> either (kind_of v) (Named "pedigree") x x' -> of_json_pedigree of x = of_json_pedigree of x').
  { intros x x' Hx. apply either_read; [apply acc_pedigree; auto|apply acc_pedigree; auto|]. apply same_pedigree_; [exact F|]. intros y y' Hy. apply IH. lia. }
  destruct v; open_kind H; unfold component_step; a_struct_same H.
Qed.
Global Hint Resolve same_component_ : alike.
Lemma same_data_classification_ v j j' : same (kind_of v) (Named "data_classification") j j' -> of_json_data_classification j = of_json_data_classification j'.
Proof. intros H. open_kind H. unfold of_json_data_classification. a_struct_same H. Qed.
Global Hint Resolve same_data_classification_ : alike.
Lemma same_service_data_ v j j' : same (kind_of v) (Named "service_data") j j' -> of_json_service_data j = of_json_service_data j'.
Proof. intros H. open_kind H. unfold of_json_service_data. an_object_same H. Qed.
Global Hint Resolve same_service_data_ : alike.
Lemma same_data_ v j j' : same (kind_of v) (Named "data") j j' -> of_json_data v j = of_json_data v j'.
Proof.
  intros H. destruct v; open_kind H; unfold of_json_data; apply orelse_same; versions.
  1,3,5: alternative H as (ListOf (Named "data_classification")) by (rewrite ok_map; leaf) then (intros S; apply bind_same; [same_leaf|reflexivity]).
  1,2: reflexivity.
  alternative H as (ListOf (Named "service_data")) by (rewrite ok_map; leaf) then (intros S; apply bind_same; [same_leaf|reflexivity]).
Qed.
Global Hint Resolve same_data_ : alike.
Lemma same_service_ v : forall j j', same (kind_of v) (Named "service") j j' -> of_json_service v j = of_json_service v j'.
Proof.
  intros j. remember (size j) as n eqn:E. revert j E. induction n as [n IHn] using lt_wf_ind. intros j -> j'.
  pose proof (acc_service v) as F.
  assert (IH : forall x x', size x < size j -> either (kind_of v) (Named "service") x x' -> of_json_service v x = of_json_service v x').
  { intros x x' Hx. apply either_read; [apply F|apply F|]. now apply (IHn (size x)). }
  clear IHn. rewrite !of_json_service_eq. generalize dependent (of_json_service v). intros of F IH H.
  assert (L : forall x x', size x < size j -> either (kind_of v) (ListOf (Named "service")) x x' -> dec_list of x = dec_list of x').
  { intros x x' Hx. apply either_read; [apply fits_dec_list; auto|apply fits_dec_list; auto|]. apply dec_list_same. intros y y' Hy. apply IH. lia. }
  destruct v; open_kind H; unfold service_step; a_struct_same H.
Qed.
Global Hint Resolve same_service_ : alike.
Lemma same_tool_ v j j' : same (kind_of v) (Named "tool") j j' -> of_json_tool v j = of_json_tool v j'.
Proof. intros H. destruct v; open_kind H; unfold of_json_tool; a_struct_same H. Qed.
Global Hint Resolve same_tool_ : alike.
Lemma same_tools_ v j j' : same (kind_of v) (Named "tools") j j' -> of_json_tools v j = of_json_tools v j'.
Proof.
  intros H. destruct v; open_kind H; unfold of_json_tools; apply orelse_same; versions.
  1,3,5: alternative H as (ListOf (Named "tool")) by (rewrite ok_map; leaf) then (intros S; apply bind_same; [same_leaf|reflexivity]).
  1,2: reflexivity.
  alternative H as (Object [GrammarSpec.opt "services" (ListOf (Named "service")); GrammarSpec.opt "components" (ListOf (Named "component"))]) by an_object then (intros S; an_object_same S).
Qed.
Global Hint Resolve same_tools_ : alike.
Lemma same_lifecycle_ v j j' : same (kind_of v) (Named "lifecycle") j j' -> of_json_lifecycle j = of_json_lifecycle j'.
Proof.
  intros H. open_kind H. unfold of_json_lifecycle. apply orelse_same.
  - alternative H as (Tagged [("phase", Str)]) by a_tagged then (intros S; a_tagged_same S).
  - alternative H as (Struct [req "name" Str; GrammarSpec.opt "description" Str]) by a_struct then (intros S; a_struct_same S).
Qed.
Global Hint Resolve same_lifecycle_ : alike.
Lemma same_metadata_ v j j' : same (kind_of v) (Named "metadata") j j' -> of_json_metadata v j = of_json_metadata v j'.
Proof. intros H. destruct v; open_kind H; unfold of_json_metadata; a_struct_same H. Qed.
Global Hint Resolve same_metadata_ : alike.
Lemma same_dependency_ v j j' : same (kind_of v) (Named "dependency") j j' -> of_json_dependency j = of_json_dependency j'.
Proof. intros H. open_kind H. unfold of_json_dependency. a_struct_same H. Qed.
Global Hint Resolve same_dependency_ : alike.
Lemma same_composition_ v j j' : same (kind_of v) (Named "composition") j j' -> of_json_composition v j = of_json_composition v j'.
Proof. intros H. destruct v; open_kind H; unfold of_json_composition; a_struct_same H. Qed.
Global Hint Resolve same_composition_ : alike.
Lemma same_annotator_ v j j' : same (kind_of v) (Named "annotator") j j' -> of_json_annotator v j = of_json_annotator v j'.
Proof. intros H. open_kind H. unfold of_json_annotator. a_tagged_same H. Qed.
Global Hint Resolve same_annotator_ : alike.
Lemma same_annotation_ v j j' : same (kind_of v) (Named "annotation") j j' -> of_json_annotation v j = of_json_annotation v j'.
Proof. intros H. destruct v; open_kind H; unfold of_json_annotation; a_struct_same H. Qed.
Global Hint Resolve same_annotation_ : alike.
Lemma same_vuln_source_ v j j' : same (kind_of v) (Named "vuln_source") j j' -> of_json_vuln_source j = of_json_vuln_source j'.
Proof. intros H. open_kind H. unfold of_json_vuln_source. a_struct_same H. Qed.
Global Hint Resolve same_vuln_source_ : alike.
Lemma same_vuln_reference_ v j j' : same (kind_of v) (Named "vuln_reference") j j' -> of_json_vuln_reference j = of_json_vuln_reference j'.
Proof. intros H. open_kind H. unfold of_json_vuln_reference. a_struct_same H. Qed.
Global Hint Resolve same_vuln_reference_ : alike.
Lemma same_vuln_rating_ v j j' : same (kind_of v) (Named "vuln_rating") j j' -> of_json_vuln_rating j = of_json_vuln_rating j'.
Proof. intros H. open_kind H. unfold of_json_vuln_rating. a_struct_same H. Qed.
Global Hint Resolve same_vuln_rating_ : alike.
Lemma same_advisory_ v j j' : same (kind_of v) (Named "advisory") j j' -> of_json_advisory j = of_json_advisory j'.
Proof. intros H. open_kind H. unfold of_json_advisory. a_struct_same H. Qed.
Global Hint Resolve same_advisory_ : alike.
Lemma same_vuln_credits_ v j j' : same (kind_of v) (Named "vuln_credits") j j' -> of_json_vuln_credits j = of_json_vuln_credits j'.
Proof. intros H. open_kind H. unfold of_json_vuln_credits. a_struct_same H. Qed.
Global Hint Resolve same_vuln_credits_ : alike.
Lemma same_vuln_analysis_ v j j' : same (kind_of v) (Named "vuln_analysis") j j' -> of_json_vuln_analysis v j = of_json_vuln_analysis v j'.
Proof. intros H. destruct v; open_kind H; unfold of_json_vuln_analysis; a_struct_same H. Qed.
Global Hint Resolve same_vuln_analysis_ : alike.
Lemma same_version_status_ v j j' : same (kind_of v) (Named "version_status") j j' -> of_json_version_status j = of_json_version_status j'.
Proof.
  intros H. open_kind H. apply both_inv in H. destruct H as [I H]. apply range_same in I. unfold of_json_version_status.
  match type of H with SameSpec.same ?G (Object ?fs) ?j ?j' => refine (object_same G fs _ _ j j' _ _ H); clear H; [intros H|now intros ->] end.
  rewrite I. repeat (apply bind_same; [first [a_member H|reflexivity]|intros ?]); reflexivity.
Qed.
Global Hint Resolve same_version_status_ : alike.
Lemma same_vuln_target_ v j j' : same (kind_of v) (Named "vuln_target") j j' -> of_json_vuln_target j = of_json_vuln_target j'.
Proof. intros H. open_kind H. unfold of_json_vuln_target. a_struct_same H. Qed.
Global Hint Resolve same_vuln_target_ : alike.
Lemma same_proof_of_concept_ v j j' : same (kind_of v) (Named "proof_of_concept") j j' -> of_json_proof_of_concept j = of_json_proof_of_concept j'.
Proof. intros H. open_kind H. unfold of_json_proof_of_concept. a_struct_same H. Qed.
Global Hint Resolve same_proof_of_concept_ : alike.
Lemma same_vulnerability_ v j j' : same (kind_of v) (Named "vulnerability") j j' -> of_json_vulnerability v j = of_json_vulnerability v j'.
Proof. intros H. destruct v; open_kind H; unfold of_json_vulnerability; a_struct_same H. Qed.
Global Hint Resolve same_vulnerability_ : alike.
Lemma same_resource_reference_ v j j' : same (kind_of v) (Named "resource_reference") j j' -> of_json_resource_reference j = of_json_resource_reference j'.
Proof.
  intros H. open_kind H. unfold of_json_resource_reference. apply orelse_same.
  - alternative H as (Object [req "ref" Str]) by an_object then (intros S; an_object_same S).
  - alternative H as (Object [req "externalReference" (Named "external_reference")]) by an_object then (intros S; an_object_same S).
Qed.
Global Hint Resolve same_resource_reference_ : alike.
Lemma same_environment_var_ v j j' : same (kind_of v) (Named "environment_var") j j' -> of_json_environment_var j = of_json_environment_var j'.
Proof.
  intros H. open_kind H. unfold of_json_environment_var. apply orelse_same.
  - alternative H as (Object [req "name" Str; req "value" Str]) by an_object then (intros S; an_object_same S).
  - alternative H as Str by (rewrite ok_map; apply fits_str) then (intros S; apply leaf_inv in S; [now subst|exact Logic.I]).
Qed.
Global Hint Resolve same_environment_var_ : alike.
Lemma same_parameter_ v j j' : same (kind_of v) (Named "parameter") j j' -> of_json_parameter j = of_json_parameter j'.
Proof. intros H. open_kind H. unfold of_json_parameter. a_struct_same H. Qed.
Global Hint Resolve same_parameter_ : alike.
Lemma same_required_input_ v j j' : same (kind_of v) (OneOf [Object [req "resource" (Named "resource_reference")]; Object [req "parameters" (ListOf (Named "parameter"))]; Object [req "environmentVars" (ListOf (Named "environment_var"))]; Object [req "data" (Named "attachment")]]) j j' ->
  of_json_required_input j = of_json_required_input j'.
Proof.
  intros H. unfold of_json_required_input. repeat apply orelse_same.
  - alternative H as (Object [req "resource" (Named "resource_reference")]) by (apply fits_variant; intros; leaf) then (intros S; apply (variant_same (kind_of v) _ _ _ (Named "resource_reference")); [leaf_same|exact S]).
  - alternative H as (Object [req "parameters" (ListOf (Named "parameter"))]) by (apply fits_variant; intros; leaf) then (intros S; apply (variant_same (kind_of v) _ _ _ (ListOf (Named "parameter"))); [leaf_same|exact S]).
  - alternative H as (Object [req "environmentVars" (ListOf (Named "environment_var"))]) by (apply fits_variant; intros; leaf) then (intros S; apply (variant_same (kind_of v) _ _ _ (ListOf (Named "environment_var"))); [leaf_same|exact S]).
  - alternative H as (Object [req "data" (Named "attachment")]) by (apply fits_variant; intros; leaf) then (intros S; apply (variant_same (kind_of v) _ _ _ (Named "attachment")); [leaf_same|exact S]).
Qed.
Lemma same_input_ v j j' : same (kind_of v) (Named "input") j j' -> of_json_input j = of_json_input j'.
Proof.
  intros H. open_kind H. apply both_inv in H. destruct H as [I H]. apply same_required_input_ in I. unfold of_json_input.
  match type of H with SameSpec.same ?G (Object ?fs) ?j ?j' => refine (object_same G fs _ _ j j' _ _ H); clear H; [intros H|now intros ->] end.
  rewrite I. repeat (apply bind_same; [first [a_member H|reflexivity]|intros ?]); reflexivity.
Qed.
Global Hint Resolve same_input_ : alike.
Lemma same_required_output_ v j j' : same (kind_of v) (OneOf [Object [req "resource" (Named "resource_reference")]; Object [req "environmentVars" (ListOf (Named "environment_var"))]; Object [req "data" (Named "attachment")]]) j j' ->
  of_json_required_output j = of_json_required_output j'.
Proof.
  intros H. unfold of_json_required_output. repeat apply orelse_same.
  - alternative H as (Object [req "resource" (Named "resource_reference")]) by (apply fits_variant; intros; leaf) then (intros S; apply (variant_same (kind_of v) _ _ _ (Named "resource_reference")); [leaf_same|exact S]).
  - alternative H as (Object [req "environmentVars" (ListOf (Named "environment_var"))]) by (apply fits_variant; intros; leaf) then (intros S; apply (variant_same (kind_of v) _ _ _ (ListOf (Named "environment_var"))); [leaf_same|exact S]).
  - alternative H as (Object [req "data" (Named "attachment")]) by (apply fits_variant; intros; leaf) then (intros S; apply (variant_same (kind_of v) _ _ _ (Named "attachment")); [leaf_same|exact S]).
Qed.
Lemma same_output_ v j j' : same (kind_of v) (Named "output") j j' -> of_json_output j = of_json_output j'.
Proof.
  intros H. open_kind H. apply both_inv in H. destruct H as [I H]. apply same_required_output_ in I. unfold of_json_output.
  match type of H with SameSpec.same ?G (Object ?fs) ?j ?j' => refine (object_same G fs _ _ j j' _ _ H); clear H; [intros H|now intros ->] end.
  rewrite I. repeat (apply bind_same; [first [a_member H|reflexivity]|intros ?]); reflexivity.
Qed.
Global Hint Resolve same_output_ : alike.
Lemma same_command_ v j j' : same (kind_of v) (Named "command") j j' -> of_json_command j = of_json_command j'.
Proof. intros H. open_kind H. unfold of_json_command. a_struct_same H. Qed.
Global Hint Resolve same_command_ : alike.
Lemma same_step_ v j j' : same (kind_of v) (Named "step") j j' -> of_json_step j = of_json_step j'.
Proof. intros H. open_kind H. unfold of_json_step. a_struct_same H. Qed.
Global Hint Resolve same_step_ : alike.
Lemma same_volume_ v j j' : same (kind_of v) (Named "volume") j j' -> of_json_volume j = of_json_volume j'.
Proof. intros H. open_kind H. unfold of_json_volume. a_struct_same H. Qed.
Global Hint Resolve same_volume_ : alike.
Lemma same_workspace_ v j j' : same (kind_of v) (Named "workspace") j j' -> of_json_workspace j = of_json_workspace j'.
Proof. intros H. open_kind H. unfold of_json_workspace. a_struct_same H. Qed.
Global Hint Resolve same_workspace_ : alike.
Lemma same_condition_ v j j' : same (kind_of v) (Named "condition") j j' -> of_json_condition j = of_json_condition j'.
Proof. intros H. open_kind H. unfold of_json_condition. a_struct_same H. Qed.
Global Hint Resolve same_condition_ : alike.
Lemma same_event_ v j j' : same (kind_of v) (Named "event") j j' -> of_json_event j = of_json_event j'.
Proof. intros H. open_kind H. unfold of_json_event. a_struct_same H. Qed.
Global Hint Resolve same_event_ : alike.
Lemma same_trigger_ v j j' : same (kind_of v) (Named "trigger") j j' -> of_json_trigger j = of_json_trigger j'.
Proof. intros H. open_kind H. unfold of_json_trigger. a_struct_same H. Qed.
Global Hint Resolve same_trigger_ : alike.
Lemma same_task_ v j j' : same (kind_of v) (Named "task") j j' -> of_json_task j = of_json_task j'.
Proof. intros H. open_kind H. unfold of_json_task. a_struct_same H. Qed.
Global Hint Resolve same_task_ : alike.
Lemma same_workflow_ v j j' : same (kind_of v) (Named "workflow") j j' -> of_json_workflow j = of_json_workflow j'.
Proof. intros H. open_kind H. unfold of_json_workflow. a_struct_same H. Qed.
Global Hint Resolve same_workflow_ : alike.
Lemma same_formula_ v j j' : same (kind_of v) (Named "formula") j j' -> of_json_formula v j = of_json_formula v j'.
Proof. intros H. destruct v; open_kind H; unfold of_json_formula; a_struct_same H. Qed.
Global Hint Resolve same_formula_ : alike.
Lemma same_bom_ v j j' : same (kind_of v) (Named "bom") j j' -> of_json_bom v j = of_json_bom v j'.
Proof. intros H. destruct v; open_kind H; unfold of_json_bom; a_struct_same H. Qed.
Global Hint Resolve same_bom_ : alike.

(** C53: the result builder of [validation.rs] loses nothing: what is reported
    under one name is kept, in order, whatever else is reported. *)
From Verif Require Import Base ModelTypes Strings ValModel ValSpec ValProofs ValProofs3.
From Coq Require Import Sorted.
Open Scope string_scope.
Open Scope list_scope.
Open Scope nat_scope.

(** ** Specification *)
(** what one builder call has to report *)
Inductive reports : call -> option verr -> Prop :=
| rep_skip : reports (Check Skip) None
| rep_field_ok : reports (Check (Field None)) None
| rep_field m : reports (Check (Field (Some m))) (Some (ErrField [m]))
| rep_enum_ok : reports (Check (Enum None)) None
| rep_enum m : reports (Check (Enum (Some m))) (Some (ErrEnum m))
| rep_struct_ok : reports (Check (Struct (Done []))) None
| rep_struct e r : reports (Check (Struct (Done (e :: r)))) (Some (ErrStruct (e :: r)))
| rep_list_ok l : Forall (fun o => o = Done []) l -> reports (Check (Items l)) None
| rep_list l es : es <> [] ->
    (* exactly the failing elements, by index, in increasing order *)
    (forall i r, In (i, r) es <-> nth_error l i = Some (Done r) /\ r <> []) ->
    StronglySorted (fun a b => fst a < fst b) es ->
    (forall o, In o l -> exists r, o = Done r) ->
    reports (Check (Items l)) (Some (ErrList es))
| rep_custom m : reports (Custom m) (Some (ErrCustom [m])).

(** what was reported under the name [k] *)
Fixpoint under (k : string) (fs : list (string * option verr)) : list verr :=
  match fs with
  | [] => []
  | (k', Some e) :: fs' => if String.eqb k' k then e :: under k fs' else under k fs'
  | (_, None) :: fs' => under k fs'
  end.
(** how findings under one name are kept as one entry *)
Inductive kept_as : list verr -> verr -> Prop :=
| kept_one e : kept_as [e] e
| kept_fields ms : ms <> [] -> kept_as (map (fun m => ErrField [m]) ms) (ErrField ms)
| kept_customs ms : ms <> [] -> kept_as (map (fun m => ErrCustom [m]) ms) (ErrCustom ms).

(** ** Proofs *)
Lemma failing_in l : forall i j r, In (j, r) (failing i l) <-> i <= j /\ nth_error l (j - i) = Some r /\ r <> [].
Proof.
  induction l as [|a l IH]; intros i j r; cbn [failing].
  - split; [intros []|]. intros (_ & H & _). destruct (j - i); discriminate.
  - assert (X : In (j, r) (failing (S i) l) <-> i < j /\ nth_error (a :: l) (j - i) = Some r /\ r <> []).
    { rewrite IH. split.
      - intros (L & H & N). split; [lia|]. split; [|exact N]. replace (j - i) with (S (j - S i)) by lia. exact H.
      - intros (L & H & N). split; [lia|]. split; [|exact N]. replace (j - i) with (S (j - S i)) in H by lia. exact H. }
    destruct a as [|x a]; cbn [has_errors passed negb].
    + rewrite X. split; [intros (L & H); split; [lia|exact H]|]. intros (L & H & N). split; [|auto].
      destruct (Nat.eq_dec i j) as [->|]; [|lia]. rewrite Nat.sub_diag in H. cbn in H. congruence.
    + cbn [In]. rewrite X. split.
      * intros [H|(L & H)]; [|split; [lia|exact H]]. injection H as -> <-. split; [lia|].
        rewrite Nat.sub_diag. split; [reflexivity|discriminate].
      * intros (L & H & N). destruct (Nat.eq_dec i j) as [->|]; [left|right; split; [lia|auto]].
        rewrite Nat.sub_diag in H. cbn in H. congruence.
Qed.
Lemma failing_sorted l : forall i, StronglySorted (fun a b => fst a < fst b) (failing i l).
Proof.
  induction l as [|a l IH]; intros i; cbn [failing]; [constructor|].
  destruct (has_errors a); [|apply IH]. constructor; [apply IH|]. apply Forall_forall. intros [j r] H.
  apply failing_in in H. cbn. lia.
Qed.
Lemma sorted_unique : forall (a b : list (nat * vresult)),
  StronglySorted (fun x y => fst x < fst y) a -> StronglySorted (fun x y => fst x < fst y) b ->
  (forall x, In x a <-> In x b) -> a = b.
Proof.
  induction a as [|x a IH]; intros b Sa Sb E.
  - destruct b as [|y b]; [reflexivity|]. destruct (proj2 (E y) (or_introl eq_refl)).
  - destruct b as [|y b]; [destruct (proj1 (E x) (or_introl eq_refl))|].
    inversion Sa as [|? ? Sa' Fa]; inversion Sb as [|? ? Sb' Fb]; subst.
    rewrite Forall_forall in Fa, Fb.
    assert (x = y) as <-.
    { destruct (proj1 (E x) (or_introl eq_refl)) as [H|H]; [congruence|].
      destruct (proj2 (E y) (or_introl eq_refl)) as [H'|H']; [congruence|].
      apply Fb in H. apply Fa in H'. lia. }
    f_equal. apply IH; auto. intros z. split; intros H.
    + destruct (proj1 (E z) (or_intror H)) as [->|H']; [|exact H']. apply Fa in H. lia.
    + destruct (proj2 (E z) (or_intror H)) as [->|H']; [|exact H']. apply Fb in H. lia.
Qed.

Definition add_report (k : string) (f : option verr) (r : vresult) : outcome vresult :=
  match f with
  | None => Done r
  | Some (ErrField [m]) => r_add_field k m r
  | Some (ErrCustom [m]) => r_add_custom k m r
  | Some (ErrEnum m) => r_add_enum k m r
  | Some e => r_add_nested k e r
  end.
Lemma mapM_all l xs : mapM (fun o : outcome vresult => o) l = Done xs <-> l = map Done xs.
Proof.
  revert xs. induction l as [|o l IH]; intros xs; cbn [mapM].
  - split; [intros [= <-]; reflexivity|]. destruct xs; [reflexivity|discriminate].
  - destruct o as [x|e|e|]; cbn [bind];
      try (split; [discriminate|destruct xs; discriminate]).
    destruct (mapM (fun o => o) l) as [ys|e|e|] eqn:E; cbn [bind].
    + split.
      * intros [= <-]. cbn. f_equal. apply IH. reflexivity.
      * destruct xs as [|z xs]; [discriminate|]. cbn. intros [= <- H]. apply IH in H. congruence.
    + split; [discriminate|]. destruct xs as [|z xs]; [discriminate|]. intros [= _ H]. apply IH in H. discriminate.
    + split; [discriminate|]. destruct xs as [|z xs]; [discriminate|]. intros [= _ H]. apply IH in H. discriminate.
    + split; [discriminate|]. destruct xs as [|z xs]; [discriminate|]. intros [= _ H]. apply IH in H. discriminate.
Qed.
Lemma add_call_report k c f r : reports c f -> add_call k c r = add_report k f r.
Proof.
  intros H. destruct H; cbn [add_call add_slot add_report]; try reflexivity.
  - assert (E : l = map Done (map (fun _ => []) l)).
    { induction H as [|o l -> _ IH]; [reflexivity|]. cbn. f_equal. exact IH. }
    apply mapM_all in E. rewrite E. cbn [bind].
    assert (F : forall (l : list (outcome vresult)) i, failing i (map (fun _ => []) l) = []) by (induction l0; cbn; auto).
    rewrite F. reflexivity.
  - assert (E : exists xs, l = map Done xs).
    { clear - H2. induction l as [|o l IH]; [exists []; reflexivity|].
      destruct (H2 o (or_introl eq_refl)) as (x & ->). destruct IH as (xs & ->); [intros; apply H2; right; assumption|].
      exists (x :: xs). reflexivity. }
    destruct E as (xs & ->). rewrite (proj2 (mapM_all _ _) eq_refl). cbn [bind].
    assert (G : failing 0 xs = es).
    { apply sorted_unique; [apply failing_sorted|exact H1|]. intros [i x]. rewrite failing_in, H0, Nat.sub_0_r.
      rewrite nth_error_map. unfold vresult in *.
      destruct (nth_error xs i) as [y|]; cbn; split.
      - intros (_ & [= ->] & N). auto.
      - intros ([= ->] & N). split; [apply Nat.le_0_l|auto].
      - intros (_ & [=] & _).
      - intros ([=] & _). }
    rewrite G. destruct es; [contradiction|]. reflexivity.
Qed.

Fixpoint add_reports (fs : list (string * option verr)) (r : vresult) : outcome vresult :=
  match fs with
  | [] => Done r
  | (k, f) :: fs' => do r' <- add_report k f r; add_reports fs' r'
  end.
Lemma build_reports cs fs : Forall2 (fun c f => fst c = fst f /\ reports (snd c) (snd f)) cs fs ->
  forall r, build cs r = add_reports fs r.
Proof.
  intros H. induction H as [|[k c] [k' f] cs fs [E R] _ IH]; intros r; [reflexivity|]. cbn in E, R. subst k'.
  cbn [build add_reports]. rewrite (add_call_report k c f r R).
  destruct (add_report k f r); cbn [bind]; auto.
Qed.

(** the only findings a call reports *)
Definition reportable (e : verr) : Prop :=
  match e with ErrField l | ErrCustom l => exists m, l = [m] | _ => True end.
Lemma reports_reportable c e : reports c (Some e) -> reportable e.
Proof. intros H. inversion H; subst; cbn; eauto. Qed.

Lemma kept_as_map_inv {A} (f : A -> verr) l a b : map f l = a ++ b -> exists x y, l = x ++ y /\ a = map f x /\ b = map f y.
Proof.
  revert l. induction a as [|e a IH]; intros l H; [exists [], l; auto|].
  destruct l as [|z l]; [discriminate|]. cbn in H. injection H as <- H. apply IH in H as (x & y & -> & -> & ->).
  exists (z :: x), y. auto.
Qed.
Lemma kept_as_fun l e e' : Forall reportable l -> kept_as l e -> kept_as l e' -> e = e'.
Proof.
  assert (IF : forall a b : list string, map (fun m => ErrField [m]) a = map (fun m => ErrField [m]) b -> a = b).
  { induction a as [|x a IH]; intros [|y b]; cbn; try discriminate; [reflexivity|]. intros [= -> H]. f_equal. auto. }
  assert (IC : forall a b : list string, map (fun m => ErrCustom [m]) a = map (fun m => ErrCustom [m]) b -> a = b).
  { induction a as [|x a IH]; intros [|y b]; cbn; try discriminate; [reflexivity|]. intros [= -> H]. f_equal. auto. }
  intros R H H'. destruct H as [e|ms N|ms N]; inversion H' as [e2 E|ms' N' E|ms' N' E]; subst.
  - reflexivity.
  - destruct ms' as [|m [|]]; cbn in E; congruence.
  - destruct ms' as [|m [|]]; cbn in E; congruence.
  - destruct ms as [|m [|]]; cbn in E; congruence.
  - apply IF in E. congruence.
  - destruct ms as [|m ms], ms'; cbn in E; congruence.
  - destruct ms as [|m [|]]; cbn in E; congruence.
  - destruct ms as [|m ms], ms'; cbn in E; congruence.
  - apply IC in E. congruence.
Qed.
Lemma kept_as_prefix a b e : kept_as (a ++ b) e -> a = [] \/ exists e', kept_as a e'.
Proof.
  intros H. inversion H as [e2 E|ms N E|ms N E].
  - destruct a as [|x [|]]; [left; reflexivity| |discriminate]. right. exists x. constructor.
  - apply kept_as_map_inv in E as (x & y & -> & -> & ->). destruct x as [|m x]; [left; reflexivity|right].
    exists (ErrField (m :: x)). constructor. discriminate.
  - apply kept_as_map_inv in E as (x & y & -> & -> & ->). destruct x as [|m x]; [left; reflexivity|right].
    exists (ErrCustom (m :: x)). constructor. discriminate.
Qed.
Lemma under_app k a b : under k (a ++ b) = under k a ++ under k b.
Proof.
  induction a as [|[k' [e|]] a IH]; cbn [app under]; [reflexivity| |exact IH].
  destruct (String.eqb k' k); [cbn; f_equal|]; exact IH.
Qed.
Lemma under_reportable k fs : Forall (fun f => match snd f with Some e => reportable e | None => True end) fs ->
  Forall reportable (under k fs).
Proof.
  induction 1 as [|[k' [e|]] fs H _ IH]; cbn [under]; [constructor| |exact IH].
  destruct (String.eqb k' k); [constructor; [exact H|exact IH]|exact IH].
Qed.

(** the result [r] holds what was reported in [fs] *)
Definition holds (fs : list (string * option verr)) (r : vresult) : Prop :=
  forall k, (under k fs = [] -> error r k = None) /\ (forall e, kept_as (under k fs) e -> error r k = Some e).
Definition keepable (fs : list (string * option verr)) : Prop :=
  forall k, under k fs = [] \/ exists e, kept_as (under k fs) e.

Lemma holds_set pre k e r r' e0 :
  Forall reportable (under k pre) -> reportable e ->
  holds pre r -> kept_as (under k pre ++ [e]) e0 ->
  error r' k = Some e0 -> (forall k', k' <> k -> error r' k' = error r k') ->
  holds (pre ++ [(k, Some e)]) r'.
Proof.
  intros R Re H K E O k'. rewrite under_app. cbn [under]. destruct (String.eqb_spec k k') as [<-|N].
  - split; [intros X; destruct (under k pre); discriminate|]. intros e' K'.
    rewrite E. f_equal. eapply kept_as_fun; [|exact K|exact K']. apply Forall_app. split; [exact R|constructor; auto].
  - rewrite app_nil_r, O by congruence. apply H.
Qed.

Lemma add_report_step pre k f r :
  Forall (fun f => match snd f with Some e => reportable e | None => True end) (pre ++ [(k, f)]) ->
  keepable pre -> holds pre r ->
  (keepable (pre ++ [(k, f)]) /\ exists r', add_report k f r = Done r' /\ holds (pre ++ [(k, f)]) r')
  \/ (~ (under k (pre ++ [(k, f)]) = [] \/ exists e, kept_as (under k (pre ++ [(k, f)])) e)
      /\ exists m, add_report k f r = Panic m).
Proof.
  intros R KP H. apply Forall_app in R as [R Rf]. apply Forall_inv in Rf. cbn in Rf.
  destruct f as [e|].
  2:{ left. split; [|exists r; split; [reflexivity|]]; intros k'; rewrite under_app; cbn [under]; rewrite app_nil_r; [apply KP|apply H]. }
  pose proof (under_reportable k pre R) as Ru.
  assert (UK : under k (pre ++ [(k, Some e)]) = under k pre ++ [e]).
  { rewrite under_app. cbn [under]. rewrite String.eqb_refl. reflexivity. }
  assert (KPn : forall e0, kept_as (under k pre ++ [e]) e0 -> keepable (pre ++ [(k, Some e)])).
  { intros e0 K k'. rewrite under_app. cbn [under]. destruct (String.eqb_spec k k') as [<-|N].
    - right. exists e0. exact K.
    - rewrite app_nil_r. apply KP. }
  destruct (KP k) as [U|(p & K)].
  - (* first finding under this name *)
    left. assert (E0 : error r k = None) by (apply H; exact U).
    assert (K1 : kept_as (under k pre ++ [e]) e) by (rewrite U; constructor).
    assert (A : add_report k (Some e) r = Done (r ++ [(k, e)])).
    { destruct e as [l|l|l|m|l]; cbn [add_report]; unfold r_add_nested, r_add_enum, r_add_field, r_add_custom;
        cbn in Rf; try (destruct Rf as (m & ->)); rewrite E0; reflexivity. }
    split; [exact (KPn e K1)|]. exists (r ++ [(k, e)]). split; [exact A|].
    eapply holds_set; [exact Ru|exact Rf|exact H|exact K1| |].
    + rewrite error_app, E0, String.eqb_refl. reflexivity.
    + intros k' N. rewrite error_app. destruct (error r k'); [reflexivity|]. destruct (String.eqb_spec k k'); congruence.
  - assert (Ep : error r k = Some p) by (apply H; exact K).
    assert (D : (exists ms m, p = ErrField ms /\ ms <> [] /\ under k pre = map (fun m => ErrField [m]) ms /\ e = ErrField [m])
             \/ (exists ms m, p = ErrCustom ms /\ ms <> [] /\ under k pre = map (fun m => ErrCustom [m]) ms /\ e = ErrCustom [m])
             \/ (~ exists e0, kept_as (under k pre ++ [e]) e0)
                /\ match p, e with ErrField _, ErrField _ | ErrCustom _, ErrCustom _ => False | _, _ => True end).
    { assert (NE : under k pre <> []) by (intros X; rewrite X in K; inversion K; subst; destruct ms; cbn in *; congruence).
      assert (PF : match p with
                   | ErrField ms => ms <> [] /\ under k pre = map (fun m => ErrField [m]) ms
                   | ErrCustom ms => ms <> [] /\ under k pre = map (fun m => ErrCustom [m]) ms
                   | _ => under k pre = [p] end).
      { inversion K as [e2 E|ms N E|ms N E]; [|auto|auto].
        rewrite <- E in Ru. apply Forall_inv in Ru. subst e2.
        destruct p; try reflexivity; cbn in Ru; destruct Ru as (m & ->); (split; [discriminate|reflexivity]). }
      assert (NO : match p, e with ErrField _, ErrField _ | ErrCustom _, ErrCustom _ => False | _, _ => True end ->
                   ~ exists e0, kept_as (under k pre ++ [e]) e0).
      { intros C (e0 & K0). inversion K0 as [e2 E|ms N E|ms N E].
        - destruct (under k pre) as [|x [|]]; [congruence|discriminate|discriminate].
        - apply kept_as_map_inv in E as (x & y & -> & Ex & Ey). destruct y as [|m [|]]; try discriminate. injection Ey as ->.
          destruct p; try (rewrite PF in Ex; destruct x as [|? [|]]; cbn in Ex; congruence); [contradiction|].
          destruct PF as [Nm PF]. rewrite PF in Ex. destruct msgs, x; cbn in Ex; congruence.
        - apply kept_as_map_inv in E as (x & y & -> & Ex & Ey). destruct y as [|m [|]]; try discriminate. injection Ey as ->.
          destruct p; try (rewrite PF in Ex; destruct x as [|? [|]]; cbn in Ex; congruence); [|contradiction].
          destruct PF as [Nm PF]. rewrite PF in Ex. destruct msgs, x; cbn in Ex; congruence. }
      destruct p as [l|l|l|m|l], e as [l'|l'|l'|m'|l']; try (right; right; split; [apply NO|]; exact I).
      - cbn in Rf. destruct Rf as (m & ->). destruct PF as [N PF]. left. exists l, m. auto.
      - cbn in Rf. destruct Rf as (m & ->). destruct PF as [N PF]. right; left. exists l, m. auto. }
    destruct D as [(ms & m & -> & N & U & ->)|[(ms & m & -> & N & U & ->)|[NK C]]].
    + left. assert (K1 : kept_as (under k pre ++ [ErrField [m]]) (ErrField (ms ++ [m]))).
      { rewrite U. change [ErrField [m]] with (map (fun m => ErrField [m]) [m]). rewrite <- map_app. constructor.
        destruct ms; discriminate. }
      split; [exact (KPn _ K1)|]. exists (update k (ErrField (ms ++ [m])) r). split.
      { cbn [add_report]. unfold r_add_field. rewrite Ep. reflexivity. }
      assert (X : error r k <> None) by congruence.
      eapply holds_set; [exact Ru|exact Rf|exact H|exact K1| |].
      * rewrite (error_update _ _ _ _ X), String.eqb_refl. reflexivity.
      * intros k' Nk. rewrite (error_update _ _ _ _ X). destruct (String.eqb_spec k k'); congruence.
    + left. assert (K1 : kept_as (under k pre ++ [ErrCustom [m]]) (ErrCustom (ms ++ [m]))).
      { rewrite U. change [ErrCustom [m]] with (map (fun m => ErrCustom [m]) [m]). rewrite <- map_app. constructor.
        destruct ms; discriminate. }
      split; [exact (KPn _ K1)|]. exists (update k (ErrCustom (ms ++ [m])) r). split.
      { cbn [add_report]. unfold r_add_custom. rewrite Ep. reflexivity. }
      assert (X : error r k <> None) by congruence.
      eapply holds_set; [exact Ru|exact Rf|exact H|exact K1| |].
      * rewrite (error_update _ _ _ _ X), String.eqb_refl. reflexivity.
      * intros k' Nk. rewrite (error_update _ _ _ _ X). destruct (String.eqb_spec k k'); congruence.
    + right. rewrite UK. split.
      { intros [X|X]; [destruct (under k pre); discriminate|exact (NK X)]. }
      destruct e as [l|l|l|m|l]; cbn [add_report]; unfold r_add_nested, r_add_enum, r_add_field, r_add_custom;
        cbn in Rf; try (destruct Rf as (m & ->)); rewrite Ep; eauto; destruct p; eauto; contradiction.
Qed.

Lemma add_reports_all fs : forall pre r,
  Forall (fun f => match snd f with Some e => reportable e | None => True end) (pre ++ fs) ->
  keepable pre -> holds pre r ->
  (keepable (pre ++ fs) /\ exists r', add_reports fs r = Done r' /\ holds (pre ++ fs) r')
  \/ (~ keepable (pre ++ fs) /\ exists m, add_reports fs r = Panic m).
Proof.
  induction fs as [|[k f] fs IH]; intros pre r R K H.
  - left. rewrite app_nil_r. split; [exact K|]. exists r. auto.
  - assert (A : pre ++ (k, f) :: fs = (pre ++ [(k, f)]) ++ fs) by now rewrite <- app_assoc.
    rewrite A in *. cbn [add_reports].
    destruct (add_report_step pre k f r) as [(K' & r' & E & H')|(NK & m & E)]; auto.
    { apply Forall_app in R as [R _]. exact R. }
    + rewrite E. cbn [bind]. apply IH; assumption.
    + right. split; [|exists m; rewrite E; reflexivity]. intros K'. apply NK.
      destruct (K' k) as [X|(e & X)]; rewrite under_app in X.
      * apply app_eq_nil in X as [X _]. left. exact X.
      * apply kept_as_prefix in X. exact X.
Qed.

(** ** C53 *)
(** Whatever the sequence of builder calls: when, under each name, the findings are one
    finding, or only field messages, or only custom messages, the result holds them all in
    order and nothing else; otherwise the builder panics. *)
Theorem C53_findings_accumulate cs fs :
  Forall2 (fun c f => fst c = fst f /\ reports (snd c) (snd f)) cs fs ->
  ((forall k, under k fs = [] \/ exists e, kept_as (under k fs) e) ->
     exists r, build cs [] = Done r
       /\ forall k, (under k fs = [] -> error r k = None) /\ (forall e, kept_as (under k fs) e -> error r k = Some e))
  /\ ((exists k, under k fs <> [] /\ forall e, ~ kept_as (under k fs) e) -> exists m, build cs [] = Panic m).
Proof.
  intros H.
  assert (R : Forall (fun f => match snd f with Some e => reportable e | None => True end) ([] ++ fs)).
  { cbn. clear - H. induction H as [|c f cs fs [_ R] _ IH]; constructor; [|exact IH].
    destruct (snd f); [|exact I]. eapply reports_reportable; eauto. }
  rewrite (build_reports _ _ H).
  destruct (add_reports_all fs [] [] R) as [(K & r & E & X)|(NK & m & E)].
  - intros k. left. reflexivity.
  - intros k. split; [reflexivity|]. intros e Ke. inversion Ke; subst; destruct ms; cbn in *; congruence.
  - split; [intros _; exists r; auto|]. intros (k & N & A). exfalso. destruct (K k) as [Z|(e & Z)]; [contradiction|exact (A e Z)].
  - split; [intros K; contradiction|]. intros _. exists m. exact E.
Qed.
(** in particular: every message reported for a field is there, in the order of the calls *)
Theorem C53_field_messages_kept (calls : list (string * check)) :
  exists r, build (map (fun c => (fst c, Check (Field (snd c)))) calls) [] = Done r
    /\ forall k, error r k
         = match flat_map (fun c => match snd c with
                                    | Some m => if String.eqb (fst c) k then [m] else []
                                    | None => [] end) calls with
           | [] => None
           | ms => Some (ErrField ms)
           end.
Proof.
  set (fs := map (fun c : string * check => (fst c, match snd c with Some m => Some (ErrField [m]) | None => None end)) calls).
  assert (H : Forall2 (fun c f => fst c = fst f /\ reports (snd c) (snd f))
                (map (fun c => (fst c, Check (Field (snd c)))) calls) fs).
  { unfold fs. induction calls as [|[k [m|]] l IH]; cbn; constructor; auto; cbn; split; constructor. }
  assert (U : forall k, under k fs = map (fun m => ErrField [m])
     (flat_map (fun c : string * check => match snd c with
                | Some m => if String.eqb (fst c) k then [m] else [] | None => [] end) calls)).
  { intros k. unfold fs. clear. induction calls as [|[k' [m|]] l IH]; cbn [map under flat_map fst snd]; [reflexivity| |exact IH].
    destruct (String.eqb k' k); [cbn; f_equal|]; exact IH. }
  destruct (proj1 (C53_findings_accumulate _ fs H)) as (r & E & X).
  { intros k. rewrite U. set (ms := flat_map _ _). destruct ms as [|m ms]; [left; reflexivity|right].
    exists (ErrField (m :: ms)). constructor. discriminate. }
  exists r. split; [exact E|]. intros k. destruct (X k) as [X0 X1]. rewrite U in X0, X1.
  set (ms := flat_map _ _) in *. destruct ms as [|m ms]; [apply X0; reflexivity|]. apply X1. constructor. discriminate.
Qed.
Example C53_example :
  build [("a", Check (Field (Some "1"))); ("b", Check (Enum (Some "2"))); ("a", Check (Field None));
         ("a", Check (Field (Some "3"))); ("c", Custom "4"); ("c", Custom "5")] []
  = Done [("a", ErrField ["1"; "3"]); ("b", ErrEnum "2"); ("c", ErrCustom ["4"; "5"])]
  /\ (exists m, build [("a", Check (Field (Some "1"))); ("a", Custom "2")] [] = Panic m).
Proof. split; [vm_compute; reflexivity|]. eexists. vm_compute. reflexivity. Qed.
Print Assumptions C53_findings_accumulate.
Print Assumptions C53_field_messages_kept.

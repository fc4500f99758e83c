(** Reading trees: what the readers of Xml.v do on the events of well-formed elements,
    computed on the tree itself. *)
From Verif Require Import Base ModelTypes Strings Json Xml.
Open Scope string_scope.
Open Scope list_scope.
Open Scope nat_scope.

Section XML_IND.
  Variable P : xml -> Prop.
  Hypothesis HE : forall n ats kids, Forall P kids -> P (Elem n ats kids).
  Hypothesis HT : forall s, P (Text s).
  Hypothesis HC : forall s, P (CData s).
  Hypothesis HP : P PI.
  Fixpoint xml_ind' (x : xml) : P x :=
    match x with
    | Elem n ats kids =>
        HE n ats kids ((fix go (l : list xml) : Forall P l :=
          match l with [] => Forall_nil _ | y :: l' => Forall_cons _ (xml_ind' y) (go l') end) kids)
    | Text s => HT s
    | CData s => HC s
    | PI => HP
    end.
End XML_IND.

(** ** Reading a tree *)
Inductive tres (A : Type) := TOk (a : A) | TErr | TUnk.
Arguments TOk {A}. Arguments TErr {A}. Arguments TUnk {A}.
Definition tbind {A B} (r : tres A) (f : A -> tres B) : tres B :=
  match r with TOk a => f a | TErr => TErr | TUnk => TUnk end.
Definition of_opt {A} (o : option A) : tres A := match o with Some a => TOk a | None => TErr end.
Definition tmap {A B} (f : A -> B) (r : tres A) : tres B := tbind r (fun a => TOk (f a)).

Section ABSORB.
  Context {S : Type}.
  Variable p : policy.
  Variable arm : string -> option (attrs -> list xml -> tres (S -> option S)).
  Variable chars : option (string -> S -> S).
  Variable n : string.
  Fixpoint absorb1 (x : xml) (st : S) : tres S :=
    match x with
    | Elem m ats ks =>
        match arm m with
        | Some r => tbind (r ats ks) (fun u => of_opt (u st))
        | None =>
            match p with
            | Strict => TErr
            | Lax => TOk st
            | Open =>
                if String.eqb m n then TUnk
                else (fix go (l : list xml) (st : S) : tres S :=
                        match l with [] => TOk st | y :: l' => tbind (absorb1 y st) (go l') end) ks st
            end
        end
    | Text s =>
        match chars with
        | Some u => TOk (u s st)
        | None => match p with Open => TOk st | _ => TErr end
        end
    | CData _ | PI => match p with Open => TOk st | _ => TErr end
    end.
  Fixpoint absorb (l : list xml) (st : S) : tres S :=
    match l with [] => TOk st | y :: l' => tbind (absorb1 y st) (absorb l') end.
  Lemma absorb_app l1 l2 st : absorb (l1 ++ l2) st = tbind (absorb l1 st) (absorb l2).
  Proof.
    revert st. induction l1 as [|y l IH]; intros st; cbn; [reflexivity|].
    destruct (absorb1 y st); cbn; [apply IH| |]; reflexivity.
  Qed.
  Fixpoint odd_absorb (l : list xml) (st : S) : tres S :=
    match l with
    | [] => TOk st
    | Elem m ats ks :: l' =>
        match arm m with
        | Some r => tbind (r ats ks) (fun u => tbind (of_opt (u st)) (odd_absorb l'))
        | None => TUnk
        end
    | _ => TUnk
    end.
End ABSORB.

Definition tr_prim {A} (p : prim A) : list xml -> tres A :=
  match p in prim A return list xml -> tres A with
  | PSimple => fun l => match l with [] => TOk "" | [Text s] | [CData s] => TOk s | _ => TErr end
  | POptional => fun l => match l with [] => TOk None | [Text s] | [CData s] => TOk (Some s) | _ => TErr end
  | PText => fun l => match l with [Text s] | [CData s] => TOk s | _ => TErr end
  | PEnd => fun l => match l with [] => TOk tt | _ => TErr end
  end.

Fixpoint tr {A} (d : desc A) (n : string) (ats : attrs) (kids : list xml) {struct d} : tres A :=
  match d in desc A return tres A with
  | DPrim p => tr_prim p kids
  | DMap f d => tbind (tr d n ats kids) (fun a => of_opt (f n ats a))
  | DLoop p sh => absorb p (tr_arm sh) (on_chars sh) n kids (init sh)
  | DOdd sh d upd => odd_absorb (tr_arm sh) kids (init sh)
  | DFuel => TUnk
  end
with tr_arm {S} (sh : shape S) (m : string) {struct sh}
  : option (attrs -> list xml -> tres (S -> option S)) :=
  match sh in shape S return option (attrs -> list xml -> tres (S -> option S)) with
  | SNone _ | SChars _ _ => None
  | SOn tag d _ upd =>
      if String.eqb m tag then Some (fun ats ks => tmap upd (tr d m ats ks)) else None
  | SOr a b => match tr_arm a m with Some r => Some r | None => tr_arm b m end
  | SPair a b =>
      match tr_arm a m with
      | Some r => Some (fun ats ks => tmap on_fst (r ats ks))
      | None =>
          match tr_arm b m with
          | Some r => Some (fun ats ks => tmap on_snd (r ats ks))
          | None => None
          end
      end
  end.

(** ** The tree semantics is right *)
Definition agree {A} (t : tres A) (x : xres A) (rest : list event) : Prop :=
  match t with TOk a => x = XOk a rest | TErr => x = XErr | TUnk => True end.

Lemma flats_cons x l : flats (x :: l) = flat x ++ flats l.
Proof. reflexivity. Qed.
Lemma flats_app a b : flats (a ++ b) = flats a ++ flats b.
Proof. apply flat_map_app. Qed.
Lemma flat_elem n ats kids rest :
  flat (Elem n ats kids) ++ rest = EStart n ats :: flats kids ++ EEnd n :: rest.
Proof. cbn [flat app]. f_equal. rewrite <- app_assoc. reflexivity. Qed.

(** [read_lax_validation_tag] goes to the end of the element *)
Lemma skip_flat x o open rest : skip (o :: open) (flat x ++ rest) = skip (o :: open) rest.
Proof.
  revert o open rest. induction x as [m ats ks IH|s|s|] using xml_ind'; intros o open rest; try reflexivity.
  rewrite flat_elem. cbn [skip].
  assert (K : forall rest, skip (m :: o :: open) (flats ks ++ rest) = skip (m :: o :: open) rest).
  { clear rest. induction IH as [|y l Hy Hl IHl]; intros rest; [reflexivity|].
    rewrite flats_cons, <- app_assoc, Hy. apply IHl. }
  rewrite K. cbn [skip]. rewrite String.eqb_refl. reflexivity.
Qed.
Lemma skip_elem m ks rest : skip [m] (flats ks ++ EEnd m :: rest) = XOk tt rest.
Proof.
  assert (K : forall rest, skip [m] (flats ks ++ rest) = skip [m] rest).
  { clear rest. induction ks as [|y l IH]; intros rest; [reflexivity|].
    rewrite flats_cons, <- app_assoc, skip_flat. apply IH. }
  rewrite K. cbn [skip]. rewrite String.eqb_refl. reflexivity.
Qed.

Lemma agree_xbind {A B} (t : tres A) x rest (f : A -> tres B) g :
  agree t x rest -> (forall a, agree (f a) (g a rest) rest) -> agree (tbind t f) (xbind x g) rest.
Proof. intros H K. destruct t; cbn in *; try rewrite H; cbn; auto. Qed.

Section LOOP_LAW.
  Context {S : Type}.
  Variable p : policy.
  Variable tarm : string -> option (attrs -> list xml -> tres (S -> option S)).
  Variable arm : string -> option (attrs -> list event -> xres (S -> option S)).
  Variable chars : option (string -> S -> S).
  Variable n : string.
  Hypothesis Harm : forall m,
    match tarm m, arm m with
    | None, None => True
    | Some r, Some q => forall ats ks rest, agree (r ats ks) (q ats (flats ks ++ EEnd m :: rest)) rest
    | _, _ => False
    end.

  Definition goes_on (t : tres S) (evs rest : list event) (fuel : nat) (st : S) : Prop :=
    match t with
    | TOk st' => exists fuel', loop p arm chars n fuel evs st = loop p arm chars n fuel' rest st' /\
                               List.length rest < fuel'
    | TErr => loop p arm chars n fuel evs st = XErr
    | TUnk => True
    end.

  Lemma absorb1_law x : forall st rest fuel,
    List.length (flat x ++ rest) < fuel -> goes_on (absorb1 p tarm chars n x st) (flat x ++ rest) rest fuel st.
  Proof.
    induction x as [m ats ks IH|s|s|] using xml_ind'; intros st rest fuel L.
    - rewrite flat_elem in *. cbn [List.length] in L. rewrite app_length in L. cbn [List.length] in L.
      destruct fuel as [|fuel]; [lia|].
      cbn [absorb1]. specialize (Harm m).
      destruct (tarm m) as [r|] eqn:Et, (arm m) as [q|] eqn:Ea; try contradiction.
      + specialize (Harm ats ks rest). unfold goes_on. cbn [loop]. rewrite Ea.
        destruct (r ats ks) as [u| |]; cbn in Harm |- *; try exact I; try rewrite Harm; cbn; try reflexivity.
        destruct (u st) as [st'|]; cbn; [|reflexivity].
        exists fuel. split; [reflexivity|lia].
      + unfold goes_on. cbn [loop]. rewrite Ea. destruct p eqn:Ep.
        * reflexivity.
        * exists fuel. rewrite skip_elem. cbn. split; [reflexivity|lia].
        * destruct (String.eqb_spec m n) as [->|Hm]; [exact I|].
          assert (K : forall st fuel, List.length (flats ks ++ EEnd m :: rest) < fuel ->
            match (fix go (l : list xml) (st : S) : tres S :=
               match l with [] => TOk st | y :: l' => tbind (absorb1 Open tarm chars n y st) (go l') end) ks st with
            | TOk st' => exists fuel', loop Open arm chars n fuel (flats ks ++ EEnd m :: rest) st = loop Open arm chars n fuel' rest st' /\
                               List.length rest < fuel'
            | TErr => loop Open arm chars n fuel (flats ks ++ EEnd m :: rest) st = XErr
            | TUnk => True
            end).
          { clear st fuel L. induction IH as [|y l Hy Hl IHl]; intros st fuel L.
            - cbn in *. destruct fuel as [|fuel]; [lia|]. exists fuel. cbn [loop].
              destruct (String.eqb_spec m n); [contradiction|]. split; [reflexivity|lia].
            - rewrite flats_cons, <- app_assoc in *.
              specialize (Hy st (flats l ++ EEnd m :: rest) fuel L). unfold goes_on in Hy. rewrite Ep in Hy.
              destruct (absorb1 Open tarm chars n y st) as [st'| |]; cbn [tbind]; try exact I; try exact Hy.
              destruct Hy as (f' & E & L'). rewrite E. apply IHl. exact L'. }
          apply K. rewrite app_length. cbn. lia.
    - destruct fuel as [|fuel]; [cbn in L; lia|].
      unfold goes_on. cbn [absorb1 flat app loop] in *. cbn [List.length] in L.
      destruct chars as [u|].
      + exists fuel. split; [reflexivity|lia].
      + destruct p; try reflexivity. exists fuel. split; [reflexivity|lia].
    - destruct fuel as [|fuel]; [cbn in L; lia|].
      unfold goes_on. cbn [absorb1 flat app loop] in *. cbn [List.length] in L.
      destruct p; try reflexivity. exists fuel. split; [reflexivity|lia].
    - destruct fuel as [|fuel]; [cbn in L; lia|].
      unfold goes_on. cbn [absorb1 flat app loop] in *. cbn [List.length] in L.
      destruct p; try reflexivity. exists fuel. split; [reflexivity|lia].
  Qed.
  Lemma absorb_law ks : forall st rest fuel,
    List.length (flats ks ++ EEnd n :: rest) < fuel ->
    agree (absorb p tarm chars n ks st) (loop p arm chars n fuel (flats ks ++ EEnd n :: rest) st) rest.
  Proof.
    induction ks as [|y l IH]; intros st rest fuel L.
    - cbn in L |- *. destruct fuel as [|fuel]; [lia|]. cbn [loop]. rewrite String.eqb_refl. reflexivity.
    - rewrite flats_cons, <- app_assoc in *. cbn [absorb].
      pose proof (absorb1_law y st (flats l ++ EEnd n :: rest) fuel L) as H. unfold goes_on in H.
      destruct (absorb1 p tarm chars n y st) as [st'| |]; cbn [tbind agree]; try exact I; try exact H.
      destruct H as (f' & E & L'). rewrite E. apply IH. exact L'.
  Qed.
  Variable odd : list event -> xres (S -> S).
  Lemma odd_law ks : forall st rest fuel,
    List.length (flats ks ++ EEnd n :: rest) < fuel ->
    agree (odd_absorb tarm ks st) (odd_loop arm n odd fuel (flats ks ++ EEnd n :: rest) st) rest.
  Proof.
    induction ks as [|y l IH]; intros st rest fuel L.
    - cbn in L |- *. destruct fuel as [|fuel]; [lia|]. cbn [odd_loop]. rewrite String.eqb_refl. reflexivity.
    - rewrite flats_cons, <- app_assoc in *.
      destruct y as [m ats ks|s|s|]; cbn [odd_absorb]; try exact I.
      rewrite flat_elem in *. cbn [List.length] in L. rewrite !app_length in L. cbn [List.length] in L.
      rewrite ?app_length in L. cbn [List.length] in L.
      destruct fuel as [|fuel]; [lia|]. cbn [odd_loop].
      specialize (Harm m).
      destruct (tarm m) as [r|] eqn:Et, (arm m) as [q|] eqn:Ea; try contradiction; [|exact I].
      specialize (Harm ats ks (flats l ++ EEnd n :: rest)).
      destruct (r ats ks) as [u| |]; cbn in Harm |- *; try exact I; try rewrite Harm; cbn; try reflexivity.
      destruct (u st) as [st'|]; cbn; [|reflexivity].
      apply IH. rewrite app_length. cbn. lia.
  Qed.
End LOOP_LAW.

Lemma prim_law {A} (p : prim A) n kids rest :
  agree (tr_prim p kids) (run_prim p n (flats kids ++ EEnd n :: rest)) rest.
Proof.
  destruct p; cbn [tr_prim run_prim];
    (destruct kids as [|[m ats ks|s|s|] [|y l]];
     [ cbn; rewrite ?String.eqb_refl; reflexivity | .. ]);
    try (rewrite flats_cons, <- app_assoc, ?flat_elem; reflexivity);
    try (cbn; rewrite ?String.eqb_refl; reflexivity);
    try (rewrite 2!flats_cons, <- !app_assoc; destruct y; rewrite ?flat_elem; reflexivity).
Qed.

Scheme desc_mut := Induction for desc Sort Prop
  with shape_mut := Induction for shape Sort Prop.

Lemma agree_xmap {A B} (f : A -> B) t x rest : agree t x rest -> agree (tmap f t) (xmap f x) rest.
Proof. intros H. apply agree_xbind; [exact H|]. intros a. reflexivity. Qed.

Definition arm_law {S} (sh : shape S) : Prop := forall m,
  match tr_arm sh m, run_arm sh m with
  | None, None => True
  | Some r, Some q => forall ats ks rest, agree (r ats ks) (q ats (flats ks ++ EEnd m :: rest)) rest
  | _, _ => False
  end.

Theorem run_tr {A} (d : desc A) : forall n ats kids rest,
  agree (tr d n ats kids) (run d n ats (flats kids ++ EEnd n :: rest)) rest.
Proof.
  induction d using desc_mut with (P0 := fun S sh => arm_law sh).
  - intros n ats kids rest. apply prim_law.
  - intros n ats kids rest. cbn [tr run]. apply agree_xbind; [apply IHd|].
    intros a. destruct (f n ats a); reflexivity.
  - intros n ats kids rest. cbn [tr run]. apply absorb_law; [exact IHd|lia].
  - intros n ats kids rest. cbn [tr run]. apply odd_law; [exact IHd|lia].
  - intros n ats kids rest. exact I.
  - intros m. exact I.
  - intros m. cbn [tr_arm run_arm]. destruct (String.eqb m tag); [|exact I].
    intros ats ks rest. apply agree_xmap, IHd.
  - intros m. exact I.
  - intros m. cbn [tr_arm run_arm]. specialize (IHd m). specialize (IHd0 m).
    destruct (tr_arm a m), (run_arm a m); try contradiction; [exact IHd|exact IHd0].
  - intros m. cbn [tr_arm run_arm]. specialize (IHd m). specialize (IHd0 m).
    destruct (tr_arm a m), (run_arm a m); try contradiction.
    + intros ats ks rest. apply agree_xmap, IHd.
    + destruct (tr_arm b m), (run_arm b m); try contradiction; [|exact I].
      intros ats ks rest. apply agree_xmap, IHd0.
Qed.

(** the depth of a document bounds the number of nested readers *)
Fixpoint height (x : xml) : nat :=
  match x with
  | Elem _ _ ks => S ((fix go (l : list xml) := match l with [] => 0 | y :: l' => Nat.max (height y) (go l') end) ks)
  | _ => 0
  end.
Lemma height_in n ats ks y : In y ks -> height y < height (Elem n ats ks).
Proof.
  intros H. cbn [height]. induction ks as [|z l IH]; [contradiction|].
  destruct H as [->|H]; [lia|]. specialize (IH H). lia.
Qed.

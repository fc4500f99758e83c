(** Lemmas about the command line parser, used by CliProps.v *)
From Verif Require Import Base Strings ModelTypes ConfigModel GenModel JsonModel RunModel GenSpec CliModel CliSpec.
From Coq Require Import Lia.
Open Scope string_scope.
Open Scope list_scope.

Lemma split_at c k r : contains_char c k = false -> split_once c (k ++ String c r)%string = Some (k, r).
Proof.
  induction k as [|a k IH]; cbn [append split_once contains_char].
  - intros _. now rewrite Ascii.eqb_refl.
  - intros H. apply orb_false_iff in H as [-> H]. now rewrite (IH H).
Qed.
Lemma split_absent c s : contains_char c s = false -> split_once c s = None.
Proof.
  induction s as [|a s IH]; cbn [split_once contains_char]; [reflexivity|]. intros H. apply orb_false_iff in H as [-> H]. now rewrite (IH H).
Qed.

Ltac in_table H := cbn [table In] in H; repeat match goal with H : _ \/ _ |- _ => destruct H as [H|H] end; try contradiction; try discriminate H.
Lemma long_flag_find o n : long_flag o n -> find_long n = Some o /\ takes_value o = false /\ contains_char "=" n = false /\ n <> "".
Proof. intros [c H]. in_table H; injection H as <- <- <-; repeat split; discriminate. Qed.
Lemma long_valued_find o n : long_valued o n -> find_long n = Some o /\ takes_value o = true /\ contains_char "=" n = false /\ n <> "".
Proof. intros [c H]. in_table H; injection H as <- <- <-; repeat split; discriminate. Qed.
Lemma short_flag_find o c : short_flag o c -> find_short c = Some o /\ takes_value o = false /\ c <> "-"%char.
Proof. intros [n H]. in_table H; injection H as <- <- <-; repeat split; discriminate. Qed.
Lemma short_valued_find o c : short_valued o c -> find_short c = Some o /\ takes_value o = true /\ c <> "-"%char.
Proof. intros [n H]. in_table H; injection H as <- <- <-; repeat split; discriminate. Qed.

Lemma table_has o : In (o, long_of o, short_of o, takes_value o) table.
Proof. destruct o; cbn; tauto. Qed.
Lemma find_long_named n o : find_long n = Some o -> n = long_of o.
Proof. intros H. apply find_some in H as [_ H]. apply String.eqb_eq in H. now symmetry. Qed.
Lemma find_short_named c o : find_short c = Some o -> short_of o = Some c.
Proof. intros H. apply find_some in H as [_ H]. destruct (short_of o); [|discriminate]. apply Ascii.eqb_eq in H. now subst. Qed.
Lemma find_long_flag n o : find_long n = Some o -> takes_value o = false -> long_flag o n.
Proof. intros H V. apply find_long_named in H as ->. exists (short_of o). rewrite <- V. apply table_has. Qed.
Lemma find_long_valued n o : find_long n = Some o -> takes_value o = true -> long_valued o n.
Proof. intros H V. apply find_long_named in H as ->. exists (short_of o). rewrite <- V. apply table_has. Qed.
Lemma find_short_flag c o : find_short c = Some o -> takes_value o = false -> short_flag o c.
Proof. intros H V. apply find_short_named in H. exists (long_of o). rewrite <- V, <- H. apply table_has. Qed.
Lemma find_short_valued c o : find_short c = Some o -> takes_value o = true -> short_valued o c.
Proof. intros H V. apply find_short_named in H. exists (long_of o). rewrite <- V, <- H. apply table_has. Qed.

Lemma plain_is v : plain v <-> is_value v = true.
Proof.
  unfold plain, is_value. rewrite orb_true_iff, negb_true_iff, String.eqb_eq. split.
  - intros [->|H]; [now right|]. left. destruct (starts_with "-" v) eqn:E; [|reflexivity]. apply starts_with_spec in E as [r ->]. now destruct (H r).
  - intros [H| ->]; [|now left]. right. intros r ->. assert (E : starts_with "-" ("-" ++ r)%string = true) by (apply starts_with_spec; now exists r).
    rewrite E in H. discriminate H.
Qed.

(** One word of short options *)
Lemma cluster_letters l w x : letters l w ->
  cluster (w ++ x)%string = match cluster x with Some (f, p) => Some (bare l ++ f, p) | None => None end.
Proof.
  induction 1 as [|o c l w F L IH]; cbn [append bare map app].
  - destruct (cluster x) as [[? ?]|]; reflexivity.
  - cbn [cluster]. destruct (short_flag_find _ _ F) as (-> & -> & _). rewrite IH. destruct (cluster x) as [[? ?]|]; reflexivity.
Qed.
Lemma cluster_valued o c r : short_valued o c ->
  cluster (String c r) = match r with
                         | "" => Some ([], Some o)
                         | String "=" v => Some ([(o, v)], None)
                         | _ => Some ([(o, r)], None)
                         end%string.
Proof. intros H. cbn [cluster]. destruct (short_valued_find _ _ H) as (-> & -> & _). reflexivity. Qed.
Lemma attached_value o v : v <> "" -> (forall r, v <> ("=" ++ r)%string) ->
  match v with
  | "" => Some ([], Some o)
  | String "=" v => Some ([(o, v)], None)
  | _ => Some ([(o, v)], None)
  end%string = Some ([(o, v)], @None opt).
Proof.
  destruct v as [|a v]; [easy|]. intros _ H. destruct (Ascii.eqb_spec a "="%char) as [->|N]; [now destruct (H v)|].
  destruct a as [[] [] [] [] [] [] [] []]; try reflexivity. now destruct N.
Qed.
Lemma cluster_sound s f p : cluster s = Some (f, p) ->
  exists l w, letters l w /\
    ((s = w /\ f = bare l /\ p = None)
     \/ exists o c, short_valued o c /\
        ((s = (w ++ String c "")%string /\ f = bare l /\ p = Some o)
         \/ exists v, f = bare l ++ [(o, v)] /\ p = None /\
              ((s = (w ++ String c v)%string /\ v <> "" /\ forall r, v <> ("=" ++ r)%string) \/ s = (w ++ String c ("=" ++ v))%string))).
Proof.
  revert f p. induction s as [|c s IH]; cbn [cluster]; intros f p H.
  - injection H as <- <-. exists [], "". split; [constructor|now left].
  - destruct (find_short c) as [o|] eqn:F; [|discriminate]. destruct (takes_value o) eqn:V.
    + pose proof (find_short_valued _ _ F V) as K. exists [], "". split; [constructor|]. right. exists o, c. split; [assumption|].
      destruct s as [|a v]; [injection H as <- <-; now left|]. right. destruct (Ascii.eqb_spec a "="%char) as [->|N].
      * injection H as <- <-. exists v. repeat split; auto.
      * exists (String a v). assert (Q : Some ([(o, String a v)], @None opt) = Some (f, p)).
        { rewrite <- H. destruct a as [[] [] [] [] [] [] [] []]; try reflexivity. now destruct N. }
        injection Q as <- <-. repeat split; auto. left. repeat split; [discriminate|]. cbn. congruence.
    + destruct (cluster s) as [[f' p']|]; [|discriminate]. injection H as <- <-. destruct (IH _ _ eq_refl) as (l & w & L & C).
      exists (o :: l), (String c w). split; [constructor; [now apply find_short_flag|assumption]|].
      destruct C as [(-> & -> & ->)|(o' & c' & K & [(-> & -> & ->)|(v & -> & -> & C)])].
      * now left.
      * right. exists o', c'. split; [assumption|]. now left.
      * right. exists o', c'. split; [assumption|]. right. exists v. split; [reflexivity|]. split; [reflexivity|].
        destruct C as [(-> & N & M)| ->]; [now left|now right].
Qed.

(** The options written, as the parser finds them *)
Definition after_value (rest : list string) (o : opt) (before : list (opt * string)) :=
  match rest with
  | v :: rest' => if is_value v then option_map (fun s => before ++ (o, v) :: s) (lex rest') else None
  | [] => None
  end.
Lemma lex_cons a rest : lex (a :: rest) =
  if String.eqb a "--" then match rest with [] => Some [] | _ => None end
  else if starts_with "--" a then
    let '(name, attached) := match split_once "=" (drop 2 a) with Some (n, v) => (n, Some v) | None => (drop 2 a, None) end in
    match find_long name with
    | None => None
    | Some o =>
        if takes_value o then
          match attached with
          | Some v => option_map (cons (o, v)) (lex rest)
          | None => after_value rest o []
          end
        else match attached with None => option_map (cons (o, "")) (lex rest) | Some _ => None end
    end
  else if starts_with "-" a && negb (String.eqb a "-") then
    match cluster (drop 1 a) with
    | Some (flags, Some o) => after_value rest o flags
    | Some (flags, None) => option_map (app flags) (lex rest)
    | None => None
    end
  else None.
Proof. destruct rest; reflexivity. Qed.

Lemma long_word n : n <> "" -> String.eqb ("--" ++ n)%string "--" = false /\ starts_with "--" ("--" ++ n)%string = true /\ drop 2 ("--" ++ n)%string = n.
Proof. intros N. repeat split; try (destruct n; [easy|reflexivity]). Qed.
Lemma lex_long n rest : n <> "" -> lex (("--" ++ n)%string :: rest) =
    let '(name, attached) := match split_once "=" n with Some (n, v) => (n, Some v) | None => (n, None) end in
    match find_long name with
    | None => None
    | Some o =>
        if takes_value o then
          match attached with
          | Some v => option_map (cons (o, v)) (lex rest)
          | None => after_value rest o []
          end
        else match attached with None => option_map (cons (o, "")) (lex rest) | Some _ => None end
    end.
Proof. intros N. destruct (long_word n N) as (E1 & E2 & E3). rewrite lex_cons, E1, E2, E3. reflexivity. Qed.
Lemma lex_short c w rest : c <> "-"%char -> lex (("-" ++ String c w)%string :: rest) =
    match cluster (String c w) with
    | Some (flags, Some o) => after_value rest o flags
    | Some (flags, None) => option_map (app flags) (lex rest)
    | None => None
    end.
Proof.
  intros N. rewrite lex_cons.
  assert (E1 : String.eqb ("-" ++ String c w)%string "--" = false).
  { cbn. destruct (Ascii.eqb_spec c "-"%char); [contradiction|]. destruct c as [[] [] [] [] [] [] [] []]; try reflexivity; now destruct N. }
  assert (E2 : starts_with "--" ("-" ++ String c w)%string = false).
  { destruct (starts_with "--" _) eqn:E; [|reflexivity]. apply starts_with_spec in E as [r E]. injection E as E _. contradiction. }
  assert (E3 : starts_with "-" ("-" ++ String c w)%string = true) by (apply starts_with_spec; now exists (String c w)).
  rewrite E1, E2, E3. reflexivity.
Qed.
Lemma letters_first l w x : letters l w -> (l <> [] \/ exists o c v, short_valued o c /\ x = String c v) ->
  exists c r, (w ++ x)%string = String c r /\ c <> "-"%char.
Proof.
  intros [|o c l' w' F L] H.
  - destruct H as [H|(o & c & v & K & ->)]; [easy|]. exists c, v. split; [reflexivity|]. now apply short_valued_find in K.
  - exists c, (w' ++ x)%string. split; [reflexivity|]. now apply short_flag_find in F.
Qed.

Lemma written_lex args s : written args s -> lex args = Some s.
Proof.
  induction 1 as [| |o n rest s F W IH|o n v rest s F W IH|o n v rest s F P W IH|l w rest s N L W IH|l w o c v rest s L K N M W IH
                  |l w o c v rest s L K W IH|l w o c v rest s L K P W IH]; try reflexivity.
  - destruct (long_flag_find _ _ F) as (A & B & C & D). rewrite (lex_long _ _ D), (split_absent _ _ C), A, B, IH. reflexivity.
  - destruct (long_valued_find _ _ F) as (A & B & C & D). rewrite lex_long by (destruct n; discriminate || easy).
    change ("=" ++ v)%string with (String "=" v). rewrite (split_at _ _ _ C), A, B, IH. reflexivity.
  - destruct (long_valued_find _ _ F) as (A & B & C & D). rewrite (lex_long _ _ D), (split_absent _ _ C), A, B. cbn [after_value].
    apply plain_is in P. rewrite P, IH. reflexivity.
  - destruct (letters_first l w "" L (or_introl N)) as (c & r & E & Nc). rewrite <- (append_nil_r w). rewrite E, (lex_short _ _ _ Nc), <- E, (cluster_letters _ _ _ L), IH. cbn. now rewrite app_nil_r.
  - destruct (letters_first l w (String c v) L (or_intror (ex_intro _ o (ex_intro _ c (ex_intro _ v (conj K eq_refl)))))) as (c' & r & E & Nc).
    rewrite E, (lex_short _ _ _ Nc), <- E, (cluster_letters _ _ _ L), (cluster_valued _ _ _ K), (attached_value _ _ N M), IH. cbn. now rewrite <- app_assoc.
  - destruct (letters_first l w (String c ("=" ++ v)) L (or_intror (ex_intro _ o (ex_intro _ c (ex_intro _ _ (conj K eq_refl)))))) as (c' & r & E & Nc).
    rewrite E, (lex_short _ _ _ Nc), <- E, (cluster_letters _ _ _ L), (cluster_valued _ _ _ K), IH. cbn. now rewrite <- app_assoc.
  - destruct (letters_first l w (String c "") L (or_intror (ex_intro _ o (ex_intro _ c (ex_intro _ _ (conj K eq_refl)))))) as (c' & r & E & Nc).
    rewrite E, (lex_short _ _ _ Nc), <- E, (cluster_letters _ _ _ L), (cluster_valued _ _ _ K). rewrite app_nil_r. cbn [after_value].
    apply plain_is in P. rewrite P, IH. reflexivity.
Qed.

Lemma lex_written n : forall args s, List.length args <= n -> lex args = Some s -> written args s.
Proof.
  induction n as [|n IH]; intros args s Len H.
  - destruct args; [|cbn in Len; lia]. injection H as <-. constructor.
  - destruct args as [|a rest]; [injection H as <-; constructor|]. rewrite lex_cons in H.
    assert (Len1 : List.length rest <= n) by (cbn in Len; lia).
    assert (AV : forall o f s, after_value rest o f = Some s ->
              exists v rest' s', rest = v :: rest' /\ plain v /\ written rest' s' /\ s = f ++ (o, v) :: s').
    { intros o f s0 E. destruct rest as [|v rest']; [discriminate|]. cbn [after_value] in E. destruct (is_value v) eqn:V; [|discriminate].
      destruct (lex rest') as [s'|] eqn:L; [|discriminate]. injection E as <-. exists v, rest', s'. repeat split; [now apply plain_is|].
      apply IH; [cbn in Len1; lia|assumption]. }
    destruct (String.eqb a "--") eqn:E1.
    { apply String.eqb_eq in E1 as ->. destruct rest; [|discriminate]. injection H as <-. constructor. }
    destruct (starts_with "--" a) eqn:E2.
    { apply starts_with_spec in E2 as [w ->]. change (drop 2 ("--" ++ w)) with w in H.
      destruct (split_once "=" w) as [[nm v]|] eqn:S.
      - apply split_once_spec in S as [-> S]. destruct (find_long nm) as [o|] eqn:F; [|discriminate]. destruct (takes_value o) eqn:V; [|discriminate].
        destruct (lex rest) as [s'|] eqn:L; [|discriminate]. injection H as <-. apply (w_equals o nm v); [now apply find_long_valued|]. now apply IH.
      - destruct (find_long w) as [o|] eqn:F; [|discriminate]. destruct (takes_value o) eqn:V.
        + apply AV in H as (v & rest' & s' & -> & P & W & ->). apply w_next; [now apply find_long_valued|assumption|assumption].
        + destruct (lex rest) as [s'|] eqn:L; [|discriminate]. injection H as <-. apply w_flag; [now apply find_long_flag|]. now apply IH. }
    destruct (starts_with "-" a) eqn:E3; [|discriminate]. destruct (String.eqb a "-") eqn:E4; [discriminate|]. cbn [andb negb] in H.
    apply starts_with_spec in E3 as [w ->]. change (drop 1 ("-" ++ w)) with w in H.
    destruct (cluster w) as [[f p]|] eqn:C; [|discriminate]. apply cluster_sound in C as (l & u & L & [(-> & -> & ->)|(o & c & K & [(-> & -> & ->)|(v & -> & -> & D)])]).
    + destruct (lex rest) as [s'|] eqn:X; [|discriminate]. injection H as <-. apply w_letters; [|assumption|now apply IH].
      intros ->. inversion L; subst. discriminate E4.
    + apply AV in H as (v & rest' & s' & -> & P & W & ->). now apply w_short_next.
    + destruct (lex rest) as [s'|] eqn:X; [|discriminate]. injection H as <-. rewrite <- app_assoc. cbn [app].
      destruct D as [(-> & N & M)| ->]; [apply w_attached|apply w_attached_equals]; auto.
Qed.
Lemma lex_iff args s : lex args = Some s <-> written args s.
Proof. split; [now apply (lex_written (List.length args))|apply written_lex]. Qed.

(** What the options mean *)
Lemma given_values o s : given o s (values o s).
Proof.
  induction s as [|[o' v] s IH]; unfold values in *; cbn [filter map fst snd]; [constructor|].
  destruct (opt_eq_dec o' o) as [->|N]; cbn [map snd]; constructor; assumption.
Qed.
Lemma given_iff o s l : given o s l <-> values o s = l.
Proof.
  split; [|intros <-; apply given_values]. induction 1 as [|v s l G IH|o' v s l N G IH]; unfold values in *; cbn [filter map fst snd]; [reflexivity| |].
  - destruct (opt_eq_dec o o) as [_|N]; [cbn [map snd]; now rewrite IH|easy].
  - destruct (opt_eq_dec o' o) as [E|_]; [easy|assumption].
Qed.
Lemma once_iff o s x : single o s = Some x <-> at_most_once o s x.
Proof. unfold single, at_most_once. destruct x as [v|]; rewrite given_iff; destruct (values o s) as [|a [|b l]]; split; intros H; try discriminate H; now injection H as <- || reflexivity. Qed.
Lemma switched_iff o s b : flag o s = Some b <-> switched o s b.
Proof.
  unfold flag, switched. destruct b.
  - split; [|intros [v H]; apply given_iff in H as ->; reflexivity]. destruct (values o s) as [|a [|? ?]] eqn:E; try discriminate. intros _. exists a. now apply given_iff.
  - rewrite given_iff. destruct (values o s) as [|a [|? ?]]; split; intros H; try discriminate H; reflexivity.
Qed.
Lemma chosen_iff {A} o (f : string -> option A) (R : string -> A -> Prop) s x :
  (forall v a, f v = Some a <-> R v a) ->
  ((exists y, single o s = Some y /\ parsed f y = Some x) <-> chosen o R s x).
Proof.
  intros FR. unfold chosen. split.
  - intros ([v|] & S & P); apply once_iff in S; cbn in S, P.
    + destruct (f v) as [a|] eqn:E; [|discriminate]. injection P as <-. exists v. split; [assumption|]. now apply FR.
    + injection P as <-. assumption.
  - destruct x as [a|].
    + intros (v & G & H). exists (Some v). split; [now apply once_iff|]. cbn. apply FR in H. now rewrite H.
    + intros G. exists None. split; [now apply once_iff|reflexivity].
Qed.
Lemma counted_iff o s n : count o s = n <-> counted o s n.
Proof.
  unfold count, counted. split.
  - intros <-. exists (values o s). split; [apply given_values|]. lia.
  - intros (l & G & A & B). apply given_iff in G as ->. lia.
Qed.
Lemma format_word_iff v f : format_of_str v = Some f <-> format_word v f.
Proof.
  unfold format_of_str, format_word. split.
  - destruct (String.eqb_spec v "xml"); [intros [= <-]; auto|]. destruct (String.eqb_spec v "json"); [intros [= <-]; auto|discriminate].
  - intros [[-> ->]|[-> ->]]; reflexivity.
Qed.
Lemma describe_word_iff v f : describe_of_str v = Some f <-> describe_word v f.
Proof.
  unfold describe_of_str, describe_word. split.
  - repeat match goal with |- context [String.eqb ?a ?b] => destruct (String.eqb_spec a b); [intros [= <-]; auto|] end. discriminate.
  - intros [[-> ->]|[[-> ->]|[-> ->]]]; reflexivity.
Qed.
Lemma version_word_iff v f : version_of_text v = Some f <-> version_word v f.
Proof.
  unfold version_of_text, version_word. split.
  - repeat match goal with |- context [String.eqb ?a ?b] => destruct (String.eqb_spec a b); [intros [= <-]; auto|] end. discriminate.
  - intros [[-> ->]|[[-> ->]|[-> ->]]]; reflexivity.
Qed.
Lemma path_word_iff v p : path_of_str v = Some p <-> path_word v p.
Proof.
  unfold path_of_str, path_word. destruct (String.eqb_spec v ""); split; try discriminate.
  - easy.
  - now intros [= <-].
  - now intros [_ ->].
Qed.

Lemma build_asks s r : build s = Some r -> asks s r.
Proof.
  unfold build. intros H.
  repeat match type of H with
  | (match ?m with Some _ => _ | None => None end) = _ => let E := fresh "E" in destruct m eqn:E; [|discriminate H]
  end.
  match type of H with (if ?c then _ else _) = _ => destruct c eqn:C; [discriminate H|] end. injection H as <-.
  apply orb_false_iff in C as [C1 C2].
  constructor; cbn; try (apply switched_iff; assumption); try apply given_values; try (apply once_iff; assumption); try (apply counted_iff; reflexivity).
  - apply (chosen_iff _ _ _ _ _ path_word_iff). eauto.
  - apply (chosen_iff _ _ _ _ _ format_word_iff). eauto.
  - apply (chosen_iff _ _ _ _ _ describe_word_iff). eauto.
  - apply (chosen_iff _ _ _ _ _ version_word_iff). eauto.
  - now apply andb_false_iff.
  - match goal with |- ?a = None \/ ?b = None => destruct a; [right; destruct b; [discriminate C2|reflexivity]|now left] end.
Qed.
Lemma asks_build s r : asks s r -> build s = Some r.
Proof.
  intros [A1 A2 A3 A4 A5 A6 A7 A8 A9 A10 A11 A12 A13 A14 A15 A16 A17 A18 A19].
  apply (chosen_iff _ _ _ _ _ path_word_iff) in A1 as (y1 & S1 & P1). apply (chosen_iff _ _ _ _ _ format_word_iff) in A2 as (y2 & S2 & P2).
  apply (chosen_iff _ _ _ _ _ describe_word_iff) in A3 as (y3 & S3 & P3). apply (chosen_iff _ _ _ _ _ version_word_iff) in A16 as (y4 & S4 & P4).
  apply counted_iff in A4. apply counted_iff in A5. apply switched_iff in A6. apply switched_iff in A7. apply given_iff in A8. apply once_iff in A9.
  apply switched_iff in A10. apply switched_iff in A11. apply switched_iff in A12. apply once_iff in A13. apply switched_iff in A14.
  apply given_iff in A15. apply switched_iff in A17.
  unfold build. rewrite S1, P1, S2, P2, S3, P3, A6, A7, A9, A10, A11, A12, A13, A14, S4, P4, A17, A4, A5, A8, A15.
  assert (C1 : a_all (o_args r) && a_top_level (o_args r) = false) by (destruct A18 as [-> | ->]; [reflexivity|apply andb_false_r]).
  assert (C2 : match a_filename_override (o_args r), a_describe (o_args r) with Some _, Some _ => true | _, _ => false end = false)
    by (destruct A19 as [-> | ->]; [reflexivity|now destruct (a_filename_override _)]).
  rewrite C1, C2. cbn [orb]. destruct r as [[] ? ? ?]. reflexivity.
Qed.
Lemma build_iff s r : build s = Some r <-> asks s r.
Proof. split; [apply build_asks|apply asks_build]. Qed.

Lemma values_app o a b : values o (a ++ b) = values o a ++ values o b.
Proof. unfold values. now rewrite filter_app, map_app. Qed.
Lemma build_values a b : (forall o, values o a = values o b) -> build a = build b.
Proof. intros H. unfold build, single, flag, count. now rewrite !H. Qed.
Lemma values_absent o s : ~ In o (map fst s) -> values o s = [].
Proof.
  induction s as [|[o' v] s IH]; cbn; [reflexivity|]. intros N. unfold values in *. cbn [filter fst].
  destruct (opt_eq_dec o' o); [tauto|]. apply IH. tauto.
Qed.
Lemma values_swap x y : (forall o, In o (map fst x) -> In o (map fst y) -> False) -> forall o, values o (x ++ y) = values o (y ++ x).
Proof.
  intros D o. rewrite !values_app. destruct (in_dec opt_eq_dec o (map fst x)) as [I|N].
  - rewrite (values_absent o y) by (intros J; now apply (D o)). now rewrite app_nil_r.
  - rewrite (values_absent o x) by assumption. now rewrite app_nil_r.
Qed.
Lemma written_app a b s t : written a s -> ~ In "--" a -> written b t -> written (a ++ b) (s ++ t).
Proof.
  intros W. revert b t. induction W; intros b t N Wb; cbn [app] in *; try rewrite <- app_assoc; cbn [app]; try (constructor; auto; apply IHW; firstorder; fail).
  - assumption.
  - destruct N. now left.
Qed.
Lemma written_prefix a b u : written (a ++ b) u -> forall s, written a s -> ~ In "--" a -> exists t, written b t /\ u = s ++ t.
Proof.
  intros W s Wa N. apply lex_iff in W. revert b u N W. induction Wa; intros b u N X; cbn [app In] in *.
  - exists u. split; [now apply lex_iff|reflexivity].
  - destruct N. now left.
  - destruct (long_flag_find _ _ H) as (A & B & C & D). rewrite (lex_long _ _ D), (split_absent _ _ C), A, B in X.
    destruct (lex (rest ++ b)) as [u'|] eqn:L; [|discriminate]. injection X as <-. destruct (IHWa b u' ltac:(tauto) L) as (t & W & ->). now exists t.
  - destruct (long_valued_find _ _ H) as (A & B & C & D). rewrite lex_long in X by (destruct n; discriminate || easy).
    change ("=" ++ v)%string with (String "=" v) in X. rewrite (split_at _ _ _ C), A, B in X.
    destruct (lex (rest ++ b)) as [u'|] eqn:L; [|discriminate]. injection X as <-. destruct (IHWa b u' ltac:(tauto) L) as (t & W & ->). now exists t.
  - destruct (long_valued_find _ _ H) as (A & B & C & D). rewrite (lex_long _ _ D), (split_absent _ _ C), A, B in X. cbn [after_value] in X.
    apply plain_is in H0. rewrite H0 in X.
    destruct (lex (rest ++ b)) as [u'|] eqn:L; [|discriminate]. injection X as <-. destruct (IHWa b u' ltac:(tauto) L) as (t & W & ->). now exists t.
  - destruct (letters_first l w "" H0 (or_introl H)) as (c & r & E & Nc). rewrite <- (append_nil_r w), E, (lex_short _ _ _ Nc), <- E, (cluster_letters _ _ _ H0) in X.
    cbn in X. rewrite app_nil_r in X. destruct (lex (rest ++ b)) as [u'|] eqn:L; [|discriminate]. injection X as <-. destruct (IHWa b u' ltac:(tauto) L) as (t & W & ->).
    exists t. split; [assumption|apply app_assoc].
  - destruct (letters_first l w (String c v) H (or_intror (ex_intro _ o (ex_intro _ c (ex_intro _ v (conj H0 eq_refl)))))) as (c' & r & E & Nc).
    rewrite E, (lex_short _ _ _ Nc), <- E, (cluster_letters _ _ _ H), (cluster_valued _ _ _ H0), (attached_value _ _ H1 H2) in X.
    destruct (lex (rest ++ b)) as [u'|] eqn:L; [|discriminate]. injection X as <-. destruct (IHWa b u' ltac:(tauto) L) as (t & W & ->).
    exists t. split; [assumption|]. now rewrite <- !app_assoc.
  - destruct (letters_first l w (String c ("=" ++ v)) H (or_intror (ex_intro _ o (ex_intro _ c (ex_intro _ _ (conj H0 eq_refl)))))) as (c' & r & E & Nc).
    rewrite E, (lex_short _ _ _ Nc), <- E, (cluster_letters _ _ _ H), (cluster_valued _ _ _ H0) in X. cbn [append] in X.
    destruct (lex (rest ++ b)) as [u'|] eqn:L; [|discriminate]. injection X as <-. destruct (IHWa b u' ltac:(tauto) L) as (t & W & ->).
    exists t. split; [assumption|]. now rewrite <- !app_assoc.
  - destruct (letters_first l w (String c "") H (or_intror (ex_intro _ o (ex_intro _ c (ex_intro _ _ (conj H0 eq_refl)))))) as (c' & r & E & Nc).
    rewrite E, (lex_short _ _ _ Nc), <- E, (cluster_letters _ _ _ H), (cluster_valued _ _ _ H0) in X. rewrite app_nil_r in X. cbn [after_value] in X.
    apply plain_is in H1. rewrite H1 in X.
    destruct (lex (rest ++ b)) as [u'|] eqn:L; [|discriminate]. injection X as <-. destruct (IHWa b u' ltac:(tauto) L) as (t & W & ->).
    exists t. split; [assumption|]. now rewrite <- !app_assoc.
Qed.

(** A command line for given options *)
Definition spell (e : opt * string) : string :=
  if takes_value (fst e) then ("--" ++ long_of (fst e) ++ "=" ++ snd e)%string else ("--" ++ long_of (fst e))%string.
Definition chunk (o : opt) (vs : list string) : list (opt * string) := map (fun v => (o, v)) vs.
Definition opt_list {A} (x : option A) : list A := match x with Some a => [a] | None => [] end.
Definition bool_list (b : bool) : list string := if b then [""] else [].
Definition format_name (f : format) : string := match f with FXml => "xml" | FJson => "json" end.
Definition describe_name (d : describe) : string :=
  match d with DCrate => "crate" | DBinaries => "binaries" | DAllCargoTargets => "all-cargo-targets" end.
Definition options_of (r : options) : list (opt * string) :=
  let a := o_args r in
  chunk OManifestPath (opt_list (o_manifest_path r)) ++ chunk OFormat (map format_name (opt_list (a_format a)))
  ++ chunk ODescribe (map describe_name (opt_list (a_describe a))) ++ chunk OVerbose (repeat "" (o_verbose r)) ++ chunk OQuiet (repeat "" (o_quiet r))
  ++ chunk OAllFeatures (bool_list (a_all_features a)) ++ chunk ONoDefaultFeatures (bool_list (a_no_default_features a))
  ++ chunk OFeatures (a_features a) ++ chunk OTarget (opt_list (a_target a)) ++ chunk OTargetInFilename (bool_list (a_target_in_filename a))
  ++ chunk OAll (bool_list (a_all a)) ++ chunk OTopLevel (bool_list (a_top_level a)) ++ chunk OOverrideFilename (opt_list (a_filename_override a))
  ++ chunk OLicenseStrict (bool_list (a_license_strict a)) ++ chunk OLicenseAcceptNamed (a_license_accept_named a)
  ++ chunk OSpecVersion (map version_text (opt_list (a_spec_version a))) ++ chunk ONoBuildDeps (bool_list (a_no_build_deps a)).
Lemma values_chunk o o' vs : values o (chunk o' vs) = if opt_eq_dec o' o then vs else [].
Proof.
  unfold values, chunk. induction vs as [|v vs IH]; cbn [map filter fst]; [now destruct (opt_eq_dec o' o)|].
  destruct (opt_eq_dec o' o); cbn [map snd]; [now rewrite IH|assumption].
Qed.
Lemma spell_written s : (forall o v, In (o, v) s -> takes_value o = false -> v = "") -> written (map spell s) s.
Proof.
  induction s as [|[o v] s IH]; intros H; [constructor|]. assert (W : written (map spell s) s) by (apply IH; intros o' v' I; apply (H o'); now right).
  cbn [map]. unfold spell at 1. cbn [fst snd]. destruct (takes_value o) eqn:V.
  - apply w_equals; [|assumption]. exists (short_of o). rewrite <- V. apply table_has.
  - rewrite (H o v (or_introl eq_refl) V). apply w_flag; [|assumption]. exists (short_of o). rewrite <- V. apply table_has.
Qed.
Lemma chunk_bare o vs : (takes_value o = false -> forall v, In v vs -> v = "") -> forall o' v, In (o', v) (chunk o vs) -> takes_value o' = false -> v = "".
Proof. intros H o' v I V. apply in_map_iff in I as (v' & [= <- <-] & I). now apply H. Qed.
Lemma options_of_bare r o v : In (o, v) (options_of r) -> takes_value o = false -> v = "".
Proof.
  unfold options_of. cbv zeta. intros I V. repeat rewrite in_app_iff in I. repeat match goal with I : _ \/ _ |- _ => destruct I as [I|I] end;
    (eapply chunk_bare; [|exact I|exact V]); intros E; try discriminate E; intros x J; try (apply repeat_spec in J; exact J); unfold bool_list in J;
    match type of J with In _ (if ?b then _ else _) => destruct b; [destruct J as [<-|[]]; reflexivity|destruct J] end.
Qed.
Lemma options_of_asks r : clap_accepts (o_args r) -> o_verbose r <= 255 -> o_quiet r <= 255 -> o_manifest_path r <> Some "" -> asks (options_of r) r.
Proof.
  intros [CA CB] V Q M.
  assert (G : forall o vs, values o (options_of r) = vs -> given o (options_of r) vs) by (intros o vs; apply given_iff).
  unfold options_of in G. cbv zeta in G.
  assert (G' : forall o, given o (options_of r) (match o with
     | OManifestPath => opt_list (o_manifest_path r) | OFormat => map format_name (opt_list (a_format (o_args r)))
     | ODescribe => map describe_name (opt_list (a_describe (o_args r))) | OVerbose => repeat "" (o_verbose r) | OQuiet => repeat "" (o_quiet r)
     | OAllFeatures => bool_list (a_all_features (o_args r)) | ONoDefaultFeatures => bool_list (a_no_default_features (o_args r))
     | OFeatures => a_features (o_args r) | OTarget => opt_list (a_target (o_args r)) | OTargetInFilename => bool_list (a_target_in_filename (o_args r))
     | OAll => bool_list (a_all (o_args r)) | OTopLevel => bool_list (a_top_level (o_args r)) | OOverrideFilename => opt_list (a_filename_override (o_args r))
     | OLicenseStrict => bool_list (a_license_strict (o_args r)) | OLicenseAcceptNamed => a_license_accept_named (o_args r)
     | OSpecVersion => map version_text (opt_list (a_spec_version (o_args r))) | ONoBuildDeps => bool_list (a_no_build_deps (o_args r)) end)).
  { intros o. apply G. rewrite !values_app, !values_chunk. destruct o; cbn; rewrite ?app_nil_r; reflexivity. }
  clear G. constructor.
  - specialize (G' OManifestPath). cbn in G'. destruct (o_manifest_path r) as [p|]; [|exact G']. exists p. split; [exact G'|]. split; congruence.
  - specialize (G' OFormat). cbn in G'. destruct (a_format (o_args r)) as [[]|]; [| |exact G']; eexists; (split; [exact G'|]); cbv; auto.
  - specialize (G' ODescribe). cbn in G'. destruct (a_describe (o_args r)) as [[]|]; [| | |exact G']; eexists; (split; [exact G'|]); cbv; auto.
  - eexists. split; [exact (G' OVerbose)|]. rewrite repeat_length. lia.
  - eexists. split; [exact (G' OQuiet)|]. rewrite repeat_length. lia.
  - specialize (G' OAllFeatures). cbn in G'. destruct (a_all_features (o_args r)); cbn; eauto.
  - specialize (G' ONoDefaultFeatures). cbn in G'. destruct (a_no_default_features (o_args r)); cbn; eauto.
  - exact (G' OFeatures).
  - specialize (G' OTarget). cbn in G'. destruct (a_target (o_args r)); exact G'.
  - specialize (G' OTargetInFilename). cbn in G'. destruct (a_target_in_filename (o_args r)); cbn; eauto.
  - specialize (G' OAll). cbn in G'. destruct (a_all (o_args r)); cbn; eauto.
  - specialize (G' OTopLevel). cbn in G'. destruct (a_top_level (o_args r)); cbn; eauto.
  - specialize (G' OOverrideFilename). cbn in G'. destruct (a_filename_override (o_args r)); exact G'.
  - specialize (G' OLicenseStrict). cbn in G'. destruct (a_license_strict (o_args r)); cbn; eauto.
  - exact (G' OLicenseAcceptNamed).
  - specialize (G' OSpecVersion). cbn in G'. destruct (a_spec_version (o_args r)) as [[]|]; [| | |exact G']; eexists; (split; [exact G'|]); cbv; auto.
  - specialize (G' ONoBuildDeps). cbn in G'. destruct (a_no_build_deps (o_args r)); cbn; eauto.
  - assumption.
  - assumption.
Qed.

(** Proofs about the result builder and the validators. *)
From Verif Require Import Base ModelTypes Strings Base64 Regex Enums ValModel ValSpec.
From Coq Require Import ZArith.
Open Scope string_scope.
Open Scope list_scope.
Open Scope nat_scope.

(** ** The builder *)
Fixpoint mem (k : string) (l : list string) : bool :=
  match l with [] => false | a :: l' => String.eqb a k || mem k l' end.
Fixpoint nodupb (l : list string) : bool :=
  match l with [] => true | a :: l' => negb (mem a l') && nodupb l' end.

Lemma mem_In k l : mem k l = true <-> In k l.
Proof.
  induction l as [|a l IH]; cbn; [split; [discriminate|tauto]|].
  rewrite orb_true_iff, IH, String.eqb_eq. tauto.
Qed.

(** what one builder call records *)
Definition slot_err (s : slot) : outcome (option verr) :=
  match s with
  | Skip => Done None
  | Field c => Done (match c with Some m => Some (ErrField [m]) | None => None end)
  | Enum c => Done (match c with Some m => Some (ErrEnum m) | None => None end)
  | Struct o => do x <- o; Done (if has_errors x then Some (ErrStruct x) else None)
  | Items l => do xs <- mapM (fun o => o) l;
               Done (match failing 0 xs with [] => None | es => Some (ErrList es) end)
  end.
Fixpoint collect (sl : list (string * slot)) : outcome vresult :=
  match sl with
  | [] => Done []
  | (k, s) :: sl' =>
      do e <- slot_err s; do r <- collect sl';
      Done (match e with Some e => (k, e) :: r | None => r end)
  end.

Lemma error_app r k e k' : error (r ++ [(k, e)]) k' =
  match error r k' with Some x => Some x | None => if String.eqb k k' then Some e else None end.
Proof.
  induction r as [|[k0 e0] r IH]; cbn [app error]; [reflexivity|].
  destruct (String.eqb k0 k'); [reflexivity|apply IH].
Qed.

Lemma add_slot_fresh k s r : error r k = None ->
  add_slot k s r = do e <- slot_err s; Done (match e with Some e => r ++ [(k, e)] | None => r end).
Proof.
  intros F. destruct s as [| [m|] | [m|] | o | l]; cbn [add_slot slot_err bind]; try reflexivity.
  - unfold r_add_field. rewrite F. reflexivity.
  - unfold r_add_enum. rewrite F. reflexivity.
  - destruct o as [y| | |]; cbn [bind]; try reflexivity. destruct (has_errors y); [|reflexivity].
    unfold r_add_nested. rewrite F. reflexivity.
  - destruct (mapM (fun o => o) l) as [xs| | |]; cbn [bind]; try reflexivity.
    destruct (failing 0 xs); [reflexivity|]. unfold r_add_nested. rewrite F. reflexivity.
Qed.

Lemma run_from_collect sl : forall r,
  nodupb (map fst sl) = true -> (forall k, In k (map fst sl) -> error r k = None) ->
  run_from sl r = do x <- collect sl; Done (r ++ x).
Proof.
  induction sl as [|[k s] sl IH]; intros r N F; cbn [run_from collect map fst nodupb] in *.
  - cbn [bind]. now rewrite app_nil_r.
  - apply andb_true_iff in N as [N1 N2].
    rewrite add_slot_fresh by (apply F; left; reflexivity).
    destruct (slot_err s) as [e| | |]; cbn [bind]; try reflexivity.
    rewrite IH; [| exact N2 |].
    + destruct (collect sl) as [x| | |]; cbn [bind]; try reflexivity.
      destruct e as [e|]; [|reflexivity]. now rewrite <- app_assoc.
    + intros k' I. assert (E : error r k' = None) by (apply F; right; exact I).
      destruct e as [e|]; [|exact E]. rewrite error_app, E.
      destruct (String.eqb_spec k k') as [<-|]; [|reflexivity].
      apply mem_In in I. rewrite I in N1. discriminate.
Qed.

(** The builder reports, in order, exactly what the calls record. *)
Lemma run_collect sl : nodupb (map fst sl) = true -> run sl = collect sl.
Proof.
  intros N. unfold run. rewrite run_from_collect; auto.
  destruct (collect sl); reflexivity.
Qed.

(** ** Safety: no panic *)
Definition safe {A} (o : outcome A) : Prop := exists a, o = Done a.
Definition slot_safe (s : slot) : Prop :=
  match s with Struct o => safe o | Items l => Forall safe l | _ => True end.

Lemma mapM_safe (l : list (outcome vresult)) : Forall safe l -> safe (mapM (fun o => o) l).
Proof.
  induction 1 as [|o l [a ->] _ IH]; [exists []; reflexivity|]. destruct IH as [xs E].
  exists (a :: xs). cbn [mapM bind]. rewrite E. reflexivity.
Qed.
Lemma slot_err_safe s : slot_safe s -> safe (slot_err s).
Proof.
  destruct s; cbn [slot_safe slot_err]; try (intros; eexists; reflexivity).
  - intros [y ->]. eexists; reflexivity.
  - intros H. destruct (mapM_safe _ H) as [xs ->]. eexists; reflexivity.
Qed.
Lemma run_safe sl : nodupb (map fst sl) = true -> Forall slot_safe (map snd sl) -> safe (run sl).
Proof.
  intros N F. rewrite run_collect by exact N. clear N.
  induction sl as [|[k s] sl IH]; cbn [collect map snd] in *; [eexists; reflexivity|].
  inversion F; subst. destruct (slot_err_safe s) as [e ->]; auto. destruct (IH H2) as [r ->].
  eexists; reflexivity.
Qed.

Lemma safe_field {A} (f : A -> check) a : slot_safe (field f a). Proof. exact I. Qed.
Lemma safe_field_opt {A} (f : A -> check) o : slot_safe (field_opt f o). Proof. destruct o; exact I. Qed.
Lemma safe_enum {A} (f : A -> check) a : slot_safe (enum f a). Proof. exact I. Qed.
Lemma safe_enum_opt {A} (f : A -> check) o : slot_safe (enum_opt f o). Proof. destruct o; exact I. Qed.
Lemma safe_struct {A} (f : A -> outcome vresult) a : safe (f a) -> slot_safe (struct f a).
Proof. auto. Qed.
Lemma safe_struct_opt {A} (f : A -> outcome vresult) o : (forall a, safe (f a)) -> slot_safe (struct_opt f o).
Proof. intros H. destruct o; cbn; auto. Qed.
Lemma safe_items {A} (f : A -> outcome vresult) l : (forall a, safe (f a)) -> slot_safe (items f l).
Proof. intros H. cbn. apply Forall_map, Forall_forall. auto. Qed.
Lemma safe_items_in {A} (f : A -> outcome vresult) l : Forall (fun a => safe (f a)) l -> slot_safe (items f l).
Proof. intros H. cbn. apply Forall_map. exact H. Qed.
Lemma safe_items_opt {A} (f : A -> outcome vresult) o : (forall a, safe (f a)) -> slot_safe (items_opt f o).
Proof. intros H. destruct o; cbn; auto. apply Forall_map, Forall_forall. auto. Qed.
Lemma safe_items_of_option {A} (f : A -> outcome vresult) o : (forall a, safe (f a)) -> slot_safe (items_of_option f o).
Proof. intros H. destruct o; cbn; repeat constructor; auto. Qed.
Lemma safe_lift {A} (f : A -> check) a : safe (lift f a). Proof. eexists; reflexivity. Qed.
Lemma safe_unique_items {A} eqb (f : A -> outcome vresult) l : (forall a, safe (f a)) ->
  forall seen, Forall safe (unique_items eqb f seen l).
Proof.
  intros H. induction l as [|a l IH]; intros seen; cbn [unique_items]; constructor; auto.
  destruct (existsb (eqb a) seen); [eexists; reflexivity|auto].
Qed.
Lemma safe_unique_opt {A} eqb (f : A -> outcome vresult) o : (forall a, safe (f a)) -> slot_safe (unique_opt eqb f o).
Proof. intros H. destruct o; cbn; auto. apply safe_unique_items, H. Qed.
#[export] Hint Resolve safe_field safe_field_opt safe_enum safe_enum_opt safe_struct safe_struct_opt
  safe_items safe_items_opt safe_items_of_option safe_lift safe_unique_opt : vsafe.

Ltac forall_slots := cbn [map snd];
  repeat match goal with |- Forall _ (_ :: _) => constructor | |- Forall _ [] => constructor end.
Ltac run_safe_tac := apply run_safe; [reflexivity | forall_slots; auto with vsafe].

(** ** Passing *)
Definition slot_pass (s : slot) : Prop :=
  match s with
  | Skip => True
  | Field c | Enum c => c = None
  | Struct o => o = Done []
  | Items l => Forall (fun o => o = Done []) l
  end.

Lemma failing_nil l : forall i, failing i l = [] <-> Forall (fun r => r = []) l.
Proof.
  induction l as [|r l IH]; intros i; cbn [failing].
  - split; auto.
  - destruct r as [|p r]; cbn [has_errors passed negb].
    + rewrite IH. split; [constructor; auto|inversion 1; auto].
    + split; [discriminate|]. inversion 1; discriminate.
Qed.

Lemma slot_err_pass s : slot_err s = Done None <-> slot_pass s.
Proof.
  destruct s as [| [m|] | [m|] | o | l]; cbn [slot_err slot_pass].
  - tauto.
  - split; discriminate.
  - tauto.
  - split; discriminate.
  - tauto.
  - destruct o as [[|p y]| | |]; cbn; split; intros H; try reflexivity; discriminate.
  - split.
    + destruct (mapM (fun o => o) l) as [xs| | |] eqn:E; cbn [bind]; try discriminate.
      destruct (failing 0 xs) eqn:F; [|discriminate]. intros _.
      apply failing_nil in F. apply mapM_done in E.
      revert F. induction E as [|o r l rs Ho E IH]; intros F; constructor.
      * inversion F; subst. reflexivity.
      * inversion F; auto.
    + intros H. assert (E : mapM (fun o => o) l = Done (map (fun _ => []) l)).
      { induction H as [|o l -> _ IH]; [reflexivity|]. cbn [mapM bind map]. rewrite IH. reflexivity. }
      rewrite E. cbn [bind]. replace (failing 0 (map (fun _ => []) l)) with (@nil (nat * vresult)); [reflexivity|].
      symmetry. apply failing_nil. apply Forall_map, Forall_forall. reflexivity.
Qed.

Lemma collect_pass sl : collect sl = Done [] <-> Forall slot_pass (map snd sl).
Proof.
  induction sl as [|[k s] sl IH]; cbn [collect map snd]; [split; auto|]. split.
  - intros H. destruct (slot_err s) as [[e|]| | |] eqn:E; cbn [bind] in H; try discriminate.
    + destruct (collect sl); discriminate.
    + destruct (collect sl) as [r| | |] eqn:C; cbn [bind] in H; try discriminate.
      injection H as ->. constructor; [apply slot_err_pass; exact E|apply IH; reflexivity].
  - inversion 1; subst. apply slot_err_pass in H2. apply IH in H3. rewrite H2, H3. reflexivity.
Qed.
Lemma run_pass sl : nodupb (map fst sl) = true -> (run sl = Done [] <-> Forall slot_pass (map snd sl)).
Proof. intros N. rewrite run_collect by exact N. apply collect_pass. Qed.

Lemma pass_nil P : P <-> True -> (Forall slot_pass [] <-> P).
Proof. intros ->. split; auto. Qed.
Lemma pass_one s P : (slot_pass s <-> P) -> (Forall slot_pass [s] <-> P).
Proof. intros <-. split; [inversion 1; auto|repeat constructor; auto]. Qed.
Lemma pass_cons s l P Q : (slot_pass s <-> P) -> (Forall slot_pass l <-> Q) -> (Forall slot_pass (s :: l) <-> P /\ Q).
Proof. intros <- <-. split; [inversion 1; auto|intros []; constructor; auto]. Qed.
(** a call that never reports anything *)
Lemma pass_skip s l Q : slot_pass s -> (Forall slot_pass l <-> Q) -> (Forall slot_pass (s :: l) <-> Q).
Proof. intros H <-. split; [inversion 1; auto|constructor; auto]. Qed.

Lemma pass_field {A} (f : A -> check) a (P : Prop) : (f a = None <-> P) -> (slot_pass (field f a) <-> P).
Proof. auto. Qed.
Lemma pass_enum {A} (f : A -> check) a (P : Prop) : (f a = None <-> P) -> (slot_pass (enum f a) <-> P).
Proof. auto. Qed.
Lemma pass_struct {A} (f : A -> outcome vresult) a (P : Prop) :
  (f a = Done [] <-> P) -> (slot_pass (struct f a) <-> P).
Proof. auto. Qed.
Lemma pass_field_opt {A} (f : A -> check) (P : A -> Prop) o :
  (forall a, f a = None <-> P a) -> (slot_pass (field_opt f o) <-> when o P).
Proof. intros H. destruct o; cbn; [apply H|tauto]. Qed.
Lemma pass_enum_opt {A} (f : A -> check) (P : A -> Prop) o :
  (forall a, f a = None <-> P a) -> (slot_pass (enum_opt f o) <-> when o P).
Proof. intros H. destruct o; cbn; [apply H|tauto]. Qed.
Lemma pass_struct_opt {A} (f : A -> outcome vresult) (P : A -> Prop) o :
  (forall a, f a = Done [] <-> P a) -> (slot_pass (struct_opt f o) <-> when o P).
Proof. intros H. destruct o; cbn; [apply H|tauto]. Qed.
Lemma every_Forall {A} (P : A -> Prop) l : every P l <-> Forall P l.
Proof.
  induction l as [|a l IH]; cbn; [split; auto|]. rewrite IH. split; [intros []; constructor; auto|inversion 1; auto].
Qed.
Lemma pass_map {A} (f : A -> outcome vresult) (P : A -> Prop) l :
  Forall (fun a => f a = Done [] <-> P a) l -> (Forall (fun o => o = Done []) (map f l) <-> every P l).
Proof.
  intros H. rewrite every_Forall, Forall_map. induction H as [|a l E _ IH]; [split; auto|].
  split; inversion 1; subst; constructor; try apply E; try apply IH; auto.
Qed.
Lemma pass_items {A} (f : A -> outcome vresult) (P : A -> Prop) l :
  (forall a, f a = Done [] <-> P a) -> (slot_pass (items f l) <-> every P l).
Proof. intros H. apply pass_map, Forall_forall. auto. Qed.
Lemma pass_items_opt {A} (f : A -> outcome vresult) (P : A -> Prop) o :
  (forall a, f a = Done [] <-> P a) -> (slot_pass (items_opt f o) <-> every_in o P).
Proof. intros H. destruct o; cbn; [|tauto]. apply pass_items, H. Qed.
Lemma pass_items_of_option {A} (f : A -> outcome vresult) (P : A -> Prop) o :
  (forall a, f a = Done [] <-> P a) -> (slot_pass (items_of_option f o) <-> when o P).
Proof.
  intros H. destruct o; cbn; [|split; auto]. rewrite <- H. split; [inversion 1; auto|repeat constructor; auto].
Qed.
Lemma lift_pass {A} (f : A -> check) a (P : Prop) : (f a = None <-> P) -> (lift f a = Done [] <-> P).
Proof. unfold lift, from_check. intros <-. destruct (f a); split; intros H; try reflexivity; discriminate. Qed.

Lemma require_none b m : require b m = None <-> b = true.
Proof. unfold require. destruct b; split; congruence. Qed.

(** ** Leaf checks *)
Lemma occurs_contains c s : occurs c s <-> contains_char c s = true.
Proof. unfold occurs. symmetry. apply contains_char_In. Qed.

Lemma normalized_iff s : validate_normalized s = None <-> single_line s.
Proof.
  unfold validate_normalized. rewrite require_none. unfold single_line. rewrite !occurs_contains.
  unfold normalized_ok. rewrite negb_true_iff, !orb_false_iff, <- !not_true_iff_false.
  split; [tauto|]. intros (A & B & C). repeat split; auto.
  intros H. apply contains_str_spec in H as (a & b & ->). apply A.
  rewrite contains_char_app. change (String CR (String LF "") ++ b)%string with (String CR (String LF b)).
  cbn. apply orb_true_r.
Qed.

Lemma all_of_iff p s : all_of p s <-> all_chars p s = true.
Proof.
  rewrite all_chars_forall. unfold all_of, occurs. split.
  - intros H a c b ->. apply H. exists a, b. reflexivity.
  - intros H c (a & b & ->). apply (H a c b). reflexivity.
Qed.

Ltac lang_inv := repeat match goal with
  | H : lang (seqs (_ :: _ :: _)) _ |- _ => apply lang_seq in H; destruct H as (? & ? & -> & ? & H)
  | H : lang (RSeq _ _) _ |- _ => apply lang_seq in H; destruct H as (? & ? & -> & ? & H)
  | H : lang (lit _) _ |- _ => apply lang_lit in H; subst
  | H : lang (rep _ (RSet _)) _ |- _ => apply lang_rep_set in H; destruct H
  | H : lang (RStar (RSet _)) _ |- _ => apply lang_star_set in H
  | H : lang (plus (RSet _)) _ |- _ => apply lang_plus_set in H; destruct H
  end.

Lemma serial_iff s : is_match urn_uuid_re s = true <-> serial_shape s.
Proof.
  unfold urn_uuid_re. rewrite is_match_full by reflexivity. split.
  - intros H. cbv zeta in H. lang_inv.
    eexists. split; [reflexivity|]. do 5 eexists. split; [reflexivity|].
    unfold hex_group. rewrite !all_of_iff. auto 10.
  - intros (u & -> & a & b & c & d & e & -> & (La & Aa) & (Lb & Ab) & (Lc & Ac) & (Ld & Ad) & (Le & Ae)).
    rewrite all_of_iff in *.
    repeat (cbn [seqs]; apply lang_seq; do 2 eexists; split; [reflexivity|];
            split; [first [apply lang_lit; reflexivity | apply lang_rep_set; split; eassumption]|]).
    apply lang_rep_set; auto.
Qed.

Lemma mime_iff s : is_match mime_re s = true <-> mime_shape s.
Proof.
  unfold mime_re. rewrite is_match_full by reflexivity. split.
  - intros H. apply lang_seq in H as (a & t & -> & Ha & H). apply lang_seq in H as (m & b & -> & Hm & Hb).
    lang_inv. exists a, b. rewrite !all_of_iff. auto.
  - intros (a & b & -> & Na & Nb & Aa & Ab). rewrite all_of_iff in *.
    apply lang_seq. exists a, ("/" ++ b)%string. split; [reflexivity|]. split; [apply lang_plus_set; auto|].
    apply lang_seq. exists "/", b. split; [reflexivity|]. split; [apply lang_lit; reflexivity|apply lang_plus_set; auto].
Qed.

Lemma not_lf_iff s : all_chars not_lf s = true <-> ~ occurs LF s.
Proof.
  rewrite <- all_of_iff. unfold all_of, not_lf. split.
  - intros H O. apply H in O. rewrite Ascii.eqb_refl in O. discriminate.
  - intros H c O. destruct (Ascii.eqb_spec c LF) as [->|]; [contradiction|reflexivity].
Qed.

Lemma bom_link_iff s : is_match bom_link_re s = true <-> bom_link_shape s.
Proof.
  unfold bom_link_re. rewrite is_match_full by reflexivity. split.
  - intros H. cbv zeta in H. lang_inv.
    match goal with Hd : lang (RSet (in_range _ _)) _ |- _ => destruct Hd as (d & -> & Hd) end.
    match goal with |- bom_link_shape ("urn:cdx:" ++ ?a ++ "-" ++ ?b ++ "-" ++ ?c ++ "-" ++ ?e ++ "-" ++ ?f
                                       ++ "/" ++ String ?d "" ++ ?r ++ ?g)%string =>
      exists (a ++ "-" ++ b ++ "-" ++ c ++ "-" ++ e ++ "-" ++ f)%string, (String d "" ++ r)%string, g end.
    split; [now rewrite ?append_assoc|]. split; [|split].
    + do 5 eexists. split; [reflexivity|]. unfold hex_group. rewrite !all_of_iff. auto 10.
    + exists d. eexists. split; [reflexivity|]. rewrite all_of_iff. auto.
    + destruct H as [H|H].
      * right. apply lang_seq in H as (m & g & -> & Hm & Hg). lang_inv. exists g. rewrite <- not_lf_iff. auto.
      * left. exact H.
  - intros (u & n & f & -> & (a & b & c & d & e & -> & (La & Aa) & (Lb & Ab) & (Lc & Ac) & (Ld & Ad) & (Le & Ae))
            & (p & r & -> & Hp & Hr) & Hf).
    rewrite all_of_iff in *.
    replace ("urn:cdx:" ++ (a ++ "-" ++ b ++ "-" ++ c ++ "-" ++ d ++ "-" ++ e) ++ "/" ++ String p r ++ f)%string
      with ("urn:cdx:" ++ a ++ "-" ++ b ++ "-" ++ c ++ "-" ++ d ++ "-" ++ e ++ "/" ++ String p "" ++ r ++ f)%string
      by now rewrite !append_assoc.
    repeat (cbn [seqs]; apply lang_seq; do 2 eexists; split; [reflexivity|];
            split; [first [apply lang_lit; reflexivity | apply lang_rep_set; split; eassumption
                          | exists p; split; [reflexivity|exact Hp] | apply lang_star_set; exact Hr]|]).
    destruct Hf as [->|(g & -> & Ng & Og)]; [right; reflexivity|left].
    apply lang_seq. exists "#", g. split; [reflexivity|]. split; [apply lang_lit; reflexivity|].
    apply lang_plus_set. split; [exact Ng|]. apply not_lf_iff. exact Og.
Qed.

Lemma version_range_iff s : is_match version_range_re s = true <-> version_range_shape s.
Proof.
  unfold version_range_re. rewrite is_match_full by reflexivity. split.
  - intros H. apply lang_seq in H as (a & t & -> & Ha & H). lang_inv. exists t. rewrite <- not_lf_iff. auto.
  - intros (r & -> & O). apply lang_seq. exists "vers:", r. split; [reflexivity|].
    split; [apply lang_lit; reflexivity|]. apply lang_star_set, not_lf_iff, O.
Qed.

(** CPE names: the regular expressions against the structural description *)
Lemma contains_char_list c s : contains_char c s = true <-> In c (list_ascii_of_string s).
Proof.
  induction s as [|d s IH]; cbn; [split; [discriminate|intros []]|].
  rewrite orb_true_iff, IH. split.
  - intros [H|H]; [left|right; exact H]. apply Ascii.eqb_eq in H. congruence.
  - intros [->|H]; [left; apply Ascii.eqb_refl|right; exact H].
Qed.
Lemma lang_one_of cs w : lang (RSet (one_of cs)) w <-> In w (map (fun c => String c "") (list_ascii_of_string cs)).
Proof.
  rewrite in_map_iff. cbn [lang]. unfold one_of. split.
  - intros (c & -> & H). exists c. split; [reflexivity|apply contains_char_list; exact H].
  - intros (c & <- & H). exists c. split; [reflexivity|apply contains_char_list; exact H].
Qed.
Lemma lang_set_ext p q w : (forall c, p c = q c) -> lang (RSet p) w <-> lang (RSet q) w.
Proof. intros E. cbn. split; intros (c & -> & H); exists c; (split; [reflexivity|]); congruence. Qed.
Lemma concat_cons a l : String.concat "" (a :: l) = (a ++ String.concat "" l)%string.
Proof. destruct l; cbn; [now rewrite append_nil_r|reflexivity]. Qed.
Lemma lang_star x w : lang (RStar x) w <-> exists l, w = String.concat "" l /\ every (lang x) l.
Proof.
  cbn [lang]. split.
  - intros H. induction H as [|a b Ha H (l & -> & E)]; [exists []; cbn; auto|].
    exists (a :: l). split; [symmetry; apply concat_cons|split; assumption].
  - intros (l & -> & E). induction l as [|a l IH]; [cbn; constructor|].
    destruct E as [Ea E]. rewrite concat_cons. constructor; [exact Ea|exact (IH E)].
Qed.
Lemma lang_plus x w : lang (plus x) w <-> exists l, w = String.concat "" l /\ l <> [] /\ every (lang x) l.
Proof.
  unfold plus. rewrite lang_seq. split.
  - intros (a & b & -> & Ha & Hb). apply lang_star in Hb as (l & -> & E).
    exists (a :: l). split; [symmetry; apply concat_cons|]. split; [discriminate|split; assumption].
  - intros (l & -> & N & E). destruct l as [|a l]; [contradiction|]. destruct E as [Ea E].
    exists a, (String.concat "" l). split; [apply concat_cons|]. split; [exact Ea|]. apply lang_star. eauto.
Qed.
Lemma every_iff {A} (P Q : A -> Prop) l : (forall a, P a <-> Q a) -> every P l <-> every Q l.
Proof. intros E. induction l as [|a l IH]; cbn; [tauto|]. rewrite E, IH. tauto. Qed.
Lemma lang_rep_parts x n w :
  lang (rep n (RSeq (lit ":") x)) w <-> exists l, w = parts_text l /\ List.length l = n /\ every (lang x) l.
Proof.
  revert w. induction n as [|n IH]; intros w; cbn [rep].
  - cbn [lang]. split.
    + intros ->. exists []. cbn; auto.
    + intros ([|] & -> & L & _); [reflexivity|discriminate].
  - rewrite lang_seq. split.
    + intros (a & b & -> & Ha & Hb). apply lang_seq in Ha as (k & p & -> & Hk & Hp). apply lang_lit in Hk as ->.
      apply IH in Hb as (l & -> & L & E). exists (p :: l). cbn [parts_text List.length every].
      split; [now rewrite append_assoc|]. split; [congruence|split; assumption].
    + intros ([|p l] & -> & L & E); [discriminate|]. destruct E as [Ep E]. cbn [parts_text].
      exists (":" ++ p)%string, (parts_text l). split; [now rewrite append_assoc|]. split.
      * apply lang_seq. exists ":", p. split; [reflexivity|]. split; [apply lang_lit; reflexivity|exact Ep].
      * apply IH. exists l. split; [reflexivity|]. split; [now injection L|exact E].
Qed.
Lemma lang_upto_parts x n w :
  lang (upto n (RSeq (lit ":") x)) w <-> exists l, w = parts_text l /\ List.length l <= n /\ every (lang x) l.
Proof.
  revert w. induction n as [|n IH]; intros w; cbn [upto].
  - cbn [lang]. split.
    + intros ->. exists []. cbn; auto.
    + intros ([|] & -> & L & _); [reflexivity|cbn in L; lia].
  - split.
    + intros [H|H]; [|exists []; rewrite H; cbn; repeat split; lia].
      apply lang_seq in H as (a & b & -> & Ha & Hb). apply lang_seq in Ha as (k & p & -> & Hk & Hp). apply lang_lit in Hk as ->.
      apply IH in Hb as (l & -> & L & E). exists (p :: l). cbn [parts_text List.length every].
      split; [now rewrite append_assoc|]. split; [lia|split; assumption].
    + intros ([|p l] & -> & L & E); [right; reflexivity|left]. destruct E as [Ep E]. cbn [parts_text].
      apply lang_seq. exists (":" ++ p)%string, (parts_text l). split; [now rewrite append_assoc|]. split.
      * apply lang_seq. exists ":", p. split; [reflexivity|]. split; [apply lang_lit; reflexivity|exact Ep].
      * apply IH. exists l. split; [reflexivity|]. split; [cbn in L; lia|exact E].
Qed.
Lemma all_of_ext p q s : (forall c, p c = q c) -> all_of p s <-> all_of q s.
Proof. intros E. unfold all_of. split; intros H c O; rewrite <- (H c O); auto. Qed.
Lemma lang_opt x w : lang (opt_re x) w <-> w = "" \/ lang x w.
Proof. unfold opt_re. cbn [lang]. tauto. Qed.

Lemma cpe22_iff s : lang cpe22_re s <-> cpe_2_2 s.
Proof.
  unfold cpe22_re, cpe_2_2.
  assert (P : forall l, every (lang (RStar (RSet (fun c => upper c || lower c || digit c || one_of "._-~%" c)))) l
              <-> every (all_of (fun c => letter c || digit c || contains_char c "._-~%")) l).
  { intros l. apply every_iff. intros a. rewrite lang_star_set, <- all_of_iff. apply all_of_ext.
    intros c. unfold letter, one_of. destruct (lower c), (upper c); reflexivity. }
  split.
  - intros H.
    apply lang_seq in H as (c1 & t1 & -> & H1 & H). apply lang_lit in H1 as ->.
    apply lang_seq in H as (c2 & t2 & -> & H2 & H). apply lang_one_of in H2.
    apply lang_seq in H as (c3 & t3 & -> & H3 & H). apply lang_one_of in H3.
    apply lang_seq in H as (c4 & t4 & -> & H4 & H). apply lang_lit in H4 as ->.
    apply lang_seq in H as (k & t5 & -> & Hk & H). apply lang_opt in Hk. rewrite lang_one_of in Hk.
    apply lang_upto_parts in H as (l & -> & L & E). apply P in E.
    exists ("c" ++ c2 ++ c3 ++ ":/")%string, k, l. split; [now rewrite !append_assoc|]. split; [|split; [|auto]].
    + cbn in H2, H3. destruct H2 as [<-|[<-|[]]], H3 as [<-|[<-|[]]]; cbn; tauto.
    + destruct Hk as [->|Hk]; [left; reflexivity|right; exact Hk].
  - intros (pre & k & l & -> & Hp & Hk & L & E). apply P in E.
    assert (T : lang (RSeq (opt_re (RSet (one_of "AHOaho")))
       (upto 6 (RSeq (lit ":") (RStar (RSet (fun c => upper c || lower c || digit c || one_of "._-~%" c))))))
       (k ++ parts_text l)).
    { apply lang_seq. exists k, (parts_text l). split; [reflexivity|]. split.
      - apply lang_opt. rewrite lang_one_of. destruct Hk as [<-|Hk]; [left; reflexivity|right; exact Hk].
      - apply lang_upto_parts. eauto. }
    assert (G : exists a b, pre = ("c" ++ a ++ b ++ ":/")%string /\ lang (RSet (one_of "pP")) a /\ lang (RSet (one_of "eE")) b).
    { cbn in Hp. destruct Hp as [<-|[<-|[<-|[<-|[]]]]];
        [exists "p", "e"|exists "P", "e"|exists "p", "E"|exists "P", "E"];
        (split; [reflexivity|]; rewrite !lang_one_of; cbn; tauto). }
    destruct G as (a & b & -> & Ha & Hb). rewrite !append_assoc.
    apply lang_seq. do 2 eexists. split; [reflexivity|]. split; [apply lang_lit; reflexivity|].
    apply lang_seq. do 2 eexists. split; [reflexivity|]. split; [exact Ha|].
    apply lang_seq. do 2 eexists. split; [reflexivity|]. split; [exact Hb|].
    apply lang_seq. do 2 eexists. split; [reflexivity|]. split; [apply lang_lit; reflexivity|exact T].
Qed.

Lemma cpe_part_iff s : lang cpe_part s <-> cpe_2_3_value s.
Proof.
  unfold cpe_part, cpe_2_3_value. cbv zeta.
  assert (W : forall w, lang (RAlt (RStar (lit "?")) (opt_re (lit "*"))) w <-> cpe_2_3_wild w).
  { intros w. unfold cpe_2_3_wild. cbn [lang]. fold (lang (RStar (lit "?")) w). fold (lang (opt_re (lit "*")) w).
    assert (S : lang (RStar (lit "?")) w <-> all_of (Ascii.eqb "?") w).
    { rewrite all_of_iff, <- lang_star_set, !lang_star.
      split; intros (l & -> & E); exists l; (split; [reflexivity|]); revert E; apply every_iff; intros a;
        rewrite lang_lit; cbn [lang]; split.
      - intros (c & -> & H). apply Ascii.eqb_eq in H. congruence.
      - intros ->. exists "?"%char. auto.
      - intros ->. exists "?"%char. auto.
      - intros (c & -> & H). apply Ascii.eqb_eq in H. congruence. }
    change (star (lang (lit "?")) w) with (lang (RStar (lit "?")) w).
    rewrite S, lang_opt, lang_lit. split; [|tauto]. intros [H|[->|H]]; auto.
    left. intros c (a & b & E). destruct a; discriminate. }
  assert (C : forall w, lang (RAlt (RSet (fun c => lower c || upper c || digit c || one_of "-._" c))
                 (RSeq (lit "\") (RSet (one_of cpe_special)))) w <-> cpe_2_3_char w).
  { intros w. unfold cpe_2_3_char, letter. split.
    - intros [(c & -> & H)|H]; [exists c; left; auto|].
      apply lang_seq in H as (k & b & -> & Hk & (c & -> & H)). apply lang_lit in Hk as ->.
      exists c. right. split; [reflexivity|exact H].
    - intros (c & [[-> H]|[-> H]]); [left; exists c; auto|right].
      apply lang_seq. exists "\", (String c ""). split; [reflexivity|]. split; [apply lang_lit; reflexivity|].
      exists c. auto. }
  split.
  - intros [H|H].
    + right; right. apply lang_seq in H as (a & t & -> & Ha & H). apply lang_seq in H as (m & b & -> & Hm & Hb).
      apply lang_plus in Hm as (l & -> & N & E). exists a, l, b. split; [reflexivity|]. split; [exact N|].
      split; [exact (proj1 (every_iff _ _ _ C) E)|]. split; apply W; assumption.
    + apply lang_one_of in H. cbn in H. destruct H as [<-|[<-|[]]]; auto.
  - intros [->|[->|(a & l & b & -> & N & E & Ha & Hb)]].
    + right. apply lang_one_of. cbn; auto.
    + right. apply lang_one_of. cbn; auto.
    + left. apply lang_seq. exists a, (String.concat "" l ++ b)%string. split; [reflexivity|]. split; [apply W; exact Ha|].
      apply lang_seq. exists (String.concat "" l), b. split; [reflexivity|]. split; [|apply W; exact Hb].
      apply lang_plus. exists l. split; [reflexivity|]. split; [exact N|]. exact (proj2 (every_iff _ _ _ C) E).
Qed.

Lemma cpe_lang_iff s : lang cpe_lang_part s <-> cpe_2_3_language s.
Proof.
  unfold cpe_lang_part, cpe_2_3_language. cbv zeta.
  assert (L : forall n w, lang (rep n (RSet (fun c => lower c || upper c))) w <-> String.length w = n /\ all_of letter w).
  { intros n w. rewrite lang_rep_set, all_of_iff. reflexivity. }
  split.
  - intros [H|H].
    + right; right. apply lang_seq in H as (l & r & -> & Hl & Hr). exists l, r. split; [reflexivity|].
      assert (X : all_of letter l /\ In (String.length l) [2; 3]).
      { destruct Hl as [Hl|Hl]; apply L in Hl as [-> Hl]; cbn; auto. }
      destruct X as [X1 X2]. split; [exact X1|]. split; [exact X2|].
      apply lang_opt in Hr as [->|Hr]; [left; reflexivity|right].
      apply lang_seq in Hr as (k & g & -> & Hk & Hg). apply lang_lit in Hk as ->. exists g. split; [reflexivity|].
      destruct Hg as [Hg|Hg]; [left; apply L; exact Hg|right]. apply lang_rep_set in Hg. rewrite all_of_iff. exact Hg.
    + apply lang_one_of in H. cbn in H. destruct H as [<-|[<-|[]]]; auto.
  - intros [->|[->|(l & r & -> & A & Hl & Hr)]].
    + right. apply lang_one_of. cbn; auto.
    + right. apply lang_one_of. cbn; auto.
    + left. apply lang_seq. exists l, r. split; [reflexivity|]. split.
      * destruct Hl as [Hl|[Hl|[]]]; [right|left]; apply L; auto.
      * apply lang_opt. destruct Hr as [->|(g & -> & Hg)]; [left; reflexivity|right].
        apply lang_seq. exists "-", g. split; [reflexivity|]. split; [apply lang_lit; reflexivity|].
        destruct Hg as [[Hg A']|[Hg A']]; [left; apply L; auto|right]. apply lang_rep_set.
        rewrite all_of_iff in A'. auto.
Qed.

Lemma cpe23_iff s : lang cpe23_re s <-> cpe_2_3 s.
Proof.
  unfold cpe23_re, cpe_2_3. split.
  - intros H.
    apply lang_seq in H as (c1 & t1 & -> & H1 & H). apply lang_lit in H1 as ->.
    apply lang_seq in H as (k & t2 & -> & Hk & H). apply lang_one_of in Hk.
    apply lang_seq in H as (f & t3 & -> & Hf & H). apply lang_rep_parts in Hf as (five & -> & L5 & E5).
    apply lang_seq in H as (l & t4 & -> & Hl & H). apply lang_seq in Hl as (c & l' & -> & Hc & Hl). apply lang_lit in Hc as ->.
    apply lang_rep_parts in H as (four & -> & L4 & E4).
    exists k, five, l', four. split; [cbn [parts_text]; now rewrite append_nil_r|].
    split; [exact Hk|]. split; [exact L5|]. split; [exact (proj1 (every_iff _ _ _ cpe_part_iff) E5)|].
    split; [apply cpe_lang_iff; exact Hl|]. split; [exact L4|]. exact (proj1 (every_iff _ _ _ cpe_part_iff) E4).
  - intros (k & five & l & four & -> & Hk & L5 & E5 & Hl & L4 & E4).
    apply lang_seq. do 2 eexists. split; [reflexivity|]. split; [apply lang_lit; reflexivity|].
    apply lang_seq. do 2 eexists. split; [reflexivity|]. split; [apply lang_one_of; exact Hk|].
    apply lang_seq. do 2 eexists. split; [reflexivity|]. split.
    { apply lang_rep_parts. exists five. split; [reflexivity|]. split; [exact L5|].
      exact (proj2 (every_iff _ _ _ cpe_part_iff) E5). }
    apply lang_seq. do 2 eexists. split; [reflexivity|]. split.
    { apply lang_seq. exists ":", l. split; [cbn [parts_text]; now rewrite append_nil_r|].
      split; [apply lang_lit; reflexivity|apply cpe_lang_iff; exact Hl]. }
    apply lang_rep_parts. exists four. split; [reflexivity|]. split; [exact L4|].
    exact (proj2 (every_iff _ _ _ cpe_part_iff) E4).
Qed.

Lemma cpe_iff s : is_match cpe_re s = true <-> cpe_accepted s.
Proof.
  unfold cpe_re. rewrite is_match_free by reflexivity. unfold cpe_accepted, cpe_shape.
  split; intros (p & w & t & -> & H); exists p, w, t; (split; [reflexivity|]).
  - destruct H as [H|H]; [left; apply cpe22_iff|right; apply cpe23_iff]; exact H.
  - destruct H as [H|H]; [left; apply cpe22_iff|right; apply cpe23_iff]; exact H.
Qed.

Lemma split_at n s : n <= String.length s -> exists a b, s = (a ++ b)%string /\ String.length a = n.
Proof.
  revert s. induction n as [|n IH]; intros s L; [exists "", s; auto|].
  destruct s as [|c s]; [cbn in L; lia|]. cbn in L. destruct (IH s) as (a & b & -> & E); [lia|].
  exists (String c a), b. split; [reflexivity|cbn; lia].
Qed.
Lemma hash_more n p w t s : s = (p ++ w ++ t)%string -> 40 <= n -> lang (rep n (RSet hex_any)) w -> hash_accepted s.
Proof.
  intros -> L H. apply lang_rep_set in H as [E A]. right.
  destruct (split_at 40 w) as (a & b & -> & La); [lia|]. exists p, a, (b ++ t)%string.
  split; [now rewrite append_assoc|]. split; [exact La|]. rewrite all_of_iff. rewrite all_chars_app in A.
  apply andb_true_iff in A. tauto.
Qed.
Lemma rmatch_alt a b c w t : rmatch (RAlt a b) c w t -> rmatch a c w t \/ rmatch b c w t.
Proof. intros H. inversion H; subst; auto. Qed.
Lemma rmatch_seq a b c w t : rmatch (RSeq a b) c w t ->
  exists w1 w2, w = (w1 ++ w2)%string /\ rmatch a c w1 (w2 ++ t) /\ rmatch b (c && is_nil w1) w2 t.
Proof. intros H. inversion H; subst. eauto. Qed.
Lemma hash_iff s : is_match hash_value_re s = true <-> hash_accepted s.
Proof.
  rewrite is_match_spec. unfold hash_value_re. split.
  - intros (p & w & t & E & M). cbv zeta in M.
    apply rmatch_alt in M as [M|M].
    { apply rmatch_seq in M as (w1 & w2 & -> & M1 & M2). inversion M1; subst.
      destruct p; [|discriminate]. left. apply rmatch_lang in M2; [|reflexivity].
      apply lang_rep_set in M2 as [L A]. exists w2, t. rewrite all_of_iff. auto. }
    apply rmatch_alt in M as [M|M].
    { apply rmatch_lang in M; [|reflexivity]. exact (hash_more 40 p w t _ E (le_n _) M). }
    apply rmatch_alt in M as [M|M].
    { apply rmatch_lang in M; [|reflexivity]. refine (hash_more 64 p w t _ E _ M). lia. }
    apply rmatch_alt in M as [M|M].
    { apply rmatch_lang in M; [|reflexivity]. refine (hash_more 96 p w t _ E _ M). lia. }
    apply rmatch_seq in M as (w1 & w2 & -> & M1 & M2). inversion M2; subst.
    apply rmatch_lang in M1; [|reflexivity]. refine (hash_more 128 p w1 "" _ _ _ M1); [|lia].
    now rewrite !append_nil_r.
  - intros [(w & t & -> & L & A)|(p & w & t & -> & L & A)]; rewrite all_of_iff in A.
    + exists "", w, t. split; [reflexivity|]. apply M_altl. change w with ("" ++ w)%string.
      constructor; [constructor|]. apply rmatch_lang; [reflexivity|]. apply lang_rep_set; auto.
    + exists p, w, t. split; [reflexivity|]. apply M_altr, M_altl. apply rmatch_lang; [reflexivity|].
      apply lang_rep_set; auto.
Qed.

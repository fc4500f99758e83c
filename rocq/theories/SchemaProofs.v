(** The JSON form of valid, tame values conforms to the schema: the types shared by all versions. *)
From Verif Require Import Base ModelTypes Strings Regex Enums Json JsonModel Schema SchemaText SchemaLemmas ValModel ValSpec ValProofs SchemaSpec.
From Coq Require Import ZArith.
Open Scope string_scope.
Open Scope list_scope.

Lemma when_elim {A} (o : option A) P : when o P -> forall a, o = Some a -> P a.
Proof. intros H a ->. exact H. Qed.
Lemma every_elim {A} (P : A -> Prop) l : every P l -> forall a, In a l -> P a.
Proof. induction l as [|b l IH]; [intros _ a []|]. intros [H1 H2] a [<-|I]; auto. Qed.
Lemma every_in_elim {A} (o : option (list A)) P : every_in o P -> forall l, o = Some l -> forall a, In a l -> P a.
Proof. intros H l E. apply every_elim. exact (when_elim _ _ H l E). Qed.

(** the hypotheses in usable form, for a fixed version *)
Ltac open_hyps :=
  repeat match goal with
  | H : _ /\ _ |- _ => destruct H
  | H : every_in _ _ |- _ => let H' := fresh H in pose proof (every_in_elim _ _ H) as H'; clear H
  | H : when _ _ |- _ => let H' := fresh H in pose proof (when_elim _ _ H) as H'; clear H
  | H : every _ _ |- _ => let H' := fresh H in pose proof (every_elim _ _ H) as H'; clear H
  | H : later _ _ _ |- _ => unfold later in H
  | H : absent _ |- _ => unfold absent in H
  | H : in_1_5 V1_5 -> _ |- _ => specialize (H eq_refl)
  | H : in_1_5 V1_3 -> _ |- _ => clear H
  | H : in_1_5 V1_4 -> _ |- _ => clear H
  | H : ~ before_1_4 V1_3 -> _ |- _ => clear H
  | H : ~ before_1_4 V1_4 -> _ |- _ => specialize (H ltac:(discriminate))
  | H : ~ before_1_4 V1_5 -> _ |- _ => specialize (H ltac:(discriminate))
  | H : before_1_4 V1_4 \/ _ |- _ => destruct H as [H|H]; [discriminate H|]
  | H : before_1_4 V1_5 \/ _ |- _ => destruct H as [H|H]; [discriminate H|]
  | H : before_1_4 V1_3 \/ _ |- _ => clear H
  end.

(** a value of an enumeration whose catch-all is excluded has one of the listed texts *)
Ltac enum_in :=
  match goal with
  | |- In (_ ?e) _ =>
      let E := fresh "E" in
      apply existsb_eqb; destruct e eqn:E;
      first [ reflexivity
            | exfalso; match goal with H : _ |- _ => solve [ exact H | eapply H; reflexivity | hnf in H; discriminate H
                | eapply H; [eassumption|reflexivity] | eapply H; [eassumption|eassumption|reflexivity]
                | eapply H; [reflexivity|eassumption|reflexivity] ] end ]
  end.

Ltac foralls := repeat (apply Forall_cons || apply Forall_nil).
Ltac reduce_schema :=
  match goal with |- conforms _ _ ?s _ => let s' := eval hnf in s in change s with s' end.
Ltac member_present := eexists; cbn [In]; repeat first [left; reflexivity | right].
Ltac kw :=
  match goal with
  | |- meets _ _ (KType _) _ => apply meets_type; reflexivity
  | |- meets _ _ (KRequired _) _ => apply meets_required; foralls; member_present
  | |- meets _ _ (KOnly _) _ => apply meets_only; foralls;
        first [ right; reflexivity | left; reflexivity
              | left; cbn [snd]; match goal with H : _ = None |- _ => rewrite H end; reflexivity ]
  | |- meets _ _ (KProperties _) _ => apply meets_properties; foralls
  | |- meets _ _ (KItems _) (arr _ _) => apply meets_arr; intros
  | |- meets _ _ KUnique (arr _ _) => apply meets_unique
  | |- meets _ _ (KFormat _) _ => apply meets_format
  | |- meets _ _ (KEnum _) _ => apply meets_enum
  | |- meets _ _ (KPattern _) _ => apply meets_pattern
  | |- meets _ _ (KMinLength _) _ => apply meets_min_length
  | |- meets _ _ (KMaxLength _) _ => apply meets_max_length
  | |- meets _ _ (KAllOf _) _ => apply meets_all; foralls
  | |- meets _ _ (KAnyOf _) _ => eapply meets_any; [left; reflexivity|]
  | |- meets _ _ (KRef _) _ => eapply meets_ref; [reflexivity|]
  end.
Ltac member :=
  match goal with
  | H : ?o = None |- member_ok _ _ _ (_, opt _ ?o) => rewrite H; apply member_none
  | |- member_ok _ _ _ (_, opt _ _) =>
      first [ eapply member_opt; [reflexivity|]; let a := fresh "a" in let E := fresh "E" in intros a E
            | apply member_free; reflexivity ]
  | |- member_ok _ _ _ (_, Json.when _ ?o) => first [ apply member_none | change (Json.when _ o) with o; member ]
  | |- member_ok _ _ _ (_, None) => apply member_none
  | |- member_ok _ _ _ (_, Some _) => first [eapply member_some; [reflexivity|] | apply member_free; reflexivity]
  end.

(** the schema of a member *)
Definition sub (k : string) (s : schema) : schema :=
  match assoc k (List.concat (map (fun i => match i with KProperties ps => ps | _ => [] end) (keywords s))) with
  | Some s' => s' | None => s end.

(** the schema a version defines under a name *)
Definition defn (r : string) (v : spec_version) : schema :=
  match assoc r (schema_definitions v) with Some s => s | None => Sch [] end.

Create HintDb sch discriminated.
#[global] Hint Constants Opaque : sch.
Ltac leaf := first [ solve [eauto 6 with sch] | enum_in | idtac ].
Ltac go :=
  lazymatch goal with
  | |- conforms _ _ (Sch [KRef _]) _ =>
      first [ solve [eauto 6 with sch] | eapply conforms_ref; [reflexivity|]; reduce_schema; go ]
  | |- conforms _ _ (Sch [_]) _ => first [ eassumption | apply conforms_intro; foralls; go ]
  | |- conforms _ _ (Sch _) (obj _) => apply conforms_intro; foralls; go
  | |- conforms _ _ (Sch (KType Ty_object :: _)) _ => first [ solve [eauto 6 with sch] | apply conforms_intro; foralls; go ]
  | |- conforms _ _ (Sch (KRequired _ :: _)) _ => first [ solve [eauto 6 with sch] | apply conforms_intro; foralls; go ]
  | |- conforms _ _ (Sch (KOneOf _ :: _)) _ => first [ solve [eauto 6 with sch] | apply conforms_intro; foralls; go ]
  | |- conforms _ _ (Sch _) (arr _ _) => apply conforms_intro; foralls; go
  | |- conforms _ _ (Sch (KType Ty_array :: _)) _ => first [ solve [eauto 6 with sch] | apply conforms_intro; foralls; go ]
  | |- conforms _ _ (Sch _) _ => apply conforms_intro; foralls; go
  | |- conforms _ _ _ _ => reduce_schema; go
  | |- meets _ _ (KOneOf _) _ => idtac
  | |- meets _ _ _ _ => kw; go
  | |- member_ok _ _ _ _ => member; go
  | |- _ => leaf
  end.

(** exactly one alternative, told apart by the members *)
Ltac absent_member := foralls; first [left; reflexivity | right; discriminate].
Ltac no_required := eapply violates_intro; [left; reflexivity|]; eapply fails_required; [left; reflexivity|absent_member].
Ltac has_required := apply conforms_intro; foralls; apply meets_required; foralls; member_present.
Ltac required_one :=
  match goal with |- meets _ _ (KOneOf _) _ => idtac end;
  first [ apply (meets_one _ _ 0); split; [solve [has_required]|foralls; no_required]
        | apply (meets_one _ _ 1); split; [no_required|split; [solve [has_required]|foralls; no_required]] ].

Section Conform.
Variable x : parsers.
Variable fmt : string -> string -> bool.
Hypothesis FA : formats_agree x fmt.
Notation ok v := (conforms fmt (schema_definitions v)).
Notation named r := (Sch [KRef r]).

Lemma time_ok s : is_time x s -> fmt "date-time" s = true.
Proof. apply (fa_time _ _ FA). Qed.
Lemma uri_ok s : is_uri x s -> fmt "iri-reference" s = true.
Proof. apply (fa_uri _ _ FA). Qed.
Hint Resolve time_ok uri_ok different_texts : sch.
Lemma once_ok {A} (f : A -> json) l : written_once f l -> all_different (map f l) = true.
Proof. exact (fun H => H). Qed.
Lemma email_ok s : is_email fmt s -> fmt "idn-email" s = true.
Proof. exact (fun H => H). Qed.
Lemma ref_ok r : tame_ref V1_5 r -> (1 <= chars r)%N.
Proof. exact (fun H => H eq_refl). Qed.
Hint Resolve once_ok email_ok ref_ok : sch.

Lemma all_chars_ext p q s : (forall c, p c = true -> q c = true) -> all_chars p s = true -> all_chars q s = true.
Proof.
  intros H. induction s as [|c s IH]; [reflexivity|]. cbn. rewrite !andb_true_iff. intros [A B]. auto.
Qed.
Lemma hash_pattern s : hash_shape s -> is_match pattern_3 s = true.
Proof.
  intros [H L]. apply all_of_iff in H. unfold pattern_3. rewrite is_match_full by reflexivity.
  assert (C : all_chars (fun c => in_range "a" "f" c || in_range "A" "F" c || in_range "0" "9" c)%bool s = true).
  { revert H. apply all_chars_ext. intros c. unfold hex_any. rewrite !orb_true_iff. tauto. }
  destruct L as [L|[L|[L|[L|[L|[]]]]]]; [left|right; left|right; right; left|right; right; right; left|right; right; right; right];
    apply lang_rep_set; auto.
Qed.
Lemma mime_pattern s : mime_shape s -> is_match pattern_2 s = true.
Proof.
  intros (a & b & -> & Na & Nb & Aa & Ab). apply all_of_iff in Aa, Ab.
  assert (C : forall t, all_chars (fun c => contains_char c "-+." || lower c || digit c)%bool t = true ->
    all_chars (fun c => Ascii.eqb c "-" || Ascii.eqb c "+" || in_range "a" "z" c || in_range "0" "9" c || Ascii.eqb c ".")%bool t = true).
  { intros t. apply all_chars_ext. intros c. cbn [contains_char]. unfold lower, digit.
    rewrite !orb_true_iff, ?orb_false_r. cbn. rewrite ?orb_true_iff.
    rewrite !(Ascii.eqb_sym c). intuition discriminate. }
  unfold pattern_2. rewrite is_match_full by reflexivity. cbn [seqs].
  apply lang_seq. exists a, ("/" ++ b)%string. split; [reflexivity|]. split; [apply lang_plus_set; auto|].
  apply lang_seq. exists "/", b. split; [reflexivity|]. split; [apply lang_lit; reflexivity|apply lang_plus_set; auto].
Qed.
Lemma serial_pattern s : serial_shape s -> is_match pattern_1 s = true.
Proof. intros H. exact (proj2 (serial_iff s) H). Qed.
Hint Resolve hash_pattern mime_pattern serial_pattern : sch.

Lemma ok_hash v h : valid_hash h -> tame_hash h -> ok v (named "hash") (to_json_hash h).
Proof. intros [H _] T. unfold tame_hash in T. unfold to_json_hash, jtext. destruct v; go. Qed.
Hint Resolve ok_hash : sch.
Lemma ok_property v p : ok v (named "property") (to_json_property p).
Proof. unfold to_json_property. destruct v; go. Qed.
Hint Resolve ok_property : sch.
Lemma ok_text v t : valid_text t -> ok v (named "attachment") (to_json_attached_text t).
Proof.
  intros [_ H]. unfold to_json_attached_text, jtext. destruct v; go;
  (rewrite E in H; destruct a; [left; reflexivity|contradiction]).
Qed.
Lemma ok_attachment v a : valid_attachment a -> ok v (named "attachment") (to_json_attachment a).
Proof. intros H. unfold to_json_attachment, valid_attachment in *. destruct v; open_hyps; go;
   (left; symmetry; auto).
Qed.
Hint Resolve ok_text ok_attachment : sch.
Lemma ok_contact v c : tame_contact fmt v c -> ok v (named "organizationalContact") (to_json_contact c).
Proof. intros H. unfold tame_contact in H. unfold to_json_contact. destruct v; open_hyps; go. Qed.
Hint Resolve ok_contact : sch.
Lemma ok_entity v e : valid_entity x v e -> tame_entity fmt v e -> ok v (named "organizationalEntity") (to_json_entity e).
Proof. intros V T. unfold tame_entity, valid_entity in *. unfold to_json_entity. destruct v; open_hyps; go. Qed.
Hint Resolve ok_entity : sch.
Lemma ok_ext_ref v e : valid_ext_ref x v e -> tame_ext_ref fmt v e -> ok v (named "externalReference") (to_json_external_reference e).
Proof.
  intros V T. unfold valid_ext_ref, tame_ext_ref in *. unfold to_json_external_reference, jtext.
  assert (U : exists s, to_json_uri (er_url e) = JStr s /\ fmt "iri-reference" s = true).
  { destruct V as (_ & V & _), T as (_ & T & _). destruct (er_url e); eexists; split; try reflexivity; auto using uri_ok. }
  destruct U as (s & -> & U).
  destruct v; open_hyps; go.
Qed.
Hint Resolve ok_ext_ref : sch.

Lemma ok_signature v s : v <> V1_3 -> tame_signature s -> ok v (named "signature") (to_json_signature s).
Proof.
  intros N T. destruct s as [l|l|g]; try contradiction.
  assert (A : ok v (Sch [KRef "jsf:signer"]) (to_json_signer g)).
  { cbn in T. unfold valid_signer in T.
    assert (V : ok v (Sch [KOneOf [Sch [KType Ty_string; KEnum ["RS256"; "RS384"; "RS512"; "PS256"; "PS384"; "PS512"; "ES256"; "ES384"; "ES512";
      "Ed25519"; "Ed448"; "HS256"; "HS384"; "HS512"]]; Sch [KType Ty_string; KFormat "uri"]]])
      (to_json_algorithm (sg_algorithm g))).
    { assert (Q : to_json_algorithm (sg_algorithm g) = JStr (text_algorithm (sg_algorithm g))).
      { destruct (sg_algorithm g) eqn:Q; try reflexivity. destruct (T _ eq_refl). }
      rewrite Q. apply conforms_intro. foralls. apply (meets_one _ _ 0). split.
      - go.
      - foralls. eapply violates_intro; [right; left; reflexivity|]. apply fails_format, (fa_algorithm _ _ FA). exact T. }
    unfold to_json_signer.
    destruct v; go. }
  assert (F : forall k ks, existsb (String.eqb "algorithm") ks = false ->
     violates fmt (schema_definitions v) (Sch [KOnly ks; k]) (to_json_signer g)).
  { intros k ks E. eapply violates_intro; [left; reflexivity|]. eapply fails_only; [left; reflexivity|exact E]. }
  assert (G : conforms fmt (schema_definitions v) jsf_signature (to_json_signature (SigSingle g))).
  { apply conforms_intro. foralls; [kw|]. apply (meets_one _ _ 2). cbn [only]. split; [auto|split; [auto|split; [exact A|constructor]]]. }
  destruct v; [congruence| |]; apply (conforms_ref _ _ _ (Sch [KRef "jsf:signature"])); try reflexivity;
    apply (conforms_ref _ _ _ jsf_signature); try reflexivity; exact G.
Qed.
Lemma ok_signature_14 s : tame_signature s -> ok V1_4 (named "signature") (to_json_signature s).
Proof. apply ok_signature. discriminate. Qed.
Lemma ok_signature_15 s : tame_signature s -> ok V1_5 (named "signature") (to_json_signature s).
Proof. apply ok_signature. discriminate. Qed.
Hint Resolve ok_signature_14 ok_signature_15 : sch.

Lemma ok_license_contact c :
  valid_license_contact x V1_5 c -> tame_license_contact fmt V1_5 c ->
  ok V1_5 (Sch [KType Ty_object; KOnly ["organization"; "individual"]; KProperties
    [("organization", Sch [KRef "organizationalEntity"]); ("individual", Sch [KRef "organizationalContact"])];
    KOneOf [Sch [KRequired ["organization"]]; Sch [KRequired ["individual"]]]]) (to_json_license_contact c).
Proof.
  destruct c as [o|c]; intros V T; cbn in V, T; unfold to_json_license_contact.
  - change (JObj [("organization", to_json_entity o)]) with (obj [("organization", Some (to_json_entity o))]).
    go. required_one.
  - change (JObj [("individual", to_json_contact c)]) with (obj [("individual", Some (to_json_contact c))]).
    go. required_one.
Qed.
Hint Resolve ok_license_contact : sch.
Lemma spdx_ok s : x_spdx_id x s = true -> In s spdx_ids.
Proof. apply (fa_spdx _ _ FA). Qed.
Hint Resolve spdx_ok : sch.
Lemma ok_licensing l : valid_licensing x V1_5 l -> tame_licensing fmt V1_5 l ->
  ok V1_5 (sub "licensing" s15_license) (to_json_licensing l).
Proof.
  intros V (A1 & A2 & A3 & A4 & A5 & A6 & A7 & A8). unfold valid_licensing in V. unfold to_json_licensing, jtext.
  destruct A1 as (a1 & E1 & _), A2 as (a2 & E2 & A2), A3 as (a3 & E3 & A3), A4 as (a4 & E4 & A4),
    A5 as (a5 & E5 & _), A6 as (a6 & E6 & _), A7 as (a7 & E7 & _), A8 as (a8 & E8 & _).
  rewrite E1, E2, E3, E4, E5, E6, E7, E8 in *. unfold opt_null.
  destruct V as (V1 & V2 & V3 & V4 & V6 & V7 & V8). cbn [when] in *. open_hyps.
  go.
Qed.

Hint Extern 1 (conforms _ _ _ (to_json_licensing _)) => eapply ok_licensing : sch.

Lemma ok_license v l : valid_license x v l -> tame_license fmt v l -> ok v (named "license") (to_json_license v l).
Proof.
  intros V T. unfold valid_license, tame_license in *. unfold to_json_license.
  destruct v; open_hyps; destruct (l_identifier l) as [s|s]; cbn in H; unfold license_identifier_member; go;
    try required_one.
Qed.
Hint Resolve ok_license : sch.

Lemma ok_license_choice v c : v <> V1_5 -> valid_license_choice x v c -> tame_license_choice fmt v c ->
  ok v (named "licenseChoice") (to_json_license_choice v c).
Proof.
  intros N V T. destruct c as [l|r e]; cbn in V, T; unfold to_json_license_choice.
  - change (JObj [("license", to_json_license v l)]) with (obj [("license", Some (to_json_license v l))]).
    destruct v; [| |congruence]; go; required_one.
  - destruct v; [| |congruence]; open_hyps; go; required_one.
Qed.
Lemma ok_license_choice_13 c : valid_license_choice x V1_3 c -> tame_license_choice fmt V1_3 c ->
  ok V1_3 (named "licenseChoice") (to_json_license_choice V1_3 c).
Proof. apply ok_license_choice. discriminate. Qed.
Lemma ok_license_choice_14 c : valid_license_choice x V1_4 c -> tame_license_choice fmt V1_4 c ->
  ok V1_4 (named "licenseChoice") (to_json_license_choice V1_4 c).
Proof. apply ok_license_choice. discriminate. Qed.
Hint Resolve ok_license_choice_13 ok_license_choice_14 : sch.

Lemma ok_licenses_15 l : valid_licenses x V1_5 l -> every (tame_license_choice fmt V1_5) l ->
  ok V1_5 (named "licenseChoice") (arr (to_json_license_choice V1_5) l).
Proof.
  intros [V M] T. specialize (M eq_refl). eapply conforms_ref; [reflexivity|]. unfold s15_licenseChoice.
  assert (A : (forall c, In c l -> exists k, c = LicLicense k) \/ exists r e, l = [LicExpression r e]).
  { destruct M as [M|M]; [left; exact M|]. destruct l as [|[k|r e] [|]]; cbn in M; try lia; eauto.
    - left. intros c [].
    - left. intros c [<-|[]]. eauto. }
  clear M. open_hyps. apply conforms_intro. foralls; [kw|].
  destruct A as [A|(r & e & ->)].
  - apply (meets_one _ _ 0). split.
    + apply conforms_intro. foralls; [kw|]. apply meets_arr. intros c I. destruct (A c I) as [k ->].
      specialize (V0 _ I). specialize (T0 _ I). cbn in V0, T0. unfold to_json_license_choice.
      change (JObj [("license", to_json_license V1_5 k)]) with (obj [("license", Some (to_json_license V1_5 k))]). go.
    + foralls. destruct l as [|c l].
      * eapply violates_intro; [right; left; reflexivity|]. apply fails_min_items. reflexivity.
      * eapply violates_intro; [do 3 right; left; reflexivity|]. destruct (A c (or_introl eq_refl)) as [k ->].
        apply fails_tuple. eapply violates_intro; [right; right; left; reflexivity|].
        apply (fails_required _ _ _ [("license", Some (to_json_license V1_5 k))] "expression"); [left; reflexivity|].
        foralls. right. discriminate.
  - specialize (T0 _ (or_introl eq_refl)). cbn in T0. open_hyps. apply (meets_one _ _ 1). split; [|split; [|constructor]].
    + eapply violates_intro; [right; left; reflexivity|]. eapply fails_items; [left; reflexivity|].
      eapply violates_intro; [right; left; reflexivity|].
      apply (fails_required _ _ _ [("bomRef", opt JStr r); ("expression", Some (JStr e))] "license"); [left; reflexivity|].
      foralls; right; discriminate.
    + apply conforms_intro. foralls; [kw| | |].
      * apply meets_min_items. cbn. lia.
      * apply meets_max_items. cbn. lia.
      * apply meets_tuple. cbn [combine map]. foralls. cbn [fst snd]. unfold to_json_license_choice. go.
Qed.
Hint Resolve ok_licenses_15 : sch.

Lemma ok_action v a : valid_action x a -> tame_action fmt a -> ok v (named "identifiableAction") (to_json_identifiable_action a).
Proof. unfold valid_action, tame_action. intros. unfold to_json_identifiable_action. destruct v; open_hyps; go. Qed.
Hint Resolve ok_action : sch.
Lemma ok_commit v c : valid_commit x c -> tame_commit fmt c -> ok v (named "commit") (to_json_commit c).
Proof. unfold valid_commit, tame_commit. intros. unfold to_json_commit. destruct v; open_hyps; go. Qed.
Hint Resolve ok_commit : sch.
Lemma ok_diff v d : valid_diff x d -> ok v (named "diff") (to_json_diff d).
Proof. unfold valid_diff. intros. unfold to_json_diff. destruct v; open_hyps; go. Qed.
Hint Resolve ok_diff : sch.
Lemma ok_source v s : valid_source x s -> ok v (sub "source" (defn "issue" v)) (to_json_source s).
Proof. unfold valid_source. intros. unfold to_json_source. destruct v; open_hyps; go. Qed.
Hint Extern 1 (conforms _ (schema_definitions ?v) _ (to_json_source _)) => apply (ok_source v) : sch.
Lemma ok_issue v i : valid_issue x i -> ok v (named "issue") (to_json_issue i).
Proof. unfold valid_issue. intros. unfold to_json_issue, jtext. destruct v; open_hyps; go. Qed.
Hint Resolve ok_issue : sch.
Lemma ok_patch v p : valid_patch x p -> ok v (named "patch") (to_json_patch p).
Proof. unfold valid_patch. intros. unfold to_json_patch, jtext. destruct v; open_hyps; go. Qed.
Hint Resolve ok_patch : sch.
Lemma ok_swid v s : valid_swid x s -> ok v (named "swid") (to_json_swid s).
Proof. unfold valid_swid. intros. unfold to_json_swid. destruct v; open_hyps; go. Qed.
Hint Resolve ok_swid : sch.
End Conform.

#[global] Hint Resolve time_ok uri_ok different_texts once_ok email_ok ref_ok spdx_ok serial_pattern mime_pattern
  ok_hash ok_property ok_text ok_attachment ok_contact ok_entity ok_ext_ref ok_signature_14 ok_signature_15
  ok_license_contact ok_license ok_license_choice_13 ok_license_choice_14 ok_licenses_15 ok_action ok_commit
  ok_diff ok_issue ok_patch ok_swid : sch.

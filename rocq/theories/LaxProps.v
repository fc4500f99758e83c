(** C79: what the lenient constructors make *)
From Verif Require Import Base Strings ModelTypes ValModel ValSpec ValProofs ValProofs2 ValProps LaxModel.
Open Scope string_scope.

(** [t] is [s] with " OR " in place of each slash *)
Inductive slashes_replaced : string -> string -> Prop :=
| sr_end : slashes_replaced "" ""
| sr_slash s t : slashes_replaced s t -> slashes_replaced (String "/" s) (" OR " ++ t)
| sr_other c s t : c <> "/"%char -> slashes_replaced s t -> slashes_replaced (String c s) (String c t).
Lemma slashes_iff s : forall t, slashes_replaced s t <-> t = replace_char "/" " OR " s.
Proof.
  induction s as [|c s IH]; intros t; cbn [replace_char].
  - split; [inversion 1; reflexivity|intros ->; constructor].
  - destruct (Ascii.eqb_spec c "/") as [->|N]; split.
    + inversion 1 as [|? ? H' |? ? ? N]; subst; [|congruence]. f_equal. now apply IH.
    + intros ->. apply sr_slash. now apply IH.
    + inversion 1 as [|? ? H' |? ? ? N' H']; subst; [congruence|]. f_equal. now apply IH.
    + intros ->. apply sr_other; [exact N|]. now apply IH.
Qed.
Lemma replace_absent c r s : contains_char c s = false -> replace_char c r s = s.
Proof. induction s as [|a s IH]; cbn [contains_char replace_char]; [reflexivity|]. destruct (Ascii.eqb a c); [discriminate|]. cbn. intros H. now rewrite IH. Qed.
Lemma no_slash s : contains_char "/" (replace_char "/" " OR " s) = false.
Proof.
  induction s as [|c s IH]; cbn [replace_char]; [reflexivity|]. destruct (Ascii.eqb_spec c "/") as [->|N].
  - rewrite contains_char_app, IH. reflexivity.
  - cbn [contains_char]. rewrite IH. destruct (Ascii.eqb_spec c "/"); [congruence|reflexivity].
Qed.

(** A lenient expression is accepted exactly if the lenient parser takes it and replacing the slashes makes it valid; this
    replaced text, in which there is no slash, is the result. *)
Theorem C79_parse_lax x l s t : parse_lax x l s = Some t <->
  l_lax l s = true /\ slashes_replaced s t /\ forall r, validate_spdx_expression x (r, t) = None.
Proof.
  unfold parse_lax, spdx_expr_try_from, checked, validate_spdx_expression. rewrite slashes_iff. split.
  - destruct (l_lax l s); [|discriminate]. destruct (x_spdx_expr x _) eqn:E; [|discriminate]. intros H. injection H as <-.
    split; [reflexivity|]. split; [reflexivity|]. intros r. cbn [snd]. now rewrite E.
  - intros (-> & -> & V). specialize (V None). cbn [snd] in V. destruct (x_spdx_expr x _); [reflexivity|discriminate V].
Qed.
Theorem C79_parse_lax_result x l s t : parse_lax x l s = Some t ->
  contains_char "/" t = false /\ spdx_expr_try_from x t = Some t /\ (contains_char "/" s = false -> t = s)
  /\ ((forall e, x_spdx_expr x e = true -> l_lax l e = true) -> parse_lax x l t = Some t).
Proof.
  intros H. apply C79_parse_lax in H as (L & R & V). apply slashes_iff in R. specialize (V None). unfold validate_spdx_expression in V. cbn [snd] in V.
  assert (E : x_spdx_expr x t = true) by (destruct (x_spdx_expr x t); [reflexivity|discriminate V]).
  assert (N : contains_char "/" t = false) by (subst t; apply no_slash).
  split; [exact N|]. split; [unfold spdx_expr_try_from, checked; now rewrite E|]. split; [intros S; subst t; now apply replace_absent|].
  intros I. unfold parse_lax. rewrite (I _ E), (replace_absent _ _ _ N). unfold spdx_expr_try_from, checked. now rewrite E.
Qed.
(** Where the lenient parser takes all valid expressions and slashes are not valid, valid expressions are taken as they are *)
Theorem C79_parse_lax_keeps x l s : (forall e, x_spdx_expr x e = true -> l_lax l e = true /\ contains_char "/" e = false) ->
  spdx_expr_try_from x s = Some s -> parse_lax x l s = Some s.
Proof.
  intros I H. unfold spdx_expr_try_from, checked in H. destruct (x_spdx_expr x s) eqn:E; [|discriminate H]. destruct (I _ E) as (L & N).
  unfold parse_lax. rewrite L, (replace_absent _ _ _ N). unfold spdx_expr_try_from, checked. now rewrite E.
Qed.
(** Where the libraries agree with themselves, what is made of imprecise licences and of the parts of a package URL is valid *)
Theorem C79_valid x l : (forall s t, l_imprecise l s = Some t -> x_spdx_id x t = true) ->
  (forall a b c t, l_purl l a b c = Some t -> x_purl x t = None) ->
  (forall s t, imprecise l s = Some t -> spdx_id_try_from x t = Some t /\ validate_spdx_identifier x t = None)
  /\ (forall a b c t, purl_new l a b c = Some t -> validate_purl x t = None).
Proof.
  intros I P. split.
  - intros s t H. apply I in H. unfold spdx_id_try_from, checked, validate_spdx_identifier. now rewrite H.
  - intros a b c t H. apply P in H. unfold validate_purl. now rewrite H.
Qed.
(** Package URLs read from text are not checked *)
Theorem C79_purl_from_str_refuted :
  (exists x s, validate_purl x s <> None) /\ forall x s, validate_purl x s <> None -> exists t, purl_from_str s = Some t /\ validate_purl x t <> None.
Proof. split; [exists picky_parsers, "nonsense"; vm_compute; discriminate|]. intros x s N. exists s. split; [reflexivity|assumption]. Qed.
(** ... neither are they changed *)
Theorem C79_purl_from_str_keeps s : purl_from_str s = Some s.
Proof. reflexivity. Qed.
(** What is valid as a BOM link is taken for one; but so is every URI that begins like one *)
Theorem C79_bom_links s : validate_bom_link V1_5 s = None -> uri_is_bomlink (uri_new s) = true.
Proof.
  intros H. apply bom_link_check_iff in H as (_ & H). unfold bom_link_shape in H. unfold uri_is_bomlink, uri_new.
  repeat match goal with K : exists _, _ |- _ => destruct K | K : _ /\ _ |- _ => destruct K end. subst. reflexivity.
Qed.
Theorem C79_bom_link_refuted : exists x s, uri_try_from x s = Some s /\ uri_is_bomlink s = true /\ validate_bom_link V1_5 s <> None.
Proof. exists (mkParsers (fun _ => true) (fun _ => true) (fun _ => None) (fun _ => true) (fun _ => true)), "urn:cdxgen:app". split; [reflexivity|]. split; [reflexivity|]. vm_compute. discriminate. Qed.
Definition some_lenient : lenient :=
  mkLenient (fun s => String.eqb s "MIT/Apache-2.0" || String.eqb s "MIT OR Apache-2.0") (fun s => if String.eqb s "mit" then Some "MIT" else None)
    (fun a b c => if String.eqb a "" then None else Some ("pkg:" ++ a ++ "/" ++ b ++ "@" ++ c)).
Example C79_case : parse_lax picky_parsers some_lenient "MIT/Apache-2.0" = Some "MIT OR Apache-2.0"
  /\ (forall e, x_spdx_expr picky_parsers e = true -> l_lax some_lenient e = true /\ contains_char "/" e = false)
  /\ (forall s t, l_imprecise some_lenient s = Some t -> x_spdx_id picky_parsers t = true)
  /\ (forall a b c t, l_purl some_lenient a b c = Some t -> x_purl picky_parsers t = None)
  /\ imprecise some_lenient "mit" = Some "MIT" /\ purl_new some_lenient "cargo" "a" "1" = Some "pkg:cargo/a@1".
Proof.
  split; [vm_compute; reflexivity|]. split; [|split; [|split; [|split; vm_compute; reflexivity]]].
  - intros e H. change (String.eqb "MIT OR Apache-2.0" e = true) in H. apply String.eqb_eq in H. subst e. split; vm_compute; reflexivity.
  - intros s t H. cbn in H. destruct (String.eqb s "mit"); [injection H as <-; vm_compute; reflexivity|discriminate H].
  - intros a b c t H. cbn [l_purl some_lenient] in H. destruct (String.eqb a ""); [discriminate H|]. injection H as <-. cbn [x_purl picky_parsers].
    match goal with |- (if starts_with ?p ?s then _ else _) = _ => assert (E : starts_with p s = true) by (apply starts_with_spec; eexists; reflexivity); now rewrite E end.
Qed.
Print Assumptions C79_parse_lax.
Print Assumptions C79_parse_lax_result.
Print Assumptions C79_parse_lax_keeps.
Print Assumptions C79_valid.
Print Assumptions C79_purl_from_str_refuted.
Print Assumptions C79_purl_from_str_keeps.
Print Assumptions C79_bom_links.
Print Assumptions C79_bom_link_refuted.

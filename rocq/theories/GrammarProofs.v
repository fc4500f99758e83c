(** The JSON readers accept exactly what the grammar of GrammarSpec.v describes *)
From Coq Require Import ZArith.
From Verif Require Import Base ModelTypes Strings Enums GenModel Json JsonLemmas JsonModel GrammarSpec.
Open Scope string_scope.
Open Scope list_scope.
Open Scope bool_scope.

Definition ok {A} (o : option A) : bool := match o with Some _ => true | None => false end.
Lemma ok_bind {A B} (o : option A) (f : A -> option B) b : (forall a, ok (f a) = b) -> ok (bindo o f) = ok o && b.
Proof. intros H. destruct o; cbn; auto. Qed.
Lemma ok_if {A} (c : bool) (o : option A) b : ok o = b -> ok (if c then o else None) = c && b.
Proof. intros <-. now destruct c. Qed.
Lemma ok_orelse {A} (x y : option A) : ok (orelse x y) = ok x || ok y.
Proof. now destruct x. Qed.
Lemma ok_map {A B} (o : option A) (f : A -> B) : ok (bindo o (fun a => Some (f a))) = ok o.
Proof. now destruct o. Qed.

(** ** Sizes *)
Fixpoint size (j : json) : nat :=
  match j with
  | JArr l => S ((fix go (l : list json) := match l with [] => 0 | x :: l' => size x + go l' end) l)
  | JObj l => S ((fix go (l : list (string * json)) := match l with [] => 0 | (_, x) :: l' => size x + go l' end) l)
  | _ => 1
  end.
Lemma size_arr l x : In x l -> size x < size (JArr l).
Proof. intros H. cbn [size]. induction l as [|y l IH]; [destruct H|]. destruct H as [->|H]; [lia|]. specialize (IH H). lia. Qed.
Lemma size_obj l k x : In (k, x) l -> size x < size (JObj l).
Proof.
  intros H. cbn [size]. induction l as [|[k' y] l IH]; [destruct H|].
  destruct H as [[= -> ->]|H]; [lia|]. specialize (IH H). lia.
Qed.

(** ** Fields *)
Definition in_array (k : string) (test : json -> bool) (absent : bool) : list json -> list string -> bool :=
  fix go l ks :=
    match l, ks with
    | x :: l', k' :: ks' => if String.eqb k k' then test x else go l' ks'
    | _, _ => absent
    end.
Definition is_default (p : presence) : bool := match p with Defaulted => true | _ => false end.
Definition has_field (p : presence) (test : json -> bool) (ks : list string) (k : string) (j : json) : bool :=
  match j with
  | JObj l => member k (value p test) (may_be_missing p) l
  | JArr l => in_array k (value p test) (is_default p) l ks
  | _ => false
  end.
Lemma ok_field {A} (f : json -> option A) ks k j :
  ok (field f ks k j) = has_field Required (fun x => ok (f x)) ks k j.
Proof.
  unfold field, get, has_field. destruct j as [| | | | |l|l]; try reflexivity.
  - revert ks. induction l as [|x l IH]; intros ks; [destruct ks; reflexivity|]. destruct ks as [|k' ks]; [reflexivity|].
    cbn [in_array]. destruct (String.eqb k k'); [cbn; now destruct (f x)|]. apply IH.
  - induction l as [|[k' x] l IH]; [reflexivity|]. cbn [member]. destruct (String.eqb k k'); [cbn; now destruct (f x)|]. apply IH.
Qed.
Lemma ok_field_opt {A} (f : json -> option A) ks k j :
  ok (field_opt f ks k j) = has_field Optional (fun x => ok (f x)) ks k j.
Proof.
  unfold field_opt, get, has_field. destruct j as [| | | | |l|l]; try reflexivity.
  - revert ks. induction l as [|x l IH]; intros ks; [destruct ks; reflexivity|]. destruct ks as [|k' ks]; [reflexivity|].
    cbn [in_array]. destruct (String.eqb k k'); [|apply IH]. unfold nullable. destruct x; cbn; try reflexivity; match goal with |- context [f ?y] => now destruct (f y) end.
  - induction l as [|[k' x] l IH]; [reflexivity|]. cbn [member]. destruct (String.eqb k k'); [|apply IH].
    unfold nullable. destruct x; cbn; try reflexivity; match goal with |- context [f ?y] => now destruct (f y) end.
Qed.
Lemma ok_field_default {A} (d : A) (f : json -> option A) ks k j : (match j with JObj _ | JArr _ => true | _ => false end) = true ->
  ok (field_default d f ks k j) = has_field Defaulted (fun x => ok (f x)) ks k j.
Proof.
  unfold field_default, get, has_field. destruct j as [| | | | |l|l]; try discriminate; intros _.
  - revert ks. induction l as [|x l IH]; intros ks; [destruct ks; reflexivity|]. destruct ks as [|k' ks]; [reflexivity|].
    cbn [in_array]. destruct (String.eqb k k'); [cbn; now destruct (f x)|]. apply IH.
  - induction l as [|[k' x] l IH]; [reflexivity|]. cbn [member]. destruct (String.eqb k k'); [cbn; now destruct (f x)|]. apply IH.
Qed.
Lemma value_ext p t t' x : t x = t' x -> value p t x = value p t' x.
Proof. intros H. destruct p, x; cbn; auto. Qed.
Lemma member_ext k t t' a l : (forall x, In (k, x) l -> t x = t' x) -> member k t a l = member k t' a l.
Proof.
  intros H. induction l as [|[k' x] l IH]; [reflexivity|]. cbn [member].
  destruct (String.eqb_spec k k') as [->|]; [apply H; now left|]. apply IH. intros y Hy. apply H. now right.
Qed.
Lemma has_field_ext p t t' ks k j : (forall x, size x < size j -> t x = t' x) -> has_field p t ks k j = has_field p t' ks k j.
Proof.
  intros H. destruct j as [| | | | |l|l]; try reflexivity; cbn [has_field].
  - assert (K : forall x, In x l -> t x = t' x) by (intros x Hx; apply H; now apply size_arr). clear H.
    revert ks. induction l as [|x l IH]; intros ks; [destruct ks; reflexivity|]. destruct ks as [|k' ks]; [reflexivity|].
    cbn [in_array]. destruct (String.eqb k k'); [apply value_ext, K; now left|]. apply IH. intros y Hy. apply K. now right.
  - apply member_ext. intros x Hx. apply value_ext, H. eapply size_obj; eauto.
Qed.

Lemma forallb_ext {X} (f g : X -> bool) l : (forall x, f x = g x) -> forallb f l = forallb g l.
Proof. intros H. induction l as [|x l IH]; [reflexivity|]. cbn. now rewrite H, IH. Qed.
Lemma struct_ok_obj ks l : struct_ok ks (JObj l) = forallb (fun k => at_most_once k l) ks.
Proof.
  cbn [struct_ok]. apply forallb_ext. intros k. unfold at_most_once. f_equal.
  induction l as [|[k' x] l IH]; [reflexivity|]. cbn [count_key filter fst]. destruct (String.eqb k k'); cbn [List.length]; rewrite IH; reflexivity.
Qed.

(** ** Unfolding [fits] *)
Section FITS.
Variable G : string -> kind.
Notation fits := (fits G).
Definition keys_of (fs : list entry) : list string := map fst fs.
Definition fields_fit (fs : list entry) (j : json) : bool :=
  forallb (fun f => has_field (fst (snd f)) (fun x => fits x (snd (snd f))) (keys_of fs) (fst f) j) fs.
Lemma fits_named s j : match G s with Named _ => False | _ => True end -> fits j (Named s) = fits j (G s).
Proof. destruct j; cbn [GrammarSpec.fits]; destruct (G s); intros H; try contradiction; reflexivity. Qed.
Lemma fits_object fs j : fits j (Object fs) = object_ok (keys_of fs) j && fields_fit fs j.
Proof.
  destruct j as [| | | | |l|l]; try reflexivity. cbn [GrammarSpec.fits object_ok]. rewrite struct_ok_obj. unfold fields_fit, keys_of.
  generalize (map fst fs) at 2 as ks. intros ks. cbn [has_field].
  induction fs as [|(k, (p, t)) fs IH]; [reflexivity|]. cbn [forallb map fst snd]. rewrite IH.
  destruct (at_most_once k l), (forallb (fun k => at_most_once k l) (map fst fs)); cbn; auto using andb_false_r.
Qed.
Lemma positional_spec (test : kind -> json -> bool) : forall fs l, NoDup (keys_of fs) ->
  positional test l fs = Nat.leb (List.length l) (List.length fs)
    && forallb (fun f => in_array (fst f) (value (fst (snd f)) (test (snd (snd f)))) (is_default (fst (snd f))) l (keys_of fs)) fs.
Proof.
  induction fs as [|(k, (p, t)) fs IH]; intros l N.
  - destruct l; reflexivity.
  - destruct l as [|x l].
    + cbn [positional List.length Nat.leb andb]. apply forallb_ext. intros (k', (p', t')). destruct p'; reflexivity.
    + inversion N as [|k0 ks0 N1 N2]; subst.
      assert (Q : forallb (fun f => in_array (fst f) (value (fst (snd f)) (test (snd (snd f)))) (is_default (fst (snd f))) (x :: l) (k :: keys_of fs)) fs
        = forallb (fun f => in_array (fst f) (value (fst (snd f)) (test (snd (snd f)))) (is_default (fst (snd f))) l (keys_of fs)) fs).
      { assert (K : forall f, In f fs -> fst f <> k). { intros f Hf E. apply N1. rewrite <- E. now apply in_map. }
        clear - K. generalize (keys_of fs) as ks. intros ks.
        induction fs as [|f fs IH]; [reflexivity|]. cbn [forallb]. rewrite IH by (intros g Hg; apply K; now right). f_equal.
        cbn [in_array]. destruct (String.eqb_spec (fst f) k) as [E|]; [|reflexivity].
        exfalso. apply (K f); [now left|exact E]. }
      change (keys_of ((k, (p, t)) :: fs)) with (k :: keys_of fs). cbn [positional fst snd forallb List.length Nat.leb].
      rewrite Q, IH by exact N2. cbn [in_array fst]. rewrite String.eqb_refl.
      destruct (Nat.leb (List.length l) (List.length fs)), (value p (test t) x); reflexivity.
Qed.
Lemma fits_struct fs j : NoDup (keys_of fs) -> fits j (Struct fs) = struct_ok (keys_of fs) j && fields_fit fs j.
Proof.
  intros N. destruct j as [| | | | |l|l]; try reflexivity.
  - cbn [GrammarSpec.fits struct_ok]. rewrite positional_spec by exact N. unfold keys_of at 2. rewrite map_length. reflexivity.
  - pose proof (fits_object fs (JObj l)) as H. exact H.
Qed.
Lemma fits_list t l : fits (JArr l) (ListOf t) = forallb (fun x => fits x t) l.
Proof. reflexivity. Qed.
Lemma fits_one_of ks j : Forall (fun t => match t with Named _ => False | _ => True end) ks ->
  fits j (OneOf ks) = existsb (fun t => fits j t) ks.
Proof.
  intros H. assert (E : forall t, match t with Named _ => False | _ => True end -> fits j (OneOf [t]) = fits j t).
  { intros t Ht. destruct j, t; try contradiction; cbn; rewrite ?orb_false_r; reflexivity. }
  induction H as [|t ks Ht Hk IH]; [destruct j; reflexivity|]. cbn [existsb]. rewrite <- IH, <- (E t Ht).
  destruct j; cbn; rewrite ?orb_false_r; reflexivity.
Qed.
Lemma fits_both a b j : match a with Named _ => False | _ => True end -> match b with Named _ => False | _ => True end ->
  fits j (Both a b) = fits j a && fits j b.
Proof. intros Ha Hb. destruct j, a; try contradiction; destruct b; try contradiction; reflexivity. Qed.

(** ** Values that are not structs *)
Lemma fits_str x : ok (dec_str x) = fits x Str.
Proof. now destruct x. Qed.
Lemma fits_text {A} (p : string -> A) x : ok (dec_text p x) = fits x Str.
Proof. now destruct x. Qed.
Lemma fits_uri x : ok (dec_uri x) = fits x Str.
Proof. now destruct x. Qed.
Lemma fits_bool x : ok (dec_bool x) = fits x Bool.
Proof. now destruct x. Qed.
Lemma fits_f32 x : ok (dec_f32 x) = fits x Number.
Proof. now destruct x. Qed.
Lemma fits_u32 x : ok (dec_u32 x) = fits x Nat32.
Proof.
  destruct x as [| |z| | | |]; try reflexivity. cbn [dec_u32 GrammarSpec.fits].
  destruct (Z.ltb_spec z 0) as [H|H]; [destruct (Z.leb_spec 0 z); [lia|reflexivity]|].
  destruct (Z.leb_spec 0 z); [|lia]. cbn [andb].
  assert (E : ok (u32_of_N (Z.to_N z)) = (Z.to_N z <? 4294967296)%N).
  { unfold u32_of_N.
    assert (Q : forall b (E : (Z.to_N z <? 4294967296)%N = b),
      ok (match b as b0 return ((Z.to_N z <? 4294967296)%N = b0 -> option u32) with
          | true => fun H => Some (mkU32 (Z.to_N z) H)
          | false => fun _ => None
          end E) = b) by (intros [] E; reflexivity).
    apply Q. }
  rewrite E. destruct (N.ltb_spec (Z.to_N z) 4294967296), (Z.ltb_spec z 4294967296); auto; lia.
Qed.
Lemma fits_dec_list {A} (f : json -> option A) t x : (forall y, size y < size x -> ok (f y) = fits y t) ->
  ok (dec_list f x) = fits x (ListOf t).
Proof.
  intros H. destruct x as [| | | | |l|]; try reflexivity. rewrite fits_list.
  assert (K : forall y, In y l -> ok (f y) = fits y t) by (intros y Hy; apply H; now apply size_arr). clear H.
  unfold dec_list. induction l as [|y l IH]; [reflexivity|]. cbn [forallb]. rewrite <- (K y (or_introl eq_refl)).
  rewrite <- IH by (intros z Hz; apply K; now right).
  destruct (f y); cbn; [|reflexivity]. now destruct (_ l).
Qed.
End FITS.

(** ** The readers *)
Lemma ok_when {A} b (x : option (option A)) : ok (field_when b x) = if b then ok x else true.
Proof. now destruct b. Qed.
Lemma size_mono_list (P : json -> Prop) x : (forall y, P y) -> forall y, size y < size x -> P y.
Proof. auto. Qed.

Ltac nodup := apply nodupb_NoDup; vm_compute; reflexivity.
Ltac compute_kind :=
  match goal with |- context [kind_of ?v ?s] =>
    let t := eval lazy in (kind_of v s) in change (kind_of v s) with t at 1 end.
(* the kind of this name *)
Ltac named_kind :=
  match goal with |- _ = fits (kind_of ?v) ?j (Named ?s) =>
    let t := eval lazy in (kind_of v s) in
    rewrite (fits_named (kind_of v) s j); [change (fits (kind_of v) j (kind_of v s)) with (fits (kind_of v) j t)|exact Logic.I]
  end.
(* the left-hand side as a conjunction of the parts that have to be readable *)
Ltac push :=
  first [ eapply ok_if; push
        | eapply ok_bind; let a := fresh "a" in intros a; push
        | exact (eq_refl true) | reflexivity ].
Ltac versions :=
  repeat match goal with |- context [since ?a ?b] => let r := eval compute in (since a b) in change (since a b) with r end;
  cbn iota.
Create HintDb accept.
Ltac leaf :=
  first [ apply fits_str | apply fits_text | apply fits_uri | apply fits_bool | apply fits_f32 | apply fits_u32
        | apply fits_dec_list; intros; leaf
        | solve [eauto 2 with accept] ].
Lemma field_fits {A} (f : json -> option A) ks k j t :
  (forall x, size x < size j -> ok (f x) = t x) -> ok (field f ks k j) = has_field Required t ks k j.
Proof. intros H. rewrite ok_field. now apply has_field_ext. Qed.
Lemma field_opt_fits {A} (f : json -> option A) ks k j t :
  (forall x, size x < size j -> ok (f x) = t x) -> ok (field_opt f ks k j) = has_field Optional t ks k j.
Proof. intros H. rewrite ok_field_opt. now apply has_field_ext. Qed.
Lemma if_fits {A} (c : bool) (o : option A) b : ok o = b -> ok (if c then o else None) = c && b.
Proof. intros <-. now destruct c. Qed.
Lemma bind_fits {A B} (o : option A) (f : A -> option B) b c :
  ok o = b -> (forall a, ok (f a) = c) -> ok (bindo o f) = b && c.
Proof. intros <- H. destruct o; cbn; auto. Qed.
Lemma bind_skips {A B} c (x : option (option A)) (f : option A -> option B) b : c = false -> ok (f None) = b ->
  ok (bindo (field_when c x) f) = b.
Proof. intros -> H. exact H. Qed.
Ltac a_field :=
  first [ apply field_fits; intros; leaf
        | apply field_opt_fits; intros; leaf
        | match goal with |- ok (field_when _ _) = _ => apply field_opt_fits; intros; leaf end
        | versions; rewrite ok_map; apply field_fits; intros; leaf
        | versions; apply field_opt_fits; intros; leaf ].
Ltac all_fields :=
  repeat first
    [ match goal with |- ok (bindo (field_when _ _) _) = _ => apply bind_skips; [reflexivity|] end
    | apply bind_fits; [a_field|intros ?] ];
  reflexivity.
Ltac expand := unfold fields_fit; cbn [forallb map keys_of fst snd].
Ltac fields := expand; apply if_fits; all_fields.
Ltac a_struct := rewrite fits_struct by nodup; fields.
Ltac an_object := rewrite fits_object; fields.
Lemma one_of1 G t j : match t with Named _ => False | _ => True end -> fits G j (OneOf [t]) = fits G j t.
Proof. intros H. rewrite fits_one_of by (repeat constructor; exact H). apply orb_false_r. Qed.
Lemma one_of2 G t u j : match t with Named _ => False | _ => True end -> match u with Named _ => False | _ => True end ->
  fits G j (OneOf [t; u]) = fits G j t || fits G j u.
Proof. intros H K. rewrite fits_one_of by (repeat constructor; assumption). cbn [existsb]. now rewrite orb_false_r. Qed.
Lemma and_swap a b c : a && (b && c) = b && (a && c).
Proof. now destruct a, b. Qed.
Lemma and_swap2 a b c d : a && (b && (c && d)) = b && (c && (a && d)).
Proof. now destruct a, b, c. Qed.
Ltac a_tagged :=
  match goal with |- _ = fits _ ?j _ => destruct j as [| | | | | |[|[? ?] [|? ?]]]; try reflexivity end;
  cbn [ext_tag bindo fits named];
  repeat (match goal with |- context [String.eqb ?k ?s] => destruct (String.eqb k s); [rewrite ok_map; leaf|] end);
  reflexivity.
Lemma known_algorithm s : ok (match algorithm_of_text s with AlgUnknown _ => None | a => Some a end)
  = among s ["RS256"; "RS384"; "RS512"; "PS256"; "PS384"; "PS512"; "ES256"; "ES384";
            "ES512"; "Ed25519"; "Ed448"; "HS256"; "HS384"; "HS512"].
Proof.
  unfold algorithm_of_text, among, of_table. cbn [tbl_algorithm existsb find fst snd]. rewrite !(fun k => String.eqb_sym k s).
  repeat (match goal with |- context [String.eqb ?k ?s] => destruct (String.eqb k s); [reflexivity|] end). reflexivity.
Qed.
Lemma fits_identifier G j : ok (of_json_license_identifier j) = fits G j (FirstMember ["id"; "name"] Str).
Proof.
  destruct j as [| | | | | |l]; try reflexivity. unfold of_json_license_identifier, first_of.
  induction l as [|[k x] l IH]; [reflexivity|]. cbn [fits first_member first_named].
  change (memb k ["id"; "name"]) with (among k ["id"; "name"]). destruct (among k ["id"; "name"]); [|exact IH].
  cbn [bindo]. rewrite ok_map. apply fits_str.
Qed.
Lemma fits_version_range G j : ok (of_json_version_range j) = fits G j (FirstMember ["version"; "range"; "undefinedVersionRange"] Str).
Proof.
  destruct j as [| | | | | |l]; try reflexivity. unfold of_json_version_range, first_of.
  induction l as [|[k x] l IH]; [reflexivity|]. cbn [fits first_member first_named].
  change (memb k ["version"; "range"; "undefinedVersionRange"]) with (among k ["version"; "range"; "undefinedVersionRange"]).
  destruct (among k ["version"; "range"; "undefinedVersionRange"]); [|exact IH].
  cbn [bindo]. rewrite ok_map. apply fits_str.
Qed.
Lemma fits_variant G {A B} k (f : json -> option A) (c : A -> B) t j :
  (forall x, size x < size j -> ok (f x) = fits G x t) -> ok (variant k f c j) = fits G j (Object [req k t]).
Proof.
  intros H. rewrite fits_object. unfold variant. expand. apply if_fits. apply bind_fits; [now apply field_fits|reflexivity].
Qed.
Lemma unit_fits G {A} (f : string -> option A) ws x : (forall s, ok (f s) = among s ws) ->
  ok (dec_unit_variant f x) = fits G x (Word ws).
Proof. intros H. destruct x as [| | | | | |[|[k []] [|? ?]]]; try reflexivity; apply H. Qed.
Lemma format_fits G x :
  ok (dec_unit_variant (fun s => if String.eqb s "CycloneDX" then Some tt else None) x) = fits G x (Word ["CycloneDX"]).
Proof. apply unit_fits. intros s. cbn. now destruct (String.eqb s "CycloneDX"). Qed.
Lemma version_fits G x : ok (dec_unit_variant version_of_text x) = fits G x (Word ["1.3"; "1.4"; "1.5"]).
Proof.
  apply unit_fits. intros s. unfold version_of_text, among. cbn [existsb].
  repeat (match goal with |- context [String.eqb ?k ?s] => destruct (String.eqb k s); [reflexivity|] end). reflexivity.
Qed.
Global Hint Resolve format_fits version_fits : accept.
Definition component_step (v : spec_version) (of : json -> option component) (j : json) : option component :=
  if struct_ok (keys_component v) j then
    let? a1 := field (dec_text classification_of_text) (keys_component v) "type" j in
    let? a2 := field_opt dec_str (keys_component v) "mime-type" j in
    let? a3 := field_opt dec_str (keys_component v) "bom-ref" j in
    let? a4 := field_opt of_json_entity (keys_component v) "supplier" j in
    let? a5 := field_opt dec_str (keys_component v) "author" j in
    let? a6 := field_opt dec_str (keys_component v) "publisher" j in
    let? a7 := field_opt dec_str (keys_component v) "group" j in
    let? a8 := field dec_str (keys_component v) "name" j in
    let? a9 := (if since V1_4 v then field_opt dec_str (keys_component v) "version" j
                else let? s := field dec_str (keys_component v) "version" j in Some (Some s)) in
    let? a10 := field_opt dec_str (keys_component v) "description" j in
    let? a11 := field_opt (dec_text scope_of_text) (keys_component v) "scope" j in
    let? a12 := field_opt (dec_list of_json_hash) (keys_component v) "hashes" j in
    let? a13 := field_opt (dec_list (of_json_license_choice v)) (keys_component v) "licenses" j in
    let? a14 := field_opt dec_str (keys_component v) "copyright" j in
    let? a15 := field_opt dec_str (keys_component v) "cpe" j in
    let? a16 := field_opt dec_str (keys_component v) "purl" j in
    let? a17 := field_opt of_json_swid (keys_component v) "swid" j in
    let? a18 := field_opt dec_bool (keys_component v) "modified" j in
    let? a19 := field_opt (of_json_pedigree of) (keys_component v) "pedigree" j in
    let? a20 := field_opt (dec_list of_json_external_reference) (keys_component v)
                  "externalReferences" j in
    let? a21 := field_opt (dec_list of_json_property) (keys_component v) "properties" j in
    let? a22 := field_opt (dec_list of) (keys_component v) "components" j in
    let? a23 := field_opt (of_json_evidence v) (keys_component v) "evidence" j in
    let? a24 := field_when (since V1_4 v)
                  (field_opt of_json_signature (keys_component v) "signature" j) in
    let? a25 := field_when (since V1_5 v)
                  (field_opt of_json_model_card (keys_component v) "modelCard" j) in
    let? a26 := field_when (since V1_5 v)
                  (field_opt of_json_component_data (keys_component v) "data" j) in
    Some (mkComponent a1 a2 a3 a4 a5 a6 a7 a8 a9 a10 a11 a12 a13 a14 a15 a16 a17 a18 a19 a20 a21
            a22 a23 a24 a25 a26)
  else None.
Definition service_step (v : spec_version) (of : json -> option service) (j : json) : option service :=
  if struct_ok (keys_service v) j then
    let? a1 := field_opt dec_str (keys_service v) "bom-ref" j in
    let? a2 := field_opt of_json_entity (keys_service v) "provider" j in
    let? a3 := field_opt dec_str (keys_service v) "group" j in
    let? a4 := field dec_str (keys_service v) "name" j in
    let? a5 := field_opt dec_str (keys_service v) "version" j in
    let? a6 := field_opt dec_str (keys_service v) "description" j in
    let? a7 := field_opt (dec_list dec_str) (keys_service v) "endpoints" j in
    let? a8 := field_opt dec_bool (keys_service v) "authenticated" j in
    let? a9 := field_opt dec_bool (keys_service v) "x-trust-boundary" j in
    let? a10 := field_opt (of_json_data v) (keys_service v) "data" j in
    let? a11 := field_opt (dec_list (of_json_license_choice v)) (keys_service v) "licenses" j in
    let? a12 := field_opt (dec_list of_json_external_reference) (keys_service v)
                  "externalReferences" j in
    let? a13 := field_opt (dec_list of_json_property) (keys_service v) "properties" j in
    let? a14 := field_opt (dec_list of) (keys_service v) "services" j in
    let? a15 := field_when (since V1_4 v)
                  (field_opt of_json_signature (keys_service v) "signature" j) in
    let? a16 := field_when (since V1_5 v) (field_opt dec_str (keys_service v) "trustZone" j) in
    Some (mkService a1 a2 a3 a4 a5 a6 a7 a8 a9 a10 a11 a12 a13 a14 a15 a16)
  else None.
Lemma acc_attached_text v j : ok (of_json_attached_text j) = fits (kind_of v) j (Named "attached_text").
Proof. unfold of_json_attached_text; named_kind; a_struct. Qed.
Global Hint Resolve acc_attached_text : accept.
Lemma acc_attachment v j : ok (of_json_attachment j) = fits (kind_of v) j (Named "attachment").
Proof. unfold of_json_attachment; named_kind; a_struct. Qed.
Global Hint Resolve acc_attachment : accept.
Lemma acc_hash v j : ok (of_json_hash j) = fits (kind_of v) j (Named "hash").
Proof. unfold of_json_hash; named_kind; a_struct. Qed.
Global Hint Resolve acc_hash : accept.
Lemma acc_property v j : ok (of_json_property j) = fits (kind_of v) j (Named "property").
Proof. unfold of_json_property; named_kind; a_struct. Qed.
Global Hint Resolve acc_property : accept.
Lemma acc_contact v j : ok (of_json_contact j) = fits (kind_of v) j (Named "contact").
Proof. unfold of_json_contact; named_kind; a_struct. Qed.
Global Hint Resolve acc_contact : accept.
Lemma acc_entity v j : ok (of_json_entity j) = fits (kind_of v) j (Named "entity").
Proof. unfold of_json_entity; named_kind; a_struct. Qed.
Global Hint Resolve acc_entity : accept.
Lemma acc_external_reference v j : ok (of_json_external_reference j) = fits (kind_of v) j (Named "external_reference").
Proof. unfold of_json_external_reference; named_kind; a_struct. Qed.
Global Hint Resolve acc_external_reference : accept.
Lemma acc_algorithm v j : ok (of_json_algorithm j) = fits (kind_of v) j (Named "algorithm").
Proof.
  named_kind. rewrite one_of2 by exact Logic.I. unfold of_json_algorithm. rewrite ok_map.
  destruct j as [| | | |s|l|[|[k x] [|? ?]]]; try reflexivity.
  - cbn [fits]. rewrite orb_false_r. apply known_algorithm.
  - cbn [fits named]. destruct (String.eqb_spec k "Unknown") as [->|].
    + now destruct x.
    + destruct x; try reflexivity. rewrite orb_false_r. apply known_algorithm.
  - now destruct x.
Qed.
Global Hint Resolve acc_algorithm : accept.
Lemma acc_signer v j : ok (of_json_signer j) = fits (kind_of v) j (Named "signer").
Proof. unfold of_json_signer; named_kind; a_struct. Qed.
Global Hint Resolve acc_signer : accept.
Lemma acc_signature v j : ok (of_json_signature j) = fits (kind_of v) j (Named "signature").
Proof.
  named_kind. rewrite one_of2 by exact Logic.I. unfold of_json_signature. rewrite !ok_orelse, !ok_map.
  rewrite (fits_dec_list (kind_of v) of_json_signer (Named "signer")) by (intros; leaf).
  rewrite (acc_signer v), fits_named by exact Logic.I. change (kind_of v "signer") with (Struct signer).
  now destruct (fits _ _ (ListOf _)).
Qed.
Global Hint Resolve acc_signature : accept.
Lemma acc_license_contact v j : ok (of_json_license_contact j) = fits (kind_of v) j (Named "license_contact").
Proof. named_kind. unfold of_json_license_contact. a_tagged. Qed.
Global Hint Resolve acc_license_contact : accept.
Lemma acc_licensing v j : ok (of_json_licensing j) = fits (kind_of v) j (Named "licensing").
Proof. unfold of_json_licensing; named_kind; a_struct. Qed.
Global Hint Resolve acc_licensing : accept.
Lemma acc_license v j : ok (of_json_license v j) = fits (kind_of v) j (Named "license").
Proof.
  destruct v; named_kind; unfold of_json_license; rewrite fits_both by exact Logic.I; rewrite fits_object; expand;
    [rewrite and_swap|rewrite and_swap|rewrite and_swap2]; apply if_fits.
  1,2: apply bind_skips; [reflexivity|]. 3: apply bind_fits; [a_field|intros ?].
  all: (apply bind_fits; [apply fits_identifier|intros ?]); all_fields.
Qed.
Global Hint Resolve acc_license : accept.
Lemma acc_license_choice v j : ok (of_json_license_choice v j) = fits (kind_of v) j (Named "license_choice").
Proof.
  named_kind. rewrite one_of2 by exact Logic.I. unfold of_json_license_choice. rewrite ok_orelse.
  apply (f_equal2 orb); [a_tagged|]. a_struct.
Qed.
Global Hint Resolve acc_license_choice : accept.
Lemma acc_identifiable_action v j : ok (of_json_identifiable_action j) = fits (kind_of v) j (Named "identifiable_action").
Proof. unfold of_json_identifiable_action; named_kind; a_struct. Qed.
Global Hint Resolve acc_identifiable_action : accept.
Lemma acc_commit v j : ok (of_json_commit j) = fits (kind_of v) j (Named "commit").
Proof. unfold of_json_commit; named_kind; a_struct. Qed.
Global Hint Resolve acc_commit : accept.
Lemma acc_diff v j : ok (of_json_diff j) = fits (kind_of v) j (Named "diff").
Proof. unfold of_json_diff; named_kind; a_struct. Qed.
Global Hint Resolve acc_diff : accept.
Lemma acc_source v j : ok (of_json_source j) = fits (kind_of v) j (Named "source").
Proof. unfold of_json_source; named_kind; a_struct. Qed.
Global Hint Resolve acc_source : accept.
Lemma acc_issue v j : ok (of_json_issue j) = fits (kind_of v) j (Named "issue").
Proof. unfold of_json_issue; named_kind; a_struct. Qed.
Global Hint Resolve acc_issue : accept.
Lemma acc_patch v j : ok (of_json_patch j) = fits (kind_of v) j (Named "patch").
Proof. unfold of_json_patch; named_kind; a_struct. Qed.
Global Hint Resolve acc_patch : accept.
Lemma acc_responsible_party v j : ok (of_json_responsible_party j) = fits (kind_of v) j (Named "responsible_party").
Proof. named_kind. unfold of_json_responsible_party. a_tagged. Qed.
Global Hint Resolve acc_responsible_party : accept.
Lemma acc_data_governance v j : ok (of_json_data_governance j) = fits (kind_of v) j (Named "data_governance").
Proof. unfold of_json_data_governance; named_kind; a_struct. Qed.
Global Hint Resolve acc_data_governance : accept.
Lemma acc_data_contents v j : ok (of_json_data_contents j) = fits (kind_of v) j (Named "data_contents").
Proof. unfold of_json_data_contents; named_kind; a_struct. Qed.
Global Hint Resolve acc_data_contents : accept.
Lemma acc_graphic v j : ok (of_json_graphic j) = fits (kind_of v) j (Named "graphic").
Proof. unfold of_json_graphic; named_kind; a_struct. Qed.
Global Hint Resolve acc_graphic : accept.
Lemma acc_graphics_collection v j : ok (of_json_graphics_collection j) = fits (kind_of v) j (Named "graphics_collection").
Proof. unfold of_json_graphics_collection; named_kind; a_struct. Qed.
Global Hint Resolve acc_graphics_collection : accept.
Lemma acc_component_data v j : ok (of_json_component_data j) = fits (kind_of v) j (Named "component_data").
Proof. unfold of_json_component_data; named_kind; a_struct. Qed.
Global Hint Resolve acc_component_data : accept.
Lemma acc_approach v j : ok (of_json_approach j) = fits (kind_of v) j (Named "approach").
Proof. unfold of_json_approach; named_kind; a_struct. Qed.
Global Hint Resolve acc_approach : accept.
Lemma acc_dataset v j : ok (of_json_dataset j) = fits (kind_of v) j (Named "dataset").
Proof.
  named_kind. rewrite one_of2 by exact Logic.I. unfold of_json_dataset. rewrite ok_orelse, !ok_map.
  apply (f_equal2 orb); [|apply fits_str]. rewrite (acc_component_data v), fits_named by exact Logic.I. reflexivity.
Qed.
Global Hint Resolve acc_dataset : accept.
Lemma acc_ml_parameter v j : ok (of_json_ml_parameter j) = fits (kind_of v) j (Named "ml_parameter").
Proof. unfold of_json_ml_parameter; named_kind; a_struct. Qed.
Global Hint Resolve acc_ml_parameter : accept.
Lemma acc_model_parameters v j : ok (of_json_model_parameters j) = fits (kind_of v) j (Named "model_parameters").
Proof. unfold of_json_model_parameters; named_kind; a_struct. Qed.
Global Hint Resolve acc_model_parameters : accept.
Lemma acc_confidence_interval v j : ok (of_json_confidence_interval j) = fits (kind_of v) j (Named "confidence_interval").
Proof. unfold of_json_confidence_interval; named_kind; a_struct. Qed.
Global Hint Resolve acc_confidence_interval : accept.
Lemma acc_performance_metric v j : ok (of_json_performance_metric j) = fits (kind_of v) j (Named "performance_metric").
Proof. unfold of_json_performance_metric; named_kind; a_struct. Qed.
Global Hint Resolve acc_performance_metric : accept.
Lemma acc_quantitative_analysis v j : ok (of_json_quantitative_analysis j) = fits (kind_of v) j (Named "quantitative_analysis").
Proof. unfold of_json_quantitative_analysis; named_kind; a_struct. Qed.
Global Hint Resolve acc_quantitative_analysis : accept.
Lemma acc_considerations v j : ok (of_json_considerations j) = fits (kind_of v) j (Named "considerations").
Proof. unfold of_json_considerations; named_kind; a_struct. Qed.
Global Hint Resolve acc_considerations : accept.
Lemma acc_model_card v j : ok (of_json_model_card j) = fits (kind_of v) j (Named "model_card").
Proof. unfold of_json_model_card; named_kind; a_struct. Qed.
Global Hint Resolve acc_model_card : accept.
Lemma acc_occurrence v j : ok (of_json_occurrence j) = fits (kind_of v) j (Named "occurrence").
Proof. unfold of_json_occurrence; named_kind; a_struct. Qed.
Global Hint Resolve acc_occurrence : accept.
Lemma acc_frame v j : ok (of_json_frame j) = fits (kind_of v) j (Named "frame").
Proof. unfold of_json_frame; named_kind; a_struct. Qed.
Global Hint Resolve acc_frame : accept.
Lemma acc_callstack v j : ok (of_json_callstack j) = fits (kind_of v) j (Named "callstack").
Proof.
  unfold of_json_callstack; named_kind. rewrite fits_struct by nodup. expand. apply if_fits. rewrite andb_true_r. a_field.
Qed.
Global Hint Resolve acc_callstack : accept.
Lemma acc_method v j : ok (of_json_method j) = fits (kind_of v) j (Named "method").
Proof. unfold of_json_method; named_kind; a_struct. Qed.
Global Hint Resolve acc_method : accept.
Lemma acc_identity v j : ok (of_json_identity j) = fits (kind_of v) j (Named "identity").
Proof. unfold of_json_identity; named_kind; a_struct. Qed.
Global Hint Resolve acc_identity : accept.
Lemma acc_copyright v j : ok (of_json_copyright j) = fits (kind_of v) j (Named "copyright").
Proof.
  unfold of_json_copyright; named_kind. rewrite fits_struct by nodup. expand. apply if_fits. rewrite andb_true_r. a_field.
Qed.
Global Hint Resolve acc_copyright : accept.
Lemma acc_evidence v j : ok (of_json_evidence v j) = fits (kind_of v) j (Named "evidence").
Proof. destruct v; unfold of_json_evidence; named_kind; a_struct. Qed.
Global Hint Resolve acc_evidence : accept.
Lemma acc_swid v j : ok (of_json_swid j) = fits (kind_of v) j (Named "swid").
Proof. unfold of_json_swid; named_kind; a_struct. Qed.
Global Hint Resolve acc_swid : accept.
Lemma acc_pedigree v of j : (forall x, size x < size j -> ok (of x) = fits (kind_of v) x (Named "component")) ->
  ok (of_json_pedigree of j) = fits (kind_of v) j (Named "pedigree").
Proof.
  intros IH. unfold of_json_pedigree; named_kind. rewrite fits_struct by nodup.
  assert (L : forall x, size x < size j -> ok (dec_list of x) = fits (kind_of v) x (ListOf (Named "component"))).
  { intros x Hx. apply fits_dec_list. intros y Hy. apply IH. lia. }
  fields.
Qed.
Lemma of_json_component_eq v j : of_json_component v j = component_step v (of_json_component v) j.
Proof. destruct j; reflexivity. Qed.
Lemma acc_component v : forall j, ok (of_json_component v j) = fits (kind_of v) j (Named "component").
Proof.
  intros j. remember (size j) as n eqn:E. revert j E. induction n as [n IHn] using lt_wf_ind. intros j ->.
  assert (IH : forall x, size x < size j -> ok (of_json_component v x) = fits (kind_of v) x (Named "component")) by eauto.
  clear IHn. rewrite of_json_component_eq. generalize dependent (of_json_component v). intros of IH.
  assert (L : forall x, size x < size j -> ok (dec_list of x) = fits (kind_of v) x (ListOf (Named "component"))).
  { intros x Hx. apply fits_dec_list. intros y Hy. apply IH. lia. }
  assert (Pd : forall x, size x < size j -> ok (of_json_pedigree of x) = fits (kind_of v) x (Named "pedigree")).
  { intros x Hx. apply acc_pedigree. intros y Hy. apply IH. lia. }
  destruct v; unfold component_step; named_kind; a_struct.
Qed.
Global Hint Resolve acc_component : accept.
Lemma acc_data_classification v j : ok (of_json_data_classification j) = fits (kind_of v) j (Named "data_classification").
Proof. unfold of_json_data_classification; named_kind; a_struct. Qed.
Global Hint Resolve acc_data_classification : accept.
Lemma acc_service_data v j : ok (of_json_service_data j) = fits (kind_of v) j (Named "service_data").
Proof. unfold of_json_service_data; named_kind; an_object. Qed.
Global Hint Resolve acc_service_data : accept.
Lemma acc_data v j : ok (of_json_data v j) = fits (kind_of v) j (Named "data").
Proof.
  destruct v; named_kind; unfold of_json_data; rewrite ok_orelse; versions;
    [rewrite one_of1 by exact Logic.I|rewrite one_of1 by exact Logic.I|rewrite one_of2 by exact Logic.I];
    rewrite !ok_map; [rewrite orb_false_r|rewrite orb_false_r|apply (f_equal2 orb)]; leaf.
Qed.
Global Hint Resolve acc_data : accept.
Lemma of_json_service_eq v j : of_json_service v j = service_step v (of_json_service v) j.
Proof. destruct j; reflexivity. Qed.
Lemma acc_service v : forall j, ok (of_json_service v j) = fits (kind_of v) j (Named "service").
Proof.
  intros j. remember (size j) as n eqn:E. revert j E. induction n as [n IHn] using lt_wf_ind. intros j ->.
  assert (IH : forall x, size x < size j -> ok (of_json_service v x) = fits (kind_of v) x (Named "service")) by eauto.
  clear IHn. rewrite of_json_service_eq. generalize dependent (of_json_service v). intros of IH.
  assert (L : forall x, size x < size j -> ok (dec_list of x) = fits (kind_of v) x (ListOf (Named "service"))).
  { intros x Hx. apply fits_dec_list. intros y Hy. apply IH. lia. }
  destruct v; unfold service_step; named_kind; a_struct.
Qed.
Global Hint Resolve acc_service : accept.
Lemma acc_tool v j : ok (of_json_tool v j) = fits (kind_of v) j (Named "tool").
Proof. destruct v; unfold of_json_tool; named_kind; a_struct. Qed.
Global Hint Resolve acc_tool : accept.
Lemma acc_tools v j : ok (of_json_tools v j) = fits (kind_of v) j (Named "tools").
Proof.
  destruct v; named_kind; unfold of_json_tools; rewrite ok_orelse; versions;
    [rewrite one_of1 by exact Logic.I|rewrite one_of1 by exact Logic.I|rewrite one_of2 by exact Logic.I];
    rewrite !ok_map; [rewrite orb_false_r; leaf|rewrite orb_false_r; leaf|apply (f_equal2 orb); [leaf|an_object]].
Qed.
Global Hint Resolve acc_tools : accept.
Lemma acc_lifecycle v j : ok (of_json_lifecycle j) = fits (kind_of v) j (Named "lifecycle").
Proof.
  named_kind. rewrite one_of2 by exact Logic.I. unfold of_json_lifecycle. rewrite ok_orelse.
  apply (f_equal2 orb); [a_tagged|]. a_struct.
Qed.
Global Hint Resolve acc_lifecycle : accept.
Lemma acc_metadata v j : ok (of_json_metadata v j) = fits (kind_of v) j (Named "metadata").
Proof. destruct v; unfold of_json_metadata; named_kind; a_struct. Qed.
Global Hint Resolve acc_metadata : accept.
Lemma acc_dependency v j : ok (of_json_dependency j) = fits (kind_of v) j (Named "dependency").
Proof.
  unfold of_json_dependency; named_kind. rewrite fits_struct by nodup. expand.
  destruct j as [| | | | |l|l]; try reflexivity; (apply if_fits; apply bind_fits; [a_field|intros ?]; apply bind_fits; [|reflexivity]);
    (rewrite ok_field_default by reflexivity; apply has_field_ext; intros; leaf).
Qed.
Global Hint Resolve acc_dependency : accept.
Lemma acc_composition v j : ok (of_json_composition v j) = fits (kind_of v) j (Named "composition").
Proof. destruct v; unfold of_json_composition; named_kind; a_struct. Qed.
Global Hint Resolve acc_composition : accept.
Lemma acc_annotator v j : ok (of_json_annotator v j) = fits (kind_of v) j (Named "annotator").
Proof. named_kind. unfold of_json_annotator. a_tagged. Qed.
Global Hint Resolve acc_annotator : accept.
Lemma acc_annotation v j : ok (of_json_annotation v j) = fits (kind_of v) j (Named "annotation").
Proof. unfold of_json_annotation; named_kind; a_struct. Qed.
Global Hint Resolve acc_annotation : accept.
Lemma acc_vuln_source v j : ok (of_json_vuln_source j) = fits (kind_of v) j (Named "vuln_source").
Proof. unfold of_json_vuln_source; named_kind; a_struct. Qed.
Global Hint Resolve acc_vuln_source : accept.
Lemma acc_vuln_reference v j : ok (of_json_vuln_reference j) = fits (kind_of v) j (Named "vuln_reference").
Proof. unfold of_json_vuln_reference; named_kind; a_struct. Qed.
Global Hint Resolve acc_vuln_reference : accept.
Lemma acc_vuln_rating v j : ok (of_json_vuln_rating j) = fits (kind_of v) j (Named "vuln_rating").
Proof. unfold of_json_vuln_rating; named_kind; a_struct. Qed.
Global Hint Resolve acc_vuln_rating : accept.
Lemma acc_advisory v j : ok (of_json_advisory j) = fits (kind_of v) j (Named "advisory").
Proof. unfold of_json_advisory; named_kind; a_struct. Qed.
Global Hint Resolve acc_advisory : accept.
Lemma acc_vuln_credits v j : ok (of_json_vuln_credits j) = fits (kind_of v) j (Named "vuln_credits").
Proof. unfold of_json_vuln_credits; named_kind; a_struct. Qed.
Global Hint Resolve acc_vuln_credits : accept.
Lemma acc_vuln_analysis v j : ok (of_json_vuln_analysis v j) = fits (kind_of v) j (Named "vuln_analysis").
Proof. destruct v; unfold of_json_vuln_analysis; named_kind; a_struct. Qed.
Global Hint Resolve acc_vuln_analysis : accept.
Lemma acc_version_status v j : ok (of_json_version_status j) = fits (kind_of v) j (Named "version_status").
Proof.
  named_kind; unfold of_json_version_status; rewrite fits_both by exact Logic.I; rewrite fits_object; expand.
  rewrite and_swap. apply if_fits. (apply bind_fits; [apply fits_version_range|intros ?]). all_fields.
Qed.
Global Hint Resolve acc_version_status : accept.
Lemma acc_vuln_target v j : ok (of_json_vuln_target j) = fits (kind_of v) j (Named "vuln_target").
Proof. unfold of_json_vuln_target; named_kind; a_struct. Qed.
Global Hint Resolve acc_vuln_target : accept.
Lemma acc_proof_of_concept v j : ok (of_json_proof_of_concept j) = fits (kind_of v) j (Named "proof_of_concept").
Proof. unfold of_json_proof_of_concept; named_kind; a_struct. Qed.
Global Hint Resolve acc_proof_of_concept : accept.
Lemma acc_vulnerability v j : ok (of_json_vulnerability v j) = fits (kind_of v) j (Named "vulnerability").
Proof. destruct v; unfold of_json_vulnerability; named_kind; a_struct. Qed.
Global Hint Resolve acc_vulnerability : accept.
Lemma acc_resource_reference v j : ok (of_json_resource_reference j) = fits (kind_of v) j (Named "resource_reference").
Proof.
  named_kind. rewrite one_of2 by exact Logic.I. unfold of_json_resource_reference. rewrite ok_orelse.
  apply (f_equal2 orb); an_object.
Qed.
Global Hint Resolve acc_resource_reference : accept.
Lemma acc_environment_var v j : ok (of_json_environment_var j) = fits (kind_of v) j (Named "environment_var").
Proof.
  named_kind. rewrite one_of2 by exact Logic.I. unfold of_json_environment_var. rewrite ok_orelse, ok_map.
  apply (f_equal2 orb); [an_object|apply fits_str].
Qed.
Global Hint Resolve acc_environment_var : accept.
Lemma acc_parameter v j : ok (of_json_parameter j) = fits (kind_of v) j (Named "parameter").
Proof. unfold of_json_parameter; named_kind; a_struct. Qed.
Global Hint Resolve acc_parameter : accept.
Lemma acc_required_input v j : ok (of_json_required_input j) = fits (kind_of v) j
  (OneOf [Object [req "resource" (Named "resource_reference")]; Object [req "parameters" (ListOf (Named "parameter"))];
          Object [req "environmentVars" (ListOf (Named "environment_var"))]; Object [req "data" (Named "attachment")]]).
Proof.
  unfold of_json_required_input. rewrite fits_one_of by (repeat constructor). rewrite !ok_orelse. cbn [existsb].
  rewrite orb_false_r. repeat (apply (f_equal2 orb)); apply fits_variant; intros; leaf.
Qed.
Lemma acc_input v j : ok (of_json_input j) = fits (kind_of v) j (Named "input").
Proof.
  named_kind; unfold of_json_input; rewrite fits_both by exact Logic.I; rewrite fits_object; expand.
  rewrite and_swap. apply if_fits. (apply bind_fits; [apply acc_required_input|intros ?]). all_fields.
Qed.
Global Hint Resolve acc_input : accept.
Lemma acc_required_output v j : ok (of_json_required_output j) = fits (kind_of v) j
  (OneOf [Object [req "resource" (Named "resource_reference")];
          Object [req "environmentVars" (ListOf (Named "environment_var"))]; Object [req "data" (Named "attachment")]]).
Proof.
  unfold of_json_required_output. rewrite fits_one_of by (repeat constructor). rewrite !ok_orelse. cbn [existsb].
  rewrite orb_false_r. repeat (apply (f_equal2 orb)); apply fits_variant; intros; leaf.
Qed.
Lemma acc_output v j : ok (of_json_output j) = fits (kind_of v) j (Named "output").
Proof.
  named_kind; unfold of_json_output; rewrite fits_both by exact Logic.I; rewrite fits_object; expand.
  rewrite and_swap. apply if_fits. (apply bind_fits; [apply acc_required_output|intros ?]). all_fields.
Qed.
Global Hint Resolve acc_output : accept.
Lemma acc_command v j : ok (of_json_command j) = fits (kind_of v) j (Named "command").
Proof. unfold of_json_command; named_kind; a_struct. Qed.
Global Hint Resolve acc_command : accept.
Lemma acc_step v j : ok (of_json_step j) = fits (kind_of v) j (Named "step").
Proof. unfold of_json_step; named_kind; a_struct. Qed.
Global Hint Resolve acc_step : accept.
Lemma acc_volume v j : ok (of_json_volume j) = fits (kind_of v) j (Named "volume").
Proof. unfold of_json_volume; named_kind; a_struct. Qed.
Global Hint Resolve acc_volume : accept.
Lemma acc_workspace v j : ok (of_json_workspace j) = fits (kind_of v) j (Named "workspace").
Proof. unfold of_json_workspace; named_kind; a_struct. Qed.
Global Hint Resolve acc_workspace : accept.
Lemma acc_condition v j : ok (of_json_condition j) = fits (kind_of v) j (Named "condition").
Proof. unfold of_json_condition; named_kind; a_struct. Qed.
Global Hint Resolve acc_condition : accept.
Lemma acc_event v j : ok (of_json_event j) = fits (kind_of v) j (Named "event").
Proof. unfold of_json_event; named_kind; a_struct. Qed.
Global Hint Resolve acc_event : accept.
Lemma acc_trigger v j : ok (of_json_trigger j) = fits (kind_of v) j (Named "trigger").
Proof. unfold of_json_trigger; named_kind; a_struct. Qed.
Global Hint Resolve acc_trigger : accept.
Lemma acc_task v j : ok (of_json_task j) = fits (kind_of v) j (Named "task").
Proof. unfold of_json_task; named_kind; a_struct. Qed.
Global Hint Resolve acc_task : accept.
Lemma acc_workflow v j : ok (of_json_workflow j) = fits (kind_of v) j (Named "workflow").
Proof. unfold of_json_workflow; named_kind; a_struct. Qed.
Global Hint Resolve acc_workflow : accept.
Lemma acc_formula v j : ok (of_json_formula v j) = fits (kind_of v) j (Named "formula").
Proof. unfold of_json_formula; named_kind; a_struct. Qed.
Global Hint Resolve acc_formula : accept.
Lemma acc_bom v j : ok (of_json_bom v j) = fits (kind_of v) j (Named "bom").
Proof. destruct v; unfold of_json_bom; named_kind; a_struct. Qed.
Global Hint Resolve acc_bom : accept.

(** C49: the modules the [#[versioned]] attribute generates. *)
From Coq Require Import NArith.
From Verif Require Import Base Strings VersionedModel VersionedSpec VersionedProofs.
Open Scope string_scope.
Open Scope list_scope.

(** For every module in which the attribute is used where the macro looks for it: the expansion is, for each
    listed version and in that order, a module named after the version, with the visibility of the annotated
    one, made of exactly the tokens under no limit that excludes the version. *)
Theorem C49_modules input vis items vs out : forallb placed items = true ->
  parse_req input = Some vs -> expand input vis (Some items) = Some out ->
  exists bodies, Forall2 (fun v body => selection v (flat_map (tagged []) items) body) vs bodies /\
    out = flat_map (fun vb => vis ++ ["mod"; as_ident (fst vb); "{"] ++ snd vb ++ ["}"]) (combine vs bodies).
Proof. intros P E H. unfold expand in H. rewrite E in H. now apply modules_some. Qed.

(** A selection is determined by the version: [C49_modules] says all there is to say about the expansion *)
Theorem C49_selection_unique v l r s : selection v l r -> selection v l s -> r = s.
Proof. apply sel_unique. Qed.

(** The expansion is a compile error exactly if the listed versions are malformed, the module has no content, or
    a malformed attribute is in a part some listed version keeps *)
Theorem C49_errors input vis content : (forall items, content = Some items -> forallb placed items = true) ->
  (expand input vis content = None <->
   parse_req input = None \/ content = None \/
   exists vs items v, parse_req input = Some vs /\ content = Some items /\ In v vs /\
     Exists (Forall (meets v)) (flat_map (flaws []) items)).
Proof.
  intros P. unfold expand. destruct (parse_req input) as [vs|]; [|split; auto].
  destruct content as [items|]; [|split; auto]. rewrite (modules_none vis items (P items eq_refl) vs). split.
  - intros (v & Hv & E). right. right. exists vs, items, v. auto.
  - intros [E|[E|(vs' & items' & v & [= <-] & [= <-] & Hv & E)]]; [discriminate..|]. exists v. auto.
Qed.

(** Without the attribute inside, all modules have the content of the annotated one *)
Theorem C49_unversioned input vis items vs : forallb unversioned items = true -> forallb placed items = true ->
  parse_req input = Some vs ->
  expand input vis (Some items) =
    Some (flat_map (fun v => vis ++ ["mod"; as_ident v; "{"] ++ flat_map print items ++ ["}"]) vs).
Proof.
  intros U P E. destruct (expand input vis (Some items)) as [out|] eqn:X.
  - destruct (C49_modules input vis items vs out P E X) as (bodies & F & ->). f_equal.
    clear -F U. induction F as [|v b vs bodies S F IH]; [reflexivity|].
    cbn [flat_map combine fst snd]. rewrite IH.
    replace b with (flat_map print items); [reflexivity|].
    eapply sel_unique; [|exact S]. apply sel_flat. rewrite forallb_forall in U. apply Forall_forall. intros x Hx.
    apply unversioned_tagged; [now apply U|constructor].
  - exfalso. apply C49_errors in X; [|intros i [= <-]; exact P].
    destruct X as [X|[X|(w & i & v & _ & [= <-] & _ & X)]]; [congruence|discriminate|].
    replace (flat_map (flaws []) items) with (@nil (list condition)) in X; [inversion X|].
    clear -U. induction items as [|x l IH]; [reflexivity|]. cbn in U |- *. apply andb_prop in U. destruct U.
    rewrite unversioned_flaws by assumption. now apply IH.
Qed.

(** Modules of different versions have different names; a version is read from its text *)
Theorem C49_module_names a b : as_ident a = as_ident b -> a = b.
Proof. apply as_ident_inj. Qed.
Theorem C49_version_text v : (major v < 18446744073709551616)%N -> (minor v < 18446744073709551616)%N ->
  parse_version (string_of_N (major v) ++ "." ++ string_of_N (minor v)) = Some v.
Proof. apply parse_version_text. Qed.

(** *** A case: like base.rs of the ui tests, with a gated field, expression and match arm inside a gated function *)
Definition tok (s : string) : node := Node KPlain [] [s] [] [].
Definition on (l : list string) : attr := Versioned (Some l) ["#"; "[versioned(..)]"].
Definition case_items : list node :=
  [Node KItem [OtherAttr ["#[derive(Debug)]"]] ["struct"; "Foo"; "{"]
     [Node KField [] ["a: u32"] [] [","]; Node KField [on ["1.4"; "1.5"]; OtherAttr ["/// b"]] ["b: u32"] [] [","]] ["}"];
   Node KItem [on ["1.4"]] ["fn"; "f"; "{"]
     [Node KStmt [on ["1.3"]] ["let"; "x"; "="] [Node KExpr [] ["1"] [] []] [";"];
      Node KExpr [] ["match"; "y"; "{"]
        [Node KArm [on ["1.5"]] ["A"; "=>"] [Node KExpr [] ["a"] [] []] [","];
         Node KArm [] ["_"; "=>"] [Node KExpr [on ["1.3"; "1.5"]] ["b"] [] []] [","]] ["}"]] ["}"];
   Node KItem [] ["impl"; "Foo"; "{"]
     [Node KPlain [] ["fn"; "g"; "{"] [Node KExpr [on ["1.3"]] ["1"] [] []] ["}"]] ["}"]].
Example C49_case_placed : forallb placed case_items = true. Proof. reflexivity. Qed.
Example C49_case : expand (Some ["1.3"; "1.4"]) ["pub"] (Some case_items) = Some
  (["pub"; "mod"; "v1_3"; "{";
    "#[derive(Debug)]"; "struct"; "Foo"; "{"; "a: u32"; ","; "}";
    "impl"; "Foo"; "{"; "fn"; "g"; "{"; "1"; "}"; "}"; "}"] ++
   ["pub"; "mod"; "v1_4"; "{";
    "#[derive(Debug)]"; "struct"; "Foo"; "{"; "a: u32"; ","; "/// b"; "b: u32"; ","; "}";
    "fn"; "f"; "{"; "match"; "y"; "{"; "_"; "=>"; "{"; "}"; ","; "}"; "}";
    "impl"; "Foo"; "{"; "fn"; "g"; "{"; "{"; "}"; "}"; "}"; "}"]).
Proof. reflexivity. Qed.
(* a malformed list in a part only version 1.5 keeps is no error for versions 1.3 and 1.4, but one for 1.5 *)
Example C49_case_error :
  let items := [Node KItem [on ["1.5"]] ["fn"; "f"; "{"] [Node KExpr [on ["x"]] ["1"] [] []] ["}"]] in
  expand (Some ["1.3"; "1.4"]) [] (Some items) <> None /\ expand (Some ["1.3"; "1.5"]) [] (Some items) = None.
Proof. split; [discriminate|reflexivity]. Qed.

(** Where the attribute is not looked for it stays, whatever the version: a method limited to 1.5 is in the module
    of 1.3, with its attribute *)
Theorem C49_members_refuted : exists items out,
  expand (Some ["1.3"]) [] (Some items) = Some out /\
  ~ selection (mkVersion 1 3) (flat_map (tagged []) items)
      (firstn (List.length out - 4) (skipn 3 out)) /\ In "method" out /\ In "[versioned(..)]" out.
Proof.
  exists [Node KItem [] ["impl"; "{"] [Node KPlain [on ["1.5"]] ["method"] [] []] ["}"]].
  eexists. split; [reflexivity|]. split; [|cbn; tauto]. intros S.
  assert (K : selection (mkVersion 1 3)
    (flat_map (tagged []) [Node KItem [] ["impl"; "{"] [Node KPlain [on ["1.5"]] ["method"] [] []] ["}"]]) ["impl"; "{"; "}"]).
  { cbn. repeat constructor. intros F. inversion F as [|? ? M]. cbn in M. intuition discriminate. }
  pose proof (sel_unique _ _ _ _ S K) as E. discriminate.
Qed.
(** Two attributes on one element are not a conjunction: the last one decides *)
Theorem C49_conjunction_refuted : exists items,
  items = [Node KItem [on ["1.3"]; on ["1.4"]] ["struct"; "Foo"; ";"] [] []] /\
  expand (Some ["1.4"]) [] (Some items) = Some ["mod"; "v1_4"; "{"; "struct"; "Foo"; ";"; "}"].
Proof. eexists. split; reflexivity. Qed.

Print Assumptions C49_modules.
Print Assumptions C49_selection_unique.
Print Assumptions C49_errors.
Print Assumptions C49_unversioned.
Print Assumptions C49_module_names.
Print Assumptions C49_version_text.
Print Assumptions C49_members_refuted.
Print Assumptions C49_conjunction_refuted.

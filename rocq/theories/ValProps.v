(** Properties C21-C36: validation.  The vocabulary is in ValSpec.v. *)
From Verif Require Import Base Strings Base64 ModelTypes Regex Enums ValModel ValSpec ValProofs ValProofs2 ValProofs3 ValProofs4.
From Coq Require Import NArith ZArith Sorted.
Open Scope string_scope.
Open Scope list_scope.
Open Scope nat_scope.

(** Concrete values used as witnesses *)
Definition ok_parsers : parsers := mkParsers (fun _ => true) (fun _ => true) (fun _ => None) (fun _ => true) (fun _ => true).
(** an oracle that knows one good timestamp *)
Definition picky_parsers : parsers :=
  mkParsers (String.eqb "2024-01-01T00:00:00Z") (fun s => negb (contains_char " " s))
            (fun s => if starts_with "pkg:" s then None else Some "no scheme")
            (String.eqb "MIT") (String.eqb "MIT OR Apache-2.0").
Definition plain_component (r : option string) (n : string) (sub : option (list component)) : component :=
  {| c_type := CLibrary; c_mime_type := None; c_bom_ref := r; c_supplier := None; c_author := None;
     c_publisher := None; c_group := None; c_name := n; c_version := None; c_description := None; c_scope := None;
     c_hashes := None; c_licenses := None; c_copyright := None; c_cpe := None; c_purl := None; c_swid := None;
     c_modified := None; c_pedigree := None; c_external_references := None; c_properties := None;
     c_components := sub; c_evidence := None; c_signature := None; c_model_card := None; c_data := None |}.
Definition plain_bom (cs : option (list component)) (ds : option (list dependency))
  (os : option (list composition)) (vs : option (list vulnerability)) : bom :=
  {| b_version := u32_1; b_serial_number := None; b_metadata := None; b_components := cs; b_services := None;
     b_external_references := None; b_dependencies := ds; b_compositions := os; b_properties := None;
     b_vulnerabilities := vs; b_signature := None; b_annotations := None; b_formulation := None;
     b_spec_version := V1_5 |}.

(** ** C21: normalized strings *)
Theorem C21_new_flattens s t : normalize s = t <-> flattened s t.
Proof. apply normalize_flattened. Qed.
Theorem C21_new_is_valid s : single_line (normalize s) /\ validate_normalized (normalize s) = None.
Proof. split; [|apply normalized_iff]; apply normalize_single_line. Qed.
Theorem C21_valid_unchanged s : single_line s -> normalize s = s.
Proof. apply normalize_id. Qed.
Theorem C21_idempotent s : normalize (normalize s) = normalize s.
Proof. apply normalize_id, normalize_single_line. Qed.
Theorem C21_validation s : validate_normalized s = None <-> single_line s.
Proof. apply normalized_iff. Qed.
Example C21_example : normalize (String CR (String LF (String "a" (String TAB (String CR (String "b" "")))))) = " a  b"
  /\ validate_normalized (String "a" (String CR "")) <> None.
Proof. split; [reflexivity|discriminate]. Qed.
Print Assumptions C21_new_flattens.
Print Assumptions C21_new_is_valid.
Print Assumptions C21_valid_unchanged.
Print Assumptions C21_idempotent.
Print Assumptions C21_validation.

(** ** C22: duplicate references *)
Theorem C22_duplicates_reported x v b : exists r, validate_bom x v b = Done r
  /\ (error r "bom_ref" = None <-> NoDup (carried b))
  /\ forall n, reports r "bom_ref" (duplicate_message n) <-> twice n (carried b).
Proof.
  destruct (validate_bom_ok x v b) as (r0 & r & _ & E & H & K). exists r. split; [exact E|].
  rewrite H, findings_bom_ref, K by (cbn; tauto). split.
  - destruct (map repeat_msg (repeats [] (carried b))) eqn:M.
    + apply map_nil, repeats_nil in M. tauto.
    + split; [discriminate|]. intros N. exfalso.
      assert (R : repeats [] (carried b) = []) by (apply repeats_nil; split; [exact N|intros ? _ []]).
      rewrite R in M. discriminate.
  - intros n. unfold reports. rewrite H, findings_bom_ref, K by (cbn; tauto). rewrite <- repeats_twice. split.
    + intros (ms & A & I). destruct (map repeat_msg (repeats [] (carried b))) eqn:M; [discriminate|].
      injection A as <-. rewrite <- M in I. apply in_map_iff in I as (n' & A & I).
      apply (quote_inj "Bom ref """ """ is not unique") in A. now subst.
    + intros I. destruct (map repeat_msg (repeats [] (carried b))) eqn:M.
      * apply map_nil in M. rewrite M in I. destruct I.
      * eexists. split; [reflexivity|]. rewrite <- M. apply in_map_iff. exists n. auto.
Qed.
Example C22_example :
  let b := plain_bom (Some [plain_component (Some "r") "a" (Some [plain_component (Some "r") "b" None])]) None None None in
  carried b = ["r"; "r"]
  /\ validate_bom ok_parsers V1_5 b = Done [("bom_ref", ErrCustom ["Bom ref ""r"" is not unique"])].
Proof. split; vm_compute; reflexivity. Qed.
Print Assumptions C22_duplicates_reported.

(** ** C23: dangling references *)
Theorem C23_dangling_reported x v b : exists r, validate_bom x v b = Done r
  /\ forall n,
     (reports r "dependency_ref" (dangling_message n) <-> In n (dep_refs b) /\ ~ In n (carried b))
     /\ (reports r "sub dependency_ref" (dangling_message n) <-> In n (dep_targets b) /\ ~ In n (carried b))
     /\ (reports r "composition ref" (dangling_composition_message n) <-> In n (comp_refs b) /\ ~ In n (carried b)).
Proof.
  destruct (validate_bom_ok x v b) as (r0 & r & _ & E & H & K). exists r. split; [exact E|]. intros n.
  unfold reports. split; [|split].
  - rewrite H, findings_dep, K by (cbn; tauto). apply (reported_dangling b _ dangling_message).
    intros a c A. exact (quote_inj "Dependency ref '" _ _ _ A).
  - rewrite H, findings_sub, K by (cbn; tauto). apply (reported_dangling b _ dangling_message).
    intros a c A. exact (quote_inj "Dependency ref '" _ _ _ A).
  - rewrite H, findings_comp, K by (cbn; tauto). apply (reported_dangling b _ dangling_composition_message).
    intros a c A. exact (quote_inj "Composition reference '" _ _ _ A).
Qed.
(** nothing else is reported under these names *)
Theorem C23_no_dangling_no_error x v b : exists r, validate_bom x v b = Done r
  /\ (error r "dependency_ref" = None <-> forall n, In n (dep_refs b) -> In n (carried b))
  /\ (error r "sub dependency_ref" = None <-> forall n, In n (dep_targets b) -> In n (carried b))
  /\ (error r "composition ref" = None <-> forall n, In n (comp_refs b) -> In n (carried b)).
Proof.
  destruct (validate_bom_ok x v b) as (r0 & r & _ & E & H & K). exists r. split; [exact E|].
  rewrite !H, findings_dep, findings_sub, findings_comp, !K by (cbn; tauto).
  rewrite <- !dangling_nil. split; [|split]; destruct (dangling b _); cbn [map]; split; congruence.
Qed.
Example C23_example :
  let b := plain_bom (Some [plain_component (Some "r") "a" None])
             (Some [mkDependency "r" ["s"; "r"]; mkDependency "t" []])
             (Some [mkComposition None AComplete (Some ["u"; "r"]) (Some ["w"]) None None]) None in
  validate_bom ok_parsers V1_5 b
  = Done [("sub dependency_ref", ErrCustom ["Dependency ref 's' does not exist in the BOM"]);
          ("dependency_ref", ErrCustom ["Dependency ref 't' does not exist in the BOM"]);
          ("composition ref", ErrCustom ["Composition reference 'u' does not exist in the BOM";
                                         "Composition reference 'w' does not exist in the BOM"])].
Proof. vm_compute. reflexivity. Qed.
Print Assumptions C23_dangling_reported.
Print Assumptions C23_no_dangling_no_error.

(** ** C24: validation never panics *)
Theorem C24_validation_returns x v b : exists r, validate_bom x v b = Done r.
Proof. destruct (validate_bom_ok x v b) as (_ & r & _ & E & _). eauto. Qed.
Theorem C24_default_version x b : exists r, validate x b = Done r.
Proof. apply C24_validation_returns. Qed.
(** the public entry points that validating a BOM does not go through *)
Theorem C24_other_entry_points x v :
  (forall a, exists r, validate_annotations x v a = Done r) /\ (forall c, exists r, validate_model_card x v c = Done r)
  /\ (forall d, exists r, validate_component_data x v d = Done r) /\ (forall s, exists r, validate_signature s = Done r).
Proof.
  split; [|split; [|split]]; intros a.
  - apply annotations_safe.
  - apply model_card_safe.
  - apply component_data_safe.
  - apply signature_safe.
Qed.
(** the panic the result builder guards against is a behaviour of the builder: *)
Example C24_example : run [("k", Enum (Some "first")); ("k", Enum (Some "second"))]
  = Panic "Attempt to replace non-empty enum entry".
Proof. reflexivity. Qed.
Print Assumptions C24_validation_returns.
Print Assumptions C24_default_version.
Print Assumptions C24_other_entry_points.

(** ** C25: validation passes exactly on valid BOMs *)
Theorem C25_passes_iff_valid x v b :
  (exists r, validate_bom x v b = Done r /\ passed r = true) <-> valid_bom x v b.
Proof.
  rewrite <- validate_bom_iff. split.
  - intros ([|p r] & E & P); [exact E|discriminate].
  - intros E. exists []. auto.
Qed.
Theorem C25_validate_uses_own_version x b :
  (exists r, validate x b = Done r /\ passed r = true) <-> valid_bom x (b_spec_version b) b.
Proof. apply C25_passes_iff_valid. Qed.
(** the same for the structures a BOM does not check when it is validated *)
Theorem C25_unreached_structures x v :
  (forall a, validate_annotations x v a = Done [] <-> every (valid_annotation x v) a)
  /\ (forall c, validate_model_card x v c = Done [] <-> valid_model_card x v c)
  /\ (forall d, validate_component_data x v d = Done [] <-> valid_component_data x v d).
Proof.
  split; [|split].
  - apply annotations_iff.
  - apply model_card_iff.
  - apply component_data_iff.
Qed.
Definition good_bom : bom :=
  plain_bom (Some [plain_component (Some "r") "a" (Some [plain_component (Some "s") "b" None])])
            (Some [mkDependency "r" ["s"]]) None None.
Definition bad_bom : bom :=
  plain_bom (Some [plain_component (Some "r") "a" (Some [plain_component (Some "s") (String TAB "b") None])])
            (Some [mkDependency "r" ["s"]]) None None.
Example C25_example : valid_bom picky_parsers V1_3 good_bom /\ ~ valid_bom picky_parsers V1_3 bad_bom.
Proof.
  split; [apply validate_bom_iff; vm_compute; reflexivity|].
  intros H. apply validate_bom_iff in H. vm_compute in H. discriminate.
Qed.
Print Assumptions C25_passes_iff_valid.
Print Assumptions C25_validate_uses_own_version.
Print Assumptions C25_unreached_structures.

(** ** C26: indices in list errors *)
Theorem C26_list_errors {A} (f : A -> outcome vresult) k l :
  (forall a, exists r, f a = Done r) ->
  exists es, run [(k, items f l)] = Done (match es with [] => [] | _ => [(k, ErrList es)] end)
    /\ StronglySorted lt (map fst es)
    /\ forall i r, In (i, r) es <-> exists a, nth_error l i = Some a /\ f a = Done r /\ r <> [].
Proof.
  intros T. destruct (mapM_safe (map f l)) as [rs R].
  { apply Forall_map, Forall_forall. intros a _. apply T. }
  exists (failing 0 rs). split; [|split].
  - rewrite run_collect by reflexivity. cbn [collect slot_err items]. rewrite R. cbn [bind].
    destruct (failing 0 rs); reflexivity.
  - apply failing_sorted.
  - intros i r. rewrite failing_In. rewrite Nat.sub_0_r. apply mapM_done in R. split.
    + intros (_ & N & NE). destruct (Forall2_nth_r _ _ _ R _ _ N) as (o & No & E). cbv beta in E. subst o.
      rewrite nth_error_map in No. destruct (nth_error l i) as [a|] eqn:NA; [|discriminate].
      injection No as No. exists a. auto.
    + intros (a & NA & E & NE). split; [lia|]. split; [|exact NE].
      assert (No : nth_error (map f l) i = Some (f a)) by (rewrite nth_error_map, NA; reflexivity).
      destruct (Forall2_nth_l _ _ _ R _ _ No) as (r' & N & E'). cbv beta in E'. congruence.
Qed.
Example C26_example : run [("k", items (lift validate_normalized) ["a"; String TAB ""; "b"; String LF ""])]
  = Done [("k", ErrList [(1, from_check (validate_normalized (String TAB "")));
                         (3, from_check (validate_normalized (String LF "")))])].
Proof. reflexivity. Qed.
Print Assumptions C26_list_errors.

(** ** C27: lists with unique items *)
Theorem C27_unique_lists {A} (eqb : A -> A -> bool) (f : A -> outcome vresult) k l :
  (forall a, exists r, f a = Done r) ->
  let repeated i a := exists j b, j < i /\ nth_error l j = Some b /\ eqb a b = true in
  exists es, run [(k, unique eqb f l)] = Done (match es with [] => [] | _ => [(k, ErrList es)] end)
    /\ StronglySorted lt (map fst es)
    /\ forall i r, In (i, r) es <-> exists a, nth_error l i = Some a
         /\ ((repeated i a /\ r = [("", ErrCustom ["repeated element"])])
             \/ (~ repeated i a /\ f a = Done r /\ r <> [])).
Proof.
  intros T repeated. destruct (mapM_safe (unique_items eqb f [] l)) as [rs R].
  { apply safe_unique_items, T. }
  exists (failing 0 rs). split; [|split].
  - rewrite run_collect by reflexivity. cbn [collect slot_err unique]. rewrite R. cbn [bind].
    destruct (failing 0 rs); reflexivity.
  - apply failing_sorted.
  - intros i r. rewrite failing_In. rewrite Nat.sub_0_r. apply mapM_done in R.
    assert (Q : forall a, nth_error l i = Some a ->
      nth_error (unique_items eqb f [] l) i
      = Some (if existsb (eqb a) (rev (firstn i l) ++ []) then Done (from_check (Some "repeated element")) else f a)).
    { intros a. apply unique_nth. }
    assert (B : forall a, existsb (eqb a) (rev (firstn i l) ++ []) = true <-> repeated i a).
    { intros a. rewrite app_nil_r, existsb_exists. unfold repeated. split.
      - intros (b & I & E). apply in_rev, In_nth_error in I as [j N].
        assert (L : j < i) by (eapply nth_firstn_lt; exact N).
        exists j, b. rewrite nth_firstn in N by exact L. auto.
      - intros (j & b & L & N & E). exists b. split; [|exact E]. rewrite <- in_rev. apply (nth_error_In _ j).
        now rewrite nth_firstn. }
    split.
    + intros (_ & N & NE). destruct (Forall2_nth_r _ _ _ R _ _ N) as (o & No & E). cbv beta in E. subst o.
      destruct (nth_error l i) as [a|] eqn:NA.
      * exists a. split; [reflexivity|]. rewrite (Q a eq_refl) in No. specialize (B a).
        destruct (existsb _ _); injection No as No.
        -- left. split; [apply B; reflexivity|]. cbn in No. now subst.
        -- right. split; [|auto]. intros C. apply B in C. discriminate.
      * exfalso. apply nth_error_None in NA.
        assert (L : i < List.length (unique_items eqb f [] l)) by (apply nth_error_Some; rewrite No; discriminate).
        rewrite unique_length in L. lia.
    + intros (a & NA & C). split; [lia|]. specialize (Q a NA). specialize (B a).
      destruct (Forall2_nth_l _ _ _ R _ _ Q) as (r' & N & E). cbv beta in E.
      destruct C as [[C ->]|(C & E' & NE)].
      * apply B in C. rewrite C in E. injection E as <-. split; [exact N|discriminate].
      * destruct (existsb _ _); [exfalso; apply C, B; reflexivity|]. split; [congruence|exact NE].
Qed.
(** without repetition a unique list is checked like an ordinary one *)
Theorem C27_no_repetition {A} (eqb : A -> A -> bool) (f : A -> outcome vresult) l :
  (forall i j a b, i < j -> nth_error l i = Some a -> nth_error l j = Some b -> eqb b a = false) ->
  unique eqb f l = items f l.
Proof.
  intros H. unfold unique, items. f_equal. apply unique_map; [exact H|]. intros a b _ [].
Qed.
Example C27_example : run [("k", unique String.eqb (lift validate_normalized) ["a"; String TAB ""; "a"; String TAB ""])]
  = Done [("k", ErrList [(1, from_check (validate_normalized (String TAB "")));
                         (2, [("", ErrCustom ["repeated element"])]); (3, [("", ErrCustom ["repeated element"])])])].
Proof. reflexivity. Qed.
Print Assumptions C27_unique_lists.
Print Assumptions C27_no_repetition.

(** ** C28: serial numbers *)
Theorem C28_validation s : validate_urn_uuid s = None <-> serial_shape s.
Proof. apply urn_iff. Qed.
Theorem C28_constructor s : (urn_uuid_new s = Some s <-> serial_shape s) /\ (urn_uuid_new s = None <-> ~ serial_shape s).
Proof.
  unfold urn_uuid_new, checked. rewrite <- serial_iff. destruct (is_match urn_uuid_re s); split; split; congruence.
Qed.
Theorem C28_generated u : String.length u = 16 -> serial_shape (urn_uuid_from u).
Proof. apply urn_uuid_from_shape. Qed.
Example C28_example : urn_uuid_from "0123456789abcdef" = "urn:uuid:30313233-3435-3637-3839-616263646566"
  /\ urn_uuid_new "urn:uuid:30313233-3435-3637-3839-61626364656A" = None.
Proof. split; vm_compute; reflexivity. Qed.
Print Assumptions C28_validation.
Print Assumptions C28_constructor.
Print Assumptions C28_generated.

(** ** C29: hash values *)
(** The claim is false of the code: *)
Theorem C29_hash_checked_in_full_refuted : exists s, validate_hash_value s = None /\ ~ hash_shape s.
Proof.
  exists (append (string_of_list_ascii (repeat "a"%char 32)) " and more"). split; [vm_compute; reflexivity|].
  intros [H _]. assert (C : hex_any " " = true).
  { apply H. exists (string_of_list_ascii (repeat "a"%char 32)), "and more". reflexivity. }
  vm_compute in C. discriminate.
Qed.
(** what the code does accept, and the half of the claim that holds *)
Theorem C29_hash_accepted_partial s : validate_hash_value s = None <-> hash_accepted s.
Proof. apply hash_check_iff. Qed.
Theorem C29_well_formed_accepted_partial s : hash_shape s -> validate_hash_value s = None.
Proof.
  intros [A L]. apply hash_check_iff. rewrite all_of_iff in A.
  assert (P : String.length s = 32 \/ 40 <= String.length s) by (cbn [In] in L; lia).
  destruct P as [P|P].
  - left. exists s, "". rewrite append_nil_r, all_of_iff. auto.
  - right. destruct (split_at 40 s P) as (w & t & -> & Lw). exists "", w, t. split; [reflexivity|]. split; [exact Lw|].
    rewrite all_of_iff. rewrite all_chars_app in A. apply andb_true_iff in A. tauto.
Qed.
Example C29_example : hash_shape "d41d8cd98f00b204e9800998ecf8427e" /\ validate_hash_value "d41d8cd98f00b204e9800998ecf8427" <> None.
Proof.
  split; [|vm_compute; discriminate]. split; [apply all_of_iff; vm_compute; reflexivity|]. left. vm_compute. reflexivity.
Qed.
Print Assumptions C29_hash_checked_in_full_refuted.
Print Assumptions C29_hash_accepted_partial.
Print Assumptions C29_well_formed_accepted_partial.

(** ** C30: CPE names *)
Theorem C30_cpe_checked_in_full_refuted : exists s, validate_cpe s = None /\ ~ cpe_shape s.
Proof.
  exists "not a cpe:/ at all". split; [vm_compute; reflexivity|].
  assert (E : forall r, anchor_free r = true -> is_match (full r) "not a cpe:/ at all" = false -> ~ lang r "not a cpe:/ at all").
  { intros r A F H. apply is_match_full in H; [|exact A]. congruence. }
  intros [H|H]; [apply cpe22_iff in H|apply cpe23_iff in H]; revert H; apply E; vm_compute; reflexivity.
Qed.
Theorem C30_cpe_accepted_partial s : validate_cpe s = None <-> cpe_accepted s.
Proof. apply cpe_check_iff. Qed.
Theorem C30_cpe_names_accepted_partial s : cpe_shape s -> validate_cpe s = None.
Proof. intros H. apply cpe_check_iff. exists "", s, "". split; [now rewrite append_nil_r|exact H]. Qed.
Example C30_example :
  cpe_shape "cpe:/a:vendor:product:1.0" /\ cpe_shape "cpe:2.3:a:vendor:prod\:uct:1.0:*:*:en-US:*:*:*:*"
  /\ validate_cpe "cpe-a:vendor" <> None /\ validate_cpe "cpe:2.3:a:vendor:product:1.0:*:en-US:*:*:*:*" <> None.
Proof.
  split; [left; apply cpe22_iff, is_match_full; vm_compute; reflexivity|].
  split; [right; apply cpe23_iff, is_match_full; vm_compute; reflexivity|].
  split; vm_compute; discriminate.
Qed.
Print Assumptions C30_cpe_checked_in_full_refuted.
Print Assumptions C30_cpe_accepted_partial.
Print Assumptions C30_cpe_names_accepted_partial.

(** ** C31: confidence scores *)
Theorem C31_confidence_range_refuted : exists c, validate_confidence c = None /\ ~ between_0_and_1 c.
Proof. exists (F_fin false 2 0). split; [reflexivity|]. cbn. intros [_ H]. vm_compute in H. auto. Qed.
Theorem C31_confidence_accepted_partial c : validate_confidence c = None <-> not_negative c.
Proof. apply confidence_iff. Qed.
Theorem C31_in_range_accepted_partial c : between_0_and_1 c -> validate_confidence c = None.
Proof.
  intros H. apply confidence_iff. destruct c as [|n|[] m e]; cbn in *; try tauto. destruct H as [[H|H] _]; [discriminate|auto].
Qed.
Example C31_example : between_0_and_1 (F_fin false 1 (-1)) /\ validate_confidence (F_fin true 1 (-1)) <> None
  /\ validate_confidence F_nan = None.
Proof. split; [|split; [vm_compute; discriminate|reflexivity]]. split; [left; reflexivity|vm_compute; discriminate]. Qed.
Print Assumptions C31_confidence_range_refuted.
Print Assumptions C31_confidence_accepted_partial.
Print Assumptions C31_in_range_accepted_partial.

(** ** C32: timestamps of an analysis *)
Theorem C32_last_updated_checked_refuted : exists x a, validate_analysis x a = Done []
  /\ ~ when (va_last_updated a) (is_time x).
Proof.
  exists picky_parsers, (mkAnalysis None None None None (Some "2024-01-01T00:00:00Z") (Some "yesterday")).
  split; [reflexivity|]. vm_compute. discriminate.
Qed.
(** what holds: the first-issued time, and every other timestamp of the model, is checked;
    the last-updated time never decides anything *)
Theorem C32_first_issued_checked_partial x a : validate_analysis x a = Done [] -> when (va_first_issued a) (is_time x).
Proof. intros H. apply analysis_iff in H. apply H. Qed.
Theorem C32_last_updated_ignored_partial x a t :
  validate_analysis x (mkAnalysis (va_state a) (va_justification a) (va_responses a) (va_detail a) (va_first_issued a) t)
  = validate_analysis x a.
Proof. reflexivity. Qed.
Example C32_example :
  validate_analysis picky_parsers (mkAnalysis None None None None (Some "2024-01-01T00:00:00Z") None) = Done []
  /\ validate_analysis picky_parsers (mkAnalysis None None None None (Some "yesterday") None) <> Done [].
Proof. split; [reflexivity|vm_compute; discriminate]. Qed.
Print Assumptions C32_last_updated_checked_refuted.
Print Assumptions C32_first_issued_checked_partial.
Print Assumptions C32_last_updated_ignored_partial.

(** ** C33: text forms of enumerated values *)
Ltac faithful T := unfold T; split; [|split];
  [ let s := fresh "s" in intros s; cbn [of_table];
    repeat (match goal with |- context [String.eqb ?k s] => destruct (String.eqb_spec k s) as [<-|] end; [reflexivity|]);
    reflexivity
  | let a := fresh "a" in intros a; destruct a; cbn; intros; first [reflexivity | discriminate]
  | let a := fresh "a" in intros a; destruct a; cbn; intros; first [discriminate | congruence] ].
Theorem C33_faithful_texts_partial :
  faithful_text text_classification classification_of_text raw_classification
  /\ faithful_text text_scope scope_of_text raw_scope
  /\ faithful_text text_hash_algorithm hash_algorithm_of_text raw_hash_algorithm
  /\ faithful_text text_license_type license_type_of_text raw_license_type
  /\ faithful_text text_issue_classification issue_classification_of_text raw_issue_classification
  /\ faithful_text text_patch_classification patch_classification_of_text raw_patch_classification
  /\ faithful_text text_data_flow_type data_flow_type_of_text raw_data_flow_type
  /\ faithful_text text_encoding encoding_of_text raw_encoding
  /\ faithful_text text_component_data_type component_data_type_of_text raw_component_data_type
  /\ faithful_text text_phase phase_of_text raw_phase
  /\ faithful_text text_analysis_state analysis_state_of_text raw_analysis_state
  /\ faithful_text text_analysis_justification analysis_justification_of_text raw_analysis_justification
  /\ faithful_text text_analysis_response analysis_response_of_text raw_analysis_response
  /\ faithful_text text_severity severity_of_text raw_severity
  /\ faithful_text text_score_method score_method_of_text raw_score_method
  /\ faithful_text text_status status_of_text raw_status
  /\ faithful_text text_approach_type approach_type_of_text raw_approach_type
  /\ faithful_text text_task_type task_type_of_text raw_task_type
  /\ faithful_text text_output_type output_type_of_text raw_output_type
  /\ faithful_text text_trigger_type trigger_type_of_text raw_trigger_type
  /\ faithful_text text_access_mode access_mode_of_text raw_access_mode
  /\ faithful_text text_volume_mode volume_mode_of_text raw_volume_mode.
Proof.
  repeat match goal with |- faithful_text _ _ _ => fail 1 | |- _ /\ _ => split end.
  - unfold classification_of_text, tbl_classification. faithful (@faithful_text).
  - unfold scope_of_text, tbl_scope. faithful (@faithful_text).
  - unfold hash_algorithm_of_text, tbl_hash_algorithm. faithful (@faithful_text).
  - unfold license_type_of_text, tbl_license_type. faithful (@faithful_text).
  - unfold issue_classification_of_text, tbl_issue_classification. faithful (@faithful_text).
  - unfold patch_classification_of_text, tbl_patch_classification. faithful (@faithful_text).
  - unfold data_flow_type_of_text, tbl_data_flow_type. faithful (@faithful_text).
  - unfold encoding_of_text, tbl_encoding. faithful (@faithful_text).
  - unfold component_data_type_of_text, tbl_component_data_type. faithful (@faithful_text).
  - unfold phase_of_text, tbl_phase. faithful (@faithful_text).
  - unfold analysis_state_of_text, tbl_analysis_state. faithful (@faithful_text).
  - unfold analysis_justification_of_text, tbl_analysis_justification. faithful (@faithful_text).
  - unfold analysis_response_of_text, tbl_analysis_response. faithful (@faithful_text).
  - unfold severity_of_text, tbl_severity. faithful (@faithful_text).
  - unfold score_method_of_text, tbl_score_method. faithful (@faithful_text).
  - unfold status_of_text, tbl_status. faithful (@faithful_text).
  - unfold approach_type_of_text, tbl_approach_type. faithful (@faithful_text).
  - unfold task_type_of_text, tbl_task_type. faithful (@faithful_text).
  - unfold output_type_of_text, tbl_output_type. faithful (@faithful_text).
  - unfold trigger_type_of_text, tbl_trigger_type. faithful (@faithful_text).
  - unfold access_mode_of_text, tbl_access_mode. faithful (@faithful_text).
  - unfold volume_mode_of_text, tbl_volume_mode. faithful (@faithful_text).
Qed.
(** reading what was written gives back any value obtained by reading *)
Theorem C33_reading_is_stable_partial {A} (write : A -> string) read carries :
  faithful_text write read carries -> forall s, read (write (read s)) = read s.
Proof. intros [H _] s. now rewrite H. Qed.
(** a catch-all value comes back, unless it carries the spelling of a named value *)
Theorem C33_catch_all_partial {A} (write : A -> string) read carries :
  faithful_text write read carries -> (forall a b s, carries a = Some s -> carries b = Some s -> a = b) ->
  forall a, carries a <> None -> read (write a) = a \/ carries (read (write a)) = None.
Proof.
  intros (H1 & H2 & H3) I a C. destruct (carries a) as [s|] eqn:Ca; [|congruence].
  rewrite (H3 a s Ca). destruct (carries (read s)) as [t|] eqn:Ct; [|auto]. left.
  assert (t = s) as -> by (rewrite <- (H3 _ _ Ct); apply H1). exact (I _ _ _ Ct Ca).
Qed.
(** The four types for which the claim is false, and exactly how: *)
Theorem C33_aggregate_refuted :
  aggregate_type_of_text (text_aggregate_type AIncompleteFirstPartyProprietaryOnly) <> AIncompleteFirstPartyProprietaryOnly.
Proof. vm_compute. discriminate. Qed.
Theorem C33_aggregate_partial :
  (forall s, text_aggregate_type (aggregate_type_of_text s) = s <-> s <> "incomplete_first_party_propprietary_only")
  /\ (forall a, raw_aggregate_type a = None ->
        (aggregate_type_of_text (text_aggregate_type a) = a <-> a <> AIncompleteFirstPartyProprietaryOnly)).
Proof.
  split.
  - intros s. unfold aggregate_type_of_text, tbl_aggregate_type. cbn [of_table].
    repeat (match goal with |- context [String.eqb ?k s] => destruct (String.eqb_spec k s) as [<-|] end;
            [vm_compute; split; congruence|]). cbn. split; congruence.
  - intros a; destruct a; vm_compute; intros H; try discriminate; split; congruence.
Qed.
Theorem C33_external_reference_refuted :
  ext_ref_type_of_text (text_ext_ref_type ERCondifiedInfrastructure) <> ERCondifiedInfrastructure.
Proof. vm_compute. discriminate. Qed.
Theorem C33_external_reference_partial :
  (forall s, text_ext_ref_type (ext_ref_type_of_text s) = s <-> s <> "codified-infrastructure")
  /\ (forall a, raw_ext_ref_type a = None ->
        (ext_ref_type_of_text (text_ext_ref_type a) = a <-> a <> ERCondifiedInfrastructure)).
Proof.
  split.
  - intros s. unfold ext_ref_type_of_text, tbl_ext_ref_type. cbn [of_table].
    repeat (match goal with |- context [String.eqb ?k s] => destruct (String.eqb_spec k s) as [<-|] end;
            [vm_compute; split; congruence|]). cbn. split; congruence.
  - intros a; destruct a; vm_compute; intros H; try discriminate; split; congruence.
Qed.
Theorem C33_identity_field_refuted : exists s, text_identity_field (identity_field_of_text s) <> s.
Proof. exists "serial". vm_compute. discriminate. Qed.
Theorem C33_identity_field_partial :
  (forall s, text_identity_field (identity_field_of_text s) = s
             <-> raw_identity_field (identity_field_of_text s) = None \/ s = "unknown")
  /\ (forall a, raw_identity_field a = None -> identity_field_of_text (text_identity_field a) = a).
Proof.
  split.
  - intros s. unfold identity_field_of_text, tbl_identity_field. cbn [of_table].
    repeat (match goal with |- context [String.eqb ?k s] => destruct (String.eqb_spec k s) as [<-|] end;
            [vm_compute; tauto|]). cbn. split; [auto|intros [H|H]; congruence].
  - intros a; destruct a; vm_compute; congruence.
Qed.
Theorem C33_algorithm_refuted : exists s, text_algorithm (algorithm_of_text s) <> s.
Proof. exists "RS1". vm_compute. discriminate. Qed.
Theorem C33_algorithm_partial :
  (forall s, text_algorithm (algorithm_of_text s) = s
             <-> raw_algorithm (algorithm_of_text s) = None \/ s = "Unknown")
  /\ (forall a, raw_algorithm a = None -> algorithm_of_text (text_algorithm a) = a).
Proof.
  split.
  - intros s. unfold algorithm_of_text, tbl_algorithm. cbn [of_table].
    repeat (match goal with |- context [String.eqb ?k s] => destruct (String.eqb_spec k s) as [<-|] end;
            [vm_compute; tauto|]). cbn. split; [auto|intros [H|H]; congruence].
  - intros a; destruct a; vm_compute; congruence.
Qed.
Example C33_example : classification_of_text "machine-learning-model" = CMachineLearningModel
  /\ classification_of_text "gadget" = CUnknown "gadget" /\ text_classification (CUnknown "gadget") = "gadget".
Proof. repeat split. Qed.
Print Assumptions C33_faithful_texts_partial.
Print Assumptions C33_reading_is_stable_partial.
Print Assumptions C33_catch_all_partial.
Print Assumptions C33_aggregate_partial.
Print Assumptions C33_external_reference_partial.
Print Assumptions C33_identity_field_partial.
Print Assumptions C33_algorithm_partial.

(** ** C34: version-specific values *)
Theorem C34_version_specific_values_partial v :
  (forall c, validate_classification v c = None <-> classification_in v c)
  /\ (forall m, validate_score_method v m = None <-> score_method_in v m)
  /\ (forall s, validate_bom_link v s = None <-> v = V1_5 /\ bom_link_shape s)
  /\ (forall r, validate_bom_ref v r = None <-> v = V1_5)
  /\ (forall a, validate_aggregate_type v a = None <-> aggregate_accepted v a)
  /\ (forall x ss cs, validate_tools x v (TObject ss cs) = Done [] -> v = V1_5).
Proof.
  split; [apply classification_iff|]. split; [apply score_method_iff|]. split; [apply bom_link_check_iff|].
  split; [apply bom_ref_iff|]. split; [apply aggregate_iff|]. intros x ss cs H. apply tools_iff in H. apply H.
Qed.
(** one aggregate type introduced in 1.5 is accepted for 1.3 and 1.4 *)
Theorem C34_aggregate_types_refuted : exists a, validate_aggregate_type V1_3 a = None /\ ~ aggregate_in V1_3 a.
Proof. exists AIncompleteFirstPartyProprietaryOnly. split; [reflexivity|]. cbn. discriminate. Qed.
Theorem C34_values_stay_accepted_partial v v' : version_leb v v' = true ->
  (forall c, validate_classification v c = None -> validate_classification v' c = None)
  /\ (forall m, validate_score_method v m = None -> validate_score_method v' m = None)
  /\ (forall s, validate_bom_link v s = None -> validate_bom_link v' s = None)
  /\ (forall r, validate_bom_ref v r = None -> validate_bom_ref v' r = None)
  /\ (forall a, validate_aggregate_type v a = None -> validate_aggregate_type v' a = None).
Proof.
  intros L. split; [|split; [|split; [|split]]]; intros a.
  - rewrite !classification_iff. destruct v, v', a; cbn in *; congruence.
  - rewrite !score_method_iff. destruct v, v', a; cbn in *; congruence.
  - rewrite !bom_link_check_iff. destruct v, v'; cbn in *; intros []; split; congruence.
  - rewrite !bom_ref_iff. destruct v, v'; cbn in *; congruence.
  - rewrite !aggregate_iff. unfold aggregate_accepted. intros [H|H]; [left|right; exact H].
    destruct v, v', a; cbn in *; congruence.
Qed.
(** whole BOMs do not stay valid: 1.5 forbids mixing licenses and expressions *)
Theorem C34_boms_stay_valid_refuted : exists x b, valid_bom x V1_4 b /\ ~ valid_bom x V1_5 b.
Proof.
  set (c := plain_component None "a" None).
  exists ok_parsers, (plain_bom (Some [ {| c_type := CLibrary; c_mime_type := None; c_bom_ref := None; c_supplier := None;
     c_author := None; c_publisher := None; c_group := None; c_name := "a"; c_version := None; c_description := None;
     c_scope := None; c_hashes := None; c_licenses := Some [LicExpression None "MIT"; LicExpression None "ISC"];
     c_copyright := None; c_cpe := None; c_purl := None; c_swid := None;
     c_modified := None; c_pedigree := None; c_external_references := None; c_properties := None;
     c_components := None; c_evidence := None; c_signature := None; c_model_card := None; c_data := None |} ]) None None None).
  split; [apply validate_bom_iff; vm_compute; reflexivity|]. intros H. apply validate_bom_iff in H. vm_compute in H. discriminate.
Qed.
Example C34_example : validate_classification V1_4 CMachineLearningModel <> None
  /\ validate_classification V1_5 CMachineLearningModel = None
  /\ validate_aggregate_type V1_4 AIncompleteThirdPartyOpensourceOnly <> None.
Proof. repeat split; discriminate. Qed.
Print Assumptions C34_version_specific_values_partial.
Print Assumptions C34_aggregate_types_refuted.
Print Assumptions C34_values_stay_accepted_partial.
Print Assumptions C34_boms_stay_valid_refuted.

(** ** C35: pattern checks *)
Theorem C35_patterns :
  (forall s, validate_mime_type s = None <-> mime_shape s)
  /\ (forall s, validate_bom_link V1_5 s = None <-> bom_link_shape s)
  /\ (forall s, (version_range_shape s -> version_range_new s = VRRange (normalize s))
                /\ (~ version_range_shape s -> version_range_new s = VRVersion (normalize s))).
Proof.
  split; [apply mime_check_iff|]. split.
  - intros s. rewrite bom_link_check_iff. tauto.
  - intros s. unfold version_range_new. rewrite <- version_range_iff. destruct (is_match version_range_re s); split; congruence.
Qed.
Example C35_example : validate_mime_type "text/html" = None /\ validate_mime_type "text" <> None
  /\ validate_bom_link V1_5 "urn:cdx:30313233-3435-3637-3839-616263646566/1#x" = None
  /\ validate_bom_link V1_5 "urn:cdx:30313233-3435-3637-3839-616263646566/0" <> None
  /\ version_range_new "vers:npm/1.2.3" = VRRange "vers:npm/1.2.3" /\ version_range_new "1.2.3" = VRVersion "1.2.3".
Proof. repeat split; try (vm_compute; reflexivity); vm_compute; discriminate. Qed.
Print Assumptions C35_patterns.

(** ** C36: checked constructors agree with validation *)
Theorem C36_constructors_agree x s :
  (uri_try_from x s = Some s <-> validate_uri x s = None)
  /\ (date_time_try_from x s = Some s <-> validate_date_time x s = None)
  /\ (spdx_id_try_from x s = Some s <-> validate_spdx_identifier x s = None)
  /\ (forall r, spdx_expr_try_from x s = Some s <-> validate_spdx_expression x (r, s) = None)
  /\ (urn_uuid_new s = Some s <-> validate_urn_uuid s = None)
  /\ (normalize s = s <-> validate_normalized s = None).
Proof.
  unfold uri_try_from, date_time_try_from, spdx_id_try_from, spdx_expr_try_from, urn_uuid_new, checked,
    validate_uri, validate_date_time, validate_spdx_identifier, validate_spdx_expression, validate_urn_uuid. cbn [snd].
  rewrite !require_none. split; [|split; [|split; [|split; [|split]]]].
  - destruct (x_uri x s); split; congruence.
  - destruct (x_date_time x s); split; congruence.
  - destruct (x_spdx_id x s); split; congruence.
  - intros _. rewrite require_none. destruct (x_spdx_expr x s); split; congruence.
  - destruct (is_match urn_uuid_re s); split; intros H; try reflexivity; discriminate H.
  - rewrite normalized_iff. split; [|apply normalize_id]. intros <-. apply normalize_single_line.
Qed.
(** a constructor never alters the text it accepts *)
Theorem C36_constructors_keep_text x s t :
  (uri_try_from x s = Some t -> t = s) /\ (date_time_try_from x s = Some t -> t = s)
  /\ (spdx_id_try_from x s = Some t -> t = s) /\ (spdx_expr_try_from x s = Some t -> t = s)
  /\ (urn_uuid_new s = Some t -> t = s).
Proof.
  unfold uri_try_from, date_time_try_from, spdx_id_try_from, spdx_expr_try_from, urn_uuid_new, checked.
  repeat split; match goal with |- (if ?b then _ else _) = _ -> _ => destruct b end; congruence.
Qed.
Example C36_example : date_time_try_from picky_parsers "2024-01-01T00:00:00Z" <> None
  /\ date_time_try_from picky_parsers "yesterday" = None /\ validate_date_time picky_parsers "yesterday" <> None.
Proof. repeat split; discriminate. Qed.
Print Assumptions C36_constructors_agree.
Print Assumptions C36_constructors_keep_text.

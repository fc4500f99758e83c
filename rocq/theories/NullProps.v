(** C81: nulls and repeated names in written JSON documents. *)
From Verif Require Import Base Strings ModelTypes Enums ConfigModel GenModel GenSpec GenExample Json JsonLemmas JsonModel JsonSpec JsonProofs JsonProofs4
  JsonForm JsonFormProofs JsonFormProps GenReadSpec GenRead GenReadProps NullSpec NullProofs.
Open Scope string_scope.
Open Scope list_scope.

Lemma hole_deeper v k p : hole v p -> hole v (k :: p).
Proof. intros H. inversion H; subst; [apply (hole_score v (k :: p0))|apply (hole_identity (k :: p0))|apply (hole_method (k :: p0))|apply (hole_terms (k :: p0))]; assumption. Qed.
Lemma written_ok v b j : output_as_json v b = Done j -> okB (hole v) j.
Proof.
  intros H. apply C68_writes_the_dialect in H as ->. apply ok_bom; [intros; now apply hole_deeper| | | |].
  - intros -> k I. now apply (hole_terms []).
  - intros N. now apply (hole_score v []).
  - intros ->. apply (hole_identity []).
  - intros ->. apply (hole_method []).
Qed.

(** A null stands only where a score or a confidence is no number, or a term of a license is not known *)
Theorem C81_nulls v b j p : output_as_json v b = Done j -> found p j JNull -> hole v p.
Proof. intros H F. now apply (written_ok v b j H p JNull F). Qed.
(** ... so there is none in version 1.3 *)
Theorem C81_no_null_1_3 b j p : output_as_json V1_3 b = Done j -> ~ found p j JNull.
Proof. intros H F. apply (C81_nulls V1_3 b j p H) in F. inversion F; subst. now apply H0. Qed.
(** No object, however deep, has a name twice *)
Theorem C81_names_once v b j p l : output_as_json v b = Done j -> found p j (JObj l) -> NoDup (map fst l).
Proof. intros H F. now apply (written_ok v b j H p (JObj l) F). Qed.

(** Which terms and numbers these are *)
Lemma found_leaf_null j p : found p j JNull -> p = [] -> match j with JNull => True | JArr l => exists x, In x l /\ found [] x JNull | _ => False end.
Proof. intros F ->. inversion F; subst; [exact I|]. eauto. Qed.
Theorem C81_terms x k : found [k] (to_json_licensing x) JNull <-> missing x k.
Proof.
  assert (S : forall (o : option (list string)), found [] (match o with Some l => arr JStr l | None => JNull end) JNull <-> o = None).
  { intros [l|]; split; intros F; try discriminate F; [|reflexivity|constructor]. apply found_leaf_null in F as (y & I & F); [|reflexivity]. apply in_map_iff in I as (s & <- & _). inversion F. }
  assert (T : forall (o : option (list license_type)), found [] (match o with Some l => arr (jtext text_license_type) l | None => JNull end) JNull <-> o = None).
  { intros [l|]; split; intros F; try discriminate F; [|reflexivity|constructor]. apply found_leaf_null in F as (y & I & F); [|reflexivity]. apply in_map_iff in I as (s & <- & _). inversion F. }
  assert (C : forall (o : option license_contact), found [] (match o with Some l => to_json_license_contact l | None => JNull end) JNull <-> o = None).
  { intros [l|]; split; intros F; try discriminate F; [|reflexivity|constructor]. destruct l; apply found_leaf_null in F; try reflexivity; contradiction. }
  assert (R : forall (o : option string), found [] (match o with Some l => JStr l | None => JNull end) JNull <-> o = None).
  { intros [l|]; split; intros F; try discriminate F; [inversion F|reflexivity|constructor]. }
  assert (M : forall l y, In (k, y) l -> found [] y JNull -> found [k] (JObj l) JNull) by (intros; econstructor; eauto).
  unfold missing. split.
  - intros F. inversion F as [|k' y l p z I F'|]; subst. unfold to_json_licensing, obj, opt_null in I. cbn [members] in I.
    cbn [In] in I. repeat destruct I as [I|I]; try contradiction; injection I as <- <-;
      first [apply S in F'|apply T in F'|apply C in F'|apply R in F']; tauto.
  - unfold to_json_licensing, obj, opt_null. cbn [members]. intros H.
    repeat destruct H as [H|H]; destruct H as [-> H]; (eapply M; [|constructor]); rewrite H; cbn [In]; tauto.
Qed.
Theorem C81_numbers f : found [] (to_json_f32 f) JNull <-> is_finite f = false.
Proof. destruct f; cbn; split; intros H; try discriminate H; try reflexivity; try constructor. inversion H. Qed.

(** What the generator writes has no nulls at all *)
Lemma kept_all {A} (f : A -> A) o : option_map (map f) o = o -> forall x, In x (olist o) -> f x = x.
Proof.
  destruct o as [l|]; [|intros _ x []]. intros [= E]. cbn. revert E. induction l as [|a l IH]; [intros _ x []|].
  cbn. intros [= E1 E2] x [<-|I]; auto.
Qed.
Lemma kept_choices v (A : list string -> Prop) o : option_map (map (kept_license_choice V1_3)) o = o -> Forall (choice_allowed v A) (olist o).
Proof.
  intros H. apply Forall_forall. intros x I. apply kept_all with (x := x) in H; [|assumption]. destruct x as [l|]; [|exact Logic.I].
  cbn [choice_allowed]. left. cbn in H. injection H as H. destruct l as [a1 a2 a3 a4 a5 a6]. unfold kept_license in H. cbn in H. injection H. intros. cbn. congruence.
Qed.
Lemma generated_component_ok v (A : list string -> Prop) c : (forall k p, A p -> A (k :: p)) -> plain V1_3 c ->
  (forall s, In s (olist (c_components c)) -> okB A (jf_component false v s)) -> okB A (jf_component false v c).
Proof.
  intros K P S. apply ok_flat_component; auto; [apply P|apply P|]. apply kept_choices.
  pose proof (pl_json _ _ P) as E. rewrite JsonProofs.kept_component_eq in E. destruct c. cbn in E |- *. injection E. intros. assumption.
Qed.
Theorem C81_generated w fuel meta nodes cfg m g files f v j p :
  well_formed meta nodes -> sbom_of w fuel meta cfg m g -> write_plan g = Done files -> In f files ->
  output_as_json v (f_bom f) = Done j -> ~ found p j JNull.
Proof.
  intros wf Hg Hp Hf H F. apply C68_writes_the_dialect in H as ->.
  assert (K : okB (fun _ => False) (jf_bom false v (f_bom f))).
  { destruct (file_parts w fuel meta nodes cfg m g wf Hg V1_3 files f Hp Hf)
      as (md & c & comps & A & B & C & D & E & G & M1 & M2 & _ & N1 & _ & _ & _ & N2 & _ & N3 & N4).
    apply ok_flat_bom; auto.
    - rewrite A. unfold kept_metadata in M1. destruct md as [a1 a2 a3 a4 a5 a6 a7 a8 a9]. cbn in M1, B, M2 |- *. injection M1 as Q1 Q2 Q3 Q4.
      split; [now apply kept_choices|]. split.
      + intros t ->. destruct t as [l|s cs]; [eauto|]. discriminate Q1.
      + intros c' E'. assert (c' = c) by congruence. subst c'. apply generated_component_ok; auto.
        intros s I. destruct (D s I) as [P N]. apply generated_component_ok; auto. rewrite N. intros ? [].
    - rewrite E. intros s I. destruct (G s I) as [P N]. apply generated_component_ok; auto. rewrite N. intros ? []. }
  now apply (K p JNull F).
Qed.

(** A document with a null of each kind, and one without *)
Definition holes_bom : bom :=
  js_bom [js_with None None (Some [LicLicense (mkLicense None (LName "own") None None
            (Some (mkLicensing None None None None (Some "PO 7") None None None)) None)])
          (Some (mkEvidence None None None None
            (Some (mkIdentity IFPurl (Some F_nan) (Some [mkMethod "manifest-analysis" (F_inf true) None]) None))))]
    None None
    (Some [mkVulnerability None (Some "CVE-2024-1") None None (Some [mkRating None (Some F_nan) None None None None])
             None None None None None None None None None None None None None None None None]) None [].
(** looking by computation *)
Fixpoint look (j : json) (p : list string) : list json :=
  (match p with [] => [j] | _ => [] end)
  ++ match j with
     | JArr l => flat_map (fun x => look x p) l
     | JObj l => match p with k :: q => flat_map (fun '(n, x) => if String.eqb n k then look x q else []) l | [] => [] end
     | _ => []
     end.
Lemma look_found j : forall p y, In y (look j p) <-> found p j y.
Proof.
  intros p y. split.
  - revert p y. induction j using json_ind'; intros p y I;
      try (destruct p; [destruct I as [<-|[]]; constructor|destruct I]).
    + cbn in I. apply in_app_iff in I as [I|I]; [destruct p; [destruct I as [<-|[]]; constructor|destruct I]|].
      apply in_flat_map in I as (x & Ix & I). rewrite Forall_forall in H. eapply found_element; eauto.
    + cbn in I. apply in_app_iff in I as [I|I]; [destruct p; [destruct I as [<-|[]]; constructor|destruct I]|].
      destruct p as [|k q]; [destruct I|]. apply in_flat_map in I as ([n x] & Ix & I). destruct (String.eqb_spec n k) as [->|]; [|destruct I].
      rewrite Forall_forall in H. eapply found_member; eauto. apply (H (k, x)); auto.
  - induction 1 as [j|k x l p y I F IH|x l p y I F IH].
    + destruct j; now left.
    + cbn. apply in_flat_map. exists (k, x). split; [assumption|]. now rewrite String.eqb_refl.
    + cbn. apply in_app_iff. right. apply in_flat_map. now exists x.
Qed.
Example C81_case : exists j, output_as_json V1_5 holes_bom = Done j
  /\ found ["components"; "licenses"; "license"; "licensing"; "expiration"] j JNull
  /\ found ["components"; "evidence"; "identity"; "confidence"] j JNull
  /\ found ["components"; "evidence"; "identity"; "methods"; "confidence"] j JNull
  /\ found ["vulnerabilities"; "ratings"; "score"] j JNull
  /\ ~ found ["components"; "licenses"; "license"; "licensing"; "purchaseOrder"] j JNull.
Proof.
  eexists. split; [vm_compute; reflexivity|]. rewrite <- !look_found. repeat split; vm_compute; try (now left). intros [E|[]]. discriminate E.
Qed.
Example C81_case_once : exists j l, output_as_json V1_5 holes_bom = Done j /\ found ["components"; "licenses"; "license"; "licensing"] j (JObj l)
  /\ map fst l = licensing_names.
Proof. eexists. eexists. split; [vm_compute; reflexivity|]. rewrite <- look_found. split; [vm_compute; left; reflexivity|reflexivity]. Qed.
Print Assumptions C81_nulls.
Print Assumptions C81_no_null_1_3.
Print Assumptions C81_names_once.
Print Assumptions C81_terms.
Print Assumptions C81_numbers.
Print Assumptions C81_generated.

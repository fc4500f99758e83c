(** The JSON form of valid, tame values conforms to the schema: vulnerabilities (1.4 and 1.5). *)
From Verif Require Import Base ModelTypes Strings Regex Enums Json JsonModel JsonProofs JsonProofs2 JsonProofs4 JsonSpec Schema SchemaText SchemaLemmas ValModel ValSpec ValProofs SchemaSpec SchemaProofs SchemaProofs2 SchemaProofs3.
From Coq Require Import ZArith Lia.
Open Scope string_scope.
Open Scope list_scope.

Section Conform.
Variable x : parsers.
Variable fmt : string -> string -> bool.
Hypothesis FA : formats_agree x fmt.
Notation ok v := (conforms fmt (schema_definitions v)).
Notation named r := (Sch [KRef r]).

Section Since14.
Variable v : spec_version.
Hypothesis N : v <> V1_3.

Lemma ok_vuln_source s : ok v (named "vulnerabilitySource") (to_json_vuln_source s).
Proof. unfold to_json_vuln_source. destruct v; [congruence| |]; go. Qed.
Lemma ok_rating r : valid_rating x v r -> tame_rating r -> ok v (named "rating") (to_json_vuln_rating r).
Proof.
  unfold valid_rating, tame_rating, score_method_in. intros V T. unfold to_json_vuln_rating, jtext.
  pose proof ok_vuln_source as VS.
  destruct (ra_score r) as [f|]; [destruct T as (n & m & e & ->)|];
    [change (opt to_json_f32 (Some (F_fin n m e))) with (Some (JFloat (F_fin n m e)))|change (opt to_json_f32 None) with (@None json)];
    (destruct v; [congruence| |]); open_hyps; go;
    specialize (H2 _ E); apply existsb_eqb; destruct a; try reflexivity; try contradiction; discriminate.
Qed.
Lemma ok_advisory a : valid_advisory x a -> ok v (named "advisory") (to_json_advisory a).
Proof. unfold valid_advisory. intros. unfold to_json_advisory. destruct v; [congruence| |]; open_hyps; go. Qed.
Definition items_of (s : schema) : schema :=
  match s with Sch (_ :: KItems s' :: _) | Sch (_ :: KUnique :: KItems s' :: _) => s' | _ => s end.
Lemma ok_vuln_reference r : ok v (items_of (sub "references" (defn "vulnerability" v))) (to_json_vuln_reference r).
Proof.
  pose proof ok_vuln_source as VS. unfold to_json_vuln_reference. destruct v; [congruence| |]; go.
Qed.
Lemma ok_credits c : valid_credits x v c -> tame_credits fmt v c ->
  ok v (sub "credits" (defn "vulnerability" v)) (to_json_vuln_credits c).
Proof.
  unfold valid_credits, tame_credits. intros. unfold to_json_vuln_credits. destruct v; [congruence| |]; open_hyps; go.
Qed.
Lemma ok_analysis a : valid_analysis x a -> tame_analysis x v a ->
  ok v (sub "analysis" (defn "vulnerability" v)) (to_json_vuln_analysis v a).
Proof.
  unfold valid_analysis, tame_analysis. intros. unfold to_json_vuln_analysis, jtext.
  destruct v; [congruence| |]; open_hyps; go.
Qed.
Lemma ok_version_status s : valid_version_status s -> tame_range (ve_range s) ->
  ok v (items_of (sub "versions" (items_of (sub "affects" (defn "vulnerability" v))))) (to_json_version_status s).
Proof.
  unfold valid_version_status, tame_range. intros [V1 V2] T. unfold to_json_version_status, version_range_member, jtext.
  destruct (ve_range s) as [t|t|t]; [| |destruct (V1 t eq_refl)]; cbv iota in *; destruct T;
    (destruct v; [congruence| |]); go; try assumption; required_one.
Qed.
Lemma ok_cwe n : (1 <= u32_N n)%N -> ok v (named "cwe") (to_json_u32 n).
Proof.
  intros L. assert (M : meets fmt (schema_definitions v) (KMinimum 1) (to_json_u32 n)).
  { apply meets_minimum. intros p E. cbn in E. injection E as <-. unfold at_least. cbn [fst snd]. change (2 ^ Z.max (- 0) 0)%Z with 1%Z. change (2 ^ Z.max 0 0)%Z with 1%Z. apply Z.leb_le. lia. }
  destruct v; [congruence| |]; eapply conforms_ref; try reflexivity; apply conforms_intro; foralls; try kw; exact M.
Qed.
End Since14.
Hint Extern 1 (conforms _ (schema_definitions ?v) _ (to_json_version_status _)) => apply (ok_version_status v); [discriminate| |] : sch.
Lemma ok_target v t : v <> V1_3 -> valid_target t -> tame_target v t ->
  ok v (items_of (sub "affects" (defn "vulnerability" v))) (to_json_vuln_target t).
Proof.
  unfold valid_target, tame_target. intros N V T. unfold to_json_vuln_target.
  destruct v; [congruence| |]; open_hyps; go.
Qed.
Lemma ok_poc p : tame_poc p -> ok V1_5 (sub "proofOfConcept" (defn "vulnerability" V1_5)) (to_json_proof_of_concept p).
Proof. unfold tame_poc. intros. unfold to_json_proof_of_concept. open_hyps. go. Qed.

Hint Extern 1 (conforms _ (schema_definitions ?v) _ (to_json_vuln_source _)) => apply (ok_vuln_source v); discriminate : sch.
Hint Extern 1 (conforms _ (schema_definitions ?v) _ (to_json_vuln_rating _)) => apply (ok_rating v); [discriminate| |] : sch.
Hint Extern 1 (conforms _ (schema_definitions ?v) _ (to_json_vuln_reference _)) => apply (ok_vuln_reference v); discriminate : sch.
Hint Extern 1 (conforms _ (schema_definitions ?v) _ (to_json_advisory _)) => apply (ok_advisory v); [discriminate|] : sch.
Hint Extern 1 (conforms _ (schema_definitions ?v) _ (to_json_vuln_credits _)) => apply (ok_credits v); [discriminate| |] : sch.
Hint Extern 1 (conforms _ (schema_definitions ?v) _ (to_json_vuln_analysis _ _)) => apply (ok_analysis v); [discriminate| |] : sch.
Hint Extern 1 (conforms _ (schema_definitions ?v) _ (to_json_vuln_target _)) => apply (ok_target v); [discriminate| |] : sch.
Hint Extern 1 (conforms _ (schema_definitions ?v) _ (to_json_u32 _)) => apply (ok_cwe v); [discriminate|] : sch.
Hint Extern 1 (conforms _ _ _ (to_json_proof_of_concept _)) => apply ok_poc : sch.

Lemma ok_vulnerability v u : v <> V1_3 -> valid_vulnerability x v u -> tame_vulnerability x fmt v u ->
  ok v (named "vulnerability") (to_json_vulnerability v u).
Proof.
  intros N V T. unfold valid_vulnerability, tame_vulnerability in *. unfold to_json_vulnerability.
  destruct v; [congruence| |]; open_hyps; go.
  apply (ok_tools_15 x); auto.
Qed.
End Conform.

Lemma ok_vulnerability_14 x fmt : formats_agree x fmt -> forall u, valid_vulnerability x V1_4 u -> tame_vulnerability x fmt V1_4 u ->
  conforms fmt (schema_definitions V1_4) (Sch [KRef "vulnerability"]) (to_json_vulnerability V1_4 u).
Proof. intros FA u. apply (ok_vulnerability x fmt FA). discriminate. Qed.
Lemma ok_vulnerability_15 x fmt : formats_agree x fmt -> forall u, valid_vulnerability x V1_5 u -> tame_vulnerability x fmt V1_5 u ->
  conforms fmt (schema_definitions V1_5) (Sch [KRef "vulnerability"]) (to_json_vulnerability V1_5 u).
Proof. intros FA u. apply (ok_vulnerability x fmt FA). discriminate. Qed.
#[global] Hint Resolve ok_vulnerability_14 ok_vulnerability_15 : sch.

(** Writing a whole BOM as XML and reading it again. *)
From Coq Require Import NArith ZArith.
From Verif Require Import Base ModelTypes Strings Enums GenModel Json JsonLemmas JsonModel Xml XmlLemmas XmlModel XmlSpec XmlRead XmlProofs XmlProofs2 XmlProofs3.
Open Scope string_scope.
Open Scope list_scope.
Open Scope nat_scope.

Lemma length_flats_cons x l : List.length (flats (x :: l)) = List.length (flat x) + List.length (flats l).
Proof. unfold flats. cbn [flat_map]. apply app_length. Qed.
Lemma length_flats_app l1 l2 : List.length (flats (l1 ++ l2)) = List.length (flats l1) + List.length (flats l2).
Proof. unfold flats. rewrite flat_map_app. apply app_length. Qed.
Lemma height_flats x : height x <= pred (List.length (flats (reparse x))).
Proof.
  induction x as [n ats kids IH|s|s|] using xml_ind'; cbn [height]; try lia.
  cbn [reparse]. rewrite length_flats_cons. cbn [flat]. cbn [List.length]. rewrite app_length. cbn [List.length].
  fold (flats (flat_map reparse kids)).
  assert (H : (fix go (l : list xml) := match l with [] => 0 | y :: l' => Nat.max (height y) (go l') end) kids
              <= List.length (flats (flat_map reparse kids))).
  { induction IH as [|y l Hy Hl IHl]; [lia|]. cbn [flat_map]. rewrite length_flats_app. lia. }
  lia.
Qed.

Theorem write_then_parse F v b :
  (version_leb V1_4 v = true -> float_text_ok F) ->
  parse_from_xml F v (written (namespace v, wr_bom F v b))
  = match kx_bom v b with Some b' => XOk b' [] | None => XErr end.
Proof.
  intros HF.
  assert (H : reads "bom" (rd_bom F v (S (pred (List.length (flats (reparse (wr_bom F v b))))))) (wr_bom F v b) (kx_bom v b)).
  { apply rt_bom; [exact HF|]. pose proof (height_flats (wr_bom F v b)). lia. }
  unfold written. cbn [fst snd]. destruct H as (ats & ks & E & H). revert H. rewrite E.
  intros H. unfold checked in H. destruct (attrs_ok (Elem "bom" ats ks)).
  2:{ destruct (kx_bom v b); [discriminate|reflexivity]. }
  cbn [reparse] in *. fold (reparses ks) in *. unfold flats in H |- * at 1. cbn [flat_map flat app] in H |- *. rewrite app_nil_r in *.
  fold (flats (reparses ks)) in *.
  unfold parse_from_xml. cbn [doc_events doc_namespace]. rewrite String.eqb_refl.
  cbn [String.eqb Ascii.eqb Bool.eqb]. rewrite String.eqb_refl. cbn [List.length pred] in H.
  pose proof (run_tr (rd_bom F v (S (List.length (flats (reparses ks) ++ [EEnd "bom"])))) "bom" ats (reparses ks) []) as R.
  rewrite H in R. destruct (kx_bom v b) as [b'|]; cbn [of_opt agree] in R; rewrite R; reflexivity.
Qed.

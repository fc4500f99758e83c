(** Every document that says [x] is read as [said_x x]: evidence, components, services and what contains them. *)
From Coq Require Import NArith.
From Verif Require Import Base ModelTypes Strings Enums GenModel Json JsonLemmas JsonModel Xml XmlLemmas XmlModel XmlSpec XmlRead XmlProofs XmlProofs2 XmlProofs3 XmlForm XmlFormRead XmlFormProofs.
Open Scope string_scope.
Open Scope list_scope.
Open Scope nat_scope.
Open Scope shape_scope.

(** ** Numbers with a fractional part *)

(** [Display] and [FromStr] of [f32]: the text of a number reads back as the number and has no blanks around it *)
Definition float_text_exact (F : float_text) : Prop :=
  forall f, read_f32 F (show_f32 F f) = Some f /\ xtrim (show_f32 F f) = show_f32 F f
    /\ trim (show_f32 F f) = show_f32 F f /\ show_f32 F f <> "".
Lemma te_f32 F h tag f : float_text_exact F -> tells h tag (d_f32 F) (named (show_f32 F) tag f) (Some f).
Proof.
  intros H. destruct (H f) as (R & X & T & N). apply tells_attr_text; [reflexivity|]. intros _ _ _.
  unfold nonblank. rewrite X. destruct (show_f32 F f) as [|a s] eqn:E; [congruence|]. cbn [bindo]. now rewrite T.
Qed.
Lemma te_score F h tag f : float_text_exact F -> tells h tag (d_score F) (named (show_f32 F) tag f) (Some f).
Proof.
  intros H. destruct (H f) as (R & X & T & N). eapply tells_eq; [apply (tells_text h (read_f32 F))|]. now rewrite X.
Qed.

(** ** Evidence *)
Lemma te_occurrence h x : tells h "occurrence" rd_occurrence (form_occurrence x) (Some (said_occurrence x)).
Proof. tell_rec. Qed.
Lemma te_frame h x : tells h "frame" rd_frame (form_frame x) (Some (said_frame x)).
Proof. tell_rec. Qed.
Global Hint Resolve te_occurrence te_frame : tell.
(** the call stack's reader looks through [frames] *)
Lemma absorb_open {S} (arm : string -> option (attrs -> list xml -> tres (S -> option S))) chars n l : forall st,
  absorb Open arm chars n l st =
  (fix go (l : list xml) (st : S) : tres S :=
     match l with [] => TOk st | y :: l' => tbind (absorb1 Open arm chars n y st) (go l') end) l st.
Proof. induction l as [|y l IH]; intros st; cbn; [reflexivity|]. destruct (absorb1 Open arm chars n y st); cbn; auto. Qed.
Lemma te_callstack h l :
  tells h "callstack" (list_of Open "frame" rd_frame) (form_callstack l) (Some (map said_frame l)).
Proof.
  split; [reflexivity|]. intros y a Sm Hy E. injection E as <-.
  apply same_elem_inv in Sm. destruct Sm as (ats' & mid & ks & -> & P & M & Sh & _).
  apply Permutation_nil in P. subst ats'.
  inversion M as [|? f ? ? Hf Hn]; subst. inversion Hn; subst. clear M Hn.
  destruct (same_elem_inv _ _ _ _ Hf) as (fats & fmid & fks & -> & P & _). apply Permutation_nil in P. subst fats.
  assert (V : visible ks = [Elem "frames" [] fks]).
  { apply (shuf_one_name (Some "frames")); [|exact Sh]. intros x [<-|[]]. reflexivity. }
  assert (Hh : height (Elem "frames" [] fks) < h).
  { assert (I : In (Elem "frames" [] fks) (visible ks)) by (rewrite V; now left).
    apply visible_in in I. pose proof (height_in "callstack" [] ks _ I). lia. }
  clear Sh Hy.
  destruct (parts_children h (many "frame" rd_frame) ["frame"] "frames" [] (map form_frame l) _ _ _
              (parts_many_t h "frame" rd_frame form_frame said_frame l (te_frame h)) Hf (Nat.lt_lt_succ_r _ _ Hh) eq_refl)
    as (ats2 & ks2 & E2 & _ & Fl). injection E2 as <- <-.
  destruct (fills_ok _ _ _ _ Fl) as [O T]. rewrite attrs_ok_visible in O.
  apply reads_visible. rewrite V. exists [], [Elem "frames" [] fks]. split; [reflexivity|].
  rewrite attrs_ok_elem. cbn [map distinct forallb]. rewrite attrs_ok_elem, O. cbn [map distinct andb checked].
  rewrite reparses_cons. cbn [reparse app reparses flat_map]. fold (reparses fks).
  cbn [list_of tr]. cbn [absorb absorb1 tr_arm many String.eqb Ascii.eqb Bool.eqb]. rewrite <- absorb_open.
  fold (many "frame" rd_frame). rewrite <- (reparses_visible fks).
  pose proof (absorb_tfold Open (many "frame" rd_frame) (on_chars (many "frame" rd_frame)) "callstack" (visible fks) (init (many "frame" rd_frame)) (f_owned _ _ _ _ Fl)) as K.
  rewrite T in K. match type of K with ?l = _ => transitivity (tbind l (fun st => TOk st)) end; [reflexivity|].
  rewrite K. reflexivity.
Qed.
Global Hint Resolve te_callstack : tell.
Lemma te_method F h x : float_text_exact F -> tells h "method" (rd_method F) (form_method (show_f32 F) x) (Some (said_method x)).
Proof.
  intros HF. pose proof (fun h tag f => te_f32 F h tag f HF) as Hf. tell_rec.
Qed.
(** a list of references is read with as many nested readers as the document is high *)
Lemma fills_appends {A} tag (d : desc (list A)) mid l :
  Forall2 (fun y a => reads tag d y (Some [a])) mid l ->
  fills (SOn tag d [] (fun l acc => Some (acc ++ l))) [tag] mid (Some l).
Proof.
  intros H. assert (K : Forall (owned (SOn tag d [] (fun l acc => Some (acc ++ l)))) mid /\ forallb attrs_ok mid = true
    /\ forall acc, tfold (tr_arm (SOn tag d [] (fun l acc => Some (acc ++ l)))) mid acc = TOk (acc ++ l)).
  { induction H as [|y a mid l (ats & ks & -> & R) H (O & W & T)].
    - split; [constructor|]. split; [reflexivity|]. intros acc. cbn. now rewrite app_nil_r.
    - unfold checked in R. destruct (attrs_ok (Elem tag ats ks)) eqn:E; [|discriminate]. split.
      + constructor; [|exact O]. cbn. rewrite String.eqb_refl. discriminate.
      + split; [cbn [forallb]; now rewrite E, W|]. intros acc. cbn [tfold tr_arm]. rewrite String.eqb_refl, R.
        cbn [of_opt tmap tbind]. rewrite T, <- app_assoc. reflexivity. }
  destruct K as (O & W & T). constructor; [apply covers_on|exact O|]. rewrite W. exact (T []).
Qed.
Lemma te_tool_refs n l : tells n "tools" (rd_tool_refs n) (group "tools" (pointer "tool") l) (Some l).
Proof.
  destruct n as [|n]; [split; [reflexivity|lia]|].
  assert (H : forall s, tells n "tool" (DMap (fun _ ats l => let? r := attr "ref" ats in Some (r :: l)) (rd_tool_refs n))
                (pointer "tool" s) (Some [s])).
  { intros s. destruct n as [|n]; [split; [reflexivity|lia]|].
    eapply tells_dmap; [cbn [rd_tool_refs]; eapply tells_loop_S; [apply parts_nil, covers_on|reflexivity]|reflexivity|].
    intros ats' E _. cbn [bindo]. rewrite E. reflexivity. }
  cbn [rd_tool_refs]. eapply tells_loop_S; [|reflexivity].
  eapply parts_one_name; [apply covers_on|apply Forall_forall|].
  - intros x Hx. apply in_map_iff in Hx. destruct Hx as (s & <- & _). exists "tool". split; [reflexivity|now left].
  - intros mid a M Hh E. injection E as <-. apply fills_appends.
    clear -M Hh H. revert mid M Hh. induction l as [|s l IH]; intros mid M Hh; cbn [map] in M; inversion M as [|? y ? m Hy Hm]; subst; [constructor|].
    inversion Hh; subst. constructor; [|now apply IH]. destruct (H s) as [_ K]. apply K; auto.
Qed.
Global Hint Resolve te_tool_refs : tell.
Lemma te_identity F n x : float_text_exact F ->
  tells n "identity" (rd_identity F n) (form_identity (show_f32 F) x) (Some (said_identity x)).
Proof.
  intros HF. pose proof (fun h tag f => te_f32 F h tag f HF) as Hf. pose proof (fun h x => te_method F h x HF) as Hm. tell_rec.
Qed.
Lemma te_evidence F v n x : float_text_exact F ->
  tells n "evidence" (rd_evidence F v n) (form_evidence (show_f32 F) v x) (said_evidence v x).
Proof.
  intros HF. pose proof (fun x => te_identity F n x HF) as Hi. unfold said_evidence.
  assert (Hc : forall o, parts n (one_list Open "callstack" "frame" rd_frame) ["callstack"] (perhaps form_callstack o)
                 (Some (option_map (map said_frame) o))).
  { intros o. eapply parts_opt_t. intros l. apply te_callstack. }
  tell_rec.
Qed.

(** ** Components *)
Lemma te_swid h x : tells h "swid" rd_swid (form_swid x) (said_swid x).
Proof.
  unfold said_swid. eapply tells_struct; [all_parts|with_attrs_distinct|]. intros ats' E. steps. unfold attr_of. rewrite !E.
  rewrite ?with_attr_app, ?with_attr_only; cbn [attr app String.eqb Ascii.eqb Bool.eqb bindo].
  rewrite ?with_attr_app, ?with_attr_only; cbn [attr app String.eqb Ascii.eqb Bool.eqb bindo].
  rewrite ?opt_eta. unfold number.
  destruct (sw_tag_version x) as [u|]; cbn [option_map bindo]; [pose proof (xml_u32_text u) as X; unfold u32_text in X; rewrite ?X|]; cbn [bindo];
  (destruct (sw_patch x) as [[]|]; reflexivity).
Qed.
Global Hint Resolve te_swid : tell.
Lemma form_component_eq show v x :
  form_component show v x =
  Elem "component"
    ([("type", text_classification (c_type x))] ++ with_attr "mime-type" (c_mime_type x)
     ++ with_attr "bom-ref" (c_bom_ref x))
    (perhaps (form_entity "supplier") (c_supplier x)
     ++ perhaps (words "author") (c_author x) ++ perhaps (words "publisher") (c_publisher x)
     ++ perhaps (words "group") (c_group x) ++ [words "name" (c_name x)]
     ++ perhaps (words "version") (c_version x) ++ perhaps (words "description") (c_description x)
     ++ perhaps (named text_scope "scope") (c_scope x) ++ form_hashes (c_hashes x) ++ form_licenses v (c_licenses x)
     ++ perhaps (words "copyright") (c_copyright x) ++ perhaps (words "cpe") (c_cpe x)
     ++ perhaps (words "purl") (c_purl x) ++ perhaps form_swid (c_swid x)
     ++ perhaps (named yes_no "modified") (c_modified x)
     ++ perhaps (form_pedigree (form_component show v)) (c_pedigree x)
     ++ form_external_references (c_external_references x) ++ form_properties (c_properties x)
     ++ perhaps_group "components" (form_component show v) (c_components x)
     ++ perhaps (form_evidence show v) (c_evidence x)
     ++ in_version V1_4 v (perhaps form_signature (c_signature x))
     ++ in_version V1_5 v (perhaps form_model_card (c_model_card x))
     ++ in_version V1_5 v (perhaps (form_component_data "data") (c_data x))).
Proof. destruct x; reflexivity. Qed.
Lemma said_component_eq v x :
  said_component v x =
  (let? li := said_licenses v (c_licenses x) in
  let? sw := maybe said_swid (c_swid x) in
  let? pe := maybe (said_pedigree (said_component v)) (c_pedigree x) in
  let? cs := maybe (each (said_component v)) (c_components x) in
  let? ev := maybe (said_evidence v) (c_evidence x) in
  let? mc := gate V1_5 v (maybe said_model_card (c_model_card x)) in
  let? da := gate V1_5 v (maybe said_component_data (c_data x)) in
  let? ve := match trimo (c_version x) with
             | None => if version_leb V1_4 v then Some None else None
             | Some s => Some (Some s)
             end in
  Some (mkComponent (JsonSpec.kept_classification (c_type x)) (c_mime_type x) (c_bom_ref x)
          (option_map said_entity (c_supplier x))
          (trimo (c_author x)) (trimo (c_publisher x)) (trimo (c_group x)) (xtrim (c_name x)) ve
          (trimo (c_description x)) (option_map kx_scope (c_scope x)) (said_hashes (c_hashes x)) li
          (trimo (c_copyright x)) (trimo (c_cpe x)) (trimo (c_purl x)) sw (c_modified x) pe
          (said_external_references (c_external_references x)) (said_properties (c_properties x))
          cs ev (JsonSpec.from V1_4 v (option_map said_signature (c_signature x))) mc da)).
Proof. destruct x; reflexivity. Qed.
Lemma te_component F v n : float_text_exact F -> forall x,
  tells n "component" (rd_component F v n) (form_component (show_f32 F) v x) (said_component v x).
Proof.
  intros HF. induction n as [|n IH]; intros x; [split; [destruct x; reflexivity|lia]|].
  pose proof (fun x => te_evidence F v n x HF) as He.
  pose proof (fun p => te_pedigree n _ _ _ p IH) as Hp.
  rewrite said_component_eq, form_component_eq. cbn [rd_component].
  eapply tells_struct_S.
  - all_parts.
  - with_attrs_distinct.
  - intros ats' E. steps. rewrite !E. unfold since, trimo.
    destruct (c_version x), (version_leb V1_4 v); cbn [option_map bindo]; try reflexivity;
      cbn [attr app String.eqb Ascii.eqb Bool.eqb]; with_attr_simp; rewrite ?classification_back; try reflexivity.
Qed.

(** ** Services *)
Lemma te_classification h x : tells h "classification" rd_classification (form_classification x) (Some (said_classification x)).
Proof. apply tells_attr_simple; [reflexivity|]. intros ats' E. rewrite E. with_attr_simp. now rewrite data_flow_type_back. Qed.
Global Hint Resolve te_classification : tell.
Lemma te_service_data h x : tells h "dataflow" rd_service_data (form_service_data x) (Some (said_service_data x)).
Proof. tell_rec. Qed.
Global Hint Resolve te_service_data : tell.
Lemma te_data h v x : tells h "data" (rd_data v) (form_data x) (said_data v x).
Proof.
  unfold rd_data, form_data, said_data. destruct x as [l|l].
  - destruct l as [|a l].
    + eapply tells_struct; [|reflexivity|].
      * apply parts_nil. eapply (covers_pair _ _ ["classification"] ["dataflow"]); cover.
      * intros ats' _. cbn [bindo]. now destruct (since V1_5 v).
    + unfold since. destruct (version_leb V1_5 v).
      * eapply tells_struct; [|reflexivity|].
        -- eapply (parts_none_pair h _ _ ["classification"]); [cover|cbn [Xml.from]; eapply parts_many_t; tell|reflexivity].
        -- reflexivity.
      * split; [reflexivity|discriminate].
  - eapply tells_struct; [|reflexivity|].
    + eapply parts_pair_none; [part|cover|reflexivity].
    + intros ats' _. cbn [bindo]. now destruct (since V1_5 v).
Qed.
Global Hint Resolve te_data : tell.
Lemma form_service_eq v x :
  form_service v x =
  Elem "service" (with_attr "bom-ref" (s_bom_ref x))
    (perhaps (form_entity "provider") (s_provider x) ++ perhaps (words "group") (s_group x) ++ [words "name" (s_name x)]
     ++ perhaps (words "version") (s_version x) ++ perhaps (words "description") (s_description x)
     ++ perhaps_group "endpoints" (words "endpoint") (s_endpoints x)
     ++ perhaps (named yes_no "authenticated") (s_authenticated x)
     ++ perhaps (named yes_no "x-trust-boundary") (s_x_trust_boundary x)
     ++ perhaps form_data (s_data x) ++ form_licenses v (s_licenses x)
     ++ form_external_references (s_external_references x) ++ form_properties (s_properties x)
     ++ perhaps_group "services" (form_service v) (s_services x)
     ++ in_version V1_4 v (perhaps form_signature (s_signature x))
     ++ in_version V1_5 v (perhaps (words "trustZone") (s_trust_zone x))).
Proof. destruct x; reflexivity. Qed.
Lemma said_service_eq v x :
  said_service v x =
  (let? da := maybe (said_data v) (s_data x) in
  let? li := said_licenses v (s_licenses x) in
  let? ss := maybe (each (said_service v)) (s_services x) in
  Some (mkService (s_bom_ref x) (option_map said_entity (s_provider x)) (trimo (s_group x)) (xtrim (s_name x))
          (trimo (s_version x)) (trimo (s_description x)) (option_map (map xtrim) (s_endpoints x))
          (s_authenticated x) (s_x_trust_boundary x) da li
          (said_external_references (s_external_references x)) (said_properties (s_properties x)) ss
          (JsonSpec.from V1_4 v (option_map said_signature (s_signature x)))
          (JsonSpec.from V1_5 v (trimo (s_trust_zone x))))).
Proof. destruct x; reflexivity. Qed.
Lemma te_service v n : forall x, tells n "service" (rd_service v n) (form_service v x) (said_service v x).
Proof.
  induction n as [|n IH]; intros x; [split; [destruct x; reflexivity|lia]|].
  rewrite said_service_eq, form_service_eq. cbn [rd_service]. eapply tells_struct_S; [all_parts|with_attrs_distinct|tell_fin].
Qed.
Global Hint Resolve te_service : tell.
Section READ.
Context (F : float_text) (v : spec_version) (HF : float_text_exact F).
Let show := show_f32 F.
Lemma te_components n o :
  parts n (rd_components F v n) ["components"] (perhaps_group "components" (form_component show v) o)
    (maybe (each (said_component v)) o).
Proof. apply parts_list. intros x. now apply te_component. Qed.
Lemma te_services n o :
  parts n (rd_services v n) ["services"] (perhaps_group "services" (form_service v) o) (maybe (each (said_service v)) o).
Proof. apply parts_list. intros x. apply te_service. Qed.
Let te_component' n := te_component F v n HF.
Hint Resolve te_components te_services : part.
Hint Resolve te_component' : tell.

(** ** Metadata *)
Lemma te_tool h x : tells h "tool" (rd_tool v) (form_tool v x) (Some (said_tool v x)).
Proof. tell_rec. Qed.
Hint Resolve te_tool : tell.
Lemma te_tools n x : tells n "tools" (rd_tools F v n) (form_tools show v x) (said_tools v x).
Proof.
  unfold rd_tools, form_tools, said_tools. unfold since. destruct x as [l|s c].
  - destruct l as [|a l].
    + eapply tells_struct; [|reflexivity|].
      * apply parts_nil. eapply covers_pair; cover.
      * intros ats' _. destruct (version_leb V1_5 v); reflexivity.
    + eapply tells_struct; [|reflexivity|].
      * change (map (form_tool v) (a :: l)) with (loose (form_tool v) (Some (a :: l))).
        eapply parts_pair_none; [part|cover|reflexivity].
      * intros ats' _. destruct (version_leb V1_5 v); reflexivity.
  - destruct (version_leb V1_5 v).
    + eapply tells_struct; [|reflexivity|].
      * eapply parts_none_pair; [cover| |].
        -- cbn [Xml.from]. eapply parts_pair; [apply te_services|apply te_components|reflexivity].
        -- reflexivity.
      * intros ats' _. cbn [bindo]. destruct (maybe (each (said_service v)) s); [|reflexivity]. cbn [bindo].
        destruct (maybe (each (said_component v)) c); reflexivity.
    + split; [reflexivity|discriminate].
Qed.
Hint Resolve te_tools : tell.
Lemma te_lifecycle h x : tells h "lifecycle" rd_lifecycle (form_lifecycle x) (Some (said_lifecycle x)).
Proof.
  unfold rd_lifecycle, form_lifecycle. destruct x as [p|n d].
  - eapply tells_struct; [all_parts|reflexivity|reflexivity].
  - eapply tells_struct; [|reflexivity|].
    + eapply parts_none_pair; [cover|all_parts|reflexivity].
    + reflexivity.
Qed.
Hint Resolve te_lifecycle : tell.
Lemma te_metadata n x : tells n "metadata" (rd_metadata F v n) (form_metadata show v x) (said_metadata v x).
Proof. unfold said_metadata. tell_rec. Qed.
Hint Resolve te_metadata : tell.

(** ** Dependencies, compositions, annotations *)
Lemma te_dependency h x : tells h "dependency" rd_dependency (form_dependency x) (Some x).
Proof. eapply tells_struct; [part|reflexivity|]. intros ats' E. cbn [bindo]. rewrite E. now destruct x. Qed.
Lemma te_composition h x : tells h "composition" (rd_composition v) (form_composition v x) (Some (said_composition v x)).
Proof.
  eapply tells_struct; [all_parts| |].
  - unfold in_version. destruct (version_leb V1_5 v); [with_attrs_distinct|reflexivity].
  - intros ats' E. unfold said_composition. steps. rewrite E. unfold JsonSpec.from, since, in_version.
    destruct (version_leb V1_5 v); with_attr_simp; reflexivity.
Qed.
Hint Resolve te_dependency te_composition : tell.
Lemma te_annotator n x : tells n "annotator" (rd_annotator F v n) (form_annotator show v x) (said_annotator v x).
Proof.
  unfold rd_annotator, form_annotator, said_annotator. destruct x as [o|c|c|s].
  - eapply tells_struct; [|reflexivity|].
    + eapply (parts_or_l n _ _ ["organization"] ["individual"; "component"; "service"]).
      * eapply parts_req_t, tells_map; [tell|reflexivity].
      * eapply (covers_or _ _ ["individual"]); [cover|eapply (covers_or _ _ ["component"]); cover].
    + reflexivity.
  - eapply tells_struct; [|reflexivity|].
    + eapply (parts_or_r n _ _ ["organization"] ["individual"; "component"; "service"]); [cover| |reflexivity|reflexivity].
      eapply (parts_or_l n _ _ ["individual"] ["component"; "service"]).
      * eapply parts_req_t, tells_map; [tell|reflexivity].
      * eapply (covers_or _ _ ["component"]); cover.
    + reflexivity.
  - eapply tells_struct; [|reflexivity|].
    + eapply (parts_or_r n _ _ ["organization"] ["individual"; "component"; "service"]); [cover| |reflexivity|reflexivity].
      eapply (parts_or_r n _ _ ["individual"] ["component"; "service"]); [cover| |reflexivity|reflexivity].
      eapply (parts_or_l n _ _ ["component"] ["service"]); [|cover].
      eapply parts_req, tells_map; [apply te_component'|reflexivity].
    + intros ats' _. destruct (said_component v c); reflexivity.
  - eapply tells_struct; [|reflexivity|].
    + eapply (parts_or_r n _ _ ["organization"] ["individual"; "component"; "service"]); [cover| |reflexivity|reflexivity].
      eapply (parts_or_r n _ _ ["individual"] ["component"; "service"]); [cover| |reflexivity|reflexivity].
      eapply (parts_or_r n _ _ ["component"] ["service"]); [cover| |reflexivity|reflexivity].
      eapply parts_req, tells_map; [apply te_service|reflexivity].
    + intros ats' _. destruct (said_service v s); reflexivity.
Qed.
Hint Resolve te_annotator : tell.
Lemma te_subjects h l :
  parts h (SOn "subjects" (list_of Strict "subject" rd_ref) [] (fun l (_ : list string) => Some l)) ["subjects"]
    [group "subjects" (pointer "subject") l] (Some l).
Proof. refine (parts_on1 h "subjects" _ [] (fun l _ => Some l) _ (Some l) _). apply tells_list_id. tell. Qed.
Hint Resolve te_subjects : part.
Lemma te_annotation n x : tells n "annotation" (rd_annotation F v n) (form_annotation show v x) (said_annotation v x).
Proof. unfold said_annotation. tell_rec. Qed.
Hint Resolve te_annotation : tell.

(** ** Vulnerabilities *)
Lemma te_vuln_source h x : tells h "source" rd_vuln_source (form_vuln_source x) (Some (said_vuln_source x)).
Proof. tell_rec. Qed.
Hint Resolve te_vuln_source : tell.
Lemma te_vuln_reference h x : tells h "reference" rd_vuln_reference (form_vuln_reference x) (Some (said_vuln_reference x)).
Proof. tell_rec. Qed.
Let te_score' h tag f := te_score F h tag f HF.
Hint Resolve te_score' : tell.
Lemma te_rating h x : tells h "rating" (rd_rating F) (form_rating show x) (Some (said_rating x)).
Proof. tell_rec. Qed.
Lemma te_advisory h x : tells h "advisory" rd_advisory (form_advisory x) (Some (said_advisory x)).
Proof. tell_rec. Qed.
Lemma te_credits h x : tells h "credits" rd_credits (form_credits x) (Some (said_credits x)).
Proof. tell_rec. Qed.
Lemma te_analysis h x : tells h "analysis" (rd_analysis v) (form_analysis v x) (Some (said_analysis v x)).
Proof. tell_rec. Qed.
Hint Resolve te_vuln_reference te_rating te_advisory te_credits te_analysis : tell.
Lemma te_version_status h x : tells h "version" rd_version_status (form_version_status x) (said_version_status x).
Proof.
  unfold rd_version_status, form_version_status, said_version_status. destruct (ve_range x) as [s|s|s].
  - eapply tells_struct; [|reflexivity|].
    + eapply (parts_pair h _ _ ["version"; "range"]); [|eapply parts_req_t, tells_string|reflexivity].
      eapply (parts_or_l h _ _ ["version"] ["range"]); [|apply covers_on].
      eapply parts_req_t. eapply tells_map; [apply tells_string|reflexivity].
    + intros ats' _. cbn [bindo]. now rewrite status_back.
  - eapply tells_struct; [|reflexivity|].
    + eapply (parts_pair h _ _ ["version"; "range"]); [|eapply parts_req_t, tells_string|reflexivity].
      eapply (parts_or_r h _ _ ["version"] ["range"]); [apply covers_on| |reflexivity|reflexivity].
      eapply parts_req_t. eapply tells_map; [apply tells_string|reflexivity].
    + intros ats' _. cbn [bindo]. now rewrite status_back.
  - split; [reflexivity|discriminate].
Qed.
Hint Resolve te_version_status : tell.
Lemma te_target h x : tells h "target" rd_target (form_target x) (said_target x).
Proof. unfold said_target. tell_rec. Qed.
Lemma te_poc h x : tells h "proofOfConcept" rd_poc (form_poc x) (said_poc x).
Proof. unfold said_poc. tell_rec. Qed.
Hint Resolve te_target te_poc : tell.
Lemma te_detail h o :
  parts h (SOn "detail" (DPrim POptional) None (fun a (_ : option string) => Some a)) ["detail"]
    (perhaps (words "detail") o) (Some (bindo o nonblank)).
Proof.
  destruct o as [s|]; [|refine (parts_nil h (SOn "detail" (DPrim POptional) None _) _ _); apply covers_on].
  exact (parts_on1 h "detail" (DPrim POptional) None (fun a _ => Some a) _ _ (tells_optional h "detail" s)).
Qed.
Hint Resolve te_detail : part.
Lemma te_vulnerability n x :
  tells n "vulnerability" (rd_vulnerability F v n) (form_vulnerability show v x) (said_vulnerability v x).
Proof. unfold said_vulnerability. tell_rec. Qed.
Hint Resolve te_vulnerability : tell.

(** ** Formulation *)
Lemma te_resource h tag x : tells h tag rd_resource (form_resource tag x) (Some (said_resource x)).
Proof.
  destruct x as [s|e]; unfold rd_resource, form_resource; (eapply tells_struct; [|reflexivity|]).
  - eapply (parts_or_l h _ _ ["ref"] ["externalReference"]); [|apply covers_on].
    eapply parts_req_t. eapply tells_map; [apply tells_string|reflexivity].
  - reflexivity.
  - eapply (parts_or_r h _ _ ["ref"] ["externalReference"]); [apply covers_on| |reflexivity|reflexivity].
    eapply parts_req_t. eapply tells_map; [apply te_external_reference|reflexivity].
  - reflexivity.
Qed.
Hint Resolve te_resource : tell.
Lemma te_resources h o : parts h rd_resources ["resourceReferences"] (form_resources o) (Some (said_resources o)).
Proof. apply parts_list_t. intros x. apply te_resource. Qed.
Hint Resolve te_resources : part.
Lemma te_environment_vars h l :
  tells h "environmentVars" rd_environment_vars (group "environmentVars" form_environment_var l)
    (Some (map said_environment_var l)).
Proof.
  rewrite <- each_total. apply tells_mixed; [reflexivity|reflexivity|]. intros [n s|s].
  - left. apply tells_attr_simple; [reflexivity|]. intros ats' E. now rewrite E.
  - right. eapply tells_map; [apply tells_string|reflexivity].
Qed.
Lemma te_input h x : tells h "input" rd_input (form_input x) (said_input x).
Proof.
  unfold rd_input, form_input, said_input. destruct (in_required x) as [r|l|l|a].
  - eapply tells_struct; [|reflexivity|].
    + eapply (parts_pair h _ _ ["resource"; "environmentVars"; "data"]); [|all_parts|reflexivity].
      eapply (parts_or_l h _ _ ["resource"] ["environmentVars"; "data"]); [|apply (covers_or _ _ ["environmentVars"] ["data"]); cover].
      eapply parts_req_t. eapply tells_map; [apply te_resource|reflexivity].
    + tell_fin.
  - split; [reflexivity|discriminate].
  - eapply tells_struct; [|reflexivity|].
    + eapply (parts_pair h _ _ ["resource"; "environmentVars"; "data"]); [|all_parts|reflexivity].
      eapply (parts_or_r h _ _ ["resource"] ["environmentVars"; "data"]); [cover| |reflexivity|reflexivity].
      eapply (parts_or_l h _ _ ["environmentVars"] ["data"]); [|cover].
      eapply parts_req_t. eapply tells_map; [apply te_environment_vars|reflexivity].
    + tell_fin.
  - eapply tells_struct; [|reflexivity|].
    + eapply (parts_pair h _ _ ["resource"; "environmentVars"; "data"]); [|all_parts|reflexivity].
      eapply (parts_or_r h _ _ ["resource"] ["environmentVars"; "data"]); [cover| |reflexivity|reflexivity].
      eapply (parts_or_r h _ _ ["environmentVars"] ["data"]); [cover| |reflexivity|reflexivity].
      eapply parts_req. eapply tells_map; [apply te_attachment|reflexivity].
    + intros ats' _. destruct (said_attachment a); reflexivity.
Qed.
Lemma te_output h x : tells h "output" rd_output (form_output x) (said_output x).
Proof.
  unfold rd_output, form_output, said_output. destruct (ou_required x) as [r|l|a].
  - eapply tells_struct; [|reflexivity|].
    + eapply (parts_pair h _ _ ["resource"; "environmentVars"; "data"]); [|all_parts|reflexivity].
      eapply (parts_or_l h _ _ ["resource"] ["environmentVars"; "data"]); [|apply (covers_or _ _ ["environmentVars"] ["data"]); cover].
      eapply parts_req_t. eapply tells_map; [apply te_resource|reflexivity].
    + tell_fin.
  - eapply tells_struct; [|reflexivity|].
    + eapply (parts_pair h _ _ ["resource"; "environmentVars"; "data"]); [|all_parts|reflexivity].
      eapply (parts_or_r h _ _ ["resource"] ["environmentVars"; "data"]); [cover| |reflexivity|reflexivity].
      eapply (parts_or_l h _ _ ["environmentVars"] ["data"]); [|cover].
      eapply parts_req_t. eapply tells_map; [apply te_environment_vars|reflexivity].
    + tell_fin.
  - eapply tells_struct; [|reflexivity|].
    + eapply (parts_pair h _ _ ["resource"; "environmentVars"; "data"]); [|all_parts|reflexivity].
      eapply (parts_or_r h _ _ ["resource"] ["environmentVars"; "data"]); [cover| |reflexivity|reflexivity].
      eapply (parts_or_r h _ _ ["environmentVars"] ["data"]); [cover| |reflexivity|reflexivity].
      eapply parts_req. eapply tells_map; [apply te_attachment|reflexivity].
    + intros ats' _. destruct (said_attachment a); reflexivity.
Qed.
Lemma te_command h x : tells h "command" rd_command (form_command x) (Some (said_command x)).
Proof. tell_rec. Qed.
Hint Resolve te_input te_output te_command : tell.
Lemma te_step h x : tells h "step" rd_step (form_step x) (Some (said_step x)).
Proof. tell_rec. Qed.
Lemma te_volume h x : tells h "volume" rd_volume (form_volume x) (Some (said_volume x)).
Proof. tell_rec. Qed.
Hint Resolve te_step te_volume : tell.
Lemma te_workspace h x : tells h "workspace" rd_workspace (form_workspace x) (Some (said_workspace x)).
Proof. tell_rec. Qed.
Lemma te_condition h x : tells h "condition" rd_condition (form_condition x) (Some (said_condition x)).
Proof. tell_rec. Qed.
Lemma te_event h x : tells h "event" rd_event (form_event x) (said_event x).
Proof. unfold said_event. tell_rec. Qed.
Hint Resolve te_workspace te_condition te_event : tell.
Lemma te_trigger h x : tells h "trigger" rd_trigger (form_trigger x) (said_trigger x).
Proof. unfold said_trigger. tell_rec. Qed.
Hint Resolve te_trigger : tell.
Lemma te_task_types h l :
  parts h (one_list Strict "taskTypes" "taskType" (d_enum task_type_of_text)) ["taskTypes"]
    [group "taskTypes" (named text_task_type "taskType") l] (Some (Some (map kx_task_type l))).
Proof. eapply parts_req_t. eapply tells_list_t. tell. Qed.
Hint Resolve te_task_types : part.
Lemma te_task h x : tells h "task" rd_task (form_task x) (said_task x).
Proof. unfold said_task. tell_rec. Qed.
Hint Resolve te_task : tell.
Lemma te_workflow h x : tells h "workflow" rd_workflow (form_workflow x) (said_workflow x).
Proof. unfold said_workflow. tell_rec. Qed.
Hint Resolve te_workflow : tell.
Lemma te_formula n x : tells n "formula" (rd_formula F v n) (form_formula show v x) (said_formula v x).
Proof. unfold said_formula. tell_rec. Qed.
Hint Resolve te_formula : tell.

(** ** The BOM *)
Lemma te_bom n x : tells n "bom" (rd_bom F v n) (form_bom show v x) (said_bom v x).
Proof.
  unfold said_bom. eapply tells_struct; [all_parts|with_attrs_distinct|].
  intros ats' E. steps. unfold attr_of. rewrite !E. rewrite !with_attr_app. cbn [attr app String.eqb Ascii.eqb Bool.eqb].
  pose proof (xml_u32_text (b_version x)) as X. unfold u32_text in X. unfold number. rewrite X. cbn [bindo].
  rewrite ?opt_eta. unfold since. destruct v; reflexivity.
Qed.
End READ.

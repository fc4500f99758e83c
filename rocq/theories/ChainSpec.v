(** Specification for C93: a BOM that is saved as JSON and read back again and again, each time in a version of
    choice. *)
From Coq Require Import List.
From Verif Require Import Base ModelTypes GenModel Json JsonLemmas JsonModel JsonSpec.
Import ListNotations.

(** [b] is saved in version [v], somebody may put the members of the document in another order ([like], JsonLemmas.v),
    and the document is read, by the reader that looks for the version or by one of the two that are told: it gives
    [b'] *)
Definition converted (v : spec_version) (b b' : bom) : Prop :=
  exists j j', output_as_json v b = Done j /\ like j j'
    /\ (parse_from_json j' = Done b' \/ parse_from_json_with_version v j' = Done b'
        \/ parse_from_json_value_version v j' = Done b').

(** the same through all the versions of the list, one after the other *)
Inductive travelled : list spec_version -> bom -> bom -> Prop :=
| TStay b : travelled [] b b
| TGo v vs b b1 b' : converted v b b1 -> travelled vs b1 b' -> travelled (v :: vs) b b'.

(** the earlier of two versions, and the earliest version of a journey that begins with [v] *)
Definition earlier (v w : spec_version) : spec_version := if version_leb v w then v else w.
Definition earliest (v : spec_version) (vs : list spec_version) : spec_version := fold_left (fun m w => earlier w m) vs v.

(** the same BOM under another version number *)
Definition at_version (v : spec_version) (b : bom) : bom :=
  mkBom (b_version b) (b_serial_number b) (b_metadata b) (b_components b) (b_services b) (b_external_references b)
    (b_dependencies b) (b_compositions b) (b_properties b) (b_vulnerabilities b) (b_signature b) (b_annotations b)
    (b_formulation b) v.

(** The writer refuses or garbles nothing that the first version of the journey can express: in 1.5, the confidences
    of the methods that identified a component are finite.  (See C39; a BOM that was read never has another.) *)
Definition confidences_finite (v : spec_version) (b : bom) : Prop :=
  forall c, bom_component v b c -> methods_finite v c.

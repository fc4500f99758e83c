(** Specification for C98: conversions between the formats and the versions. *)
From Verif Require Import Base ModelTypes GenModel Xml XmlModel XmlSpec ChainSpec.
Open Scope list_scope.

(** saving in one of the formats and versions, and reading *)
Inductive stage := InJson (v : spec_version) | InXml (v : spec_version).
Definition stage_version (s : stage) : spec_version := match s with InJson v => v | InXml v => v end.
Definition carried (F : float_text) (s : stage) (b b' : bom) : Prop :=
  match s with
  | InJson v => converted v b b'
  | InXml v => exists x, output_as_xml F v b = Done x /\ parse_from_xml F v (written x) = XOk b' []
  end.
Inductive toured (F : float_text) : list stage -> bom -> bom -> Prop :=
| RStay b : toured F [] b b
| RGo s ss b b1 b' : carried F s b b1 -> toured F ss b1 b' -> toured F (s :: ss) b b'.

(** somewhere on the way the BOM is saved as XML *)
Definition through_xml (ss : list stage) : bool := existsb (fun s => match s with InXml _ => true | InJson _ => false end) ss.

(** The parts of a CycloneDX document that may not be missing, as tables; independent of the readers *)
From Verif Require Import Base ModelTypes Json JsonModel Xml XmlSpec2.
Open Scope string_scope.
Open Scope list_scope.

(** ** XML *)

(** The required attributes of an element, its required children, and what is required anywhere inside
    it.  Each entry of the last two lists is a choice: one of the elements named has to be there. *)
Record requirement := Req {
  r_attributes : list string; r_children : list (list string); r_inside : list (list string) }.

(** Where an element is required to have which parts: the element's name and, if that is not enough to
    tell, the names of the elements around it, from the inside out *)
Definition attributes (p ats : list string) : list string * requirement := (p, Req ats [] []).
Definition children (p : list string) (cs : list (list string)) : list string * requirement := (p, Req [] cs []).
(** for elements whose readers look into unknown elements *)
Definition contents (p : list string) (cs : list (list string)) : list string * requirement := (p, Req [] [] cs).
Definition requirements (v : spec_version) : list (list string * requirement) :=
  [ (* identifiers that refer to something *)
    attributes ["dependency"] ["ref"];
    attributes ["assembly"] ["ref"];
    attributes ["vulnerability"; "vulnerabilities"; "composition"] ["ref"];
    attributes ["subject"; "subjects"] ["ref"];
    attributes ["tool"; "tools"; "identity"] ["ref"];
    (* components, services *)
    (["component"], Req ["type"] ([["name"]] ++ if since V1_4 v then [] else [["version"]]) []);
    children ["service"] [["name"]];
    attributes ["property"] ["name"];
    attributes ["hash"] ["alg"];
    (["reference"; "externalReferences"], Req ["type"] [["url"]] []);
    attributes ["swid"] ["tagId"; "name"];
    attributes ["issue"] ["type"];
    attributes ["patch"] ["type"];
    children ["license"] [["id"; "name"]];
    children ["licensor"] [["organization"; "individual"]];
    children ["licensee"] [["organization"; "individual"]];
    children ["purchaser"] [["organization"; "individual"]];
    children ["signature"] [["signers"; "chain"; "algorithm"]; ["signers"; "chain"; "value"]];
    children ["signer"] [["algorithm"]; ["value"]];
    children ["chain"; "chain"] [["algorithm"]; ["value"]];
    attributes ["classification"; "data"; "service"] ["flow"];
    attributes ["classification"; "dataflow"] ["flow"];
    contents ["dataflow"] [["classification"]];
    (* evidence, data, model cards *)
    children ["occurrence"] [["location"]];
    contents ["frame"] [["module"]];
    contents ["identity"] [["field"]];
    contents ["method"; "methods"] [["technique"]; ["confidence"]];
    contents ["data"; "component"] [["type"]];
    contents ["dataset"] [["type"]];
    children ["owner"] [["organization"; "contact"]];
    children ["custodian"] [["organization"; "contact"]];
    children ["steward"] [["organization"; "contact"]];
    (* metadata, compositions, annotations *)
    children ["lifecycle"] [["phase"; "name"]];
    children ["composition"] [["aggregate"]];
    children ["annotation"] [["annotator"]; ["timestamp"]; ["text"]];
    children ["annotator"] [["organization"; "individual"; "component"; "service"]];
    (* vulnerabilities *)
    children ["reference"; "references"; "vulnerability"] [["id"]; ["source"]];
    children ["advisory"] [["url"]];
    children ["target"; "affects"] [["ref"]];
    children ["version"; "versions"] [["version"; "range"]];
    (* formulation *)
    (["workflow"], Req ["bom-ref"] [["uid"]; ["taskTypes"]] []);
    (["task"; "tasks"], Req ["bom-ref"] [["uid"]; ["taskTypes"]] []);
    (["trigger"], Req ["bom-ref"] [["uid"]; ["type"]] []);
    (["workspace"], Req ["bom-ref"] [["uid"]] []);
    attributes ["environmentVar"] ["name"];
    children ["resource"] [["ref"; "externalReference"]];
    children ["resourceReference"] [["ref"; "externalReference"]];
    (["externalReference"], Req ["type"] [["url"]] [])
  ]
  (* the inputs and outputs of triggers, tasks and workflows *)
  ++ flat_map (fun q =>
       [ children ["input"; "inputs"; q] [["resource"; "environmentVars"; "data"]];
         children ["output"; "outputs"; q] [["resource"; "environmentVars"; "data"]];
         children ["source"; "input"; "inputs"; q] [["ref"; "externalReference"]];
         children ["target"; "input"; "inputs"; q] [["ref"; "externalReference"]];
         children ["source"; "output"; "outputs"; q] [["ref"; "externalReference"]];
         children ["target"; "output"; "outputs"; q] [["ref"; "externalReference"]] ])
       ["trigger"; "task"; "workflow"]
  ++ [ children ["source"; "event"] [["ref"; "externalReference"]];
       children ["target"; "event"] [["ref"; "externalReference"]] ].

(** An element of one of these names is among [kids] *)
Definition child (tags : list string) (kids : list xml) : Prop :=
  exists tag ats ks, In tag tags /\ In (Elem tag ats ks) kids.
(** ... or inside an element among them *)
Inductive inside (tags : list string) : list xml -> Prop :=
| inside_child kids : child tags kids -> inside tags kids
| inside_other m ats ks kids : In (Elem m ats ks) kids -> inside tags ks -> inside tags kids.

(** An element with these attributes and this content has its required parts *)
Definition met (ats : attrs) (kids : list xml) (r : requirement) : Prop :=
  (forall k, In k (r_attributes r) -> exists x, In (k, x) ats) /\
  (forall tags, In tags (r_children r) -> child tags kids) /\
  (forall tags, In tags (r_inside r) -> inside tags kids).

(** ** The elements that are read *)

(** the reader called for the elements [tag] *)
Fixpoint lookup {X} (k : string) (l : list (string * X)) : option X :=
  match l with [] => None | (k', x) :: l' => if String.eqb k k' then Some x else lookup k l' end.
(** whether a reader looks into the elements it does not know *)
Fixpoint looks_inside {A} (d : desc A) : bool :=
  match d with DMap _ d => looks_inside d | DLoop Open _ => true | _ => false end.
(** An element [m] that the reader [d] comes across in the content [kids] *)
Inductive seen {A} (d : desc A) (m : string) (ats : attrs) (ks : list xml) : list xml -> Prop :=
| seen_child kids : In (Elem m ats ks) kids -> seen d m ats ks kids
| seen_inside o a l kids : looks_inside d = true -> lookup o (arms_of d) = None -> In (Elem o a l) kids ->
    seen d m ats ks l -> seen d m ats ks kids.
(** [found root n ats kids A p d ats' kids']: when [root] reads the element [n] with the attributes [ats] and the
    content [kids], the reader [d] is called for the element with the attributes [ats'] and the content [kids'];
    [p] are its name and the names of the elements around it, without those that are looked through *)
Inductive found {R} (root : desc R) (n : string) (ats : attrs) (kids : list xml)
  : forall A, list string -> desc A -> attrs -> list xml -> Prop :=
| found_root : found root n ats kids R [n] root ats kids
| found_in A p (d : desc A) a ks m B (d' : desc B) a' ks' :
    found root n ats kids A p d a ks -> seen d m a' ks' ks -> lookup m (arms_of d) = Some (existT desc B d') ->
    found root n ats kids B (m :: p) d' a' ks'.

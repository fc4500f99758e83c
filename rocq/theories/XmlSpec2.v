(** Vocabulary for the properties of the XML readers on documents with unexpected content:
    which elements are foreign, where foreign elements are allowed, which documents are tidy. *)
From Verif Require Import Base ModelTypes Xml.
Open Scope string_scope.
Open Scope list_scope.

Definition mem (x : string) (l : list string) : bool := existsb (String.eqb x) l.

(** Every element name some reader looks for *)
Definition known_names : list string :=
  ["accessMode"; "advisories"; "advisory"; "affects"; "aggregate"; "algorithm"; "alias"; "aliases"; "altId";
   "altIds"; "analysis"; "ancestors"; "annotation"; "annotations"; "annotator"; "approach";
   "architectureFamily"; "assemblies"; "assembly"; "attachment"; "authenticated"; "author"; "authors"; "bom";
   "callstack"; "chain"; "classification"; "collection"; "column"; "command"; "commands"; "comment";
   "commit"; "commits"; "committer"; "component"; "components"; "composition"; "compositions"; "condition";
   "conditions"; "confidence"; "confidenceInterval"; "contact"; "contents"; "copyright"; "cpe"; "created";
   "credits"; "custodian"; "custodians"; "cwe"; "cwes"; "data"; "dataflow"; "dataset"; "datasets";
   "dependencies"; "dependency"; "descendants"; "description"; "destination"; "detail"; "diff"; "email";
   "endpoint"; "endpoints"; "environment"; "environmentVar"; "environmentVars"; "event"; "evidence";
   "executed"; "expiration"; "expression"; "externalReference"; "externalReferences"; "field";
   "firstIssued"; "format"; "formula"; "formulation"; "frame"; "fullFilename"; "function"; "governance";
   "graphic"; "graphics"; "group"; "hash"; "hashes"; "id"; "identity"; "image"; "individual";
   "individuals"; "input"; "inputs"; "issue"; "justification"; "lastRenewal"; "lastUpdated"; "license";
   "licenseType"; "licenseTypes"; "licensee"; "licenses"; "licensing"; "licensor"; "lifecycle";
   "lifecycles"; "line"; "location"; "lowerBound"; "managedDataType"; "manufacture"; "message"; "metadata";
   "method"; "methods"; "mode"; "modelArchitecture"; "modelCard"; "modelParameters"; "modified"; "module";
   "mountPath"; "name"; "notes"; "occurrence"; "occurrences"; "organization"; "organizations"; "output";
   "outputs"; "owner"; "owners"; "package"; "parameter"; "parameters"; "patch"; "patches"; "path";
   "pedigree"; "performanceMetric"; "performanceMetrics"; "persistent"; "phase"; "phone"; "proofOfConcept";
   "properties"; "property"; "provider"; "published"; "publisher"; "purchaseOrder"; "purchaser"; "purl";
   "quantitativeAnalysis"; "range"; "rating"; "ratings"; "recommendation"; "ref"; "reference";
   "references"; "rejected"; "remote"; "reproductionSteps"; "resolves"; "resource"; "resourceReference";
   "resourceReferences"; "response"; "responses"; "runtimeTopology"; "scope"; "score"; "sensitiveData";
   "service"; "services"; "severity"; "signature"; "signer"; "signers"; "sizeAllocated"; "slice"; "source";
   "state"; "status"; "step"; "steps"; "steward"; "stewards"; "subject"; "subjects"; "supplier";
   "supportingMaterial"; "swid"; "target"; "task"; "taskDependencies"; "taskType"; "taskTypes"; "tasks";
   "technique"; "text"; "timeActivated"; "timeEnd"; "timeReceived"; "timeStart"; "timestamp"; "title";
   "tool"; "tools"; "trigger"; "trustZone"; "type"; "uid"; "updated"; "upperBound"; "url"; "value";
   "variants"; "vector"; "vendor"; "version"; "versions"; "volume"; "volumeRequest"; "vulnerabilities";
   "vulnerability"; "workaround"; "workflow"; "workflows"; "workspace"; "workspaces"; "x-trust-boundary"].

(** Where the lax readers are at work, as the names of an element and, if that is not enough, its parent
    and its parent's parent *)
Definition lax_places : list (list string) :=
  [["bom"]; ["metadata"]; ["components"]; ["component"]; ["services"]; ["service"]; ["tool"; "tools"; "metadata"];
   ["tool"; "tools"; "vulnerability"]; ["properties"]; ["license"];
   ["supplier"]; ["manufacture"]; ["provider"]; ["organization"]; ["contact"]; ["individual"];
   ["author"; "authors"]; ["author"; "commit"]; ["committer"]; ["commits"]; ["commit"]; ["patches"]; ["patch"];
   ["diff"]; ["issue"]; ["pedigree"]; ["ancestors"]; ["descendants"]; ["variants"]; ["swid"];
   ["compositions"]; ["assemblies"]; ["dependencies"; "composition"]; ["vulnerabilities"];
   ["vulnerability"; "vulnerabilities"; "bom"]; ["source"; "vulnerability"]; ["references"; "vulnerability"];
   ["reference"; "references"; "vulnerability"]; ["source"; "reference"]; ["ratings"]; ["rating"];
   ["source"; "rating"]; ["advisories"]; ["advisory"]; ["credits"]; ["analysis"]; ["affects"];
   ["target"; "affects"]; ["versions"]; ["version"; "versions"]; ["resourceReferences"]; ["environmentVars"];
   ["step"]; ["volume"]; ["workspace"]; ["event"]; ["trigger"]; ["task"; "tasks"]; ["workflow"]].

Fixpoint starts (q p : list string) : bool :=
  match q, p with
  | [], _ => true
  | x :: q', y :: p' => String.eqb x y && starts q' p'
  | _ :: _, [] => false
  end.
(** [p]: the names of an element and of the elements around it, from the inside out *)
Definition lax_at (p : list string) : bool := existsb (fun q => starts q p) lax_places.

(** The elements whose readers look through unknown elements *)
Definition open_names : list string :=
  ["approach"; "attachment"; "callstack"; "collection"; "confidenceInterval"; "contents"; "data"; "dataflow";
   "dataset"; "evidence"; "frame"; "governance"; "graphic"; "graphics"; "identity"; "image"; "input"; "inputs";
   "method"; "modelCard"; "modelParameters"; "output"; "outputs"; "performanceMetric"; "performanceMetrics";
   "proofOfConcept"; "quantitativeAnalysis"].
Definition signature_names : list string := ["signers"; "chain"; "algorithm"; "value"].

(** no element of that name anywhere *)
Fixpoint absent (n : string) (x : xml) : bool :=
  match x with
  | Elem m _ ks => negb (String.eqb m n) && forallb (absent n) ks
  | _ => true
  end.
Definition is_signature_part (x : xml) : bool :=
  match x with Elem m _ _ => mem m signature_names | _ => false end.
(** No element with such a reader contains an element of the same name, at any depth, and signatures
    consist of the elements CycloneDX knows *)
Fixpoint tidy (x : xml) : bool :=
  match x with
  | Elem n _ ks =>
      (if mem n open_names then forallb (absent n) ks else true)
      && (if String.eqb n "signature" then forallb is_signature_part ks else true)
      && forallb tidy ks
  | _ => true
  end.

(** The children those readers do look for whose own content may hold foreign elements, as the names of the child and
    of the elements around it; data flows are looked for from version 1.5 on; the elements [input], [inputs], [output] and [outputs] of workflows have other readers than those
    of model cards *)
Definition passed_places (dataflows : bool) : list (list string) :=
  [["licenses"; "evidence"]; ["modelParameters"; "modelCard"]; ["datasets"; "modelParameters"];
   ["contents"; "dataset"]; ["governance"; "dataset"]; ["contents"; "data"; "component"]; ["governance"; "data"; "component"];
   ["properties"; "contents"]; ["owners"; "governance"]; ["custodians"; "governance"]; ["stewards"; "governance"];
   ["governance"; "dataflow"]]
  ++ (if dataflows then [["dataflow"; "data"; "service"]] else [])
  ++ flat_map (fun around =>
       [["input"; "inputs"; around]; ["environmentVars"; "input"; "inputs"; around]; ["properties"; "input"; "inputs"; around];
        ["output"; "outputs"; around]; ["environmentVars"; "output"; "outputs"; around];
        ["properties"; "output"; "outputs"; around]])
     ["trigger"; "task"; "workflow"].
Definition passed_at (dataflows : bool) (p : list string) : bool := existsb (fun q => starts q p) (passed_places dataflows).
(** The content of an element [m] in an element [n] is read by the reader for [m]: [n] has none of those readers or
    its reader looks for [m] *)
Definition reached (v : spec_version) (m n : string) (p : list string) : bool :=
  negb (mem n open_names) && negb (String.eqb n "signature") || passed_at (version_leb V1_5 v) (m :: n :: p).

(** [grown v p l l']: [l'] is [l], the content of an element at [p] in a document of version [v], with one foreign element added where the
    lax readers are at work *)
Definition foreign (x : xml) : Prop :=
  match x with Elem m _ _ => mem m known_names = false | _ => False end.
Inductive grown (v : spec_version) : list string -> list xml -> list xml -> Prop :=
| grown_here p a x b : lax_at p = true -> foreign x -> grown v p (a ++ b) (a ++ x :: b)
| grown_below n p a m ats ks ks' b :
    reached v m n p = true -> grown v (m :: n :: p) ks ks' ->
    grown v (n :: p) (a ++ Elem m ats ks :: b) (a ++ Elem m ats ks' :: b).
(** any number of them *)
Inductive grows (v : spec_version) (p : list string) : list xml -> list xml -> Prop :=
| grows_none l : grows v p l l
| grows_more l l' l'' : grows v p l l' -> grown v p l' l'' -> grows v p l l''.

(** The readers used for the elements of a document: [reader_at root n p d] says that the reader [d] is called for
    the elements at [p] when [root] reads an element [n] *)
Fixpoint arms {S} (sh : shape S) : list (string * {A : Type & desc A}) :=
  match sh with
  | SOn tag d _ _ => [(tag, existT desc _ d)]
  | SOr a b => arms a ++ arms b
  | SPair a b => arms a ++ arms b
  | _ => []
  end.
Fixpoint arms_of {A} (d : desc A) : list (string * {B : Type & desc B}) :=
  match d with
  | DMap _ d => arms_of d
  | DLoop _ sh => arms sh
  | DOdd sh _ _ => arms sh
  | _ => []
  end.
Inductive reader_at {R} (root : desc R) (n : string) : forall A, list string -> desc A -> Prop :=
| at_root : reader_at root n R [n] root
| at_arm A p (d : desc A) tag B (d' : desc B) :
    reader_at root n A p d -> In (tag, existT desc B d') (arms_of d) -> reader_at root n B (tag :: p) d'.

(** What follows an element in a well-formed document: elements, text and end tags of the elements around it,
    none of them a signature *)
Inductive after_element : list event -> Prop :=
| after_nothing : after_element []
| after_tree x T : after_element T -> after_element (flat x ++ T)
| after_end n T : n <> "signature" -> after_element T -> after_element (EEnd n :: T).

(** The elements a CycloneDX XML document is made of, place by place, with what happens to anything else found there.

    This is a specification: it names elements, not readers.  It follows the loops of the [read_xml_element] functions
    (cyclonedx-bom/src/specs) and of the list helpers (xml.rs:172-240, 619-706), each of which has one of three ways
    of ending: an error for every other event, [read_lax_validation_tag] for other elements, or [_ => ()]. *)
From Verif Require Import Base ModelTypes Xml.
Open Scope string_scope.
Open Scope list_scope.

(** What happens to content that is not expected *)
Inductive manner :=
| Refuses      (* elements that are not listed, and all text, are errors *)
| Skips        (* other elements are skipped, text is an error *)
| Looks        (* other elements and text are looked through *)
| Words        (* text only: elements are errors *)
| Nothing      (* an empty element: everything is an error *)
| Signed.      (* signatures: nothing is said about other elements and text directly inside them *)

(** The places of a document *)
Inductive place :=
(* a list of elements [tag] *)
| Items (m : manner) (tag : string) (p : place)
| PWords | PPointer | PAttachment | PSignature | PSigner
| PExternalReference | PContact | PEntity
| PLicenses | PLicense | PLicensing | PLicenseContact
| PAction | PCommit | PDiff | PPatch | PIssue | PSource | PPedigree
| PParty | PGovernance | PGraphics | PGraphic | PContents | PComponentData
| PModelCard | PModelParameters | PApproach | PParameter | PAnalysis | PMetric | PInterval
| POccurrence | PFrame | PMethod | PToolRefs | PIdentity | PEvidence | PSwid
| PComponent | PData | PDataflow | PService | PTool | PTools | PLifecycle | PMetadata
| PDependency | PComposition | PAnnotator | PAnnotation
| PVSource | PVReference | PRating | PAdvisory | PCredits | PVAnalysis | PVersion | PTarget | PProof | PVulnerability
| PResource | PVariables | PInput | POutput | PCommand | PStep | PVolume | PWorkspace | PCondition | PEvent
| PTrigger | PTask | PWorkflow | PFormula | PBom.

Definition words (l : list string) : list (string * place) := map (fun n => (n, PWords)) l.
Definition list_ (m : manner) (n tag : string) (p : place) : list (string * place) := [(n, Items m tag p)].
Definition properties : list (string * place) := list_ Skips "properties" "property" PWords.
Definition hashes : list (string * place) := list_ Refuses "hashes" "hash" PWords.
Definition references : list (string * place) := list_ Refuses "externalReferences" "reference" PExternalReference.
Definition components : list (string * place) := list_ Skips "components" "component" PComponent.
Definition services : list (string * place) := list_ Skips "services" "service" PService.
Definition resources : list (string * place) := list_ Skips "resourceReferences" "resourceReference" PResource.
Definition in_and_out : list (string * place) :=
  list_ Refuses "inputs" "input" PInput ++ list_ Refuses "outputs" "output" POutput.

Section PLACES.
Context (v : spec_version).
Definition v1_4 (l : list (string * place)) : list (string * place) := if version_leb V1_4 v then l else [].
Definition v1_5 (l : list (string * place)) : list (string * place) := if version_leb V1_5 v then l else [].

(** The elements of a place and what happens to anything else *)
Definition content (p : place) : manner * list (string * place) :=
  match p with
  | Items m tag q => (m, [(tag, q)])
  | PWords => (Words, [])
  | PPointer => (Nothing, [])
  | PAttachment => (Looks, [])
  | PSignature =>
      (Signed, list_ Refuses "signers" "signer" PSigner ++ list_ Refuses "chain" "chain" PSigner ++ words ["algorithm"; "value"])
  | PSigner => (Refuses, words ["algorithm"; "value"])
  | PExternalReference => (Refuses, words ["url"; "comment"] ++ hashes)
  | PContact => (Skips, words ["name"; "email"; "phone"])
  | PEntity => (Skips, words ["name"; "url"] ++ [("contact", PContact)])
  | PLicenses => (Refuses, [("license", PLicense); ("expression", PWords)])
  | PLicense => (Skips, words ["id"; "name"; "text"; "url"] ++ v1_5 (properties ++ [("licensing", PLicensing)]))
  | PLicensing =>
      (Refuses, list_ Refuses "altIds" "altId" PWords
        ++ [("licensor", PLicenseContact); ("licensee", PLicenseContact); ("purchaser", PLicenseContact)]
        ++ words ["purchaseOrder"; "lastRenewal"; "expiration"] ++ list_ Refuses "licenseTypes" "licenseType" PWords)
  | PLicenseContact => (Refuses, [("organization", PEntity); ("individual", PContact)])
  | PAction => (Skips, words ["timestamp"; "name"; "email"])
  | PCommit => (Skips, words ["uid"; "url"; "message"] ++ [("author", PAction); ("committer", PAction)])
  | PDiff => (Skips, words ["text"; "url"])
  | PPatch => (Skips, [("diff", PDiff)] ++ list_ Refuses "resolves" "issue" PIssue)
  | PIssue => (Skips, words ["id"; "name"; "description"] ++ [("source", PSource)] ++ list_ Refuses "references" "url" PWords)
  | PSource => (Refuses, words ["name"; "url"])
  | PPedigree =>
      (Skips, list_ Skips "ancestors" "component" PComponent ++ list_ Skips "descendants" "component" PComponent
        ++ list_ Skips "variants" "component" PComponent ++ list_ Skips "commits" "commit" PCommit
        ++ list_ Skips "patches" "patch" PPatch ++ words ["notes"])
  | PParty => (Refuses, [("organization", PEntity); ("contact", PContact)])
  | PGovernance =>
      (Looks, list_ Refuses "owners" "owner" PParty ++ list_ Refuses "custodians" "custodian" PParty
        ++ list_ Refuses "stewards" "steward" PParty)
  | PGraphics => (Looks, words ["description"] ++ list_ Looks "collection" "graphic" PGraphic)
  | PGraphic => (Looks, words ["name"] ++ [("image", PAttachment)])
  | PContents => (Looks, [("attachment", PAttachment)] ++ words ["url"] ++ properties)
  | PComponentData =>
      (Looks, words ["type"; "name"; "classification"; "sensitiveData"; "description"]
        ++ [("contents", PContents); ("graphics", PGraphics); ("governance", PGovernance)])
  | PModelCard => (Looks, [("modelParameters", PModelParameters); ("quantitativeAnalysis", PAnalysis)])
  | PModelParameters =>
      (Looks, [("approach", PApproach)] ++ words ["task"; "architectureFamily"; "modelArchitecture"]
        ++ list_ Refuses "datasets" "dataset" PComponentData ++ list_ Looks "inputs" "input" PParameter
        ++ list_ Looks "outputs" "output" PParameter)
  | PApproach => (Looks, words ["type"])
  | PParameter => (Looks, words ["format"])
  | PAnalysis => (Looks, list_ Looks "performanceMetrics" "performanceMetric" PMetric ++ [("graphics", PGraphics)])
  | PMetric => (Looks, words ["type"; "value"; "slice"] ++ [("confidenceInterval", PInterval)])
  | PInterval => (Looks, words ["lowerBound"; "upperBound"])
  | POccurrence => (Refuses, words ["location"])
  | PFrame =>
      (Looks, words ["package"; "module"; "function"; "line"; "column"; "fullFilename"]
        ++ list_ Refuses "parameters" "parameter" PWords)
  | PMethod => (Looks, words ["technique"; "confidence"; "value"])
  | PToolRefs => (Refuses, [("tool", PToolRefs)])
  | PIdentity => (Looks, words ["field"; "confidence"] ++ list_ Refuses "methods" "method" PMethod ++ [("tools", PToolRefs)])
  | PEvidence =>
      (Looks, [("licenses", PLicenses)] ++ list_ Refuses "copyright" "text" PWords
        ++ v1_5 (list_ Refuses "occurrences" "occurrence" POccurrence ++ list_ Looks "callstack" "frame" PFrame
                 ++ [("identity", PIdentity)]))
  | PSwid => (Skips, words ["text"; "url"])
  | PComponent =>
      (Skips, words ["author"; "publisher"; "group"; "name"; "version"; "description"; "scope"; "copyright"; "cpe"; "purl"; "modified"]
        ++ [("supplier", PEntity); ("licenses", PLicenses); ("swid", PSwid); ("pedigree", PPedigree); ("evidence", PEvidence)]
        ++ hashes ++ references ++ properties ++ components ++ v1_4 [("signature", PSignature)]
        ++ v1_5 [("modelCard", PModelCard); ("data", PComponentData)])
  | PData => (Looks, words ["classification"] ++ v1_5 [("dataflow", PDataflow)])
  | PDataflow =>
      (Looks, words ["classification"] ++ [("governance", PGovernance)] ++ list_ Refuses "source" "url" PWords
        ++ list_ Refuses "destination" "url" PWords)
  | PService =>
      (Skips, words ["group"; "name"; "version"; "description"; "authenticated"; "x-trust-boundary"]
        ++ [("provider", PEntity); ("data", PData); ("licenses", PLicenses)] ++ list_ Refuses "endpoints" "endpoint" PWords
        ++ references ++ properties ++ services ++ v1_4 [("signature", PSignature)] ++ v1_5 (words ["trustZone"]))
  | PTool => (Skips, words ["vendor"; "name"; "version"] ++ hashes ++ v1_4 references)
  | PTools => (Refuses, [("tool", PTool)] ++ v1_5 (services ++ components))
  | PLifecycle => (Refuses, words ["phase"; "name"; "description"])
  | PMetadata =>
      (Skips, words ["timestamp"] ++ [("tools", PTools)] ++ list_ Refuses "authors" "author" PContact
        ++ [("component", PComponent); ("manufacture", PEntity); ("supplier", PEntity); ("licenses", PLicenses)]
        ++ properties ++ v1_5 (list_ Refuses "lifecycles" "lifecycle" PLifecycle))
  | PDependency => (Refuses, [("dependency", PPointer)])
  | PComposition =>
      (Refuses, words ["aggregate"] ++ list_ Skips "assemblies" "assembly" PPointer
        ++ list_ Skips "dependencies" "dependency" PPointer
        ++ v1_5 (list_ Skips "vulnerabilities" "vulnerability" PPointer) ++ v1_4 [("signature", PSignature)])
  | PAnnotator =>
      (Refuses, [("organization", PEntity); ("individual", PContact); ("component", PComponent); ("service", PService)])
  | PAnnotation =>
      (Refuses, list_ Refuses "subjects" "subject" PPointer ++ [("annotator", PAnnotator)] ++ words ["timestamp"; "text"]
        ++ [("signature", PSignature)])
  | PVSource => (Skips, words ["name"; "url"])
  | PVReference => (Skips, words ["id"] ++ [("source", PVSource)])
  | PRating => (Skips, [("source", PVSource)] ++ words ["score"; "severity"; "method"; "vector"; "justification"])
  | PAdvisory => (Skips, words ["title"; "url"])
  | PCredits => (Skips, list_ Refuses "organizations" "organization" PEntity ++ list_ Refuses "individuals" "individual" PContact)
  | PVAnalysis =>
      (Skips, words ["state"; "justification"; "detail"] ++ list_ Refuses "responses" "response" PWords
        ++ v1_5 (words ["firstIssued"; "lastUpdated"]))
  | PVersion => (Skips, words ["version"; "range"; "status"])
  | PTarget => (Skips, words ["ref"] ++ list_ Skips "versions" "version" PVersion)
  | PProof => (Looks, words ["reproductionSteps"; "environment"] ++ list_ Refuses "supportingMaterial" "attachment" PAttachment)
  | PVulnerability =>
      (Skips, words ["id"; "description"; "detail"; "recommendation"; "created"; "published"; "updated"]
        ++ [("source", PVSource)] ++ list_ Skips "references" "reference" PVReference ++ list_ Skips "ratings" "rating" PRating
        ++ list_ Refuses "cwes" "cwe" PWords ++ list_ Skips "advisories" "advisory" PAdvisory
        ++ [("credits", PCredits); ("tools", PTools); ("analysis", PVAnalysis)] ++ list_ Skips "affects" "target" PTarget
        ++ properties ++ v1_5 (words ["rejected"; "workaround"] ++ [("proofOfConcept", PProof)]))
  | PResource => (Refuses, words ["ref"] ++ [("externalReference", PExternalReference)])
  | PVariables => (Skips, words ["environmentVar"; "value"])
  | PInput =>
      (Refuses, [("resource", PResource); ("environmentVars", PVariables); ("data", PAttachment); ("source", PResource);
                 ("target", PResource)] ++ properties)
  | POutput =>
      (Refuses, [("resource", PResource); ("environmentVars", PVariables); ("data", PAttachment); ("source", PResource);
                 ("target", PResource)] ++ words ["type"] ++ properties)
  | PCommand => (Refuses, words ["executed"] ++ properties)
  | PStep => (Skips, list_ Refuses "commands" "command" PCommand ++ words ["description"; "name"] ++ properties)
  | PVolume => (Skips, words ["uid"; "name"; "mode"; "path"; "sizeAllocated"; "persistent"; "remote"] ++ properties)
  | PWorkspace =>
      (Skips, words ["uid"; "name"; "description"; "accessMode"; "mountPath"; "managedDataType"; "volumeRequest"]
        ++ list_ Refuses "aliases" "alias" PWords ++ resources ++ [("volume", PVolume)] ++ properties)
  | PCondition => (Refuses, words ["description"; "expression"] ++ properties)
  | PEvent =>
      (Skips, words ["uid"; "description"; "timeReceived"] ++ [("data", PAttachment); ("source", PResource); ("target", PResource)]
        ++ properties)
  | PTrigger =>
      (Skips, words ["uid"; "name"; "description"; "type"; "timeActivated"] ++ resources ++ [("event", PEvent)]
        ++ list_ Refuses "conditions" "condition" PCondition ++ in_and_out ++ properties)
  | PTask =>
      (Skips, words ["uid"; "name"; "description"; "timeStart"; "timeEnd"] ++ resources ++ [("trigger", PTrigger)]
        ++ list_ Refuses "steps" "step" PStep ++ in_and_out ++ list_ Refuses "workspaces" "workspace" PWorkspace
        ++ list_ Refuses "runtimeTopology" "dependency" PDependency ++ properties ++ list_ Refuses "taskTypes" "taskType" PWords)
  | PWorkflow =>
      (Skips, words ["uid"; "name"; "description"; "timeStart"; "timeEnd"] ++ resources ++ [("trigger", PTrigger)]
        ++ list_ Refuses "tasks" "task" PTask ++ list_ Refuses "taskDependencies" "dependency" PDependency
        ++ list_ Refuses "steps" "step" PStep ++ in_and_out ++ list_ Refuses "workspaces" "workspace" PWorkspace
        ++ list_ Refuses "runtimeTopology" "dependency" PDependency ++ properties ++ list_ Refuses "taskTypes" "taskType" PWords)
  | PFormula => (Refuses, components ++ services ++ list_ Refuses "workflows" "workflow" PWorkflow ++ properties)
  | PBom =>
      (Skips, [("metadata", PMetadata)] ++ components ++ services ++ references
        ++ list_ Refuses "dependencies" "dependency" PDependency ++ list_ Skips "compositions" "composition" PComposition
        ++ v1_4 (list_ Skips "vulnerabilities" "vulnerability" PVulnerability ++ [("signature", PSignature)])
        ++ v1_5 (properties ++ list_ Refuses "formulation" "formula" PFormula
                 ++ list_ Refuses "annotations" "annotation" PAnnotation))
  end.

(** The place of an element [n] found in a place *)
Definition within (p : place) (n : string) : option place :=
  (fix find (l : list (string * place)) :=
     match l with
     | [] => None
     | (m, q) :: l' => if String.eqb n m then Some q else find l'
     end) (snd (content p)).

(** A place where something may not be.  Text is text as the reader reports it: white space between elements is not. *)
Definition refused (p : place) (x : xml) : bool :=
  match fst (content p), x with
  | Refuses, Elem n _ _ => match within p n with Some _ => false | None => true end
  | Refuses, _ => true
  | Skips, Elem _ _ _ => false
  | Skips, _ => true
  | Words, (Elem _ _ _ | PI) => true
  | Nothing, _ => true
  | _, _ => false
  end.

(** Somewhere below [p], reached through expected elements only, something is refused *)
Inductive unexpected : place -> list xml -> Prop :=
| unexpected_here p before x after :
    refused p x = true -> unexpected p (before ++ x :: after)
| unexpected_below p before n ats kids after q :
    within p n = Some q -> unexpected q kids -> unexpected p (before ++ Elem n ats kids :: after).
End PLACES.

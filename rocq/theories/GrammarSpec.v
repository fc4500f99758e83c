(** The JSON documents the library reads, as a grammar: which members each object has, which of them may be
    missing, and what their values look like.  This file does not refer to the readers. *)
From Coq Require Import ZArith.
From Verif Require Import Base ModelTypes Json.
Open Scope string_scope.
Open Scope list_scope.
Open Scope bool_scope.

(** ** Kinds of values *)

(** A required member; a member that may be missing or [null]; a member that may be missing *)
Inductive presence := Required | Optional | Defaulted.
Inductive kind :=
| Str | Bool                          (* any string, any truth value *)
| Nat32 | Number                      (* an integer from 0 to 2^32 - 1; any number *)
| Word (ws : list string)             (* one of these strings, or an object with one of them as its only member, null *)
| ListOf (k : kind)
| Named (s : string)                  (* the kind of this name in the grammar *)
| Object (fs : list (string * (presence * kind)))  (* an object with these members, none of them twice, and any others *)
| Struct (fs : list (string * (presence * kind)))  (* the same, or an array with the values in this order *)
| Tagged (vs : list (string * kind))  (* an object with exactly one member, one of these *)
| FirstMember (ks : list string) (k : kind)  (* an object whose first member with one of these names is a [k] *)
| OneOf (ks : list kind)
| Both (a b : kind).
Definition entry : Type := string * (presence * kind).

Definition among (s : string) (l : list string) : bool := existsb (String.eqb s) l.
Fixpoint named {X} (s : string) (l : list (string * X)) : option X :=
  match l with [] => None | (s', x) :: l' => if String.eqb s s' then Some x else named s l' end.

(** the first member named [k] passes [test], or there is none and [absent] *)
Definition member (k : string) (test : json -> bool) (absent : bool) : list (string * json) -> bool :=
  fix go l := match l with [] => absent | (k', x) :: l' => if String.eqb k k' then test x else go l' end.
(** the first member with one of these names passes [test] *)
Definition first_named (ks : list string) (test : json -> bool) : list (string * json) -> bool :=
  fix go l := match l with [] => false | (k, x) :: l' => if among k ks then test x else go l' end.
Definition at_most_once (k : string) (l : list (string * json)) : bool :=
  Nat.leb (List.length (filter (fun m => String.eqb k (fst m)) l)) 1.
(** a value of a member *)
Definition value (p : presence) (test : json -> bool) (x : json) : bool :=
  match p, x with Optional, JNull => true | _, _ => test x end.
Definition may_be_missing (p : presence) : bool := match p with Required => false | _ => true end.
(** the values of an array, in the order of the members; only defaults may be left out at its end *)
Definition positional (test : kind -> json -> bool) : list json -> list entry -> bool :=
  fix go l fs :=
    match l, fs with
    | [], _ => forallb (fun f => match fst (snd f) with Defaulted => true | _ => false end) fs
    | x :: l', (_, (p, t)) :: fs' => value p (test t) x && go l' fs'
    | _ :: _, [] => false
    end.

(** A value is of a kind *)
Fixpoint fits (G : string -> kind) (j : json) (t : kind) {struct j} : bool :=
  let members fs l :=
    forallb (fun f => match f with (k, (p, t)) =>
      at_most_once k l && member k (value p (fun x => fits G x t)) (may_be_missing p) l end) fs in
  (fix is (t : kind) : bool :=
     match t with
     | Str => match j with JStr _ => true | _ => false end
     | Bool => match j with JBool _ => true | _ => false end
     | Nat32 => match j with JInt z => (0 <=? z)%Z && (z <? 4294967296)%Z | _ => false end
     | Number => match j with JInt _ | JFloat _ => true | _ => false end
     | Word ws => match j with JStr s => among s ws | JObj [(s, JNull)] => among s ws | _ => false end
     | ListOf t => match j with JArr l => forallb (fun x => fits G x t) l | _ => false end
     | Named _ => false
     | Object fs => match j with JObj l => members fs l | _ => false end
     | Struct fs =>
         match j with JObj l => members fs l | JArr l => positional (fun t x => fits G x t) l fs | _ => false end
     | Tagged vs =>
         match j with
         | JObj [(k, x)] => match named k vs with Some t => fits G x t | None => false end
         | _ => false
         end
     | FirstMember ks t => match j with JObj l => first_named ks (fun x => fits G x t) l | _ => false end
     | OneOf ks => existsb is ks
     | Both a b => is a && is b
     end)
  match t with Named s => G s | _ => t end.

(** ** The grammar *)
Definition req (k : string) (t : kind) : entry := (k, (Required, t)).
Definition opt (k : string) (t : kind) : entry := (k, (Optional, t)).
Definition dflt (k : string) (t : kind) : entry := (k, (Defaulted, t)).
(** only from this version on *)
Definition from {X} (since_version v : spec_version) (l : list X) : list X := if version_leb since_version v then l else [].
(** optional from this version on, required before *)
Definition opt_since (since_version v : spec_version) (k : string) (t : kind) : entry :=
  if version_leb since_version v then opt k t else req k t.

Definition signer : list entry :=
  [req "algorithm" (Named "algorithm"); req "value" Str].
Definition component_data : list entry :=
  [opt "bomRef" Str; req "type" Str; opt "name" Str; opt "contents" (Named "data_contents");
    opt "classification" Str; opt "sensitiveData" Str; opt "graphics" (Named "graphics_collection");
    opt "description" Str; opt "governance" (Named "data_governance")].
Definition grammar (v : spec_version) : list (string * kind) := [
  ("attached_text", Struct
      [opt "contentType" Str; opt "encoding" Str; req "content" Str]);
  ("attachment", Struct
      [req "content" Str; opt "contentType" Str; opt "encoding" Str]);
  ("hash", Struct
      [req "alg" Str; req "content" Str]);
  ("property", Struct
      [req "name" Str; req "value" Str]);
  ("contact", Struct
      [opt "bomRef" Str; opt "name" Str; opt "email" Str; opt "phone" Str]);
  ("entity", Struct
      [opt "bomRef" Str; opt "name" Str; opt "url" (ListOf Str);
        opt "contact" (ListOf (Named "contact"))]);
  ("external_reference", Struct
      [req "type" Str; req "url" Str; opt "comment" Str; opt "hashes" (ListOf (Named "hash"))]);
  ("algorithm", OneOf [Word ["RS256"; "RS384"; "RS512"; "PS256"; "PS384"; "PS512"; "ES256"; "ES384";
            "ES512"; "Ed25519"; "Ed448"; "HS256"; "HS384"; "HS512"];
          Tagged [("Unknown", Str)]]);
  ("signer", Struct signer);
  ("signature", OneOf [ListOf (Named "signer"); Struct signer]);
  ("license_contact", Tagged [("organization", Named "entity"); ("individual", Named "contact")]);
  ("licensing", Struct
      [opt "altIds" (ListOf Str); opt "licensor" (Named "license_contact");
        opt "licensee" (Named "license_contact"); opt "purchaser" (Named "license_contact");
        opt "purchaseOrder" Str; opt "licenseTypes" (ListOf Str); opt "lastRenewal" Str;
        opt "expiration" Str]);
  ("license", Both (FirstMember ["id"; "name"] Str)
      (Object (from V1_5 v [opt "bomRef" Str]
       ++ [opt "text" (Named "attached_text"); opt "url" Str]
       ++ from V1_5 v [opt "licensing" (Named "licensing"); opt "properties" (ListOf (Named "property"))])));
  ("license_choice", OneOf [Tagged [("license", Named "license")]; Struct [opt "bomRef" Str; req "expression" Str]]);
  ("identifiable_action", Struct
      [opt "timestamp" Str; opt "name" Str; opt "email" Str]);
  ("commit", Struct
      [opt "uid" Str; opt "url" Str; opt "author" (Named "identifiable_action");
        opt "committer" (Named "identifiable_action"); opt "message" Str]);
  ("diff", Struct
      [opt "text" (Named "attached_text"); opt "url" Str]);
  ("source", Struct
      [opt "name" Str; opt "url" Str]);
  ("issue", Struct
      [req "type" Str; opt "id" Str; opt "name" Str; opt "description" Str;
        opt "source" (Named "source"); opt "references" (ListOf Str)]);
  ("patch", Struct
      [req "type" Str; opt "diff" (Named "diff"); opt "resolves" (ListOf (Named "issue"))]);
  ("responsible_party", Tagged [("Organization", Named "entity"); ("Contact", Named "contact")]);
  ("data_governance", Struct
      [opt "custodians" (ListOf (Named "responsible_party"));
        opt "stewards" (ListOf (Named "responsible_party"));
        opt "owners" (ListOf (Named "responsible_party"))]);
  ("data_contents", Struct
      [opt "attachment" (Named "attachment"); opt "url" Str;
        opt "properties" (ListOf (Named "property"))]);
  ("graphic", Struct
      [opt "name" Str; opt "image" (Named "attachment")]);
  ("graphics_collection", Struct
      [opt "description" Str; opt "collection" (ListOf (Named "graphic"))]);
  ("component_data", Struct component_data);
  ("approach", Struct
      [opt "type" Str]);
  ("dataset", OneOf [Struct component_data; Str]);
  ("ml_parameter", Struct
      [opt "format" Str]);
  ("model_parameters", Struct
      [opt "approach" (Named "approach"); opt "task" Str; opt "architectureFamily" Str;
        opt "modelArchitecture" Str; opt "datasets" (ListOf (Named "dataset"));
        opt "inputs" (ListOf (Named "ml_parameter")); opt "outputs" (ListOf (Named "ml_parameter"))]);
  ("confidence_interval", Struct
      [opt "lowerBound" Str; opt "upperBound" Str]);
  ("performance_metric", Struct
      [opt "type" Str; opt "value" Str; opt "slice" Str;
        opt "confidence_interval" (Named "confidence_interval")]);
  ("quantitative_analysis", Struct
      [opt "performanceMetrics" (ListOf (Named "performance_metric"));
        opt "graphics" (Named "graphics_collection")]);
  ("considerations", Struct []);
  ("model_card", Struct
      [opt "bomRef" Str; opt "modelParameters" (Named "model_parameters");
        opt "quantitativeAnalysis" (Named "quantitative_analysis");
        opt "considerations" (Named "considerations"); opt "properties" (ListOf (Named "property"))]);
  ("occurrence", Struct
      [opt "bomRef" Str; req "location" Str]);
  ("frame", Struct
      [opt "package" Str; req "module" Str; opt "function" Str; opt "parameters" (ListOf Str);
        opt "line" Nat32; opt "column" Nat32; opt "fullFilename" Str]);
  ("callstack", Struct
      [req "frames" (ListOf (Named "frame"))]);
  ("method", Struct
      [req "technique" Str; req "confidence" Number; opt "value" Str]);
  ("identity", Struct
      [req "field" Str; opt "confidence" Number; opt "methods" (ListOf (Named "method"));
        opt "tools" (ListOf Str)]);
  ("copyright", Struct
      [req "text" Str]);
  ("evidence", Struct
      ([opt "licenses" (ListOf (Named "license_choice")); opt "copyright" (ListOf (Named "copyright"))]
       ++ from V1_5 v [opt "occurrences" (ListOf (Named "occurrence")); opt "callstack" (Named "callstack");
        opt "identity" (Named "identity")]));
  ("swid", Struct
      [req "tagId" Str; req "name" Str; opt "version" Str; opt "tagVersion" Nat32; opt "patch" Bool;
        opt "text" (Named "attached_text"); opt "url" Str]);
  ("pedigree", Struct
      [opt "ancestors" (ListOf (Named "component")); opt "descendants" (ListOf (Named "component"));
        opt "variants" (ListOf (Named "component")); opt "commits" (ListOf (Named "commit"));
        opt "patches" (ListOf (Named "patch")); opt "notes" Str]);
  ("component", Struct
      ([req "type" Str; opt "mime-type" Str; opt "bom-ref" Str; opt "supplier" (Named "entity");
        opt "author" Str; opt "publisher" Str; opt "group" Str; req "name" Str;
        opt_since V1_4 v "version" Str; opt "description" Str; opt "scope" Str;
        opt "hashes" (ListOf (Named "hash")); opt "licenses" (ListOf (Named "license_choice"));
        opt "copyright" Str; opt "cpe" Str; opt "purl" Str; opt "swid" (Named "swid");
        opt "modified" Bool; opt "pedigree" (Named "pedigree");
        opt "externalReferences" (ListOf (Named "external_reference"));
        opt "properties" (ListOf (Named "property")); opt "components" (ListOf (Named "component"));
        opt "evidence" (Named "evidence")]
       ++ from V1_4 v [opt "signature" (Named "signature")]
       ++ from V1_5 v [opt "modelCard" (Named "model_card"); opt "data" (Named "component_data")]));
  ("data_classification", Struct
      [req "flow" Str; req "classification" Str]);
  ("service_data", Object
      [opt "name" Str; opt "description" Str; req "flow" Str; req "classification" Str;
        opt "governance" (Named "data_governance"); opt "source" (ListOf Str);
        opt "destination" (ListOf Str)]);
  ("data", OneOf ([ListOf (Named "data_classification")] ++ from V1_5 v [ListOf (Named "service_data")]));
  ("service", Struct
      ([opt "bom-ref" Str; opt "provider" (Named "entity"); opt "group" Str; req "name" Str;
        opt "version" Str; opt "description" Str; opt "endpoints" (ListOf Str);
        opt "authenticated" Bool; opt "x-trust-boundary" Bool; opt "data" (Named "data");
        opt "licenses" (ListOf (Named "license_choice"));
        opt "externalReferences" (ListOf (Named "external_reference"));
        opt "properties" (ListOf (Named "property")); opt "services" (ListOf (Named "service"))]
       ++ from V1_4 v [opt "signature" (Named "signature")]
       ++ from V1_5 v [opt "trustZone" Str]));
  ("tool", Struct
      ([opt "vendor" Str; opt "name" Str; opt "version" Str; opt "hashes" (ListOf (Named "hash"))]
       ++ from V1_4 v [opt "externalReferences" (ListOf (Named "external_reference"))]));
  ("tools", OneOf ([ListOf (Named "tool")]
           ++ from V1_5 v [Object [opt "services" (ListOf (Named "service")); opt "components" (ListOf (Named "component"))]]));
  ("lifecycle", OneOf [Tagged [("phase", Str)]; Struct [req "name" Str; opt "description" Str]]);
  ("metadata", Struct
      ([opt "timestamp" Str; opt "tools" (Named "tools"); opt "authors" (ListOf (Named "contact"));
        opt "component" (Named "component"); opt "manufacture" (Named "entity");
        opt "supplier" (Named "entity"); opt "licenses" (ListOf (Named "license_choice"));
        opt "properties" (ListOf (Named "property"))]
       ++ from V1_5 v [opt "lifecycles" (ListOf (Named "lifecycle"))]));
  ("dependency", Struct
      [req "ref" Str; dflt "dependsOn" (ListOf Str)]);
  ("composition", Struct
      (from V1_5 v [opt "bomRef" Str]
       ++ [req "aggregate" Str; opt "assemblies" (ListOf Str); opt "dependencies" (ListOf Str)]
       ++ from V1_5 v [opt "vulnerabilities" (ListOf Str)]
       ++ from V1_4 v [opt "signature" (Named "signature")]));
  ("annotator", Tagged [("organization", Named "entity"); ("individual", Named "contact");
            ("component", Named "component"); ("service", Named "service")]);
  ("annotation", Struct
      [opt "bom-ref" Str; req "subjects" (ListOf Str); req "annotator" (Named "annotator");
        req "timestamp" Str; req "text" Str; opt "signature" (Named "signature")]);
  ("vuln_source", Struct
      [opt "name" Str; opt "url" Str]);
  ("vuln_reference", Struct
      [req "id" Str; req "source" (Named "vuln_source")]);
  ("vuln_rating", Struct
      [opt "source" (Named "vuln_source"); opt "score" Number; opt "severity" Str; opt "method" Str;
        opt "vector" Str; opt "justification" Str]);
  ("advisory", Struct
      [opt "title" Str; req "url" Str]);
  ("vuln_credits", Struct
      [opt "organizations" (ListOf (Named "entity")); opt "individuals" (ListOf (Named "contact"))]);
  ("vuln_analysis", Struct
      ([opt "state" Str; opt "justification" Str; opt "responses" (ListOf Str); opt "detail" Str]
       ++ from V1_5 v [opt "firstIssued" Str; opt "lastUpdated" Str]));
  ("version_status", Both (FirstMember ["version"; "range"; "undefinedVersionRange"] Str)
      (Object [req "status" Str]));
  ("vuln_target", Struct
      [req "ref" Str; opt "versions" (ListOf (Named "version_status"))]);
  ("proof_of_concept", Struct
      [opt "reproductionSteps" Str; opt "environment" Str;
        opt "supportingMaterial" (ListOf (Named "attachment"))]);
  ("vulnerability", Struct
      ([opt "bom-ref" Str; opt "id" Str; opt "source" (Named "vuln_source");
        opt "references" (ListOf (Named "vuln_reference"));
        opt "ratings" (ListOf (Named "vuln_rating")); opt "cwes" (ListOf Nat32); opt "description" Str;
        opt "detail" Str; opt "recommendation" Str]
       ++ from V1_5 v [opt "workaround" Str; opt "proofOfConcept" (Named "proof_of_concept")]
       ++ [opt "advisories" (ListOf (Named "advisory")); opt "created" Str; opt "published" Str;
        opt "updated" Str]
       ++ from V1_5 v [opt "rejected" Str]
       ++ [opt "credits" (Named "vuln_credits"); opt "tools" (Named "tools");
        opt "analysis" (Named "vuln_analysis"); opt "affects" (ListOf (Named "vuln_target"));
        opt "properties" (ListOf (Named "property"))]));
  ("resource_reference", OneOf [Object [req "ref" Str]; Object [req "externalReference" (Named "external_reference")]]);
  ("environment_var", OneOf [Object [req "name" Str; req "value" Str]; Str]);
  ("parameter", Struct
      [opt "name" Str; opt "value" Str; opt "dataType" Str]);
  ("input", Both (OneOf [Object [req "resource" (Named "resource_reference")]; Object [req "parameters" (ListOf (Named "parameter"))];
               Object [req "environmentVars" (ListOf (Named "environment_var"))]; Object [req "data" (Named "attachment")]])
      (Object [opt "source" (Named "resource_reference"); opt "target" (Named "resource_reference");
        opt "properties" (ListOf (Named "property"))]));
  ("output", Both (OneOf [Object [req "resource" (Named "resource_reference")];
               Object [req "environmentVars" (ListOf (Named "environment_var"))]; Object [req "data" (Named "attachment")]])
      (Object [opt "type" Str; opt "source" (Named "resource_reference");
        opt "target" (Named "resource_reference"); opt "properties" (ListOf (Named "property"))]));
  ("command", Struct
      [opt "executed" Str; opt "properties" (ListOf (Named "property"))]);
  ("step", Struct
      [opt "commands" (ListOf (Named "command")); opt "description" Str; opt "name" Str;
        opt "properties" (ListOf (Named "property"))]);
  ("volume", Struct
      [opt "uid" Str; opt "name" Str; opt "mode" Str; opt "path" Str; opt "size_allocated" Str;
        opt "persistent" Bool; opt "remote" Bool; opt "properties" (ListOf (Named "property"))]);
  ("workspace", Struct
      [req "bom-ref" Str; req "uid" Str; opt "name" Str; opt "aliases" (ListOf Str);
        opt "description" Str; opt "resourceReferences" (ListOf (Named "resource_reference"));
        opt "accessMode" Str; opt "mountPath" Str; opt "managedDataType" Str; opt "volumeRequest" Str;
        opt "volume" (Named "volume"); opt "properties" (ListOf (Named "property"))]);
  ("condition", Struct
      [opt "description" Str; opt "expression" Str; opt "properties" (ListOf (Named "property"))]);
  ("event", Struct
      [opt "uid" Str; opt "description" Str; opt "timeReceived" Str; opt "data" (Named "attachment");
        opt "source" (Named "resource_reference"); opt "target" (Named "resource_reference");
        opt "properties" (ListOf (Named "property"))]);
  ("trigger", Struct
      [req "bom-ref" Str; req "uid" Str; opt "name" Str; opt "description" Str;
        opt "resourceReferences" (ListOf (Named "resource_reference")); req "type" Str;
        opt "event" (Named "event"); opt "conditions" (ListOf (Named "condition"));
        opt "timeActivated" Str; opt "inputs" (ListOf (Named "input"));
        opt "outputs" (ListOf (Named "output")); opt "properties" (ListOf (Named "property"))]);
  ("task", Struct
      [req "bom-ref" Str; req "uid" Str; opt "name" Str; opt "description" Str;
        opt "resourceReferences" (ListOf (Named "resource_reference")); req "taskTypes" (ListOf Str);
        opt "trigger" (Named "trigger"); opt "steps" (ListOf (Named "step"));
        opt "inputs" (ListOf (Named "input")); opt "outputs" (ListOf (Named "output"));
        opt "timeStart" Str; opt "timeEnd" Str; opt "workspaces" (ListOf (Named "workspace"));
        opt "runtimeTopology" (ListOf (Named "dependency"));
        opt "properties" (ListOf (Named "property"))]);
  ("workflow", Struct
      [req "bom-ref" Str; req "uid" Str; opt "name" Str; opt "description" Str;
        opt "resourceReferences" (ListOf (Named "resource_reference"));
        opt "tasks" (ListOf (Named "task")); opt "taskDependencies" (ListOf (Named "dependency"));
        req "taskTypes" (ListOf Str); opt "trigger" (Named "trigger");
        opt "steps" (ListOf (Named "step")); opt "inputs" (ListOf (Named "input"));
        opt "outputs" (ListOf (Named "output")); opt "timeStart" Str; opt "timeEnd" Str;
        opt "workspaces" (ListOf (Named "workspace"));
        opt "runtimeTopology" (ListOf (Named "dependency"));
        opt "properties" (ListOf (Named "property"))]);
  ("formula", Struct
      [opt "bom-ref" Str; opt "components" (ListOf (Named "component"));
        opt "services" (ListOf (Named "service")); opt "workflows" (ListOf (Named "workflow"));
        opt "properties" (ListOf (Named "property"))]);
  ("bom", Struct
      ([req "bomFormat" (Word ["CycloneDX"]); req "specVersion" (Word ["1.3"; "1.4"; "1.5"]);
        req "version" Nat32; opt "serialNumber" Str; opt "metadata" (Named "metadata");
        opt "components" (ListOf (Named "component")); opt "services" (ListOf (Named "service"));
        opt "externalReferences" (ListOf (Named "external_reference"));
        opt "dependencies" (ListOf (Named "dependency"));
        opt "compositions" (ListOf (Named "composition"))]
       ++ from V1_4 v [opt "vulnerabilities" (ListOf (Named "vulnerability")); opt "signature" (Named "signature")]
       ++ from V1_5 v [opt "annotations" (ListOf (Named "annotation")); opt "properties" (ListOf (Named "property"));
        opt "formulation" (ListOf (Named "formula"))]))].
Definition kind_of (v : spec_version) (s : string) : kind :=
  match named s (grammar v) with Some t => t | None => OneOf [] end.

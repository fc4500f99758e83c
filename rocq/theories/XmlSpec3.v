(** Which documents are orderly: those in which every reader that is called reads exactly its element *)
From Verif Require Import Base ModelTypes Xml XmlSpec2.
Open Scope string_scope.
Open Scope list_scope.

(** The signatures consist of the elements CycloneDX knows *)
Fixpoint plain_signatures (x : xml) : bool :=
  match x with
  | Elem n _ ks =>
      (if String.eqb n "signature" then forallb is_signature_part ks else true) && forallb plain_signatures ks
  | _ => true
  end.

(** Version 1.3 has no signatures, version 1.4 has few readers that look through unknown elements: nothing is asked of
    documents of version 1.3, and only plain signatures of those of version 1.4 *)
Definition orderly (v : spec_version) (x : xml) : bool :=
  match v with
  | V1_3 => true
  | V1_4 => plain_signatures x
  | V1_5 => tidy x
  end.

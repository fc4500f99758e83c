(** Which XML documents can be saved again so that the result can be read: C62.  One condition for each event, i.e.
    each tag and each piece of text of the document. *)
From Verif Require Import Base ModelTypes Strings Xml.
Open Scope string_scope.
Open Scope list_scope.

Definition has_attr (k : string) (ats : attrs) : Prop := attr k ats <> None.
(** - text: not only white space (xml-rs does not report such text outside CDATA sections);
    - from version 1.5 on, what the library reads but does not write in a form it can read: attachments with both
      attributes, flows of data with both attributes, tasks, and references to resources outside the document *)
Definition saves_well (v : spec_version) (e : event) : Prop :=
  match e with
  | EChars s | ECData s => xtrim s <> ""
  | EStart n ats =>
      v = V1_5 ->
      (n = "attachment" \/ n = "image" \/ n = "data" -> ~ (has_attr "content-type" ats /\ has_attr "encoding" ats))
      /\ (n = "dataflow" -> ~ (has_attr "name" ats /\ has_attr "description" ats))
      /\ n <> "task" /\ n <> "externalReference"
  | _ => True
  end.

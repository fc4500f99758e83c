(** What becomes of content that is not expected and not refused: it is skipped, or looked through *)
From Verif Require Import Base ModelTypes Xml StrictSpec.
Open Scope string_scope.
Open Scope list_scope.

(** [passes v e p l l']: the content [l] of an element named [e] at the place [p], and [l'], the same without one thing that is
    not expected in it or below it:
    - where other elements are skipped, without an element that is not listed there, whatever its content;
    - where other elements are looked through, with the content of such an element instead of the element; the element
      is not named [e] itself;
    - where other elements are looked through, without a text, CDATA section or processing instruction; attachments
      keep their text. *)
Inductive passes (v : spec_version) : string -> place -> list xml -> list xml -> Prop :=
| passes_skipped e p before n ats kids after :
    fst (content v p) = Skips -> within v p n = None ->
    passes v e p (before ++ Elem n ats kids :: after) (before ++ after)
| passes_through e p before n ats kids after :
    fst (content v p) = Looks -> within v p n = None -> n <> e ->
    passes v e p (before ++ Elem n ats kids :: after) (before ++ kids ++ after)
| passes_text e p before x after :
    fst (content v p) = Looks ->
    match x with Elem _ _ _ => False | Text _ => p <> PAttachment | CData _ | PI => True end ->
    passes v e p (before ++ x :: after) (before ++ after)
| passes_below e p before n ats kids kids' after q :
    within v p n = Some q -> passes v n q kids kids' ->
    passes v e p (before ++ Elem n ats kids :: after) (before ++ Elem n ats kids' :: after).
(** any number of them *)
Inductive all_pass (v : spec_version) (e : string) (p : place) : list xml -> list xml -> Prop :=
| pass_none l : all_pass v e p l l
| pass_more l l' l'' : passes v e p l l' -> all_pass v e p l' l'' -> all_pass v e p l l''.

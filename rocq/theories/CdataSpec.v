(** Text and CDATA sections (C91) *)
From Verif Require Import Base ModelTypes Xml StrictSpec.
Open Scope list_scope.

(** [quoted v p l l']: the content [l] of an element at the place [p], and [l'], the same with one text in it written as a CDATA
    section; not the text of an attachment. *)
Inductive quoted (v : spec_version) : place -> list xml -> list xml -> Prop :=
| quoted_here p before s after :
    p <> PAttachment -> quoted v p (before ++ Text s :: after) (before ++ CData s :: after)
| quoted_below p before n ats kids kids' after q :
    within v p n = Some q -> quoted v q kids kids' ->
    quoted v p (before ++ Elem n ats kids :: after) (before ++ Elem n ats kids' :: after).
(** any number of them, in either direction *)
Inductive written_as (v : spec_version) (p : place) : list xml -> list xml -> Prop :=
| as_is l : written_as v p l l
| as_cdata l l' l'' : quoted v p l l' -> written_as v p l' l'' -> written_as v p l l''
| as_text l l' l'' : quoted v p l' l -> written_as v p l' l'' -> written_as v p l l''.

(** XML documents that say the same: any mixture of the differences of C87, C89, C90 and C91 *)
From Verif Require Import Base ModelTypes Xml StrictSpec PassSpec AttrSpec SwapSpec CdataSpec.
Open Scope string_scope.
Open Scope list_scope.

(** [says_same v ats kids ats' kids']: the document with the attributes [ats] and the content [kids], and one that differs from it, in any
    number of steps, in attributes that are not read or their order, in the order of elements, in which texts are CDATA sections, and in content that is
    skipped or looked through and left out in the second *)
Inductive says_same (v : spec_version) : attrs -> list xml -> attrs -> list xml -> Prop :=
| same_document ats kids : says_same v ats kids ats kids
| other_root ats ats' kids ats'' kids'' :
    same_values ["serialNumber"; "version"] ats ats' -> says_same v ats' kids ats'' kids'' -> says_same v ats kids ats'' kids''
| other_attributes ats kids kids' ats'' kids'' :
    changed v PBom kids kids' -> says_same v ats kids' ats'' kids'' -> says_same v ats kids ats'' kids''
| other_order_of_elements ats kids kids' ats'' kids'' :
    swapped v PBom kids kids' -> says_same v ats kids' ats'' kids'' -> says_same v ats kids ats'' kids''
| other_sections ats kids kids' ats'' kids'' :
    written_as v PBom kids kids' -> says_same v ats kids' ats'' kids'' -> says_same v ats kids ats'' kids''
| less ats kids kids' ats'' kids'' :
    passes v "bom" PBom kids kids' -> says_same v ats kids' ats'' kids'' -> says_same v ats kids ats'' kids''.

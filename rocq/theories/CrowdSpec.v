(** Any number of invocations, each begun at any time, on one disk (C88) *)
From Verif Require Import Base Strings ModelTypes ConfigModel GenModel GenSpec RunModel RunSpec CliModel CliSpec InvokeModel InvokeSpec TogetherSpec ShareModel.
Open Scope string_scope.
Open Scope list_scope.

(** An invocation: a machine and the words of the command line; where it is: a state and a position in its file *)
Definition invoked_as : Type := machine * list string.
(** [crowd d l d']: begun on the disk [d], the invocations of [l] are where [l] says, and the disk is [d'].  At each step another
    invocation begins, or one goes on.  One that is never chosen again has been interrupted. *)
Inductive crowd (d : disk) : list (invoked_as * (state * nat)) -> disk -> Prop :=
| nobody : crowd d [] d
| joins l e m argv s : crowd d l e -> begins m argv e s -> crowd d (l ++ [((m, argv), (s, 0))]) e
| goes_on l m argv s n l' e t k : crowd d (l ++ ((m, argv), (s, n)) :: l') e -> pstep m (on s e) n t k ->
    crowd d (l ++ ((m, argv), (t, k)) :: l') (disk_of t).
Definition member (l : list (invoked_as * (state * nat))) (m : machine) (argv : list string) (s : state) : Prop :=
  exists n, In ((m, argv), (s, n)) l.
(** No two of them are asked for the same file *)
Definition all_apart (l : list (invoked_as * (state * nat))) : Prop :=
  forall before m1 argv1 x1 between m2 argv2 x2 after,
    l = before ++ ((m1, argv1), x1) :: between ++ ((m2, argv2), x2) :: after -> apart m1 argv1 m2 argv2.

(** Two programs at the same time, perhaps on the same files (C85) *)
From Verif Require Import Base Strings ModelTypes ConfigModel GenModel GenSpec RunModel RunSpec CliModel CliSpec InvokeModel InvokeSpec TogetherSpec ShareModel.
Open Scope string_scope.
Open Scope list_scope.

(** Each has a state and a position of its own; the disk is shared; at each step one of the two goes on *)
Inductive shared (m1 m2 : machine) (a b : state) (d : disk) : state -> nat -> state -> nat -> disk -> Prop :=
| shared_first : shared m1 m2 a b d a 0 b 0 d
| shared_one s1 n1 s2 n2 e t k : shared m1 m2 a b d s1 n1 s2 n2 e -> pstep m1 (on s1 e) n1 t k -> shared m1 m2 a b d t k s2 n2 (disk_of t)
| shared_two s1 n1 s2 n2 e t k : shared m1 m2 a b d s1 n1 s2 n2 e -> pstep m2 (on s2 e) n2 t k -> shared m1 m2 a b d s1 n1 t k (disk_of t).
(** Two invocations at the same time, in the states [s1] and [s2], with the disk [d'] *)
Definition at_once (m1 : machine) (argv1 : list string) (m2 : machine) (argv2 : list string) (d : disk) (s1 s2 : state) (d' : disk) : Prop :=
  exists a b n1 n2, begins m1 argv1 d a /\ begins m2 argv2 d b /\ shared m1 m2 a b d s1 n1 s2 n2 d'.

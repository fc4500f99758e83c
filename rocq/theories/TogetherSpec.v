(** Two invocations at the same time (C84): every schedule of their steps on one disk *)
From Verif Require Import Base Strings ModelTypes ConfigModel GenModel GenSpec RunModel RunSpec CliModel CliSpec InvokeModel InvokeSpec.
Open Scope string_scope.
Open Scope list_scope.

(** The same state of a program, on another disk *)
Definition on (s : state) (d : disk) : state :=
  match s with
  | Packages gs _ => Packages gs d
  | Files fs gs _ => Files fs gs d
  | Writing f t fs gs _ => Writing f t fs gs d
  | Ended r _ => Ended r d
  end.
(** Two programs, each in a state of its own, and the disk they share; at each step one of the two goes on *)
Inductive schedule (m1 m2 : machine) (a b : state) (d : disk) : state -> state -> disk -> Prop :=
| at_first : schedule m1 m2 a b d a b d
| first_steps s1 s2 e t : schedule m1 m2 a b d s1 s2 e -> step m1 (on s1 e) t -> schedule m1 m2 a b d t s2 (disk_of t)
| second_steps s1 s2 e t : schedule m1 m2 a b d s1 s2 e -> step m2 (on s2 e) t -> schedule m1 m2 a b d s1 t (disk_of t).
(** The states in which invocations begin: the words are read, the SBOMs made, nothing is written *)
Inductive begins (m : machine) (argv : list string) (d : disk) : state -> Prop :=
| begins_run o s : command_line argv = Some o -> starts m o d s -> begins m argv d s
| begins_not r : command_line argv = None -> r = Succeeded \/ r = Failed -> begins m argv d (Ended r d).
Definition together (m1 : machine) (argv1 : list string) (m2 : machine) (argv2 : list string) (d : disk) (s1 s2 : state) (d' : disk) : Prop :=
  exists a b, begins m1 argv1 d a /\ begins m2 argv2 d b /\ schedule m1 m2 a b d s1 s2 d'.
(** The two are not asked for the same file *)
Definition apart (m1 : machine) (argv1 : list string) (m2 : machine) (argv2 : list string) : Prop :=
  forall o1 o2 q, asked argv1 o1 -> asked argv2 o2 -> sbom_path m1 o1 q -> sbom_path m2 o2 q -> False.

(** Histories of invocations (C83): one after the other, each on the disk that the one before left; each may be interrupted *)
From Verif Require Import Base Strings ModelTypes ConfigModel GenModel GenSpec RunModel RunSpec CliModel CliSpec InvokeModel InvokeSpec.
Open Scope string_scope.
Open Scope list_scope.

Inductive history : disk -> list (machine * list string) -> disk -> Prop :=
| history_nil d : history d [] d
| history_cons d m argv s l d' : invocation m argv d s -> history (disk_of s) l d' -> history d ((m, argv) :: l) d'.

(** The same request at another time: another clock, other random numbers, more or less said about it *)
Definition same_request (m : machine) (o : options) (x : machine * list string) : Prop :=
  exists now uuid o', fst x = at_another_time m now uuid /\ asked (snd x) o' /\ same_but_loudness o o'.

(** The whole command: from the words of the command line to the disk. *)
From Verif Require Import Base Strings ModelTypes ConfigModel GenModel RunModel CliModel.
Open Scope string_scope.
Open Scope list_scope.

(** main.rs:85-98, [main]: [Opts::parse] either gives the options of the run, or ends the program: with an error, or with
    success after it has shown the help or the version. *)
Inductive invocation (m : machine) (argv : list string) (d : disk) : state -> Prop :=
| invoked o s : command_line argv = Some o -> run m o d s -> invocation m argv d s
| not_run r : command_line argv = None -> r = Succeeded \/ r = Failed -> invocation m argv d (Ended r d).

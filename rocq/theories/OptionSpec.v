(** What the options of the command line mean (C73) *)
From Verif Require Import Base Strings ModelTypes ConfigModel GenModel GenSpec RunModel RunSpec.
Open Scope string_scope.
Open Scope list_scope.

(** The target of a run as text: "all", or the name of a platform *)
Inductive target_text (m : machine) (o : options) : string -> Prop :=
| tt_environment e : mc_build_target m = Some e -> target_text m o e
| tt_option t : mc_build_target m = None -> a_target (o_args o) = Some t -> target_text m o t
| tt_host out h : mc_build_target m = None -> a_target (o_args o) = None ->
    mc_rustc m match mc_rustc_var m with Some p => p | None => "rustc" end = Some out -> host_named out h -> target_text m o h.

Definition asked_format (a : args) : format := match a_format a with Some f => f | None => FXml end.
Definition asked_version (a : args) : spec_version := match a_spec_version a with Some v => v | None => V1_3 end.

(** The name of a file: [stem], the target if it is asked for, ".cdx" unless the whole name is given, and the format.
    [target] is the text of the target. *)
Definition file_named (a : args) (target stem : string) : string :=
  stem ++ (if a_target_in_filename a then "_" ++ target else "")
  ++ (match a_filename_override a, a_target_in_filename a with Some _, false => "" | _, _ => ".cdx" end)
  ++ match asked_format a with FJson => ".json" | FXml => ".xml" end.
(** [files] are those of the package [p]: one for the package, or one for each artifact asked for *)
Definition files_of (a : args) (target : string) (p : package) (files : list output_file) : Prop :=
  match a_describe a with
  | None | Some DCrate =>
      map f_path files = [removelast (pk_manifest p)
        ++ [file_named a target match a_filename_override a with Some n => n | None => pk_name p end]]
  | Some d =>
      exists sel, sublist_of (fun t => described_target t /\ wants_artifact d t) (pk_targets p) sel
        /\ map f_path files = map (fun t => removelast (pk_manifest p)
             ++ [file_named a target (normalize (tg_name t) ++ "_" ++ join "-" (tg_kind t))]) sel
  end.

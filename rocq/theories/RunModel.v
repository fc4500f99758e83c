(** Running the command: main.rs, platform.rs, and the writing of files in generator.rs, as a program that
    goes from state to state and may be stopped in any of them. *)
From Verif Require Import Base Strings ModelTypes ConfigModel GenModel Json JsonModel Xml XmlModel ValModel.
Open Scope string_scope.
Open Scope list_scope.

(** cli.rs:32-111: the options of the command; [o_args] are those the configuration depends on.  Parsing the
    command line (clap) is not modelled. *)
Record options := mkOptions {
  o_args : args; o_manifest_path : option string; o_verbose : nat; o_quiet : nat }.

(** What the program finds outside itself *)
Record machine := mkMachine {
  mc_world : world;                              (* what the generator uses, GenModel.v *)
  mc_rustc_var : option string;                  (* env var RUSTC *)
  mc_rustc : string -> option string;            (* the output of this program with the argument -vV; None: cannot be run *)
  mc_build_target : option string;               (* env var CARGO_BUILD_TARGET *)
  mc_absolute : string -> option path;           (* std::path::absolute *)
  mc_cwd : option path;                          (* std::env::current_dir *)
  mc_cargo : path -> list cargo_opt -> list string -> option cargo_metadata;
                                                 (* MetadataCommand::exec: manifest path, feature options, other options *)
  mc_debug : bool;                               (* cfg!(debug_assertions) *)
  mc_parsers : parsers;                          (* what validation uses, ValModel.v *)
  mc_floats : float_text;
  mc_json_text : json -> string;                 (* serde_json::to_writer_pretty *)
  mc_xml_text : string * xml -> string;          (* xml::writer::EventWriter *)
  mc_disk_ok : path -> bool }.                   (* creating and writing this file does not fail *)

(** *** platform.rs *)

(** [BufRead::lines]: split after each line feed, which is removed together with a carriage return before it; nothing
    after the last line feed is no line.  The output is taken to be text ([l.unwrap()] in platform.rs:26 panics
    otherwise). *)
Fixpoint strip_cr (s : string) : string :=
  match s with
  | "" => ""
  | String c "" => if Ascii.eqb c CR then "" else s
  | String c r => String c (strip_cr r)
  end%string.
Fixpoint line_list (parts : list string) : list string :=
  match parts with
  | [] => []
  | [last] => if String.eqb last "" then [] else [last]
  | l :: r => strip_cr l :: line_list r
  end.
Definition lines (s : string) : list string := line_list (split_char LF s).

(** platform.rs:12-16 *)
Definition rustc_location (m : machine) : string := unwrap_or "rustc" (mc_rustc_var m).
(** platform.rs:19-31 *)
Definition rustc_host_target_triple (m : machine) (rustc : string) : outcome string :=
  do out <- unwrap "Failed to invoke rustc! Is it in your $PATH?" (mc_rustc m rustc);
  unwrap "Failed to parse rustc output to determine the current platform. Please report this bug!"
    (option_map (drop 6) (find (starts_with "host: ") (lines out))).
(** platform.rs:8-10 *)
Definition host_platform (m : machine) : outcome string := rustc_host_target_triple m (rustc_location m).

(** *** main.rs *)

(** main.rs:100-118, [setup_logging]: the level asked for on the command line.  The environment variable RUST_LOG,
    which overrides it, and the logger itself are not modelled. *)
Inductive log_level := LOff | LWarn | LInfo | LDebug | LTrace.
Definition level_filter (o : options) : log_level :=
  if Nat.leb 2 (o_quiet o) then LOff
  else match o_verbose o with 0 => LWarn | 1 => LInfo | 2 => LDebug | _ => LTrace end.

(** main.rs:121-137, [resolve_config]: [resolve_config] of ConfigModel.v, where the host platform is a parameter;
    rustc is asked only if no target is given *)
Definition run_config (m : machine) (o : options) : outcome config :=
  do cli <- as_config (o_args o);
  match cf_target (merge cli (from_env (mc_build_target m))) with
  | Some _ => resolve_config (o_args o) (mc_build_target m) ""
  | None => do h <- host_platform m; resolve_config (o_args o) (mc_build_target m) h
  end.

(** main.rs:139-155, [locate_manifest] *)
Definition locate_manifest (m : machine) (o : options) : outcome path :=
  match o_manifest_path o with
  | Some p => match mc_absolute m p with Some q => Done q | None => Fail "I/O error" end
  | None => match mc_cwd m with Some d => Done (d ++ ["Cargo.toml"]) | None => Fail "I/O error" end
  end.

(** main.rs:157-191, [get_metadata]; [cmd.verbose], which shows cargo's progress, is left out *)
Definition get_metadata (m : machine) (manifest : path) (cfg : config) : outcome cargo_metadata :=
  match mc_cargo m manifest (metadata_features cfg) (metadata_options cfg) with
  | Some meta => Done meta
  | None => Fail "`cargo metadata` exited with an error"
  end.

(** main.rs:69-83, [generate_sboms] *)
Definition generate_sboms (m : machine) (fuel : nat) (o : options) : outcome (list generated) :=
  do cfg <- run_config m o;
  do manifest <- locate_manifest m o;
  do meta <- get_metadata m manifest cfg;
  create_sboms (mc_world m) fuel meta cfg.

(** *** Writing, generator.rs:837-894 and main.rs:91-95 *)

(** generator.rs:879-888: the text of a file *)
Definition file_text (m : machine) (f : output_file) : outcome string :=
  match f_format f with
  | FJson => do j <- output_as_json (f_version f) (f_bom f); Done (mc_json_text m j)
  | FXml => do x <- output_as_xml (mc_floats m) (f_version f) (f_bom f); Done (mc_xml_text m x)
  end.

(** generator.rs:863-871: in a debug build the SBOM is validated, for the default version (models/bom.rs:61-65) *)
Definition valid_or_unchecked (m : machine) (f : output_file) : outcome bool :=
  if mc_debug m then do r <- validate_bom (mc_parsers m) V1_3 (f_bom f); Done (negb (has_errors r))
  else Done true.

(** The files that exist, with their contents *)
Definition disk := path -> option string.
Definition path_eqb (p q : path) : bool := if list_eq_dec string_dec p q then true else false.
(** [File::create], and what is written to the file afterwards *)
Definition put (d : disk) (p : path) (s : string) : disk := fun q => if path_eqb q p then Some s else d q.
Definition append_to (d : disk) (p : path) (s : string) : disk :=
  put d p (match d p with Some t => t ++ s | None => s end)%string.

Inductive result := Succeeded | Failed | Panicked.
(** Where the program may be while it writes: before the next package of main.rs:91-95; before the next file of
    generator.rs:839-858; within generator.rs:878-893, the file being open and [rest] what has not reached it; or
    at its end.  Simplified: a panic of [per_artifact_sboms] or [filename] (there is none for generated SBOMs, C12) is
    put before the first file of the package. *)
Inductive state :=
| Packages (gs : list generated) (d : disk)
| Files (fs : list output_file) (gs : list generated) (d : disk)
| Writing (f : output_file) (rest : outcome string) (fs : list output_file) (gs : list generated) (d : disk)
| Ended (r : result) (d : disk).

(** One step of the program.  [BufWriter] hands the text on in pieces of its own choice. *)
Inductive step (m : machine) : state -> state -> Prop :=
(* main.rs:91-97 *)
| step_exit d : step m (Packages [] d) (Ended Succeeded d)
| step_package g gs d fs : write_plan g = Done fs -> step m (Packages (g :: gs) d) (Files fs gs d)
| step_package_fails g gs d e : write_plan g = Fail e -> step m (Packages (g :: gs) d) (Ended Failed d)
| step_package_panics g gs d e : write_plan g = Panic e -> step m (Packages (g :: gs) d) (Ended Panicked d)
| step_package_done gs d : step m (Files [] gs d) (Packages gs d)
(* generator.rs:863-871 *)
| step_invalid f fs gs d : valid_or_unchecked m f <> Done true -> step m (Files (f :: fs) gs d) (Ended Panicked d)
(* generator.rs:877 *)
| step_create f fs gs d : valid_or_unchecked m f = Done true ->
    step m (Files (f :: fs) gs d) (Writing f (file_text m f) fs gs (put d (f_path f) ""))
| step_create_fails f fs gs d : valid_or_unchecked m f = Done true -> mc_disk_ok m (f_path f) = false ->
    step m (Files (f :: fs) gs d) (Ended Failed d)
(* generator.rs:879-888 *)
| step_output_fails f e fs gs d : step m (Writing f (Fail e) fs gs d) (Ended Failed d)
| step_output_panics f e fs gs d : step m (Writing f (Panic e) fs gs d) (Ended Panicked d)
| step_write f s t fs gs d : s <> ""%string ->
    step m (Writing f (Done (s ++ t)%string) fs gs d) (Writing f (Done t) fs gs (append_to d (f_path f) s))
| step_write_fails f t fs gs d : mc_disk_ok m (f_path f) = false ->
    step m (Writing f (Done t) fs gs d) (Ended Failed d)
(* generator.rs:890-893 *)
| step_close f fs gs d : step m (Writing f (Done "") fs gs d) (Files fs gs d).

Inductive steps (m : machine) : state -> state -> Prop :=
| steps_refl s : steps m s s
| steps_next s t u : steps m s t -> step m t u -> steps m s u.

(** main.rs:85-98, [main], after the command line is parsed and logging set up: all SBOMs are made before the first
    file is written.  Files that cargo writes are not modelled. *)
Inductive starts (m : machine) (o : options) (d : disk) : state -> Prop :=
| starts_writing fuel gs : generate_sboms m fuel o = Done gs -> starts m o d (Packages gs d)
| starts_failing fuel e : generate_sboms m fuel o = Fail e -> starts m o d (Ended Failed d)
| starts_panicking fuel e : generate_sboms m fuel o = Panic e -> starts m o d (Ended Panicked d).

(** [s] is a state of a run of the command with the options [o] on the disk [d] *)
Definition run (m : machine) (o : options) (d : disk) (s : state) : Prop :=
  exists s0, starts m o d s0 /\ steps m s0 s.

Definition disk_of (s : state) : disk :=
  match s with Packages _ d => d | Files _ _ d => d | Writing _ _ _ _ d => d | Ended _ d => d end.

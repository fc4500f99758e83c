(** Why a run makes no SBOM (C78) *)
From Verif Require Import Base Strings ModelTypes ConfigModel GenModel GenSpec RunModel RunSpec OptionSpec.
From Coq Require Import ZArith.
Open Scope string_scope.
Open Scope list_scope.

Inductive reason := BadFileName | NoRustc | NoHost | NoManifest | CargoFails | NoClock | BadEpoch | EpochOutOfRange.

(** How the program ends, and with which message.  The messages of [NoManifest] (of the operating
    system), [CargoFails] (of cargo) and [EpochOutOfRange] (of the library of times) are not ours. *)
Definition ends_with (r : reason) : result :=
  match r with BadFileName | NoManifest | CargoFails | NoClock => Failed | NoRustc | NoHost | BadEpoch | EpochOutOfRange => Panicked end.
Definition message (r : reason) : option string :=
  match r with
  | BadFileName => Some "Illegal characters in custom prefix string: /"
  | NoRustc => Some "Failed to invoke rustc! Is it in your $PATH?"
  | NoHost => Some "Failed to parse rustc output to determine the current platform. Please report this bug!"
  | NoClock => Some "Error creating Metadata"
  | BadEpoch => Some "Invalid reproducible build timestamp"
  | NoManifest | CargoFails | EpochOutOfRange => None
  end.

(** Decimal numbers as [i64::from_str_radix] reads them: a sign or none, digits, within 64 bits *)
Inductive digits_of : string -> Z -> Prop :=
| digit_last d : (d < 10)%nat -> digits_of (String (ascii_of_nat (48 + d)) "") (Z.of_nat d)
| digit_more s z d : digits_of s z -> (d < 10)%nat -> digits_of (s ++ String (ascii_of_nat (48 + d)) "")%string (10 * z + Z.of_nat d).
Definition number_read (s : string) (z : Z) : Prop :=
  (- 2 ^ 63 <= z < 2 ^ 63)%Z
  /\ (digits_of s z \/ (exists d, s = String "+" d /\ digits_of d z) \/ exists d, s = String "-" d /\ digits_of d (- z)).

(** The manifest the options name *)
Definition manifest_named (m : machine) (o : options) (p : path) : Prop :=
  match o_manifest_path o with
  | Some s => mc_absolute m s = Some p
  | None => exists cwd, mc_cwd m = Some cwd /\ p = cwd ++ ["Cargo.toml"]
  end.
Definition name_with_directory (o : options) : Prop :=
  exists n a b, a_filename_override (o_args o) = Some n /\ n = (a ++ String "/" b)%string.
(** The answer of cargo for these options ([None]: it fails) *)
Definition cargo_says (m : machine) (o : options) (answer : option cargo_metadata) : Prop :=
  exists cfg p, run_config m o = Done cfg /\ manifest_named m o p
    /\ mc_cargo m p (metadata_features cfg) (metadata_options cfg) = answer.
(** Cargo describes a workspace with a package in it *)
Definition something_to_do (m : machine) (o : options) : Prop :=
  exists meta, cargo_says m o (Some meta) /\ cm_members meta <> [].

Inductive stops (m : machine) (o : options) : reason -> Prop :=
| stop_name : name_with_directory o -> stops m o BadFileName
| stop_rustc : ~ name_with_directory o -> mc_build_target m = None -> a_target (o_args o) = None ->
    mc_rustc m match mc_rustc_var m with Some p => p | None => "rustc" end = None -> stops m o NoRustc
| stop_host out : ~ name_with_directory o -> mc_build_target m = None -> a_target (o_args o) = None ->
    mc_rustc m match mc_rustc_var m with Some p => p | None => "rustc" end = Some out -> (forall t, ~ host_named out t) -> stops m o NoHost
| stop_manifest t : ~ name_with_directory o -> target_text m o t -> (forall p, ~ manifest_named m o p) -> stops m o NoManifest
| stop_cargo : cargo_says m o None -> stops m o CargoFails
| stop_clock : something_to_do m o -> w_now (mc_world m) = None -> stops m o NoClock
| stop_epoch e : something_to_do m o -> w_now (mc_world m) <> None -> w_epoch (mc_world m) = Some e -> (forall z, ~ number_read e z) ->
    stops m o BadEpoch
| stop_range e z : something_to_do m o -> w_now (mc_world m) <> None -> w_epoch (mc_world m) = Some e -> number_read e z ->
    w_format_time (mc_world m) z = None -> stops m o EpochOutOfRange.

(** What cargo answers is the description of a workspace as cargo makes it *)
Definition cargo_is_cargo (m : machine) : Prop :=
  forall p fs os meta, mc_cargo m p fs os = Some meta -> exists nodes, well_formed meta nodes.

(** The outcome of a program that ends in this way with this message *)
Definition stopped {A} (r : result) (t : string) : outcome A := match r with Failed => Fail t | _ => Panic t end.

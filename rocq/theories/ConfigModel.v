(** cargo-cyclonedx configuration: config.rs, cli.rs, main.rs (resolve_config),
    format.rs. *)
From Verif Require Import Base Strings ModelTypes.
Open Scope string_scope.

(** format.rs:23-34; default is [Xml] *)
Inductive format := FJson | FXml.
(** format.rs:36-43, [Display] *)
Definition format_str (f : format) : string := match f with FJson => "json" | FXml => "xml" end.
(** format.rs:45-55, [FromStr] *)
Definition format_of_str (s : string) : option format :=
  if String.eqb s "xml" then Some FXml else if String.eqb s "json" then Some FJson else None.

(** config.rs:99-104; default is [AllDependencies] *)
Inductive included := TopLevelDependencies | AllDependencies.
(** config.rs:106-116 *)
Definition included_of_str (s : string) : option included :=
  if String.eqb s "all" then Some AllDependencies
  else if String.eqb s "top-level" then Some TopLevelDependencies else None.
(** config.rs:213-218; default is [NotIncluded] *)
Inductive platform_suffix := Included | NotIncluded.
(** config.rs:147-157; default is [CrateName] *)
Inductive filename_pattern := CrateName | Custom (name : string).
(** config.rs:118-122 *)
Record output_options := mkOut { oo_filename : filename_pattern; oo_suffix : platform_suffix }.
(** config.rs:124-129 *)
Record features := mkFeatures { ft_all : bool; ft_no_default : bool; ft_features : list string }.
(** config.rs:131-136 *)
Inductive target := AllTargets | SingleTarget (t : string).
(** config.rs:138-145 *)
Definition target_str (t : target) : string := match t with AllTargets => "all" | SingleTarget s => s end.
(** config.rs:243-251; default is [Lax] *)
Inductive parse_mode := Strict | Lax.
(** config.rs:220-229; the [HashSet] is a list, its order is unspecified *)
Record license_parser := mkLP { lp_mode : parse_mode; lp_accept : list string }.
(** config.rs:254-263; default is [Crate] *)
Inductive describe := DCrate | DBinaries | DAllCargoTargets.

(** config.rs:26-37 *)
Record config := mkConfig {
  cf_format : option format;
  cf_included : option included;
  cf_output : option output_options;
  cf_features : option features;
  cf_target : option target;
  cf_license : option license_parser;
  cf_describe : option describe;
  cf_spec : option spec_version;
  cf_only_normal : option bool }.

(** config.rs:40-42 *)
Definition empty_config : config := mkConfig None None None None None None None None None.

(** [Option::or] / [Option::or_else] *)
Definition orelse {A} (a b : option A) : option A := match a with Some _ => a | None => b end.
(** [Option::unwrap_or] *)
Definition unwrap_or {A} (d : A) (o : option A) : A := match o with Some a => a | None => d end.

(** config.rs:231-241, [LicenseParserOptions::merge] *)
Definition lp_default : license_parser := mkLP Lax [].
Definition lp_merge (self other : license_parser) : license_parser :=
  mkLP (lp_mode other) (lp_accept self ++ lp_accept other).

(** config.rs:44-64, [SbomConfig::merge] *)
Definition merge (self other : config) : config := {|
  cf_format := orelse (cf_format other) (cf_format self);
  cf_included := orelse (cf_included other) (cf_included self);
  cf_output := orelse (cf_output other) (cf_output self);
  cf_features := orelse (cf_features other) (cf_features self);
  cf_target := orelse (cf_target other) (cf_target self);
  cf_license := orelse (option_map (lp_merge (unwrap_or lp_default (cf_license self))) (cf_license other))
                       (cf_license self);
  cf_describe := orelse (cf_describe other) (cf_describe self);
  cf_spec := orelse (cf_spec other) (cf_spec self);
  cf_only_normal := orelse (cf_only_normal other) (cf_only_normal self) |}.

(** config.rs:66-80, [from_env]; the argument is the value of [CARGO_BUILD_TARGET] *)
Definition from_env (build_target : option string) : config :=
  match build_target with
  | Some t => mkConfig None None None None (Some (SingleTarget t)) None None None None
  | None => empty_config
  end.

(** config.rs:82-96 *)
Definition format_of (c : config) : format := unwrap_or FXml (cf_format c).
Definition included_of (c : config) : included := unwrap_or AllDependencies (cf_included c).
Definition output_of (c : config) : output_options := unwrap_or (mkOut CrateName NotIncluded) (cf_output c).
Definition describe_of (c : config) : describe := unwrap_or DCrate (cf_describe c).

(** config.rs:187-212, [FilenameOverride::new] on a platform whose separator is "/" *)
Definition filename_override (s : string) : outcome string :=
  if contains_char "/" s then Fail "Illegal characters in custom prefix string: /" else Done s.

(** cli.rs:32-111, the options the configuration depends on (manifest path,
    verbosity and quietness are left out) *)
Record args := mkArgs {
  a_format : option format; a_describe : option describe; a_all_features : bool;
  a_no_default_features : bool; a_features : list string; a_target : option string;
  a_target_in_filename : bool; a_all : bool; a_top_level : bool;
  a_filename_override : option string; a_license_strict : bool;
  a_license_accept_named : list string; a_spec_version : option spec_version;
  a_no_build_deps : bool }.

(** cli.rs:125-137: the three nested loops over the feature arguments *)
Definition is_nonempty (s : string) : bool := negb (String.eqb s "").
Definition feature_list (l : list string) : list string :=
  flat_map (fun arg => flat_map (fun part => filter is_nonempty (split_char " " part)) (split_char "," arg)) l.

(** cli.rs:113-197, [Args::as_config] *)
Definition as_config (a : args) : outcome config :=
  let included :=
    match a_all a, a_top_level a with
    | true, _ => Some AllDependencies
    | _, true => Some TopLevelDependencies
    | _, _ => None
    end in
  let feats :=
    if negb (a_all_features a) && negb (a_no_default_features a) && (match a_features a with [] => true | _ => false end)
    then None
    else Some (mkFeatures (a_all_features a) (a_no_default_features a) (feature_list (a_features a))) in
  let tgt := option_map (fun s => if String.eqb s "all" then AllTargets else SingleTarget s) (a_target a) in
  let suffix := if a_target_in_filename a then Included else NotIncluded in
  do pattern <- match a_filename_override a with
                | Some s => do n <- filename_override s; Done (Custom n)
                | None => Done CrateName
                end;
  Done {| cf_format := a_format a;
          cf_included := included;
          cf_output := Some (mkOut pattern suffix);
          cf_features := feats;
          cf_target := tgt;
          cf_license := Some (mkLP (if a_license_strict a then Strict else Lax) (a_license_accept_named a));
          cf_describe := a_describe a;
          cf_spec := a_spec_version a;
          cf_only_normal := Some (a_no_build_deps a) |}.

(** main.rs:120-137, [resolve_config]; [host] is [platform::host_platform()] *)
Definition resolve_config (a : args) (build_target : option string) (host : string) : outcome config :=
  do cli <- as_config a;
  let merged := merge cli (from_env build_target) in
  Done (match cf_target merged with
        | Some _ => merged
        | None => {| cf_format := cf_format merged; cf_included := cf_included merged;
                     cf_output := cf_output merged; cf_features := cf_features merged;
                     cf_target := Some (SingleTarget host);
                     cf_license := cf_license merged; cf_describe := cf_describe merged;
                     cf_spec := cf_spec merged; cf_only_normal := cf_only_normal merged |}
        end).

(** main.rs:157-191, [get_metadata]: the feature options and extra arguments
    handed to [cargo metadata] ([CargoOpt] values in call order; [MetadataCommand]
    itself is external). *)
Inductive cargo_opt := OptAllFeatures | OptNoDefaultFeatures | OptSomeFeatures (l : list string).
Definition metadata_features (c : config) : list cargo_opt :=
  match cf_features c with
  | None => []
  | Some f =>
      (if ft_all f then [OptAllFeatures] else [])
      ++ (if ft_no_default f then [OptNoDefaultFeatures] else [])
      ++ (match ft_features f with [] => [] | l => [OptSomeFeatures l] end)
  end%list.
Definition metadata_options (c : config) : list string :=
  match cf_target c with
  | Some (SingleTarget t) => ["--filter-platform"; t]
  | _ => []
  end.

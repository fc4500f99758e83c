(** The command line: the options declared in cli.rs, read as clap reads them.
    clap itself is not in the repository; its part (how options are spelled, what a value may look like, which options may be
    given more than once) is modelled after its documentation, version 4, without the settings that cli.rs does not use.  All
    errors are alike, and so are the requests for help or the version: there is no run ([None]).  Arguments are taken to be
    text. *)
From Verif Require Import Base Strings ModelTypes ConfigModel GenModel JsonModel RunModel.
Open Scope string_scope.
Open Scope list_scope.

(** cli.rs:32-111: the fields of [Args] *)
Inductive opt :=
| OManifestPath | OFormat | ODescribe | OVerbose | OQuiet | OAllFeatures | ONoDefaultFeatures | OFeatures | OTarget
| OTargetInFilename | OAll | OTopLevel | OOverrideFilename | OLicenseStrict | OLicenseAcceptNamed | OSpecVersion | ONoBuildDeps.
Definition opts : list opt :=
  [OManifestPath; OFormat; ODescribe; OVerbose; OQuiet; OAllFeatures; ONoDefaultFeatures; OFeatures; OTarget; OTargetInFilename;
   OAll; OTopLevel; OOverrideFilename; OLicenseStrict; OLicenseAcceptNamed; OSpecVersion; ONoBuildDeps].
Definition opt_eq_dec (a b : opt) : {a = b} + {a <> b}.
Proof. decide equality. Defined.
(** cli.rs:32-111: [long] *)
Definition long_of (o : opt) : string :=
  match o with
  | OManifestPath => "manifest-path" | OFormat => "format" | ODescribe => "describe" | OVerbose => "verbose" | OQuiet => "quiet"
  | OAllFeatures => "all-features" | ONoDefaultFeatures => "no-default-features" | OFeatures => "features" | OTarget => "target"
  | OTargetInFilename => "target-in-filename" | OAll => "all" | OTopLevel => "top-level" | OOverrideFilename => "override-filename"
  | OLicenseStrict => "license-strict" | OLicenseAcceptNamed => "license-accept-named" | OSpecVersion => "spec-version"
  | ONoBuildDeps => "no-build-deps"
  end.
(** cli.rs:38, 46, 50, 64, 81: [short] *)
Definition short_of (o : opt) : option ascii :=
  match o with
  | OFormat => Some "f"%char | OVerbose => Some "v"%char | OQuiet => Some "q"%char | OFeatures => Some "F"%char | OAll => Some "a"%char
  | _ => None
  end.
(** cli.rs:32-111: the types of the fields.  A [bool] and a counter take no value. *)
Definition takes_value (o : opt) : bool :=
  match o with
  | OManifestPath | OFormat | ODescribe | OFeatures | OTarget | OOverrideFilename | OLicenseAcceptNamed | OSpecVersion => true
  | _ => false
  end.
Definition find_long (n : string) : option opt := find (fun o => String.eqb (long_of o) n) opts.
Definition find_short (c : ascii) : option opt :=
  find (fun o => match short_of o with Some d => Ascii.eqb d c | None => false end) opts.

(** clap: an argument that is not a dash followed by something may be the value of the option before it *)
Definition is_value (s : string) : bool := negb (starts_with "-" s) || String.eqb s "-".
(** clap: short options in one argument; the rest after an option with a value is its value, without an equals sign in
    front; [Some o] as second part: the value of [o] is in the next argument *)
Fixpoint cluster (s : string) : option (list (opt * string) * option opt) :=
  match s with
  | "" => Some ([], None)
  | String c r =>
      match find_short c with
      | None => None
      | Some o =>
          if takes_value o then
            match r with
            | "" => Some ([], Some o)
            | String "=" v => Some ([(o, v)], None)
            | _ => Some ([(o, r)], None)
            end
          else match cluster r with Some (l, p) => Some ((o, "") :: l, p) | None => None end
      end
  end%string.
(** clap: the options in the order they are given, with their values; "" for those without *)
Fixpoint lex (l : list string) : option (list (opt * string)) :=
  match l with
  | [] => Some []
  | a :: rest =>
      let value o before :=
        match rest with
        | v :: rest' => if is_value v then option_map (fun s => before ++ (o, v) :: s) (lex rest') else None
        | [] => None
        end in
      if String.eqb a "--" then match rest with [] => Some [] | _ => None end
      else if starts_with "--" a then
        let '(name, attached) := match split_once "=" (drop 2 a) with Some (n, v) => (n, Some v) | None => (drop 2 a, None) end in
        match find_long name with
        | None => None
        | Some o =>
            if takes_value o then
              match attached with
              | Some v => option_map (cons (o, v)) (lex rest)
              | None => value o []
              end
            else match attached with None => option_map (cons (o, "")) (lex rest) | Some _ => None end
        end
      else if starts_with "-" a && negb (String.eqb a "-") then
        match cluster (drop 1 a) with
        | Some (flags, Some o) => value o flags
        | Some (flags, None) => option_map (app flags) (lex rest)
        | None => None
        end
      else None
  end.

(** config.rs:254-263, the names clap's [ValueEnum] derives *)
Definition describe_of_str (s : string) : option describe :=
  if String.eqb s "crate" then Some DCrate
  else if String.eqb s "binaries" then Some DBinaries
  else if String.eqb s "all-cargo-targets" then Some DAllCargoTargets
  else None.
(** clap: the parser of paths refuses the empty one *)
Definition path_of_str (s : string) : option string := if String.eqb s "" then None else Some s.

(** The values given for an option *)
Definition values (o : opt) (l : list (opt * string)) : list string :=
  map snd (filter (fun e => if opt_eq_dec (fst e) o then true else false) l).
(** clap: options and flags may be given once, unless their values are collected or counted *)
Definition single (o : opt) (l : list (opt * string)) : option (option string) :=
  match values o l with [] => Some None | [v] => Some (Some v) | _ => None end.
Definition parsed {A} (f : string -> option A) (x : option string) : option (option A) :=
  match x with None => Some None | Some s => option_map Some (f s) end.
Definition flag (o : opt) (l : list (opt * string)) : option bool :=
  match values o l with [] => Some false | [_] => Some true | _ => None end.
(** clap: counters stop at the greatest [u8] *)
Definition count (o : opt) (l : list (opt * string)) : nat := Nat.min 255 (List.length (values o l)).
Notation "'let!' x := m 'in' k" := (match m with Some x => k | None => None end) (at level 200, x name, m at level 100, k at level 200).
(** cli.rs:24-111, the derived parser: values and conflicts (84, 92 and the group of 26) *)
Definition build (l : list (opt * string)) : option options :=
  let! manifest := single OManifestPath l in let! manifest := parsed path_of_str manifest in
  let! format := single OFormat l in let! format := parsed format_of_str format in
  let! describe := single ODescribe l in let! describe := parsed describe_of_str describe in
  let! all_features := flag OAllFeatures l in
  let! no_default := flag ONoDefaultFeatures l in
  let! target := single OTarget l in
  let! in_filename := flag OTargetInFilename l in
  let! all := flag OAll l in
  let! top_level := flag OTopLevel l in
  let! override := single OOverrideFilename l in
  let! strict := flag OLicenseStrict l in
  let! version := single OSpecVersion l in let! version := parsed version_of_text version in
  let! no_build := flag ONoBuildDeps l in
  if (all && top_level) || (match override, describe with Some _, Some _ => true | _, _ => false end) then None
  else Some (mkOptions
    {| a_format := format; a_describe := describe; a_all_features := all_features; a_no_default_features := no_default;
       a_features := values OFeatures l; a_target := target; a_target_in_filename := in_filename; a_all := all;
       a_top_level := top_level; a_filename_override := override; a_license_strict := strict;
       a_license_accept_named := values OLicenseAcceptNamed l; a_spec_version := version; a_no_build_deps := no_build |}
    manifest (count OVerbose l) (count OQuiet l)).
(** main.rs:86 and cli.rs:16-22: cargo starts the program with the name of the subcommand as the first argument *)
Definition command_line (argv : list string) : option options :=
  match argv with
  | _ :: sub :: rest => if String.eqb sub "cyclonedx" then let! l := lex rest in build l else None
  | _ => None
  end.

(** What a command line asks for, said without the parser: which options there are, how each may be written, and what the
    options written mean together. *)
From Verif Require Import Base Strings ModelTypes ConfigModel GenModel RunModel CliModel.
Open Scope string_scope.
Open Scope list_scope.

(** The options: the long name, the short one, and whether there is a value *)
Definition table : list (opt * string * option ascii * bool) :=
  [(OManifestPath, "manifest-path", None, true);
   (OFormat, "format", Some "f"%char, true);
   (ODescribe, "describe", None, true);
   (OVerbose, "verbose", Some "v"%char, false);
   (OQuiet, "quiet", Some "q"%char, false);
   (OAllFeatures, "all-features", None, false);
   (ONoDefaultFeatures, "no-default-features", None, false);
   (OFeatures, "features", Some "F"%char, true);
   (OTarget, "target", None, true);
   (OTargetInFilename, "target-in-filename", None, false);
   (OAll, "all", Some "a"%char, false);
   (OTopLevel, "top-level", None, false);
   (OOverrideFilename, "override-filename", None, true);
   (OLicenseStrict, "license-strict", None, false);
   (OLicenseAcceptNamed, "license-accept-named", None, true);
   (OSpecVersion, "spec-version", None, true);
   (ONoBuildDeps, "no-build-deps", None, false)].
Definition long_flag (o : opt) (n : string) : Prop := exists c, In (o, n, c, false) table.
Definition long_valued (o : opt) (n : string) : Prop := exists c, In (o, n, c, true) table.
Definition short_flag (o : opt) (c : ascii) : Prop := exists n, In (o, n, Some c, false) table.
Definition short_valued (o : opt) (c : ascii) : Prop := exists n, In (o, n, Some c, true) table.

(** An argument that can stand as the value of the option before it: it has no dash in front, or is just a dash *)
Definition plain (v : string) : Prop := v = "-" \/ forall r, v <> ("-" ++ r)%string.
(** Some short options without values, their letters in one word *)
Inductive letters : list opt -> string -> Prop :=
| letters_nil : letters [] ""
| letters_cons o c l w : short_flag o c -> letters l w -> letters (o :: l) (String c w).
Definition bare (l : list opt) : list (opt * string) := map (fun o => (o, "")) l.
(** [written args s]: the arguments [args] spell out the options [s], in that order *)
Inductive written : list string -> list (opt * string) -> Prop :=
| w_nil : written [] []
| w_end : written ["--"] []
| w_flag o n rest s :                         (* --quiet *)
    long_flag o n -> written rest s -> written (("--" ++ n)%string :: rest) ((o, "") :: s)
| w_equals o n v rest s :                     (* --format=json *)
    long_valued o n -> written rest s -> written (("--" ++ n ++ "=" ++ v)%string :: rest) ((o, v) :: s)
| w_next o n v rest s :                       (* --format json *)
    long_valued o n -> plain v -> written rest s -> written (("--" ++ n)%string :: v :: rest) ((o, v) :: s)
| w_letters l w rest s :                      (* -vva *)
    l <> [] -> letters l w -> written rest s -> written (("-" ++ w)%string :: rest) (bare l ++ s)
| w_attached l w o c v rest s :               (* -vfjson *)
    letters l w -> short_valued o c -> v <> "" -> (forall r, v <> ("=" ++ r)%string) -> written rest s ->
    written (("-" ++ w ++ String c v)%string :: rest) (bare l ++ (o, v) :: s)
| w_attached_equals l w o c v rest s :        (* -vf=json *)
    letters l w -> short_valued o c -> written rest s ->
    written (("-" ++ w ++ String c ("=" ++ v))%string :: rest) (bare l ++ (o, v) :: s)
| w_short_next l w o c v rest s :             (* -vf json *)
    letters l w -> short_valued o c -> plain v -> written rest s ->
    written (("-" ++ w ++ String c "")%string :: v :: rest) (bare l ++ (o, v) :: s).

(** All the values given for one option, in order *)
Inductive given (o : opt) : list (opt * string) -> list string -> Prop :=
| given_nil : given o [] []
| given_this v s l : given o s l -> given o ((o, v) :: s) (v :: l)
| given_other o' v s l : o' <> o -> given o s l -> given o ((o', v) :: s) l.
(** An option that may be given once *)
Definition at_most_once (o : opt) (s : list (opt * string)) (x : option string) : Prop :=
  match x with None => given o s [] | Some v => given o s [v] end.
Definition switched (o : opt) (s : list (opt * string)) (b : bool) : Prop :=
  if b then exists v, given o s [v] else given o s [].
(** ... whose value stands for something *)
Definition chosen {A} (o : opt) (stands_for : string -> A -> Prop) (s : list (opt * string)) (x : option A) : Prop :=
  match x with None => given o s [] | Some a => exists v, given o s [v] /\ stands_for v a end.
Definition counted (o : opt) (s : list (opt * string)) (n : nat) : Prop :=
  exists l, given o s l /\ (List.length l <= 255 -> n = List.length l) /\ (255 < List.length l -> n = 255).
Definition format_word (v : string) (f : format) : Prop := (v = "xml" /\ f = FXml) \/ (v = "json" /\ f = FJson).
Definition describe_word (v : string) (d : describe) : Prop :=
  (v = "crate" /\ d = DCrate) \/ (v = "binaries" /\ d = DBinaries) \/ (v = "all-cargo-targets" /\ d = DAllCargoTargets).
Definition version_word (v : string) (x : spec_version) : Prop :=
  (v = "1.3" /\ x = V1_3) \/ (v = "1.4" /\ x = V1_4) \/ (v = "1.5" /\ x = V1_5).
Definition path_word (v : string) (p : string) : Prop := v <> "" /\ p = v.

(** The options written ask for [r] *)
Record asks (s : list (opt * string)) (r : options) : Prop := {
  as_manifest : chosen OManifestPath path_word s (o_manifest_path r);
  as_format : chosen OFormat format_word s (a_format (o_args r));
  as_describe : chosen ODescribe describe_word s (a_describe (o_args r));
  as_verbose : counted OVerbose s (o_verbose r);
  as_quiet : counted OQuiet s (o_quiet r);
  as_all_features : switched OAllFeatures s (a_all_features (o_args r));
  as_no_default : switched ONoDefaultFeatures s (a_no_default_features (o_args r));
  as_features : given OFeatures s (a_features (o_args r));
  as_target : at_most_once OTarget s (a_target (o_args r));
  as_in_filename : switched OTargetInFilename s (a_target_in_filename (o_args r));
  as_all : switched OAll s (a_all (o_args r));
  as_top_level : switched OTopLevel s (a_top_level (o_args r));
  as_override : at_most_once OOverrideFilename s (a_filename_override (o_args r));
  as_strict : switched OLicenseStrict s (a_license_strict (o_args r));
  as_accept_named : given OLicenseAcceptNamed s (a_license_accept_named (o_args r));
  as_version : chosen OSpecVersion version_word s (a_spec_version (o_args r));
  as_no_build : switched ONoBuildDeps s (a_no_build_deps (o_args r));
  as_all_or_top : a_all (o_args r) = false \/ a_top_level (o_args r) = false;
  as_override_or_describe : a_filename_override (o_args r) = None \/ a_describe (o_args r) = None }.
(** A whole command line: the program, the name of the subcommand, the options *)
Definition asked (argv : list string) (r : options) : Prop :=
  exists program rest s, argv = program :: "cyclonedx" :: rest /\ written rest s /\ asks s r.

(** What is said about whole invocations (C82) *)
From Verif Require Import Base Strings ModelTypes ConfigModel GenModel GenSpec RunModel RunSpec OptionSpec.
Open Scope string_scope.
Open Scope list_scope.

(** The workspace of a run, as cargo describes it *)
Definition workspace (m : machine) (o : options) (meta : cargo_metadata) : Prop :=
  exists cfg manifest, run_config m o = Done cfg /\ locate_manifest m o = Done manifest
    /\ mc_cargo m manifest (metadata_features cfg) (metadata_options cfg) = Some meta.
(** What the name of a file starts with: the name chosen by the user, that of the package, or that of an artifact *)
Definition stem_of (a : args) (p : package) (stem : string) : Prop :=
  match a_describe a with
  | None | Some DCrate => stem = match a_filename_override a with Some n => n | None => pk_name p end
  | Some d => exists t, In t (pk_targets p) /\ described_target t /\ wants_artifact d t
                /\ stem = (normalize (tg_name t) ++ "_" ++ join "-" (tg_kind t))%string
  end.
(** [q] is the path of an SBOM of a package of the workspace: beside the manifest of the package *)
Definition sbom_path (m : machine) (o : options) (q : path) : Prop :=
  exists target meta p stem, target_text m o target /\ workspace m o meta /\ In p (cm_packages meta) /\ In (pk_id p) (cm_members meta)
    /\ stem_of (o_args o) p stem /\ q = removelast (pk_manifest p) ++ [file_named (o_args o) target stem].
(** Options that differ in how much is reported *)
Definition same_but_loudness (o o' : options) : Prop := o_args o = o_args o' /\ o_manifest_path o = o_manifest_path o'.

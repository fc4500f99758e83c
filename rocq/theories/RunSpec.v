(** What is said about runs of the command (C69, C70) *)
From Verif Require Import Base Strings ModelTypes ConfigModel GenModel GenSpec RunModel.
From Coq Require Import Permutation.
Open Scope string_scope.
Open Scope list_scope.

(** The SBOMs a run makes, and the files it means to write, in order *)
Definition made (m : machine) (o : options) (gs : list generated) : Prop :=
  exists fuel, generate_sboms m fuel o = Done gs.
Definition announced (gs : list generated) : list output_file :=
  flat_map (fun g => match write_plan g with Done fs => fs | _ => [] end) gs.
(** Nothing is made: the run ends before it writes *)
Definition nothing_made (m : machine) (o : options) : Prop :=
  exists fuel, forall gs, generate_sboms m fuel o <> Done gs /\ generate_sboms m fuel o <> OutOfFuel.

(** [c] is the beginning of the text of [f] *)
Definition begun (m : machine) (f : output_file) (c : string) : Prop :=
  c = "" \/ exists t, file_text m f = Done (c ++ t)%string.

(** [d'] is [d] after [files] have been written completely: a file has its text (the last one, if there are several
    of this name), and nothing else has changed *)
Definition finished (m : machine) (d : disk) (files : list output_file) (d' : disk) : Prop :=
  (forall before f after, files = before ++ f :: after -> (forall f', In f' after -> f_path f' <> f_path f) ->
     exists t, file_text m f = Done t /\ d' (f_path f) = Some t)
  /\ (forall q, (forall f, In f files -> f_path f <> q) -> d' q = d q).

(** Packages are in directories of their own *)
Definition directories_differ (meta : cargo_metadata) : Prop :=
  forall p q, In p (cm_packages meta) -> In q (cm_packages meta) -> In (pk_id p) (cm_members meta) -> In (pk_id q) (cm_members meta) ->
    removelast (pk_manifest p) = removelast (pk_manifest q) -> pk_id p = pk_id q.

(** The same machine at another time: another clock, other random numbers *)
Definition at_another_time (m : machine) (now uuid : string) : machine :=
  mkMachine (with_clock_and_uuid (mc_world m) now uuid) (mc_rustc_var m) (mc_rustc m) (mc_build_target m) (mc_absolute m)
    (mc_cwd m) (mc_cargo m) (mc_debug m) (mc_parsers m) (mc_floats m) (mc_json_text m) (mc_xml_text m) (mc_disk_ok m).

(** The output of [rustc -vV] names the host [t]: this is the rest of the first line that begins with "host: " *)
Definition host_named (out t : string) : Prop :=
  exists before ending, out = (before ++ "host: " ++ t ++ ending)%string
    /\ (before = "" \/ exists b, before = b ++ String LF "")%string
    /\ starts_with "host: " before = false /\ contains_str (String LF "host: ") before = false
    /\ contains_char LF t = false
    /\ (ending = "" \/ (exists after, ending = String LF after /\ forall u, t <> (u ++ String CR "")%string)
        \/ exists after, ending = String CR (String LF after))%string.

(** The same machine with another cargo, whose answers list the same things in another order: packages and nodes
    ([reorders]), and also the members of the workspace ([reorders_members]) *)
Definition with_cargo (m : machine) (c : path -> list cargo_opt -> list string -> option cargo_metadata) : machine :=
  mkMachine (mc_world m) (mc_rustc_var m) (mc_rustc m) (mc_build_target m) (mc_absolute m)
    (mc_cwd m) c (mc_debug m) (mc_parsers m) (mc_floats m) (mc_json_text m) (mc_xml_text m) (mc_disk_ok m).
Definition same_lists (a b : cargo_metadata) : Prop :=
  Permutation (cm_packages a) (cm_packages b) /\ cm_workspace_root a = cm_workspace_root b
  /\ exists n n', cm_resolve a = Some n /\ cm_resolve b = Some n' /\ Permutation n n'
     /\ NoDup (map pk_id (cm_packages a)) /\ NoDup (map n_id n).
Definition reorders (a b : option cargo_metadata) : Prop :=
  match a, b with
  | Some x, Some y => same_lists x y /\ cm_members x = cm_members y
  | None, None => True
  | _, _ => False
  end.
Definition reorders_members (a b : option cargo_metadata) : Prop :=
  match a, b with
  | Some x, Some y => same_lists x y /\ Permutation (cm_members x) (cm_members y)
  | None, None => True
  | _, _ => False
  end.

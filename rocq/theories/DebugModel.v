(** The assertions of [get_purl] in a debug build.  A generation makes the same calls of [get_purl] as GenModel.v; here each
    of them is checked.  Simplified: the checks come after the SBOM of the member is made instead of during it, and a
    failing check of one member before the SBOM of the next.  The assertion of generator.rs:970 is about an argument that
    [write_to_files] gives only for artifacts; the validation of generator.rs:863 is in RunModel.v. *)
From Verif Require Import Base Strings ModelTypes ConfigModel GenModel.
Open Scope string_scope.
Open Scope list_scope.

(** purl.rs:42, within 34-43 *)
Definition root_inside (p root : package) (ws : path) : bool :=
  match pk_source p with
  | Some _ => true
  | None =>
      match parent (pk_manifest p), parent (pk_manifest root) with
      | Some dir, Some rdir => if path_starts_with dir ws then path_starts_with rdir ws else true
      | _, _ => true
      end
  end.
(** purl.rs:8-65 with 42, 61-63 and 123-125; [purl_ok] is whether packageurl reads the text (external_models/uri.rs:27-32) *)
Definition debug_purl (w : world) (purl_ok : string -> bool) (p root : package) (ws : path) (sub : option path) : outcome (option string) :=
  if root_inside p root ws then
    do u <- get_purl w p root ws sub;
    match u with
    | Some t => if purl_ok t then Done u else Panic "assertion failed: validate_purl(purl).is_ok()"
    | None => Done u
    end
  else Panic "assertion failed: root_package_dir.starts_with(workspace_root)".
(** generator.rs:272-334: the calls for the targets *)
Definition debug_target (w : world) (purl_ok : string -> bool) (ws : path) (p : package) (t : cargo_target) : outcome (option string) :=
  match target_class t with
  | None => Done None
  | Some _ =>
      match parent (pk_manifest p) with
      | Some dir =>
          match path_strip_prefix dir (tg_src t) with
          | Some rel => debug_purl w purl_ok p p ws (Some rel)
          | None => Done None
          end
      | None => Done None
      end
  end.
(** generator.rs:130-176 for one workspace member *)
Definition debug_sbom (w : world) (purl_ok : string -> bool) (fuel : nat) (cfg : config) (ws : path) (packages : @bmap package)
    (resolve : @bmap node) (member : string) : outcome generated :=
  do g <- create_sbom w fuel cfg ws packages resolve member;
  do sel <- match included_of cfg with
            | AllDependencies => all_dependencies fuel member packages resolve cfg
            | TopLevelDependencies => top_level_dependencies member packages resolve cfg
            end;
  do rp <- unwrap "no entry found for key" (bm_get member (fst sel));
  do _ <- mapM (fun p => debug_purl w purl_ok p rp ws None) (map snd (fst sel));
  do _ <- mapM (debug_target w purl_ok ws rp) (filter_targets (pk_targets rp));
  Done g.
(** generator.rs:120-179 *)
Definition debug_sboms (w : world) (purl_ok : string -> bool) (fuel : nat) (meta : cargo_metadata) (cfg : config) : outcome (list generated) :=
  let packages := index_packages (cm_packages meta) in
  do nodes <- unwrap "called Option::unwrap() on a None value" (cm_resolve meta);
  let resolve := index_resolve nodes in
  mapM (debug_sbom w purl_ok fuel cfg (cm_workspace_root meta) packages resolve) (cm_members meta).

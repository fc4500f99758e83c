(** The messages the generator logs while it makes an SBOM, at the levels "warn" and "info".  Each function here has the
    branches of the function of GenModel.v of which it gives the messages; a message is its kind and the texts in it
    that come from the package (the error texts of libraries are left out).  Left out: the levels "debug" and "trace", and
    the messages of a generation that fails. *)
From Verif Require Import Base Strings ModelTypes ConfigModel GenModel.
Open Scope string_scope.
Open Scope list_scope.

Inductive level := Warn | Info.
Inductive message :=
| LockNotFound | LockUnreadable                                    (* generator.rs:148-156 *)
| InvalidPurl (package : string)                                   (* generator.rs:228 *)
| OddTarget (target : string) (kinds : list string)                (* generator.rs:284-288 *)
| SourceOutside (src workspace : path)                             (* generator.rs:326-330 *)
| InvalidUri (package : string) (field : ext_ref_type) (text : string)   (* generator.rs:364-409 *)
| InvalidLicense (package text : string)                           (* generator.rs:450-456 *)
| LicenseFileUnreadable (package file : string)                    (* generator.rs:476-481 *)
| InvalidAuthor (author : string)                                  (* generator.rs:575 *)
| UnknownSourceKind (kind : string) | SourceWithoutKind.           (* purl.rs:28-31 *)
Definition event : Type := level * message.

(** purl.rs:17-32 *)
Definition source_log (p : package) : list event :=
  match pk_source p with
  | Some s =>
      if is_crates_io s then []
      else match split_once "+" s with
           | Some (kind, url) =>
               if String.eqb kind "git" then []
               else if String.eqb kind "registry" || String.eqb kind "sparse" then []
               else [(Warn, UnknownSourceKind kind)]
           | None => [(Warn, SourceWithoutKind)]
           end
  | None => []
  end.

(** generator.rs:355-412 *)
Definition link_log (w : world) (p : package) (t : ext_ref_type) (o : option string) : list event :=
  match o with
  | Some s => if w_uri_ok w s then [] else [(Warn, InvalidUri (pk_name p) t s)]
  | None => []
  end.
Definition external_references_log (w : world) (p : package) : list event :=
  link_log w p ERDocumentation (pk_documentation p) ++ link_log w p ERWebsite (pk_homepage p)
  ++ link_log w p EROther (pk_links p) ++ link_log w p ERVcs (pk_repository p).

(** generator.rs:420-496 *)
Definition licenses_log (w : world) (cfg : config) (p : package) : list event :=
  match pk_license p with
  | Some l =>
      let mode := match cf_license cfg with Some o => lp_mode o | None => Lax end in
      match (match mode with Strict => spdx_try_from w l | Lax => spdx_parse_lax w l end) with
      | Some _ => []
      | None =>
          let lv := match cf_license cfg with
                    | Some o => if existsb (String.eqb l) (lp_accept o) then Info else Warn
                    | None => Warn
                    end in
          [(lv, InvalidLicense (pk_name p) l)]
      end
  | None =>
      match pk_license_file p with
      | Some f =>
          match w_read_file w (removelast (pk_manifest p)) f with
          | Some _ => []
          | None => [(Warn, LicenseFileUnreadable (pk_name p) f)]
          end
      | None => []
      end
  end.

(** generator.rs:216-263 *)
Definition component_log (w : world) (cfg : config) (ws : path) (p root : package) : list event :=
  source_log p
  ++ (match get_purl w p root ws None with Done (Some _) => [] | _ => [(Warn, InvalidPurl (pk_name p))] end)
  ++ external_references_log w p ++ licenses_log w cfg p.

(** generator.rs:272-334 *)
Definition target_log (ws : path) (p : package) (t : cargo_target) : list event :=
  match target_class t with
  | None => [(Warn, OddTarget (tg_name t) (tg_kind t))]
  | Some _ =>
      match parent (pk_manifest p) with
      | Some dir =>
          match path_strip_prefix dir (tg_src t) with
          | Some _ => source_log p
          | None => [(Warn, SourceOutside (tg_src t) ws)]
          end
      | None => []
      end
  end.
(** generator.rs:265-337 *)
Definition toplevel_log (w : world) (cfg : config) (ws : path) (p : package) : list event :=
  component_log w cfg ws p p ++ flat_map (target_log ws p) (filter_targets (pk_targets p)).

(** generator.rs:562-578 *)
Definition authors_log (w : world) (p : package) : list event :=
  flat_map (fun a => match parse_author w a with Some _ => [] | None => [(Warn, InvalidAuthor a)] end) (pk_authors p).

(** generator.rs:144-157 *)
Definition lock_log (w : world) (manifest : path) : list event :=
  match locate_cargo_lock w manifest with
  | Some f => match w_lockfile w f with Some _ => [] | None => [(Warn, LockUnreadable)] end
  | None => [(Warn, LockNotFound)]
  end.

(** generator.rs:130-176 with 181-214 and 516-560: the messages for one workspace member *)
Definition sbom_log (w : world) (fuel : nat) (meta : cargo_metadata) (cfg : config) (member : string) : outcome (list event) :=
  let packages := index_packages (cm_packages meta) in
  do nodes <- unwrap "called Option::unwrap() on a None value" (cm_resolve meta);
  let resolve := index_resolve nodes in
  let ws := cm_workspace_root meta in
  do sel <- match included_of cfg with
            | AllDependencies => all_dependencies fuel member packages resolve cfg
            | TopLevelDependencies => top_level_dependencies member packages resolve cfg
            end;
  do mp <- unwrap "no entry found for key" (bm_get member packages);
  do rp <- unwrap "no entry found for key" (bm_get member (fst sel));
  Done (lock_log w (pk_manifest mp)
        ++ flat_map (fun p => component_log w cfg ws p rp)
             (filter (fun p => negb (String.eqb (pk_id p) member)) (map snd (fst sel)))
        ++ authors_log w rp ++ toplevel_log w cfg ws rp).

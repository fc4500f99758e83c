(** The SBOM generator, cargo-cyclonedx/src/generator.rs and purl.rs.

    Everything the generator takes from outside (external crates, file system,
    clock, environment, randomness) is a field of [world]; all theorems
    quantify over it.  The release profile is modelled: the [debug_assert!]s and
    the self-check of [write_to_file] under [cfg!(debug_assertions)] are off. *)
From Verif Require Import Base Strings Base64 ModelTypes ConfigModel.
From Coq Require Import NArith ZArith.
Open Scope string_scope.

(** *** What [cargo metadata] delivers (the [cargo_metadata] crate) *)

(** Absolute paths as their list of components, outermost first. *)
Definition path := list string.

(** [cargo_metadata::DependencyKind] *)
Inductive cargo_kind := KNormal | KDevelopment | KBuild | KUnknown.
(** [cargo_metadata::NodeDep]: the fields read by the generator *)
Record node_dep := mkNodeDep { nd_pkg : string; nd_kinds : list cargo_kind }.
(** [cargo_metadata::Node] *)
Record node := mkNode { n_id : string; n_deps : list node_dep; n_dependencies : list string }.
(** [cargo_metadata::Target] *)
Record cargo_target := mkCTarget { tg_name : string; tg_kind : list string; tg_src : path }.
(** [cargo_metadata::Package]; versions are kept as text *)
Record package := mkPackage {
  pk_id : string; pk_name : string; pk_version : string; pk_source : option string;
  pk_authors : list string; pk_description : option string; pk_license : option string;
  pk_license_file : option string; pk_documentation : option string; pk_homepage : option string;
  pk_links : option string; pk_repository : option string; pk_targets : list cargo_target;
  pk_manifest : path }.
(** [cargo_metadata::Metadata] *)
Record cargo_metadata := mkMeta {
  cm_members : list string; cm_packages : list package; cm_resolve : option (list node);
  cm_workspace_root : path }.
(** [cargo_lock::Package] and its checksum, as text (lowercase hex) *)
Record lock_package := mkLock {
  lk_name : string; lk_version : string; lk_source : option string; lk_checksum : option string }.

(** *** The outside world *)
Record world := mkWorld {
  w_uri_ok : string -> bool;                       (* fluent_uri::UriRef::parse succeeds *)
  w_spdx_strict : string -> bool;                  (* spdx::Expression::parse_mode, deprecated allowed *)
  w_spdx_lax : string -> bool;                     (* spdx::Expression::parse_mode, ParseMode::LAX *)
  w_email_ok : string -> bool;                     (* validator::ValidateEmail *)
  w_purl : string -> string -> option (string * string) -> option string -> option string;
                                                   (* purl::PurlBuilder: name, version, qualifier, subpath *)
  w_read_file : path -> string -> option string;   (* std::fs::read_to_string of dir.join(name) *)
  w_absolute : path -> option path;                (* std::path::absolute *)
  w_is_file : path -> bool;                        (* Path::is_file *)
  w_lockfile : path -> option (list lock_package); (* cargo_lock::Lockfile::load *)
  w_uuid : string;                                 (* UrnUuid::generate *)
  w_now : option string;                           (* DateTime::now *)
  w_epoch : option string;                         (* env var SOURCE_DATE_EPOCH *)
  w_format_time : Z -> option string;              (* OffsetDateTime::from_unix_timestamp + format *)
  w_tool_version : string }.                       (* env!("CARGO_PKG_VERSION") *)

(** *** Dependency kinds *)

(** generator.rs:76-82; derived order Development < Build < Runtime *)
Inductive dep_kind := Development | Build | Runtime.
Definition rank (k : dep_kind) : nat := match k with Development => 0 | Build => 1 | Runtime => 2 end.
Definition kind_lt (a b : dep_kind) : bool := Nat.ltb (rank a) (rank b).
(** [std::cmp::min] *)
Definition kind_min (a b : dep_kind) : dep_kind := if kind_lt b a then b else a.
Definition kind_eqb (a b : dep_kind) : bool := Nat.eqb (rank a) (rank b).

(** generator.rs:83-91 *)
Definition to_cargo_kind (k : dep_kind) : cargo_kind :=
  match k with Development => KDevelopment | Build => KBuild | Runtime => KNormal end.
(** generator.rs:93-102 *)
Definition from_cargo_kind (k : cargo_kind) : outcome dep_kind :=
  match k with
  | KNormal => Done Runtime
  | KDevelopment => Done Development
  | KBuild => Done Build
  | KUnknown => Panic "Unknown dependency kind"
  end.

(** generator.rs:616-628 *)
Definition index_packages (l : list package) : @bmap package := bm_of_list (map (fun p => (pk_id p, p)) l).
Definition index_resolve (l : list node) : @bmap node := bm_of_list (map (fun n => (n_id n, n)) l).

(** generator.rs:635 *)
Definition dep_node := (string * dep_kind * dep_kind)%type.
Definition dep_node_eqb (a b : dep_node) : bool :=
  let '(i, k, p) := a in let '(j, l, q) := b in
  String.eqb i j && kind_eqb k l && kind_eqb p q.
Definition visited_mem (x : dep_node) (l : list dep_node) : bool := existsb (dep_node_eqb x) l.

(** generator.rs:662-672: the children that one visit pushes, in push order.
    [visited] does not change while they are pushed. *)
Definition kind_children (pkg : string) (path_kind : dep_kind) (ks : list cargo_kind) : outcome (list dep_node) :=
  mapM (fun k => do c <- from_cargo_kind k; Done (pkg, c, kind_min c path_kind)) ks.
Fixpoint dep_children (path_kind : dep_kind) (ds : list node_dep) : outcome (list dep_node) :=
  match ds with
  | [] => Done []
  | d :: ds' =>
      do a <- kind_children (nd_pkg d) path_kind (nd_kinds d);
      do b <- dep_children path_kind ds';
      Done (a ++ b)%list
  end.

(** generator.rs:653-659 *)
Definition record_kind (id : string) (k : dep_kind) (m : @bmap dep_kind) : @bmap dep_kind :=
  match bm_get id m with
  | None => bm_insert id k m
  | Some old => if kind_lt old k then bm_insert id k m else m
  end.

(** generator.rs:650-673: the depth-first loop; the head of [stack] is the top
    of [nodes_to_visit]. *)
Fixpoint dfs (fuel : nat) (resolve : @bmap node) (kinds : @bmap dep_kind)
             (stack visited : list dep_node) : outcome (@bmap dep_kind) :=
  match fuel with
  | O => OutOfFuel
  | S fuel' =>
      match stack with
      | [] => Done kinds
      | (id, k, pk) :: rest =>
          let visited' := (id, k, pk) :: visited in
          let kinds' := record_kind id pk kinds in
          do n <- unwrap "no entry found for key" (bm_get id resolve);
          do children <- dep_children pk (n_deps n);
          let pushed := filter (fun c => negb (visited_mem c visited')) children in
          dfs fuel' resolve kinds' (rev pushed ++ rest)%list visited'
      end
  end.

(** generator.rs:630-679 *)
Definition index_dep_kinds (fuel : nat) (root : string) (resolve : @bmap node) : outcome (@bmap cargo_kind) :=
  do kinds <- dfs fuel resolve [(root, Runtime)] [(root, Runtime, Runtime)] [];
  Done (map (fun kv => (fst kv, to_cargo_kind (snd kv))) kinds).

(** *** Dependency selection *)

(** derived [PartialEq] of [cargo_metadata::DependencyKind] *)
Definition cargo_kind_eqb (a b : cargo_kind) : bool :=
  match a, b with
  | KNormal, KNormal | KDevelopment, KDevelopment | KBuild, KBuild | KUnknown, KUnknown => true
  | _, _ => false
  end.
(** generator.rs:806-819 *)
Definition keep_kind (only_normal : option bool) (k : cargo_kind) : bool :=
  match only_normal with
  | Some true => cargo_kind_eqb k KNormal
  | _ => negb (cargo_kind_eqb k KDevelopment)
  end.
Definition filtered_dependencies (cfg : config) (ds : list node_dep) : list node_dep :=
  filter (fun d => existsb (keep_kind (cf_only_normal cfg)) (nd_kinds d)) ds.
(** generator.rs:797-802 *)
Definition add_filtered_dependencies (cfg : config) (n : node) : node :=
  let deps := filtered_dependencies cfg (n_deps n) in
  mkNode (n_id n) deps (map nd_pkg deps).

(** generator.rs:767-785: the breadth-first loop, [current] and [next] being the
    two queues; one unit of fuel per loop iteration or queue swap. *)
Fixpoint bfs (fuel : nat) (cfg : config) (resolve : @bmap node)
             (current next : list node) (out : @bmap node) : outcome (@bmap node) :=
  match fuel with
  | O => OutOfFuel
  | S fuel' =>
      match current with
      | n :: rest =>
          if bm_mem (n_id n) out then bfs fuel' cfg resolve rest next out
          else
            let out' := bm_insert (n_id n) (add_filtered_dependencies cfg n) out in
            do ds <- mapM (fun d => unwrap "no entry found for key" (bm_get (nd_pkg d) resolve))
                          (filtered_dependencies cfg (n_deps n));
            bfs fuel' cfg resolve rest (next ++ ds)%list out'
      | [] =>
          match next with
          | [] => Done out
          | _ => bfs fuel' cfg resolve next [] out
          end
      end
  end.

(** generator.rs:752-795 *)
Definition all_dependencies (fuel : nat) (root : string) (packages : @bmap package)
    (resolve : @bmap node) (cfg : config) : outcome (@bmap package * @bmap node) :=
  do r <- unwrap "no entry found for key" (bm_get root resolve);
  do out <- bfs fuel cfg resolve [r] [] [];
  Done (filter (fun kv => bm_mem (fst kv) out) packages, out).

(** generator.rs:719-750 *)
Definition top_level_dependencies (root : string) (packages : @bmap package)
    (resolve : @bmap node) (cfg : config) : outcome (@bmap package * @bmap node) :=
  do r <- unwrap "no entry found for key" (bm_get root resolve);
  let root_node := add_filtered_dependencies cfg r in
  do rp <- unwrap "no entry found for key" (bm_get root packages);
  do ps <- mapM (fun id => do p <- unwrap "no entry found for key" (bm_get id packages); Done (id, p))
                (n_dependencies root_node);
  let pkg_result := fold_left (fun m kv => bm_insert (fst kv) (snd kv) m) ps (bm_insert root rp []) in
  do ns <- mapM (fun id => do n <- unwrap "no entry found for key" (bm_get id resolve);
                           Done (id, mkNode (n_id n) [] []))
                (n_dependencies root_node);
  let resolve_result := fold_left (fun m kv => bm_insert (fst kv) (snd kv) m) ns [] in
  Done (pkg_result, bm_insert root root_node resolve_result).

(** generator.rs:708-717 *)
Definition create_dependencies (resolve : @bmap node) : list dependency :=
  map (fun kv => mkDependency (n_id (snd kv)) (n_dependencies (snd kv))) resolve.

(** *** Package URLs, purl.rs *)

(** [Utf8Path::parent] *)
Definition parent (p : path) : option path :=
  match p with [] => None | _ => Some (removelast p) end.
(** [Path::starts_with] / [strip_prefix], component-wise *)
Fixpoint path_strip_prefix (pre p : path) : option path :=
  match pre, p with
  | [], _ => Some p
  | a :: pre', b :: p' => if String.eqb a b then path_strip_prefix pre' p' else None
  | _ :: _, [] => None
  end.
Definition path_starts_with (p pre : path) : bool :=
  match path_strip_prefix pre p with Some _ => true | None => false end.
(** [pathdiff::diff_utf8_paths] on absolute paths without "." and ".." *)
Fixpoint diff_paths (p base : path) : path :=
  match p, base with
  | a :: p', b :: base' => if String.eqb a b then diff_paths p' base' else (map (fun _ => "..") base ++ p)%list
  | _, _ => (map (fun _ => "..") base ++ p)%list
  end.
(** [as_str()] of an absolute resp. relative path *)
Definition abs_str (p : path) : string := "/" ++ join "/" p.
Definition rel_str (p : path) : string := join "/" p.

(** [cargo_metadata::Source::is_crates_io] *)
Definition is_crates_io (s : string) : bool :=
  String.eqb s "registry+https://github.com/rust-lang/crates.io-index".

(** purl.rs:98-107 *)
Fixpoint ref_value (params : list string) : option string :=
  match params with
  | [] => None
  | p :: ps =>
      match strip_prefix "branch=" p with
      | Some v => Some v
      | None => match strip_prefix "tag=" p with
                | Some v => Some v
                | None => match strip_prefix "rev=" p with Some v => Some v | None => ref_value ps end
                end
      end
  end.
(** purl.rs:79-113 *)
Definition source_to_vcs_url (url : string) : outcome string :=
  if starts_with "git+" url then
    Done (match find_char "?" url, find_char "#" url with
          | Some q, Some f => take q url ++ "@" ++ drop (S f) url
          | None, Some _ => replace_char "#" "@" url
          | Some q, None =>
              let query := drop (S q) url in
              take q url ++ "@" ++ unwrap_or query (ref_value (split_char "&" query))
          | None, None => url
          end)
  else Panic "assertion failed: source.repr.starts_with(git+)".

(** purl.rs:17-53: the qualifier added for the package's source *)
Definition purl_qualifier (p root : package) (workspace_root : path) : outcome (option (string * string)) :=
  match pk_source p with
  | Some s =>
      if is_crates_io s then Done None
      else match split_once "+" s with
           | Some (kind, url) =>
               if String.eqb kind "git" then do u <- source_to_vcs_url s; Done (Some ("vcs_url", u))
               else if String.eqb kind "registry" || String.eqb kind "sparse"
                    then Done (Some ("repository_url", url))
               else Done None
           | None => Done None
           end
  | None =>
      do dir <- unwrap "called Option::unwrap() on a None value" (parent (pk_manifest p));
      if path_starts_with dir workspace_root then
        do rdir <- unwrap "called Option::unwrap() on a None value" (parent (pk_manifest root));
        let d := rel_str (diff_paths dir rdir) in
        Done (Some ("download_url", "file://" ++ (if String.eqb d "" then "." else d)))
      else Done (Some ("download_url", "file://" ++ abs_str dir))
  end.

(** purl.rs:8-65; [None] is the [Err] result.  to_purl_subpath (116-120) is [rel_str]. *)
Definition get_purl (w : world) (p root : package) (workspace_root : path) (subpath : option path)
  : outcome (option string) :=
  do q <- purl_qualifier p root workspace_root;
  Done (w_purl w (pk_name p) (pk_version p) q (option_map rel_str subpath)).

(** *** Components *)

(** models/component.rs:81-117, [Component::new] *)
Definition component_new (t : classification) (name version : string) (bom_ref : option string) : component := {|
  c_type := t; c_mime_type := None; c_bom_ref := bom_ref; c_supplier := None; c_author := None;
  c_publisher := None; c_group := None; c_name := normalize name; c_version := Some (normalize version);
  c_description := None; c_scope := None; c_hashes := None; c_licenses := None; c_copyright := None;
  c_cpe := None; c_purl := None; c_swid := None; c_modified := None; c_pedigree := None;
  c_external_references := None; c_properties := None; c_components := None; c_evidence := None;
  c_signature := None; c_model_card := None; c_data := None |}.

(** models/license.rs:101-110 *)
Definition named_license (s : string) : license := mkLicense None (LName (normalize s)) None None None None.
(** models/attached_text.rs:40-46 *)
Definition attached_text_new (ct : option string) (content : string) : attached_text :=
  mkText ct (Some EncBase64) (b64_encode content).
(** models/organization.rs:47-54 *)
Definition contact_new (name : string) (email : option string) : contact :=
  mkContact None (Some (normalize name)) (option_map normalize email) None.
(** models/external_reference.rs:48-55 and 208-216; external_models/uri.rs:82-84 *)
Definition uri_of (s : string) : reference_uri := if starts_with "urn:cdx" s then RBomLink s else RUrl s.
Definition ext_ref_new (t : ext_ref_type) (uri : string) : external_reference := mkExtRef t (uri_of uri) None None.
(** models/tool.rs:91-99, models/property.rs:60-65 *)
Definition tool_new (vendor name version : string) : tool :=
  mkTool (Some (normalize vendor)) (Some (normalize name)) (Some (normalize version)) None None.
Definition property_new (name value : string) : property := mkProp name (normalize value).

(** generator.rs:355-418 *)
Definition opt_ref (w : world) (t : ext_ref_type) (o : option string) : list external_reference :=
  match o with
  | Some s => if w_uri_ok w s then [ext_ref_new t s] else []
  | None => []
  end.
Definition get_external_references (w : world) (p : package) : option (list external_reference) :=
  let refs := (opt_ref w ERDocumentation (pk_documentation p) ++ opt_ref w ERWebsite (pk_homepage p)
               ++ opt_ref w EROther (pk_links p) ++ opt_ref w ERVcs (pk_repository p))%list in
  match refs with [] => None | _ => Some refs end.

(** external_models/spdx.rs:165-186 and 142-162 *)
Definition spdx_try_from (w : world) (s : string) : option string :=
  if w_spdx_strict w s then Some s else None.
Definition spdx_parse_lax (w : world) (s : string) : option string :=
  if w_spdx_lax w s then spdx_try_from w (replace_char "/" " OR " s) else None.

(** generator.rs:420-496.  [package.license_file()] is the path of the license
    file relative to the package directory. *)
Definition get_licenses (w : world) (cfg : config) (p : package) : option (list license_choice) :=
  let from_expr :=
    match pk_license p with
    | Some l =>
        let mode := match cf_license cfg with Some o => lp_mode o | None => Lax end in
        match (match mode with Strict => spdx_try_from w l | Lax => spdx_parse_lax w l end) with
        | Some e => [LicExpression None e]
        | None => [LicLicense (named_license l)]
        end
    | None => []
    end in
  let licenses :=
    match from_expr with
    | [] =>
        match pk_license_file p with
        | Some f =>
            match w_read_file w (removelast (pk_manifest p)) f with
            | Some content =>
                [LicLicense (mkLicense None (LName (normalize "Unknown"))
                               (Some (attached_text_new None content)) None None None)]
            | None => []
            end
        | None => []
        end
    | l => l
    end in
  match licenses with [] => None | _ => Some licenses end.

(** generator.rs:1039-1053 *)
Definition to_bom_hash (sum : string) : hash := mkHash SHA_256 sum.
(** generator.rs:498-514 *)
Definition get_hashes (hashes : @bmap string) (p : package) : option (list hash) :=
  match bm_get (pk_id p) hashes with
  | Some h => Some [to_bom_hash h]
  | None => None
  end.

(** generator.rs:216-263 *)
Definition create_component (w : world) (cfg : config) (ws : path) (hashes : @bmap string)
    (p root : package) (kinds : @bmap cargo_kind) : outcome component :=
  do purl <- get_purl w p root ws None;
  let base := component_new CLibrary (trim (pk_name p)) (pk_version p) (Some (pk_id p)) in
  Done {| c_type := c_type base; c_mime_type := None; c_bom_ref := c_bom_ref base; c_supplier := None;
          c_author := match pk_authors p with [] => None | l => Some (normalize (join ", " l)) end;
          c_publisher := None; c_group := None; c_name := c_name base; c_version := c_version base;
          c_description := option_map normalize (pk_description p);
          c_scope := match unwrap_or KNormal (bm_get (pk_id p) kinds) with
                     | KNormal => Some ScRequired
                     | _ => Some ScExcluded
                     end;
          c_hashes := get_hashes hashes p;
          c_licenses := get_licenses w cfg p;
          c_copyright := None; c_cpe := None; c_purl := purl; c_swid := None; c_modified := None;
          c_pedigree := None;
          c_external_references := get_external_references w p;
          c_properties := None; c_components := None; c_evidence := None; c_signature := None;
          c_model_card := None; c_data := None |}.

(** [cargo_metadata::Target::is_bin] and friends: membership in [kind] *)
Definition has_kind (k : string) (t : cargo_target) : bool := existsb (String.eqb k) (tg_kind t).
(** generator.rs:606-614 *)
Definition filter_targets (l : list cargo_target) : list cargo_target :=
  filter (fun t => negb (has_kind "bench" t || has_kind "example" t || has_kind "test" t
                         || has_kind "custom-build" t)) l.
(** generator.rs:275-290 *)
Definition target_class (t : cargo_target) : option classification :=
  if has_kind "bin" t then Some CApplication
  else if has_kind "proc-macro" t then Some CLibrary
  else if existsb (contains_str "lib") (tg_kind t) then Some CLibrary
  else None.

(** generator.rs:272-334: one pass over the targets; [n] is [subcomponents.len()] *)
Fixpoint subcomponents (w : world) (ws : path) (p : package) (top_ref : string) (n : nat)
    (ts : list cargo_target) : outcome (list component * list (string * list string)) :=
  match ts with
  | [] => Done ([], [])
  | t :: ts' =>
      match target_class t with
      | None => subcomponents w ws p top_ref n ts'
      | Some cls =>
          let bom_ref := top_ref ++ " bin-target-" ++ string_of_nat n in
          let base := component_new cls (tg_name t) (pk_version p) (Some bom_ref) in
          do dir <- unwrap "manifest_path in cargo metadata output is not a file!" (parent (pk_manifest p));
          do purl <- match path_strip_prefix dir (tg_src t) with
                     | Some rel => get_purl w p p ws (Some rel)
                     | None => Done None
                     end;
          let sub := {| c_type := cls; c_mime_type := None; c_bom_ref := Some bom_ref; c_supplier := None;
                        c_author := None; c_publisher := None; c_group := None; c_name := c_name base;
                        c_version := c_version base; c_description := None; c_scope := None; c_hashes := None;
                        c_licenses := None; c_copyright := None; c_cpe := None; c_purl := purl; c_swid := None;
                        c_modified := None; c_pedigree := None; c_external_references := None;
                        c_properties := None; c_components := None; c_evidence := None; c_signature := None;
                        c_model_card := None; c_data := None |} in
          do rest <- subcomponents w ws p top_ref (S n) ts';
          Done (sub :: fst rest, (bom_ref, tg_kind t) :: snd rest)
      end
  end.

(** generator.rs:339-353 *)
Definition get_classification (p : package) : classification :=
  if existsb (has_kind "bin") (pk_targets p) then CApplication else CLibrary.

(** generator.rs:265-337 *)
Definition create_toplevel_component (w : world) (cfg : config) (ws : path) (hashes : @bmap string)
    (p : package) : outcome (component * @bmap (list string)) :=
  do top <- create_component w cfg ws hashes p p [];
  do r <- unwrap "called Option::unwrap() on a None value" (c_bom_ref top);
  do subs <- subcomponents w ws p r 0 (filter_targets (pk_targets p));
  Done ({| c_type := get_classification p; c_mime_type := c_mime_type top; c_bom_ref := c_bom_ref top;
           c_supplier := c_supplier top; c_author := c_author top; c_publisher := c_publisher top;
           c_group := c_group top; c_name := c_name top; c_version := c_version top;
           c_description := c_description top; c_scope := c_scope top; c_hashes := c_hashes top;
           c_licenses := c_licenses top; c_copyright := c_copyright top; c_cpe := c_cpe top;
           c_purl := c_purl top; c_swid := c_swid top; c_modified := c_modified top;
           c_pedigree := c_pedigree top; c_external_references := c_external_references top;
           c_properties := c_properties top; c_components := Some (fst subs);
           c_evidence := c_evidence top; c_signature := c_signature top;
           c_model_card := c_model_card top; c_data := c_data top |},
        bm_of_list (snd subs)).

(** generator.rs:580-603.  The regex [^(?P<author>[^<]+)\s*(<(?P<email>[^>]+)>)?$]
    matches exactly: a non-empty text without '<' (all of it is the author), or a
    non-empty text without '<', then '<', a non-empty text without '>', and '>' at
    the very end.  ([[^<]+] is greedy and takes everything up to the first '<'.) *)
Definition all_char (ok : ascii -> bool) (s : string) : bool := forallb ok (list_ascii_of_string s).
Definition author_captures (s : string) : option (string * option string) :=
  match find_char "<" s with
  | None => if String.eqb s "" then None else Some (s, None)
  | Some O => None
  | Some i =>
      let rest := drop (S i) s in
      match find_char ">" rest with
      | Some (S j) => if String.eqb (drop (S (S j)) rest) "" then Some (take i s, Some (take (S j) rest)) else None
      | _ => None
      end
  end.
Definition parse_author (w : world) (author : string) : option contact :=
  match author_captures author with
  | Some (name, Some email) => if w_email_ok w email then Some (contact_new (trim name) (Some email)) else None
  | Some (name, None) => Some (contact_new (trim name) None)
  | None => Some (contact_new author None)
  end.
(** generator.rs:562-578 *)
Definition create_authors (w : world) (p : package) : list contact :=
  flat_map (fun a => match parse_author w a with Some c => [c] | None => [] end) (pk_authors p).

(** [i64::from_str_radix(_, 10)] *)
Definition parse_i64 (s : string) : option Z :=
  let '(neg, d) := match s with
                   | String "-" r => (true, r)
                   | String "+" r => (false, r)
                   | _ => (false, s)
                   end in
  match parse_digits d with
  | Some n =>
      let z := if neg then (- Z.of_N n)%Z else Z.of_N n in
      if ((- 2 ^ 63 <=? z) && (z <? 2 ^ 63))%Z then Some z else None
  | None => None
  end.

(** generator.rs:522-538: the timestamp *)
Definition bom_timestamp (w : world) : outcome string :=
  do now <- match w_now w with Some t => Done t | None => Fail "Error creating Metadata" end;
  match w_epoch w with
  | None => Done now
  | Some e =>
      do z <- unwrap "Invalid reproducible build timestamp" (parse_i64 e);
      unwrap "timestamp out of range" (w_format_time w z)
  end.

(** generator.rs:516-560 *)
Definition create_metadata (w : world) (cfg : config) (ws : path) (hashes : @bmap string) (p : package)
  : outcome (metadata * @bmap (list string)) :=
  do ts <- bom_timestamp w;
  do top <- create_toplevel_component w cfg ws hashes p;
  do tgt <- unwrap "called Option::unwrap() on a None value" (cf_target cfg);
  Done ({| m_timestamp := Some ts;
           m_tools := Some (TList [tool_new "CycloneDX" "cargo-cyclonedx" (w_tool_version w)]);
           m_authors := match create_authors w p with [] => None | l => Some l end;
           m_component := Some (fst top);
           m_manufacture := None; m_supplier := None; m_licenses := None;
           m_properties := Some [match tgt with
                                 | SingleTarget t => property_new "cdx:rustc:sbom:target:triple" t
                                 | AllTargets => property_new "cdx:rustc:sbom:target:all_targets" "true"
                                 end];
           m_lifecycles := None |},
        snd top).

(** generator.rs:181-214 *)
Definition create_bom (w : world) (cfg : config) (ws : path) (hashes : @bmap string) (root : string)
    (packages : @bmap package) (resolve : @bmap node) (kinds : @bmap cargo_kind)
  : outcome (bom * @bmap (list string)) :=
  do rp <- unwrap "no entry found for key" (bm_get root packages);
  do comps <- mapM (fun p => create_component w cfg ws hashes p rp kinds)
                   (filter (fun p => negb (String.eqb (pk_id p) root)) (map snd packages));
  do m <- create_metadata w cfg ws hashes rp;
  Done ({| b_version := u32_1;
           b_serial_number := match w_epoch w with Some _ => None | None => Some (w_uuid w) end;
           b_metadata := Some (fst m);
           b_components := Some comps;
           b_services := None; b_external_references := None;
           b_dependencies := Some (create_dependencies resolve);
           b_compositions := None; b_properties := None; b_vulnerabilities := None;
           b_signature := None; b_annotations := None; b_formulation := None;
           b_spec_version := V1_3 |},
        snd m).

(** generator.rs:1002-1016; [Path::ancestors] of an absolute path *)
Fixpoint ancestors (fuel : nat) (p : path) : list path :=
  p :: match fuel, p with
       | S f, _ :: _ => ancestors f (removelast p)
       | _, _ => []
       end.
Definition path_ancestors (p : path) : list path := ancestors (List.length p) p.
Definition locate_cargo_lock (w : world) (manifest : path) : option path :=
  match w_absolute w manifest with
  | None => None
  | Some m => find (w_is_file w) (map (fun d => (d ++ ["Cargo.lock"])%list) (path_ancestors m))
  end.

(** generator.rs:1030-1037 *)
Definition pkgid (p : lock_package) : string :=
  match lk_source p with
  | Some s => s ++ "#" ++ lk_name p ++ "@" ++ lk_version p
  | None => lk_name p ++ "@" ++ lk_version p
  end.
(** generator.rs:1018-1028 *)
Definition package_hashes (l : list lock_package) : @bmap string :=
  bm_of_list (flat_map (fun p => match lk_checksum p with Some h => [(pkgid p, h)] | None => [] end) l).

(** generator.rs:144-157: failures to find or read the lock file only log *)
Definition crate_hashes (w : world) (manifest : path) : @bmap string :=
  match locate_cargo_lock w manifest with
  | Some f => match w_lockfile w f with Some l => package_hashes l | None => [] end
  | None => []
  end.

(** generator.rs:828-835 *)
Record generated := mkGenerated {
  g_bom : bom; g_manifest_path : path; g_package_name : string; g_config : config;
  g_target_kinds : @bmap (list string) }.

(** generator.rs:130-176: the loop body for one workspace member *)
Definition create_sbom (w : world) (fuel : nat) (cfg : config) (ws : path) (packages : @bmap package)
    (resolve : @bmap node) (member : string) : outcome generated :=
  do kinds <- index_dep_kinds fuel member resolve;
  do sel <- match included_of cfg with
            | AllDependencies => all_dependencies fuel member packages resolve cfg
            | TopLevelDependencies => top_level_dependencies member packages resolve cfg
            end;
  do mp <- unwrap "no entry found for key" (bm_get member packages);
  do b <- create_bom w cfg ws (crate_hashes w (pk_manifest mp)) member (fst sel) (snd sel) kinds;
  Done (mkGenerated (fst b) (pk_manifest mp) (pk_name mp) cfg (snd b)).

(** generator.rs:120-179 *)
Definition create_sboms (w : world) (fuel : nat) (meta : cargo_metadata) (cfg : config)
  : outcome (list generated) :=
  let packages := index_packages (cm_packages meta) in
  do nodes <- unwrap "called Option::unwrap() on a None value" (cm_resolve meta);
  let resolve := index_resolve nodes in
  mapM (create_sbom w fuel cfg (cm_workspace_root meta) packages resolve) (cm_members meta).

(** *** Output, generator.rs:837-997 *)

(** generator.rs:929-943: the SBOM of one artifact *)
Definition retarget (b : bom) (meta : metadata) (top sub : component) : bom := {|
  b_version := b_version b; b_serial_number := b_serial_number b;
  b_metadata := Some {|
    m_timestamp := m_timestamp meta; m_tools := m_tools meta; m_authors := m_authors meta;
    m_component := Some {|
      c_type := c_type sub; c_mime_type := c_mime_type top; c_bom_ref := c_bom_ref top;
      c_supplier := c_supplier top; c_author := c_author top; c_publisher := c_publisher top;
      c_group := c_group top; c_name := c_name sub; c_version := c_version top;
      c_description := c_description top; c_scope := c_scope top; c_hashes := c_hashes top;
      c_licenses := c_licenses top; c_copyright := c_copyright top; c_cpe := c_cpe top;
      c_purl := c_purl sub; c_swid := c_swid top; c_modified := c_modified top;
      c_pedigree := c_pedigree top; c_external_references := c_external_references top;
      c_properties := c_properties top; c_components := None;
      c_evidence := c_evidence top; c_signature := c_signature top;
      c_model_card := c_model_card top; c_data := c_data top |};
    m_manufacture := m_manufacture meta; m_supplier := m_supplier meta; m_licenses := m_licenses meta;
    m_properties := m_properties meta; m_lifecycles := m_lifecycles meta |};
  b_components := b_components b; b_services := b_services b;
  b_external_references := b_external_references b; b_dependencies := b_dependencies b;
  b_compositions := b_compositions b; b_properties := b_properties b;
  b_vulnerabilities := b_vulnerabilities b; b_signature := b_signature b;
  b_annotations := b_annotations b; b_formulation := b_formulation b;
  b_spec_version := b_spec_version b |}.

(** generator.rs:896-947, for [Binaries] and [AllCargoTargets] *)
Definition per_artifact_sboms (b : bom) (kinds : @bmap (list string)) (d : describe)
  : outcome (list (bom * list string)) :=
  do meta <- unwrap "called Option::unwrap() on a None value" (b_metadata b);
  do top <- unwrap "called Option::unwrap() on a None value" (m_component meta);
  do comps <- unwrap "called Option::unwrap() on a None value" (c_components top);
  do picked <- mapM (fun c =>
      do r <- unwrap "called Option::unwrap() on a None value" (c_bom_ref c);
      do ks <- unwrap "no entry found for key" (bm_get r kinds);
      do keep <- match d with
                 | DBinaries => Done (existsb (String.eqb "bin") ks || existsb (String.eqb "cdylib") ks)
                 | DAllCargoTargets => Done true
                 | DCrate => Panic "internal error: entered unreachable code"
                 end;
      Done (if keep then [(retarget b meta top c, ks)] else [])) comps;
  Done (List.concat picked).

(** generator.rs:949-996 *)
Definition filename (g : generated) (binary_name : option string) (target_kind : list string) : outcome string :=
  let oo := output_of (g_config g) in
  do prefix0 <- match describe_of (g_config g) with
                | DCrate => Done (g_package_name g)
                | DBinaries | DAllCargoTargets =>
                    unwrap "called Option::unwrap() on a None value" binary_name
                end;
  let prefix := match oo_filename oo with CrateName => prefix0 | Custom n => n end in
  let ext := match oo_filename oo, oo_suffix oo with
             | _, Included => ".cdx"
             | CrateName, NotIncluded => ".cdx"
             | Custom _, NotIncluded => ""
             end in
  let kind_suffix := match target_kind with [] => "" | _ => "_" ++ join "-" target_kind end in
  do plat <- match oo_suffix oo with
             | NotIncluded => Done ""
             | Included =>
                 do t <- unwrap "called Option::unwrap() on a None value" (cf_target (g_config g));
                 Done ("_" ++ target_str t)
             end;
  Done (prefix ++ kind_suffix ++ plat ++ ext ++ "." ++ format_str (format_of (g_config g))).

(** [PathBuf::with_file_name] *)
Definition with_file_name (p : path) (name : string) : path := (removelast p ++ [name])%list.

(** generator.rs:837-859 and 861-894: the (path, SBOM, format, version) list
    handed to the serialiser, in order; each file is created (truncated) before
    its content is produced.  Serialisation itself is modelled separately. *)
Record output_file := mkFile {
  f_path : path; f_bom : bom; f_format : format; f_version : spec_version }.
Definition write_plan (g : generated) : outcome (list output_file) :=
  let mk p b := mkFile p b (format_of (g_config g)) (unwrap_or V1_3 (cf_spec (g_config g))) in
  match describe_of (g_config g) with
  | DCrate =>
      do n <- filename g None [];
      Done [mk (with_file_name (g_manifest_path g) n) (g_bom g)]
  | d =>
      do arts <- per_artifact_sboms (g_bom g) (g_target_kinds g) d;
      mapM (fun a =>
        do meta <- unwrap "called Option::unwrap() on a None value" (b_metadata (fst a));
        do comp <- unwrap "called Option::unwrap() on a None value" (m_component meta);
        do n <- filename g (Some (c_name comp)) (snd a);
        Done (mk (with_file_name (g_manifest_path g) n) (fst a))) arts
  end.

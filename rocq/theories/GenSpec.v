(** Specification vocabulary for the generator: plain graph notions over the
    node list that [cargo metadata] reports.  Uses the data types of GenModel
    but none of its functions. *)
From Verif Require Import Base Strings Base64 ModelTypes ConfigModel GenModel.
Open Scope string_scope.

Section Graph.
  Variable nodes : list node.

  (** the metadata lists a dependency of [p] on [q], of kind [k] *)
  Definition edge (p q : string) (k : cargo_kind) : Prop :=
    exists n d, In n nodes /\ n_id n = p /\ In d (n_deps n) /\ nd_pkg d = q /\ In k (nd_kinds d).

  (** a walk along dependencies, with the kinds of its edges *)
  Inductive walk : string -> list cargo_kind -> string -> Prop :=
  | walk_here p : walk p [] p
  | walk_step p ks q k r : walk p ks q -> edge q r k -> walk p (ks ++ [k]) r.

  (** the kinds of dependency that belong in an SBOM: everything but
      dev-dependencies, or only normal ones with [--no-build-deps] *)
  Definition wanted (only_normal : bool) (k : cargo_kind) : Prop :=
    if only_normal then k = KNormal else k <> KDevelopment.

  (** [p] depends on [q] in a wanted way *)
  Definition needs (only_normal : bool) (p q : string) : Prop :=
    exists k, edge p q k /\ wanted only_normal k.

  (** [q] is [p] or one of its transitive wanted dependencies *)
  Inductive reach (only_normal : bool) : string -> string -> Prop :=
  | reach_here p : reach only_normal p p
  | reach_step p q r : reach only_normal p q -> needs only_normal q r -> reach only_normal p r.

  (** The strongest role [id] plays for [root]: at run time if some chain of
      normal dependencies leads to it, else at build time if some chain without
      dev-dependencies does, else only during development. *)
  Definition runtime_dep (root id : string) : Prop :=
    exists ks, walk root ks id /\ Forall (fun k => k = KNormal) ks.
  Definition nondev_dep (root id : string) : Prop :=
    exists ks, walk root ks id /\ ~ In KDevelopment ks.
  Definition any_dep (root id : string) : Prop := exists ks, walk root ks id.
  Definition role (root id : string) (k : cargo_kind) : Prop :=
    match k with
    | KNormal => runtime_dep root id
    | KBuild => nondev_dep root id /\ ~ runtime_dep root id
    | KDevelopment => any_dep root id /\ ~ nondev_dep root id
    | KUnknown => False
    end.
End Graph.

(** What [cargo metadata] guarantees about its output. *)
Record well_formed (meta : cargo_metadata) (nodes : list node) : Prop := {
  wf_resolve : cm_resolve meta = Some nodes;
  wf_nodes : NoDup (map n_id nodes);
  wf_packages : NoDup (map pk_id (cm_packages meta));
  wf_members : forall m, In m (cm_members meta) -> In m (map n_id nodes);
  wf_node_pkg : forall n, In n nodes -> In (n_id n) (map pk_id (cm_packages meta));
  wf_deps : forall n d, In n nodes -> In d (n_deps n) -> In (nd_pkg d) (map n_id nodes);
  wf_kinds : forall n d, In n nodes -> In d (n_deps n) -> ~ In KUnknown (nd_kinds d);
  wf_manifests : forall p, In p (cm_packages meta) -> pk_manifest p <> [] }.

(** Whether build dependencies were asked to be left out. *)
Definition normal_only (cfg : config) : bool := match cf_only_normal cfg with Some true => true | _ => false end.

(** Reading a generated SBOM. *)
Definition component_list (b : bom) : list component := match b_components b with Some l => l | None => [] end.
Definition component_refs (b : bom) : list (option string) := map c_bom_ref (component_list b).
Definition main_component (b : bom) : option component :=
  match b_metadata b with Some m => m_component m | None => None end.
Definition dependency_list (b : bom) : list dependency := match b_dependencies b with Some l => l | None => [] end.

(** Which packages the SBOM of workspace member [m] is about. *)
Definition top_level_mode (cfg : config) : Prop := cf_included cfg = Some TopLevelDependencies.
Definition selected (nodes : list node) (cfg : config) (m id : string) : Prop :=
  (top_level_mode cfg /\ (id = m \/ needs nodes (normal_only cfg) m id))
  \/ (~ top_level_mode cfg /\ reach nodes (normal_only cfg) m id).

(** the wanted dependencies of a node, in the order [cargo metadata] lists them *)
Definition wantedb (only_normal : bool) (k : cargo_kind) : bool :=
  match k with KNormal => true | KDevelopment => false | _ => negb only_normal end.
Definition wanted_deps (only_normal : bool) (n : node) : list string :=
  map nd_pkg (filter (fun d => existsb (wantedb only_normal) (nd_kinds d)) (n_deps n)).

(** The targets of a package that an SBOM describes: not benches, examples,
    tests or build scripts; and of a known artifact kind. *)
Definition target_has (k : string) (t : cargo_target) : Prop := In k (tg_kind t).
Definition described_target (t : cargo_target) : Prop :=
  ~ target_has "bench" t /\ ~ target_has "example" t /\ ~ target_has "test" t /\ ~ target_has "custom-build" t
  /\ (target_has "bin" t \/ target_has "proc-macro" t
      \/ exists k a b, In k (tg_kind t) /\ k = (a ++ "lib" ++ b)%string).
(** The targets a per-artifact SBOM is made for. *)
Definition wants_artifact (d : describe) (t : cargo_target) : Prop :=
  match d with
  | DBinaries => target_has "bin" t \/ target_has "cdylib" t
  | DAllCargoTargets => True
  | DCrate => False
  end.
(** [sub] is the list of the elements of [l] satisfying [P], in order. *)
Inductive sublist_of {A} (P : A -> Prop) : list A -> list A -> Prop :=
| sub_nil : sublist_of P [] []
| sub_keep x l s : P x -> sublist_of P l s -> sublist_of P (x :: l) (x :: s)
| sub_drop x l s : ~ P x -> sublist_of P l s -> sublist_of P (x :: l) s.

(** Replacing the described component of a BOM; relabelling a component. *)
Definition with_main (b : bom) (c : component) : bom := {|
  b_version := b_version b; b_serial_number := b_serial_number b;
  b_metadata := option_map (fun m => {|
    m_timestamp := m_timestamp m; m_tools := m_tools m; m_authors := m_authors m; m_component := Some c;
    m_manufacture := m_manufacture m; m_supplier := m_supplier m; m_licenses := m_licenses m;
    m_properties := m_properties m; m_lifecycles := m_lifecycles m |}) (b_metadata b);
  b_components := b_components b; b_services := b_services b;
  b_external_references := b_external_references b; b_dependencies := b_dependencies b;
  b_compositions := b_compositions b; b_properties := b_properties b;
  b_vulnerabilities := b_vulnerabilities b; b_signature := b_signature b;
  b_annotations := b_annotations b; b_formulation := b_formulation b;
  b_spec_version := b_spec_version b |}.
Definition relabel (c : component) (ty : classification) (name : string) (purl : option string) : component := {|
  c_type := ty; c_mime_type := c_mime_type c; c_bom_ref := c_bom_ref c; c_supplier := c_supplier c;
  c_author := c_author c; c_publisher := c_publisher c; c_group := c_group c; c_name := name;
  c_version := c_version c; c_description := c_description c; c_scope := c_scope c; c_hashes := c_hashes c;
  c_licenses := c_licenses c; c_copyright := c_copyright c; c_cpe := c_cpe c; c_purl := purl; c_swid := c_swid c;
  c_modified := c_modified c; c_pedigree := c_pedigree c; c_external_references := c_external_references c;
  c_properties := c_properties c; c_components := None; c_evidence := c_evidence c; c_signature := c_signature c;
  c_model_card := c_model_card c; c_data := c_data c |}.

(** The lock file entry [lk] is about the package with id [id]. *)
Definition lock_entry_for (lk : lock_package) (id : string) : Prop :=
  match lk_source lk with
  | Some s => id = (s ++ "#" ++ lk_name lk ++ "@" ++ lk_version lk)%string
  | None => id = (lk_name lk ++ "@" ++ lk_version lk)%string
  end.
(** [f] is the nearest [Cargo.lock]: in the longest prefix of [p] that has one. *)
Definition is_prefix (d p : path) : Prop := exists r, p = (d ++ r)%list.
Definition nearest_lock (exists_file : path -> bool) (p f : path) : Prop :=
  exists d, is_prefix d p /\ f = (d ++ ["Cargo.lock"])%list /\ exists_file f = true
    /\ forall d', is_prefix d' p -> List.length d < List.length d' -> exists_file (d' ++ ["Cargo.lock"])%list = false.

(** The same world with another clock reading and another random number. *)
Definition with_clock_and_uuid (w : world) (now : string) (uuid : string) : world := {|
  w_uri_ok := w_uri_ok w; w_spdx_strict := w_spdx_strict w; w_spdx_lax := w_spdx_lax w;
  w_email_ok := w_email_ok w; w_purl := w_purl w; w_read_file := w_read_file w;
  w_absolute := w_absolute w; w_is_file := w_is_file w; w_lockfile := w_lockfile w;
  w_uuid := uuid; w_now := Some now; w_epoch := w_epoch w; w_format_time := w_format_time w;
  w_tool_version := w_tool_version w |}.

(** "Name <email>", or just a name. *)
Inductive author_shape : string -> string -> option string -> Prop :=
| author_email name email : name <> "" -> contains_char "<" name = false ->
    email <> "" -> contains_char ">" email = false ->
    author_shape (name ++ "<" ++ email ++ ">") name (Some email)
| author_plain name : name <> "" -> contains_char "<" name = false -> author_shape name name None.

(** File names: extension of a format, suffix for the target platform. *)
Definition extension (f : format) : string := match f with FJson => ".json" | FXml => ".xml" end.
Definition chosen_format (cfg : config) : format := match cf_format cfg with Some f => f | None => FXml end.
Definition platform_part (cfg : config) : string :=
  match cf_output cfg with
  | Some (mkOut _ Included) =>
      match cf_target cfg with
      | Some AllTargets => "_all"
      | Some (SingleTarget t) => "_" ++ t
      | None => ""
      end
  | _ => ""
  end.
Definition custom_name (cfg : config) : option string :=
  match cf_output cfg with Some (mkOut (Custom n) _) => Some n | _ => None end.
Definition suffix_requested (cfg : config) : bool :=
  match cf_output cfg with Some (mkOut _ Included) => true | _ => false end.
Definition artifact_name (cfg : config) (t : cargo_target) : string :=
  normalize (tg_name t) ++ "_" ++ join "-" (tg_kind t) ++ platform_part cfg ++ ".cdx" ++ extension (chosen_format cfg).
Definition crate_file_name (cfg : config) (package : string) : string :=
  match custom_name cfg with
  | None => package ++ platform_part cfg ++ ".cdx" ++ extension (chosen_format cfg)
  | Some n => n ++ platform_part cfg ++ (if suffix_requested cfg then ".cdx" else "") ++ extension (chosen_format cfg)
  end.

(** The clock, SOURCE_DATE_EPOCH and the target setting are usable. *)
Definition usable_clock (w : world) : Prop :=
  w_now w <> None /\ forall e, w_epoch w = Some e -> exists z, parse_i64 e = Some z /\ w_format_time w z <> None.

(** References of the targets of the described package, and of the parts of a component. *)
Definition sub_ref (r : string) (i : nat) : string := (r ++ " bin-target-" ++ string_of_nat i)%string.
Definition sub_refs (c : component) : list (option string) :=
  match c_components c with Some l => map c_bom_ref l | None => [] end.

(** The license information a package gives: its declared expression when it
    parses (in the chosen mode), else the declared text as a name, else the text
    of its license file. *)
Definition license_of_package (w : world) (cfg : config) (p : package) (ls : option (list license_choice)) : Prop :=
  match pk_license p with
  | Some l =>
      let strict := match cf_license cfg with Some o => match lp_mode o with Strict => true | Lax => false end | None => false end in
      let text := if strict then l else replace_char "/" " OR " l in
      if (if strict then w_spdx_strict w l else w_spdx_lax w l && w_spdx_strict w text)
      then ls = Some [LicExpression None text]
      else ls = Some [LicLicense (mkLicense None (LName (normalize l)) None None None None)]
  | None =>
      match pk_license_file p with
      | None => ls = None
      | Some f =>
          match w_read_file w (removelast (pk_manifest p)) f with
          | None => ls = None
          | Some content => exists t, ls = Some [LicLicense (mkLicense None (LName "Unknown") (Some t) None None None)]
              /\ at_encoding t = Some EncBase64 /\ b64_decode (at_content t) = Some content
          end
      end
  end.

(** A feature argument without its separators. *)
Definition is_sep (a : ascii) : bool := Ascii.eqb a "," || Ascii.eqb a " ".
Fixpoint strip_seps (s : string) : string :=
  match s with
  | EmptyString => EmptyString
  | String a s' => if is_sep a then strip_seps s' else String a (strip_seps s')
  end.

(** What the lock file nearest to a manifest says, if there is one and it can be read. *)
Definition lock_entry (w : world) (manifest : path) (lk : lock_package) : Prop :=
  exists m f l, w_absolute w manifest = Some m /\ nearest_lock (w_is_file w) m f
    /\ w_lockfile w f = Some l /\ In lk l.

(** The links a package declares, in the order of the SBOM, valid ones only. *)
Definition declared_links (w : world) (p : package) : list (ext_ref_type * string) :=
  flat_map (fun l => match snd l with Some s => if w_uri_ok w s then [(fst l, s)] else [] | None => [] end)
    [(ERDocumentation, pk_documentation p); (ERWebsite, pk_homepage p); (EROther, pk_links p); (ERVcs, pk_repository p)].
Definition uri_text (u : reference_uri) : string := match u with RUrl s => s | RBomLink s => s end.

(** [g] is the SBOM generated for the workspace member [m]. *)
Definition sbom_of (w : world) (fuel : nat) (meta : cargo_metadata) (cfg : config) (m : string) (g : generated) : Prop :=
  exists gs, create_sboms w fuel meta cfg = Done gs /\ In (m, g) (combine (cm_members meta) gs).

(** The option combinations the command line parser lets through (cli.rs:35-111). *)
Definition clap_accepts (a : args) : Prop :=
  (a_filename_override a = None \/ a_describe a = None) /\ (a_all a = false \/ a_top_level a = false).
(** No directory separator in the names that end up in file names. *)
Definition no_slash (s : string) : Prop := contains_char "/" s = false.
Definition plain_names (meta : cargo_metadata) : Prop :=
  forall p, In p (cm_packages meta) -> no_slash (pk_name p)
    /\ forall t, In t (pk_targets p) -> no_slash (tg_name t) /\ forall k, In k (tg_kind t) -> no_slash k.
Definition plain_target (cfg : config) : Prop :=
  match cf_target cfg with Some (SingleTarget t) => no_slash t | _ => True end.
(** cargo gives the targets of a package distinct names within a kind, and no
    kind has an underscore. *)
Definition distinct_targets (meta : cargo_metadata) : Prop :=
  forall p, In p (cm_packages meta) ->
    NoDup (map (fun t => (normalize (tg_name t), join "-" (tg_kind t))) (pk_targets p))
    /\ forall t k, In t (pk_targets p) -> In k (tg_kind t) -> contains_char "_" k = false.

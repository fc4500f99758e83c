(** What the messages of the generator are about (C74) *)
From Verif Require Import Base Strings ModelTypes ConfigModel GenModel GenSpec.
Open Scope string_scope.
Open Scope list_scope.

(** [c] is what the SBOM says about the package [p]: it is listed, or it is the component described *)
Definition told (meta : cargo_metadata) (g : generated) (p : package) (c : component) : Prop :=
  In p (cm_packages meta) /\ c_bom_ref c = Some (pk_id p)
  /\ (In c (component_list (g_bom g)) \/ main_component (g_bom g) = Some c).
(** A link in the manifest *)
Definition declares (p : package) (field : ext_ref_type) (text : string) : Prop :=
  (field = ERDocumentation /\ pk_documentation p = Some text) \/ (field = ERWebsite /\ pk_homepage p = Some text)
  \/ (field = EROther /\ pk_links p = Some text) \/ (field = ERVcs /\ pk_repository p = Some text).
Definition links_to (c : component) (field : ext_ref_type) (text : string) : Prop :=
  exists rs r, c_external_references c = Some rs /\ In r rs /\ er_type r = field /\ uri_text (er_url r) = text.
Definition accepted (cfg : config) (l : string) : Prop := exists o, cf_license cfg = Some o /\ In l (lp_accept o).
(** Neither a test, bench, example or build script, nor a program or library *)
Definition odd_target (t : cargo_target) : Prop :=
  ~ target_has "bench" t /\ ~ target_has "example" t /\ ~ target_has "test" t /\ ~ target_has "custom-build" t
  /\ ~ described_target t.
(** The same settings with other accepted license names *)
Definition with_accepted (cfg : config) (names : list string) : config :=
  mkConfig (cf_format cfg) (cf_included cfg) (cf_output cfg) (cf_features cfg) (cf_target cfg)
    (option_map (fun o => mkLP (lp_mode o) names) (cf_license cfg)) (cf_describe cfg) (cf_spec cfg) (cf_only_normal cfg).
(** [p] is the package of the member [m] *)
Definition member_package (meta : cargo_metadata) (m : string) (p : package) : Prop := In p (cm_packages meta) /\ pk_id p = m.
(** [f] is the lock file used for [p] *)
Definition lock_file_of (w : world) (p : package) (f : path) : Prop :=
  exists a, w_absolute w (pk_manifest p) = Some a /\ nearest_lock (w_is_file w) a f.
(** The source of [p] says its kind before the first plus sign *)
Definition source_kind (p : package) (kind : string) : Prop :=
  exists rest, pk_source p = Some (kind ++ "+" ++ rest)%string /\ contains_char "+" kind = false.

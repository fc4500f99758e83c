(** What an SBOM says about a package, about its artifacts and about itself (C72).  Uses the data types of GenModel but
    none of its functions that build SBOMs. *)
From Verif Require Import Base Strings ModelTypes ConfigModel GenModel GenSpec GenValProps.
Open Scope string_scope.
Open Scope list_scope.

(** Nothing is said that cargo knows nothing about *)
Definition nothing_else (c : component) : Prop :=
  c_mime_type c = None /\ c_supplier c = None /\ c_publisher c = None /\ c_group c = None /\ c_copyright c = None
  /\ c_cpe c = None /\ c_swid c = None /\ c_modified c = None /\ c_pedigree c = None /\ c_properties c = None
  /\ c_evidence c = None /\ c_signature c = None /\ c_model_card c = None /\ c_data c = None.
(** The checksum in the nearest lock file *)
Definition hashes_from_lock (w : world) (manifest : path) (p : package) (o : option (list hash)) : Prop :=
  match o with
  | None => forall lk, lock_entry w manifest lk -> lock_entry_for lk (pk_id p) -> lk_checksum lk = None
  | Some hs => exists h lk, hs = [mkHash SHA_256 h] /\ lock_entry w manifest lk /\ lock_entry_for lk (pk_id p)
      /\ lk_checksum lk = Some h
  end.
Definition links_of (w : world) (p : package) (o : option (list external_reference)) : Prop :=
  match o with
  | None => declared_links w p = []
  | Some l => l <> [] /\ map (fun r => (er_type r, uri_text (er_url r))) l = declared_links w p
      /\ Forall (fun r => er_comment r = None /\ er_hashes r = None) l
  end.
(** [c] says about the package [p] what its manifest and the lock file beside [manifest] say *)
Definition describes (w : world) (cfg : config) (manifest : path) (p : package) (c : component) : Prop :=
  c_bom_ref c = Some (pk_id p)
  /\ c_name c = normalize (trim (pk_name p)) /\ c_version c = Some (normalize (pk_version p))
  /\ c_description c = option_map normalize (pk_description p)
  /\ c_author c = match pk_authors p with [] => None | l => Some (normalize (join ", " l)) end
  /\ license_of_package w cfg p (c_licenses c)
  /\ (forall ls n t, c_licenses c = Some ls -> In (LicLicense (mkLicense None n (Some t) None None None)) ls ->
        at_content_type t = None)
  /\ hashes_from_lock w manifest p (c_hashes c)
  /\ links_of w p (c_external_references c)
  /\ nothing_else c.
(** [u] is the package URL of the source [src] of a target of [p]: a subpath of the package, if it lies in its directory *)
Definition target_purl (w : world) (workspace : path) (p : package) (src : path) (u : option string) : Prop :=
  exists dir file, pk_manifest p = dir ++ [file]
    /\ ((exists rest q, src = dir ++ rest /\ qualifier_of p p workspace q
           /\ u = w_purl w (pk_name p) (pk_version p) q (Some (join "/" rest)))
        \/ (~ (exists rest, src = dir ++ rest) /\ u = None)).
(** [c] describes the target [t] of [p] *)
Definition describes_target (p : package) (t : cargo_target) (c : component) : Prop :=
  c_name c = normalize (tg_name t) /\ c_version c = Some (normalize (pk_version p))
  /\ (target_has "bin" t -> c_type c = CApplication) /\ (~ target_has "bin" t -> c_type c = CLibrary)
  /\ c_description c = None /\ c_author c = None /\ c_licenses c = None /\ c_hashes c = None
  /\ c_external_references c = None /\ c_scope c = None /\ c_components c = None /\ nothing_else c.

(** What becomes of a line of [authors] *)
Inductive author_contact (w : world) (s : string) : option contact -> Prop :=
| ac_email name email : author_shape s name (Some email) -> w_email_ok w email = true ->
    author_contact w s (Some (mkContact None (Some (normalize (trim name))) (Some (normalize email)) None))
| ac_bad_email name email : author_shape s name (Some email) -> w_email_ok w email = false -> author_contact w s None
| ac_name name : author_shape s name None ->
    author_contact w s (Some (mkContact None (Some (normalize (trim name))) None None))
| ac_other : ~ (exists name email, author_shape s name email) ->
    author_contact w s (Some (mkContact None (Some (normalize s)) None None)).
Definition authors_of (w : world) (p : package) (o : option (list contact)) : Prop :=
  exists cs, Forall2 (author_contact w) (pk_authors p) cs
    /\ let known := flat_map (fun c => match c with Some x => [x] | None => [] end) cs in
       match o with None => known = [] | Some l => l <> [] /\ l = known end.

(** The time of the SBOM: that of SOURCE_DATE_EPOCH if there is one, else the time of the run *)
Definition made_at (w : world) (t : string) : Prop :=
  match w_epoch w with
  | None => w_now w = Some t
  | Some e => exists z, parse_i64 e = Some z /\ w_format_time w z = Some t
  end.
(** The metadata of an SBOM, but for the component described *)
Definition says_who_and_when (w : world) (cfg : config) (p : package) (md : metadata) : Prop :=
  (exists t, m_timestamp md = Some t /\ made_at w t)
  /\ m_tools md = Some (TList [mkTool (Some "CycloneDX") (Some "cargo-cyclonedx") (Some (normalize (w_tool_version w))) None None])
  /\ authors_of w p (m_authors md)
  /\ m_properties md = match cf_target cfg with
       | Some (SingleTarget t) => Some [mkProp "cdx:rustc:sbom:target:triple" (normalize t)]
       | Some AllTargets => Some [mkProp "cdx:rustc:sbom:target:all_targets" "true"]
       | None => None
       end
  /\ m_manufacture md = None /\ m_supplier md = None /\ m_licenses md = None /\ m_lifecycles md = None.

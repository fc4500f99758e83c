(** The constructors that repair or take over their text: lenient licences, package URLs, URIs, scores. *)
From Verif Require Import Base Strings ModelTypes ValModel.
Open Scope string_scope.

(** What the libraries say *)
Record lenient := mkLenient {
  l_lax : string -> bool;                                     (* spdx::Expression::parse_mode(_, LAX) is Ok *)
  l_imprecise : string -> option string;                      (* spdx::imprecise_license_id: the name of the licence *)
  l_purl : string -> string -> string -> option string }.     (* purl::GenericPurlBuilder::build for type, name, version, as text *)

(** external_models/spdx.rs:142-162 *)
Definition parse_lax (x : parsers) (l : lenient) (s : string) : option string :=
  if l_lax l s then spdx_expr_try_from x (replace_char "/" " OR " s) else None.
(** external_models/spdx.rs:53-60 *)
Definition imprecise (l : lenient) (s : string) : option string := l_imprecise l s.
(** external_models/uri.rs:38-45 *)
Definition purl_new (l : lenient) (package_type name version : string) : option string := l_purl l package_type name version.
(** external_models/uri.rs:54-59: [Purl::from_str] *)
Definition purl_from_str (s : string) : option string := Some s.
(** external_models/uri.rs:78-84 *)
Definition uri_new (s : string) : string := s.
Definition uri_is_bomlink (s : string) : bool := starts_with "urn:cdx" s.

(** The [#[versioned(..)]] attribute macro, [cyclonedx-bom-macros/src/lib.rs].

    The macro works on the syntax tree syn parses.  The model keeps the part of the tree the macro looks at:
    every node has its attributes, its own tokens before and after its children, and its children.  The kind
    says which method of [VersionFilter] handles the attributes of the node; syn's default folds, which the
    overridden methods call, visit every child (trusted).  Tokens of macro calls are not visited by syn, so they are
    tokens here, too.  The comma after a field, variant or arm belongs to that node; syn may drop the
    comma after the last variant, which has no meaning in Rust. *)
From Coq Require Import NArith.
From Verif Require Import Base Strings.
Open Scope string_scope.
Open Scope list_scope.

(** lib.rs:15-19 *)
Record version := mkVersion { major : N; minor : N }.
(** lib.rs:15, the derived [PartialEq] *)
Definition version_eqb (a b : version) : bool := N.eqb (major a) (major b) && N.eqb (minor a) (minor b).

(** [usize::from_str] on a 64-bit target: an optional plus sign, decimal digits, in range *)
Definition parse_usize (s : string) : option N :=
  match parse_digits (match s with String "+" s' => s' | _ => s end) with
  | Some n => if N.ltb n 18446744073709551616 then Some n else None
  | None => None
  end.
(** lib.rs:21-34 *)
Definition parse_version (s : string) : option version :=
  match split_once "." s with
  | None => None
  | Some (a, b) =>
      match parse_usize a, parse_usize b with
      | Some x, Some y => Some (mkVersion x y)
      | _, _ => None
      end
  end.
(** lib.rs:37-42 *)
Definition as_ident (v : version) : string :=
  "v" ++ string_of_N (major v) ++ "_" ++ string_of_N (minor v).

(** [collect::<Result<Vec<_>, _>>] *)
Fixpoint parse_all (l : list string) : option (list version) :=
  match l with
  | [] => Some []
  | s :: l' =>
      match parse_version s, parse_all l' with
      | Some v, Some vs => Some (v :: vs)
      | _, _ => None
      end
  end.
(** lib.rs:49-58: [None] stands for arguments that are not a list of string literals *)
Definition parse_req (args : option (list string)) : option (list version) :=
  match args with None => None | Some l => parse_all l end.
(** lib.rs:61-65 *)
Definition req_matches (vs : list version) (v : version) : bool := existsb (version_eqb v) vs.

(** An attribute whose path is the identifier [versioned], with its arguments and its tokens, or another one *)
Inductive attr :=
| Versioned (args : option (list string)) (tokens : list string)
| OtherAttr (tokens : list string).

(** lib.rs:74-97: the closure given to [retain] runs over the attributes in order; the result is [matches], the
    attributes kept and whether [self.error] has been set *)
Fixpoint is_active (v : version) (ats : list attr) (m : bool) : bool * list attr * bool :=
  match ats with
  | [] => (m, [], false)
  | Versioned args _ :: ats' =>
      match parse_req args with
      | Some req => is_active v ats' (req_matches req v)
      | None => let '(m', kept, _) := is_active v ats' m in (m', kept, true)
      end
  | OtherAttr t :: ats' => let '(m', kept, e) := is_active v ats' m in (m', OtherAttr t :: kept, e)
  end.

Inductive kind :=
| KItem        (* an item other than Verbatim: fold_item, lib.rs:199-222 *)
| KStmt        (* a [let] or macro statement: fold_stmt, lib.rs:121-132 *)
| KExpr        (* an expression other than Verbatim: fold_expr, lib.rs:134-180 *)
| KField       (* a field of a struct, union or variant: filter_fields, lib.rs:99-118 *)
| KVariant     (* a variant of an enum: fold_item_enum, lib.rs:224-232 *)
| KArm         (* an arm of a match: fold_expr_match, lib.rs:193-197 *)
| KFieldValue  (* a field in a struct expression: fold_expr_struct, lib.rs:182-191 *)
| KPlain.      (* everything else: members of impls and traits, parameters, patterns, blocks, tokens *)

Inductive node := Node (k : kind) (ats : list attr) (pre : list string) (kids : list node) (post : list string).

(** lib.rs:127 and 217: [Item::Verbatim(TokenStream2::new())] *)
Definition nothing : node := Node KPlain [] [] [] [].
(** lib.rs:175: [parse_quote!({})] *)
Definition empty_block : node := Node KPlain [] ["{"; "}"] [] [].

(** lib.rs:110-233: [VersionFilter]'s folds.  The result replaces the node in its parent; the flag is whether
    [self.error] has been set.  [fold_fields_named] and [fold_fields_unnamed] do not fold the fields
    themselves. *)
Fixpoint fold (v : version) (n : node) : list node * bool :=
  match n with
  | Node k ats pre kids post =>
      let folded := (fix go l := match l with
                     | [] => ([], false)
                     | x :: l' => (fst (fold v x) ++ fst (go l'), snd (fold v x) || snd (go l'))
                     end) kids in
      let '(active, kept, err) := is_active v ats true in
      let whole := Node k kept pre (fst folded) post in
      match k with
      | KPlain => ([Node k ats pre (fst folded) post], snd folded)
      | KField => if active then ([Node k kept pre kids post], err) else ([], err)
      | KVariant | KArm | KFieldValue => if active then ([whole], err || snd folded) else ([], err)
      | KItem | KStmt => if active then ([whole], err || snd folded) else ([nothing], err)
      | KExpr => if active then ([whole], err || snd folded) else ([empty_block], err)
      end
  end.
(** lib.rs:265-270: the loop over the items of the module *)
Fixpoint fold_items (v : version) (items : list node) : option (list node) :=
  match items with
  | [] => Some []
  | x :: l =>
      let '(y, err) := fold v x in
      if err then None else match fold_items v l with None => None | Some r => Some (y ++ r) end
  end.

(** [quote!] prints a node *)
Definition attr_tokens (a : attr) : list string := match a with Versioned _ t | OtherAttr t => t end.
Fixpoint print (n : node) : list string :=
  match n with
  | Node _ ats pre kids post => flat_map attr_tokens ats ++ pre ++ flat_map print kids ++ post
  end.

(** lib.rs:272-276 *)
Definition print_module (vis : list string) (v : version) (items : list node) : list string :=
  vis ++ ["mod"; as_ident v; "{"] ++ flat_map print items ++ ["}"].
Fixpoint modules (vis : list string) (items : list node) (vs : list version) : option (list string) :=
  match vs with
  | [] => Some []
  | v :: vs' =>
      match fold_items v items, modules vis items vs' with
      | Some folded, Some r => Some (print_module vis v folded ++ r)
      | _, _ => None
      end
  end.
(** lib.rs:235-280: [helper], for an annotated item that parses as a module with the visibility [vis].
    [content]: [None] for a module without content.  [None] as a result: a compile error. *)
Definition expand (input : option (list string)) (vis : list string) (content : option (list node)) : option (list string) :=
  match parse_req input, content with
  | Some vs, Some items => modules vis items vs
  | _, _ => None
  end.

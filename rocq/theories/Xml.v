(** XML documents as xml-rs reports and emits them, and the reading helpers of
    [cyclonedx-bom/src/xml.rs].

    Readers are described by terms of the type [desc]; [run] says what a described
    reader does with a stream of events.  Every [read_xml_element] of the library is one
    such description (XmlModel.v).

    The translation between text and events is xml-rs's and is trusted (see
    [read_back]).  Names are local names: the library compares tags and attributes
    by local name only; the comparison of an end tag with the start tag, which
    uses the whole name, only differs for nested elements of the same local name
    and different namespaces. *)
From Verif Require Import Base ModelTypes Strings Json.
Open Scope string_scope.
Open Scope list_scope.
Open Scope nat_scope.

(** ** Documents and events *)
Definition attrs := list (string * string).
Inductive xml :=
| Elem (n : string) (ats : attrs) (kids : list xml)
| Text (s : string)
| CData (s : string)
| PI.

(** [xml::reader::XmlEvent].  Comments are ignored by the reader's default
    configuration; [EBad] stands for an error reported by the reader, the end of the
    list for [EndDocument], which xml-rs returns again and again. *)
Inductive event :=
| EStart (n : string) (ats : attrs)
| EEnd (n : string)
| EChars (s : string)
| ECData (s : string)
| EPI
| EBad.

(** the events of a well-formed element *)
Fixpoint flat (x : xml) : list event :=
  match x with
  | Elem n ats kids => EStart n ats :: flat_map flat kids ++ [EEnd n]
  | Text s => [EChars s]
  | CData s => [ECData s]
  | PI => [EPI]
  end.
Definition flats (l : list xml) : list event := flat_map flat l.

(** ** Results of reading
    [XHang]: the reader waits for an end tag at the end of the document, for ever.
    [XFuel]: not enough fuel, excluded by [fine_fuel] (XmlGeneral.v) and [C48_parse_returns]. *)
Inductive xres (A : Type) :=
| XOk (a : A) (rest : list event)
| XErr
| XHang
| XFuel.
Arguments XOk {A}. Arguments XErr {A}. Arguments XHang {A}. Arguments XFuel {A}.

Definition xbind {A B} (r : xres A) (f : A -> list event -> xres B) : xres B :=
  match r with XOk a rest => f a rest | XErr => XErr | XHang => XHang | XFuel => XFuel end.

(** ** The helpers of xml.rs *)

(** xml.rs:346-360, 362-371 ([attribute_or_error], [optional_attribute]): the first
    attribute of that name *)
Fixpoint attr (k : string) (ats : attrs) : option string :=
  match ats with
  | [] => None
  | (k', x) :: ats' => if String.eqb k' k then Some x else attr k ats'
  end.
(** the last attribute of that name (specs/common/attached_text.rs:104-111) *)
Definition attr_last (k : string) (ats : attrs) : option string := attr k (rev ats).

(** xml.rs:336-344 *)
Definition closing {A} (n : string) (a : A) (evs : list event) : xres A :=
  match evs with
  | EEnd m :: rest => if String.eqb m n then XOk a rest else XErr
  | _ => XErr
  end.
(** xml.rs:456-478: any end tag counts as an empty text *)
Definition read_simple_tag (n : string) (evs : list event) : xres string :=
  match evs with
  | EEnd _ :: rest => XOk "" rest
  | EChars s :: rest | ECData s :: rest => closing n s rest
  | _ => XErr
  end.
(** xml.rs:480-499, with 325-334 *)
Definition read_optional_tag (n : string) (evs : list event) : xres (option string) :=
  match evs with
  | EEnd m :: rest => if String.eqb m n then XOk None rest else XErr
  | EChars s :: rest | ECData s :: rest => closing n (Some s) rest
  | _ => XErr
  end.
(** [inner_text_or_error] (xml.rs:315-323) followed by [closing_tag_or_error] *)
Definition read_text (n : string) (evs : list event) : xres string :=
  match evs with
  | EChars s :: rest | ECData s :: rest => closing n s rest
  | _ => XErr
  end.
(** xml.rs:647-675 ([read_lax_validation_tag]): the recursive calls as a stack of open names *)
Fixpoint skip (open : list string) (evs : list event) : xres unit :=
  match open with
  | [] => XOk tt evs
  | n :: open' =>
      match evs with
      | [] | EBad :: _ => XErr
      | EStart m _ :: evs' => skip (m :: open) evs'
      | EEnd m :: evs' =>
          if String.eqb m n then match open' with [] => XOk tt evs' | _ => skip open' evs' end
          else XErr
      | _ :: evs' => skip open evs'
      end
  end.

(** xml.rs:383-403 *)
Definition xml_bool (s : string) : option bool :=
  if String.eqb s "true" || String.eqb s "1" then Some true
  else if String.eqb s "false" || String.eqb s "0" then Some false
  else None.
(** xml.rs:405-423; [u32::from_str]: an optional plus sign, decimal digits, in range *)
Definition xml_u32 (s : string) : option u32 :=
  let? n := parse_digits (match s with String "+" s' => s' | _ => s end) in u32_of_N n.
(** xml.rs:501-528: white space around the digits is allowed *)
Definition xml_u32_trim (s : string) : option u32 := xml_u32 (trim s).

(** ** Descriptions of readers *)

(** What a loop over the children does with anything it has no arm for:
    - [Strict]: error (xml.rs:207-240, 619-645 and the loops written the same way);
    - [Lax]: unknown elements are skipped by [read_lax_validation_tag], anything else
      is an error (xml.rs:172-205, 677-706);
    - [Open]: [_ => ()], each unknown event is ignored on its own, so that the content of
      an unknown element is seen by the same loop. *)
Inductive policy := Strict | Lax | Open.

Inductive prim : Type -> Type :=
| PSimple : prim string
| POptional : prim (option string)
| PText : prim string
| PEnd : prim unit.

Inductive desc : Type -> Type :=
(** one of the helpers above *)
| DPrim {A} (p : prim A) : desc A
(** read, then compute with the element's name and attributes; [None] is an error *)
| DMap {A B} (f : string -> attrs -> A -> option B) (d : desc A) : desc B
(** a loop over the children up to the end tag *)
| DLoop {S} (p : policy) (sh : shape S) : desc S
(** the loop of [Signature]: on any other event a nested reader is started for the same element *)
| DOdd {S A} (sh : shape S) (d : desc A) (upd : A -> S -> S) : desc S
(** the limit of a bounded unfolding of a recursive reader *)
| DFuel {A} : desc A
(** the arms of such a loop; the state of a pair of arms is a pair, the first matching arm
    is taken *)
with shape : Type -> Type :=
| SNone {S} (init : S) : shape S
(** an arm for the elements [tag] *)
| SOn {A S} (tag : string) (d : desc A) (init : S) (upd : A -> S -> option S) : shape S
(** an arm for character data (not CDATA) *)
| SChars {S} (init : S) (upd : string -> S -> S) : shape S
| SOr {S} (a b : shape S) : shape S
| SPair {S T} (a : shape S) (b : shape T) : shape (S * T).

(** ** What a described reader does *)
Definition run_prim {A} (p : prim A) : string -> list event -> xres A :=
  match p in prim A return string -> list event -> xres A with
  | PSimple => read_simple_tag
  | POptional => read_optional_tag
  | PText => read_text
  | PEnd => fun n evs => closing n tt evs
  end.

Definition on_fst {S T} (f : S -> option S) (p : S * T) : option (S * T) :=
  let? s := f (fst p) in Some (s, snd p).
Definition on_snd {S T} (f : T -> option T) (p : S * T) : option (S * T) :=
  let? t := f (snd p) in Some (fst p, t).

Fixpoint init {S} (sh : shape S) : S :=
  match sh in shape S return S with
  | SNone i => i
  | SOn _ _ i _ => i
  | SChars i _ => i
  | SOr a _ => init a
  | SPair a b => (init a, init b)
  end.
(** what a loop does with character data *)
Fixpoint on_chars {S} (sh : shape S) : option (string -> S -> S) :=
  match sh in shape S return option (string -> S -> S) with
  | SNone _ => None
  | SOn _ _ _ _ => None
  | SChars _ u => Some u
  | SOr a b => match on_chars a with Some u => Some u | None => on_chars b end
  | SPair a b =>
      match on_chars a with
      | Some u => Some (fun s p => (u s (fst p), snd p))
      | None => match on_chars b with Some u => Some (fun s p => (fst p, u s (snd p))) | None => None end
      end
  end.

(** the loops *)
Section LOOP.
  Context {S : Type}.
  Variable p : policy.
  (* the arm for an element, applied to its attributes and the events after its start tag *)
  Variable arm : string -> option (attrs -> list event -> xres (S -> option S)).
  Variable chars : option (string -> S -> S).
  Variable n : string.
  Fixpoint loop (fuel : nat) (evs : list event) (st : S) : xres S :=
    match fuel with
    | 0 => XFuel
    | Datatypes.S fuel' =>
        match evs with
        | [] => match p with Open => XHang | _ => XErr end
        | EBad :: _ => XErr
        | EEnd m :: rest =>
            if String.eqb m n then XOk st rest
            else match p with Open => loop fuel' rest st | _ => XErr end
        | EStart m ats :: rest =>
            match arm m with
            | Some r =>
                xbind (r ats rest) (fun u rest' =>
                  match u st with Some st' => loop fuel' rest' st' | None => XErr end)
            | None =>
                match p with
                | Strict => XErr
                | Lax => xbind (skip [m] rest) (fun _ rest' => loop fuel' rest' st)
                | Open => loop fuel' rest st
                end
            end
        | EChars s :: rest =>
            match chars with
            | Some u => loop fuel' rest (u s st)
            | None => match p with Open => loop fuel' rest st | _ => XErr end
            end
        | _ :: rest => match p with Open => loop fuel' rest st | _ => XErr end
        end
    end.
  Variable odd : list event -> xres (S -> S).
  Fixpoint odd_loop (fuel : nat) (evs : list event) (st : S) : xres S :=
    match fuel with
    | 0 => XFuel
    | Datatypes.S fuel' =>
        match evs with
        | EBad :: _ => XErr
        | EEnd m :: rest =>
            if String.eqb m n then XOk st rest
            else xbind (odd rest) (fun u rest' => odd_loop fuel' rest' (u st))
        | EStart m ats :: rest =>
            match arm m with
            | Some r =>
                xbind (r ats rest) (fun u rest' =>
                  match u st with Some st' => odd_loop fuel' rest' st' | None => XErr end)
            | None => xbind (odd rest) (fun u rest' => odd_loop fuel' rest' (u st))
            end
        | evs => xbind (odd (tl evs)) (fun u rest' => odd_loop fuel' rest' (u st))
        end
    end.
End LOOP.

Definition xmap {A B} (f : A -> B) (r : xres A) : xres B := xbind r (fun a rest => XOk (f a) rest).

(** [run d n ats evs]: the reader [d] called for the element [n] with the attributes [ats], [evs]
    being the events after its start tag *)
Fixpoint run {A} (d : desc A) (n : string) (ats : attrs) (evs : list event) {struct d} : xres A :=
  match d in desc A return xres A with
  | DPrim p => run_prim p n evs
  | DMap f d =>
      xbind (run d n ats evs) (fun a rest =>
        match f n ats a with Some b => XOk b rest | None => XErr end)
  | DLoop p sh => loop p (run_arm sh) (on_chars sh) n (S (List.length evs)) evs (init sh)
  | DOdd sh d upd =>
      odd_loop (run_arm sh) n (fun evs => xmap upd (run d n [] evs)) (S (List.length evs)) evs (init sh)
  | DFuel => XFuel
  end
with run_arm {S} (sh : shape S) (m : string) {struct sh}
  : option (attrs -> list event -> xres (S -> option S)) :=
  match sh in shape S return option (attrs -> list event -> xres (S -> option S)) with
  | SNone _ | SChars _ _ => None
  | SOn tag d _ upd =>
      if String.eqb m tag then Some (fun ats evs => xmap upd (run d m ats evs)) else None
  | SOr a b => match run_arm a m with Some r => Some r | None => run_arm b m end
  | SPair a b =>
      match run_arm a m with
      | Some r => Some (fun ats evs => xmap on_fst (r ats evs))
      | None =>
          match run_arm b m with
          | Some r => Some (fun ats evs => xmap on_snd (r ats evs))
          | None => None
          end
      end
  end.

(** ** Common arms *)
(** [field = Some(..)]: the last one wins *)
Definition one {A} (tag : string) (d : desc A) : shape (option A) := SOn tag d None (fun a _ => Some (Some a)).
(** [items.push(..)] *)
Definition many {A} (tag : string) (d : desc A) : shape (list A) := SOn tag d [] (fun a l => Some (l ++ [a])).
(** [items.get_or_insert(Vec::new()).push(..)] *)
Definition many_opt {A} (tag : string) (d : desc A) : shape (option (list A)) :=
  SOn tag d None (fun a o => Some (Some (match o with Some l => l | None => [] end ++ [a]))).
Definition list_of {A} (p : policy) (tag : string) (d : desc A) : desc (list A) := DLoop p (many tag d).
(** arms that only exist in some versions of the specification *)
Definition from {S} (b : bool) (sh : shape S) : shape S := if b then sh else SNone (init sh).
(** a struct: its children, then attributes and required fields *)
Definition struct {S A} (p : policy) (sh : shape S) (fin : attrs -> S -> option A) : desc A :=
  DMap (fun _ ats st => fin ats st) (DLoop p sh).

Declare Scope shape_scope.
Delimit Scope shape_scope with shape.
Notation "a ** b" := (SPair a b) (at level 55, right associativity) : shape_scope.
Bind Scope shape_scope with shape.

(** elements with text content *)
Definition d_string : desc string := DPrim PSimple.
Definition d_text {A} (f : string -> option A) : desc A := DMap (fun _ _ s => f s) (DPrim PSimple).
Definition d_bool : desc bool := d_text xml_bool.
Definition d_u32 : desc u32 := DMap (fun _ _ s => xml_u32_trim s) (DPrim PText).

(** ** Writing
    [xml::writer] events as trees.  An element's children are given in groups, one per
    field (a group contains elements of one tag only). *)
Definition el (n : string) (ats : attrs) (kids : list xml) : xml := Elem n ats kids.
(** xml.rs:69-86 *)
Definition simple (n : string) (s : string) : xml := Elem n [] [Text s].
(** an optional child, a list of children *)
Definition opt {A} (f : A -> xml) (o : option A) : list xml := match o with Some a => [f a] | None => [] end.
(** an optional attribute *)
Definition attr_opt (n : string) (o : option string) : attrs := match o with Some s => [(n, s)] | None => [] end.
(** xml.rs:120-132, 134-147: a list inside its own element *)
Definition list_tag {A} (n : string) (f : A -> xml) (l : list A) : xml := Elem n [] (map f l).

(** ** From a written document to the events of reading it again
    The writer is configured with [perform_indent] (models/bom.rs:186-188), the reader with
    [trim_whitespace] (:176): character data comes back without the white space around it
    and white space alone is not reported; CDATA sections come back as they are.  Attributes of the
    same name in one element are an error of the reader.  Trusted: everything else about
    xml-rs, i.e. that other text and attribute values come back unchanged. *)
Definition xml_space (a : ascii) : bool :=
  match nat_of_ascii a with 9 | 10 | 13 | 32 => true | _ => false end.
Fixpoint xtrim_start (s : string) : string :=
  match s with String a s' => if xml_space a then xtrim_start s' else s | "" => "" end.
Fixpoint xtrim_end (s : string) : string :=
  match s with
  | "" => ""
  | String a s' => match xtrim_end s' with
                   | "" => if xml_space a then "" else String a ""
                   | t => String a t
                   end
  end.
Definition xtrim (s : string) : string := xtrim_end (xtrim_start s).

Fixpoint reparse (x : xml) : list xml :=
  match x with
  | Elem n ats kids => [Elem n ats (flat_map reparse kids)]
  | Text s => match xtrim s with "" => [] | t => [Text t] end
  | CData s => [CData s]
  | PI => [PI]
  end.
Definition reparses (l : list xml) : list xml := flat_map reparse l.

Fixpoint distinct (l : list string) : bool :=
  match l with [] => true | x :: l' => negb (existsb (String.eqb x) l') && distinct l' end.
Fixpoint attrs_ok (x : xml) : bool :=
  match x with
  | Elem _ ats kids => distinct (map fst ats) && forallb attrs_ok kids
  | _ => true
  end.

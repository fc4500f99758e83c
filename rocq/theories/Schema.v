(** JSON Schema (draft-07), as far as the CycloneDX schemas use it: the keywords as data,
    and a validator.

    The validator follows the JSON Schema Validation specification: every keyword constrains
    values of one type and accepts the others; the keywords of a schema are a conjunction.
    [$ref] can lead back to the schema it stands in, so the validator is bounded by a number of
    steps and says nothing when they run out; [conforms] asks for some number of steps with
    which the answer is yes, and [violates] for one with which it is no.

    Simplifications: a number written with a fraction or exponent is never an "integer"
    (the library writes no such number where an integer is asked for), and the length of a
    string is the number of its bytes that do not continue a UTF-8 character. *)
From Verif Require Import Base ModelTypes Strings Regex Json.
From Coq Require Import ZArith.
Open Scope string_scope.
Open Scope list_scope.

Inductive jtype := Ty_object | Ty_array | Ty_string | Ty_integer | Ty_number | Ty_boolean.

Inductive schema := Sch (ks : list keyword)
with keyword :=
| KType (t : jtype)
| KEnum (l : list string)
| KRequired (l : list string)
| KProperties (ps : list (string * schema))
| KOnly (l : list string)                  (* additionalProperties: false; the names in properties *)
| KItems (s : schema)
| KTuple (l : list schema)                 (* items, given as a list *)
| KUnique
| KPattern (r : re)
| KFormat (f : string)
| KAnyOf (l : list schema)
| KOneOf (l : list schema)
| KAllOf (l : list schema)
| KMinimum (z : Z)
| KMaximum (z : Z)
| KMinLength (n : N)
| KMaxLength (n : N)
| KMinItems (n : N)
| KMaxItems (n : N)
| KRef (r : string).

Definition keywords (s : schema) : list keyword := let (ks) := s in ks.

Fixpoint assoc {A} (k : string) (l : list (string * A)) : option A :=
  match l with
  | [] => None
  | (k', a) :: l' => if String.eqb k k' then Some a else assoc k l'
  end.

(** ** Equality of JSON values: numbers by value, objects without regard to the order *)

(** the number [m * 2 ^ e] *)
Definition same_number (a b : Z * Z) : bool :=
  let e := Z.min (snd a) (snd b) in
  (fst a * 2 ^ (snd a - e) =? fst b * 2 ^ (snd b - e))%Z.
Definition number (j : json) : option (Z * Z) :=
  match j with
  | JInt z => Some (z, 0%Z)
  | JFloat (F_fin neg m e) => Some ((if neg then - Z.of_N m else Z.of_N m)%Z, e)
  | _ => None
  end.

Fixpoint same (a b : json) {struct a} : bool :=
  match a, b with
  | JNull, JNull => true
  | JBool x, JBool y => Bool.eqb x y
  | JStr x, JStr y => String.eqb x y
  | JArr x, JArr y =>
      (fix go (x y : list json) {struct x} : bool :=
         match x, y with
         | [], [] => true
         | a' :: x', b' :: y' => same a' b' && go x' y'
         | _, _ => false
         end) x y
  | JObj x, JObj y =>
      Nat.eqb (List.length x) (List.length y)
      && (fix go (x : list (string * json)) : bool :=
            match x with
            | [] => true
            | (k, a') :: x' => match assoc k y with Some b' => same a' b' | None => false end && go x'
            end) x
  | _, _ => match number a, number b with Some p, Some q => same_number p q | _, _ => false end
  end.

(** no two elements are equal *)
Fixpoint all_different (l : list json) : bool :=
  match l with
  | [] => true
  | x :: l' => forallb (fun y => negb (same x y)) l' && all_different l'
  end.

(** ** Three-valued logic: [None] is "out of steps" *)
Definition and3 (a b : option bool) : option bool :=
  match a, b with
  | Some false, _ | _, Some false => Some false
  | Some true, Some true => Some true
  | _, _ => None
  end.
Definition or3 (a b : option bool) : option bool :=
  match a, b with
  | Some true, _ | _, Some true => Some true
  | Some false, Some false => Some false
  | _, _ => None
  end.
Definition all3 {A} (f : A -> option bool) (l : list A) : option bool :=
  fold_right (fun x r => and3 (f x) r) (Some true) l.
Definition any3 {A} (f : A -> option bool) (l : list A) : option bool :=
  fold_right (fun x r => or3 (f x) r) (Some false) l.
(** how many are true *)
Fixpoint count3 {A} (f : A -> option bool) (l : list A) : option nat :=
  match l with
  | [] => Some 0
  | x :: l' =>
      match f x, count3 f l' with
      | Some b, Some n => Some (if b then S n else n)
      | _, _ => None
      end
  end.

(** ** The validator *)
Definition has_type (t : jtype) (j : json) : bool :=
  match t, j with
  | Ty_object, JObj _ | Ty_array, JArr _ | Ty_string, JStr _ | Ty_integer, JInt _
  | Ty_number, JInt _ | Ty_number, JFloat _ | Ty_boolean, JBool _ => true
  | _, _ => false
  end.
(** the characters of a UTF-8 text: the bytes that are not of the form 10xxxxxx *)
Definition continues (c : ascii) : bool :=
  (128 <=? N_of_ascii c)%N && (N_of_ascii c <? 192)%N.
Fixpoint chars (s : string) : N :=
  match s with
  | "" => 0%N
  | String c s' => if continues c then chars s' else N.succ (chars s')
  end.
(** [m * 2 ^ e] compared with an integer *)
Definition at_least (z : Z) (p : Z * Z) : bool :=
  (z * 2 ^ Z.max (- snd p) 0 <=? fst p * 2 ^ Z.max (snd p) 0)%Z.
Definition at_most (z : Z) (p : Z * Z) : bool :=
  (fst p * 2 ^ Z.max (snd p) 0 <=? z * 2 ^ Z.max (- snd p) 0)%Z.

Section Validate.
(** [fmt f s]: the text [s] has the format [f] ("date-time", "iri-reference", ...) *)
Variable fmt : string -> string -> bool.
(** the named definitions *)
Variable D : list (string * schema).

Definition on_string (j : json) (p : string -> bool) : option bool :=
  Some (match j with JStr s => p s | _ => true end).
Definition on_number (j : json) (p : Z * Z -> bool) : option bool :=
  Some (match number j with Some q => p q | None => true end).
Definition on_array (j : json) (p : list json -> option bool) : option bool :=
  match j with JArr l => p l | _ => Some true end.
Definition on_object (j : json) (p : list (string * json) -> option bool) : option bool :=
  match j with JObj l => p l | _ => Some true end.

(** one keyword, the schemas in it being judged by [rec] *)
Definition judge (rec : schema -> json -> option bool) (k : keyword) (j : json) : option bool :=
  match k with
  | KType t => Some (has_type t j)
  | KEnum l => Some (match j with JStr s => existsb (String.eqb s) l | _ => false end)
  | KRequired l =>
      on_object j (fun o => Some (forallb (fun n => existsb (fun m => String.eqb n (fst m)) o) l))
  | KProperties ps =>
      on_object j (all3 (fun m => match assoc (fst m) ps with Some s => rec s (snd m) | None => Some true end))
  | KOnly l => on_object j (fun o => Some (forallb (fun m => existsb (String.eqb (fst m)) l) o))
  | KItems s => on_array j (all3 (rec s))
  | KTuple ss => on_array j (fun l => all3 (fun p => rec (fst p) (snd p)) (combine ss l))
  | KUnique => on_array j (fun l => Some (all_different l))
  | KPattern r => on_string j (is_match r)
  | KFormat f => on_string j (fmt f)
  | KAnyOf ss => any3 (fun s => rec s j) ss
  | KOneOf ss => match count3 (fun s => rec s j) ss with Some n => Some (Nat.eqb n 1) | None => None end
  | KAllOf ss => all3 (fun s => rec s j) ss
  | KMinimum z => on_number j (at_least z)
  | KMaximum z => on_number j (at_most z)
  | KMinLength n => on_string j (fun s => (n <=? chars s)%N)
  | KMaxLength n => on_string j (fun s => (chars s <=? n)%N)
  | KMinItems n => on_array j (fun l => Some (n <=? N.of_nat (List.length l))%N)
  | KMaxItems n => on_array j (fun l => Some (N.of_nat (List.length l) <=? n)%N)
  | KRef r => match assoc r D with Some s => rec s j | None => Some false end
  end.
Fixpoint validates (n : nat) (s : schema) (j : json) : option bool :=
  match n with
  | O => None
  | S n' => all3 (fun k => judge (validates n') k j) (keywords s)
  end.

Definition conforms (s : schema) (j : json) : Prop := exists n, validates n s j = Some true.
Definition violates (s : schema) (j : json) : Prop := exists n, validates n s j = Some false.
End Validate.

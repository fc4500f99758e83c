(** JSON values as serde_json sees them, and the pieces of serde's derived
    [Serialize]/[Deserialize] code the library relies on.

    The translation between JSON text and these values is serde_json's and is
    trusted, as is the text form of floating point numbers: a finite [f32] is
    written as a number that reads back as the same [f32]. *)
From Verif Require Import Base ModelTypes.
From Coq Require Import ZArith.
Open Scope string_scope.
Open Scope list_scope.

(** A JSON document.  Numbers without fraction or exponent are [JInt]; other
    numbers are kept as the [f32] they are read as.  Objects keep their members
    in document order, repetitions included. *)
Inductive json :=
| JNull
| JBool (b : bool)
| JInt (z : Z)
| JFloat (f : f32)
| JStr (s : string)
| JArr (l : list json)
| JObj (l : list (string * json)).

Definition bindo {A B} (x : option A) (f : A -> option B) : option B :=
  match x with Some a => f a | None => None end.
Notation "'let?' x := e 'in' f" := (bindo e (fun x => f))
  (at level 200, x pattern, e at level 100, f at level 200, right associativity).

Definition orelse {A} (x y : option A) : option A :=
  match x with Some a => Some a | None => y end.

(** ** Writing *)

(** A derived [Serialize] for a struct: the members in declaration order, those
    with [skip_serializing_if] and nothing to say left out ([None]). *)
Fixpoint members (fs : list (string * option json)) : list (string * json) :=
  match fs with
  | [] => []
  | (k, Some x) :: fs' => (k, x) :: members fs'
  | (_, None) :: fs' => members fs'
  end.
Definition obj (fs : list (string * option json)) : json := JObj (members fs).

(** a field written only when present: [skip_serializing_if = "Option::is_none"] *)
Definition opt {A} (f : A -> json) (x : option A) : option json := option_map f x.
(** an [Option] field without [skip_serializing_if]: [null] when absent *)
Definition opt_null {A} (f : A -> json) (x : option A) : option json :=
  Some (match x with Some a => f a | None => JNull end).
(** a field of a versioned struct: absent from the struct of other versions *)
Definition when (b : bool) (x : option json) : option json := if b then x else None.
Definition arr {A} (f : A -> json) (l : list A) : json := JArr (map f l).

(** serde_json: [f32] that are not finite are written [null] *)
Definition to_json_f32 (f : f32) : json :=
  match f with F_fin _ _ _ => JFloat f | _ => JNull end.
Definition to_json_u32 (n : u32) : json := JInt (Z.of_N (u32_N n)).

(** ** Reading *)

Definition dec_str (j : json) : option string := match j with JStr s => Some s | _ => None end.
Definition dec_bool (j : json) : option bool := match j with JBool b => Some b | _ => None end.

(** [u32]: an integer in range *)
Definition u32_of_N (n : N) : option u32 :=
  match (n <? 4294967296)%N as b return ((n <? 4294967296)%N = b -> option u32) with
  | true => fun H => Some (mkU32 n H)
  | false => fun _ => None
  end eq_refl.
Definition dec_u32 (j : json) : option u32 :=
  match j with
  | JInt z => if (z <? 0)%Z then None else u32_of_N (Z.to_N z)
  | _ => None
  end.

(** an integer as the nearest [f32], ties to even ([as f32]) *)
Definition f32_of_Z (z : Z) : f32 :=
  let n := Z.to_N (Z.abs z) in
  let e := (N.log2 n - 23)%N in
  let q := N.shiftr n e in
  let r := (n - N.shiftl q e)%N in
  let half := N.shiftl 1 (e - 1) in
  let up := if (e =? 0)%N then false
            else if (half <? r)%N then true
            else if (r =? half)%N then N.odd q else false in
  F_fin (z <? 0)%Z (if up then q + 1 else q)%N (Z.of_N e).
Definition dec_f32 (j : json) : option f32 :=
  match j with JFloat f => Some f | JInt z => Some (f32_of_Z z) | _ => None end.

(** [Vec<T>]: every element must be readable *)
Definition dec_list {A} (f : json -> option A) (j : json) : option (list A) :=
  match j with
  | JArr l =>
      (fix go (l : list json) : option (list A) :=
         match l with
         | [] => Some []
         | x :: l' => let? y := f x in let? ys := go l' in Some (y :: ys)
         end) l
  | _ => None
  end.

(** [Option<T>]: [null] is [None] *)
Definition nullable {A} (f : json -> option A) (j : json) : option (option A) :=
  match j with JNull => Some None | _ => let? a := f j in Some (Some a) end.

(** What a derived [Deserialize] of a struct with the fields [ks] accepts at all:
    an object in which none of the fields is repeated, or an array with at most
    as many elements as there are fields.  Unknown members are ignored. *)
Fixpoint count_key (k : string) (l : list (string * json)) : nat :=
  match l with
  | [] => 0
  | (k', _) :: l' => (if String.eqb k k' then 1 else 0) + count_key k l'
  end.
Definition struct_ok (ks : list string) (j : json) : bool :=
  match j with
  | JObj l => forallb (fun k => Nat.leb (count_key k l) 1) ks
  | JArr l => Nat.leb (List.length l) (List.length ks)
  | _ => false
  end.

(** The value of the field [k] of a struct with the fields [ks], read by [f]:
    [None] when it cannot be read, [Some None] when it is absent. *)
Definition get {A} (f : json -> option A) (ks : list string) (k : string) (j : json)
  : option (option A) :=
  match j with
  | JObj l =>
      (fix go (l : list (string * json)) : option (option A) :=
         match l with
         | [] => Some None
         | (k', x) :: l' => if String.eqb k k' then let? a := f x in Some (Some a) else go l'
         end) l
  | JArr l =>
      (fix go (l : list json) (ks : list string) {struct l} : option (option A) :=
         match l, ks with
         | x :: l', k' :: ks' =>
             if String.eqb k k' then let? a := f x in Some (Some a) else go l' ks'
         | _, _ => Some None
         end) l ks
  | _ => None
  end.

(** a required field *)
Definition field {A} (f : json -> option A) (ks : list string) (k : string) (j : json) : option A :=
  let? o := get f ks k j in o.
(** a field of [Option] type: absent from an object means [None], but an array
    must be long enough to reach it *)
Definition field_opt {A} (f : json -> option A) (ks : list string) (k : string) (j : json)
  : option (option A) :=
  let? o := get (nullable f) ks k j in
  match o with
  | Some a => Some a
  | None => match j with JObj _ => Some None | _ => None end
  end.
(** a field with [#[serde(default)]] *)
Definition field_default {A} (d : A) (f : json -> option A) (ks : list string) (k : string)
  (j : json) : option A :=
  let? o := get f ks k j in
  match o with Some a => Some a | None => Some d end.
(** a field the struct of this version does not have: nothing is read *)
Definition field_when {A} (b : bool) (x : option (option A)) : option (option A) :=
  if b then x else Some None.

(** [serde_json::Value] holds the members of an object in a [BTreeMap]: one member per
    key, the last one of the document, in the order of the keys. *)
Fixpoint put (k : string) (x : json) (l : list (string * json)) : list (string * json) :=
  match l with
  | [] => [(k, x)]
  | (k', x') :: l' =>
      match String.compare k k' with
      | Eq => (k, x) :: l'
      | Lt => (k, x) :: l
      | Gt => (k', x') :: put k x l'
      end
  end.
Fixpoint to_value (j : json) : json :=
  match j with
  | JArr l => JArr (map to_value l)
  | JObj l => JObj (fold_left (fun m p => put (fst p) (to_value (snd p)) m) l [])
  | _ => j
  end.

Fixpoint assoc {A} (k : string) (fs : list (string * A)) : option A :=
  match fs with
  | [] => None
  | (k', x) :: fs' => if String.eqb k k' then Some x else assoc k fs'
  end.
Fixpoint memb (k : string) (ks : list string) : bool :=
  match ks with [] => false | k' :: ks' => String.eqb k k' || memb k ks' end.
Fixpoint nodupb (ks : list string) : bool :=
  match ks with [] => true | k :: ks' => negb (memb k ks') && nodupb ks' end.

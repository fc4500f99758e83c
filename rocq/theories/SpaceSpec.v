(** White space, said with Unicode: the characters with the property White_Space, in UTF-8 *)
From Verif Require Import Base Strings.
From Coq Require Import NArith.
Open Scope string_scope.
Open Scope list_scope.

(** The bytes of a character below U+10000 *)
Definition byte (n : N) : string := String (ascii_of_N n) "".
Definition utf8 (c : N) : string :=
  if (c <? 128)%N then byte c
  else if (c <? 2048)%N then (byte (192 + c / 64) ++ byte (128 + c mod 64))%string
  else (byte (224 + c / 4096) ++ byte (128 + (c / 64) mod 64) ++ byte (128 + c mod 64))%string.
(** U+0009 to U+000D, U+0020, U+0085, U+00A0, U+1680, U+2000 to U+200A, U+2028, U+2029, U+202F, U+205F, U+3000 *)
Definition white_space (c : N) : Prop :=
  (9 <= c <= 13 \/ c = 32 \/ c = 133 \/ c = 160 \/ c = 5760 \/ 8192 <= c <= 8202 \/ c = 8232 \/ c = 8233 \/ c = 8239 \/ c = 8287 \/ c = 12288)%N.
Inductive blank_text : string -> Prop :=
| blank_nil : blank_text ""
| blank_cons c s : white_space c -> blank_text s -> blank_text (utf8 c ++ s).

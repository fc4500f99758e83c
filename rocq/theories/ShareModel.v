(** Several programs that write to the same disk: where in a file a program writes.
    In RunModel.v the text goes to the end of the file, which is right as long as nobody else has the file open.  Here each
    program has a position of its own, as the operating system keeps it. *)
From Verif Require Import Base Strings ModelTypes ConfigModel GenModel RunModel.
Open Scope string_scope.
Open Scope list_scope.

(** [write] on a file whose content is [c], at position [pos]: what is missing before that position becomes zeros *)
Fixpoint write_at (c : string) (pos : nat) (s : string) : string :=
  match pos with
  | 0 => (s ++ drop (String.length s) c)%string
  | S p => match c with
           | "" => String "000" (write_at "" p s)
           | String a c' => String a (write_at c' p s)
           end
  end.
Definition content (d : disk) (p : path) : string := match d p with Some c => c | None => "" end.
Definition writing (s : state) : bool := match s with Writing _ _ _ _ _ => true | _ => false end.
(** generator.rs:877-893: [File::create] truncates the file for everybody and starts at position 0; the text is then written in
    pieces.  All other steps are those of RunModel.v. *)
Inductive pstep (m : machine) : state -> nat -> state -> nat -> Prop :=
| p_write f s t fs gs d n : s <> ""%string ->
    pstep m (Writing f (Done (s ++ t)%string) fs gs d) n
            (Writing f (Done t) fs gs (put d (f_path f) (write_at (content d (f_path f)) n s))) (n + String.length s)
| p_other s t n : step m s t -> writing s && writing t = false -> pstep m s n t 0.
Inductive psteps (m : machine) : state -> nat -> state -> nat -> Prop :=
| psteps_refl s n : psteps m s n s n
| psteps_next s n t k u j : psteps m s n t k -> pstep m t k u j -> psteps m s n u j.

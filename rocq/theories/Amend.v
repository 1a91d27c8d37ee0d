(** * Amend: keys that are taken back (C82). *)
From Verif Require Import Shell Spec Editor Session Forget LineEnd.

(** Keys that cancel each other, needing room for [r] more characters: a character, further such
    keys, and the key that erases the character; cursor keys and the like. *)
Inductive scrap : nat -> bytes -> Prop :=
| scrap_none : forall r, scrap r []
| scrap_typo : forall r c p b q, plain_key c = true -> erase_key b = true -> scrap r p -> scrap (S r) q -> scrap (S r) (c :: p ++ b :: q)
| scrap_cursor : forall r o k q, o = "["%char \/ o = "O"%char -> swallowed_key k -> scrap r q -> scrap r (ESC :: o :: k :: q).

(** Anything but TAB and Enter, then Ctrl-C. *)
Definition abandoned (p : bytes) : Prop :=
  exists q, p = q ++ [ETX] /\ ~ In TAB q /\ ~ In CR q /\ ~ In LF q.

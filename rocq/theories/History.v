(** * History: vocabulary for statements about the event log. *)
From Verif Require Import Shell.

Definition is_eol (c : byte) : bool := ceq c CR || ceq c LF.

(** The call of a file's exec callback. *)
Definition file_exec (e : event) : bool :=
  match e with EvExec _ (Some _) _ => true | _ => false end.
Definition input_event (e : event) : bool :=
  match e with EvIn _ => true | _ => false end.

(** The call of the application-wide exec hook. *)
Definition hook_exec (e : event) : bool :=
  match e with EvExec _ None _ => true | _ => false end.

(** Neither a byte read nor a call of the kind [p]. *)
Definition in_between (p : event -> bool) (e : event) : Prop := p e = false /\ input_event e = false.

(** Every call of the kind [p] follows the end-of-line byte that caused it: in between
    nothing was read and no other such call was made. *)
Definition one_per_line (p : event -> bool) (l : list event) : Prop :=
  forall a x b, l = a ++ x :: b -> p x = true ->
  exists a1 c m, a = a1 ++ EvIn c :: m /\ is_eol c = true /\ Forall (in_between p) m.

(** Counting. *)
Definition count (p : event -> bool) (l : list event) : nat := length (filter p l).
Definition file_execs (l : list event) : nat := count file_exec l.
Definition lines_read (l : list event) : nat := length (filter is_eol (ins l)).

(** The call of the application-wide exec hook, if the descriptor has one, for a line
    with the words [ws]. *)
Definition hook_events (d : desc) (ws : list bytes) : list event :=
  match d_exec d with Some h => [EvExec (XUser h) None ws] | None => [] end.

(** All exec callbacks get at least one word.  The hook is the one of the descriptor, and
    every call of a file directly follows a call of the hook with the same words, if there
    is a hook. *)
Definition hooked (d : desc) (l : list event) : Prop :=
  forall a cb who ws b, l = a ++ EvExec cb who ws :: b ->
  ws <> [] /\
  match who with
  | None => [EvExec cb None ws] = hook_events d ws
  | Some _ => exists a1, a = a1 ++ hook_events d ws
  end.

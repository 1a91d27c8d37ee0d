(** * Again: input typed again and again (C86). *)
From Verif Require Import Shell Session Forget.

(** The application answers alike whatever was read before. *)
Definition memoryless (x : setting) : Prop := forall h h', x_app x h = x_app x h'.

(** [k] times the same. *)
Fixpoint times {A} (k : nat) (l : list A) : list A := match k with 0 => [] | S k => l ++ times k l end.

(** Complete lines, within the limits when typed in the session [a], none of which runs cd. *)
Definition plain_lines (own : list nat) (x : setting) (a : sess) (cs : bytes) : Prop :=
  (exists q c, cs = q ++ [c] /\ ends_line (snd (sess_run x a q)) c = true) /\ never_cd x a cs /\ run_limits own x a cs.

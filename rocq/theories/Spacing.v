(** * Spacing: lines with the same words (C76). *)
From Verif Require Import Shell Spec Words Sched Editor Line Tree Cmds Session.

(** Both sessions are about to end a line; the lines consist of the same words, however they
    have been typed, spaced and quoted. *)
Definition same_words (x : setting) (a b : sess) : Prop :=
  se_world a = se_world b /\ se_esc a = 0 /\ se_esc b = 0 /\ line_argv x a = line_argv x b.

(** At the end of the text no quote is open and no backslash waits for a character. *)
Fixpoint closed (quoted : bool) (l : bytes) : bool :=
  match l with
  | [] => negb quoted
  | c :: r =>
      if ceq c BSL then match r with [] => false | _ :: r' => closed quoted r' end
      else if ceq c DQ then closed (negb quoted) r
      else closed quoted r
  end.

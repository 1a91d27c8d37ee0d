(** * Sizes: two shells that differ in the sizes of their buffers (C68). *)
From Verif Require Import Shell Words Editor Cmds Session.

(** The same application and descriptor, but for input buffer, output buffer and path_max_length. *)
Definition same_but_sizes (x y : setting) : Prop :=
  d_host (x_desc x) = d_host (x_desc y) /\ d_exec (x_desc x) = d_exec (x_desc y) /\
  d_cfg (x_desc x) = d_cfg (x_desc y) /\ forall h, x_app x h = x_app y h.

(** Whenever one of the bytes [cs] arrives, two bytes of an input buffer of [n] bytes are free. *)
Fixpoint short_lines (n : nat) (x : setting) (a : sess) (cs : bytes) : Prop :=
  match cs with
  | [] => True
  | c :: r => S (length (se_line a)) < n /\ short_lines n x (snd (sess_step x a c)) r
  end.

(** Whatever line of fewer than [n - 1] bytes is run: the texts its callbacks (the hook's
    first) print with ush_printf fit in an output buffer of [m] bytes, after the echo of the
    end of line. *)
Definition modest (n m : nat) (x : setting) : Prop :=
  forall h l, S (length l) < n -> let e := x_app x h in let ws := argv_of l in
  let fit (calls : list action) := 2 + length (formatted (hook_calls e (x_desc x) ws ++ calls)) < m in
  (forall k f, fit (e_exec e k f ws)) /\ (forall k f t, fit (e_set e k f t)) /\ fit [].

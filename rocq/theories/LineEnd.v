(** * LineEnd: the same input with other line ends (C80). *)
From Verif Require Import Shell Words Editor Cmds Session.

(** The same key, or CR for LF or the reverse. *)
Definition same_key (c d : byte) : Prop := c = d \/ (c = CR /\ d = LF) \/ (c = LF /\ d = CR).

(** The application does not care about the kind of line ends. *)
Definition any_line_end (x : setting) : Prop := forall h h', Forall2 same_key h h' -> x_app x h = x_app x h'.

(** The same events, but for the line ends read and their echo: CR is echoed as CR LF, LF as LF;
    inside an escape sequence neither is echoed. *)
Inductive but_line_ends : list event -> list event -> Prop :=
| ble_nil : but_line_ends [] []
| ble_same : forall e l m, but_line_ends l m -> but_line_ends (e :: l) (e :: m)
| ble_cr : forall l m, but_line_ends l m -> but_line_ends (EvIn CR :: EvOut CR :: EvOut LF :: l) (EvIn LF :: EvOut LF :: m)
| ble_lf : forall l m, but_line_ends l m -> but_line_ends (EvIn LF :: EvOut LF :: l) (EvIn CR :: EvOut CR :: EvOut LF :: m)
| ble_cr_swallowed : forall l m, but_line_ends l m -> but_line_ends (EvIn CR :: l) (EvIn LF :: m)
| ble_lf_swallowed : forall l m, but_line_ends l m -> but_line_ends (EvIn LF :: l) (EvIn CR :: m).

(** The calls of callbacks. *)
Definition callbacks (l : list event) : list event := filter (fun e => match e with EvIn _ | EvOut _ => false | _ => true end) l.

(** Whatever is run, what the callbacks print with ush_printf fits in the output buffer. *)
Definition prints_fit (x : setting) : Prop :=
  forall h ws, let e := x_app x h in let d := x_desc x in
  let fit (calls : list action) := 2 + length (formatted (hook_calls e d ws ++ calls)) < d_outsize d in
  (forall k f, fit (e_exec e k f ws)) /\ (forall k f t, fit (e_set e k f t)) /\ fit [].

(** The two sessions stand alike, having read the same but for line ends. *)
Definition alike_but_ends (a b : sess) : Prop :=
  se_world a = se_world b /\ Forall2 same_key (se_read a) (se_read b) /\ se_esc a = se_esc b /\ se_line a = se_line b.

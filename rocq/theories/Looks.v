(** * Looks: two shells that differ in how they look (C81). *)
From Verif Require Import Shell Session.

(** The same application, hook, input buffer and completion switch; host name, colours, texts of
    messages, column widths, output buffer and path_max_length may differ. *)
Definition same_but_looks (x y : setting) : Prop :=
  d_insize (x_desc x) = d_insize (x_desc y) /\ d_exec (x_desc x) = d_exec (x_desc y) /\
  cfg_autocomp (d_cfg (x_desc x)) = cfg_autocomp (d_cfg (x_desc y)) /\ forall h, x_app x h = x_app y h.

(** The calls of callbacks, and the bytes read, in their order. *)
Definition unseen (l : list event) : list event := filter (fun e => match e with EvOut _ => false | _ => true end) l.

(** * A shell object that is shut down and started again

    Specification for property C58. *)
From Verif Require Import Shell Tree Session Busy.

(** Right after ush_init there are no directories, and only the built-in commands. *)
Definition first_world (b : nat) (d : desc) : world :=
  mkWorld [] (if cfg_commands (d_cfg d) then [(b, buildin_commands (d_cfg d))] else []) None.

(** A descriptor [d] with buffers [ib] and [ob] that ush_init accepts, and correct calls [os]
    after it that mount the root. *)
Definition right_start (own : list nat) (b : nat) (d : desc) (ib ob : bytes) (os : list treeop) : Prop :=
  2 <= d_insize d /\ 4 <= d_outsize d /\ length ib = d_insize d /\ length ob = d_outsize d /\
  (cfg_commands (d_cfg d) = true -> buildin_commands (d_cfg d) <> []) /\
  all_allowed (d_pathmax d) own os (first_world b d) /\ w_cwd (snd (spec_ops os (first_world b d))) <> None.

(** The shell object (with the node object [b] in it) has never been used, or has been shut
    down.  A life begins with ush_init and the calls [os]; then come service calls with any
    schedule, and API calls at any points ([lived] in Busy.v); it ends, at any moment, with
    ush_deinit.  Each life may have another descriptor and another application. *)
Inductive retired (own : list nat) (b : nat) : st -> Prop :=
| never_used : forall d0 ib0 ob0 h l, In b own -> (forall i, In i own -> nth_error h i = Some node_zero) ->
    retired own b (st_zero d0 b ib0 ob0 h l)
| shut_down : forall s d ib ob os f W s0 rs s1 ops held s2 s3, retired own b s ->
    right_start own b d ib ob os -> ush_init d ib ob s = Ok s0 -> do_ops os s0 = Ok (rs, s1) ->
    let x := mkSetting d f in let w := snd (spec_ops os (first_world b d)) in
    ample own x W -> W w -> lived own x W w s1 ops held s2 -> ush_deinit s2 = Ok s3 ->
    retired own b s3.

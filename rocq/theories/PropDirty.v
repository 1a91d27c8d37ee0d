(** * Property C67: what must be zeroed before a shell is used.

    Vocabulary: [dirty_object] in Dirty.v; [first_world], [right_start] in Lives.v; [begins] in
    Busy.v; [run_limits], [sess_run], [shows] in Session.v; [drive], [both_ready], [prompt] in
    Sched.v. *)
From Coq Require Import Arith Lia.
From Verif Require Import Shell BaseFacts Words Sched Line Editor Spec Tree TreeFacts Cmds Complete Session Busy Lives Dirty DirtyProofs Demo PropTree PropSession PropReconf PropInterrupt PropBusy PropLives.

(** C67: an object with any contents, but for the two kinds of pointers that [dirty_object] names,
    is initialised and starts like one that was zeroed (C54 applies from there on). *)
Theorem C67_start : forall own b s d ib ob os f, dirty_object own b s -> right_start own b d ib ob os ->
  let w := snd (spec_ops os (first_world b d)) in
  exists s0 s1, ush_init d ib ob s = Ok s0 /\ do_ops os s0 = Ok (fst (spec_ops os (first_world b d)), s1) /\
    begins own (mkSetting d f) w s1.
Proof. exact C67_start_proof. Qed.
Print Assumptions C67_start.

(** C67: the session prints what it prints on a zeroed object; what the object held shows nowhere. *)
Theorem C67_session : forall own b s d ib ob os f, dirty_object own b s -> right_start own b d ib ob os ->
  let w := snd (spec_ops os (first_world b d)) in let x := mkSetting d f in let a := mkSess w (ins (lg s)) 0 [] in
  forall cs, run_limits own x a cs ->
  exists s0 s1, ush_init d ib ob s = Ok s0 /\ do_ops os s0 = Ok (fst (spec_ops os (first_world b d)), s1) /\
    (forall l, exists q s2, drive (app_of x) cs l s1 = Ok (q, s2) /\
       (polling s2 -> exists p, cs = p ++ q /\ shows own x (snd (sess_run x a p)) s2 /\
          lg s2 = lg s ++ map EvOut ((lit "uShell 0.1.0" ++ [CR; LF]) ++ prompt d (show (here w))) ++ fst (sess_run x a p))) /\
    exists n, forall l, n <= both_ready l -> exists s2, drive (app_of x) cs l s1 = Ok ([], s2) /\ polling s2.
Proof. exact C67_session_proof. Qed.
Print Assumptions C67_session.

(** C67: neither condition can be dropped.  With a stale list of command groups the object is
    initialised, but running an unknown command follows the stale pointer. *)
Theorem C67_commands_needed : exists s d ib ob os s0 s1 rs,
  (forall i, In i demo_own -> nth_error (hp s) i = Some node_zero) /\ o_cmds s <> None /\ o_buildin s = 0 /\
  right_start demo_own 0 d ib ob os /\ ush_init d ib ob s = Ok s0 /\ do_ops os s0 = Ok (rs, s1) /\
  exists l, drive (app_of lively_setting) (lit "bogus" ++ [CR]) l s1 = Err ENull.
Proof.
  exists (set_cmds (Some 99) demo_blank), demo_desc, (repeat NUL 32), (repeat NUL 64), life_calls. do 3 eexists.
  split; [intros i I; solve_in; reflexivity|]. split; [discriminate|]. split; [reflexivity|].
  split; [split; [apply Nat.leb_le; vm_compute; reflexivity|]; split; [apply Nat.leb_le; vm_compute; reflexivity|]; split; [reflexivity|]; split; [reflexivity|]; split; [discriminate|]; split; [right_calls|vm_compute; discriminate]|].
  split; [vm_compute; reflexivity|]. split; [vm_compute; reflexivity|]. exists (repeat (true, true) 300). vm_compute. reflexivity.
Qed.
Print Assumptions C67_commands_needed.

(** With a stale [children] pointer in the node object of the root, mounting a directory follows it. *)
Theorem C67_children_needed : exists s d ib ob os s0,
  (forall i, In i demo_own -> i <> 1 -> nth_error (hp s) i = Some node_zero) /\
  (exists c, nth_error (hp s) 1 = Some (mkNode [] None None (Some c) None)) /\ o_cmds s = None /\ o_buildin s = 0 /\
  right_start demo_own 0 d ib ob os /\ ush_init d ib ob s = Ok s0 /\ do_ops os s0 = Err ENull.
Proof.
  exists (set_hp (node_zero :: mkNode [] None None (Some 99) None :: repeat node_zero 4) demo_blank), demo_desc, (repeat NUL 32), (repeat NUL 64), life_calls. eexists.
  split; [intros i I N; solve_in; try reflexivity; congruence|]. split; [eexists; reflexivity|]. split; [reflexivity|]. split; [reflexivity|].
  split; [split; [apply Nat.leb_le; vm_compute; reflexivity|]; split; [apply Nat.leb_le; vm_compute; reflexivity|]; split; [reflexivity|]; split; [reflexivity|]; split; [discriminate|]; split; [right_calls|vm_compute; discriminate]|].
  split; [vm_compute; reflexivity|]. vm_compute. reflexivity.
Qed.
Print Assumptions C67_children_needed.

(** C36: which descriptors ush_init refuses, whatever the object held before. *)
Theorem C36_refuses : forall d ib ob s, (exists nd, nth_error (hp s) (o_buildin s) = Some nd) ->
  let bad := d_insize d = 0 \/ d_outsize d < 4 \/ (cfg_commands (d_cfg d) = true /\ buildin_commands (d_cfg d) = []) in
  (bad -> ush_init d ib ob s = Err EAssert) /\ (~ bad -> exists s', ush_init d ib ob s = Ok s').
Proof. exact C36_refuses_proof. Qed.
Print Assumptions C36_refuses.

Example C36_refuses_example : ush_init (mkDesc 32 3 64 (lit "host") None cfg_posix) (repeat NUL 32) (repeat NUL 3) demo_blank = Err EAssert /\
  exists s, ush_init (mkDesc 1 4 64 (lit "host") None cfg_posix) [NUL] (repeat NUL 4) demo_blank = Ok s.
Proof. split; [reflexivity|]. eexists. reflexivity. Qed.

(** An object full of stale values: in the middle of a command, of a completion and of an escape
    sequence, with pointers to anything; node objects that were mounted elsewhere. *)
Definition stale_node : node := mkNode [f_run] (Some (lit "/gone")) (Some 77) None (Some 78).
Definition stale : st :=
  mkSt demo_desc S_AC_COUNT S_AC_PROMPT S_PROCESS_SERVICE (Some (WIn 500)) 900 901 2 555 666 44 true
       None (Some 70) (Some 71) 0 (Some 72) (Some 73) (Some f_time) 9 8 (Some (lit "old")) 7 6
       S_PROCESS_FINISH (Some 888) (Some (lit "cand")) (Some (lit "name")) 5 4 3
       (repeat "x"%char 7) [] (repeat stale_node 6) [].
Definition stale_born : st := Eval vm_compute in st_of (do_ops life_calls (from (ush_init demo_desc (repeat "i"%char 32) (repeat "o"%char 64) stale))).
Definition stale_late : st := Eval vm_compute in st_of (drive (app_of (mkSetting demo_desc (fun _ => demo_env))) (lit "cat /dev/time" ++ [CR]) (repeat (true, true) 300) stale_born).

Example C67_example :
  dirty_object demo_own 0 stale /\ right_start demo_own 0 demo_desc (repeat "i"%char 32) (repeat "o"%char 64) life_calls /\
  outs (lg stale_late) = (lit "uShell 0.1.0" ++ CRLF) ++ prompt demo_desc (lit "/") ++ lit "cat /dev/time" ++ CRLF ++ lit "12:00" ++ prompt demo_desc (lit "/").
Proof.
  split; [|split].
  - split; [reflexivity|]. split; [reflexivity|]. split; [vm_compute; tauto|]. intros i I. exists stale_node. solve_in; split; reflexivity.
  - split; [apply Nat.leb_le; vm_compute; reflexivity|]. split; [apply Nat.leb_le; vm_compute; reflexivity|]. split; [reflexivity|]. split; [reflexivity|]. split; [discriminate|]. split; [right_calls|vm_compute; discriminate].
  - vm_compute. reflexivity.
Qed.

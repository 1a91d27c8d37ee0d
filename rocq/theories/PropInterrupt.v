(** * Property C53: the application interrupts the shell at any moment.

    Vocabulary: [reached] (service calls under any schedule and API calls at any points),
    [deeds], [at_rest], [interrupting], [interrupted] in Interrupt.v; [knows], [spec_ops] in
    Tree.v; [ample], [tabs_fit], [sess_run], [take_turn], [shows], [settled], [well_behaved] in
    Session.v; [drive], [both_ready] in Sched.v. *)
From Coq Require Import Arith Lia.
From Verif Require Import Shell BaseFacts Words Sched SchedFacts SchedProofs Line Editor Spec Tree Cmds Complete Session SessionProofs IdleProofs Interrupt StepFacts InterruptProofs Demo PropTree PropLine DemoCmd PropSession PropReconf.

(** C53: after ush_init and correct calls the shell is at rest; it also is whenever it polls. *)
Theorem C53_start : forall d d0 b ib0 ob0 h l ib ob own os f, 2 <= d_insize d -> 4 <= d_outsize d -> length ib = d_insize d -> length ob = d_outsize d ->
  (cfg_commands (d_cfg d) = true -> buildin_commands (d_cfg d) <> []) -> In b own -> (forall i, In i own -> nth_error h i = Some node_zero) ->
  let w0 := mkWorld [] (if cfg_commands (d_cfg d) then [(b, buildin_commands (d_cfg d))] else []) None in
  all_allowed (d_pathmax d) own os w0 -> w_cwd (snd (spec_ops os w0)) <> None ->
  exists s0 s1, ush_init d ib ob (st_zero d0 b ib0 ob0 h l) = Ok s0 /\ do_ops os s0 = Ok (fst (spec_ops os w0), s1) /\
    at_rest own (mkSetting d f) (snd (spec_ops os w0)) s1.
Proof. exact C53_start_proof. Qed.
Print Assumptions C53_start.
Theorem C53_polls : forall own x a s, shows own x a s -> at_rest own x (se_world a) s.
Proof. exact C53_polls_proof. Qed.
Print Assumptions C53_polls.

(** C53: between any two calls of ush_service the tree of directories, the commands and the
    current directory are those that the calls made so far produce: what a line does to them
    is done when its callback has returned, whether or not its output has been printed. *)
Theorem C53_tree : forall own x W w0 s0 ops s, ample own x W -> W w0 -> at_rest own x w0 s0 -> reached own x W w0 s0 ops s ->
  let w := snd (spec_ops ops w0) in knows own s w /\ w_cwd w <> None /\ W w.
Proof. exact C53_tree_proof. Qed.
Print Assumptions C53_tree.
(** C53: the calls in question are those of the callbacks that have been called. *)
Theorem C53_drive : forall own x W w0 s0 l cs ops s q s', reached own x W w0 s0 ops s -> drive (app_of x) cs l s = Ok (q, s') ->
  exists evs, lg s' = lg s ++ evs /\ reached own x W w0 s0 (ops ++ deeds x (lg s) evs) s'.
Proof. exact drive_reached. Qed.
Print Assumptions C53_drive.

(** C53: calls that print, made between any two calls of ush_service: their text comes out,
    then a prompt; the rest of the text being printed and the line being typed or executed
    are given up.  From there the session goes on as one in the tree as it was. *)
Theorem C53_interrupt : forall own x W w0 s0 ops s t q, well_behaved x -> ample own x W -> W w0 -> at_rest own x w0 s0 -> reached own x W w0 s0 ops s ->
  interrupting x t ->
  let r := take_turn x (mkSess (snd (spec_ops ops w0)) (ins (lg s)) 0 []) t in tabs_fit x (snd r) q ->
  let z := sess_run x (snd r) q in
  exists s1, do_actions [] (turn_calls t) s = Ok s1 /\
    (forall l, exists q' s2, drive (app_of x) q l s1 = Ok (q', s2)) /\
    exists n s2, (forall l, n <= both_ready l -> drive (app_of x) q l s1 = Ok ([], s2)) /\
      shows own x (snd z) s2 /\ settled s2 /\ W (se_world (snd z)) /\ lg s2 = lg s ++ fst r ++ fst z.
Proof. exact C53_interrupt_proof. Qed.
Print Assumptions C53_interrupt.

(** C53: until then, with any schedule, what has happened is a beginning of that. *)
Theorem C53_prefix : forall own x W w0 s0 ops s t q l s1 q' s2, ample own x W -> W w0 -> at_rest own x w0 s0 -> reached own x W w0 s0 ops s ->
  interrupting x t -> do_actions [] (turn_calls t) s = Ok s1 -> drive (app_of x) q l s1 = Ok (q', s2) ->
  let r := take_turn x (mkSess (snd (spec_ops ops w0)) (ins (lg s)) 0 []) t in tabs_fit x (snd r) q ->
  exists evs rest, lg s2 = lg s ++ evs /\ fst r ++ fst (sess_run x (snd r) q) = evs ++ rest.
Proof. exact C53_prefix_proof. Qed.
Print Assumptions C53_prefix.

(** C53: any number of interruptions at any moments: no call fails, whatever is typed after
    each of them (TAB where there is room for it). *)
Theorem C53_safe : forall own x W w0 s0 ts ops s, ample own x W -> W w0 -> at_rest own x w0 s0 -> reached own x W w0 s0 ops s ->
  Forall (fun '(t, q, l) => interrupting x t /\ (forall a, W (se_world a) -> se_esc a = 0 -> se_line a = [] -> tabs_fit x a q)) ts ->
  exists ops' s', interrupted x ts s = Ok s' /\ reached own x W w0 s0 (ops ++ ops') s'.
Proof. exact C53_safe_proof. Qed.
Print Assumptions C53_safe.

(** The application prints an alarm in the middle of what "ls /" prints: "run x" has mounted
    and entered "/tmp". *)
Definition busy_keys : bytes := lit "run x" ++ [CR] ++ lit "ls /" ++ [CR] ++ lit "cd .." ++ [CR].
Definition halfway : st := Eval vm_compute in st_of (drive (app_of lively_setting) busy_keys (repeat (true, true) 160) demo).
Definition half_log : list event := Eval vm_compute in skipn (length (lg demo)) (lg halfway).
Example C53_example :
  at_rest demo_own lively_setting demo_world demo /\
  reached demo_own lively_setting lively_worlds demo_world demo (tree_calls fresh_calls) halfway /\
  outs_of half_log = lit "run x" ++ CRLF ++ lit "mounted" ++ CRLF ++ prompt demo_desc (lit "/tmp") ++ lit "ls /" ++ CRLF ++
    lit "d---- " ++ [ESC] ++ lit "[32m." ++ [ESC] ++ lit "[0m" ++ CRLF ++ lit "d---- " ++ [ESC] ++ lit "[32mtmp/" ++ [ESC] ++ lit "[0m" ++ CRLF ++
    lit "d---- " ++ [ESC] ++ lit "[32mdev" /\
  o_state halfway = S_WRITE_CHAR /\ interrupting lively_setting (Says [APrint (lit "alarm")]) /\
  outs_of (fst (take_turn lively_setting (mkSess (snd (spec_ops (tree_calls fresh_calls) demo_world)) (ins (lg halfway)) 0 []) (Says [APrint (lit "alarm")]))) =
    lit "alarm" ++ CRLF ++ prompt demo_desc (lit "/tmp").
Proof.
  split; [exact (C53_polls _ _ _ _ lively_shows)|]. split; [|split; [|split; [reflexivity|split; [|]]]].
  - assert (D : drive (app_of lively_setting) busy_keys (repeat (true, true) 160) demo = Ok (lit "cd .." ++ [CR], halfway)) by (vm_compute; reflexivity).
    destruct (C53_drive demo_own lively_setting lively_worlds demo_world demo _ _ [] demo _ _ (reached_start _ _ _ _ _) D) as (evs & L & R).
    assert (Ev : evs = half_log). { apply (app_inv_head (lg demo)). rewrite <- L. vm_compute. reflexivity. }
    subst evs. assert (Dd : deeds lively_setting (lg demo) half_log = tree_calls fresh_calls) by (vm_compute; reflexivity). rewrite Dd in R. exact R.
  - vm_compute. reflexivity.
  - split; [intros u; discriminate|]. split; [repeat constructor; cbn; intuition discriminate|apply Nat.ltb_lt; reflexivity].
  - vm_compute. reflexivity.
Qed.

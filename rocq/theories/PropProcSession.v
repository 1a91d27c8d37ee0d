(** * Property C59: processes of the application in whole sessions.

    Vocabulary: [at_work], [starts_process], [last_call], [task_run] in ProcSession.v;
    [counting], [silent], [speaking], [calls_of], [procs] in Process.v; [setting], [sess],
    [sess_step], [step_limits], [shows] in Session.v; [fed_by], [drive], [both_ready] in Sched.v. *)
From Coq Require Import Arith Lia.
From Verif Require Import Shell BaseFacts Spec Words Sched SchedFacts Editor Line Tree Cmds CmdProofs Complete Session SessionProofs Process ProcSession ProcSessionProofs Demo PropTree PropLine DemoCmd PropPrintf PropReconf PropSession PropProcess.

(** C59: a session some of whose lines start processes.  Before, between and after them the
    shell behaves as the abstract shell: each process is called until it ends, in its turn,
    and the lines after it are answered in the world it has left. *)
Theorem C59_session : forall own x b j a cs evs j' a' s, task_run own x b j a cs evs j' a' -> shows own x a s -> procs (lg s) = j ->
  exists s', fed_by (at_work x b) cs s s' /\ shows own x a' s' /\ procs (lg s') = j' /\ lg s' = lg s ++ evs.
Proof. exact C59_session_proof. Qed.
Print Assumptions C59_session.

(** C59: under every schedule: whenever the shell polls again, it has read a part [p] of the
    input, and stands where the session stands after [p]. *)
Theorem C59_session_every_schedule : forall own x b j a cs evs j' a' s l q s1, task_run own x b j a cs evs j' a' -> shows own x a s -> procs (lg s) = j ->
  drive (at_work x b) cs l s = Ok (q, s1) -> polling s1 ->
  exists p evs1 j1 a1, cs = p ++ q /\ task_run own x b j a p evs1 j1 a1 /\ shows own x a1 s1 /\ lg s1 = lg s ++ evs1.
Proof. exact C59_session_schedule_proof. Qed.
Print Assumptions C59_session_every_schedule.

(** C59: no schedule makes it fail, and once enough calls find both sides ready, the whole
    input has been read and answered and all its processes have ended. *)
Theorem C59_session_completes : forall own x b j a cs evs j' a' s, task_run own x b j a cs evs j' a' -> shows own x a s -> procs (lg s) = j ->
  (forall l, exists q s1, drive (at_work x b) cs l s = Ok (q, s1)) /\
  exists n s', (forall l, n <= both_ready l -> drive (at_work x b) cs l s = Ok ([], s')) /\ shows own x a' s' /\ lg s' = lg s ++ evs.
Proof. exact C59_session_done_proof. Qed.
Print Assumptions C59_session_completes.

(** C59: from ush_init on. *)
Theorem C59_session_from_init : forall d d0 b0 ib0 ob0 h ib ob own os f b,
  2 <= d_insize d -> 4 <= d_outsize d -> length ib = d_insize d -> length ob = d_outsize d ->
  (cfg_commands (d_cfg d) = true -> buildin_commands (d_cfg d) <> []) -> In b0 own -> (forall i, In i own -> nth_error h i = Some node_zero) ->
  let w0 := mkWorld [] (if cfg_commands (d_cfg d) then [(b0, buildin_commands (d_cfg d))] else []) None in
  let w := snd (spec_ops os w0) in
  let x := mkSetting d f in let a := mkSess w [] 0 [] in
  all_allowed (d_pathmax d) own os w0 ->
  forall cwd cs evs j' a', w_cwd w = Some cwd -> task_run own x b 0 a cs evs j' a' ->
  exists s0 s1, ush_init d ib ob (st_zero d0 b0 ib0 ob0 h []) = Ok s0 /\ do_ops os s0 = Ok (fst (spec_ops os w0), s1) /\
    (forall l, exists q s2, drive (at_work x b) cs l s1 = Ok (q, s2) /\
       (polling s2 -> exists p evs1 j1 a1, cs = p ++ q /\ task_run own x b 0 a p evs1 j1 a1 /\ shows own x a1 s2 /\
          lg s2 = map EvOut ((lit "uShell 0.1.0" ++ [CR; LF]) ++ prompt d (show cwd)) ++ evs1)) /\
    exists n, forall l, n <= both_ready l -> exists s2, drive (at_work x b) cs l s1 = Ok ([], s2) /\ polling s2.
Proof. exact C59_session_init_proof. Qed.
Print Assumptions C59_session_from_init.

(** "run x" starts the process of PropProcess.v, which does nothing, then mounts "/tmp" and
    goes there, then prints; "pwd" is answered in "/tmp"; "/run" starts the process again, and
    now it prints at once. *)
Definition task_setting : setting := mkSetting demo_desc (fun _ => task_env).
Definition task_keys : bytes := lit "run x" ++ [CR] ++ lit "pwd" ++ [CR] ++ lit "/run" ++ [LF].
Definition task_world : world := Eval vm_compute in snd (spec_ops (calls_of task 0 2) demo_world).

Ltac task_typed := repeat (eapply task_key; [split; intros Hx; vm_compute in Hx; discriminate Hx|]).
Lemma task_speaks : forall j, 2 <= j -> speaking (task j).
Proof.
  intros [|[|j]] H; try lia. split; [repeat constructor; vm_compute; intuition discriminate|exists (APrint (lit "done")); split; [left; reflexivity|reflexivity]].
Qed.
Lemma task_stock : stock demo_desc task_world.
Proof. apply lively_stock. split; [right; reflexivity|]. split; [reflexivity|]. exists (mkDir [lit "tmp"] 4 [f_log]). split; [cbn; tauto|reflexivity]. Qed.

Example C59_session_example : exists evs a',
  task_run demo_own task_setting (fun _ => task) 0 demo_sess task_keys evs 4 a' /\
  shows demo_own task_setting demo_sess demo /\ procs (lg demo) = 0 /\
  outs_of evs = lit "run x" ++ CRLF ++ lit "done" ++ CRLF ++ prompt demo_desc (lit "/tmp") ++
    lit "pwd" ++ CRLF ++ lit "/tmp" ++ CRLF ++ prompt demo_desc (lit "/tmp") ++
    lit "/run" ++ [LF] ++ lit "done" ++ CRLF ++ prompt demo_desc (lit "/tmp").
Proof.
  eexists _, _. split; [|split; [exact demo_shows|split; [vm_compute; reflexivity|]]].
  - unfold task_keys. cbn [lit list_ascii_of_string app]. task_typed.
    eapply (task_line _ _ _ 0 _ CR f_run 0 f_task 7 2 (said demo_desc CR [lit "run"; lit "x"] (task 2))).
    + split; [vm_compute; reflexivity|]. split; [vm_compute; discriminate|]. split; [split; [constructor|left; apply Nat.leb_le; vm_compute; reflexivity]|]. split; [exact (proj1 C17_example)|].
      split; [right; apply Nat.ltb_lt; vm_compute; reflexivity|]. repeat (split; [vm_compute; reflexivity|]). vm_compute. reflexivity.
    + intros [|[|i]] Hi; [constructor| |exfalso; cbn in Hi; lia]. repeat constructor; try discriminate; vm_compute; intuition discriminate.
    + apply (last_prints demo_desc CR [lit "run"; lit "x"] [] (task 2)); [apply task_speaks; lia|left; apply Nat.leb_le; vm_compute; reflexivity].
    + vm_compute. right_calls.
    + vm_compute. discriminate.
    + task_typed. eapply task_key.
      { split; [|intros Hx; vm_compute in Hx; discriminate Hx]. intros _. match goal with |- line_limits _ _ _ ?w ?ws => replace w with task_world by (vm_compute; reflexivity); replace ws with [lit "pwd"] by (vm_compute; reflexivity) end. split; [|split; [exact task_stock|split]].
        - split; [constructor|]. split; [left; apply Nat.leb_le; vm_compute; reflexivity|]. split; [exact I|discriminate].
        - left. vm_compute. discriminate.
        - intros f cb De Fx _. vm_compute in De. injection De as <-. vm_compute in Fx. injection Fx as <-. exact I. }
      task_typed.
      eapply (task_line _ _ _ 3 _ LF f_run 0 f_task 7 0 (said demo_desc LF [lit "/run"] (task 3))).
      * split; [vm_compute; reflexivity|]. split; [vm_compute; discriminate|]. split; [split; [constructor|left; apply Nat.leb_le; vm_compute; reflexivity]|]. split; [exact (proj2 (proj2 task_stock))|].
        split; [right; apply Nat.ltb_lt; vm_compute; reflexivity|]. repeat (split; [vm_compute; reflexivity|]). vm_compute. reflexivity.
      * intros i Hi. exfalso. lia.
      * apply (last_prints demo_desc LF [lit "/run"] [] (task 3)); [apply task_speaks; lia|left; apply Nat.leb_le; vm_compute; reflexivity].
      * vm_compute. exact I.
      * vm_compute. discriminate.
      * apply task_end.
  - vm_compute. reflexivity.
Qed.

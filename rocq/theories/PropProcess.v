(** * Property C59: processes of the application.

    Vocabulary: [counting], [silent], [speaking], [calls_of], [procs] in Process.v; [called],
    [does], [said], [room_for], [hook_calls], [hook_events] in Cmds.v; [knows], [spec_ops],
    [all_allowed] in Tree.v; [fed_by], [drive], [editing], [prompt] in Sched.v. *)
From Coq Require Import Arith Lia.
From Verif Require Import Shell BaseFacts Words Sched SchedFacts Line LineFacts Editor Spec Tree Cmds CmdProofs Process ProcessProofs Demo PropTree PropLine DemoCmd PropPrintf PropReconf.

(** C59: a command starts a process.  Its callback prints nothing for [m] calls and prints in
    the next one; it may reconfigure the shell in all of them.  The shell calls it once in each
    call of ush_service, [m + 1] times in all, never again, and goes on with what it printed,
    the prompt and the next line. *)
Theorem C59_process : forall e b own w cwd l ws f s c k g n m cwd', called e own w cwd l ws f s -> c = CR \/ c = LF -> ws <> [] ->
  f_exec f = Some (XUser k) -> e_exec e k (Some (f_name f)) ws = [AProcessStart g] -> f_proc g = Some (PUser n) ->
  let d := o_desc s in let j := procs (lg s) in let hk := hook_calls e d ws in
  (forall i, j <= i < j + m -> silent (b i)) -> speaking (b (j + m)) -> room_for d (hk ++ b (j + m)) ->
  let w' := snd (spec_ops (calls_of b j m) w) in
  all_allowed (d_pathmax d) own (calls_of b j m) w -> w_cwd w' = Some cwd' ->
  exists s', fed_by (counting e b) [c] s s' /\ editing 0 [] s' /\ bufs_ok s' /\ knows own s' w' /\ o_desc s' = d /\
    lg s' = lg s ++ EvIn c :: map EvOut (eol_echo c) ++ hook_events d ws ++ EvExec (XUser k) (Some (f_name f)) ws ::
      repeat (EvProc n (f_name g)) (S m) ++ map EvOut (said d c ws (hk ++ b (j + m)) ++ prompt d (show cwd')).
Proof. exact C59_process_proof. Qed.
Print Assumptions C59_process.

(** C59: a process may also end by assigning the state: USH_STATE_RESET gives an empty line and
    the prompt, USH_STATE_RESET_PROMPT the prompt. *)
Theorem C59_finish : forall e b own w cwd l ws f s c k g n m cwd' pre x, called e own w cwd l ws f s -> c = CR \/ c = LF -> ws <> [] ->
  f_exec f = Some (XUser k) -> e_exec e k (Some (f_name f)) ws = [AProcessStart g] -> f_proc g = Some (PUser n) ->
  let d := o_desc s in let j := procs (lg s) in
  (forall i, j <= i < j + m -> silent (b i)) -> b (j + m) = pre ++ [ASetState x] -> silent pre -> x = S_RESET \/ x = S_RESET_PROMPT ->
  let w' := snd (spec_ops (calls_of b j m) w) in
  all_allowed (d_pathmax d) own (calls_of b j m) w -> w_cwd w' = Some cwd' ->
  exists s', fed_by (counting e b) [c] s s' /\ editing 0 [] s' /\ bufs_ok s' /\ knows own s' w' /\ o_desc s' = d /\
    lg s' = lg s ++ EvIn c :: map EvOut (eol_echo c) ++ hook_events d ws ++ EvExec (XUser k) (Some (f_name f)) ws ::
      repeat (EvProc n (f_name g)) (S m) ++ map EvOut (match x with S_RESET => crlf | _ => [] end ++ prompt d (show cwd')).
Proof. exact C59_finish_proof. Qed.
Print Assumptions C59_finish.

(** C59: a process that makes no call never ends.  The shell calls it once in each call of
    ush_service, whatever the readiness of input and output, and reads and prints nothing. *)
Theorem C59_endless : forall e b own w cwd l ws f s c k g n, called e own w cwd l ws f s -> c = CR \/ c = LF -> ws <> [] ->
  f_exec f = Some (XUser k) -> e_exec e k (Some (f_name f)) ws = [AProcessStart g] -> f_proc g = Some (PUser n) ->
  (forall i, procs (lg s) <= i -> b i = []) ->
  exists n0, forall q l1, n0 <= both_ready l1 -> exists i s1, drive (counting e b) (c :: q) l1 s = Ok (q, s1) /\
    lg s1 = lg s ++ EvIn c :: map EvOut (eol_echo c) ++ hook_events (o_desc s) ws ++ EvExec (XUser k) (Some (f_name f)) ws :: repeat (EvProc n (f_name g)) i /\
    forall q2 l2, exists s2, drive (counting e b) q2 l2 s1 = Ok (q2, s2) /\ lg s2 = lg s1 ++ repeat (EvProc n (f_name g)) (length l2).
Proof. exact C59_endless_proof. Qed.
Print Assumptions C59_endless.

(** C59: starting the process of a file that has none gives an empty line and the prompt. *)
Theorem C59_none : forall e own w cwd l ws f s c k g, called e own w cwd l ws f s -> c = CR \/ c = LF -> ws <> [] ->
  f_exec f = Some (XUser k) -> e_exec e k (Some (f_name f)) ws = [AProcessStart g] -> f_proc g = None ->
  exists s', does e c s (XUser k) f ws [] crlf cwd s' /\ core s' = core s.
Proof. exact C59_none_proof. Qed.
Print Assumptions C59_none.

(** "run" starts a process that does nothing, then mounts "/tmp", then prints. *)
Definition f_task : file := mkFile (lit "task") None None None None None (Some (PUser 7)).
Definition task_env : env := mkEnv (fun _ _ _ => [AProcessStart f_task]) (e_get demo_env) (e_set demo_env) (e_proc demo_env).
Definition task (j : nat) : list action :=
  match j with 0 => [] | 1 => [AMount (lit "/tmp") 4 [f_log]; ASetDir (lit "/tmp")] | _ => [APrint (lit "done")] end.
Definition task_late : st := Eval vm_compute in st_of (drive (counting task_env task) [CR] (repeat (true, true) 300) (demo_line "run x")).
Example C59_example :
  called task_env demo_own demo_world [] (lit "run x") [lit "run"; lit "x"] f_run (demo_line "run x") /\
  procs (lg (demo_line "run x")) = 0 /\ silent (task 0) /\ silent (task 1) /\ speaking (task 2) /\ room_for demo_desc (task 2) /\
  all_allowed (d_pathmax demo_desc) demo_own (calls_of task 0 2) demo_world /\
  w_cwd (snd (spec_ops (calls_of task 0 2) demo_world)) = Some [lit "tmp"] /\
  skipn (length (lg (demo_line "run x"))) (lg task_late) = EvIn CR :: map EvOut CRLF ++ EvExec (XUser 0) (Some (lit "run")) [lit "run"; lit "x"] ::
    repeat (EvProc 7 (lit "task")) 3 ++ map EvOut (lit "done" ++ CRLF ++ prompt demo_desc (lit "/tmp")).
Proof.
  split; [exact (demo_called task_env)|]. split; [vm_compute; reflexivity|]. split; [constructor|].
  split; [repeat constructor; try discriminate; vm_compute; intuition discriminate|].
  split; [split; [repeat constructor; vm_compute; intuition discriminate|exists (APrint (lit "done")); split; [left; reflexivity|reflexivity]]|].
  split; [left; apply Nat.leb_le; vm_compute; reflexivity|]. split; [vm_compute; right_calls|]. split; vm_compute; reflexivity.
Qed.
(** It may also end without a word. *)
Definition hush (j : nat) : list action := match j with 0 => [] | _ => [ASetDir (lit "/dev"); ASetState S_RESET] end.
Definition hush_late : st := Eval vm_compute in st_of (drive (counting task_env hush) [CR] (repeat (true, true) 300) (demo_line "run x")).
Example C59_finish_example :
  silent (hush 0) /\ hush 1 = [ASetDir (lit "/dev")] ++ [ASetState S_RESET] /\ silent [ASetDir (lit "/dev")] /\
  all_allowed (d_pathmax demo_desc) demo_own (calls_of hush 0 1) demo_world /\
  w_cwd (snd (spec_ops (calls_of hush 0 1) demo_world)) = Some [lit "dev"] /\
  skipn (length (lg (demo_line "run x"))) (lg hush_late) = EvIn CR :: map EvOut CRLF ++ EvExec (XUser 0) (Some (lit "run")) [lit "run"; lit "x"] ::
    repeat (EvProc 7 (lit "task")) 2 ++ map EvOut (CRLF ++ prompt demo_desc (lit "/dev")).
Proof.
  split; [constructor|]. split; [reflexivity|]. split; [repeat constructor; try discriminate; vm_compute; intuition discriminate|].
  split; [vm_compute; right_calls|]. split; vm_compute; reflexivity.
Qed.

(** * Property C72: every command is one line away.

    Vocabulary: [fresh_line], [no_file_run] in Reach.v; [command_line] in Line.v; [typeable] in
    Builtin.v; [shows], [line_limits], [stock] in Session.v; [denotes], [after_hook] in Cmds.v;
    [drive], [both_ready], [polling] in Sched.v. *)
From Coq Require Import Arith Lia.
From Verif Require Import Shell BaseFacts Words Sched Line Editor Spec Tree Cmds Complete Session SessionProofs Interrupt Builtin ForgetProofs Reach ReachProofs Demo PropTree PropLine DemoCmd PropSession PropForget.

(** C72: whatever has been typed so far - half a line, an open quote, half an escape sequence -
    ^C and one line execute any file the shell knows, with any arguments, and nothing else. *)
Theorem C72_runs : forall own x a s ws f cb, let d := x_desc x in let e := x_app x (se_read a ++ fresh_line ws) in
  shows own x a s -> typeable d (command_line ws) -> line_limits own d e (se_world a) ws -> ws <> [] ->
  denotes (after_hook e d ws (se_world a)) (hd [] ws) = Some f -> f_exec f = Some cb ->
  exists n, forall l, n <= both_ready l -> exists s' pre post, drive (app_of x) (fresh_line ws) l s = Ok ([], s') /\ polling s' /\
    lg s' = lg s ++ pre ++ EvExec cb (Some (f_name f)) ws :: post /\ no_file_run pre /\ no_file_run post.
Proof. exact C72_runs_proof. Qed.
Print Assumptions C72_runs.

(** C72: from every directory, the absolute path of a file names it, unless a command has this name. *)
Theorem C72_files : forall w p dd name f, fs_ok (w_fs w) -> dir_at p (w_fs w) = Some dd -> file_named name (de_files dd) = Some f ->
  comp_ok name -> no_dots name -> Forall no_dots p -> file_named (show (p ++ [name])) (flat_map snd (w_groups w)) = None ->
  denotes w (show (p ++ [name])) = Some f.
Proof. exact C72_files_proof. Qed.
Print Assumptions C72_files.

(** C72: every mounted directory can be entered, from every directory and every state of the line. *)
Theorem C72_cd : forall own x a s p dd, let d := x_desc x in let w := se_world a in
  shows own x a s -> d_exec d = None -> stock d w -> file_named (lit "cd") (flat_map snd (w_groups w)) = Some cmd_cd ->
  dir_at p (w_fs w) = Some dd -> Forall no_dots p -> length (show p) < d_pathmax d -> typeable d (command_line [lit "cd"; show p]) ->
  exists n, forall l, n <= both_ready l -> exists s' b, drive (app_of x) (fresh_line [lit "cd"; show p]) l s = Ok ([], s') /\
    shows own x b s' /\ se_world b = mkWorld (w_fs w) (w_groups w) (Some p) /\ se_esc b = 0 /\ se_line b = [].
Proof. exact C72_cd_proof. Qed.
Print Assumptions C72_cd.

(** An open quote and the first bytes of an escape sequence, in the directory "/dev". *)
Definition stuck_keys : bytes := lit "cd dev" ++ [CR] ++ lit "cat ""x" ++ [ESC; "["%char].
Definition stuck_words : list bytes := [lit "/run"; lit "a ""b"; []].
Example C72_example : exists a s, let d := x_desc demo_setting in let e := x_app demo_setting (se_read a ++ fresh_line stuck_words) in let w := se_world a in
  shows demo_own demo_setting a s /\ se_esc a = 2 /\ se_line a = lit "cat ""x" /\ here w = [lit "dev"] /\
  typeable d (command_line stuck_words) /\ line_limits demo_own d e w stuck_words /\
  denotes (after_hook e d stuck_words w) (hd [] stuck_words) = Some f_run /\ f_exec f_run <> None /\
  stock d w /\ file_named (lit "cd") (flat_map snd (w_groups w)) = Some cmd_cd /\ typeable d (command_line [lit "cd"; lit "/dev/a"]).
Proof.
  destruct (schedule_done demo_own demo_setting stuck_keys demo_sess demo demo (quiet_by_here _ _ (shows_polling _ _ _ _ demo_shows)) demo_shows) as (_ & n & s' & _ & Sh & _);
    [apply demo_typing; cbn; intuition discriminate|].
  exists (snd (sess_run demo_setting demo_sess stuck_keys)), s'. cbv zeta. split; [exact Sh|].
  split; [vm_compute; reflexivity|]. split; [vm_compute; reflexivity|]. split; [vm_compute; reflexivity|].
  split; [split; [repeat constructor; discriminate|vm_compute; lia]|]. split.
  - assert (L : run_limits demo_own demo_setting demo_sess (stuck_keys ++ (ETX :: command_line stuck_words) ++ [CR])) by (apply demo_typing; cbn; intuition discriminate).
    apply limits_cat in L as (_ & L). apply limits_cat in L as (_ & L). destruct L as ((L & _) & _).
    specialize (L eq_refl). unfold line_argv, env_at in L.
    replace (se_world (snd (sess_run demo_setting (snd (sess_run demo_setting demo_sess stuck_keys)) (ETX :: command_line stuck_words))))
      with (se_world (snd (sess_run demo_setting demo_sess stuck_keys))) in L by (vm_compute; reflexivity).
    replace (argv_of _) with stuck_words in L by (vm_compute; reflexivity). exact L.
  - split; [vm_compute; reflexivity|]. split; [discriminate|]. split; [|split; [vm_compute; reflexivity|split; [repeat constructor; discriminate|vm_compute; lia]]].
    pose proof demo_stock as K. exact K.
Qed.

(** * Properties C03, C04: what happens to a line that is entered.

    Vocabulary: [words], [argv_of] in Words.v (the specification of splitting), [typed],
    [entered] (any line, and the argument vector it reads as), [answered], [message], [then_prompt], [command_line] in Line.v, [one_per_line],
    [file_exec], [file_execs], [lines_read] in History.v, [fed], [fair] in Sched.v,
    [kept_line], [eol_echo] in Editor.v. *)
From Verif Require Import Shell Sched Editor Words Line History LineFacts LineProofs SchedProofs Demo.

(** C03: the exec callback of the descriptor gets the words of the line.  (For the
    exec callbacks of files: C03_argv_of_file in PropNames.v.) *)
Theorem C03_argv_of_hook : forall e l ws s c cw s' cb, entered l ws s -> cwd_is s cw -> c = CR \/ c = LF ->
  fed e [c] s s' -> d_exec (o_desc s) = Some cb -> ws <> [] ->
  exists evs, lg s' = lg s ++ EvIn c :: map EvOut (eol_echo c) ++ EvExec (XUser cb) None ws :: evs.
Proof. exact C03_hook_proof. Qed.
Print Assumptions C03_argv_of_hook.

(** C03: without NULs the argument vector is the list of words. *)
Theorem C03_argv_is_words : forall l, ~ In NUL l -> argv_of l = words l.
Proof. exact argv_no_nul. Qed.
Print Assumptions C03_argv_is_words.

(** C03: a line that fits, without NUL, is split into its words. *)
Theorem C03_entered : forall l s, typed l s -> entered l (words l) s.
Proof. exact typed_entered. Qed.
Print Assumptions C03_entered.

(** C03: the words with their terminators need no more room than the line and its end. *)
Theorem C03_in_place : forall l, length (flat_map (fun w => w ++ [NUL]) (words l)) <= S (length l).
Proof. exact words_room. Qed.
Print Assumptions C03_in_place.

(** C03: every argument list can be typed. *)
Theorem C03_every_argv : forall ws, words (command_line ws) = ws.
Proof. exact words_command_line. Qed.
Print Assumptions C03_every_argv.

(** C03: a state in which a line is typed is reached by typing it. *)
Theorem C03_typing : forall e ks s cw, editing 0 [] s -> cwd_is s cw -> bufs_ok s ->
  Forall edit_key ks -> ~ In NUL ks -> fits (d_insize (o_desc s)) ks [] -> S (length (edit ks [])) < d_insize (o_desc s) ->
  exists s1, fed e ks s s1 /\ typed (edit ks []) s1 /\ core s1 = core s /\ execs (lg s1) = execs (lg s).
Proof. exact C03_typing_proof. Qed.
Print Assumptions C03_typing.

(** The demo shell with a line typed, before and after CR. *)
Definition demo_typed (l : bytes) : st := st_of (drive (always demo_env) l (repeat (true, true) 400) demo).
Definition demo_after (l : bytes) : st := st_of (drive (always demo_env) [CR] (repeat (true, true) 400) (demo_typed l)).

Lemma demo_typed_ok : forall l s r, demo_typed l = s ->
  o_state s = S_READ_CHAR -> o_esc s = 0 -> o_inpos s = length l -> inb s = l ++ NUL :: r ->
  length (inb s) = 32 -> length (outb s) = 64 -> o_desc s = demo_desc ->
  Nat.ltb (S (length l)) 32 = true -> existsb (fun c => ceq c CR || ceq c LF || ceq c NUL) l = false ->
  typed l s.
Proof.
  intros l s r _ H1 H2 H3 H4 H5 H6 H7 H8 H9. unfold typed, editing, bufs_ok, eol_free. rewrite H7.
  assert (G : forall c, In c l -> (ceq c CR || ceq c LF || ceq c NUL) = false).
  { intros c I. destruct (ceq c CR || ceq c LF || ceq c NUL) eqn:E; [|reflexivity].
    rewrite <- H9. symmetry. apply existsb_exists. eauto. }
  split; [split; [exact H1|split; [exact H2|split; [exact H3|eauto]]]|].
  split; [split; [exact H5|split; [exact H6|split; repeat constructor]]|].
  split; [apply Nat.ltb_lt; exact H8|].
  split; [split|]; intros I; apply G in I; discriminate I.
Qed.

Example C03_example :
  let l := lit " run ""a  b"" c\x41\ d """" " in
  let s := demo_typed l in
  typed l s /\ cwd_is s (lit "/") /\ d_exec (o_desc s) = None /\
  words l = [lit "run"; lit "a  b"; lit "c\x41 d"; []] /\
  ush_file_find_by_name (lit "run") s = Ok (Some f_run) /\ f_exec f_run = Some (XUser 0) /\
  In (EvExec (XUser 0) (Some (lit "run")) (words l)) (lg (demo_after l)).
Proof.
  cbv zeta. split; [eapply demo_typed_ok; vm_compute; reflexivity|].
  split; [eexists; split; vm_compute; reflexivity|].
  split; [vm_compute; reflexivity|]. split; [vm_compute; reflexivity|]. split; [vm_compute; reflexivity|].
  split; [reflexivity|]. vm_compute. tauto.
Qed.

Example C03_example_edges :
  words (lit "a""b c""d") = [lit "ab cd"] /\ words (lit "   ") = [] /\ words (lit "\") = [[]] /\
  words (lit "a\\b ""x") = [lit "a\b"; lit "x"] /\
  argv_of (lit "ab" ++ [NUL] ++ lit "c d") = [lit "ab"; lit "c"] /\
  command_line [lit "a b"; []; lit "x""y\x"] = lit """a b"" """" ""x\""y\\x""".
Proof. repeat split. Qed.

(** C04: after any history of service calls and API calls, every execution of a file
    directly follows the end-of-line byte that caused it, with no other execution in
    between; hence there are at most as many executions as lines. *)
Theorem C04_one_execution_per_line : forall d0 b ib0 ob0 h d ib ob s0 l s,
  ush_init d ib ob (st_zero d0 b ib0 ob0 h []) = Ok s0 ->
  Forall (fun o => match o with OpService i => fair (io_env i) | OpApi a => fair_action a end) l ->
  run l s0 = Ok s -> one_per_line file_exec (lg s) /\ file_execs (lg s) <= lines_read (lg s).
Proof. exact C04_history_proof. Qed.
Print Assumptions C04_one_execution_per_line.

(** C04: a blank line leads to the prompt and nothing else. *)
Theorem C04_blank_line : forall e l s c cw, entered l [] s -> cwd_is s cw -> c = CR \/ c = LF ->
  exists s', answered e c s (map EvOut (prompt (o_desc s) cw)) s' /\ core s' = core s.
Proof. exact C04_blank_proof. Qed.
Print Assumptions C04_blank_line.

Example C04_example :
  let l := lit "run now" in
  let s := demo_after l in
  execs (lg s) = [(XUser 0, Some (lit "run"), [lit "run"; lit "now"])] /\ lines_read (lg s) = 1 /\ file_execs (lg s) = 1 /\
  entered (lit "  ") [] (demo_typed (lit "  ")).
Proof.
  cbv zeta. split; [vm_compute; reflexivity|]. split; [vm_compute; reflexivity|]. split; [vm_compute; reflexivity|].
  change ([] : list bytes) with (words (lit "  ")). apply typed_entered. eapply demo_typed_ok; vm_compute; reflexivity.
Qed.

(** The demo shell is reached by such a history. *)
Example C04_example_history :
  ush_init demo_desc (repeat NUL 32) (repeat NUL 64) (st_zero demo_desc 0 (repeat NUL 32) (repeat NUL 64) (repeat node_zero 6) [])
    = Ok (from (ush_init demo_desc (repeat NUL 32) (repeat NUL 64) demo_blank)) /\
  run (demo_mounts ++ demo_ticks 60) (from (ush_init demo_desc (repeat NUL 32) (repeat NUL 64) demo_blank)) = Ok demo /\
  Forall (fun o => match o with OpService i => fair (io_env i) | OpApi a => fair_action a end) (demo_mounts ++ demo_ticks 60).
Proof.
  split; [vm_compute; reflexivity|]. split; [vm_compute; reflexivity|].
  apply Forall_app. split; [repeat constructor|]. unfold demo_ticks, services. apply Forall_map, Forall_forall.
  intros i I. apply repeat_spec in I. subst i. exact demo_fair.
Qed.

(** * Property C47: the application-wide exec hook.

    Vocabulary: [hook_exec] (a call of the hook), [file_exec], [one_per_line], [count],
    [lines_read], [hook_events] (the call of the descriptor's hook with given words),
    [hooked] (files are called directly after the hook) in History.v; [entered] in Line.v,
    [called], [does], [said], [hook_calls], [hook_fine] (the hook makes correct calls, of those
    that print and those that change the tree), [after_hook] (the world they leave) and
    [denotes] in Cmds.v; [knows], [spec_ops] in Tree.v. *)
From Coq Require Import Arith.
From Verif Require Import Shell Words Sched SchedProofs SchedFacts Macro Line Editor Spec Tree History LineFacts LineProofs Cmds CmdProofs HookFacts PrintfProofs Demo PropTree PropLine DemoCmd CompleteProofs HookProofs HookTree.

(** C47: after any history, every call of the hook follows an end-of-line byte, with
    neither input nor another call of the hook in between; the hook and the files get at
    least one word; every call of a file directly follows a call of the hook with the same
    words; without a hook in the descriptor none is called. *)
Theorem C47_history : forall d0 b ib0 ob0 h d ib ob s0 l s,
  ush_init d ib ob (st_zero d0 b ib0 ob0 h []) = Ok s0 ->
  Forall (fun o => match o with OpService i => fair (io_env i) | OpApi a => fair_action a end) l ->
  run l s0 = Ok s -> one_per_line hook_exec (lg s) /\ count hook_exec (lg s) <= lines_read (lg s) /\ hooked d (lg s).
Proof. exact C47_history_proof. Qed.
Print Assumptions C47_history.

(** C47: after any history, whatever the callbacks do, a line leads to exactly one call
    of the hook, with the words of the line; a blank line to none. *)
Theorem C47_once : forall d0 b ib0 ob0 h d ib ob s0 ops s e l ws c cw s',
  ush_init d ib ob (st_zero d0 b ib0 ob0 h []) = Ok s0 ->
  Forall (fun o => match o with OpService i => fair (io_env i) | OpApi a => fair_action a end) ops ->
  run ops s0 = Ok s -> fair e ->
  entered l ws s -> cwd_is s cw -> c = CR \/ c = LF -> fed e [c] s s' ->
  exists evs, lg s' = lg s ++ evs /\ filter hook_exec evs = match ws with [] => [] | _ => hook_events d ws end.
Proof. exact C47_exact_proof. Qed.
Print Assumptions C47_once.

(** C47: what the hook prints is printed if the file's callback makes no call. *)
Theorem C47_kept : forall e own w cwd l ws f s c k, called e own w cwd l ws f s -> c = CR \/ c = LF -> ws <> [] -> f_exec f = Some (XUser k) ->
  e_exec e k (Some (f_name f)) ws = [] ->
  exists s', does e c s (XUser k) f ws [] (said (o_desc s) c ws (hook_calls e (o_desc s) ws)) cwd s' /\ core s' = core s.
Proof. exact C47_kept_proof. Qed.
Print Assumptions C47_kept.

(** C47: it is lost if the file's callback begins with a printing call other than
    ush_printf. *)
Theorem C47_replaced : forall e own w cwd l ws f s c k a r, called e own w cwd l ws f s -> c = CR \/ c = LF -> ws <> [] -> f_exec f = Some (XUser k) ->
  e_exec e k (Some (f_name f)) ws = a :: r -> Forall (printing_call ws) (a :: r) -> (forall x, a <> APrintf x) ->
  room_for (o_desc s) (hook_calls e (o_desc s) ws ++ a :: r) ->
  exists s', does e c s (XUser k) f ws [] (said (o_desc s) c ws (a :: r)) cwd s' /\ core s' = core s.
Proof. exact C47_replaced_proof. Qed.
Print Assumptions C47_replaced.

(** C47: the hook may change the tree: mount and unmount directories, register and remove
    commands, change the directory.  The first word is looked up in the tree it leaves, and
    the callback of the file found there is called. *)
Theorem C47_changes : forall e own w cwd l ws s c f k cwd',
  knows own s w -> w_cwd w = Some cwd -> entered l ws s -> c = CR \/ c = LF -> ws <> [] -> hook_fine e own (o_desc s) w ws ->
  let hook := hook_calls e (o_desc s) ws in
  let w1 := after_hook e (o_desc s) ws w in
  w_cwd w1 <> None -> findable s w1 [hd [] ws] -> denotes w1 (hd [] ws) = Some f -> f_exec f = Some (XUser k) ->
  let calls := e_exec e k (Some (f_name f)) ws in
  let w2 := snd (spec_ops (tree_calls calls) w1) in
  Forall (proper_call ws) calls -> room_for (o_desc s) (hook ++ calls) ->
  all_allowed (d_pathmax (o_desc s)) own (tree_calls calls) w1 -> w_cwd w2 = Some cwd' ->
  exists s', does e c s (XUser k) f ws [] (said (o_desc s) c ws (hook ++ calls)) cwd' s' /\ knows own s' w2 /\ o_desc s' = o_desc s.
Proof. exact C47_changes_proof. Qed.
Print Assumptions C47_changes.

(** C47: if it finds nothing there, or a file without callback, the error is printed in
    place of what the hook printed, and the changes remain. *)
Theorem C47_lookup : forall e own w cwd l ws s c st cwd1,
  knows own s w -> w_cwd w = Some cwd -> entered l ws s -> c = CR \/ c = LF -> ws <> [] -> hook_fine e own (o_desc s) w ws ->
  let w1 := after_hook e (o_desc s) ws w in
  w_cwd w1 = Some cwd1 -> findable s w1 [hd [] ws] ->
  match denotes w1 (hd [] ws) with None => st = ST_COMMAND_SYNTAX_ERROR | Some f => f_exec f = None /\ st = ST_FILE_NOT_EXECUTABLE end ->
  exists s', answered e c s (hook_events (o_desc s) ws ++ then_prompt s (show cwd1) (message s st)) s' /\ knows own s' w1 /\ o_desc s' = o_desc s.
Proof. exact C47_lookup_proof. Qed.
Print Assumptions C47_lookup.

(** The demo shell with a hook. *)
Definition hook_desc : desc := mkDesc 32 64 64 (lit "host") (Some 7) cfg_posix.
Definition hook_env : env :=
  mkEnv (fun _ who ws => match who with None => [APrint (lit "checked")] | Some _ => if length ws =? 2 then [APrint (lit "running")] else [] end)
        (fun _ _ => mkGet (GData (lit "12:00")) 5 [])
        (fun _ _ _ => [])
        (fun _ _ => [ASetState S_RESET]).
Definition hook_start : st := Eval vm_compute in
  from (ush_init hook_desc (repeat NUL 32) (repeat NUL 64) (st_zero hook_desc 0 (repeat NUL 32) (repeat NUL 64) (repeat node_zero 6) [])).
Definition hook_feed (l : bytes) (s : st) : st := st_of (drive (always hook_env) l (repeat (true, true) 400) s).
Definition hook_ops : list op := demo_mounts ++ services (repeat (tick hook_env None) 60).
Definition hook_shell : st := Eval vm_compute in from (run hook_ops hook_start).
Definition hook_typed (l : string) : st := hook_feed (lit l) hook_shell.
Definition hook_said (l : string) : bytes :=
  outs (skipn (length (lg (hook_typed l))) (lg (hook_feed [CR] (hook_typed l)))).
Definition hook_called (l : string) : list event :=
  filter (fun e => hook_exec e || file_exec e) (lg (hook_feed [CR] (hook_typed l))).

Lemma hook_fair : fair hook_env.
Proof.
  split; [|split].
  - intros k [n|] ws; cbn; [destruct (length ws =? 2)|]; repeat constructor.
  - intros; constructor.
  - intros. repeat constructor.
Qed.

Example C47_example_history :
  ush_init hook_desc (repeat NUL 32) (repeat NUL 64) (st_zero hook_desc 0 (repeat NUL 32) (repeat NUL 64) (repeat node_zero 6) []) = Ok hook_start /\
  run hook_ops hook_start = Ok hook_shell /\
  Forall (fun o => match o with OpService i => fair (io_env i) | OpApi a => fair_action a end) hook_ops /\
  hook_called "run x" = [EvExec (XUser 7) None [lit "run"; lit "x"]; EvExec (XUser 0) (Some (lit "run")) [lit "run"; lit "x"]] /\
  hook_called "bogus" = [EvExec (XUser 7) None [lit "bogus"]] /\
  hook_called "  " = [] /\
  hook_said "run x" = CRLF ++ lit "running" ++ CRLF ++ prompt hook_desc (lit "/") /\
  hook_said "run" = CRLF ++ lit "checked" ++ CRLF ++ prompt hook_desc (lit "/") /\
  hook_said "bogus" = CRLF ++ lit "error: syntax error" ++ CRLF ++ prompt hook_desc (lit "/").
Proof.
  split; [vm_compute; reflexivity|]. split; [vm_compute; reflexivity|]. split.
  - apply Forall_app. split; [repeat constructor|]. unfold services. apply Forall_map, Forall_forall.
    intros i I. apply repeat_spec in I. subst i. exact hook_fair.
  - repeat split; vm_compute; reflexivity.
Qed.

Lemma hook_entered : forall l ws r, hd [] ws <> [] ->
  let s := hook_typed l in
  o_state s = S_READ_CHAR -> o_esc s = 0 -> o_inpos s = length (lit l) -> inb s = lit l ++ NUL :: r ->
  length (inb s) = 32 -> length (outb s) = 64 -> o_desc s = hook_desc ->
  Nat.ltb (S (length (lit l))) 32 = true -> existsb (fun c => ceq c CR || ceq c LF || ceq c NUL) (lit l) = false ->
  words (lit l) = ws -> entered (lit l) ws s.
Proof.
  cbv zeta. intros l ws r _ H1 H2 H3 H4 H5 H6 H7 H8 H9 <-. apply typed_entered. unfold typed, editing, bufs_ok, eol_free. rewrite H7.
  assert (G : forall c, In c (lit l) -> (ceq c CR || ceq c LF || ceq c NUL) = false).
  { intros c I. destruct (ceq c CR || ceq c LF || ceq c NUL) eqn:E; [|reflexivity].
    rewrite <- H9. symmetry. apply existsb_exists. eauto. }
  split; [split; [exact H1|split; [exact H2|split; [exact H3|eauto]]]|].
  split; [split; [exact H5|split; [exact H6|split; repeat constructor]]|].
  split; [apply Nat.ltb_lt; exact H8|].
  split; [split|]; intros I; apply G in I; discriminate I.
Qed.

Lemma hook_knows : forall l, hp (hook_typed l) = hp demo -> o_root (hook_typed l) = o_root demo -> o_cmds (hook_typed l) = o_cmds demo ->
  o_cur (hook_typed l) = o_cur demo -> knows demo_own (hook_typed l) demo_world.
Proof. intros l H1 H2 H3 H4. unfold knows. rewrite H1, H2, H3, H4. exact demo_knows. Qed.

Lemma hook_findable : forall l n, o_desc (hook_typed l) = hook_desc -> (length (full_text [] n) <? 64) = true -> findable (hook_typed l) demo_world [n].
Proof.
  intros l n D H. unfold findable. rewrite D. split; [exact (proj1 C17_example)|]. constructor; [|constructor]. right. apply Nat.ltb_lt. exact H.
Qed.

(** "run x": the hook's text is lost; "run": it is kept. *)
Example C47_example :
  entered (lit "run x") [lit "run"; lit "x"] (hook_typed "run x") /\
  called hook_env demo_own demo_world [] (lit "run x") [lit "run"; lit "x"] f_run (hook_typed "run x") /\
  e_exec hook_env 0 (Some (f_name f_run)) [lit "run"; lit "x"] = [APrint (lit "running")] /\
  called hook_env demo_own demo_world [] (lit "run") [lit "run"] f_run (hook_typed "run") /\
  e_exec hook_env 0 (Some (f_name f_run)) [lit "run"] = [] /\
  f_exec f_run = Some (XUser 0) /\
  hook_calls hook_env hook_desc [lit "run"] = [APrint (lit "checked")] /\
  room_for hook_desc [APrint (lit "checked"); APrint (lit "running")] /\
  fed hook_env [CR] (hook_typed "run x") (hook_feed [CR] (hook_typed "run x")).
Proof.
  assert (P : forall ws, hook_prints hook_env hook_desc ws).
  { intros ws. split; [repeat constructor|left; apply Nat.leb_le; reflexivity]. }
  assert (E1 : entered (lit "run x") [lit "run"; lit "x"] (hook_typed "run x")) by (eapply hook_entered; [discriminate|vm_compute; reflexivity..]).
  assert (E2 : entered (lit "run") [lit "run"] (hook_typed "run")) by (eapply hook_entered; [discriminate|vm_compute; reflexivity..]).
  split; [exact E1|].
  split.
  { split; [apply hook_knows; vm_compute; reflexivity|]. split; [reflexivity|]. split; [exact E1|].
    split; [apply P|]. split; [apply hook_findable; vm_compute; reflexivity|vm_compute; reflexivity]. }
  split; [reflexivity|]. split.
  { split; [apply hook_knows; vm_compute; reflexivity|]. split; [reflexivity|]. split; [exact E2|].
    split; [apply P|]. split; [apply hook_findable; vm_compute; reflexivity|vm_compute; reflexivity]. }
  split; [reflexivity|]. split; [reflexivity|]. split; [reflexivity|]. split; [left; apply Nat.leb_le; reflexivity|].
  eapply (key_ok 400); vm_compute; reflexivity.
Qed.

(** A hook that changes the tree: for the line "now" it registers the command "now", which
    this line then calls; for the line "pwd" it removes the built-in commands, so that this
    line is refused. *)
Definition f_late : file := mkFile (lit "now") None None (Some (XUser 3)) None None None.
Definition loading_env : env :=
  mkEnv (fun k who ws =>
           match who with
           | None => if beq (hd [] ws) (lit "now") then [ACmdAdd 5 [f_late]; APrint (lit "loaded")]
                     else if beq (hd [] ws) (lit "pwd") then [ACmdRemove 0] else []
           | Some _ => [APrintf (FmtOk (lit "12:00"))]
           end)
        (fun _ _ => mkGet (GData []) 0 []) (fun _ _ _ => []) (fun _ _ => []).
Definition loaded_world : world := mkWorld (w_fs demo_world) [(5, [f_late]); (0, buildin_commands cfg_posix)] (Some []).
Definition bare_world : world := mkWorld (w_fs demo_world) [] (Some []).
Definition loading_said (l : string) : bytes :=
  outs (skipn (length (lg (hook_typed l))) (lg (st_of (drive (always loading_env) [CR] (repeat (true, true) 400) (hook_typed l))))).

Example C47_changes_example :
  knows demo_own (hook_typed "now") demo_world /\ entered (lit "now") [lit "now"] (hook_typed "now") /\
  hook_fine loading_env demo_own hook_desc demo_world [lit "now"] /\ after_hook loading_env hook_desc [lit "now"] demo_world = loaded_world /\
  denotes demo_world (lit "now") = None /\ findable (hook_typed "now") loaded_world [lit "now"] /\ denotes loaded_world (lit "now") = Some f_late /\
  room_for hook_desc (hook_calls loading_env hook_desc [lit "now"] ++ e_exec loading_env 3 (Some (lit "now")) [lit "now"]) /\
  Forall (proper_call [lit "now"]) (e_exec loading_env 3 (Some (lit "now")) [lit "now"]) /\
  said hook_desc CR [lit "now"] (hook_calls loading_env hook_desc [lit "now"] ++ e_exec loading_env 3 (Some (lit "now")) [lit "now"]) = lit "12:00" /\
  loading_said "now" = CRLF ++ lit "12:00" ++ prompt hook_desc (lit "/").
Proof.
  split; [apply hook_knows; vm_compute; reflexivity|]. split; [eapply hook_entered; [discriminate|vm_compute; reflexivity..]|].
  split. { split; [repeat constructor|]. split; [left; apply Nat.leb_le; reflexivity|]. split; [|exact I]. split; [discriminate|]. split; [cbn; tauto|]. intros [J|J]; vm_compute in J; intuition discriminate. }
  split; [reflexivity|]. split; [vm_compute; reflexivity|]. split.
  { split; [exact (proj1 C17_example)|]. constructor; [|constructor]. left. vm_compute. discriminate. }
  split; [reflexivity|]. split; [left; apply Nat.leb_le; reflexivity|]. split; [repeat constructor; cbn; clear; intuition discriminate|]. split; vm_compute; reflexivity.
Qed.

Example C47_lookup_example :
  knows demo_own (hook_typed "pwd") demo_world /\ entered (lit "pwd") [lit "pwd"] (hook_typed "pwd") /\
  hook_fine loading_env demo_own hook_desc demo_world [lit "pwd"] /\ after_hook loading_env hook_desc [lit "pwd"] demo_world = bare_world /\
  denotes demo_world (lit "pwd") = Some cmd_pwd /\ findable (hook_typed "pwd") bare_world [lit "pwd"] /\ denotes bare_world (lit "pwd") = None /\
  loading_said "pwd" = CRLF ++ lit "error: syntax error" ++ CRLF ++ prompt hook_desc (lit "/").
Proof.
  split; [apply hook_knows; vm_compute; reflexivity|]. split; [eapply hook_entered; [discriminate|vm_compute; reflexivity..]|].
  split. { split; [repeat constructor|]. split; [left; apply Nat.leb_le; reflexivity|]. split; exact I. }
  split; [reflexivity|]. split; [vm_compute; reflexivity|]. split.
  { split; [exact (proj1 C17_example)|]. constructor; [|constructor]. right. apply Nat.ltb_lt. reflexivity. }
  split; vm_compute; reflexivity.
Qed.

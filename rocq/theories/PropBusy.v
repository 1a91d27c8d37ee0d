(** * Property C54: directories and commands are changed while the shell is at work.

    Vocabulary: [lived] (service calls under any schedule and API calls at any points, of which
    those that change directories or commands are [considerate]), [begins], [last_job],
    [tab_fine], [used_ids], [unprinted], [in_buffer], [plain_app] in Busy.v; [spoken], [formatted] in Cmds.v; [deeds] in Interrupt.v; [knows], [spec_ops], [allowed] in Tree.v;
    [ample], [tabs_fit], [sess_run], [shows], [settled], [well_behaved] in Session.v; [drive],
    [both_ready], [prompt] in Sched.v. *)
From Coq Require Import Arith Lia.
From Verif Require Import Shell BaseFacts Words Sched SchedFacts SchedProofs Line Editor Spec Tree Cmds Complete Session SessionProofs IdleProofs Interrupt StepFacts InterruptProofs Busy BusyProofs BusySay Demo PropTree PropLine DemoCmd PropSession PropReconf PropInterrupt.

(** C54: a history may begin after ush_init and correct calls. *)
Theorem C54_start : forall d d0 b ib0 ob0 h l ib ob own os f, 2 <= d_insize d -> 4 <= d_outsize d -> length ib = d_insize d -> length ob = d_outsize d ->
  (cfg_commands (d_cfg d) = true -> buildin_commands (d_cfg d) <> []) -> In b own -> (forall i, In i own -> nth_error h i = Some node_zero) ->
  let w0 := mkWorld [] (if cfg_commands (d_cfg d) then [(b, buildin_commands (d_cfg d))] else []) None in
  all_allowed (d_pathmax d) own os w0 -> w_cwd (snd (spec_ops os w0)) <> None ->
  exists s0 s1, ush_init d ib ob (st_zero d0 b ib0 ob0 h l) = Ok s0 /\ do_ops os s0 = Ok (fst (spec_ops os w0), s1) /\
    begins own (mkSetting d f) (snd (spec_ops os w0)) s1.
Proof. exact C54_start_proof. Qed.
Print Assumptions C54_start.
(** C54: service calls with any schedule continue a history. *)
Theorem C54_drive : forall own x W w0 s0 l cs ops held s q s', lived own x W w0 s0 ops held s ->
  (forall l1 l2 q1 s1, l = l1 ++ l2 -> drive (app_of x) cs l1 s = Ok (TAB :: q1, s1) -> polling s1 -> cfg_autocomp (d_cfg (x_desc x)) = true -> tab_fine x W s1) ->
  drive (app_of x) cs l s = Ok (q, s') ->
  exists evs held', lg s' = lg s ++ evs /\ lived own x W w0 s0 (ops ++ deeds x (lg s) evs) held' s' /\
    forall id, In id held' -> In id held \/ exists p r, evs = p ++ r /\ In id (used_ids (snd (spec_ops (ops ++ deeds x (lg s) p) w0))).
Proof. exact C54_drive_proof. Qed.
Print Assumptions C54_drive.

(** C54: at no point of a history does a call of ush_service fail; directories, commands and
    the current directory are those that the calls made so far produce. *)
Theorem C54_service : forall own x W w0 s0 ops held s i, ample own x W -> W w0 -> begins own x w0 s0 -> lived own x W w0 s0 ops held s ->
  io_env i = app_of x (lg s) -> (polling s -> io_rd i = Some TAB -> cfg_autocomp (d_cfg (x_desc x)) = true -> tab_fine x W s) ->
  exists b s' evs, ush_service i s = Ok (b, s') /\ lg s' = lg s ++ evs /\ let w := snd (spec_ops (ops ++ deeds x (lg s) evs) w0) in knows own s' w /\ w_cwd w <> None /\ W w.
Proof. exact C54_service_proof. Qed.
Print Assumptions C54_service.

(** C54: a call that changes directories or commands returns what it would return while the
    shell polls, and does the same; calls that print and ush_flush do not fail. *)
Theorem C54_call : forall own x W w0 s0 ops held s o, ample own x W -> W w0 -> begins own x w0 s0 -> lived own x W w0 s0 ops held s ->
  let w := snd (spec_ops ops w0) in allowed (d_pathmax (x_desc x)) own w o ->
  exists s', do_op o s = Ok (fst (spec_op o w), s') /\ knows own s' (snd (spec_op o w)) /\ only_tree own s s'.
Proof. exact C54_call_proof. Qed.
Print Assumptions C54_call.
Theorem C54_print : forall own x W w0 s0 ops held s a, ample own x W -> W w0 -> begins own x w0 s0 -> lived own x W w0 s0 ops held s ->
  printing_call [] a -> (forall u, a = APrintf u -> 20 <= d_outsize (x_desc x)) -> exists s', do_action [] a s = Ok s'.
Proof. exact C54_print_proof. Qed.
Print Assumptions C54_print.
Theorem C54_flush : forall own x W w0 s0 ops held s u, ample own x W -> W w0 -> begins own x w0 s0 -> lived own x W w0 s0 ops held s ->
  ~ In NUL u -> length u < d_outsize (x_desc x) -> exists s', do_actions [] [AWriteOut u; AFlush] s = Ok s'.
Proof. exact C54_flush_proof. Qed.
Print Assumptions C54_flush.

(** C54: from any point of a history, whatever is typed then, no call fails under any schedule; enough calls
    with both sides ready finish what the shell is doing ([evs]) and handle the input like a
    session in the directories and commands there are then.  What the shell is doing ends
    with a prompt for the current directory and an empty line, or it consists of printed bytes alone
    (the rest of an echo or of a prompt, or a completion). *)
Theorem C54_returns : forall own x W w0 s0 ops held s q, well_behaved x -> ample own x W -> W w0 -> begins own x w0 s0 -> lived own x W w0 s0 ops held s ->
  exists evs a, let z := sess_run x a q in
    se_world a = snd (spec_ops (ops ++ deeds x (lg s) evs) w0) /\ se_read a = ins (lg s) /\
    ((exists e1, evs = e1 ++ map EvOut (prompt (x_desc x) (show (here (se_world a)))) /\ se_line a = [] /\ se_esc a = 0) \/ (exists t, evs = map EvOut t)) /\
    (tabs_fit x a q -> (forall l, exists q' s2, drive (app_of x) q l s = Ok (q', s2)) /\
    exists n s2, (forall l, n <= both_ready l -> drive (app_of x) q l s = Ok ([], s2)) /\
      shows own x (snd z) s2 /\ settled s2 /\ W (se_world (snd z)) /\ lg s2 = lg s ++ evs ++ fst z).
Proof. exact C54_returns_proof. Qed.
Print Assumptions C54_returns.

(** C54: printing calls at any point of a history, ush_printf among them, if their formatted
    texts fit in the output buffer behind the text in it: what is printed then is what
    [spoken] says of these calls, where the first ush_printf continues the part of that text
    that is not printed yet, and a prompt.  What the shell was doing is given up, and what is
    typed is handled like a session in the directories and commands there are then. *)
Theorem C54_says : forall own x W w0 s0 ops held s l q, well_behaved x -> ample own x W -> W w0 -> begins own x w0 s0 -> lived own x W w0 s0 ops held s ->
  l <> [] -> Forall (printing_call []) l -> in_buffer s + length (formatted l) < d_outsize (x_desc x) ->
  let w := snd (spec_ops ops w0) in let a := mkSess w (ins (lg s)) 0 [] in tabs_fit x a q -> let z := sess_run x a q in
  exists s1, do_actions [] l s = Ok s1 /\
    (forall l', exists q' s2, drive (app_of x) q l' s1 = Ok (q', s2)) /\
    exists n s2, (forall l', n <= both_ready l' -> drive (app_of x) q l' s1 = Ok ([], s2)) /\
      shows own x (snd z) s2 /\ settled s2 /\ W (se_world (snd z)) /\
      lg s2 = lg s ++ map EvOut (spoken (x_desc x) [] (Some (unprinted s, 0)) [] l ++ prompt (x_desc x) (show (here w))) ++ fst z.
Proof. exact C54_says_proof. Qed.
Print Assumptions C54_says.
(** C54: that part is empty unless the shell is printing, and otherwise it is the rest of what
    the shell is printing, if that is in the output buffer: nothing is printed twice. *)
Theorem C54_unprinted : forall own x W w0 s0 ops held s, plain_app x -> ample own x W -> W w0 -> begins own x w0 s0 -> lived own x W w0 s0 ops held s ->
  (o_state s <> S_WRITE_CHAR -> unprinted s = []) /\
  (forall t, pending s t -> (o_wbuf s = Some WOut /\ unprinted s = t) \/ (o_wbuf s <> Some WOut /\ unprinted s = [])).
Proof. exact C54_unprinted_proof. Qed.
Print Assumptions C54_unprinted.

(** "/tmp" is unmounted while "ls" prints its name; the listing goes on with "dev". *)
Definition listed_keys : bytes := lit "run x" ++ [CR] ++ lit "cd /" ++ [CR] ++ lit "ls" ++ [CR].
Definition listed : st := Eval vm_compute in st_of (drive (app_of lively_setting) listed_keys (repeat (true, true) 174) demo).
Definition listed_log : list event := Eval vm_compute in skipn (length (lg demo)) (lg listed).
Definition listed_ops : list treeop := Eval vm_compute in deeds lively_setting (lg demo) listed_log.
Definition unlisted : st := Eval vm_compute in st_of (do_op (TUnmount (lit "/tmp")) listed).
Definition relisted : st := Eval vm_compute in st_of (drive (app_of lively_setting) [] (repeat (true, true) 300) unlisted).
Definition green (t : string) : bytes := lit "d---- " ++ [ESC] ++ lit "[32m" ++ lit t ++ [ESC] ++ lit "[0m" ++ CRLF.
Lemma demo_begins : begins demo_own lively_setting demo_world demo.
Proof. left. exists demo_sess. split; [reflexivity|]. split; [exact lively_shows|exact demo_settled]. Qed.
Example C54_example :
  begins demo_own lively_setting demo_world demo /\ ample demo_own lively_setting lively_worlds /\ lively_worlds demo_world /\ well_behaved lively_setting /\
  last_job (lg listed) = Some (Runs XLs) /\ (exists t, outs_of listed_log = t ++ green "." ++ lit "d---- " ++ [ESC] ++ lit "[32mtm") /\
  (exists held, lived demo_own lively_setting lively_worlds demo_world demo (listed_ops ++ [TUnmount (lit "/tmp")]) held unlisted) /\
  outs (lg relisted) = outs (lg unlisted) ++ lit "p/" ++ [ESC] ++ lit "[0m" ++ CRLF ++ green "dev/" ++ lit "---xh run" ++ CRLF ++ prompt demo_desc (lit "/").
Proof.
  split; [exact demo_begins|]. split; [exact lively_ample|]. split; [exact lively_in|]. split; [exact lively_behaved|]. split; [vm_compute; reflexivity|].
  split; [exists (firstn 66 (outs_of listed_log)); vm_compute; reflexivity|]. split; [|vm_compute; reflexivity].
  assert (D : drive (app_of lively_setting) listed_keys (repeat (true, true) 174) demo = Ok ([], listed)) by (vm_compute; reflexivity).
  destruct (C54_drive demo_own lively_setting lively_worlds demo_world demo _ listed_keys [] _ demo _ _ (lived_start _ _ _ _ _) (plain_keys _ _ _ listed_keys _ eq_refl) D) as (evs & held & L & R & _).
  assert (Ev : evs = listed_log). { apply (app_inv_head (lg demo)). rewrite <- L. vm_compute. reflexivity. } subst evs.
  replace ([] ++ deeds lively_setting (lg demo) listed_log) with listed_ops in R by (vm_compute; reflexivity).
  exists (note unlisted (snd (spec_ops (listed_ops ++ [TUnmount (lit "/tmp")]) demo_world)) held).
  apply (lived_call demo_own lively_setting lively_worlds demo_world demo listed_ops held listed (TUnmount (lit "/tmp")) ST_OK unlisted); [exact R| |vm_compute; reflexivity].
  replace (snd (spec_ops listed_ops demo_world)) with (mkWorld tmp_fs (w_groups demo_world) (Some [])) by (vm_compute; reflexivity).
  cbv zeta. split; [split; [vm_compute; intuition discriminate|apply Nat.ltb_lt; vm_compute; reflexivity]|]. split; [vm_compute; discriminate|].
  split; [|right; replace (last_job (lg listed)) with (Some (Runs XLs)) by (vm_compute; reflexivity); intros id X; discriminate X].
  split; [left; vm_compute; reflexivity|]. split; [reflexivity|]. exists (mkDir [] 1 [f_run]). split; [vm_compute; tauto|vm_compute; reflexivity].
Qed.
(** "/tmp" is mounted, with a node object that is not in use, while "ls" is at work. *)
Definition listing0 : st := Eval vm_compute in st_of (drive (app_of lively_setting) (lit "ls" ++ [CR]) (repeat (true, true) 30) demo).
Definition listing0_log : list event := Eval vm_compute in skipn (length (lg demo)) (lg listing0).
Definition mounted0 : st := Eval vm_compute in st_of (do_op (TMount [lit "tmp"] 4 [f_log]) listing0).
Example C54_mount_example : last_job (lg listing0) = Some (Runs XLs) /\ ~ polling listing0 /\
  exists held, lived demo_own lively_setting lively_worlds demo_world demo [TMount [lit "tmp"] 4 [f_log]] held mounted0.
Proof.
  split; [vm_compute; reflexivity|]. split; [vm_compute; discriminate|].
  assert (Al : allowed (d_pathmax demo_desc) demo_own demo_world (TMount [lit "tmp"] 4 [f_log])) by (clear; right_calls).
  assert (D : drive (app_of lively_setting) (lit "ls" ++ [CR]) (repeat (true, true) 30) demo = Ok ([], listing0)) by (vm_compute; reflexivity).
  destruct (C54_drive demo_own lively_setting lively_worlds demo_world demo _ (lit "ls" ++ [CR]) [] _ demo _ _ (lived_start _ _ _ _ _) (plain_keys _ _ _ (lit "ls" ++ [CR]) _ eq_refl) D) as (evs & held & L & R & Hh).
  assert (Ev : evs = listing0_log). { apply (app_inv_head (lg demo)). rewrite <- L. vm_compute. reflexivity. } subst evs.
  assert (Dd : deeds lively_setting (lg demo) listing0_log = []) by (vm_compute; reflexivity). rewrite Dd in R.
  exists (note mounted0 (snd (spec_ops [TMount [lit "tmp"] 4 [f_log]] demo_world)) held).
  apply (lived_call demo_own lively_setting lively_worlds demo_world demo [] held listing0 (TMount [lit "tmp"] 4 [f_log]) ST_OK mounted0); [exact R| |vm_compute; reflexivity].
  cbn [spec_ops snd]. cbv zeta. split; [exact Al|]. split; [vm_compute; discriminate|]. split.
  - split; [right; vm_compute; reflexivity|]. split; [reflexivity|]. exists (mkDir [] 1 [f_run]). split; [vm_compute; tauto|vm_compute; reflexivity].
  - right. replace (last_job (lg listing0)) with (Some (Runs XLs)) by (vm_compute; reflexivity). intros id X I. injection X as <-.
    destruct (Hh 4 I) as [J|(p & r & E & J)]; [vm_compute in J; clear - J; intuition discriminate|]. rewrite E, deeds_app in Dd. apply app_eq_nil in Dd as (Dp & _). rewrite Dp in J. vm_compute in J. clear - J. intuition discriminate.
Qed.

(** "/tmp" is unmounted while completion prints its name as a candidate; the candidates go on
    with "dev". *)
Lemma lively_names : forall w n, lively_worlds w -> named w n ->
  In n (map f_name (buildin_commands cfg_posix ++ [f_run; f_time; f_log]) ++ [lit "/"; lit "dev"; lit "a"; lit "tmp"]).
Proof.
  intros w n Lw [(f & If & ->)|(d & Id & ->)]; apply in_or_app; [left; apply in_map; eapply lively_file; eauto|right].
  destruct Lw as ([F|F] & _); rewrite F in Id; vm_compute in Id; [destruct Id as [<-|[<-|[<-|[]]]]|destruct Id as [<-|[<-|[<-|[<-|[]]]]]]; vm_compute; tauto.
Qed.
Definition asked_keys : bytes := lit "run x" ++ [CR] ++ lit "cd /" ++ [CR].
Definition asked : st := Eval vm_compute in st_of (drive (app_of lively_setting) asked_keys (repeat (true, true) 300) demo).
Definition asked_log : list event := Eval vm_compute in skipn (length (lg demo)) (lg asked).
Definition named1 : st := Eval vm_compute in st_of (drive (app_of lively_setting) [TAB] (repeat (true, true) 148) asked).
Definition named1_log : list event := Eval vm_compute in skipn (length (lg asked)) (lg named1).
Definition unnamed : st := Eval vm_compute in st_of (do_op (TUnmount (lit "/tmp")) named1).
Definition renamed : st := Eval vm_compute in st_of (drive (app_of lively_setting) [] (repeat (true, true) 300) unnamed).
Lemma asked_fine : tab_fine lively_setting lively_worlds asked.
Proof.
  intros k l (_ & _ & E & _). destruct l; [|discriminate E]. split; [intros []|]. intros w n Lw Nm. apply (lively_names w n Lw) in Nm. clear Lw.
  repeat (destruct Nm as [<-|Nm]; [split; [vm_compute; intuition discriminate|]; split; [split; vm_compute; intuition discriminate|apply Nat.ltb_lt; vm_compute; reflexivity]|]). destruct Nm.
Qed.
Example C54_tab_example :
  polling asked /\ tab_fine lively_setting lively_worlds asked /\ ~ polling named1 /\ last_job (lg named1) = Some Completes /\
  outs_of named1_log = CRLF ++ concat (map (fun n => lit n ++ CRLF) ["help"; "ls"; "cd"; "pwd"; "cat"; "xxd"; "echo"; "run"]%string) ++ lit "tm" /\
  (exists held, lived demo_own lively_setting lively_worlds demo_world demo (deeds lively_setting (lg demo) (asked_log ++ named1_log) ++ [TUnmount (lit "/tmp")]) held unnamed) /\
  outs (lg renamed) = outs (lg unnamed) ++ lit "p" ++ CRLF ++ lit "dev" ++ CRLF ++ prompt demo_desc (lit "/").
Proof.
  split; [vm_compute; reflexivity|]. split; [exact asked_fine|]. split; [vm_compute; discriminate|]. split; [vm_compute; reflexivity|]. split; [vm_compute; reflexivity|]. split; [|vm_compute; reflexivity].
  assert (D : drive (app_of lively_setting) asked_keys (repeat (true, true) 300) demo = Ok ([], asked)) by (vm_compute; reflexivity).
  destruct (C54_drive demo_own lively_setting lively_worlds demo_world demo _ asked_keys [] _ demo _ _ (lived_start _ _ _ _ _) (plain_keys _ _ _ asked_keys _ eq_refl) D) as (evs & held & L & R & _).
  assert (Ev : evs = asked_log). { apply (app_inv_head (lg demo)). rewrite <- L. vm_compute. reflexivity. } subst evs.
  assert (D2 : drive (app_of lively_setting) [TAB] ((true, true) :: repeat (true, true) 147) asked = Ok ([], named1)) by (vm_compute; reflexivity).
  destruct (C54_drive demo_own lively_setting lively_worlds demo_world demo _ [TAB] _ _ asked _ _ R (tab_key lively_setting lively_worlds _ asked eq_refl asked_fine) D2) as (evs & held2 & L2 & R2 & _).
  assert (Ev : evs = named1_log). { apply (app_inv_head (lg asked)). rewrite <- L2. vm_compute. reflexivity. } subst evs.
  rewrite deeds_app, <- L. cbn [app] in R2. set (ops := deeds lively_setting (lg demo) asked_log ++ deeds lively_setting (lg asked) named1_log) in *.
  exists (note unnamed (snd (spec_ops (ops ++ [TUnmount (lit "/tmp")]) demo_world)) held2).
  apply (lived_call demo_own lively_setting lively_worlds demo_world demo ops held2 named1 (TUnmount (lit "/tmp")) ST_OK unnamed); [exact R2| |vm_compute; reflexivity].
  replace (snd (spec_ops ops demo_world)) with (mkWorld tmp_fs (w_groups demo_world) (Some [])) by (vm_compute; reflexivity).
  cbv zeta. split; [split; [vm_compute; intuition discriminate|apply Nat.ltb_lt; vm_compute; reflexivity]|]. split; [vm_compute; discriminate|].
  split; [|right; replace (last_job (lg named1)) with (Some Completes) by (vm_compute; reflexivity); intros id X; discriminate X].
  split; [left; vm_compute; reflexivity|]. split; [reflexivity|]. exists (mkDir [] 1 [f_run]). split; [vm_compute; tauto|vm_compute; reflexivity].
Qed.

(** C54: without that care a call of ush_service does fail.  While help, ls, cat or completion is
    at work, correct calls (commands or directories are removed, a node object is used again)
    lead to a NULL pointer being followed. *)
Theorem C54_careless_refuted : forall j, In j [Runs XHelp; Runs XLs; Runs XCat; Completes] ->
  exists own x a s os0 rs0 s1 ks l s2 os rs s3 l3, shows own x a s /\ settled s /\ all_allowed (d_pathmax (x_desc x)) own (os0 ++ os) (se_world a) /\
    w_cwd (snd (spec_ops (os0 ++ os) (se_world a))) <> None /\
    do_ops os0 s = Ok (rs0, s1) /\ drive (app_of x) ks l s1 = Ok ([], s2) /\ last_job (lg s2) = Some j /\ deeds x (lg s1) (skipn (length (lg s1)) (lg s2)) = [] /\
    do_ops os s2 = Ok (rs, s3) /\ drive (app_of x) [] l3 s3 = Err ENull.
Proof.
  intros j I.
  assert (Go : forall os0 ks n os j',
    (match do_ops os0 demo with Ok (_, s1) => match drive (app_of demo_setting) ks (repeat (true, true) n) s1 with
       | Ok ([], s2) => last_job (lg s2) = Some j' /\ deeds demo_setting (lg s1) (skipn (length (lg s1)) (lg s2)) = [] /\ match do_ops os s2 with Ok (_, s3) => drive (app_of demo_setting) [] (repeat (true, true) 200) s3 = Err ENull | _ => False end
       | _ => False end | _ => False end) ->
    all_allowed 64 demo_own (os0 ++ os) demo_world -> w_cwd (snd (spec_ops (os0 ++ os) demo_world)) <> None ->
    exists own x a s os0 rs0 s1 ks l s2 os rs s3 l3, shows own x a s /\ settled s /\ all_allowed (d_pathmax (x_desc x)) own (os0 ++ os) (se_world a) /\
      w_cwd (snd (spec_ops (os0 ++ os) (se_world a))) <> None /\
      do_ops os0 s = Ok (rs0, s1) /\ drive (app_of x) ks l s1 = Ok ([], s2) /\ last_job (lg s2) = Some j' /\ deeds x (lg s1) (skipn (length (lg s1)) (lg s2)) = [] /\
      do_ops os s2 = Ok (rs, s3) /\ drive (app_of x) [] l3 s3 = Err ENull).
  { intros os0 ks n os j' H Al Wc. destruct (do_ops os0 demo) as [(rs0, s1)|] eqn:E0; [|contradiction]. destruct (drive (app_of demo_setting) ks (repeat (true, true) n) s1) as [(q, s2)|] eqn:E1; [|contradiction].
    destruct q; [|contradiction]. destruct H as (Lx & Dd & H). destruct (do_ops os s2) as [(rs, s3)|] eqn:E2; [|contradiction].
    exists demo_own, demo_setting, demo_sess, demo, os0, rs0, s1, ks, (repeat (true, true) n), s2, os, rs, s3, (repeat (true, true) 200).
    split; [exact demo_shows|]. split; [exact demo_settled|]. auto 10. }
  destruct I as [<-|[<-|[<-|[<-|[]]]]].
  - apply (Go [TAdd 4 [f_time]] (lit "help" ++ [CR]) 30 [TRemove 4; TAdd 4 [f_log]]); [vm_compute; auto|right_calls|vm_compute; discriminate].
  - apply (Go [] (lit "ls" ++ [CR]) 40 [TUnmount (lit "/dev/a"); TUnmount (lit "/dev"); TAdd 2 [f_run]]); [vm_compute; auto|right_calls|vm_compute; discriminate].
  - apply (Go [] (lit "cat /dev/time" ++ [CR]) 58 [TUnmount (lit "/dev/a"); TUnmount (lit "/dev")]); [vm_compute; auto|right_calls|vm_compute; discriminate].
  - apply (Go [] [TAB] 31 [TUnmount (lit "/dev/a"); TUnmount (lit "/dev"); TAdd 2 [f_run]]); [vm_compute; auto|right_calls|vm_compute; discriminate].
Qed.
Print Assumptions C54_careless_refuted.

(** An alarm printed with ush_printf while "xxd" prints an address from the output buffer, and
    while "ls" prints a name: the rest of the address comes out first, the rest of the name
    does not. *)
Definition alarm : list action := [APrintf (FmtOk (lit "ALARM" ++ CRLF))].
Definition dump_keys : bytes := lit "xxd /dev/time" ++ [CR].
Definition dumped : st := Eval vm_compute in st_of (drive (app_of lively_setting) dump_keys (repeat (true, true) 65) demo).
Definition alarm1 : st := Eval vm_compute in st_of (drive (app_of lively_setting) [] (repeat (true, true) 300) (from (do_actions [] alarm dumped))).
Definition alarm2 : st := Eval vm_compute in st_of (drive (app_of lively_setting) [] (repeat (true, true) 300) (from (do_actions [] alarm listed))).
Lemma lively_plain : plain_app lively_setting.
Proof.
  intros h. split; [intros ws; cbn; constructor|]. split; [intros k n; cbn; constructor|]. split; [|intros k n t; cbn; constructor].
  intros k n ws. cbn. destruct ws as [|? [|? ?]]; repeat constructor.
Qed.
Example C54_says_example : plain_app lively_setting /\ (exists ops held, lived demo_own lively_setting lively_worlds demo_world demo ops held dumped) /\
  in_buffer dumped + length (formatted alarm) < d_outsize demo_desc /\ unprinted dumped = lit "000: " /\
  outs (lg alarm1) = outs (lg dumped) ++ lit "000: ALARM" ++ CRLF ++ prompt demo_desc (lit "/") /\
  (exists t, pending listed t /\ t <> []) /\ unprinted listed = [] /\ in_buffer listed + length (formatted alarm) < d_outsize demo_desc /\
  outs (lg alarm2) = outs (lg listed) ++ lit "ALARM" ++ CRLF ++ prompt demo_desc (lit "/").
Proof.
  split; [exact lively_plain|]. split.
  { assert (D : drive (app_of lively_setting) dump_keys (repeat (true, true) 65) demo = Ok ([], dumped)) by (vm_compute; reflexivity).
    destruct (C54_drive demo_own lively_setting lively_worlds demo_world demo _ dump_keys [] _ demo _ _ (lived_start _ _ _ _ _) (plain_keys _ _ _ dump_keys _ eq_refl) D) as (evs & held & L & R & _). eauto. }
  split; [apply Nat.ltb_lt; vm_compute; reflexivity|]. split; [vm_compute; reflexivity|]. split; [vm_compute; reflexivity|].
  split; [exists (lit "p"); split; [|discriminate]; split; [reflexivity|]; split; [vm_compute; reflexivity|]; intros [|j] c N; [injection N as <-; vm_compute; reflexivity|destruct j; discriminate]|].
  split; [vm_compute; reflexivity|]. split; [apply Nat.ltb_lt; vm_compute; reflexivity|vm_compute; reflexivity].
Qed.

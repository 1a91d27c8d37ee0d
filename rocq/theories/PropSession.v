(** * Properties C01, C08, C41: whole sessions.

    Vocabulary: Session.v, in particular [setting] (descriptor and callbacks, which may
    depend on all bytes read before), [sess] (directories, commands and current directory;
    bytes read; escape progress; line), [sess_run x a cs] (what the abstract shell does when
    it reads [cs], and where it stands then), [shows own x a s] (the shell polls and stands
    where [a] stands), [run_limits] (the limits hold for every byte of the session) and
    [snug] (limits on the setting alone; for TAB see [tabs_fit]).  The callbacks may
    mount and unmount directories, register and remove commands and change the directory.
    [drive] (Sched.v) runs the shell on an input queue under a schedule: for each service
    call, whether the next byte has arrived and whether the output accepts a byte. *)
From Coq Require Import Arith.
From Verif Require Import Shell BaseFacts Words Sched SchedFacts Line Editor Spec Tree Cmds Complete CompleteProofs Session SessionProofs Demo PropTree PropLine DemoCmd.

(** C41: reading [cs], the shell does exactly what the abstract shell does. *)
Theorem C41_session : forall own x cs a s, shows own x a s -> run_limits own x a cs ->
  exists s', fed_by (app_of x) cs s s' /\ shows own x (snd (sess_run x a cs)) s' /\ lg s' = lg s ++ fst (sess_run x a cs).
Proof. exact C41_proof. Qed.
Print Assumptions C41_session.

(** C41: under every schedule: whenever the shell polls again, it has read a part [p] of
    the input, and its log and its state are those of the abstract shell after [p]. *)
Theorem C41_every_schedule : forall own x cs a s l q s1, shows own x a s -> run_limits own x a cs ->
  drive (app_of x) cs l s = Ok (q, s1) -> polling s1 ->
  exists p, cs = p ++ q /\ shows own x (snd (sess_run x a p)) s1 /\ lg s1 = lg s ++ fst (sess_run x a p).
Proof.
  intros own x cs a s l q s1 Sh Li Dr P.
  destruct (schedule_proof own x cs a s s l q s1 (quiet_by_here _ _ (shows_polling _ _ _ _ Sh)) Sh Li Dr) as (p & s' & E & Q & R).
  exists p. rewrite (polling_quiet _ _ _ P Q) in R. auto.
Qed.
Print Assumptions C41_every_schedule.

(** C41: no schedule makes it fail, and once enough calls find both sides ready, the whole
    input has been read and answered. *)
Theorem C41_completes : forall own x cs a s, shows own x a s -> run_limits own x a cs ->
  (forall l, exists q s1, drive (app_of x) cs l s = Ok (q, s1)) /\
  exists n s', (forall l, n <= both_ready l -> drive (app_of x) cs l s = Ok ([], s')) /\
    shows own x (snd (sess_run x a cs)) s' /\ lg s' = lg s ++ fst (sess_run x a cs).
Proof. intros own x cs a s Sh Li. exact (schedule_done own x cs a s s (quiet_by_here _ _ (shows_polling _ _ _ _ Sh)) Sh Li). Qed.
Print Assumptions C41_completes.

(** C41: from ush_init on: after initialisation and any correct calls that mount
    directories and register commands, the shell prints the banner and the first prompt and
    then behaves as the abstract shell, under every schedule. *)
Theorem C41_from_init : forall d d0 b ib0 ob0 h l0 ib ob own os f,
  2 <= d_insize d -> 4 <= d_outsize d -> length ib = d_insize d -> length ob = d_outsize d ->
  (cfg_commands (d_cfg d) = true -> buildin_commands (d_cfg d) <> []) -> In b own -> (forall i, In i own -> nth_error h i = Some node_zero) ->
  let w0 := mkWorld [] (if cfg_commands (d_cfg d) then [(b, buildin_commands (d_cfg d))] else []) None in
  let w := snd (spec_ops os w0) in
  let x := mkSetting d f in let a := mkSess w (ins l0) 0 [] in
  all_allowed (d_pathmax d) own os w0 ->
  forall cwd cs, w_cwd w = Some cwd -> run_limits own x a cs ->
  exists s0 s1, ush_init d ib ob (st_zero d0 b ib0 ob0 h l0) = Ok s0 /\ do_ops os s0 = Ok (fst (spec_ops os w0), s1) /\
    (forall l, exists q s2, drive (app_of x) cs l s1 = Ok (q, s2) /\
       (polling s2 -> exists p, cs = p ++ q /\ shows own x (snd (sess_run x a p)) s2 /\
          lg s2 = l0 ++ map EvOut ((lit "uShell 0.1.0" ++ [CR; LF]) ++ prompt d (show cwd)) ++ fst (sess_run x a p))) /\
    exists n, forall l, n <= both_ready l -> exists s2, drive (app_of x) cs l s1 = Ok ([], s2) /\ polling s2.
Proof.
  intros d d0 b ib0 ob0 h l0 ib ob own os f H1 H2 H3 H4 H5 H6 H7 w0 w x a Al cwd cs Wc Li.
  destruct (boot_proof d d0 b ib0 ob0 h l0 ib ob own os f H1 H2 H3 H4 H5 H6 H7 Al cwd Wc) as (s0 & s1 & s2 & E0 & E1 & Q & Sh & Lg).
  fold w0 in E1. fold w in Sh. fold x a in Sh. fold x in Q. exists s0, s1. split; [exact E0|]. split; [exact E1|].
  destruct (schedule_done own x cs _ s1 s2 Q Sh Li) as (A & n & s' & B & Sh' & _). split.
  - intros l. destruct (A l) as (q & s3 & Dr). exists q, s3. split; [exact Dr|]. intros P.
    destruct (schedule_proof own x cs _ s1 s2 l q s3 Q Sh Li Dr) as (p & s4 & E & Q4 & Sh4 & Lg4). exists p. split; [exact E|].
    rewrite (polling_quiet _ _ _ P Q4) in Sh4, Lg4. split; [exact Sh4|]. rewrite Lg4, Lg, <- app_assoc. reflexivity.
  - exists n. intros l L. exists s'. split; [exact (B l L)|apply Sh'].
Qed.
Print Assumptions C41_from_init.

(** The demo shell: a session that completes a word, changes the directory, prints a file
    and starts a callback. *)
Definition demo_setting : setting := mkSetting demo_desc (fun _ => demo_env).
Definition demo_sess : sess := mkSess demo_world [] 0 [].
Definition demo_keys : bytes := lit "cd de" ++ [TAB; CR] ++ lit "cat tiime" ++ [BS; BS; BS] ++ lit "me" ++ [CR] ++ lit "/run 1" ++ [LF].
Definition outs_of (evs : list event) : bytes := flat_map (fun x => match x with EvOut c => [c] | _ => [] end) evs.

Lemma demo_stock : stock demo_desc demo_world.
Proof.
  split; [|split; [|exact (proj1 C17_example)]].
  - intros f cb I. cbn in I. repeat (destruct I as [<-|I]; [intros E; injection E as <-; reflexivity|]). destruct I.
  - intros dd f cb I J. cbn in I.
    destruct I as [<-|[<-|[<-|[]]]]; cbn in J; repeat (destruct J as [<-|J]; [intros E; try discriminate E; injection E as <-; eauto|]); destruct J.
Qed.

Lemma demo_file : forall f, file_of demo_world f -> In f (buildin_commands cfg_posix ++ [f_run; f_time; f_log]).
Proof.
  intros f [I|(dd & I & J)]; apply in_or_app.
  - left. cbn [demo_world w_groups flat_map snd] in I. rewrite app_nil_r in I. exact I.
  - right. cbn in I. destruct I as [<-|[<-|[<-|[]]]]; cbn in J; cbn; tauto.
Qed.

(** The worlds of its sessions: only the current directory changes. *)
Definition demo_worlds (w : world) : Prop :=
  w_fs w = w_fs demo_world /\ w_groups w = w_groups demo_world /\ exists dd, In dd (w_fs demo_world) /\ w_cwd w = Some (de_path dd).
Lemma demo_in : demo_worlds demo_world.
Proof. split; [reflexivity|]. split; [reflexivity|]. exists (mkDir [] 1 [f_run]). split; [cbn; tauto|reflexivity]. Qed.

Lemma demo_ample : ample demo_own demo_setting demo_worlds.
Proof.
  intros [fs gs cwd] (F & G & dd0 & I0 & C). cbn [w_fs w_groups w_cwd] in *. subst fs gs cwd.
  split; [exact demo_stock|]. split; [|split; [|split; [apply Nat.ltb_lt; reflexivity|]]].
  { intros dd I. cbn in I. destruct I as [<-|[<-|[<-|[]]]]; apply Nat.ltb_lt; reflexivity. }
  { cbn in I0. destruct I0 as [<-|[<-|[<-|[]]]]; apply Nat.ltb_lt; reflexivity. }
  split; [|split; [|intros h; split; [|split; [|split]]]].
  - intros f F. apply (demo_file f) in F. assert (A : Forall (listable demo_desc) (buildin_commands cfg_posix ++ [f_run; f_time; f_log])).
    { repeat constructor; try (apply Nat.ltb_lt; vm_compute; reflexivity); cbn; intuition discriminate. }
    exact (proj1 (Forall_forall _ _) A f F).
  - intros dd I. split; [reflexivity|]. split; [reflexivity|]. exists dd. split; [exact I|reflexivity].
  - intros f k ws _ _. split; [exists [], []; reflexivity|]. split.
    { split; [apply Nat.ltb_lt; reflexivity|]. split; [vm_compute; discriminate|]. split; apply Nat.ltb_lt; reflexivity. }
    split; [constructor|]. split; [split; [constructor|]; split; [left; apply Nat.leb_le; reflexivity|]; split; [exact I|discriminate]|].
    split; [|intros n U; exact U]. split; [reflexivity|]. split; [reflexivity|]. exists dd0. split; [exact I0|reflexivity].
  - intros ws. split; [|split; [reflexivity|split; [reflexivity|exists dd0; split; [exact I0|reflexivity]]]].
    split; [constructor|]. split; [left; apply Nat.leb_le; reflexivity|]. split; [exact I|discriminate].
  - intros f k ws t _ _. split; [constructor|]. split; [|split; [reflexivity|split; [reflexivity|exists dd0; split; [exact I0|reflexivity]]]].
    split; [constructor|]. split; [left; apply Nat.leb_le; reflexivity|]. split; [exact I|discriminate].
  - intros f k ws _ _. split; [|split; [reflexivity|split; [reflexivity|exists dd0; split; [exact I0|reflexivity]]]].
    split; [repeat constructor|]. split; [left; apply Nat.leb_le; reflexivity|]. split; [exact I|discriminate].
Qed.

Lemma demo_shows : shows demo_own demo_setting demo_sess demo.
Proof.
  split; [reflexivity|]. split; [exact demo_knows|]. split; [discriminate|]. split; [reflexivity|]. split; [exact demo_editing|]. split; [exact demo_bufs|].
  split; [cbn; repeat constructor|split; intros []].
Qed.

Lemma demo_tidy : tidy demo_world.
Proof.
  split; [|split].
  - intros f I. apply (demo_file f) in I || (assert (J : file_of demo_world f) by (left; exact I); apply demo_file in J; clear I; rename J into I).
    cbn in I. repeat (destruct I as [<-|I]; [split; cbn; intuition discriminate|]). destruct I.
  - intros dd f I J. assert (F : file_of demo_world f) by (right; eauto). apply demo_file in F. clear I J.
    cbn in F. repeat (destruct F as [<-|F]; [split; cbn; intuition discriminate|]). destruct F.
  - intros dd r I. cbn in I. destruct I as [<-|[<-|[<-|[]]]]; discriminate.
Qed.

Lemma demo_limits : run_limits demo_own demo_setting demo_sess demo_keys.
Proof.
  unfold demo_keys.
  assert (L1 : run_limits demo_own demo_setting demo_sess (lit "cd de")).
  { apply (ample_run demo_own demo_setting demo_worlds (lit "cd de") demo_sess demo demo_ample demo_in demo_shows). cbn. intuition discriminate. }
  assert (L2 : run_limits demo_own demo_setting demo_sess (lit "cd de" ++ [TAB])).
  { apply run_limits_cat; [exact L1|]. replace (snd (sess_run demo_setting demo_sess (lit "cd de"))) with (mkSess demo_world (lit "cd de") 0 (lit "cd de")) by (vm_compute; reflexivity).
    split; [|exact I]. split; [discriminate|]. intros _. split; [exact demo_tidy|]. split; [cbn; intuition discriminate|].
    replace (candidates demo_world [] (last_word (lit "cd de"))) with [lit "dev"] by (vm_compute; reflexivity).
    split; [|repeat constructor; cbn; intuition discriminate]. split; apply Nat.ltb_lt; reflexivity. }
  change (lit "cd de" ++ [TAB; CR] ++ lit "cat tiime" ++ [BS; BS; BS] ++ lit "me" ++ [CR] ++ lit "/run 1" ++ [LF])
    with ((lit "cd de" ++ [TAB]) ++ [CR] ++ lit "cat tiime" ++ [BS; BS; BS] ++ lit "me" ++ [CR] ++ lit "/run 1" ++ [LF]).
  apply run_limits_cat; [exact L2|].
  destruct (C41_proof demo_own demo_setting _ demo_sess demo demo_shows L2) as (s' & _ & Sh & _).
  apply (ample_run demo_own demo_setting demo_worlds _ _ s' demo_ample (ample_walk demo_own demo_setting demo_worlds _ demo_sess demo_ample demo_in) Sh). cbn. intuition discriminate.
Qed.

Example C41_example :
  shows demo_own demo_setting demo_sess demo /\ run_limits demo_own demo_setting demo_sess demo_keys /\
  snd (sess_run demo_setting demo_sess demo_keys) = mkSess (mkWorld (w_fs demo_world) (w_groups demo_world) (Some [lit "dev"])) demo_keys 0 [] /\
  outs_of (fst (sess_run demo_setting demo_sess demo_keys)) =
    lit "cd de" ++ lit "v" ++ CRLF ++ prompt demo_desc (lit "/dev") ++
    lit "cat tiime" ++ [BS; SP; BS; BS; SP; BS; BS; SP; BS] ++ lit "me" ++ CRLF ++ lit "12:00" ++ prompt demo_desc (lit "/dev") ++
    lit "/run 1" ++ [LF] ++ lit "running" ++ CRLF ++ prompt demo_desc (lit "/dev").
Proof. split; [exact demo_shows|]. split; [exact demo_limits|]. split; vm_compute; reflexivity. Qed.

(** The demo shell comes from ush_init and three mounts. *)
Example C41_example_init :
  let os := [TMount [] 1 [f_run]; TMount [lit "dev"] 2 [f_time; f_log]; TMount [lit "dev"; lit "a"] 3 []] in
  let w0 := mkWorld [] [(0, buildin_commands cfg_posix)] None in
  snd (spec_ops os w0) = demo_world /\ all_allowed 64 demo_own os w0 /\ w_cwd demo_world = Some [] /\
  (forall i, In i demo_own -> nth_error (repeat node_zero 6) i = Some node_zero).
Proof.
  cbv zeta. split; [vm_compute; reflexivity|]. split; [|split; [reflexivity|]].
  - repeat split; try (apply Nat.ltb_lt; reflexivity); try (cbn; tauto); try (repeat constructor; try discriminate; cbn; intuition discriminate);
      intros [I|I]; cbn in I; intuition discriminate.
  - intros i I. cbn in I. repeat (destruct I as [<-|I]; [reflexivity|]). destruct I.
Qed.

(** C01: in a snug setting no input, however long, makes the shell fail under any schedule,
    if there is room to complete the word whenever TAB is pressed. *)
Theorem C01_typing_is_safe : forall own x W cs a s, snug own x W -> W (se_world a) -> shows own x a s -> tabs_fit x a cs ->
  forall l, exists q s1, drive (app_of x) cs l s = Ok (q, s1).
Proof.
  intros own x W cs a s Am Iw Sh Nt l. pose proof (tabs_run own x W cs a s Am Iw Sh Nt) as Li.
  destruct (C41_completes own x cs a s Sh Li) as (A & _). exact (A l).
Qed.
Print Assumptions C01_typing_is_safe.

(** C01: in particular any input without TAB, and any input at all if completion is off. *)
Theorem C01_no_tab : forall own x W cs a s, snug own x W -> W (se_world a) -> shows own x a s -> (In TAB cs -> cfg_autocomp (d_cfg (x_desc x)) = false) ->
  forall l, exists q s1, drive (app_of x) cs l s = Ok (q, s1).
Proof. intros own x W cs a s Am Iw Sh Nt. exact (C01_typing_is_safe own x W cs a s Am Iw Sh (no_tabs_fit x a cs Nt)). Qed.
Print Assumptions C01_no_tab.

(** C01: there is room if two bytes of the input buffer are left by the line, and by the
    text before the last word followed by the longest candidate. *)
Theorem C01_tab_room : forall own x W a k, snug own x W -> W (se_world a) ->
  (forall n, In n (candidates (se_world a) (here (se_world a)) (last_word (se_line a))) -> length n <= k) ->
  2 + length (se_line a) <= d_insize (x_desc x) -> 2 + (length (before_word (se_line a)) + k) <= d_insize (x_desc x) -> tab_short x a.
Proof. exact tab_snug. Qed.
Print Assumptions C01_tab_room.

(** C01: a single TAB for which there is no room makes the shell fail, whatever was typed
    before and whatever follows.  (Excepted as in C30_overflow: several candidates for the
    first word of a line whose common prefix fills the whole buffer.) *)
Theorem C01_tab_is_unsafe : forall own x W p q a s, snug own x W -> W (se_world a) -> shows own x a s -> tabs_fit x a p ->
  let b := snd (sess_run x a p) in let cs := candidates (se_world b) (here (se_world b)) (last_word (se_line b)) in
  cfg_autocomp (d_cfg (x_desc x)) = true -> tab_ready b -> ~ tab_short x b ->
  before_word (se_line b) <> [] \/ length (tried (last_word (se_line b)) cs) < d_insize (x_desc x) \/ length cs < 2 ->
  exists l, drive (app_of x) (p ++ TAB :: q) l s = Err EOob.
Proof. exact tab_unsafe. Qed.
Print Assumptions C01_tab_is_unsafe.
(** C01: in that case too the shell does not get through: under no schedule it polls again
    once it has read that TAB. *)
Theorem C01_tab_never : forall own x W p q a s l q' s', snug own x W -> W (se_world a) -> shows own x a s -> tabs_fit x a p ->
  let b := snd (sess_run x a p) in cfg_autocomp (d_cfg (x_desc x)) = true -> tab_ready b -> ~ tab_short x b ->
  drive (app_of x) (p ++ TAB :: q) l s = Ok (q', s') -> polling s' -> length q < length q'.
Proof. exact tab_never. Qed.
Print Assumptions C01_tab_never.

(** "cd de" and TAB; and TAB after a line of 30 bytes whose last word is "ec". *)
Example C01_example_tab :
  let cs := lit "cd de" ++ [TAB; CR] in let p := repeat "a"%char 27 ++ lit " ec" in let b := snd (sess_run demo_setting demo_sess p) in
  tabs_fit demo_setting demo_sess cs /\
  tabs_fit demo_setting demo_sess p /\ cfg_autocomp (d_cfg (x_desc demo_setting)) = true /\ tab_ready b /\ ~ tab_short demo_setting b /\ before_word (se_line b) <> [].
Proof.
  cbv zeta. assert (Once : forall p q, lit "cd de" ++ [TAB; CR] = p ++ TAB :: q -> p = lit "cd de").
  { intros p q H. do 5 (destruct p as [|? p]; [discriminate H|injection H as <- H]). destruct p as [|? p]; [reflexivity|injection H as <- H].
    destruct p as [|? p]; [discriminate H|injection H as <- H]. destruct p; discriminate H. }
  assert (Plain : forall w l, tidy w -> existsb (ceq NUL) l = false -> w = demo_world -> Forall eol_free (candidates w (here w) (last_word l)) -> tab_ready (mkSess w [] 0 l)).
  { intros w l T N _ F. split; [exact T|]. split; [exact F|]. intros I. assert (E : existsb (ceq NUL) l = true) by (apply existsb_exists; exists NUL; split; [exact I|apply ceq_refl]). congruence. }
  split.
  { intros _ p q H. apply Once in H as ->. replace (snd (sess_run demo_setting demo_sess (lit "cd de"))) with (mkSess demo_world (lit "cd de") 0 (lit "cd de")) by (vm_compute; reflexivity).
    split; [apply (Plain demo_world (lit "cd de")); [exact demo_tidy|reflexivity|reflexivity|vm_compute; repeat constructor; intuition discriminate]|].
    split; apply Nat.ltb_lt; vm_compute; reflexivity. }
  split; [apply no_tabs_fit; intros I; cbn in I; intuition discriminate|]. split; [reflexivity|].
  replace (snd (sess_run demo_setting demo_sess (repeat "a"%char 27 ++ lit " ec"))) with (mkSess demo_world (repeat "a"%char 27 ++ lit " ec") 0 (repeat "a"%char 27 ++ lit " ec")) by (vm_compute; reflexivity).
  split; [apply (Plain demo_world (repeat "a"%char 27 ++ lit " ec")); [exact demo_tidy|vm_compute; reflexivity|reflexivity|vm_compute; repeat constructor; intuition discriminate]|].
  split; [|discriminate]. intros (_ & X). apply Nat.ltb_lt in X. vm_compute in X. discriminate X.
Qed.

Example C01_example : snug demo_own demo_setting demo_worlds /\ demo_worlds (se_world demo_sess) /\ shows demo_own demo_setting demo_sess demo /\ ~ In TAB (map ascii_of_nat (seq 10 246)).
Proof. split; [exact (ample_snug _ _ _ demo_ample)|]. split; [exact demo_in|]. split; [exact demo_shows|]. intros I. apply in_map_iff in I as (n & E & I). apply in_seq in I. destruct I as (I1 & I2).
  apply (f_equal nat_of_ascii) in E. rewrite nat_ascii_embedding in E by lia. change (nat_of_ascii TAB) with 9 in E. lia. Qed.

(** C01: an input buffer of one byte is not enough: the first end of line makes the parser
    run off the buffer. *)
Definition tiny_desc : desc := mkDesc 1 64 64 (lit "host") None cfg_posix.
Definition tiny : st := from (s <- ush_init tiny_desc [NUL] (repeat NUL 64) (st_zero tiny_desc 0 [NUL] (repeat NUL 64) (repeat node_zero 6) []) ;; run (demo_mounts ++ demo_ticks 60) s).
Theorem C01_one_byte_refuted : exists d ib ob s0 s e, d_insize d = 1 /\ length ib = 1 /\ length ob = d_outsize d /\
  ush_init d ib ob (st_zero d 0 ib ob (repeat node_zero 6) []) = Ok s0 /\ run (demo_mounts ++ demo_ticks 60) s0 = Ok s /\ fails e CR s EOob.
Proof.
  exists tiny_desc, [NUL], (repeat NUL 64), (from (ush_init tiny_desc [NUL] (repeat NUL 64) (st_zero tiny_desc 0 [NUL] (repeat NUL 64) (repeat node_zero 6) []))), tiny, demo_env.
  split; [reflexivity|]. split; [reflexivity|]. split; [reflexivity|]. split; [vm_compute; reflexivity|]. split; [vm_compute; reflexivity|].
  apply (key_err 200); vm_compute; reflexivity.
Qed.
Print Assumptions C01_one_byte_refuted.

(** C24: whatever is typed, a setter is never handed more than BUF_IN_SIZE - 10 bytes. *)
Theorem C24_size : forall own x cs a s cb n t, shows own x a s -> run_limits own x a cs -> In (EvSet cb n t) (fst (sess_run x a cs)) ->
  10 + length t <= d_insize (x_desc x).
Proof. exact C24_size_proof. Qed.
Print Assumptions C24_size.

(** With an input buffer of 32 bytes, 18 bytes (22 are allowed by the bound) into a file whose name has 4. *)
Example C24_example_size :
  let cs := lit "cd dev" ++ [CR] ++ lit "echo " ++ repeat "a"%char 18 ++ lit " > time" ++ [CR] in
  shows demo_own demo_setting demo_sess demo /\ run_limits demo_own demo_setting demo_sess cs /\
  In (EvSet 0 (lit "time") (repeat "a"%char 18)) (fst (sess_run demo_setting demo_sess cs)).
Proof.
  cbv zeta. split; [exact demo_shows|]. split; [apply (ample_run demo_own demo_setting demo_worlds _ demo_sess demo demo_ample demo_in demo_shows); cbn; intuition discriminate|].
  vm_compute. tauto.
Qed.

(** C08: from wherever a session has got to, the shell gets back to polling after finitely
    many calls, without further input, as soon as enough calls find the output ready. *)
Theorem C08_back_to_polling : forall own x cs a s l q s1, shows own x a s -> run_limits own x a cs ->
  drive (app_of x) cs l s = Ok (q, s1) ->
  exists n s2, polling s2 /\ forall l2, n <= both_ready l2 -> drive (app_of x) [] l2 s1 = Ok ([], s2).
Proof.
  intros own x cs a s l q s1 Sh Li Dr.
  destruct (schedule_proof own x cs a s s l q s1 (quiet_by_here _ _ (shows_polling _ _ _ _ Sh)) Sh Li Dr) as (p & s' & E & Q & Sh' & _).
  destruct (drive_started _ [] _ _ _ Q (fed_by_nil _ _ (shows_polling _ _ _ _ Sh')) (shows_cur _ _ _ _ Sh')) as (_ & n & B).
  exists n, s'. split; [apply Sh'|exact B].
Qed.
Print Assumptions C08_back_to_polling.

(** C08: in a snug setting, after any input in which each TAB finds room. *)
Theorem C08_ample : forall own x W cs a s l q s1, snug own x W -> W (se_world a) -> shows own x a s -> tabs_fit x a cs ->
  drive (app_of x) cs l s = Ok (q, s1) ->
  exists n s2, polling s2 /\ forall l2, n <= both_ready l2 -> drive (app_of x) [] l2 s1 = Ok ([], s2).
Proof. intros own x W cs a s l q s1 Am Iw Sh Nt. apply (C08_back_to_polling own x cs a s l q s1 Sh). apply (tabs_run own x W cs a s Am Iw Sh Nt). Qed.
Print Assumptions C08_ample.

(** In the middle of a listing. *)
Example C08_example :
  let l := repeat (true, true) 40 in
  let s1 := st_of (drive (always demo_env) (lit "ls" ++ [CR]) l demo) in
  drive (always demo_env) (lit "ls" ++ [CR]) l demo = Ok ([], s1) /\ ~ polling s1 /\ snug demo_own demo_setting demo_worlds /\ demo_worlds (se_world demo_sess) /\ shows demo_own demo_setting demo_sess demo.
Proof. cbv zeta. split; [vm_compute; reflexivity|]. split; [vm_compute; discriminate|]. split; [exact (ample_snug _ _ _ demo_ample)|]. split; [exact demo_in|exact demo_shows]. Qed.

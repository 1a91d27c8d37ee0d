(** * LineProofs: proofs behind PropLine.v (C03, C04, C38). *)
From Verif Require Import Shell BaseFacts LogFacts Sched ServiceFacts SchedFacts Macro Editor EditFacts Words ParseFacts PromptFacts PhaseFacts Line LineFacts SchedProofs EditProofs History ExecFacts.

Lemma quiet_log : forall e s s', quiet e s s' -> exists m, lg s' = lg s ++ m.
Proof. intros e s s' Q. destruct (log_prefix_quiet _ _ _ Q) as (m & L & _). eauto. Qed.

Lemma quiet_logs : forall e cs s s', fed e cs s s' -> exists m, lg s' = lg s ++ m.
Proof.
  intros e cs s s' F. induction F as [s P|c cs s b s1 s2 s3 P H Q F (m & L)].
  - exists []. rewrite app_nil_r. reflexivity.
  - destruct (quiet_log _ _ _ Q) as (m2 & L2). pose proof (service_poll _ _ _ _ H P) as L1. cbn in L1. destruct L1 as (_ & L1).
    exists ([EvIn c] ++ m2 ++ m). rewrite L, L2, L1, <- !app_assoc. reflexivity.
Qed.

Lemma C03_any_proof : forall e l s c s', editing 0 l s -> o_cur s <> None -> bufs_ok s ->
  c = CR \/ c = LF -> eol_free l -> fed e [c] s s' ->
  let argv := argv_of (kept_line (d_insize (o_desc s)) l) in
  let log_with := fun x => exists evs, lg s' = lg s ++ EvIn c :: map EvOut (eol_echo c) ++ x :: evs in
  (forall cb, argv <> [] -> d_exec (o_desc s) = Some cb -> log_with (EvExec (XUser cb) None argv)) /\
  (forall name rest f cb, argv = name :: rest -> d_exec (o_desc s) = None ->
     ush_file_find_by_name name s = Ok (Some f) -> f_exec f = Some cb ->
     log_with (EvExec cb (Some (f_name f)) argv)).
Proof.
  intros e l s c s' Ed C B Hc EF F. cbv zeta.
  destruct (fed_line e l s c Ed C B Hc EF) as (s2 & args & D & L & A & V & N & Fd).
  cbv zeta in Fd. remember (argv_of (kept_line (d_insize (o_desc s)) l)) as argv eqn:Eargv. clear Eargv. destruct (proj1 (Fd s') F) as (s3 & R & Q). destruct (quiet_log _ _ _ Q) as (m & Lm).
  assert (K : core s2 = core s) by apply D.
  pose proof (core_desc _ _ K) as Kd.
  split.
  - intros cb NE X. destruct argv as [|name rest] eqn:Ea; [congruence|]. cbn [run_argv] in R.
    rewrite Kd, X in R. ok1. apply do_actions_lg in E.
    assert (G : exists m2, lg s3 = lg a ++ m2).
    { ok1. destruct a0 as [f|]; [|injection R as <-; exists []; rewrite app_nil_r; reflexivity].
      destruct (f_exec f); [|injection R as <-; exists []; rewrite app_nil_r; reflexivity].
      apply call_exec_log in R as (evs & R & _). eauto. }
    destruct G as (m2 & G). exists (m2 ++ m). rewrite Lm, G, E. unfold emit. cbn [lg set_lg]. rewrite L.
    repeat (rewrite <- app_assoc; cbn [app]). reflexivity.
  - intros name rest f cb Ea X Fi Fx. rewrite Ea in R at 1. cbn [run_argv] in R. rewrite Kd, X in R. cbn [bind] in R.
    rewrite (find_core name s s2 K), Fi in R. cbn [bind] in R. rewrite Fx in R.
    apply call_exec_log in R as (evs & R & _). exists (evs ++ m). rewrite Lm, R, L.
    rewrite Ea. repeat (rewrite <- app_assoc; cbn [app]). reflexivity.
Qed.

Lemma C03_hook_proof : forall e l ws s c cw s' cb, entered l ws s -> cwd_is s cw -> c = CR \/ c = LF ->
  fed e [c] s s' -> d_exec (o_desc s) = Some cb -> ws <> [] ->
  exists evs, lg s' = lg s ++ EvIn c :: map EvOut (eol_echo c) ++ EvExec (XUser cb) None ws :: evs.
Proof.
  intros e l ws s c cw s' cb (Ed & B & EF & <-) W Hc F X Wl.
  destruct (C03_any_proof e l s c s' Ed (cwd_cur _ _ W) B Hc EF F) as (G & _). eapply G; eauto.
Qed.

(** Typing included. *)
Lemma removelast_incl : forall (A : Type) (l : list A) x, In x (removelast l) -> In x l.
Proof.
  induction l as [|y l IH]; intros x H; [exact H|]. cbn [removelast] in H. destruct l; [contradiction|].
  destruct H as [->|H]; [left; auto|right; auto].
Qed.

Lemma edit_safe : forall ks l, Forall edit_key ks -> ~ In NUL ks -> eol_free l -> ~ In NUL l ->
  eol_free (edit ks l) /\ ~ In NUL (edit ks l).
Proof.
  induction ks as [|k ks IH]; intros l F N E NL; [auto|]. inversion F as [|? ? Fk Fs]; subst.
  cbn [edit fold_left]. apply IH; auto; [intros X; apply N; right; exact X| |].
  - destruct E as (E1 & E2). unfold edit1. destruct (erase_key k) eqn:Er; split; intros X;
      try (apply removelast_incl in X; auto; fail); apply in_app_or in X as [X|[X|[]]]; auto; subst k;
      destruct Fk as [Fk|[Fk|Fk]]; discriminate.
  - unfold edit1. destruct (erase_key k); intros X.
    + apply removelast_incl in X. auto.
    + apply in_app_or in X as [X|[X|[]]]; auto. apply N. left. auto.
Qed.

Lemma C03_typing_proof : forall e ks s cw, editing 0 [] s -> cwd_is s cw -> bufs_ok s ->
  Forall edit_key ks -> ~ In NUL ks -> fits (d_insize (o_desc s)) ks [] -> S (length (edit ks [])) < d_insize (o_desc s) ->
  exists s1, fed e ks s s1 /\ typed (edit ks []) s1 /\ core s1 = core s /\ execs (lg s1) = execs (lg s).
Proof.
  intros e ks s cw Ed W B F N Fi L.
  destruct (C02_proof e ks [] s cw Ed W B F Fi) as (s1 & F1 & E1 & K1 & B1 & W1 & X1).
  exists s1. split; [exact F1|]. split; [|auto]. rewrite <- (core_desc _ _ K1) in L.
  destruct (edit_safe ks [] F N) as (G1 & G2); [split; intros []|intros []|]. unfold typed. auto.
Qed.

(** ** C04 *)
Lemma zero_inv : forall d0 b ib0 ob0 h d ib ob s0, ush_init d ib ob (st_zero d0 b ib0 ob0 h []) = Ok s0 ->
  (forall p, exec_inv p s0) /\ hooked d (lg s0) /\ o_desc s0 = d.
Proof.
  intros d0 b ib0 ob0 h d ib ob s0 H. unfold ush_init in H. ok1. ok1. ok1. injection H as <-.
  assert (L : lg a1 = [] /\ o_pnext a1 = S_RESET /\ o_desc a1 = d).
  { destruct (cfg_commands (d_cfg d)).
    - ok1. destruct a2 as [x y]. injection E1 as <-. unfold ush_commands_add in E2. oks2; auto.
    - injection E1 as <-. auto. }
  destruct L as (L1 & L2 & L3). split; [intros p; split; [|split; [|left]]|split; [|exact L3]].
  - change (one_per_line p (lg a1)). rewrite L1. intros [|? ?] x bb X; discriminate.
  - change (parse_phase (o_pnext a1) = false). rewrite L2. reflexivity.
  - split; reflexivity.
  - change (hooked d (lg a1)). rewrite L1. intros [|? ?] ? ? ? ? X; discriminate.
Qed.

Lemma C04_history_proof : forall d0 b ib0 ob0 h d ib ob s0 l s,
  ush_init d ib ob (st_zero d0 b ib0 ob0 h []) = Ok s0 ->
  Forall (fun o => match o with OpService i => fair (io_env i) | OpApi a => fair_action a end) l ->
  run l s0 = Ok s -> one_per_line file_exec (lg s) /\ file_execs (lg s) <= lines_read (lg s).
Proof.
  intros d0 b ib0 ob0 h d ib ob s0 l s H F R. assert (Hp : counted file_exec) by (left; reflexivity).
  destruct (run_inv _ _ _ _ Hp F (proj1 (zero_inv _ _ _ _ _ _ _ _ _ H) _) R) as (O & _ & _).
  split; auto. apply opl_count; auto.
Qed.

(** ** C47 *)
Lemma C47_history_proof : forall d0 b ib0 ob0 h d ib ob s0 l s,
  ush_init d ib ob (st_zero d0 b ib0 ob0 h []) = Ok s0 ->
  Forall (fun o => match o with OpService i => fair (io_env i) | OpApi a => fair_action a end) l ->
  run l s0 = Ok s -> one_per_line hook_exec (lg s) /\ count hook_exec (lg s) <= lines_read (lg s) /\ hooked d (lg s).
Proof.
  intros d0 b ib0 ob0 h d ib ob s0 l s H F R. assert (Hp : counted hook_exec) by (right; reflexivity).
  destruct (zero_inv _ _ _ _ _ _ _ _ _ H) as (Z1 & Z2 & Z3).
  destruct (run_inv _ _ _ _ Hp F (Z1 _) R) as (O & _ & _).
  split; auto. split; [apply opl_count; auto|]. rewrite <- Z3 in Z2.
  destruct (run_hooked _ _ _ Z2 R) as (G & D). rewrite <- Z3, <- D. exact G.
Qed.

Lemma C04_blank_proof : forall e l s c cw, entered l [] s -> cwd_is s cw -> c = CR \/ c = LF ->
  exists s', answered e c s (map EvOut (prompt (o_desc s) cw)) s' /\ core s' = core s.
Proof.
  intros e l s c cw T W Hc. destruct (entered_line e l [] s c cw T W Hc) as (s2 & args & R & F).
  destruct R as (K & B & _ & S & _ & _ & _ & _ & _ & L).
  destruct (quiet_reset_prompt e s2 cw S (core_cwd _ _ _ K W) B) as (s' & Q & E & K' & B' & L').
  exists s'. split; [|congruence]. split; [|split; [exact E|split; [exact B'|]]].
  - apply F. exists s2. split; [reflexivity|exact Q].
  - rewrite L', L, (core_desc _ _ K), <- app_assoc. reflexivity.
Qed.

Lemma filter_outs : forall t, filter file_exec (map EvOut t) = [].
Proof. induction t; auto. Qed.

Lemma quiet_run : forall e s s', quiet e s s' -> exists l, sched e l /\ run (services l) s = Ok s'.
Proof.
  intros e s s' Q. induction Q as [s P|s b s1 s2 N H Q (l & F & R)].
  - exists []. split; [constructor|reflexivity].
  - exists (tick e None :: l). split; [constructor; auto|]. rewrite run_services_cons, H. exact R.
Qed.

Lemma fed_run : forall e cs s s', fed e cs s s' -> exists l, sched e l /\ run (services l) s = Ok s'.
Proof.
  intros e cs s s' F. induction F as [s P|c cs s b s1 s2 s3 P H Q F (l & Fl & R)].
  - exists []. split; [constructor|reflexivity].
  - destruct (quiet_run _ _ _ Q) as (l1 & F1 & R1). exists (tick e (Some c) :: l1 ++ l). split.
    + constructor; auto. apply Forall_app. auto.
    + rewrite run_services_cons, H. cbn [bind]. unfold services. rewrite map_app. change (run (services l1 ++ services l) s1 = Ok s3).
      rewrite run_app, R1. exact R.
Qed.

(** After an execution nothing more is executed before the next byte is read. *)
Lemma opl_last : forall p a x b, counted p -> one_per_line p (a ++ x :: b) -> p x = true -> Forall ev_noin b ->
  filter p b = [].
Proof.
  intros p a x b Hp O X F.
  assert (G : forall y, In y b -> p y = false).
  { intros y I. destruct (p y) eqn:Y; [|reflexivity]. exfalso.
    apply in_split in I as (b1 & b2 & ->).
    destruct (O (a ++ x :: b1) y b2) as (a1 & c & m & E & Ec & Fm); [rewrite <- app_assoc; reflexivity|exact Y|].
    apply Forall_app in F as (F1 & _). clear - E Fm F1 X Hp. revert m E Fm.
    induction b1 as [|z b1 IH] using rev_ind; intros m E Fm.
    - destruct m as [|w m] using rev_ind.
      + change (a ++ [x] = a1 ++ [EvIn c]) in E. apply app_inj_tail in E as (_ & ->). destruct Hp as [->| ->]; discriminate.
      + rewrite app_comm_cons, app_assoc in E. change (a ++ [x] = (a1 ++ EvIn c :: m) ++ [w]) in E.
        apply app_inj_tail in E as (_ & ->). apply Forall_app in Fm as (_ & Fm). inversion Fm as [|? ? (F2 & _)]; congruence.
    - apply Forall_app in F1 as (F1 & F2). rewrite app_comm_cons, app_assoc in E. destruct m as [|w m _] using rev_ind.
      + change ((a ++ x :: b1) ++ [z] = a1 ++ [EvIn c]) in E. apply app_inj_tail in E as (_ & ->). inversion F2; subst. contradiction.
      + rewrite app_comm_cons, app_assoc in E. apply app_inj_tail in E as (E & ->). apply Forall_app in Fm as (Fm & _). eapply IH; eauto. }
  clear - G. induction b as [|y b IH]; [reflexivity|]. cbn [filter]. rewrite G by (left; auto). apply IH. intros; apply G; right; auto.
Qed.

(** ** C38 *)
Lemma print_status_quiet : forall e x s cw, cwd_is s cw -> bufs_ok s ->
  exists s', quiet e (ush_print_status x s) s' /\ editing 0 [] s' /\ core s' = core s /\ bufs_ok s' /\
    lg s' = lg s ++ then_prompt s cw (message s x).
Proof.
  intros e x s cw W B.
  apply (print_nl e (WStr (message s x)) (message s x) s (ush_print_status x s) cw W B eq_refl).
  apply (wp_eq (WStr (message s x)) S_RESET s (message s x)). reflexivity.
Qed.

Lemma fed_det : forall e cs s s1 s2, fed e cs s s1 -> fed e cs s s2 -> s1 = s2.
Proof.
  assert (QD : forall e s s1, quiet e s s1 -> forall s2, quiet e s s2 -> s1 = s2).
  { intros e s s1 Q. induction Q as [s P|s b s1 s2 N H Q IH]; intros s3 Q3; inversion Q3; subst; auto; try contradiction.
    apply IH. congruence. }
  intros e cs s s1 s2 F. revert s2. induction F as [s P|c cs s b s1 s2 s3 P H Q F IH]; intros s4 F4; inversion F4; subst; auto.
  apply IH. assert (s5 = s1) by congruence. subst s5. assert (s6 = s2) by (eapply QD; eauto). subst. assumption.
Qed.

(** After any history, a line leads to exactly one call of the hook, if it has words. *)
Lemma C47_exact_proof : forall d0 b ib0 ob0 h d ib ob s0 ops s e l ws c cw s',
  ush_init d ib ob (st_zero d0 b ib0 ob0 h []) = Ok s0 ->
  Forall (fun o => match o with OpService i => fair (io_env i) | OpApi a => fair_action a end) ops ->
  run ops s0 = Ok s -> fair e ->
  entered l ws s -> cwd_is s cw -> c = CR \/ c = LF -> fed e [c] s s' ->
  exists evs, lg s' = lg s ++ evs /\ filter hook_exec evs = match ws with [] => [] | _ => hook_events d ws end.
Proof.
  intros d0 b ib0 ob0 h d ib ob s0 ops s e l ws c cw s' HI Fo HR Fe T W Hc F.
  assert (Z : forall t, filter hook_exec (map EvOut t) = []) by (induction t; auto).
  destruct ws as [|name rest].
  { destruct (C04_blank_proof e l s c cw T W Hc) as (s1 & (F1 & _ & _ & L1) & _).
    rewrite (fed_det _ _ _ _ _ F F1). eexists. split; [exact L1|]. cbn [filter hook_exec]. rewrite filter_app, !Z. reflexivity. }
  destruct (zero_inv _ _ _ _ _ _ _ _ _ HI) as (_ & Z2 & Z3). pose proof Z2 as Z4. rewrite <- Z3 in Z4.
  destruct (run_hooked _ _ _ Z4 HR) as (_ & D). rewrite Z3 in D.
  destruct (fed_run _ _ _ _ F) as (ls & Sl & Rl).
  destruct (C47_history_proof d0 b ib0 ob0 h d ib ob s0 (ops ++ services ls) s' HI) as (O & _ & Hk).
  { apply Forall_app. split; [exact Fo|]. unfold services. apply Forall_map. eapply Forall_impl; [|exact Sl]. intros i ->. exact Fe. }
  { rewrite run_app, HR. exact Rl. }
  destruct (d_exec d) as [k|] eqn:X.
  - destruct (C03_hook_proof e l (name :: rest) s c cw s' k T W Hc F) as (evs & L); [congruence|discriminate|].
    eexists. split; [exact L|]. cbn [filter hook_exec]. rewrite filter_app, Z. cbn [app filter hook_exec].
    unfold hook_events. rewrite X. f_equal.
    change (EvIn c :: map EvOut (eol_echo c) ++ EvExec (XUser k) None (name :: rest) :: evs)
      with ((EvIn c :: map EvOut (eol_echo c)) ++ EvExec (XUser k) None (name :: rest) :: evs) in L. rewrite app_assoc in L.
    rewrite L in O. apply (opl_last _ _ _ _ (or_intror eq_refl) O); [reflexivity|].
    assert (I : reads s [c] s') by (apply (fed_reads e); exact F). unfold reads in I.
    rewrite L, <- app_assoc, ins_app in I. apply app_inv_head in I. cbn [ins flat_map app] in I. injection I as I.
    rewrite flat_map_app in I. apply app_eq_nil in I as (_ & I). cbn [flat_map app] in I.
    clear - I. induction evs as [|y evs IH]; [constructor|]. cbn [flat_map] in I. apply app_eq_nil in I as (I1 & I2).
    constructor; auto. destruct y; cbn; auto; discriminate.
  - destruct (quiet_logs _ _ _ _ F) as (evs & L). exists evs. split; [exact L|]. unfold hook_events. rewrite X.
    rewrite L in Hk. clear - Hk X.
    assert (G : forall y, In y evs -> hook_exec y = false).
    { intros y I. destruct y as [| |cb [f|] ws| | |]; try reflexivity. exfalso. apply in_split in I as (p & q & ->).
      rewrite app_assoc in Hk. destruct (Hk _ _ _ _ _ eq_refl) as (_ & Q). unfold hook_events in Q. rewrite X in Q. discriminate. }
    clear Hk. induction evs as [|y evs IH]; [reflexivity|]. cbn [filter]. rewrite (G y) by (left; auto). apply IH. intros; apply G; right; auto.
Qed.

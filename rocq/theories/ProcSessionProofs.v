(** * ProcSessionProofs: sessions in which commands start processes (C59). *)
From Coq Require Import Arith Lia.
From Verif Require Import Shell BaseFacts Spec Words Sched LogFacts ServiceFacts SchedFacts LineFacts Editor Line Tree Cmds CmdProofs Complete Session SessionProofs LearnProofs Process ProcessProofs ProcSession.

(** ** A call in which no process runs does not depend on the process callback *)
Definition noproc (y : event) : Prop := match y with EvProc _ _ => False | _ => True end.
Definition but_proc (e e' : env) : Prop := e_exec e = e_exec e' /\ e_get e = e_get e' /\ e_set e = e_set e'.
Definition proc_ran (s s' : st) : Prop := exists n g q, lg s' = lg s ++ EvProc n g :: q.

Lemma finish_proc : forall e e' s, but_proc e e' -> ush_parse_finish e s = ush_parse_finish e' s.
Proof. intros [x1 g1 t1 p1] [x2 g2 t2 p2] s (A & B & C). cbn in A, B, C. subst. reflexivity. Qed.
Lemma cat_proc : forall e e' s, but_proc e e' -> cat_service e s = cat_service e' s.
Proof. intros [x1 g1 t1 p1] [x2 g2 t2 p2] s (A & B & C). cbn in A, B, C. subst. reflexivity. Qed.
Lemma service_proc : forall r w e s b s1, ush_service (mkIo r w e) s = Ok (b, s1) ->
  proc_ran s s1 \/ forall e', but_proc e e' -> ush_service (mkIo r w e') s = Ok (b, s1).
Proof.
  intros r w e s b s1 H. rewrite service_eq in H. destruct (o_cur s) as [k|] eqn:C; [|discriminate H].
  assert (G : proc_ran s s1 \/ forall e', but_proc e e' -> svc (mkIo r w e') s = Ok (b, s1)).
  2:{ destruct G as [G|G]; [left; exact G|right]. intros e' B. rewrite service_eq, C. apply G, B. }
  unfold svc in *. destruct (o_state s) eqn:S; try (right; intros e' B; exact H).
  1-4: right; intros e' B; unfold ush_parse_service in *; rewrite S in *; cbn [io_env] in *; try exact H;
    unfold ush_parse_char in *; destruct (rd (inb s) (o_inpos s)) as [ch|]; cbn [bind] in *; try discriminate H;
    (destruct (ceq ch LF || ceq ch CR); [|exact H]);
    (destruct (out_char NUL _) as [s2|]; cbn [bind] in *; [|discriminate H]); rewrite <- (finish_proc e e' _ B); exact H.
  all: unfold ush_process_service in *; rewrite S in *; destruct (o_pfile s) as [f|]; try (right; intros e' B; exact H);
    destruct (f_proc f) as [p|]; try (right; intros e' B; exact H); destruct p; try (right; intros e' B; exact H); cbn [io_env] in *.
  all: try (left; ok1; injection H as <- <-; apply do_actions_lg in E; eexists _, _, []; exact E).
  all: right; intros e' B; rewrite <- (cat_proc e e' _ B); exact H.
Qed.

Lemma work_quiet : forall m m' s s', quiet_by m s s' ->
  (forall L, but_proc (m L) (m' L)) -> forall evs, lg s' = lg s ++ evs -> Forall noproc evs -> quiet_by m' s s'.
Proof.
  intros m m' s s' Q Bp. induction Q as [s P|s b s1 s2 N H Q IH]; intros evs L F; [constructor; exact P|].
  destruct (quiet_by_log _ _ _ Q) as (e2 & L2). pose proof H as H'. apply service_noin in H' as (e1 & L1 & F1); auto.
  assert (Ev : evs = e1 ++ e2). { rewrite L, L1, <- app_assoc in L2. apply app_inv_head in L2. exact L2. } subst evs.
  apply Forall_app in F as (Fa & Fb). econstructor; [exact N| |apply (IH e2); assumption].
  unfold tick in *. destruct (service_proc _ _ _ _ _ _ H) as [(n & g & q & A)|H0]; [|apply H0, Bp].
  exfalso. rewrite L1 in A. apply app_inv_head in A. subst e1. inversion Fa; subst; auto.
Qed.
Lemma work_fed1 : forall m m' c s s' evs, fed_by m [c] s s' -> (forall L, but_proc (m L) (m' L)) ->
  lg s' = lg s ++ EvIn c :: evs -> Forall noproc evs -> fed_by m' [c] s s'.
Proof.
  intros m m' c s s' evs H Bp L F. inversion H as [|? ? ? b s1 s2 ? P H1 H2 H3]; subst. inversion H3; subst.
  econstructor; [exact P|unfold tick in *; rewrite (poll_env _ (m (lg s))) by exact P; exact H1| |constructor; assumption].
  pose proof H1 as H1'. apply service_poll in H1'; auto. cbn [tick io_rd] in H1'. destruct H1' as [_ L1].
  apply (work_quiet m m' s1 s' H2 Bp evs); [rewrite L1, <- app_assoc; exact L|exact F].
Qed.

(** ** The process while nothing is read *)
Lemma at_work_quiet : forall x b h s s', quiet_by (counting (x_app x h) (b h)) s s' -> ins (lg s) = h -> quiet_by (at_work x b) s s'.
Proof.
  intros x b h s s' Q. induction Q as [s P|s r s1 s2 N H Q IH]; intros E; [constructor; exact P|].
  econstructor; [exact N| |apply IH].
  - unfold at_work. rewrite E. exact H.
  - apply service_noin in H as (e1 & L1 & F1); auto. rewrite L1, ins_app, (ins_noin _ F1), app_nil_r. exact E.
Qed.
Lemma at_work_fed : forall x b c s s', fed_by (counting (x_app x (ins (lg s) ++ [c])) (b (ins (lg s) ++ [c]))) [c] s s' -> fed_by (at_work x b) [c] s s'.
Proof.
  intros x b c s s' H. inversion H as [|? ? ? r s1 s2 ? P H1 H2 H3]; subst. inversion H3; subst.
  econstructor; [exact P|unfold tick in *; rewrite (poll_env _ (counting (x_app x (ins (lg s) ++ [c])) (b (ins (lg s) ++ [c])) (lg s))) by exact P; exact H1| |constructor; assumption].
  pose proof H1 as H1'. apply service_poll in H1'; auto. cbn [tick io_rd] in H1'. destruct H1' as [_ L1].
  apply (at_work_quiet x b _ s1 s' H2). rewrite L1, ins_app. reflexivity.
Qed.

(** ** The events of a session *)
Lemma outs_noproc : forall t, Forall noproc (map EvOut t).
Proof. intros t. apply Forall_forall. intros y I. apply in_map_iff in I as (c & <- & _). exact I. Qed.
Lemma read_all_noproc : forall e names w, Forall noproc (fst (read_all e w names)).
Proof.
  intros e names. induction names as [|n r IH]; intros w; cbn [read_all]; [constructor|]. destruct (denotes w n) as [f|]; [|constructor]. destruct (f_get f) as [cb|]; [|constructor].
  specialize (IH (after_get e w cb f)). destruct (read_all e (after_get e w cb f) r) as [evs w']. cbn [fst] in *. constructor; [exact I|]. apply Forall_app. split; [apply outs_noproc|exact IH].
Qed.
Lemma exec_noproc : forall d e w c cb f ws, Forall noproc (fst (fst (do_exec d e w c cb f ws))).
Proof.
  intros d e w c cb f ws. unfold do_exec. destruct (accepts cb (length ws)); [|constructor].
  destruct cb; try (constructor).
  - unfold do_cd. destruct (nth 1 ws []); [constructor|]. destruct (dir_named _ _); constructor.
  - unfold do_cat. destruct (first_unreadable w (tl ws)); [constructor|]. pose proof (read_all_noproc e (tl ws) w) as M. destruct (read_all e w (tl ws)). exact M.
  - unfold do_xxd. destruct (denotes w _) as [g|]; [|constructor]. destruct (f_get g); repeat constructor.
  - unfold do_echo. destruct (tl ws) as [|t [|op [|name [|]]]]; try constructor. destruct (beq op (lit ">")); [|constructor]. destruct (denotes w name) as [g|]; [|constructor].
    destruct (f_set g); [|constructor]. destruct (do_calls d w c _ _ _). repeat constructor.
Qed.
Lemma hook_noproc : forall d ws, Forall noproc (hook_events d ws).
Proof. intros d ws. unfold hook_events. destruct (d_exec d); repeat constructor. Qed.
Lemma react_noproc : forall d e w c ws, Forall noproc (fst (fst (react d e w c ws))).
Proof.
  intros d e w c ws. unfold react. destruct ws as [|name r]; [constructor|]. pose proof (hook_noproc d (name :: r)) as H.
  destruct (denotes _ name) as [f|]; [|exact H]. destruct (f_exec f) as [cb|]; [|exact H].
  pose proof (exec_noproc d e (after_hook e d (name :: r) w) c cb f (name :: r)) as L. destruct (do_exec _ _ _ _ _ _ _) as [[evs t] w']. cbn [fst] in *.
  apply Forall_app. split; [exact H|]. constructor; [exact I|exact L].
Qed.
Lemma step_noproc : forall x a c, Forall noproc (fst (sess_step x a c)).
Proof.
  intros x a c. unfold sess_step. destruct (ends_line a c).
  - pose proof (react_noproc (x_desc x) (env_at x a c) (se_world a) c (line_argv x a)) as R. destruct (react _ _ _ _ _) as [[evs t] w']. cbn [fst] in *.
    apply Forall_app. split; [apply outs_noproc|]. apply Forall_app. split; [exact R|apply outs_noproc].
  - destruct (completes x c); [destruct (complete _ _ _)|]; cbn [fst]; apply outs_noproc.
Qed.

Lemma procs_more : forall a b, procs (a ++ b) = procs a + procs b.
Proof. intros. unfold procs. rewrite filter_app, app_length. reflexivity. Qed.
Lemma procs_none : forall l, Forall noproc l -> procs l = 0.
Proof. intros l H. induction H as [|y l N _ IH]; [reflexivity|]. destruct y; try exact IH. destruct N. Qed.
Lemma procs_repeat : forall n g k, procs (repeat (EvProc n g) k) = k.
Proof. intros n g k. induction k as [|k IH]; [reflexivity|]. cbn [repeat]. change (S (procs (repeat (EvProc n g) k)) = S k). rewrite IH. reflexivity. Qed.

(** ** One line that starts a process *)
Lemma line_called : forall own x a s c f k g n, shows own x a s -> starts_process x a c f k g n ->
  (c = CR \/ c = LF) /\ called (env_at x a c) own (se_world a) (here (se_world a)) (se_line a) (line_argv x a) f s.
Proof.
  intros own x a s c f k g n (D & K & Wn & Hr & Ed & B & Le & Ef) (El & Ne & Hp & Nm & So & De & _).
  apply andb_true_iff in El as (Ez & Ec). apply Nat.eqb_eq in Ez. rewrite Ez in *.
  assert (Hc : c = CR \/ c = LF) by (apply orb_true_iff in Ec as [Ec|Ec]; apply ceq_true in Ec; auto).
  split; [exact Hc|]. split; [exact K|]. split; [apply here_cwd, Wn|].
  split; [split; [exact Ed|]; split; [exact B|]; split; [exact Ef|]; unfold line_argv; rewrite D; reflexivity|].
  rewrite D. split; [exact Hp|]. split; [|exact De]. split; rewrite D; [exact Nm|]. constructor; [exact So|constructor].
Qed.
Lemma task_line_proof : forall own x b a s c f k g n m t, shows own x a s -> starts_process x a c f k g n ->
  let j := procs (lg s) in let d := x_desc x in let h := se_read a ++ [c] in let ws := line_argv x a in
  let calls := calls_of (b h) j m in let w' := snd (spec_ops calls (se_world a)) in
  (forall i, j <= i < j + m -> silent (b h i)) ->
  last_call d c ws (hook_calls (env_at x a c) d ws) (b h (j + m)) t ->
  all_allowed (d_pathmax d) own calls (se_world a) -> w_cwd w' <> None ->
  exists s', fed_by (at_work x b) [c] s s' /\ shows own x (mkSess w' h 0 []) s' /\
    lg s' = lg s ++ EvIn c :: map EvOut (eol_echo c) ++ hook_events d ws ++ EvExec (XUser k) (Some (f_name f)) ws ::
         repeat (EvProc n (f_name g)) (S m) ++ map EvOut (t ++ prompt d (show (here w'))).
Proof.
  intros own x b a s c f k g n m t Sh Sp j d h ws calls w' Si La Al Wn'.
  destruct (line_called own x a s c f k g n Sh Sp) as (Hc & Ca).
  destruct Sp as (El & Ne & Hp & Nm & So & De & Fx & Ex & Fp). pose proof Sh as (D & K & Wn & Hr & Ed & B & Le & Ef).
  assert (G : exists s', fed_by (counting (env_at x a c) (b h)) [c] s s' /\ editing 0 [] s' /\ bufs_ok s' /\ knows own s' w' /\ o_desc s' = d /\
    lg s' = lg s ++ EvIn c :: map EvOut (eol_echo c) ++ hook_events d ws ++ EvExec (XUser k) (Some (f_name f)) ws ::
         repeat (EvProc n (f_name g)) (S m) ++ map EvOut (t ++ prompt d (show (here w')))).
  { unfold d in *. rewrite <- D in *. remember (b h (j + m)) as acts eqn:Ea. destruct La as [acts Sk Rm|pre Sl|pre Sl].
    - subst acts. exact (C59_process_proof (env_at x a c) (b h) own (se_world a) _ _ ws f s c k g n m (here w') Ca Hc Ne Fx Ex Fp Si Sk Rm Al (here_cwd _ Wn')).
    - exact (C59_finish_proof (env_at x a c) (b h) own (se_world a) _ _ ws f s c k g n m (here w') pre S_RESET Ca Hc Ne Fx Ex Fp Si (eq_sym Ea) Sl (or_introl eq_refl) Al (here_cwd _ Wn')).
    - exact (C59_finish_proof (env_at x a c) (b h) own (se_world a) _ _ ws f s c k g n m (here w') pre S_RESET_PROMPT Ca Hc Ne Fx Ex Fp Si (eq_sym Ea) Sl (or_intror eq_refl) Al (here_cwd _ Wn')). }
  destruct G as (s' & F & Ed' & B' & K' & D' & L). exists s'.
  assert (F' : fed_by (at_work x b) [c] s s') by (apply at_work_fed; unfold env_at in F; unfold h in F; rewrite Hr in F; exact F).
  split; [exact F'|]. split; [|exact L]. split; [exact D'|]. split; [exact K'|]. split; [exact Wn'|].
  split; [cbn [se_read]; unfold h; apply fed_by_reads in F'; unfold Sched.reads in F'; congruence|]. split; [exact Ed'|]. split; [exact B'|].
  split; [cbn [se_esc]; lia|split; intros []].
Qed.

(** ** Sessions *)
Lemma task_proof : forall own x b j a cs evs j' a', task_run own x b j a cs evs j' a' -> forall s, shows own x a s -> procs (lg s) = j ->
  exists s', fed_by (at_work x b) cs s s' /\ shows own x a' s' /\ procs (lg s') = j' /\ lg s' = lg s ++ evs.
Proof.
  intros own x b j a cs evs j' a' R. induction R as [j a|j a c cs evs j' a' L1 R IH|j a c f k g n m t cs evs j' a' Sp d h ws calls w' Si La Al Wn R IH]; intros s Sh Pj.
  - exists s. split; [constructor; apply Sh|]. split; [exact Sh|]. split; [exact Pj|]. rewrite app_nil_r. reflexivity.
  - destruct (step_proof own x a s c Sh L1) as (s1 & F1 & Sh1 & Lg1).
    assert (G1 : fed_by (at_work x b) [c] s s1).
    { apply (work_fed1 (app_of x) _ c s s1 (fst (sess_step x a c))); [|intros L; split; [|split]; reflexivity|exact Lg1|apply step_noproc].
      apply (fed_on_input (x_app x)). unfold env_at in F1. rewrite (proj1 (proj2 (proj2 (proj2 Sh)))) in F1. exact F1. }
    destruct (IH s1 Sh1) as (s2 & F2 & Sh2 & P2 & Lg2); [rewrite Lg1, procs_more; change (EvIn c :: fst (sess_step x a c)) with ([EvIn c] ++ fst (sess_step x a c)); rewrite procs_more, (procs_none _ (step_noproc x a c)); cbn; lia|].
    exists s2. split; [exact (fed_by_app _ [c] cs s s1 s2 G1 F2)|]. split; [exact Sh2|]. split; [exact P2|]. rewrite Lg2, Lg1, <- app_assoc. reflexivity.
  - subst j. destruct (task_line_proof own x b a s c f k g n m t Sh Sp Si La Al Wn) as (s1 & F1 & Sh1 & Lg1).
    destruct (IH s1 Sh1) as (s2 & F2 & Sh2 & P2 & Lg2).
    { rewrite Lg1, procs_more. f_equal. change (procs (map EvOut (eol_echo c) ++ hook_events d ws ++ [EvExec (XUser k) (Some (f_name f)) ws] ++ repeat (EvProc n (f_name g)) (S m) ++ map EvOut (t ++ prompt d (show (here w')))) = S m).
      rewrite !procs_more, procs_repeat, !(procs_none _ (outs_noproc _)), (procs_none _ (hook_noproc d ws)). cbn. lia. }
    exists s2. split; [exact (fed_by_app _ [c] cs s s1 s2 F1 F2)|]. split; [exact Sh2|]. split; [exact P2|]. rewrite Lg2. fold d h ws calls w' in Lg1. rewrite Lg1, <- app_assoc. reflexivity.
Qed.

(** ** Every schedule *)
Lemma task_split : forall own x b p q j a evs j' a', task_run own x b j a (p ++ q) evs j' a' ->
  exists e1 j1 a1 e2, task_run own x b j a p e1 j1 a1 /\ task_run own x b j1 a1 q e2 j' a' /\ evs = e1 ++ e2.
Proof.
  intros own x b p q. induction p as [|c p IH]; intros j a evs j' a' R; [exists [], j, a, evs; split; [constructor|split; [exact R|reflexivity]]|].
  cbn [app] in R. inversion R as [|j0 a0 c0 cs0 evs0 j0' a0' L1 R1|j0 a0 c0 f k g n m t cs0 evs0 j0' a0' Sp d h ws calls w' Si La Al Wn R1]; subst.
  - apply IH in R1 as (e1 & j1 & a1 & e2 & A & B & ->). eexists _, j1, a1, e2. split; [apply task_key; [exact L1|exact A]|]. split; [exact B|]. cbn [app]. rewrite <- app_assoc. reflexivity.
  - apply IH in R1 as (e1 & j1 & a1 & e2 & A & B & ->). eexists _, j1, a1, e2. split; [eapply task_line; eassumption|]. split; [exact B|]. cbn [app]. rewrite <- !app_assoc. reflexivity.
Qed.
Lemma task_schedule : forall own x b j a cs evs j' a' s0 s l q s1, task_run own x b j a cs evs j' a' -> quiet_by (at_work x b) s0 s ->
  shows own x a s -> procs (lg s) = j -> drive (at_work x b) cs l s0 = Ok (q, s1) ->
  exists p evs1 j1 a1 s', cs = p ++ q /\ task_run own x b j a p evs1 j1 a1 /\ quiet_by (at_work x b) s1 s' /\ shows own x a1 s' /\ lg s' = lg s ++ evs1.
Proof.
  intros own x b j a cs evs j' a' s0 s l q s1 R Q Sh Pj Dr. pose proof Dr as Dr'. apply drive_esteps in Dr' as (os & H & E).
  rewrite E in R, Dr. apply task_split in R as (e1 & j1 & a1 & e2 & R1 & _ & _).
  destruct (task_proof own x b j a _ e1 j1 a1 R1 s Sh Pj) as (s' & F & Sh' & _ & Lg). exists (somes os), e1, j1, a1, s'.
  split; [exact E|]. split; [exact R1|]. split; [eapply drive_prefix; eauto|]. split; [exact Sh'|exact Lg].
Qed.
Lemma C59_session_proof : forall own x b j a cs evs j' a' s, task_run own x b j a cs evs j' a' -> shows own x a s -> procs (lg s) = j ->
  exists s', fed_by (at_work x b) cs s s' /\ shows own x a' s' /\ procs (lg s') = j' /\ lg s' = lg s ++ evs.
Proof. intros own x b j a cs evs j' a' s R. exact (task_proof own x b j a cs evs j' a' R s). Qed.
Lemma C59_session_schedule_proof : forall own x b j a cs evs j' a' s l q s1, task_run own x b j a cs evs j' a' -> shows own x a s -> procs (lg s) = j ->
  drive (at_work x b) cs l s = Ok (q, s1) -> polling s1 ->
  exists p evs1 j1 a1, cs = p ++ q /\ task_run own x b j a p evs1 j1 a1 /\ shows own x a1 s1 /\ lg s1 = lg s ++ evs1.
Proof.
  intros own x b j a cs evs j' a' s l q s1 R Sh Pj Dr P.
  destruct (task_schedule own x b j a cs evs j' a' s s l q s1 R (quiet_by_here _ _ (shows_polling _ _ _ _ Sh)) Sh Pj Dr) as (p & e1 & j1 & a1 & s' & E & R1 & Q & Sh' & Lg).
  rewrite (polling_quiet _ _ _ P Q) in Sh', Lg. exists p, e1, j1, a1. auto.
Qed.
Lemma C59_session_done_proof : forall own x b j a cs evs j' a' s, task_run own x b j a cs evs j' a' -> shows own x a s -> procs (lg s) = j ->
  (forall l, exists q s1, drive (at_work x b) cs l s = Ok (q, s1)) /\
  exists n s', (forall l, n <= both_ready l -> drive (at_work x b) cs l s = Ok ([], s')) /\ shows own x a' s' /\ lg s' = lg s ++ evs.
Proof.
  intros own x b j a cs evs j' a' s R Sh Pj. destruct (task_proof own x b j a cs evs j' a' R s Sh Pj) as (s' & F & Sh' & _ & Lg).
  destruct (drive_started _ _ _ _ _ (quiet_by_here _ _ (shows_polling _ _ _ _ Sh)) F (shows_cur _ _ _ _ Sh')) as (A & n & B). split; [exact A|]. exists n, s'. auto.
Qed.
Lemma C59_session_init_proof : forall d d0 b0 ib0 ob0 h ib ob own os f b,
  2 <= d_insize d -> 4 <= d_outsize d -> length ib = d_insize d -> length ob = d_outsize d ->
  (cfg_commands (d_cfg d) = true -> buildin_commands (d_cfg d) <> []) -> In b0 own -> (forall i, In i own -> nth_error h i = Some node_zero) ->
  let w0 := mkWorld [] (if cfg_commands (d_cfg d) then [(b0, buildin_commands (d_cfg d))] else []) None in
  let w := snd (spec_ops os w0) in
  let x := mkSetting d f in let a := mkSess w [] 0 [] in
  all_allowed (d_pathmax d) own os w0 ->
  forall cwd cs evs j' a', w_cwd w = Some cwd -> task_run own x b 0 a cs evs j' a' ->
  exists s0 s1, ush_init d ib ob (st_zero d0 b0 ib0 ob0 h []) = Ok s0 /\ do_ops os s0 = Ok (fst (spec_ops os w0), s1) /\
    (forall l, exists q s2, drive (at_work x b) cs l s1 = Ok (q, s2) /\
       (polling s2 -> exists p evs1 j1 a1, cs = p ++ q /\ task_run own x b 0 a p evs1 j1 a1 /\ shows own x a1 s2 /\
          lg s2 = map EvOut (greeting ++ prompt d (show cwd)) ++ evs1)) /\
    exists n, forall l, n <= both_ready l -> exists s2, drive (at_work x b) cs l s1 = Ok ([], s2) /\ polling s2.
Proof.
  intros d d0 b0 ib0 ob0 h ib ob own os f b H1 H2 H3 H4 H5 H6 H7 w0 w x a Al cwd cs evs j' a' Wc R.
  destruct (boot_proof d d0 b0 ib0 ob0 h [] ib ob own os f H1 H2 H3 H4 H5 H6 H7 Al cwd Wc) as (s0 & s1 & s2 & E0 & E1 & Q & Sh & Lg).
  fold w0 in E1. fold w in Sh. fold x in Sh, Q. cbn [ins flat_map] in Sh. fold a in Sh. cbn [app] in Lg.
  assert (L1 : lg s1 = []) by (eapply boot_lg; eauto).
  assert (Q2 : quiet_by (at_work x b) s1 s2).
  { apply (work_quiet (app_of x) _ s1 s2 Q) with (evs := map EvOut (greeting ++ prompt d (show cwd))); [intros L; split; [|split]; reflexivity|rewrite L1; exact Lg|apply outs_noproc]. }
  assert (Pj : procs (lg s2) = 0) by (rewrite Lg; apply procs_none, outs_noproc).
  destruct (task_proof own x b 0 a cs evs j' a' R s2 Sh Pj) as (s' & F & Sh' & _ & _).
  destruct (drive_started _ _ _ _ _ Q2 F (shows_cur _ _ _ _ Sh')) as (A & n & B).
  exists s0, s1. split; [exact E0|]. split; [exact E1|]. split.
  - intros l. destruct (A l) as (q & s3 & Dr). exists q, s3. split; [exact Dr|]. intros P.
    destruct (task_schedule own x b 0 a cs evs j' a' s1 s2 l q s3 R Q2 Sh Pj Dr) as (p & e1 & j1 & a1 & s4 & E & R1 & Q4 & Sh4 & Lg4).
    rewrite (polling_quiet _ _ _ P Q4) in Sh4, Lg4. exists p, e1, j1, a1. split; [exact E|]. split; [exact R1|]. split; [exact Sh4|]. rewrite Lg4, Lg. reflexivity.
  - exists n. intros l K. exists s'. split; [exact (B l K)|apply Sh'].
Qed.

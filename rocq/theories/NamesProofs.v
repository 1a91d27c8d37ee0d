(** * NamesProofs: proofs behind PropNames.v (C03, C04, C38). *)
From Verif Require Import Shell BaseFacts LogFacts Sched ServiceFacts SchedFacts Macro SchedProofs Editor EditFacts Words Line History LineFacts LineProofs Spec Tree TreeFacts Cmds HookFacts CmdProofs.

Lemma denotes_eq : forall own w cwd s n, knows own s w -> w_cwd w = Some cwd -> no_nul n -> findable s w [n] -> ush_file_find_by_name n s = Ok (denotes w n).
Proof. intros own w cwd s n K Wc N (Nm & Fi). inversion Fi; subst. eapply find_denotes; eauto. Qed.

(** The log of a hooked line starts with the hook's call, then the file's. *)
Lemma C03_called_proof : forall own w cwd e l ws f s c s' cb, called e own w cwd l ws f s -> c = CR \/ c = LF ->
  fed e [c] s s' -> f_exec f = Some cb -> ws <> [] ->
  exists evs, lg s' = lg s ++ EvIn c :: map EvOut (eol_echo c) ++ hook_events (o_desc s) ws ++ EvExec cb (Some (f_name f)) ws :: evs.
Proof.
  intros own w cwd e l ws f s c s' cb (K & Wc & T & X & Fi & De) Hc F Fx Ne.
  pose proof (entered_no_nul _ _ _ T) as Nn.
  destruct (hooked_line e l ws s c (show cwd) T (cwd_show _ _ _ _ K Wc) Hc Ne X) as (s2 & args & R & G).
  apply G in F as (s3 & Ru & Q). destruct R as (Kc & _ & _ & _ & _ & _ & _ & _ & L). unfold run_file in Ru.
  rewrite (find_core (hd [] ws) s s2 Kc), (denotes_eq own w cwd s (hd [] ws) K Wc) in Ru; [|destruct Nn; [congruence|assumption]|exact Fi].
  rewrite De in Ru. cbn [bind] in Ru. rewrite Fx in Ru.
  destruct (call_exec_log e cb f args ws s2 s3 Ru) as (evs & L3 & _). destruct (quiet_log _ _ _ Q) as (evs2 & L').
  exists (evs ++ evs2). rewrite L', L3, L, <- !app_assoc. cbn [app]. rewrite <- !app_assoc. reflexivity.
Qed.

Lemma C38_denotes_at : forall own w cwd e Go s c name rest x, knows own s w -> w_cwd w = Some cwd ->
  no_nul name -> findable s w [name] -> poised e Go c (name :: rest) s ->
  match denotes w name with
  | None => x = ST_COMMAND_SYNTAX_ERROR
  | Some f => f_exec f = None /\ x = ST_FILE_NOT_EXECUTABLE
  end ->
  exists s', answered_at Go c s (hook_events (o_desc s) (name :: rest) ++ then_prompt s (show cwd) (message s x)) s' /\ core s' = core s.
Proof.
  intros own w cwd e Go s c name rest x K Wc Nn Fi X H. pose proof (cwd_show _ _ _ _ K Wc) as W.
  destruct (X ltac:(discriminate)) as (s2 & args & R & F).
  destruct R as (Kc & B & _ & _ & _ & _ & _ & _ & L).
  destruct (print_status_quiet e x s2 (show cwd) (core_cwd _ _ _ Kc W) B) as (s' & Q & E & K' & B' & L').
  assert (Ru : run_file e args (name :: rest) s2 = Ok (ush_print_status x s2)).
  { unfold run_file. cbn [hd]. rewrite (find_core name s s2 Kc), (denotes_eq own w cwd s name K Wc Nn Fi). cbn [bind].
    destruct (denotes w name) as [f|]; [|subst x; reflexivity].
    destruct H as (Fx & ->). rewrite Fx. reflexivity. }
  exists s'. split; [|congruence]. split; [|split; [exact E|split; [exact B'|]]].
  - exact (F _ _ Ru Q).
  - rewrite L', L. unfold then_prompt, message. rewrite (core_desc _ _ Kc), <- !app_assoc. cbn [app]. rewrite <- !app_assoc. reflexivity.
Qed.
Lemma C38_denotes_proof : forall own w cwd e l s c name rest x, knows own s w -> w_cwd w = Some cwd ->
  entered l (name :: rest) s -> findable s w [name] -> c = CR \/ c = LF -> hook_prints e (o_desc s) (name :: rest) ->
  match denotes w name with
  | None => x = ST_COMMAND_SYNTAX_ERROR
  | Some f => f_exec f = None /\ x = ST_FILE_NOT_EXECUTABLE
  end ->
  exists s', answered e c s (hook_events (o_desc s) (name :: rest) ++ then_prompt s (show cwd) (message s x)) s' /\ core s' = core s.
Proof.
  intros own w cwd e l s c name rest x K Wc T Fi Hc X H. apply (C38_denotes_at own w cwd e (fed e [c] s)); auto.
  - pose proof (entered_no_nul _ _ _ T) as Nn. inversion Nn; auto.
  - exact (line_poised e l _ s c _ T (cwd_show _ _ _ _ K Wc) Hc X).
Qed.

Lemma filter_hook : forall d ws, filter file_exec (hook_events d ws) = [].
Proof. intros d ws. unfold hook_events. destruct (d_exec d); reflexivity. Qed.

Lemma C04_denotes_proof : forall d0 b ib0 ob0 h d ib ob s0 ops s own w cwd e l ws c s',
  ush_init d ib ob (st_zero d0 b ib0 ob0 h []) = Ok s0 ->
  Forall (fun o => match o with OpService i => fair (io_env i) | OpApi a => fair_action a end) ops ->
  run ops s0 = Ok s -> fair e ->
  knows own s w -> w_cwd w = Some cwd -> entered l ws s -> findable s w (firstn 1 ws) ->
  c = CR \/ c = LF -> hook_prints e (o_desc s) ws -> fed e [c] s s' ->
  exists evs, lg s' = lg s ++ evs /\
    filter file_exec evs =
      match ws with
      | [] => []
      | name :: _ =>
          match denotes w name with
          | Some f => match f_exec f with Some cb => [EvExec cb (Some (f_name f)) ws] | None => [] end
          | None => []
          end
      end.
Proof.
  intros d0 b ib0 ob0 h d ib ob s0 ops s own w cwd e l ws c s' HI Fo HR Fe K Wc T Fi Hc X F. pose proof (cwd_show _ _ _ _ K Wc) as W.
  destruct ws as [|name rest].
  { destruct (C04_blank_proof e l s c (show cwd) T W Hc) as (s1 & (F1 & _ & _ & L1) & _).
    rewrite (fed_det _ _ _ _ _ F F1). eexists. split; [exact L1|]. cbn [filter file_exec]. rewrite filter_app, !filter_outs. reflexivity. }
  cbn [firstn] in Fi.
  assert (Err : forall x, match denotes w name with None => x = ST_COMMAND_SYNTAX_ERROR | Some f => f_exec f = None /\ x = ST_FILE_NOT_EXECUTABLE end ->
     exists evs, lg s' = lg s ++ evs /\ filter file_exec evs = []).
  { intros x Fx. destruct (C38_denotes_proof own w cwd e l s c name rest x K Wc T Fi Hc X Fx) as (s1 & (F1 & _ & _ & L1) & _).
    rewrite (fed_det _ _ _ _ _ F F1). eexists. split; [exact L1|]. cbn [filter file_exec]. unfold then_prompt. rewrite !filter_app, filter_hook, !filter_outs. reflexivity. }
  destruct (denotes w name) as [f|] eqn:De; [|apply (Err ST_COMMAND_SYNTAX_ERROR); auto].
  destruct (f_exec f) as [cb|] eqn:Fx; [|apply (Err ST_FILE_NOT_EXECUTABLE); auto].
  destruct (C03_called_proof own w cwd e l (name :: rest) f s c s' cb) as (evs & L); auto; [|discriminate|].
  { split; [exact K|]. split; [exact Wc|]. split; [exact T|]. split; [exact X|]. split; [exact Fi|exact De]. }
  eexists. split; [exact L|]. cbn [filter file_exec]. rewrite !filter_app, filter_outs, filter_hook. cbn [app filter file_exec]. f_equal.
  destruct (fed_run _ _ _ _ F) as (ls & Sl & Rl).
  assert (O : one_per_line file_exec (lg s')).
  { apply (C04_history_proof d0 b ib0 ob0 h d ib ob s0 (ops ++ services ls) s' HI).
    - apply Forall_app. split; [exact Fo|]. unfold services. apply Forall_map. eapply Forall_impl; [|exact Sl]. intros i ->. exact Fe.
    - rewrite run_app, HR. exact Rl. }
  set (pre := EvIn c :: map EvOut (eol_echo c) ++ hook_events (o_desc s) (name :: rest)).
  assert (L2 : lg s' = (lg s ++ pre) ++ EvExec cb (Some (f_name f)) (name :: rest) :: evs) by (rewrite L; unfold pre; rewrite <- app_assoc; cbn [app]; rewrite <- app_assoc; reflexivity).
  rewrite L2 in O. apply (opl_last _ _ _ _ (or_introl eq_refl) O); [reflexivity|].
  assert (I : Sched.reads s [c] s') by (apply (fed_reads e); exact F). unfold Sched.reads in I.
  rewrite L, ins_app in I. apply app_inv_head in I. cbn [ins flat_map app] in I. injection I as I.
  rewrite !flat_map_app in I. apply app_eq_nil in I as (_ & I). apply app_eq_nil in I as (_ & I). cbn [flat_map app] in I.
  clear - I. induction evs as [|y evs IH]; [constructor|]. cbn [flat_map] in I. apply app_eq_nil in I as (I1 & I2).
  constructor; auto. destruct y; cbn; auto; discriminate.
Qed.

(** * LearnProofs: applications that learn at any moment (C63, C64). *)
From Coq Require Import Arith Lia.
From Verif Require Import Shell BaseFacts Spec Words Sched LogFacts ServiceFacts SchedFacts LineFacts Editor Line Tree Cmds Complete Session SessionProofs Builtin Examples ExampleProofs Memory MemoryProofs Learn.

(** Events of callbacks of the application. *)
Definition asks (x : event) : Prop :=
  match x with EvExec (XUser _) _ _ | EvGet _ _ | EvSet _ _ _ | EvProc _ _ => True | _ => False end.
Definition asked (s s' : st) : Prop := exists p y q, lg s' = lg s ++ p ++ y :: q /\ asks y.

(** ** A call that asks nothing does not depend on the callbacks *)
Lemma exec_asked : forall e cb f args argv s s1, call_exec e cb f args argv s = Ok s1 ->
  asked s s1 \/ forall e', call_exec e' cb f args argv s = Ok s1.
Proof.
  intros e cb f args argv s s1 H. destruct cb; try (right; intros e'; exact H).
  - unfold call_exec, xxd_callback in *. destruct argv as [|x0 [|name [|]]]; try (right; intros e'; exact H).
    destruct (ush_file_find_by_name name _) as [[g|]|] eqn:F; cbn [bind] in *; try (right; intros e'; exact H).
    destruct (f_get g) as [k|]; [|right; intros e'; exact H]. left.
    destruct (call_get e k g _) as [[a s2]|] eqn:C; cbn [bind] in H; [|discriminate H]. injection H as <-. apply call_get_lg in C.
    exists [EvExec XXxd (Some (f_name f)) [x0; name]], (EvGet k (f_name g)), []. split; [|exact I].
    transitivity (lg s2); [destruct (g_ptr a); reflexivity|]. rewrite C. unfold emit, set_lg. cbn [lg]. rewrite <- app_assoc. reflexivity.
  - unfold call_exec, echo_callback in *. destruct argv as [|x0 [|text [|op [|name [|]]]]]; try (right; intros e'; exact H).
    destruct (negb (beq op (lit ">"))); [right; intros e'; exact H|].
    destruct (ush_file_find_by_name name _) as [[g|]|] eqn:F; cbn [bind] in *; try (right; intros e'; exact H).
    destruct (f_set g) as [k|]; [|right; intros e'; exact H]. left.
    ok1. ok1. ok1. destruct a1 as [b n]. apply do_actions_lg in H.
    exists [EvExec XEcho (Some (f_name f)) [x0; text; op; name]], (EvSet k (f_name g) (firstn n (skipn a b))), []. split; [|exact I].
    rewrite H. unfold emit, set_lg. cbn [lg set_inb]. rewrite <- app_assoc. reflexivity.
  - left. unfold call_exec in H. apply do_actions_lg in H. exists [], (EvExec (XUser n) (Some (f_name f)) argv), []. split; [exact H|exact I].
Qed.

Lemma finish_asked : forall e s s1, ush_parse_finish e s = Ok s1 -> asked s s1 \/ forall e', ush_parse_finish e' s = Ok s1.
Proof.
  intros e s s1 H. unfold ush_parse_finish in *. destruct (ush_parse_get_args s) as [args|]; cbn [bind] in *; [|right; intros e'; exact H].
  destruct (arg_values (inb s) args) as [argv|]; cbn [bind] in *; [|right; intros e'; exact H].
  destruct argv as [|name rest]; [right; intros e'; exact H|].
  destruct (d_exec (o_desc s)) as [k|].
  - left. ok1. apply do_actions_lg in E. ok1.
    assert (G : exists evs, lg s1 = lg a ++ evs).
    { destruct a0 as [f|]; [destruct (f_exec f) as [cb|]|].
      - apply call_exec_log in H as (evs & H & _). eauto.
      - injection H as <-. exists []. rewrite app_nil_r. reflexivity.
      - injection H as <-. exists []. rewrite app_nil_r. reflexivity. }
    destruct G as (evs & G). exists [], (EvExec (XUser k) None (name :: rest)), evs. split; [|exact I].
    rewrite G, E. unfold emit, set_lg. cbn [lg]. rewrite <- app_assoc. reflexivity.
  - cbn [bind] in *. destruct (ush_file_find_by_name name s) as [[f|]|]; cbn [bind] in *; try (right; intros e'; exact H).
    destruct (f_exec f) as [cb|]; [|right; intros e'; exact H]. apply exec_asked in H. exact H.
Qed.

Lemma service_asked : forall r w e s b s1, ush_service (mkIo r w e) s = Ok (b, s1) ->
  asked s s1 \/ forall e', ush_service (mkIo r w e') s = Ok (b, s1).
Proof.
  intros r w e s b s1 H. rewrite service_eq in H. destruct (o_cur s) as [k|] eqn:C; [|discriminate H].
  assert (G : asked s s1 \/ forall e', svc (mkIo r w e') s = Ok (b, s1)).
  2:{ destruct G as [G|G]; [left; exact G|right]. intros e'. rewrite service_eq, C. apply G. }
  unfold svc in *. destruct (o_state s) eqn:S; try (right; intros e'; exact H).
  1-4: unfold ush_parse_service in *; rewrite S in *; cbn [io_env] in *; try (right; intros e'; exact H).
  1-3: unfold ush_parse_char in *; destruct (rd (inb s) (o_inpos s)) as [ch|]; cbn [bind] in *; [|discriminate H];
    (destruct (ceq ch LF || ceq ch CR); [|right; intros e'; exact H]);
    (destruct (out_char NUL _) as [s2|] eqn:O; cbn [bind] in *; [|discriminate H]);
    (destruct (ush_parse_finish e _) as [s3|] eqn:F; cbn [bind] in *; [|discriminate H]); injection H as <- <-;
    (apply finish_asked in F as [(p & y & q & F & A)|F];
     [left; exists p, y, q; split; [|exact A]; rewrite F; unfold out_char in O; oks; reflexivity
     |right; intros e'; rewrite F; reflexivity]).
  all: unfold ush_process_service in *; rewrite S in *; destruct (o_pfile s) as [f|]; try (right; intros e'; exact H);
    destruct (f_proc f) as [p|]; try (right; intros e'; exact H); destruct p; try (right; intros e'; exact H); cbn [io_env] in *.
  all: try (left; ok1; injection H as <- <-; apply do_actions_lg in E; eexists [], _, []; split; [exact E|exact I]).
  all: unfold cat_service in *; rewrite S in *; try (right; intros e'; exact H).
  destruct (o_argc s <=? o_pitem s); [right; intros e'; exact H|]. left. ok1. injection H as <- <-. ok1. ok1. ok1. ok1. ok1. ok1. ok1. destruct a6 as [g s2]. pose proof (call_get_lg _ _ _ _ _ _ E6) as L.
  destruct (g_ptr g); try discriminate E. injection E as <-. eexists [], _, []. split; [exact L|exact I].
Qed.

(** ** The events of a byte: nothing is asked after a lesson *)
Fixpoint lessons_last (l : list event) : Prop :=
  match l with [] => True | x :: r => (lesson x -> Forall (fun y => ~ asks y) r) /\ lessons_last r end.
Lemma last_none : forall l, Forall (fun x => ~ lesson x) l -> lessons_last l.
Proof. intros l H. induction H as [|x l N _ IH]; [exact I|]. split; [intros A; destruct (N A)|exact IH]. Qed.
Lemma last_pre : forall p l, Forall (fun x => ~ lesson x) p -> lessons_last l -> lessons_last (p ++ l).
Proof. intros p l H L. induction H as [|x p N _ IH]; [exact L|]. split; [intros A; destruct (N A)|exact IH]. Qed.
Lemma last_post : forall l q, lessons_last l -> Forall (fun x => ~ asks x) q -> Forall (fun x => ~ lesson x) q -> lessons_last (l ++ q).
Proof.
  intros l q. induction l as [|x l IH]; intros H A N; [apply last_none; exact N|]. destruct H as (H1 & H2).
  split; [intros E; apply Forall_app; split; [apply H1; exact E|exact A]|apply IH; auto].
Qed.
Lemma last_before : forall p y q, lessons_last (p ++ y :: q) -> asks y -> Forall (fun x => ~ lesson x) p.
Proof.
  induction p as [|x p IH]; intros y q H A; [constructor|]. destruct H as (H1 & H2). constructor; [|eapply IH; eauto].
  intros E. specialize (H1 E). apply Forall_app in H1 as (_ & H1). inversion H1; subst. auto.
Qed.
Lemma outs_mute : forall t, Forall (fun x => ~ lesson x) (map EvOut t) /\ Forall (fun x => ~ asks x) (map EvOut t).
Proof. intros t. split; apply Forall_forall; intros x I; apply in_map_iff in I as (c & <- & _); intros []. Qed.

Lemma read_all_mute : forall e names w, Forall (fun x => ~ lesson x) (fst (read_all e w names)).
Proof.
  intros e names. induction names as [|n r IH]; intros w; cbn [read_all]; [constructor|]. destruct (denotes w n) as [f|]; [|constructor]. destruct (f_get f) as [cb|]; [|constructor].
  specialize (IH (after_get e w cb f)). destruct (read_all e (after_get e w cb f) r) as [evs w']. cbn [fst] in *. constructor; [intros []|]. apply Forall_app. split; [apply outs_mute|exact IH].
Qed.
Lemma exec_last : forall d e w c cb f ws, lessons_last (EvExec cb (Some (f_name f)) ws :: fst (fst (do_exec d e w c cb f ws))).
Proof.
  intros d e w c cb f ws. unfold do_exec. destruct (accepts cb (length ws)); [|split; [intros _; constructor|exact I]].
  destruct cb; try (split; [solve [intros []]|]); cbn [fst].
  - exact I.
  - exact I.
  - unfold do_cd. destruct (nth 1 ws []); [exact I|]. destruct (dir_named _ _); exact I.
  - exact I.
  - unfold do_cat. destruct (first_unreadable w (tl ws)); [exact I|]. pose proof (read_all_mute e (tl ws) w) as M. destruct (read_all e w (tl ws)). apply last_none. exact M.
  - unfold do_xxd. destruct (denotes w _) as [g|]; [|exact I]. destruct (f_get g); [|exact I]. split; [intros []|exact I].
  - unfold do_echo. destruct (tl ws) as [|t [|op [|name [|]]]]; try exact I. destruct (beq op (lit ">")); [|exact I]. destruct (denotes w name) as [g|]; [|exact I].
    destruct (f_set g); [|exact I]. destruct (do_calls d w c _ _ _). split; [intros _; constructor|exact I].
  - destruct (do_calls d w c _ _ _). split; [intros _; constructor|exact I].
Qed.
Lemma react_last : forall d e w c ws, lessons_last (fst (fst (react d e w c ws))).
Proof.
  intros d e w c ws. unfold react. destruct ws as [|name r]; [exact I|].
  assert (H : Forall (fun x => ~ lesson x) (hook_events d (name :: r))).
  { unfold hook_events. destruct (d_exec d); [|constructor]. constructor; [intros []|constructor]. }
  destruct (denotes _ name) as [f|]; [|apply last_none; exact H]. destruct (f_exec f) as [cb|]; [|apply last_none; exact H].
  pose proof (exec_last d e (after_hook e d (name :: r) w) c cb f (name :: r)) as L. destruct (do_exec _ _ _ _ _ _ _) as [[evs t] w']. cbn [fst] in *. apply last_pre; assumption.
Qed.
Lemma step_last : forall x a c, lessons_last (fst (sess_step x a c)).
Proof.
  intros x a c. unfold sess_step. destruct (ends_line a c).
  - pose proof (react_last (x_desc x) (env_at x a c) (se_world a) c (line_argv x a)) as R. destruct (react _ _ _ _ _) as [[evs t] w']. cbn [fst] in *.
    apply last_pre; [apply outs_mute|]. apply last_post; [exact R|apply outs_mute|apply outs_mute].
  - destruct (completes x c); [destruct (complete _ _ _)|]; cbn [fst]; apply last_none, outs_mute.
Qed.

(** ** Such an application behaves as if it had been asked when the byte was read *)
Lemma learns_more : forall m r L, learns m -> Forall (fun x => ~ lesson x) r -> m (L ++ r) = m L.
Proof.
  intros m r L H F. revert L. induction F as [|x r N _ IH]; intros L; [rewrite app_nil_r; reflexivity|].
  replace (L ++ x :: r) with ((L ++ [x]) ++ r) by (rewrite <- app_assoc; reflexivity). rewrite IH. apply H. exact N.
Qed.
Lemma quiet_by_log : forall m s s', quiet_by m s s' -> exists evs, lg s' = lg s ++ evs.
Proof.
  intros m s s' Q. induction Q as [s P|s b s1 s2 N H _ (evs & IH)]; [exists []; rewrite app_nil_r; reflexivity|].
  apply service_noin in H as (e1 & L & _); auto. exists (e1 ++ evs). rewrite IH, L, app_assoc. reflexivity.
Qed.
Lemma live_quiet : forall m s s', learns m -> quiet_by (at_reads m) s s' ->
  forall r evs, lg s = up_to_read (lg s) ++ r -> lg s' = lg s ++ evs -> (forall p y q, evs = p ++ y :: q -> asks y -> Forall (fun x => ~ lesson x) (r ++ p)) -> quiet_by m s s'.
Proof.
  intros m s s' Le Q. induction Q as [s P|s b s1 s2 N H Q IH]; intros r evs E L La; [constructor; exact P|].
  destruct (quiet_by_log _ _ _ Q) as (e2 & L2). pose proof H as H'. apply service_noin in H' as (e1 & L1 & F1); auto.
  assert (Ev : evs = e1 ++ e2). { rewrite L, L1, <- app_assoc in L2. apply app_inv_head in L2. exact L2. } subst evs.
  econstructor; [exact N| |].
  - unfold tick in *. destruct (service_asked _ _ _ _ _ _ H) as [(p & y & q & A & Y)|H0]; [|apply H0].
    replace (m (lg s)) with (at_reads m (lg s)); [exact H|]. unfold at_reads. rewrite E at 2. symmetry. apply learns_more; [exact Le|].
    rewrite L1 in A. apply app_inv_head in A. subst e1. specialize (La p y (q ++ e2)). rewrite <- app_assoc in La. specialize (La eq_refl Y). apply Forall_app in La. apply La.
  - apply (IH (r ++ e1) e2).
    + rewrite L1, up_to_more by (apply ins_noin; exact F1). rewrite E at 1. rewrite <- app_assoc. reflexivity.
    + exact L2.
    + intros p y q Ep Y. rewrite <- app_assoc. apply (La (e1 ++ p) y q); [rewrite Ep, <- app_assoc; reflexivity|exact Y].
Qed.
Lemma live_fed1 : forall m c s s' evs, learns m -> fed_by (at_reads m) [c] s s' -> lg s' = lg s ++ EvIn c :: evs -> lessons_last evs -> fed_by m [c] s s'.
Proof.
  intros m c s s' evs Le H L La. inversion H as [|? ? ? b s1 s2 ? P H1 H2 H3]; subst. inversion H3; subst.
  econstructor; [exact P|unfold tick in *; rewrite (poll_env _ (at_reads m (lg s))) by exact P; exact H1| |constructor; assumption].
  pose proof H1 as H1'. apply service_poll in H1'; auto. cbn [tick io_rd] in H1'. destruct H1' as [_ L1].
  apply (live_quiet m s1 s' Le H2 [] evs); [rewrite L1, up_to_in, app_nil_r; reflexivity|rewrite L1, <- app_assoc; exact L|].
  intros p y q -> Y. exact (last_before p y q La Y).
Qed.
Lemma live_fed : forall own m d cs a s, learns m -> shows own (fixed m d (lg s)) a s -> mem_limits own m d (lg s) a cs ->
  exists s', fed_by m cs s s' /\ fed_by (at_reads m) cs s s' /\ shows own (fixed m d (lg s')) (snd (mem_run m d (lg s) a cs)) s' /\ lg s' = lg s ++ fst (mem_run m d (lg s) a cs).
Proof.
  intros own m d cs. induction cs as [|c cs IH]; intros a s Le Sh Li.
  - exists s. split; [constructor; apply Sh|]. split; [constructor; apply Sh|]. split; [exact Sh|]. cbn [mem_run fst]. rewrite app_nil_r. reflexivity.
  - cbn [mem_limits] in Li. set (x := fixed m d (lg s ++ [EvIn c])) in *. destruct Li as (L1 & L2).
    destruct (step_proof own x a s c Sh L1) as (s1 & F1 & Sh1 & Lg1).
    apply mem_fed in F1. pose proof (live_fed1 m c s s1 _ Le F1 Lg1 (step_last x a c)) as G1.
    rewrite <- Lg1 in L2. destruct (IH _ s1 Le Sh1 L2) as (s2 & G2 & F2 & Sh2 & Lg2). exists s2.
    split; [apply (fed_by_app m [c] cs s s1 s2); assumption|]. split; [apply (fed_by_app (at_reads m) [c] cs s s1 s2); assumption|].
    cbn [mem_run]. fold x. destruct (sess_step x a c) as [evs a1] eqn:E1. cbn [fst snd] in *. rewrite <- Lg1. destruct (mem_run m d (lg s1) a1 cs) as [evs2 a2]. cbn [fst snd] in *.
    split; [exact Sh2|]. rewrite Lg2, Lg1. rewrite <- app_assoc. reflexivity.
Qed.

(** What holds of [at_reads m] after enough calls holds of [m]. *)
Lemma live_done : forall own m d cs a s0 s k s', learns m -> quiet_by (at_reads m) s0 s -> quiet_by m s0 s -> shows own (fixed m d (lg s)) a s -> mem_limits own m d (lg s) a cs ->
  (forall l, k <= both_ready l -> drive (at_reads m) cs l s0 = Ok ([], s')) ->
  (forall l, exists q s1, drive m cs l s0 = Ok (q, s1)) /\ exists n, forall l, n <= both_ready l -> drive m cs l s0 = Ok ([], s').
Proof.
  intros own m d cs a s0 s k s' Le Q0 Q Sh Li D. destruct (live_fed own m d cs a s Le Sh Li) as (s2 & G & F & Sh2 & _).
  destruct (drive_started _ _ _ _ _ Q0 F (shows_cur _ _ _ _ Sh2)) as (_ & n & B).
  destruct (drive_started _ _ _ _ _ Q G (shows_cur _ _ _ _ Sh2)) as (A & n2 & B2). split; [exact A|].
  assert (Br : forall j, both_ready (repeat (true, true) j) = j) by (induction j as [|j IHj]; [reflexivity|cbn; f_equal; exact IHj]).
  specialize (D (repeat (true, true) (k + n))). specialize (B (repeat (true, true) (k + n))). rewrite Br in D, B. rewrite D in B by lia. specialize (B ltac:(lia)). injection B as ->.
  exists n2. exact B2.
Qed.

Lemma up_to_split : forall l, exists r, l = up_to_read l ++ r.
Proof.
  induction l as [|x l (r & IH)]; [exists []; reflexivity|]. cbn [up_to_read]. destruct (up_to_read l) as [|y u] eqn:E.
  - destruct x; try (exists (EvIn c :: l); reflexivity); try (eexists; reflexivity).
  - exists r. cbn [app]. rewrite IH at 1. reflexivity.
Qed.
(** Printing asks nothing. *)
Lemma live_start : forall m s s' t, learns m -> quiet_by (at_reads m) s s' -> lg s' = lg s ++ map EvOut t -> quiet_by m s s'.
Proof.
  intros m s s' t Le Q L. destruct (up_to_split (lg s)) as (r & E). apply (live_quiet m s s' Le Q r (map EvOut t) E L).
  intros p y q Ep Y. exfalso. destruct (outs_mute t) as (_ & O). rewrite Ep in O. apply Forall_app in O as (_ & O). inversion O; subst. auto.
Qed.

(** Setting up prints nothing. *)
Lemma ops_lg : forall os s r s1, do_ops os s = Ok (r, s1) -> lg s1 = lg s.
Proof.
  induction os as [|o os IH]; intros s r s1 H; cbn [do_ops] in H; [injection H as <- <-; reflexivity|].
  destruct (do_op o s) as [[x s2]|] eqn:E; cbn [bind] in H; [|discriminate H]. destruct (do_ops os s2) as [[xs s3]|] eqn:E2; cbn [bind] in H; [|discriminate H]. injection H as <- <-.
  rewrite (IH _ _ _ E2). destruct o; cbn [do_op] in E; [eapply mount_lg|eapply unmount_lg|eapply cadd_lg|eapply crem_lg|eapply set_current_dir_lg]; exact E.
Qed.
Lemma boot_lg : forall d d0 b ib0 ob0 h l0 ib ob os s0 r s1, ush_init d ib ob (st_zero d0 b ib0 ob0 h l0) = Ok s0 -> do_ops os s0 = Ok (r, s1) -> lg s1 = l0.
Proof.
  intros d d0 b ib0 ob0 h l0 ib ob os s0 r s1 H0 H1. transitivity (lg s0); [eapply ops_lg; eauto|].
  unfold ush_init in H0. ok1. ok1. ok1. injection H0 as <-. change (lg a1 = l0). destruct (cfg_commands (d_cfg d)); [|injection E1 as <-; reflexivity].
  ok1. destruct a2 as [x s2]. injection E1 as <-. apply cadd_lg in E2. exact E2.
Qed.

(** ** C63 *)
Lemma live_schedule : forall own m d cs a s0 s l q s1, learns m -> quiet_by m s0 s -> shows own (fixed m d (lg s)) a s -> mem_limits own m d (lg s) a cs ->
  drive m cs l s0 = Ok (q, s1) ->
  exists p s', cs = p ++ q /\ quiet_by m s1 s' /\ shows own (fixed m d (lg s')) (snd (mem_run m d (lg s) a p)) s' /\ lg s' = lg s ++ fst (mem_run m d (lg s) a p).
Proof.
  intros own m d cs a s0 s l q s1 Le Q Sh Li Dr.
  pose proof Dr as Dr'. apply drive_esteps in Dr' as (os & H & E). exists (somes os).
  pose proof Li as Lp. rewrite E in Lp. apply mem_limits_app in Lp as (Lp & _).
  destruct (live_fed own m d (somes os) a s Le Sh Lp) as (s' & F & _ & Sh' & Lg). exists s'. split; [exact E|]. split; [|split; [exact Sh'|exact Lg]].
  rewrite E in Dr. eapply drive_prefix; eauto.
Qed.
Lemma learns_schedule_proof : forall own m d cs a s l q s1, learns m -> shows own (fixed m d (lg s)) a s -> mem_limits own m d (lg s) a cs ->
  drive m cs l s = Ok (q, s1) -> polling s1 ->
  exists p, cs = p ++ q /\ shows own (fixed m d (lg s1)) (snd (mem_run m d (lg s) a p)) s1 /\ lg s1 = lg s ++ fst (mem_run m d (lg s) a p).
Proof.
  intros own m d cs a s l q s1 Le Sh Li Dr P.
  destruct (live_schedule own m d cs a s s l q s1 Le (quiet_by_here _ _ (shows_polling _ _ _ _ Sh)) Sh Li Dr) as (p & s' & E & Q & R).
  exists p. rewrite (polling_quiet _ _ _ P Q) in R. auto.
Qed.
Lemma learns_done_proof : forall own m d cs a s, learns m -> shows own (fixed m d (lg s)) a s -> mem_limits own m d (lg s) a cs ->
  (forall l, exists q s1, drive m cs l s = Ok (q, s1)) /\
  exists n s', (forall l, n <= both_ready l -> drive m cs l s = Ok ([], s')) /\
    shows own (fixed m d (lg s')) (snd (mem_run m d (lg s) a cs)) s' /\ lg s' = lg s ++ fst (mem_run m d (lg s) a cs).
Proof.
  intros own m d cs a s Le Sh Li. destruct (live_fed own m d cs a s Le Sh Li) as (s' & F & _ & Sh' & Lg).
  destruct (drive_started _ _ _ _ _ (quiet_by_here _ _ (shows_polling _ _ _ _ Sh)) F (shows_cur _ _ _ _ Sh')) as (A & n & B). split; [exact A|]. exists n, s'. auto.
Qed.
Lemma learns_init_proof : forall d d0 b ib0 ob0 h l0 ib ob own os m, learns m ->
  2 <= d_insize d -> 4 <= d_outsize d -> length ib = d_insize d -> length ob = d_outsize d ->
  (cfg_commands (d_cfg d) = true -> buildin_commands (d_cfg d) <> []) -> In b own -> (forall i, In i own -> nth_error h i = Some node_zero) ->
  let w0 := mkWorld [] (if cfg_commands (d_cfg d) then [(b, buildin_commands (d_cfg d))] else []) None in
  let w := snd (spec_ops os w0) in let a := mkSess w (ins l0) 0 [] in
  all_allowed (d_pathmax d) own os w0 ->
  forall cwd cs, w_cwd w = Some cwd ->
  let L := l0 ++ map EvOut (greeting ++ prompt d (show cwd)) in
  mem_limits own m d L a cs ->
  exists s0 s1, ush_init d ib ob (st_zero d0 b ib0 ob0 h l0) = Ok s0 /\ do_ops os s0 = Ok (fst (spec_ops os w0), s1) /\
    (forall l, exists q s2, drive m cs l s1 = Ok (q, s2) /\
       (polling s2 -> exists p, cs = p ++ q /\ shows own (fixed m d (lg s2)) (snd (mem_run m d L a p)) s2 /\ lg s2 = L ++ fst (mem_run m d L a p))) /\
    exists n, forall l, n <= both_ready l -> exists s2, drive m cs l s1 = Ok ([], s2) /\ polling s2.
Proof.
  intros d d0 b ib0 ob0 h l0 ib ob own os m Le H1 H2 H3 H4 H5 H6 H7 w0 w a Al cwd cs Wc L Li.
  destruct (mem_boot d d0 b ib0 ob0 h l0 ib ob own os m H1 H2 H3 H4 H5 H6 H7 Al cwd Wc) as (s0 & s1 & s2 & E0 & E1 & Q & Sh2 & Lg).
  assert (L1 : lg s1 = l0) by (eapply boot_lg; eauto).
  assert (Q2 : quiet_by m s1 s2) by (apply (live_start m s1 s2 (greeting ++ prompt d (show cwd)) Le Q); rewrite L1; exact Lg).
  fold L in Lg. exists s0, s1. split; [exact E0|]. split; [exact E1|]. rewrite <- Lg in Li.
  destruct (live_fed own m d cs _ s2 Le Sh2 Li) as (s' & F & _ & Sh' & _).
  destruct (drive_started _ _ _ _ _ Q2 F (shows_cur _ _ _ _ Sh')) as (A & n & B). split.
  - intros l. destruct (A l) as (q & s3 & Dr). exists q, s3. split; [exact Dr|]. intros P.
    destruct (live_schedule own m d cs _ s1 s2 l q s3 Le Q2 Sh2 Li Dr) as (p & s4 & E & Q4 & Sh4 & Lg4). exists p. split; [exact E|].
    rewrite (polling_quiet _ _ _ P Q4) in Sh4, Lg4. rewrite Lg in Sh4, Lg4. split; [exact Sh4|exact Lg4].
  - exists n. intros l K. exists s'. split; [exact (B l K)|apply Sh'].
Qed.

(** ** C64 *)
Lemma learns_write_proof : forall own m d ks kg fn upd init up data name a s, learns m -> keeps m ks kg fn upd init -> d_exec d = None ->
  shows own (fixed m d (lg s)) a s -> writable a name fn ks -> let t := write_line up data name in typeable d t -> mem_limits own m d (lg s) a (t ++ [CR]) ->
  exists n s', (forall l, n <= both_ready l -> drive m (t ++ [CR]) l s = Ok ([], s')) /\ shows own (fixed m d (lg s')) (after_line a t) s' /\
    outs (lg s') = outs (lg s) ++ t ++ crlf ++ prompt d (show (here (se_world a))) /\
    contents ks fn upd init (lg s') = upd (contents ks fn upd init (lg s)) data.
Proof.
  intros own m d ks kg fn upd init up data name a s Le K Hx Sh Wr t Ty Li.
  destruct (C64_write_proof own m d ks kg fn upd init up data name a s K Hx Sh Wr Ty Li) as (k & s' & B & R).
  destruct (live_done own m d _ a s s k s' Le (quiet_by_here _ _ (shows_polling _ _ _ _ Sh)) (quiet_by_here _ _ (shows_polling _ _ _ _ Sh)) Sh Li B) as (_ & n & D). exists n, s'. split; [exact D|exact R].
Qed.
Lemma learns_cat_proof : forall own m d ks kg fn upd init name a s, learns m -> keeps m ks kg fn upd init -> d_exec d = None ->
  shows own (fixed m d (lg s)) a s -> readable a cmd_cat name fn kg -> let t := cat_line name in typeable d t -> mem_limits own m d (lg s) a (t ++ [CR]) ->
  exists n s', (forall l, n <= both_ready l -> drive m (t ++ [CR]) l s = Ok ([], s')) /\ shows own (fixed m d (lg s')) (after_line a t) s' /\
    outs (lg s') = outs (lg s) ++ t ++ crlf ++ contents ks fn upd init (lg s) ++ prompt d (show (here (se_world a))) /\
    contents ks fn upd init (lg s') = contents ks fn upd init (lg s).
Proof.
  intros own m d ks kg fn upd init name a s Le K Hx Sh Wr t Ty Li.
  destruct (C64_cat_proof own m d ks kg fn upd init name a s K Hx Sh Wr Ty Li) as (k & s' & B & R).
  destruct (live_done own m d _ a s s k s' Le (quiet_by_here _ _ (shows_polling _ _ _ _ Sh)) (quiet_by_here _ _ (shows_polling _ _ _ _ Sh)) Sh Li B) as (_ & n & D). exists n, s'. split; [exact D|exact R].
Qed.
Lemma learns_xxd_proof : forall own m d ks kg fn upd init name a s, learns m -> keeps m ks kg fn upd init -> d_exec d = None ->
  shows own (fixed m d (lg s)) a s -> readable a cmd_xxd name fn kg -> let t := dump_line name in typeable d t -> mem_limits own m d (lg s) a (t ++ [CR]) ->
  exists n s', (forall l, n <= both_ready l -> drive m (t ++ [CR]) l s = Ok ([], s')) /\ shows own (fixed m d (lg s')) (after_line a t) s' /\
    outs (lg s') = outs (lg s) ++ t ++ crlf ++ xxd_dump (cfg_cols (d_cfg d)) (contents ks fn upd init (lg s)) ++ prompt d (show (here (se_world a))) /\
    contents ks fn upd init (lg s') = contents ks fn upd init (lg s).
Proof.
  intros own m d ks kg fn upd init name a s Le K Hx Sh Wr t Ty Li.
  destruct (C64_xxd_proof own m d ks kg fn upd init name a s K Hx Sh Wr Ty Li) as (k & s' & B & R).
  destruct (live_done own m d _ a s s k s' Le (quiet_by_here _ _ (shows_polling _ _ _ _ Sh)) (quiet_by_here _ _ (shows_polling _ _ _ _ Sh)) Sh Li B) as (_ & n & D). exists n, s'. split; [exact D|exact R].
Qed.
Lemma learns_back_proof : forall own m d ks kg fn upd init up data name name' q a s, learns m -> keeps m ks kg fn upd init -> d_exec d = None ->
  shows own (fixed m d (lg s)) a s ->
  let W := write_line up data name ++ [CR] in let C := cat_line name' ++ [CR] in
  let R := mem_run m d (lg s) a W in let Q := mem_run m d (lg s ++ fst R) (snd R) q in
  writable a name fn ks -> typeable d (write_line up data name) -> unwritten ks fn (fst Q) -> readable (snd Q) cmd_cat name' fn kg -> typeable d (cat_line name') ->
  mem_limits own m d (lg s) a (W ++ q ++ C) ->
  exists n s', (forall l, n <= both_ready l -> drive m (W ++ q ++ C) l s = Ok ([], s')) /\ polling s' /\
    outs (lg s') = outs (lg s ++ fst R ++ fst Q) ++ cat_line name' ++ crlf ++ upd (contents ks fn upd init (lg s)) data ++ prompt d (show (here (se_world (snd Q)))).
Proof.
  intros own m d ks kg fn upd init up data name name' q a s Le K Hx Sh W C R Q Wr Ty Un Rd Ty' Li.
  destruct (C64_back_proof own m d ks kg fn upd init up data name name' q a s K Hx Sh Wr Ty Un Rd Ty' Li) as (k & s' & B & Z).
  destruct (live_done own m d _ a s s k s' Le (quiet_by_here _ _ (shows_polling _ _ _ _ Sh)) (quiet_by_here _ _ (shows_polling _ _ _ _ Sh)) Sh Li B) as (_ & n & D). exists n, s'. split; [exact D|exact Z].
Qed.

(** ** demo_linux *)
Lemma contents_snoc : forall k fn upd init log x, ~ lesson x -> contents k fn upd init (log ++ [x]) = contents k fn upd init log.
Proof. intros k fn upd init log x N. rewrite contents_app. destruct x; try reflexivity. destruct (N I). Qed.
Lemma linux_learns : forall null mc, (forall log x, ~ lesson x -> mc (log ++ [x]) = mc log) -> learns (linux_app null mc).
Proof. intros null mc H log x N. unfold linux_app, linux_memory. rewrite H, !contents_snoc by exact N. reflexivity. Qed.
Lemma learns_linux_proof : forall i o p null mc, 2 <= i -> 26 <= o -> i + 8 <= p -> 16 <= p -> (forall log, machine_ok (mc log)) ->
  (forall log x, ~ lesson x -> mc (log ++ [x]) = mc log) ->
  let d := linux_desc i o p in let m := linux_app null mc in let a := mkSess (world_of d linux_calls) [] 0 [] in
  let L := map EvOut (greeting ++ prompt d (lit "/")) in
  exists s, set_up d 8 linux_calls = Ok s /\ forall name f ks kg n up data q, linux_memfile name f ks kg n -> ~ In TAB q -> length data <= n ->
    let W := write_line up data name ++ [CR] in let C := cat_line name ++ [CR] in
    let R := mem_run m d L a W in let Q := mem_run m d (L ++ fst R) (snd R) q in
    typeable d (write_line up data name) -> typeable d (cat_line name) -> at_prompt (snd Q) -> unwritten ks (f_name f) (fst Q) ->
    exists k s', (forall l, k <= both_ready l -> drive m (W ++ q ++ C) l s = Ok ([], s')) /\ polling s' /\
      outs (lg s') = outs (L ++ fst R ++ fst Q) ++ cat_line name ++ crlf ++ (data ++ repeat NUL (n - length data)) ++
        prompt d (show (here (se_world (snd Q)))).
Proof.
  intros i o p null mc Hi Ho Hp Hq Hm Hl d m a L.
  destruct (C64_linux_proof i o p null mc Hi Ho Hp Hq Hm) as (s & Su & G). exists s. split; [exact Su|]. fold d in Su, G. fold m in G. fold a in G. fold L in G.
  assert (Sd : forall log, sound linux_own (fixed m d log) 8 linux_calls 10) by (intros log; exact (linux_sound i o p null (fun _ => linux_memory mc log) Hi Ho Hp Hq (fun _ => linux_memory_ok mc Hm log))).
  assert (Sn : forall log, snug linux_own (fixed m d log) (same_tree (world_of d linux_calls))) by (intros log; apply (Sd log)).
  destruct (Sd []) as (H1 & H2 & H3 & H4 & H5 & Al & Wc & Sm & _). cbn [x_desc fixed] in H1, H2, H3, Al, Wc, Sm.
  assert (Hz : forall j, In j linux_own -> nth_error (nodes_blank 8) j = Some node_zero) by (intros j I; apply nth_error_repeat; apply H5; exact I).
  assert (Li : length (repeat NUL (d_insize d)) = d_insize d) by apply repeat_length. assert (Lo : length (repeat NUL (d_outsize d)) = d_outsize d) by apply repeat_length.
  destruct (mem_boot d d 0 (repeat NUL (d_insize d)) (repeat NUL (d_outsize d)) (nodes_blank 8) [] _ _ linux_own linux_calls m H1 H2 Li Lo H3 H4 Hz Al [] Wc) as (s0 & s1 & s2 & E0 & E1 & Q2 & Sh & Lg).
  pose proof (set_up_eq d 8 linux_calls s0 _ s1 E0 E1) as Eq. rewrite Su in Eq. injection Eq as <-.
  assert (Le : learns m) by (apply linux_learns; exact Hl).
  assert (Q3 : quiet_by m s s2) by (apply (live_start m s s2 (greeting ++ prompt d (lit "/")) Le Q2); rewrite (boot_lg _ _ _ _ _ _ _ _ _ _ _ _ _ E0 E1); exact Lg).
  change (lg s2 = L) in Lg.
  intros name f ks kg n up data q Fm Nt Ld W C R Q Ty Ty' Ap Un.
  destruct (G name f ks kg n up data q Fm Nt Ld Ty Ty' Ap Un) as (k & s' & B & Z).
  assert (Lim : mem_limits linux_own m d (lg s2) a (W ++ q ++ C)).
  { apply (C63_snug_proof linux_own m d _ _ a s2 Sn Sm Sh). intros I. exfalso.
    assert (P : forall t, typeable d t -> ~ In TAB (t ++ [CR])).
    { intros t (F & _) I2. apply in_app_iff in I2 as [I2|[I2|[]]]; [|discriminate]. rewrite Forall_forall in F. destruct (F _ I2) as (Pk & _). discriminate. }
    apply in_app_iff in I as [I|I]; [exact (P _ Ty I)|]. apply in_app_iff in I as [I|I]; [exact (Nt I)|exact (P _ Ty' I)]. }
  destruct (live_done linux_own m d _ a s s2 k s' Le Q2 Q3 Sh Lim B) as (_ & n0 & D). exists n0, s'. split; [exact D|exact Z].
Qed.

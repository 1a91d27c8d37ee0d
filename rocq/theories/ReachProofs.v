(** * ReachProofs: proofs of C72. *)
From Coq Require Import Arith Lia.
From Verif Require Import Shell BaseFacts Spec PathFacts CollapseFacts PathProofs Words Sched Line LineFacts Editor Tree TreeFacts Cmds Complete Session SessionProofs Interrupt Builtin BuiltinProofs Memory MemoryProofs ForgetProofs Reach.

Lemma etx_step : forall x a, sess_step x a ETX =
  (map EvOut (ed_out (CRLF ++ prompt (x_desc x) (show (here (se_world a)))) (se_esc a, se_line a) ETX), mkSess (se_world a) (se_read a ++ [ETX]) 0 []).
Proof.
  intros x a. unfold sess_step, ends_line, completes. replace (ceq ETX CR || ceq ETX LF) with false by reflexivity. rewrite andb_false_r.
  replace (ceq ETX TAB) with false by reflexivity. cbn [andb]. reflexivity.
Qed.
Lemma etx_fine : forall own x a, step_limits own x a ETX.
Proof.
  intros own x a. split; intros H.
  - unfold ends_line in H. replace (ceq ETX CR || ceq ETX LF) with false in H by reflexivity. rewrite andb_false_r in H. discriminate.
  - unfold completes in H. replace (ceq ETX TAB) with false in H by reflexivity. discriminate.
Qed.
Lemma plain_fine : forall own x t w h l, Forall (fun c => plain_key c = true /\ c <> NUL) t -> length l + length t < d_insize (x_desc x) -> run_limits own x (mkSess w h 0 l) t.
Proof.
  intros own x t w. induction t as [|c t IH]; intros h l F L; [exact I|]. inversion F as [|? ? (P & N) Fr]; subst. cbn [length] in L. cbn [run_limits]. split.
  - unfold plain_key in P. cbn [existsb] in P. apply negb_true_iff in P. repeat (apply orb_false_iff in P as (? & P)).
    split; intros H'; [unfold ends_line in H'|unfold completes in H']; repeat match goal with H : ceq c _ = false |- _ => rewrite H in H'; clear H end; [rewrite andb_false_r in H'|]; discriminate.
  - rewrite plain_step by (auto; lia). apply IH; [exact Fr|]. rewrite app_length. cbn. lia.
Qed.

Lemma fresh_run : forall own x a ws, let d := x_desc x in let t := command_line ws in let e := x_app x (se_read a ++ fresh_line ws) in
  typeable d t -> line_limits own d e (se_world a) ws ->
  run_limits own x a (fresh_line ws) /\
  let '(evs, u, w') := react d e (se_world a) CR ws in
  exists pre, sess_run x a (fresh_line ws) = (pre ++ evs ++ map EvOut (u ++ prompt d (show (here w'))), mkSess w' (se_read a ++ fresh_line ws) 0 []) /\ no_file_run pre.
Proof.
  intros own x a ws d t e Ty Li. pose proof Ty as (F & L). fold t d in F, L.
  assert (Arg : line_argv x (mkSess (se_world a) ((se_read a ++ [ETX]) ++ t) 0 t) = ws).
  { unfold line_argv, kept_line. cbn [se_line]. fold d. destruct (Nat.ltb_spec (S (length t)) (d_insize d)) as [_|?]; [|lia]. exact (argv_line ws d Ty). }
  assert (En : env_at x (mkSess (se_world a) ((se_read a ++ [ETX]) ++ t) 0 t) CR = e).
  { unfold env_at, e, fresh_line. cbn [se_read]. rewrite <- !app_assoc. reflexivity. }
  split.
  - unfold fresh_line. cbn [run_limits]. split; [apply etx_fine|]. rewrite etx_step. cbn [snd]. fold t. apply limits_cat. split; [apply plain_fine; [exact F|cbn [length]; fold d; lia]|].
    rewrite plain_run by (auto; cbn [length]; fold d; lia). cbn [snd app]. cbn [run_limits]. split; [|exact I]. split; intros H.
    + rewrite Arg, En. exact Li.
    + discriminate H.
  - destruct (react d e (se_world a) CR ws) as [[evs u] w'] eqn:R.
    unfold fresh_line. cbn [sess_run]. rewrite etx_step. fold t. rewrite run_cat, plain_run by (auto; cbn [length]; fold d; lia). cbn [fst snd app sess_run].
    unfold sess_step, ends_line. cbn [se_esc se_world Nat.eqb]. replace (ceq CR CR) with true by reflexivity. cbn [orb andb]. rewrite Arg, En. fold d. rewrite R.
    cbn [fst snd]. rewrite app_nil_r.
    exists (EvIn ETX :: map EvOut (ed_out (CRLF ++ prompt d (show (here (se_world a)))) (se_esc a, se_line a) ETX) ++ flat_map (fun c => [EvIn c; EvOut c]) t ++ EvIn CR :: map EvOut (eol_echo CR)).
    split.
    + f_equal; [|cbn [se_read]; rewrite <- !app_assoc; reflexivity]. cbn [app]. f_equal. rewrite <- !app_assoc. reflexivity.
    + intros cb n v [H|H]; [discriminate|]. rewrite !in_app_iff in H. destruct H as [H|[H|[H|H]]]; [apply in_map_iff in H as (c & H & _); discriminate|apply in_flat_map in H as (c & _ & [H|[H|[]]]); discriminate|discriminate|apply in_map_iff in H as (c & H & _); discriminate].
Qed.

Lemma reads_no_run : forall e names w cb n ws, ~ In (EvExec cb (Some n) ws) (fst (read_all e w names)).
Proof.
  intros e. induction names as [|m r IH]; intros w cb n ws H; [exact H|]. cbn [read_all] in H. destruct (denotes w m) as [f|]; [|exact H]. destruct (f_get f) as [g|]; [|exact H].
  specialize (IH (after_get e w g f)). destruct (read_all e (after_get e w g f) r) as [evs w']. cbn [fst] in *. destruct H as [H|H]; [discriminate|]. apply in_app_iff in H as [H|H]; [apply in_map_iff in H as (c & H & _); discriminate|exact (IH _ _ _ H)].
Qed.
Lemma exec_no_run : forall d e w c cb f ws evs t w', do_exec d e w c cb f ws = (evs, t, w') -> no_file_run evs.
Proof.
  intros d e w c cb f ws evs t w' E cb2 n v H. unfold do_exec in E. destruct (accepts cb (length ws)); [|injection E as <- _ _; exact H].
  destruct cb as [| | | | | | |k].
  - injection E as <- _ _; exact H.
  - injection E as <- _ _; exact H.
  - unfold do_cd in E. destruct (nth 1 ws []); [injection E as <- _ _; exact H|]. destruct (dir_named _ (w_fs w)); injection E as <- _ _; exact H.
  - injection E as <- _ _; exact H.
  - unfold do_cat in E. destruct (first_unreadable w (tl ws)); [injection E as <- _ _; exact H|]. pose proof (reads_no_run e (tl ws) w cb2 n v) as N. destruct (read_all e w (tl ws)). injection E as <- _ _. exact (N H).
  - unfold do_xxd in E. destruct (denotes w _) as [g|]; [|injection E as <- _ _; exact H]. destruct (f_get g); injection E as <- _ _; [destruct H as [H|[]]; discriminate|exact H].
  - unfold do_echo in E. destruct (tl ws) as [|t1 [|t2 [|t3 [|t4 r]]]]; try (injection E as <- _ _; exact H).
    destruct (beq t2 (lit ">")); [|injection E as <- _ _; exact H]. destruct (denotes w t3) as [g|]; [|injection E as <- _ _; exact H]. destruct (f_set g); [|injection E as <- _ _; exact H].
    unfold do_calls in E. injection E as <- _ _. destruct H as [H|[]]; discriminate.
  - unfold do_calls in E. injection E as <- _ _. exact H.
Qed.

Lemma C72_runs_proof : forall own x a s ws f cb, let d := x_desc x in let e := x_app x (se_read a ++ fresh_line ws) in
  shows own x a s -> typeable d (command_line ws) -> line_limits own d e (se_world a) ws -> ws <> [] ->
  denotes (after_hook e d ws (se_world a)) (hd [] ws) = Some f -> f_exec f = Some cb ->
  exists n, forall l, n <= both_ready l -> exists s' pre post, drive (app_of x) (fresh_line ws) l s = Ok ([], s') /\ polling s' /\
    lg s' = lg s ++ pre ++ EvExec cb (Some (f_name f)) ws :: post /\ no_file_run pre /\ no_file_run post.
Proof.
  intros own x a s ws f cb d e Sh Ty Li Ne Dn Ex. destruct (fresh_run own x a ws Ty Li) as (Rl & R). fold d e in R.
  destruct (schedule_done own x (fresh_line ws) a s s (quiet_by_here _ _ (shows_polling _ _ _ _ Sh)) Sh Rl) as (_ & n & s' & B & Sh' & Lg).
  destruct ws as [|name r]; [congruence|]. cbn [hd] in Dn. unfold react in R. set (ws := name :: r) in *. rewrite Dn, Ex in R.
  destruct (do_exec d e (after_hook e d ws (se_world a)) CR cb f ws) as [[evs t] w'] eqn:De. destruct R as (pre & R & Np).
  exists n. intros l K. exists s', (pre ++ hook_events d ws), (evs ++ map EvOut (t ++ prompt d (show (here w')))).
  split; [exact (B l K)|]. split; [apply (shows_polling _ _ _ _ Sh')|]. split.
  - rewrite Lg, R. cbn [fst]. repeat rewrite <- app_assoc. reflexivity.
  - split; intros cb2 m v H; apply in_app_iff in H as [H|H].
    + exact (Np _ _ _ H).
    + unfold hook_events in H. destruct (d_exec d); [destruct H as [H|[]]; discriminate|exact H].
    + exact (exec_no_run _ _ _ _ _ _ _ _ _ _ De _ _ _ H).
    + apply in_map_iff in H as (c & H & _). discriminate.
Qed.

Lemma show_back : forall cwd p, path_ok p -> Forall no_dots p -> resolve_text cwd (show p) = p.
Proof.
  intros cwd p O N. destruct p as [|c p]; [apply resolve_text_root|]. destruct (resolve_text_absolute cwd (c :: p) O) as (E & _); [discriminate|]. rewrite E. rewrite resolve_no_dots_id by exact N. reflexivity.
Qed.
Lemma full_abs : forall cwd p, full_text cwd (show p) = show p.
Proof. intros cwd p. destruct (show_head p) as (r & E). rewrite E. unfold full_text. rewrite ceq_refl. reflexivity. Qed.

Lemma C72_files_proof : forall w p dd name f, fs_ok (w_fs w) -> dir_at p (w_fs w) = Some dd -> file_named name (de_files dd) = Some f ->
  comp_ok name -> no_dots name -> Forall no_dots p -> file_named (show (p ++ [name])) (flat_map snd (w_groups w)) = None ->
  denotes w (show (p ++ [name])) = Some f.
Proof.
  intros w p dd name f (O & _) Da Fn Co Nd Np No. unfold denotes, find_file. rewrite No.
  assert (Po : path_ok p). { apply dir_at_some in Da as (I & <-). rewrite Forall_forall in O. exact (O dd I). }
  rewrite show_back; [|apply Forall_app; auto|apply Forall_app; auto]. destruct (p ++ [name]) as [|q r] eqn:E; [destruct p; discriminate|]. rewrite <- E, removelast_last, last_last, Da. exact Fn.
Qed.

Lemma C72_cd_proof : forall own x a s p dd, let d := x_desc x in let w := se_world a in
  shows own x a s -> d_exec d = None -> stock d w -> file_named (lit "cd") (flat_map snd (w_groups w)) = Some cmd_cd ->
  dir_at p (w_fs w) = Some dd -> Forall no_dots p -> length (show p) < d_pathmax d -> typeable d (command_line [lit "cd"; show p]) ->
  exists n, forall l, n <= both_ready l -> exists s' b, drive (app_of x) (fresh_line [lit "cd"; show p]) l s = Ok ([], s') /\
    shows own x b s' /\ se_world b = mkWorld (w_fs w) (w_groups w) (Some p) /\ se_esc b = 0 /\ se_line b = [].
Proof.
  intros own x a s p dd d w Sh Hx St Cd Da Np Lp Ty. set (ws := [lit "cd"; show p]) in *. set (e := x_app x (se_read a ++ fresh_line ws)).
  assert (Ah : after_hook e d ws w = w) by (unfold after_hook, hook_calls; rewrite Hx; reflexivity).
  assert (Dn : denotes w (lit "cd") = Some cmd_cd) by (unfold denotes, find_file; rewrite Cd; reflexivity).
  pose proof Sh as (Ed & Kn & Wc & _ & _ & Bu & _). fold w in Kn, Wc.
  assert (Li : line_limits own d e w ws).
  { cbn [line_limits ws]. fold ws. rewrite Ah. split.
    - unfold calls_well, hook_calls. rewrite Hx. cbn [app tree_calls flat_map all_allowed spec_ops snd]. split; [constructor|]. split; [|split; [exact I|exact Wc]].
      right. destruct Bu as (_ & _ & _ & Bo). rewrite Ed in Bo. fold d in Bo. cbn. lia.
    - split; [exact St|]. split; [left; rewrite Cd; discriminate|]. intros f cb E1 E2 _. rewrite Dn in E1. injection E1 as <-. injection E2 as <-. cbn [exec_limits tl ws]. rewrite full_abs. exact Lp. }
  assert (O : Forall (fun d => path_ok (de_path d)) (w_fs w)) by apply Kn.
  assert (Po : path_ok p). { apply dir_at_some in Da as (I & <-). rewrite Forall_forall in O. exact (O dd I). }
  destruct (fresh_run own x a ws Ty Li) as (Rl & R). fold d e w in R.
  assert (Re : exists evs t, react d e w CR ws = (evs, t, mkWorld (w_fs w) (w_groups w) (Some p))).
  { unfold react. cbn [ws]. fold ws. rewrite Ah, Dn. cbn [f_exec cmd_cd]. unfold do_exec. replace (accepts XCd (length ws)) with true by reflexivity. unfold do_cd. cbn [nth ws]. fold ws.
    destruct (show_head p) as (r & E). rewrite E. rewrite <- E. rewrite show_back, dir_named_show, Da by auto. apply dir_at_some in Da as (_ & ->). eexists. eexists. reflexivity. }
  destruct Re as (evs & t & Re). rewrite Re in R. destruct R as (pre & R & _).
  destruct (schedule_done own x (fresh_line ws) a s s (quiet_by_here _ _ (shows_polling _ _ _ _ Sh)) Sh Rl) as (_ & n & s' & B & Sh' & Lg).
  rewrite R in Sh'. cbn [snd] in Sh'. exists n. intros l K. exists s'. eexists. split; [exact (B l K)|]. split; [exact Sh'|]. auto.
Qed.

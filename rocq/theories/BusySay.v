(** * BusySay: printing calls at any moment of a history, ush_printf among them. *)
From Coq Require Import Arith.
From Verif Require Import Types Shell Words BaseFacts LogFacts Sched ServiceFacts SchedFacts Macro Editor EditFacts PromptFacts SchedProofs Line Spec Cmds CmdFacts Complete Tree TreeFacts TreeProofs GetProofs PrintfFacts ReconfProofs CmdProofs Session SessionProofs IdleFacts IdleProofs Interrupt StepFacts InterruptProofs Busy BusyFacts BusyTrack BusyTab BusyWork BusyProofs.

(** ** What was written last has been printed unless the shell is printing *)
Definition spent (s : st) : Prop := o_wbuf s = Some WOut -> o_state s <> S_WRITE_CHAR -> o_wsize s <= o_wpos s.
Definition lull (s : st) : Prop := o_wbuf s = Some WOut -> o_state s <> S_WRITE_CHAR /\ o_wsize s <= o_wpos s.
Definition kept (s s' : st) : Prop :=
  o_state s' = S_WRITE_CHAR \/ o_wbuf s' <> Some WOut \/ (o_wbuf s' = o_wbuf s /\ o_wsize s' = o_wsize s /\ o_wpos s' = o_wpos s).

Lemma lull_spent : forall s, lull s -> spent s.
Proof. intros s L W _. apply L. exact W. Qed.
Lemma spent_lull : forall s, o_state s <> S_WRITE_CHAR -> spent s -> lull s.
Proof. intros s N L W. split; [exact N|]. apply L; assumption. Qed.
Lemma kept_spent : forall s s', lull s -> kept s s' -> spent s'.
Proof. intros s s' L [A|[A|(A & B & C)]] W N; [contradiction|contradiction|]. rewrite B, C. apply L. congruence. Qed.
Lemma kept_refl : forall s, kept s s.
Proof. intros s. right. right. auto. Qed.
Lemma kept_write : forall s s', o_state s' = S_WRITE_CHAR -> kept s s'.
Proof. left. assumption. Qed.

Ltac kpt := first [ solve [right; right; sfields; auto] | solve [left; sfields; auto] | solve [right; left; sfields; discriminate] ].
Ltac kwp := match goal with E : ush_write_pointer _ _ _ = Ok _ |- _ => apply wp_shape in E as (? & ->) end.

Lemma printf_writes : forall x s s', ush_printf x s = Ok s' -> o_state s' = S_WRITE_CHAR.
Proof.
  unfold ush_printf. intros x s s' H. ok1. assert (A : o_state a = S_WRITE_CHAR).
  { clear H. destruct (o_wbuf s) as [[]|]; oks; auto; apply wp_shape in E as (k & ->); auto. }
  clear E. oks2; sfields; auto.
Qed.

Lemma action_spent : forall args a s s', no_state a -> do_action args a s = Ok s' -> spent s -> spent s'.
Proof.
  intros args a s s' P H Sp. assert (X : forall t, o_state t = S_WRITE_CHAR -> spent t) by (intros t E _ N; contradiction).
  destruct a; cbn [no_state] in P; try contradiction; cbn [do_action] in H;
    try solve [apply X; oks2; unfold ush_print, ush_print_no_newline, ush_flush in *; try kwp; reflexivity];
    try solve [unfold ush_node_set_current_dir, ush_node_mount, ush_node_unmount, ush_commands_add, ush_commands_remove in H; oks2; exact Sp]; try solve [oks2; exact Sp].
  apply X. eapply printf_writes; exact H.
Qed.
Lemma actions_spent : forall args l s s', Forall no_state l -> do_actions args l s = Ok s' -> spent s -> spent s'.
Proof.
  intros args l. induction l as [|a l IH]; intros s s' F H Sp; cbn [do_actions] in H; [oks; exact Sp|].
  inversion F; subst. ok1. eapply IH; [eassumption|exact H|]. eapply action_spent; eauto.
Qed.
Lemma action_lull : forall args a s s', plain_call a -> do_action args a s = Ok s' -> lull s -> lull s'.
Proof.
  intros args a s s' Np H Sp.
  destruct a; cbn [plain_call no_state] in Np; try contradiction; cbn [do_action] in H;
    try solve [oks2; unfold ush_print, ush_print_no_newline in *; try kwp; intros W; discriminate W];
    try solve [unfold ush_node_set_current_dir, ush_node_mount, ush_node_unmount, ush_commands_add, ush_commands_remove in H; oks2; exact Sp]; try solve [oks2; exact Sp].
Qed.
Lemma actions_lull : forall args l s s', Forall plain_call l -> do_actions args l s = Ok s' -> lull s -> lull s'.
Proof.
  intros args l. induction l as [|a l IH]; intros s s' F H Sp; cbn [do_actions] in H; [oks; exact Sp|].
  inversion F; subst. ok1. eapply IH; [eassumption|exact H|]. eapply action_lull; eauto.
Qed.

(** ** One call of ush_service *)
Lemma help_kept : forall s s', help_service s = Ok s' -> kept s s'.
Proof. intros s s' H. unfold help_service, print_out in H. oks2; try kwp; kpt. Qed.
Lemma ls_kept : forall s s', ls_service s = Ok s' -> kept s s'.
Proof. intros s s' H. unfold ls_service, print_out in H. oks2; try kwp; kpt. Qed.
Lemma xxd_kept : forall s s', xxd_service s = Ok s' -> kept s s'.
Proof. intros s s' H. unfold xxd_service, print_out in H. oks2; try kwp; kpt. Qed.
Lemma cat_kept : forall e s s', cat_service e s = Ok s' -> kept s s'.
Proof. intros e s s' H. unfold cat_service in H. oks2; try kwp; kpt. Qed.
Lemma candidates_kept : forall s s', ush_autocomp_state_candidates_process s = Ok s' -> kept s s'.
Proof.
  intros s s' H. unfold ush_autocomp_state_candidates_process in H. destruct (o_pnode s).
  - unfold ush_autocomp_check_for_next in H.
    ok1. destruct a as [nx s1].
    assert (L1 : o_wbuf s1 = o_wbuf s /\ o_wsize s1 = o_wsize s /\ o_wpos s1 = o_wpos s) by (clear H; oks2; auto).
    clear E. destruct nx; oks; [right; right; auto|]. destruct a as [[sk f] s2].
    assert (L2 : o_wbuf s2 = o_wbuf s1 /\ o_wsize s2 = o_wsize s1 /\ o_wpos s2 = o_wpos s1) by (clear H; unfold ush_autocomp_process_file_prepare in E; oks2; auto).
    clear E. assert (L3 : o_wbuf s2 = o_wbuf s /\ o_wsize s2 = o_wsize s /\ o_wpos s2 = o_wpos s) by (clear - L1 L2; intuition congruence). clear L1 L2.
    destruct sk; oks; [right; right; exact L3|].
    unfold ush_autocomp_process_file_index in H.
    match goal with H : context [fsm_eqb ?x S_AC_PRINT] |- _ => destruct (fsm_eqb x S_AC_PRINT) eqn:Pr end; oks2; try kwp; try kpt; right; right; exact L3.
  - unfold ush_autocomp_check_for_finish in H. oks2; try kwp; kpt.
Qed.
Lemma optimize_kept : forall s s', ush_autocomp_optimize_continue s = Ok s' -> kept s s'.
Proof. intros s s' H. unfold ush_autocomp_optimize_continue in H. oks2; unfold ush_autocomp_prepare_candidates; kpt. Qed.
Lemma ac_finish_kept : forall s s', ush_autocomp_state_candidates_finish s = Ok s' -> kept s s'.
Proof.
  intros s s' E. unfold ush_autocomp_state_candidates_finish in E. destruct (o_acprev s); try discriminate; oks2; try kwp; try kpt.
  - apply optimize_kept in E. exact E.
  - apply optimize_kept in E. exact E.
Qed.
Lemma autocomp_kept : forall s b s', ush_autocomp_service s = Ok (b, s') -> kept s s'.
Proof.
  intros s b s' H. unfold ush_autocomp_service in H.
  destruct (o_state s) eqn:E0; oks; try kwp; try kpt.
  - unfold ush_autocomp_state_prepare in E. oks. kpt.
  - apply candidates_kept; exact E.
  - apply candidates_kept; exact E.
  - apply candidates_kept; exact E.
  - apply ac_finish_kept; exact E.
  - unfold ush_autocomp_state_recall_suffix in E. oks2; try kwp; kpt.
Qed.

Lemma read_char_kept : forall i s b s', ush_read_char i s = Ok (b, s') -> kept s s'.
Proof.
  intros i s b s' H. unfold ush_read_char in H. destruct (io_rd i) as [ch|]; [|oks; kpt].
  change (kept (emit (EvIn ch) s) s'). generalize dependent (emit (EvIn ch) s). clear s. intros s H. ok1. destruct a as [echo s1]. ok1. injection H as <- <-.
  assert (L : kept s s1) by (clear E0; unfold ush_read_char_by_escape_state in E; repeat ok2; try kpt; destruct (cfg_autocomp _); kpt).
  destruct echo; [|injection E0 as <-; exact L]. unfold ush_read_echo_service in E0. ok1. kwp. kpt.
Qed.

Lemma get_lull : forall x h cb g s a s', plain_app x -> call_get (x_app x h) cb g s = Ok (a, s') -> lull s -> lull s'.
Proof. intros x h cb g s a s' P H L. apply call_get_inv in H as (_ & H). eapply actions_lull; [|exact H|exact L]; apply (P h). Qed.

Lemma call_exec_spent : forall x h cb f args argv s s', plain_app x -> call_exec (x_app x h) cb f args argv s = Ok s' -> lull s -> spent s'.
Proof.
  intros x h cb f args argv s s' P H L. unfold call_exec in H. assert (L0 : forall ev, lull (emit ev s)) by (intros ev; exact L). destruct cb.
  - eapply kept_spent; [apply L|]. unfold help_callback, ush_print_no_newline in H. oks2; try kwp; kpt.
  - eapply kept_spent; [apply L|]. unfold ls_callback in H. oks2; try kwp; kpt.
  - eapply kept_spent; [apply L|]. unfold cd_callback, ush_node_set_current_dir in H. oks2; try kwp; kpt.
  - eapply kept_spent; [apply L|]. unfold pwd_callback, ush_print in H. oks2; try kwp; kpt.
  - eapply kept_spent; [apply L|]. unfold cat_callback in H. oks2; try kwp; kpt.
  - unfold xxd_callback in H. oks2; try solve [eapply kept_spent; [apply L|]; kpt].
    all: match goal with C : call_get _ _ _ _ = Ok (?r, ?t) |- _ => apply (get_lull x) in C; [|exact P|apply L0]; eapply kept_spent; [apply C|]; destruct (g_ptr r); kpt end.
  - unfold echo_callback, ush_print in H. oks2; try solve [eapply kept_spent; [apply L|]; try kwp; kpt].
    eapply actions_spent; [|exact H|apply lull_spent; exact L]. apply (P h).
  - eapply actions_spent; [|exact H|apply lull_spent; exact L]. apply (P h).
Qed.

Lemma finish_spent : forall x h s s', plain_app x -> o_desc s = x_desc x -> ush_parse_finish (x_app x h) s = Ok s' -> lull s -> spent s'.
Proof.
  intros x h s s' P Ds H L. unfold ush_parse_finish in H. ok1. ok1. destruct a0 as [|name rest] eqn:Ea; [oks; apply lull_spent; exact L|].
  ok1. assert (L1 : lull a1).
  { clear H. destruct (P h) as (Ph & _). specialize (Ph (name :: rest)). unfold hook_calls in Ph. rewrite <- Ds in Ph. destruct (d_exec (o_desc s)) as [k|]; [|oks; exact L]. eapply actions_lull; [exact Ph|exact E1|exact L]. }
  clear E1. ok1. destruct a2 as [f|]; [|oks; eapply kept_spent; [exact L1|kpt]]. destruct (f_exec f) as [cb|]; [|oks; eapply kept_spent; [exact L1|kpt]].
  eapply call_exec_spent; eauto.
Qed.

Lemma service_spent : forall own x W w i s b s', plain_app x -> on_course own x W w s -> io_env i = app_of x (lg s) -> ush_service i s = Ok (b, s') -> spent s -> spent s'.
Proof.
  intros own x W w i s b s' P C Ei H Sp. rewrite service_eq in H. destruct (o_cur s) as [cu|] eqn:Cu; [|discriminate]. unfold svc in H.
  assert (Fin : o_state s <> S_WRITE_CHAR -> kept s s' -> spent s') by (intros N Kp; eapply kept_spent; [apply spent_lull; eauto|exact Kp]).
  assert (A : o_state s <> S_WRITE_CHAR -> (if cfg_autocomp (d_cfg (o_desc s)) then ush_autocomp_service s else Ok (false, s)) = Ok (b, s') -> spent s').
  { intros N X. apply Fin; [exact N|]. destruct (cfg_autocomp _); [eapply autocomp_kept; eauto|oks; apply kept_refl]. }
  assert (Pr : o_state s <> S_WRITE_CHAR -> ush_parse_service i s = Ok (b, s') -> spent s').
  { intros N X. clear H A. pose proof (spent_lull _ N Sp) as L. unfold ush_parse_service in X. rewrite Ei in X. destruct (o_state s) eqn:St; try (elim N; reflexivity); try solve [oks; apply Fin; [discriminate|kpt]];
      (ok1; injection X as <- <-; unfold ush_parse_char in E; ok1; destruct (ceq _ LF || ceq _ CR);
       [ unfold out_char in E; oks; unfold app_of in E; eapply finish_spent; [exact P| |exact E|]; [apply C|]; intros Wb; split; [discriminate|]; apply L; exact Wb
       | apply Fin; [discriminate|]; unfold ush_parse_char_standard, out_escaped, out_char in E; oks2; sfields; kpt ]). }
  assert (Pc : proc_phase (o_state s) = true -> ush_process_service i s = Ok (b, s') -> spent s').
  { clear A Pr. intros N X. assert (O : own_proc s).
    { destruct C as (_ & _ & _ & _ & _ & [(O & _)|O]); [|exact O]. unfold at_state in O. destruct (o_state s); try discriminate N; discriminate O. }
    destruct O as (_ & f & p & Pf & Fp & Np). apply Fin; [intros Z; rewrite Z in N; discriminate|].
    unfold ush_process_service in X. rewrite Pf, Fp in X. destruct (o_state s); try discriminate N; ok1; injection X as _ <-;
      (destruct p; [eapply help_kept|eapply ls_kept|eapply cat_kept|eapply xxd_kept|elim (Np n eq_refl)]; eauto). }
  destruct (o_state s) eqn:St; try (apply A; [discriminate|exact H]); try (apply Pr; [discriminate|exact H]); try (apply Pc; [reflexivity|exact H]);
    try solve [apply Fin; [discriminate|]; unfold ush_reset_service, ush_prompt_service in H; rewrite St in H; oks; try kwp; kpt].
  - apply Fin; [discriminate|]. unfold ush_read_start in H. oks. kpt.
  - apply Fin; [discriminate|]. eapply read_char_kept; eauto.
  - unfold ush_write_char in H. ok1. injection H as <- <-. destruct (Nat.leb_spec (o_wsize s) (o_wpos s)) as [Hle|Hlt].
    + injection E as <-. intros _ _. exact Hle.
    + ok1. destruct (io_wr i); injection E as <-; intros _ N; elim N; exact St.
Qed.

Lemma lived_spent : forall own x W w0 s0 ops held s, plain_app x -> ample own x W -> W w0 -> begins own x w0 s0 -> lived own x W w0 s0 ops held s -> spent s.
Proof.
  intros own x W w0 s0 ops held s P Am Ww Bg H. induction H as [|ops held s i b s' evs H IH Ei Tb Sv Lg ops'|ops held s o r s' H IH A D ops'|ops held s a s' H IH Pa L D|ops held s u s' H IH N L D|ops held s H IH].
  - destruct Bg as [(a & _ & Sh & Se)|(_ & _ & _ & _ & _ & _ & Wb)]; intros Wo _; [|contradiction]. destruct (Se Wo) as (t & r & _ & _ & _ & A & B). rewrite A, B. reflexivity.
  - eapply service_spent; [exact P|exact (lived_course _ _ _ _ _ _ _ _ Am Ww Bg H)|exact Ei|exact Sv|exact IH].
  - destruct A as (A1 & _). pose proof (lived_course _ _ _ _ _ _ _ _ Am Ww Bg H) as (K & _ & _ & _ & Ds & _). rewrite <- Ds in A1.
    destruct (op_step own o s _ K A1) as (s2 & E & _ & Ot). rewrite D in E. injection E as -> <-. apply only_tree_ex in Ot as (y1 & y2 & y3 & h & ->). exact IH.
  - eapply action_spent; [|exact D|exact IH]. destruct a; cbn [printing_call] in Pa; try contradiction; exact I.
  - eapply (actions_spent [] [AWriteOut u; AFlush]); [repeat constructor|exact D|exact IH].
  - intros Wo. discriminate Wo.
Qed.

(** ** What is printed *)
Lemma spoken_shift : forall d ws l full p t, p <= length full -> length full + length (formatted l) < d_outsize d ->
  spoken d ws (Some (full, p)) t l = spoken d ws (Some (skipn p full, 0)) t l.
Proof.
  intros d ws l. induction l as [|a l IH]; intros full p t Lp Lf; [reflexivity|].
  change (formatted (a :: l)) with (match a with APrintf (FmtOk u) => u | _ => [] end ++ formatted l) in Lf. rewrite app_length in Lf.
  assert (Tr : spoken d ws (Some (full, p)) t l = spoken d ws (Some (skipn p full, 0)) t l) by (apply IH; lia).
  destruct a as [y|y|y|y|y|y| | | | | | | | |]; try exact Tr; try reflexivity. destruct y as [u|u]; [|reflexivity].
  cbn [spoken]. cbv beta iota zeta. assert (Fit : forall v, length v <= length (full ++ u) -> printf_text (d_outsize d) v = v).
  { intros v Lv. rewrite app_length in Lv. unfold printf_text. replace (length v <? d_outsize d) with true by (symmetry; apply Nat.ltb_lt; lia). reflexivity. }
  rewrite (Fit (full ++ u)) by reflexivity. rewrite (Fit (skipn p full ++ u)) by (rewrite !app_length, skipn_length; lia).
  rewrite (IH (full ++ u) p) by (rewrite app_length; lia). cbn [skipn]. rewrite skipn_app. replace (p - length full) with 0 by lia. reflexivity.
Qed.
Lemma spoken_none : forall d ws l t, spoken d ws None t l = spoken d ws (Some ([], 0)) t l.
Proof.
  intros d ws l. induction l as [|a l IH]; intros t; [reflexivity|]. destruct a; try reflexivity; cbn [spoken tree_call]; apply IH.
Qed.

Lemma holds_small : forall s full p, holds s full p -> o_wsize s < d_outsize (o_desc s) -> length full < d_outsize (o_desc s) /\ o_wsize s = length full /\ unprinted s = skipn p full.
Proof.
  intros s full p (Wb & Nf & (r & Ob) & Wp & Pl & Ws & Sz) L. rewrite printf_length in * by exact Sz. assert (Lf : length full < d_outsize (o_desc s)) by lia.
  split; [exact Lf|]. assert (Es : o_wsize s = length full) by lia. split; [exact Es|]. unfold unprinted. rewrite Wb, Ob, (cut_fits _ _ Lf), Es, Wp.
  rewrite skipn_app, firstn_app. rewrite skipn_length, Nat.sub_diag. cbn [firstn]. rewrite app_nil_r. apply firstn_all2. rewrite skipn_length. lia.
Qed.

Lemma says_quiet_any : forall e s l cw, wout s -> cwd_is s cw -> bufs_ok s -> l <> [] -> Forall (printing_call []) l -> in_buffer s + length (formatted l) < d_outsize (o_desc s) ->
  exists s1 s', do_actions [] l s = Ok s1 /\ aloof s1 /\ quiet e s1 s' /\ editing 0 [] s' /\ bufs_ok s' /\ core s' = core s /\
    lg s' = lg s ++ map EvOut (spoken (o_desc s) [] (Some (unprinted s, 0)) [] l ++ prompt (o_desc s) cw).
Proof.
  intros e s l cw Wo W B Nl Pl Lf. set (s0 := set_state S_RESET_PROMPT s).
  assert (E0 : do_actions [] l s0 = do_actions [] l s).
  { destruct l as [|a l]; [congruence|]. inversion Pl as [|? ? Pa _]; subst. cbn [do_actions]. unfold s0. rewrite (print_same a s Pa). reflexivity. }
  assert (A0 : aloof s0) by (apply aloof_state; reflexivity || discriminate).
  assert (B0 : bufs_ok s0) by exact B. assert (W0 : cwd_is s0 cw) by exact W.
  assert (Sp : exists buf, speaks s0 s0 buf [] /\ length (buf_text buf) + length (formatted l) < d_outsize (o_desc s) /\
     spoken (o_desc s) [] buf [] l = spoken (o_desc s) [] (Some (unprinted s, 0)) [] l).
  { assert (No : o_wbuf s <> Some WOut -> in_buffer s = 0 /\ unprinted s = []).
    { intros N. unfold in_buffer, unprinted. destruct (o_wbuf s) as [[]|]; try congruence; auto. }
    assert (Dw : o_wbuf s = Some WOut \/ o_wbuf s <> Some WOut) by (destruct (o_wbuf s) as [[]|]; try (right; discriminate); left; reflexivity).
    destruct Dw as [Wb|Wb].
    - destruct (Wo Wb) as (full & p & Hd). unfold in_buffer in Lf. rewrite Wb in Lf. destruct (holds_small s full p Hd ltac:(lia)) as (F1 & F2 & F3). exists (Some (full, p)).
      split; [do 4 (split; [reflexivity|]); split; [exact Hd|left; auto]|]. rewrite F2 in Lf. split; [exact Lf|]. rewrite F3. apply spoken_shift; [|exact Lf].
      destruct Hd as (_ & _ & _ & <- & Pl' & Ws & _). rewrite <- Ws, F2 in Pl'. exact Pl'.
    - destruct (No Wb) as (N1 & ->). rewrite N1 in Lf. exists None. split; [do 4 (split; [reflexivity|]); split; [exact Wb|left; auto]|]. split; [exact Lf|]. apply spoken_none. }
  destruct Sp as (buf & Sp & Rm & Es). destruct (calls_speak [] [] l s0 s0 buf [] Sp B0 eq_refl Pl) as (s1 & buf1 & E1 & Sp1 & _); [right; exact Rm|].
  destruct (speaks_quiet e s0 s1 buf1 _ cw Sp1 W0 B0) as (s' & Q & Ed & B' & K' & L'). change (o_desc s0) with (o_desc s) in L'.
  exists s1, s'. split; [rewrite <- E0; exact E1|]. split; [|split; [exact Q|split; [exact Ed|split; [exact B'|split; [exact K'|rewrite <- Es; exact L']]]]].
  eapply actions_keepsq; [|exact E1|exact A0]. eapply Forall_impl; [|exact Pl]. intros c Pc. destruct c; cbn in *; auto. contradiction.
Qed.

Lemma C54_says_proof : forall own x W w0 s0 ops held s l q, well_behaved x -> ample own x W -> W w0 -> begins own x w0 s0 -> lived own x W w0 s0 ops held s ->
  l <> [] -> Forall (printing_call []) l -> in_buffer s + length (formatted l) < d_outsize (x_desc x) ->
  let w := snd (spec_ops ops w0) in let a := mkSess w (ins (lg s)) 0 [] in tabs_fit x a q -> let z := sess_run x a q in
  exists s1, do_actions [] l s = Ok s1 /\
    (forall l', exists q' s2, drive (app_of x) q l' s1 = Ok (q', s2)) /\
    exists n s2, (forall l', n <= both_ready l' -> drive (app_of x) q l' s1 = Ok ([], s2)) /\
      shows own x (snd z) s2 /\ settled s2 /\ W (se_world (snd z)) /\
      lg s2 = lg s ++ map EvOut (spoken (x_desc x) [] (Some (unprinted s, 0)) [] l ++ prompt (x_desc x) (show (here w))) ++ fst z.
Proof.
  intros own x W w0 s0 ops held s l q Wb Am Ww Bg H Nl Pl Lf w a Nt z.
  destruct (lived_track _ _ _ _ _ _ _ _ Am Ww Bg H) as (A & Wo & _). pose proof (lived_course _ _ _ _ _ _ _ _ Am Ww Bg H) as (K & Wc & Ww' & B & Ds & _). fold w in K, Wc, Ww'.
  destruct (w_cwd w) as [cwd|] eqn:Ec; [|congruence]. pose proof (cwd_show _ _ _ _ K Ec) as Wd. rewrite <- Ds in Lf.
  destruct (says_quiet_any (x_app x (ins (lg s))) s l (show cwd) Wo Wd B Nl Pl Lf) as (s1 & s2 & E & Al & Q & Ed & B2 & K2 & L2).
  assert (Lg1 : lg s1 = lg s) by (eapply do_actions_lg; exact E). rewrite <- Lg1 in Q. apply (quiet_on_input (x_app x)) in Q as Qb.
  assert (Sh : shows own x a s2).
  { split; [rewrite (core_desc _ _ K2); exact Ds|]. split; [eapply knows_core; [exact K2|exact K]|]. split; [unfold a; cbn [se_world]; congruence|].
    split; [|split; [exact Ed|split; [exact B2|split; [cbn; lia|split; intros []]]]].
    pose proof (quiet_reads _ _ _ Q) as Rd. unfold Sched.reads in Rd. rewrite Rd, app_nil_r, Lg1. reflexivity. }
  exists s1. split; [exact E|]. pose proof (tabs_run own x W q a s2 (ample_snug own x W Am) Ww' Sh Nt) as Li.
  destruct (schedule_done own x q a s1 s2 Qb Sh Li) as (D & n & s3 & Dr & Sh3 & Lg3). split; [exact D|]. fold z in Sh3, Lg3. exists n, s3. split; [exact Dr|].
  split; [exact Sh3|]. split; [|split; [exact (ample_walk own x W q a Am Ww')|]].
  - apply calm_settled; [exact (shows_polling _ _ _ _ Sh3)|]. eapply drive_calm; [exact Wb|apply calm_aloof; exact Al|].
    apply (Dr (repeat (true, true) n)). clear. induction n as [|n IH]; [reflexivity|]. apply le_n_S in IH. exact IH.
  - rewrite Lg3, L2, Ds, <- app_assoc. unfold here. rewrite Ec. reflexivity.
Qed.

Lemma C54_unprinted_proof : forall own x W w0 s0 ops held s, plain_app x -> ample own x W -> W w0 -> begins own x w0 s0 -> lived own x W w0 s0 ops held s ->
  (o_state s <> S_WRITE_CHAR -> unprinted s = []) /\ (forall t, pending s t -> (o_wbuf s = Some WOut /\ unprinted s = t) \/ (o_wbuf s <> Some WOut /\ unprinted s = [])).
Proof.
  intros own x W w0 s0 ops held s P Am Ww Bg H. pose proof (lived_spent _ _ _ _ _ _ _ _ P Am Ww Bg H) as Sp. unfold unprinted. split.
  - intros N. destruct (o_wbuf s) as [[]|] eqn:Wb; try reflexivity. specialize (Sp Wb N). replace (o_wsize s - o_wpos s) with 0 by lia. reflexivity.
  - intros t (St & Sz & Rd). destruct (o_wbuf s) as [[]|] eqn:Wb; try (right; split; [discriminate|reflexivity]). left. split; [reflexivity|]. rewrite Sz, (Nat.add_comm (o_wpos s)), Nat.add_sub.
    assert (X : forall j c, nth_error t j = Some c -> nth_error (outb s) (o_wpos s + j) = Some c).
    { intros j c N. specialize (Rd j c N). unfold wbuf_rd in Rd. rewrite Wb in Rd. unfold rd in Rd. destruct (nth_error (outb s) (o_wpos s + j)); congruence. }
    clear - X. rewrite <- (firstn_all t) at 2. revert X. generalize (outb s) (o_wpos s). induction t as [|c t IH]; intros b p X; [reflexivity|].
    assert (Z : skipn p b = c :: skipn (S p) b).
    { specialize (X 0 c eq_refl). rewrite Nat.add_0_r in X. clear - X. revert p X. induction b as [|y b IH]; intros [|p] X; cbn in *; try discriminate; [congruence|]. apply IH. exact X. }
    rewrite Z. cbn [length firstn]. f_equal. apply IH. intros j d N. specialize (X (S j) d N). rewrite Nat.add_succ_r in X. exact X.
Qed.

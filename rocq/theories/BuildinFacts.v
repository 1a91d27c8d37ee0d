(** * No call replaces the node object of the built-in commands ([service_desc] of ExecFacts.v
    for [o_buildin]). *)
From Coq Require Import Arith Lia.
From Verif Require Import Shell BaseFacts LogFacts Sched ServiceFacts SchedFacts Macro EditFacts PromptFacts PhaseFacts History ExecFacts.

Lemma action_buildin : forall args a s s', do_action args a s = Ok s' -> o_buildin s' = o_buildin s.
Proof.
  assert (W : forall p n s s', ush_write_pointer p n s = Ok s' -> o_buildin s' = o_buildin s) by (unfold ush_write_pointer; intros; oks2; reflexivity).
  intros args a s s' H. destruct a; cbn [do_action] in H;
    try (eapply W; exact H); try (oks; reflexivity).
  - destruct (nth_error args i); [eapply W; exact H|]. destruct (i =? length args); discriminate.
  - unfold ush_printf in H.
    ok1. assert (L : o_buildin a = o_buildin s). { destruct (o_wbuf s) as [[]|]; oks; try reflexivity; apply W in E; exact E. }
    rewrite <- L. clear E L. oks2; reflexivity.
  - unfold ush_node_set_current_dir in H. oks2; reflexivity.
  - unfold ush_node_mount in H. oks2; reflexivity.
  - unfold ush_node_unmount in H. oks2; reflexivity.
  - unfold ush_commands_add in H. oks2; reflexivity.
  - unfold ush_commands_remove in H. oks2; reflexivity.
Qed.

Lemma wp_buildin : forall p n s s', ush_write_pointer p n s = Ok s' -> o_buildin s' = o_buildin s.
Proof. unfold ush_write_pointer; intros; oks2; reflexivity. Qed.

Lemma print_out_buildin : forall t n s s', print_out t n s = Ok s' -> o_buildin s' = o_buildin s.
Proof. unfold print_out. intros. oks. apply wp_buildin in H. exact H. Qed.

Lemma actions_buildin : forall args l s s', do_actions args l s = Ok s' -> o_buildin s' = o_buildin s.
Proof.
  induction l as [|a l IH]; intros s s' H; cbn [do_actions] in H; oks; auto.
  apply action_buildin in E. apply IH in H. congruence.
Qed.

Ltac bscs :=
  repeat match goal with
  | H : ush_write_pointer _ _ _ = Ok _ |- _ => apply wp_buildin in H
  | H : print_out _ _ _ = Ok _ |- _ => apply print_out_buildin in H
  | H : ush_print _ _ = Ok _ |- _ => apply wp_buildin in H
  | H : ush_print_no_newline _ _ = Ok _ |- _ => apply wp_buildin in H
  | H : do_actions _ _ _ = Ok _ |- _ => apply actions_buildin in H
  | H : call_get _ _ _ _ = Ok (_, _) |- _ => apply call_get_inv in H as (_ & H)
  end.

Lemma call_exec_buildin : forall e cb f args argv s s', call_exec e cb f args argv s = Ok s' -> o_buildin s' = o_buildin s.
Proof.
  intros e cb f args argv s s' H. unfold call_exec in H. destruct cb.
  - unfold help_callback in H. oks2; bscs; auto.
  - unfold ls_callback in H. oks2; bscs; auto.
  - unfold cd_callback, ush_node_set_current_dir in H. oks2; bscs; auto.
  - unfold pwd_callback in H. oks2; bscs; auto.
  - unfold cat_callback in H. oks2; bscs; auto.
  - unfold xxd_callback in H. oks2; bscs; auto; try (destruct (g_ptr _); auto).
  - unfold echo_callback in H. oks2; bscs; auto.
  - bscs. auto.
Qed.

Lemma autocomp_buildin : forall s b s', ush_autocomp_service s = Ok (b, s') -> o_buildin s' = o_buildin s.
Proof.
  intros s b s' H. unfold ush_autocomp_service in H.
  assert (P : forall s s', ush_autocomp_state_candidates_process s = Ok s' -> o_buildin s' = o_buildin s).
  { clear. intros s s' H. unfold ush_autocomp_state_candidates_process in H.
    destruct (o_pnode s).
    - unfold ush_autocomp_check_for_next in H.
      ok1. destruct a as [nx s1].
      assert (L1 : o_buildin s1 = o_buildin s) by (oks2; reflexivity). rewrite <- L1. clear E L1.
      destruct nx; oks; auto. destruct a as [[sk f] s2].
      assert (L2 : o_buildin s2 = o_buildin s1) by (unfold ush_autocomp_process_file_prepare in E; oks2; reflexivity).
      rewrite <- L2. clear E L2. destruct sk; oks; auto.
      unfold ush_autocomp_process_file_index in H.
      oks2; try reflexivity; match goal with |- context [fsm_eqb ?a ?b] => destruct (fsm_eqb a b) end;
        oks; reflexivity.
    - unfold ush_autocomp_check_for_finish in H. oks2; reflexivity. }
  assert (O : forall s s', ush_autocomp_optimize_continue s = Ok s' -> o_buildin s' = o_buildin s).
  { clear. intros s s' H. unfold ush_autocomp_optimize_continue in H. oks2; reflexivity. }
  assert (F : forall s s', ush_autocomp_state_candidates_finish s = Ok s' -> o_buildin s' = o_buildin s).
  { clear P H. intros s0 s0' H0. unfold ush_autocomp_state_candidates_finish in H0.
    oks2; try reflexivity; try (apply O in H0; exact H0). apply wp_buildin in H0; exact H0. }
  assert (R : forall s s', ush_autocomp_state_recall_suffix s = Ok s' -> o_buildin s' = o_buildin s).
  { clear. intros s s' H. unfold ush_autocomp_state_recall_suffix in H. oks2; try reflexivity.
    apply wp_buildin in H; exact H. }
  destruct (o_state s); oks; try reflexivity;
    try (apply P in E; exact E); try (apply F in E; exact E); try (apply R in E; exact E);
    try (apply wp_buildin in E; exact E).
  unfold ush_autocomp_state_prepare in E. oks; reflexivity.
Qed.

Lemma proc_buildin : forall i s b s', ush_process_service i s = Ok (b, s') -> o_buildin s' = o_buildin s.
Proof.
  intros i s b s' H. unfold ush_process_service in H.
  assert (G : forall f p, f_proc f = Some p -> forall s', 
     match p with
     | PHelp => help_service s | PLs => ls_service s
     | PCat => cat_service (io_env i) s | PXxd => xxd_service s
     | PUser n => do_actions [] (e_proc (io_env i) n (f_name f)) (emit (EvProc n (f_name f)) s)
     end = Ok s' -> o_buildin s' = o_buildin s).
  { clear. intros f p _ s' H. destruct p.
    - unfold help_service in H. oks2; bscs; auto.
    - unfold ls_service in H. oks2; bscs; auto.
    - unfold cat_service in H. oks2; bscs; auto.
    - unfold xxd_service in H. oks2; bscs; auto.
    - bscs. auto. }
  destruct (o_state s); try (oks; reflexivity);
  destruct (o_pfile s) as [f|]; try discriminate H;
  destruct (f_proc f) as [p|] eqn:Ep; oks; try reflexivity;
  eapply G; eauto.
Qed.

Lemma parse_char_buildin : forall e s s', ush_parse_char e s = Ok s' -> o_buildin s' = o_buildin s.
Proof.
  intros e s s' G. unfold ush_parse_char in G. ok1. destruct (ceq a LF || ceq a CR).
  - ok1. assert (D : o_buildin a0 = o_buildin s) by (unfold out_char in E0; oks; reflexivity). rewrite <- D. clear E E0 D.
    unfold ush_parse_finish in G. ok1. ok1. destruct a2 as [|name rest]; [oks; reflexivity|].
    ok1. assert (D : o_buildin a2 = o_buildin a0). { destruct (d_exec (o_desc (set_state S_RESET_PROMPT a0))); [bscs; exact E1|injection E1 as <-; reflexivity]. } rewrite <- D. clear E1 D.
    ok1. destruct a3 as [f|]; [destruct (f_exec f)|]; try (oks; reflexivity). eapply call_exec_buildin; eauto.
  - unfold ush_parse_char_standard, out_escaped, out_char in G. oks2; reflexivity.
Qed.

Lemma service_buildin : forall i s b s', ush_service i s = Ok (b, s') -> o_buildin s' = o_buildin s.
Proof.
  intros i s b s' H. rewrite service_eq in H. destruct (o_cur s); [|discriminate].
  unfold svc in *.
  destruct (o_state s) eqn:E;
    try (destruct (cfg_autocomp _); [apply autocomp_buildin in H; exact H|oks; reflexivity]);
    try (eapply proc_buildin; exact H).
  1-2: unfold ush_reset_service in H; rewrite E in H; oks; reflexivity.
  1-5: unfold ush_prompt_service in H; rewrite E in H; oks; bscs; auto.
  - unfold ush_read_start in H. oks. reflexivity.
  - clear E. unfold ush_read_char in H. destruct (io_rd i) as [ch|]; [|oks; auto].
    change (o_buildin s) with (o_buildin (emit (EvIn ch) s)). remember (emit (EvIn ch) s) as s0 eqn:Es. clear Es.
    ok1. destruct a as [echo s1]. ok1. injection H as <- <-.
    assert (L1 : o_buildin s1 = o_buildin s0).
    { clear E0. unfold ush_read_char_by_escape_state in E.
      repeat ok2; try reflexivity; destruct (cfg_autocomp _); reflexivity. }
    rewrite <- L1. destruct echo; [|oks; reflexivity].
    unfold ush_read_echo_service in E0. oks. apply wp_buildin in E0. exact E0.
  - unfold ush_parse_service in H. rewrite E in H. oks. reflexivity.
  - unfold ush_parse_service in H. rewrite E in H. oks. eapply parse_char_buildin; eauto.
  - unfold ush_parse_service in H. rewrite E in H. oks. eapply parse_char_buildin; eauto.
  - unfold ush_parse_service in H. rewrite E in H. oks. eapply parse_char_buildin; eauto.
  - unfold ush_write_char in H. oks2; reflexivity.
Qed.


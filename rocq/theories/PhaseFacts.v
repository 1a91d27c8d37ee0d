(** * PhaseFacts: only an end-of-line byte starts parsing (behind C04). *)
From Verif Require Import Shell BaseFacts LogFacts Sched ServiceFacts SchedFacts Macro EditFacts PromptFacts.

Definition parse_phase (x : fsm) : bool :=
  match x with
  | S_PARSE_PREPARE | S_PARSE_SEARCH_ARG | S_PARSE_QUOTE_ARG | S_PARSE_STANDARD_ARG => true
  | _ => false
  end.

(** Not parsing, and not about to. *)
Definition away (s : st) : Prop :=
  parse_phase (o_state s) = false /\ (o_state s = S_WRITE_CHAR -> parse_phase (o_wnext s) = false).

(** ** Actions *)
Definition keepsp (s s' : st) : Prop := o_pnext s' = o_pnext s /\ (away s -> away s').

Lemma keepsp_refl : forall s, keepsp s s.
Proof. split; auto. Qed.
Lemma keepsp_trans : forall a b c, keepsp a b -> keepsp b c -> keepsp a c.
Proof. intros a b c (A1 & A2) (B1 & B2). split; [congruence|auto]. Qed.
Lemma keepsp_same : forall s s', o_pnext s' = o_pnext s -> o_state s' = o_state s -> o_wnext s' = o_wnext s -> keepsp s s'.
Proof. intros s s' A B C. split; auto. unfold away. rewrite B, C. auto. Qed.
Lemma keepsp_write : forall s s', o_pnext s' = o_pnext s -> o_state s' = S_WRITE_CHAR -> parse_phase (o_wnext s') = false -> keepsp s s'.
Proof. intros s s' A B C. split; auto. unfold away. rewrite B. auto. Qed.
Lemma keepsp_state : forall s s', o_pnext s' = o_pnext s -> o_state s' <> S_WRITE_CHAR -> parse_phase (o_state s') = false -> keepsp s s'.
Proof. intros s s' A B C. split; auto. unfold away. split; auto. congruence. Qed.
Lemma keepsp_wnext : forall s s', o_pnext s' = o_pnext s -> o_state s' = S_WRITE_CHAR -> o_wnext s' = o_state s -> keepsp s s'.
Proof. intros s s' A B C. split; auto. unfold away. rewrite B, C. intros (N1 & N2). split; auto. Qed.

Lemma keepsp_wp : forall p n s0 s s', o_pnext s = o_pnext s0 -> ush_write_pointer p n s = Ok s' -> parse_phase n = false -> keepsp s0 s'.
Proof. intros p n s0 s s' A H N. apply wp_shape in H as (k & ->). apply keepsp_write; auto. Qed.
Lemma keepsp_wps : forall p n s0 s s', o_pnext s = o_pnext s0 -> ush_write_pointer p n s = Ok s' -> n = o_state s0 -> keepsp s0 s'.
Proof. intros p n s0 s s' A H N. apply wp_shape in H as (k & ->). apply keepsp_wnext; auto. Qed.

Lemma printf_keepsp : forall x s s', ush_printf x s = Ok s' -> keepsp s s'.
Proof.
  unfold ush_printf. intros x s s' H.
  ok1. assert (A : o_pnext a = o_pnext s /\ o_state a = S_WRITE_CHAR /\ o_wnext a = S_RESET_PROMPT).
  { clear H. destruct (o_wbuf s) as [[]|]; oks; auto; apply wp_shape in E as (k & ->); auto. }
  clear E. destruct A as (A1 & A2 & A3).
  oks2; apply keepsp_write; sfields; auto; rewrite A3; reflexivity.
Qed.

Lemma action_keepsp : forall args a s s', fair_action a -> do_action args a s = Ok s' -> keepsp s s'.
Proof.
  intros args a s s' F H. destruct a; cbn [do_action] in H;
    try (eapply keepsp_wp; [reflexivity|exact H|reflexivity]);
    try (oks; apply keepsp_write; reflexivity).
  - destruct (nth_error args i); [eapply keepsp_wp; [reflexivity|exact H|reflexivity]|].
    destruct (i =? length args); discriminate.
  - eapply printf_keepsp; eauto.
  - oks. apply keepsp_same; reflexivity.
  - unfold ush_node_set_current_dir in H. oks2; apply keepsp_same; reflexivity.
  - unfold ush_node_mount in H. oks2; apply keepsp_same; reflexivity.
  - unfold ush_node_unmount in H. oks2; apply keepsp_same; reflexivity.
  - unfold ush_commands_add in H. oks2; apply keepsp_same; reflexivity.
  - unfold ush_commands_remove in H. oks2; apply keepsp_same; reflexivity.
  - oks. apply keepsp_state; sfields; auto; discriminate.
  - oks. apply keepsp_state; sfields; auto; destruct x; cbn in *; auto; discriminate || contradiction.
Qed.

Lemma actions_keepsp : forall args l s s', Forall fair_action l -> do_actions args l s = Ok s' -> keepsp s s'.
Proof.
  intros args l. induction l as [|a l IH]; intros s s' F H; cbn [do_actions] in H.
  - oks. apply keepsp_refl.
  - inversion F; subst. ok1. eapply keepsp_trans; [eapply action_keepsp; eauto|eauto].
Qed.

Ltac kp := first [ apply keepsp_same; sfields; reflexivity
                 | apply keepsp_write; sfields; reflexivity
                 | apply keepsp_state; sfields; try reflexivity; discriminate ].

Lemma call_get_keepsp : forall e cb g s a s', fair e -> call_get e cb g s = Ok (a, s') -> keepsp s s'.
Proof.
  intros e cb g s a s' (_ & _ & F & _) H. apply call_get_inv in H as (_ & H).
  eapply keepsp_trans; [|eapply actions_keepsp; [|exact H]; apply F]. kp.
Qed.

Lemma call_exec_keepsp : forall e cb f args argv s s', fair e -> call_exec e cb f args argv s = Ok s' -> keepsp s s'.
Proof.
  intros e cb f args argv s s' F H. pose proof F as (F1 & F2 & _ & _). unfold call_exec in H. destruct cb.
  - unfold help_callback in H. oks2; try kp; eapply keepsp_wp; [|exact H|]; reflexivity.
  - unfold ls_callback in H. oks2; kp.
  - unfold cd_callback, ush_node_set_current_dir in H. oks2; kp.
  - unfold pwd_callback in H. oks2; try kp; eapply keepsp_wp; [|exact H|]; reflexivity.
  - unfold cat_callback in H. oks2; kp.
  - unfold xxd_callback in H. oks2; try kp.
    all: match goal with C : call_get _ _ _ _ = Ok (?r, ?t) |- _ => apply call_get_keepsp in C; [|exact F];
      apply keepsp_trans with (b := t); [eapply keepsp_trans; [|exact C]; kp|destruct (g_ptr r); kp] end.
  - unfold echo_callback in H. oks2; try kp.
    + eapply keepsp_wp; [|exact H|]; reflexivity.
    + eapply keepsp_trans; [|eapply actions_keepsp; [|exact H]; apply F2]. kp.
  - eapply keepsp_trans; [|eapply actions_keepsp; [|exact H]; apply F1]. kp.
Qed.

Lemma parse_finish_keepsp : forall e s s', fair e -> ush_parse_finish e s = Ok s' -> keepsp s s'.
Proof.
  intros e s s' F H. unfold ush_parse_finish in H. ok1. ok1. destruct a0 as [|name rest] eqn:Ea; [oks; kp|].
  ok1. eapply keepsp_trans with (b := a1).
  - clear H. destruct (d_exec (o_desc s)); [|oks; kp].
    eapply keepsp_trans; [|eapply actions_keepsp; [|exact E1]; apply F]. kp.
  - clear E1. ok1. destruct a2 as [f|]; [|oks; kp]. destruct (f_exec f) as [cb|]; [|oks; kp].
    eapply call_exec_keepsp; eauto.
Qed.

Lemma process_keepsp : forall i s b s', fair (io_env i) -> ush_process_service i s = Ok (b, s') -> keepsp s s'.
Proof.
  intros i s b s' F H. unfold ush_process_service in H.
  assert (G : forall f p s1, f_proc f = Some p ->
     match p with
     | PHelp => help_service s | PLs => ls_service s
     | PCat => cat_service (io_env i) s | PXxd => xxd_service s
     | PUser n => do_actions [] (e_proc (io_env i) n (f_name f)) (emit (EvProc n (f_name f)) s)
     end = Ok s1 -> keepsp s s1).
  { clear H. intros f p s1 _ H. destruct p.
    - unfold help_service, print_out in H. destruct (o_state s) eqn:St; try (oks; kp).
      oks2; try kp; try solve [eapply keepsp_wps; [|eassumption|]; sfields; auto]; apply keepsp_wnext; sfields; auto.
    - unfold ls_service, print_out in H. destruct (o_state s) eqn:St; try (oks; kp);
      oks2; try kp; try solve [eapply keepsp_wps; [|eassumption|]; sfields; auto]; try solve [apply keepsp_wnext; sfields; auto].
      all: try match goal with E : ush_write_pointer _ _ _ = Ok ?a |- _ =>
        eapply keepsp_trans with (b := a); [eapply keepsp_wps; [|exact E|]; sfields; auto|kp] end.
    - unfold cat_service in H. destruct (o_state s) eqn:St; try (oks; kp); oks2; try kp.
      match goal with C : call_get _ _ _ _ = Ok (_, ?t) |- _ => apply call_get_keepsp in C; [|exact F]; apply keepsp_trans with (b := t); [exact C|] end.
      apply keepsp_wnext; sfields; auto.
    - unfold xxd_service, print_out in H. destruct (o_state s) eqn:St; try (oks; kp); oks2; try kp;
        try solve [apply keepsp_wnext; sfields; auto].
      all: try match goal with E : ush_write_pointer _ _ _ = Ok ?a |- _ =>
        eapply keepsp_trans with (b := a); [eapply keepsp_wps; [|exact E|]; sfields; auto|kp] end.
    - eapply keepsp_trans; [|eapply actions_keepsp; [|exact H]; apply F]. kp. }
  destruct (o_state s); try (oks; kp); destruct (o_pfile s) as [f|]; try discriminate;
    destruct (f_proc f) as [p|] eqn:Fp; try (oks; kp); ok1; oks; eapply G; eauto.
Qed.

Lemma away_write : forall s, o_state s = S_WRITE_CHAR -> parse_phase (o_wnext s) = false -> away s.
Proof. intros s A B. unfold away. rewrite A. auto. Qed.
Lemma away_state : forall s, o_state s <> S_WRITE_CHAR -> parse_phase (o_state s) = false -> away s.
Proof. intros s A B. split; auto. congruence. Qed.
Lemma away_wp : forall p n s s', ush_write_pointer p n s = Ok s' -> parse_phase n = false -> away s' /\ o_pnext s' = o_pnext s.
Proof. intros p n s s' H N. apply wp_shape in H as (k & ->). split; auto. apply away_write; auto. Qed.

Ltac np_ := first [ apply away_write; sfields; reflexivity
                 | apply away_state; sfields; try reflexivity; discriminate ].

Lemma autocomp_away : forall s b s', parse_phase (o_pnext s) = false ->
  match o_state s with S_AC_PREPARE | S_AC_START | S_AC_COUNT | S_AC_OPTIMISE | S_AC_PRINT | S_AC_FINISH
    | S_AC_PROMPT_PREPARE | S_AC_PROMPT | S_AC_RECALL | S_AC_RECALL_SUFFIX => True | _ => False end ->
  ush_autocomp_service s = Ok (b, s') -> away s' /\ parse_phase (o_pnext s') = false.
Proof.
  intros s b s' M St H. unfold ush_autocomp_service in H.
  assert (P : forall s s', (o_state s = S_AC_COUNT \/ o_state s = S_AC_OPTIMISE \/ o_state s = S_AC_PRINT) ->
     ush_autocomp_state_candidates_process s = Ok s' -> away s' /\ o_pnext s' = o_pnext s).
  { clear. intros s s' St H. unfold ush_autocomp_state_candidates_process in H.
    assert (N : parse_phase (o_state s) = false /\ o_state s <> S_WRITE_CHAR).
    { destruct St as [E|[E|E]]; rewrite E; split; reflexivity || discriminate. }
    destruct N as (N1 & N2).
    destruct (o_pnode s).
    - unfold ush_autocomp_check_for_next in H.
      ok1. destruct a as [nx s1].
      assert (L1 : o_state s1 = o_state s /\ o_pnext s1 = o_pnext s) by (clear H; oks2; auto). destruct L1 as (L1 & L1').
      rewrite <- L1, <- L1' in *. clear E.
      destruct nx; oks; [split; auto; apply away_state; auto|]. destruct a as [[sk f] s2].
      assert (L2 : o_state s2 = o_state s1 /\ o_pnext s2 = o_pnext s1)
        by (clear H; unfold ush_autocomp_process_file_prepare in E; oks2; auto). destruct L2 as (L2 & L2').
      rewrite <- L2, <- L2' in *. clear E. destruct sk; oks; [split; auto; apply away_state; auto|].
      unfold ush_autocomp_process_file_index in H.
      match goal with H : context [fsm_eqb ?x S_AC_PRINT] |- _ => destruct (fsm_eqb x S_AC_PRINT) eqn:Pr end.
      + oks2; split; try reflexivity; try exact L2';
          solve [apply away_write; sfields; auto | apply away_state; sfields; auto].
      + oks2; split; try reflexivity; try exact L2';
          solve [apply away_write; sfields; auto | apply away_state; sfields; auto].
    - unfold ush_autocomp_check_for_finish in H. oks2; split; auto; try (apply away_state; sfields; auto; discriminate). }
  assert (O : forall s s', ush_autocomp_optimize_continue s = Ok s' -> away s' /\ o_pnext s' = o_pnext s).
  { clear. intros s s' H. unfold ush_autocomp_optimize_continue in H. oks2; split; try reflexivity; np_. }
  assert (F : forall s s', ush_autocomp_state_candidates_finish s = Ok s' -> away s' /\ o_pnext s' = o_pnext s).
  { clear P H M St. intros s0 s0' H0. unfold ush_autocomp_state_candidates_finish in H0.
    oks2; try (split; [np_|reflexivity]); try (apply O in H0; exact H0). eapply away_wp in H0; [exact H0|reflexivity]. }
  assert (R : forall s s', ush_autocomp_state_recall_suffix s = Ok s' -> away s' /\ o_pnext s' = o_pnext s).
  { clear. intros s s' H. unfold ush_autocomp_state_recall_suffix in H. oks2; try (split; [np_|reflexivity]).
    eapply away_wp in H; [exact H|reflexivity]. }
  assert (T : forall s1, away s1 /\ o_pnext s1 = o_pnext s -> away s1 /\ parse_phase (o_pnext s1) = false).
  { intros s1 (A & B). rewrite B. auto. }
  destruct (o_state s) eqn:E0; try contradiction; oks;
    try (apply T; apply P in E; auto; fail); try (apply F in E; auto; fail); try (apply R in E; auto; fail);
    try (apply T; eapply away_wp; [exact E|reflexivity]); try (split; [np_|sfields; auto]).
  unfold ush_autocomp_state_prepare in E. oks. split; [np_|exact M].
Qed.


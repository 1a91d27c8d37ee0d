(** * OffPrompt: when the shell prints the prompt, it goes on with reading or with the line
    being completed (behind C61). *)
From Coq Require Import Arith Lia.
From Verif Require Import Shell BaseFacts LogFacts Sched ServiceFacts SchedFacts Macro EditFacts PromptFacts Session StepFacts Host.

(** The state is not inside a prompt. *)
Definition offp (s : st) : Prop :=
  prompt_phase (o_state s) = false /\ (o_state s = S_WRITE_CHAR -> prompt_phase (o_wnext s) = false).

(** ** Actions *)
Definition keepsr (s s' : st) : Prop := o_pnext s' = o_pnext s /\ (offp s -> offp s').

Lemma keepsr_refl : forall s, keepsr s s.
Proof. split; auto. Qed.
Lemma keepsr_trans : forall a b c, keepsr a b -> keepsr b c -> keepsr a c.
Proof. intros a b c (A1 & A2) (B1 & B2). split; [congruence|auto]. Qed.
Lemma keepsr_same : forall s s', o_pnext s' = o_pnext s -> o_state s' = o_state s -> o_wnext s' = o_wnext s -> keepsr s s'.
Proof. intros s s' A B C. split; auto. unfold offp. rewrite B, C. auto. Qed.
Lemma keepsr_write : forall s s', o_pnext s' = o_pnext s -> o_state s' = S_WRITE_CHAR -> prompt_phase (o_wnext s') = false -> keepsr s s'.
Proof. intros s s' A B C. split; auto. unfold offp. rewrite B. auto. Qed.
Lemma keepsr_state : forall s s', o_pnext s' = o_pnext s -> o_state s' <> S_WRITE_CHAR -> prompt_phase (o_state s') = false -> keepsr s s'.
Proof. intros s s' A B C. split; auto. unfold offp. split; auto. congruence. Qed.
Lemma keepsr_wnext : forall s s', o_pnext s' = o_pnext s -> o_state s' = S_WRITE_CHAR -> o_wnext s' = o_state s -> keepsr s s'.
Proof. intros s s' A B C. split; auto. unfold offp. rewrite B, C. intros (N1 & N2). split; auto. Qed.

Lemma keepsr_wp : forall p n s0 s s', o_pnext s = o_pnext s0 -> ush_write_pointer p n s = Ok s' -> prompt_phase n = false -> keepsr s0 s'.
Proof. intros p n s0 s s' A H N. apply wp_shape in H as (k & ->). apply keepsr_write; auto. Qed.
Lemma keepsr_wps : forall p n s0 s s', o_pnext s = o_pnext s0 -> ush_write_pointer p n s = Ok s' -> n = o_state s0 -> keepsr s0 s'.
Proof. intros p n s0 s s' A H N. apply wp_shape in H as (k & ->). apply keepsr_wnext; auto. Qed.

Lemma printf_keepsr : forall x s s', ush_printf x s = Ok s' -> keepsr s s'.
Proof.
  unfold ush_printf. intros x s s' H.
  ok1. assert (A : o_pnext a = o_pnext s /\ o_state a = S_WRITE_CHAR /\ o_wnext a = S_RESET_PROMPT).
  { clear H. destruct (o_wbuf s) as [[]|]; oks; auto; apply wp_shape in E as (k & ->); auto. }
  clear E. destruct A as (A1 & A2 & A3).
  oks2; apply keepsr_write; sfields; auto; rewrite A3; reflexivity.
Qed.

Lemma action_keepsr : forall args a s s', fair_action a -> do_action args a s = Ok s' -> keepsr s s'.
Proof.
  intros args a s s' F H. destruct a; cbn [do_action] in H;
    try (eapply keepsr_wp; [reflexivity|exact H|reflexivity]);
    try (oks; apply keepsr_write; reflexivity).
  - destruct (nth_error args i); [eapply keepsr_wp; [reflexivity|exact H|reflexivity]|].
    destruct (i =? length args); discriminate.
  - eapply printf_keepsr; eauto.
  - oks. apply keepsr_same; reflexivity.
  - unfold ush_node_set_current_dir in H. oks2; apply keepsr_same; reflexivity.
  - unfold ush_node_mount in H. oks2; apply keepsr_same; reflexivity.
  - unfold ush_node_unmount in H. oks2; apply keepsr_same; reflexivity.
  - unfold ush_commands_add in H. oks2; apply keepsr_same; reflexivity.
  - unfold ush_commands_remove in H. oks2; apply keepsr_same; reflexivity.
  - oks. apply keepsr_state; sfields; auto; discriminate.
  - oks. apply keepsr_state; sfields; auto; destruct x; cbn in *; auto; discriminate || contradiction.
Qed.

Lemma actions_keepsr : forall args l s s', Forall fair_action l -> do_actions args l s = Ok s' -> keepsr s s'.
Proof.
  intros args l. induction l as [|a l IH]; intros s s' F H; cbn [do_actions] in H.
  - oks. apply keepsr_refl.
  - inversion F; subst. ok1. eapply keepsr_trans; [eapply action_keepsr; eauto|eauto].
Qed.

Ltac knr := first [ apply keepsr_same; sfields; reflexivity
                 | apply keepsr_write; sfields; reflexivity
                 | apply keepsr_state; sfields; try reflexivity; discriminate ].

Lemma call_get_keepsr : forall e cb g s a s', fair e -> call_get e cb g s = Ok (a, s') -> keepsr s s'.
Proof.
  intros e cb g s a s' (_ & _ & F & _) H. apply call_get_inv in H as (_ & H).
  eapply keepsr_trans; [|eapply actions_keepsr; [|exact H]; apply F]. knr.
Qed.

Lemma call_exec_keepsr : forall e cb f args argv s s', fair e -> call_exec e cb f args argv s = Ok s' -> keepsr s s'.
Proof.
  intros e cb f args argv s s' F H. pose proof F as (F1 & F2 & _ & _). unfold call_exec in H. destruct cb.
  - unfold help_callback in H. oks2; try knr; eapply keepsr_wp; [|exact H|]; reflexivity.
  - unfold ls_callback in H. oks2; knr.
  - unfold cd_callback, ush_node_set_current_dir in H. oks2; knr.
  - unfold pwd_callback in H. oks2; try knr; eapply keepsr_wp; [|exact H|]; reflexivity.
  - unfold cat_callback in H. oks2; knr.
  - unfold xxd_callback in H. oks2; try knr.
    all: match goal with C : call_get _ _ _ _ = Ok (?r, ?t) |- _ => apply call_get_keepsr in C; [|exact F];
      apply keepsr_trans with (b := t); [eapply keepsr_trans; [|exact C]; knr|destruct (g_ptr r); knr] end.
  - unfold echo_callback in H. oks2; try knr.
    + eapply keepsr_wp; [|exact H|]; reflexivity.
    + eapply keepsr_trans; [|eapply actions_keepsr; [|exact H]; apply F2]. knr.
  - eapply keepsr_trans; [|eapply actions_keepsr; [|exact H]; apply F1]. knr.
Qed.

Lemma parse_finish_keepsr : forall e s s', fair e -> ush_parse_finish e s = Ok s' -> keepsr s s'.
Proof.
  intros e s s' F H. unfold ush_parse_finish in H. ok1. ok1. destruct a0 as [|name rest] eqn:Ea; [oks; knr|].
  ok1. eapply keepsr_trans with (b := a1).
  - clear H. destruct (d_exec (o_desc s)); [|oks; knr].
    eapply keepsr_trans; [|eapply actions_keepsr; [|exact E1]; apply F]. knr.
  - clear E1. ok1. destruct a2 as [f|]; [|oks; knr]. destruct (f_exec f) as [cb|]; [|oks; knr].
    eapply call_exec_keepsr; eauto.
Qed.

Lemma parse_offp : forall i s b s', fair (io_env i) -> match o_state s with S_PARSE_PREPARE | S_PARSE_SEARCH_ARG | S_PARSE_QUOTE_ARG | S_PARSE_STANDARD_ARG => True | _ => False end ->
  ush_parse_service i s = Ok (b, s') -> keepsr s s' /\ offp s'.
Proof.
  intros i s b s' F P H.
  assert (N : offp s).
  { unfold offp. destruct (o_state s); try contradiction; split; reflexivity || discriminate. }
  assert (G : keepsr s s'); [|split; [exact G|destruct G; auto]].
  unfold ush_parse_service in H. destruct (o_state s) eqn:St; try contradiction.
  1: oks; knr.
  all: ok1; unfold ush_parse_char in E; ok1; destruct (ceq _ LF || ceq _ CR);
    [ unfold out_char in E; oks; eapply keepsr_trans; [|eapply parse_finish_keepsr; eauto]; knr
    | unfold ush_parse_char_standard, out_escaped, out_char in E; oks2; sfields; try knr ].
  all: try (apply keepsr_same; sfields; auto).
  all: oks2; try (apply keepsr_same; sfields; auto).
Qed.

Lemma process_keepsr : forall i s b s', fair (io_env i) -> ush_process_service i s = Ok (b, s') -> keepsr s s'.
Proof.
  intros i s b s' F H. unfold ush_process_service in H.
  assert (G : forall f p s1, f_proc f = Some p ->
     match p with
     | PHelp => help_service s | PLs => ls_service s
     | PCat => cat_service (io_env i) s | PXxd => xxd_service s
     | PUser n => do_actions [] (e_proc (io_env i) n (f_name f)) (emit (EvProc n (f_name f)) s)
     end = Ok s1 -> keepsr s s1).
  { clear H. intros f p s1 _ H. destruct p.
    - unfold help_service, print_out in H. destruct (o_state s) eqn:St; try (oks; knr).
      oks2; try knr; try solve [eapply keepsr_wps; [|eassumption|]; sfields; auto]; apply keepsr_wnext; sfields; auto.
    - unfold ls_service, print_out in H. destruct (o_state s) eqn:St; try (oks; knr);
      oks2; try knr; try solve [eapply keepsr_wps; [|eassumption|]; sfields; auto]; try solve [apply keepsr_wnext; sfields; auto].
      all: try match goal with E : ush_write_pointer _ _ _ = Ok ?a |- _ =>
        eapply keepsr_trans with (b := a); [eapply keepsr_wps; [|exact E|]; sfields; auto|knr] end.
    - unfold cat_service in H. destruct (o_state s) eqn:St; try (oks; knr); oks2; try knr.
      match goal with C : call_get _ _ _ _ = Ok (_, ?t) |- _ => apply call_get_keepsr in C; [|exact F]; apply keepsr_trans with (b := t); [exact C|] end.
      apply keepsr_wnext; sfields; auto.
    - unfold xxd_service, print_out in H. destruct (o_state s) eqn:St; try (oks; knr); oks2; try knr;
        try solve [apply keepsr_wnext; sfields; auto].
      all: try match goal with E : ush_write_pointer _ _ _ = Ok ?a |- _ =>
        eapply keepsr_trans with (b := a); [eapply keepsr_wps; [|exact E|]; sfields; auto|knr] end.
    - eapply keepsr_trans; [|eapply actions_keepsr; [|exact H]; apply F]. knr. }
  destruct (o_state s); try (oks; knr); destruct (o_pfile s) as [f|]; try discriminate;
    destruct (f_proc f) as [p|] eqn:Fp; try (oks; knr); ok1; oks; eapply G; eauto.
Qed.

Lemma offp_write : forall s, o_state s = S_WRITE_CHAR -> prompt_phase (o_wnext s) = false -> offp s.
Proof. intros s A B. unfold offp. rewrite A. auto. Qed.
Lemma offp_state : forall s, o_state s <> S_WRITE_CHAR -> prompt_phase (o_state s) = false -> offp s.
Proof. intros s A B. split; auto. congruence. Qed.
Lemma offp_wp : forall p n s s', ush_write_pointer p n s = Ok s' -> prompt_phase n = false -> offp s' /\ o_pnext s' = o_pnext s.
Proof. intros p n s s' H N. apply wp_shape in H as (k & ->). split; auto. apply offp_write; auto. Qed.

Ltac nnr := first [ apply offp_write; sfields; reflexivity
                 | apply offp_state; sfields; try reflexivity; discriminate ].

Lemma autocomp_offp : forall s b s', 
  match o_state s with S_AC_PREPARE | S_AC_START | S_AC_COUNT | S_AC_OPTIMISE | S_AC_PRINT | S_AC_FINISH
    | S_AC_PROMPT_PREPARE | S_AC_RECALL | S_AC_RECALL_SUFFIX => True | _ => False end ->
  ush_autocomp_service s = Ok (b, s') -> offp s' /\ o_pnext s' = o_pnext s.
Proof.
  intros s b s' St H. unfold ush_autocomp_service in H.
  assert (P : forall s s', (o_state s = S_AC_COUNT \/ o_state s = S_AC_OPTIMISE \/ o_state s = S_AC_PRINT) ->
     ush_autocomp_state_candidates_process s = Ok s' -> offp s' /\ o_pnext s' = o_pnext s).
  { clear. intros s s' St H. unfold ush_autocomp_state_candidates_process in H.
    assert (N : prompt_phase (o_state s) = false /\ o_state s <> S_WRITE_CHAR).
    { destruct St as [E|[E|E]]; rewrite E; split; reflexivity || discriminate. }
    destruct N as (N1 & N2).
    destruct (o_pnode s).
    - unfold ush_autocomp_check_for_next in H.
      ok1. destruct a as [nx s1].
      assert (L1 : o_state s1 = o_state s /\ o_pnext s1 = o_pnext s) by (clear H; oks2; auto). destruct L1 as (L1 & L1').
      rewrite <- L1, <- L1' in *. clear E.
      destruct nx; oks; [split; auto; apply offp_state; auto|]. destruct a as [[sk f] s2].
      assert (L2 : o_state s2 = o_state s1 /\ o_pnext s2 = o_pnext s1)
        by (clear H; unfold ush_autocomp_process_file_prepare in E; oks2; auto). destruct L2 as (L2 & L2').
      rewrite <- L2, <- L2' in *. clear E. destruct sk; oks; [split; auto; apply offp_state; auto|].
      unfold ush_autocomp_process_file_index in H.
      match goal with H : context [fsm_eqb ?x S_AC_PRINT] |- _ => destruct (fsm_eqb x S_AC_PRINT) eqn:Pr end.
      + oks2; split; try reflexivity; try exact L2';
          solve [apply offp_write; sfields; auto | apply offp_state; sfields; auto].
      + oks2; split; try reflexivity; try exact L2';
          solve [apply offp_write; sfields; auto | apply offp_state; sfields; auto].
    - unfold ush_autocomp_check_for_finish in H. oks2; split; auto; try (apply offp_state; sfields; auto; discriminate). }
  assert (O : forall s s', ush_autocomp_optimize_continue s = Ok s' -> offp s' /\ o_pnext s' = o_pnext s).
  { clear. intros s s' H. unfold ush_autocomp_optimize_continue in H. oks2; split; try reflexivity; nnr. }
  assert (F : forall s s', ush_autocomp_state_candidates_finish s = Ok s' -> offp s' /\ o_pnext s' = o_pnext s).
  { clear P H St. intros s0 s0' H0. unfold ush_autocomp_state_candidates_finish in H0.
    oks2; try (split; [nnr|reflexivity]); try (apply O in H0; exact H0). eapply offp_wp in H0; [exact H0|reflexivity]. }
  assert (R : forall s s', ush_autocomp_state_recall_suffix s = Ok s' -> offp s' /\ o_pnext s' = o_pnext s).
  { clear. intros s s' H. unfold ush_autocomp_state_recall_suffix in H. oks2; try (split; [nnr|reflexivity]).
    eapply offp_wp in H; [exact H|reflexivity]. }
  assert (T : forall s1, offp s1 /\ o_pnext s1 = o_pnext s -> offp s1 /\ o_pnext s1 = o_pnext s).
  { auto. }
  destruct (o_state s) eqn:E0; try contradiction; oks;
    try (apply T; apply P in E; auto; fail); try (apply F in E; auto; fail); try (apply R in E; auto; fail);
    try (apply T; eapply offp_wp; [exact E|reflexivity]); try (split; [nnr|sfields; auto]).
  all: unfold ush_autocomp_state_prepare in E; oks; split; [nnr|reflexivity].
Qed.


(** ** The invariant *)
Definition goes_on (x : fsm) : Prop := x = S_READ_PREPARE \/ x = S_AC_RECALL.
Definition pn_ok (s : st) : Prop := prompt_phase (at_state s) = true -> goes_on (o_pnext s).

Lemma offp_at : forall s, offp s -> prompt_phase (at_state s) = false.
Proof. intros s (A & B). unfold at_state. destruct (o_state s); auto. Qed.
Lemma off_ok : forall s, offp s -> pn_ok s.
Proof. intros s O X. rewrite (offp_at s O) in X. discriminate. Qed.

Lemma service_pn_ok : forall i s b s', fair (io_env i) -> pn_ok s -> ush_service i s = Ok (b, s') -> pn_ok s'.
Proof.
  intros i s b s' F J H. rewrite service_eq in H. destruct (o_cur s) as [cu|] eqn:C; [|discriminate].
  unfold svc in H.
  assert (Auto : match o_state s with S_AC_PREPARE | S_AC_START | S_AC_COUNT | S_AC_OPTIMISE | S_AC_PRINT | S_AC_FINISH
    | S_AC_PROMPT_PREPARE | S_AC_RECALL | S_AC_RECALL_SUFFIX => True | _ => False end ->
    (if cfg_autocomp (d_cfg (o_desc s)) then ush_autocomp_service s else Ok (false, s)) = Ok (b, s') -> pn_ok s').
  { intros St A. destruct (cfg_autocomp _); [|oks; exact J]. apply off_ok. eapply autocomp_offp; eauto. }
  assert (Pr : proc_phase (o_state s) = true -> ush_process_service i s = Ok (b, s') -> pn_ok s').
  { intros St A. apply off_ok. apply (process_keepsr i s b s' F A). apply offp_state; destruct (o_state s); try discriminate; reflexivity. }
  unfold pn_ok, at_state in J.
  destruct (o_state s) eqn:St; try (apply Auto; [exact I|exact H]); try (apply Pr; [reflexivity|exact H]).
  - unfold ush_reset_service in H. rewrite St in H. oks. apply off_ok. nnr.
  - unfold ush_reset_service in H. rewrite St in H. oks. intros _. left. reflexivity.
  - unfold ush_prompt_service in H. rewrite St in H. oks. intros _. exact (J eq_refl).
  - unfold ush_prompt_service in H. rewrite St in H. oks. intros _. exact (J eq_refl).
  - unfold ush_prompt_service in H. rewrite St in H. oks. intros _. exact (J eq_refl).
  - unfold ush_prompt_service in H. rewrite St in H. oks. intros _. exact (J eq_refl).
  - unfold ush_prompt_service in H. rewrite St in H. oks. intros _. exact (J eq_refl).
  - unfold ush_read_start in H. oks. apply off_ok. nnr.
  - apply off_ok. unfold ush_read_char in H. destruct (io_rd i) as [c|]; [|oks; apply offp_state; rewrite St; reflexivity || discriminate].
    assert (Ss : o_state (emit (EvIn c) s) = S_READ_CHAR) by auto. remember (emit (EvIn c) s) as s0 eqn:Es. clear Es.
    ok1. destruct a as [echo s1]. ok1. injection H as <- <-.
    assert (O1 : offp s1).
    { clear E0. unfold ush_read_char_by_escape_state in E. repeat ok2; try solve [nnr]; try solve [apply offp_state; sfields; rewrite Ss; reflexivity || discriminate];
        clear Auto; destruct (cfg_autocomp _); [split; [reflexivity|discriminate]|]; apply offp_state; rewrite Ss; reflexivity || discriminate. }
    destruct echo; [|oks; exact O1]. unfold ush_read_echo_service in E0. ok1. apply wp_shape in E0 as (k & ->).
    apply offp_write; [reflexivity|]. cbn. destruct (ceq c CR || ceq c LF); reflexivity.
  - apply off_ok. eapply parse_offp; [exact F| |exact H]. rewrite St. exact I.
  - apply off_ok. eapply parse_offp; [exact F| |exact H]. rewrite St. exact I.
  - apply off_ok. eapply parse_offp; [exact F| |exact H]. rewrite St. exact I.
  - apply off_ok. eapply parse_offp; [exact F| |exact H]. rewrite St. exact I.
  - ok1. oks. destruct (write_hushed _ _ _ St E) as (_ & A & B). unfold pn_ok. rewrite A, B. unfold at_state. rewrite St. exact J.
  - destruct (cfg_autocomp _); [|oks; unfold pn_ok, at_state; rewrite St; discriminate]. unfold ush_autocomp_service in H. rewrite St in H. oks. intros _. right. reflexivity.
Qed.

(** From inside a prompt on, only bytes are printed until the shell polls. *)
Definition ending (s : st) : Prop :=
  match at_state s with
  | S_PROMPT_HOST | S_PROMPT_SPACE | S_PROMPT_PATH | S_PROMPT_SUFFIX => goes_on (o_pnext s)
  | S_READ_PREPARE | S_AC_RECALL | S_READ_CHAR => True
  | _ => False
  end.
Lemma seen_app : forall a b, seen (a ++ b) = seen a ++ seen b.
Proof. intros. apply filter_app. Qed.
Lemma seen_out : forall l c, seen (l ++ [EvOut c]) = seen l.
Proof. intros. rewrite seen_app. apply app_nil_r. Qed.

Lemma ending_step : forall i s b s', ending s -> ~ polling s -> ush_service i s = Ok (b, s') -> ending s' /\ seen (lg s') = seen (lg s).
Proof.
  intros i s b s' G N H. rewrite service_eq in H. destruct (o_cur s) as [cu|] eqn:C; [|discriminate].
  unfold svc in H. unfold ending, at_state in G.
  destruct (o_state s) eqn:St; try contradiction.
  - unfold ush_prompt_service in H. rewrite St in H. oks. split; [exact G|reflexivity].
  - unfold ush_prompt_service in H. rewrite St in H. oks. split; [exact G|reflexivity].
  - unfold ush_prompt_service in H. rewrite St in H. oks. split; [exact G|reflexivity].
  - unfold ush_prompt_service in H. rewrite St in H. oks. split; [|reflexivity]. unfold ending, at_state. cbn. destruct G as [->| ->]; exact I.
  - unfold ush_read_start in H. oks. split; [exact I|reflexivity].
  - ok1. oks. destruct (write_hushed _ _ _ St E) as (_ & A & B). split; [unfold ending; rewrite A, B; unfold at_state; rewrite St; exact G|].
    clear G A B. unfold ush_write_char in E. oks2; try reflexivity. apply seen_out.
  - destruct (cfg_autocomp _); [|oks; split; [unfold ending, at_state; rewrite St; exact I|reflexivity]].
    unfold ush_autocomp_service in H. rewrite St in H. oks. apply wp_shape in E as (k & ->). split; [exact I|reflexivity].
Qed.

(** * IdleFacts: while the shell polls, what is in the output buffer has been printed. *)
From Verif Require Import Shell BaseFacts LogFacts Sched ServiceFacts SchedFacts Macro EditFacts PromptFacts SchedProofs Line Cmds PrintfFacts Session.

(** Polling, completing, or about to poll. *)
Definition ask_phase (x : fsm) : bool :=
  match x with
  | S_READ_PREPARE | S_READ_CHAR | S_AC_PREPARE | S_AC_START | S_AC_COUNT | S_AC_OPTIMISE | S_AC_PRINT | S_AC_FINISH
  | S_AC_PROMPT_PREPARE | S_AC_PROMPT | S_AC_RECALL | S_AC_RECALL_SUFFIX => true
  | _ => false
  end.
Definition aloof (s : st) : Prop :=
  ask_phase (o_state s) = false /\ (o_state s = S_WRITE_CHAR -> ask_phase (o_wnext s) = false).

(** ** Actions *)
Definition keepsq (s s' : st) : Prop := o_pnext s' = o_pnext s /\ (aloof s -> aloof s').

Lemma keepsq_refl : forall s, keepsq s s.
Proof. split; auto. Qed.
Lemma keepsq_trans : forall a b c, keepsq a b -> keepsq b c -> keepsq a c.
Proof. intros a b c (A1 & A2) (B1 & B2). split; [congruence|auto]. Qed.
Lemma keepsq_same : forall s s', o_pnext s' = o_pnext s -> o_state s' = o_state s -> o_wnext s' = o_wnext s -> keepsq s s'.
Proof. intros s s' A B C. split; auto. unfold aloof. rewrite B, C. auto. Qed.
Lemma keepsq_write : forall s s', o_pnext s' = o_pnext s -> o_state s' = S_WRITE_CHAR -> ask_phase (o_wnext s') = false -> keepsq s s'.
Proof. intros s s' A B C. split; auto. unfold aloof. rewrite B. auto. Qed.
Lemma keepsq_state : forall s s', o_pnext s' = o_pnext s -> o_state s' <> S_WRITE_CHAR -> ask_phase (o_state s') = false -> keepsq s s'.
Proof. intros s s' A B C. split; auto. unfold aloof. split; auto. congruence. Qed.
Lemma keepsq_wnext : forall s s', o_pnext s' = o_pnext s -> o_state s' = S_WRITE_CHAR -> o_wnext s' = o_state s -> keepsq s s'.
Proof. intros s s' A B C. split; auto. unfold aloof. rewrite B, C. intros (N1 & N2). split; auto. Qed.

Lemma keepsq_wp : forall p n s0 s s', o_pnext s = o_pnext s0 -> ush_write_pointer p n s = Ok s' -> ask_phase n = false -> keepsq s0 s'.
Proof. intros p n s0 s s' A H N. apply wp_shape in H as (k & ->). apply keepsq_write; auto. Qed.
Lemma keepsq_wps : forall p n s0 s s', o_pnext s = o_pnext s0 -> ush_write_pointer p n s = Ok s' -> n = o_state s0 -> keepsq s0 s'.
Proof. intros p n s0 s s' A H N. apply wp_shape in H as (k & ->). apply keepsq_wnext; auto. Qed.

Lemma printf_keepsq : forall x s s', ush_printf x s = Ok s' -> keepsq s s'.
Proof.
  unfold ush_printf. intros x s s' H.
  ok1. assert (A : o_pnext a = o_pnext s /\ o_state a = S_WRITE_CHAR /\ o_wnext a = S_RESET_PROMPT).
  { clear H. destruct (o_wbuf s) as [[]|]; oks; auto; apply wp_shape in E as (k & ->); auto. }
  clear E. destruct A as (A1 & A2 & A3).
  oks2; apply keepsq_write; sfields; auto; rewrite A3; reflexivity.
Qed.

Lemma action_keepsq : forall args a s s', fair_action a -> do_action args a s = Ok s' -> keepsq s s'.
Proof.
  intros args a s s' F H. destruct a; cbn [do_action] in H;
    try (eapply keepsq_wp; [reflexivity|exact H|reflexivity]);
    try (oks; apply keepsq_write; reflexivity).
  - destruct (nth_error args i); [eapply keepsq_wp; [reflexivity|exact H|reflexivity]|].
    destruct (i =? length args); discriminate.
  - eapply printf_keepsq; eauto.
  - oks. apply keepsq_same; reflexivity.
  - unfold ush_node_set_current_dir in H. oks2; apply keepsq_same; reflexivity.
  - unfold ush_node_mount in H. oks2; apply keepsq_same; reflexivity.
  - unfold ush_node_unmount in H. oks2; apply keepsq_same; reflexivity.
  - unfold ush_commands_add in H. oks2; apply keepsq_same; reflexivity.
  - unfold ush_commands_remove in H. oks2; apply keepsq_same; reflexivity.
  - oks. apply keepsq_state; sfields; auto; discriminate.
  - oks. apply keepsq_state; sfields; auto; destruct x; cbn in *; auto; discriminate || contradiction.
Qed.

Lemma actions_keepsq : forall args l s s', Forall fair_action l -> do_actions args l s = Ok s' -> keepsq s s'.
Proof.
  intros args l. induction l as [|a l IH]; intros s s' F H; cbn [do_actions] in H.
  - oks. apply keepsq_refl.
  - inversion F; subst. ok1. eapply keepsq_trans; [eapply action_keepsq; eauto|eauto].
Qed.

Ltac kq := first [ apply keepsq_same; sfields; reflexivity
                 | apply keepsq_write; sfields; reflexivity
                 | apply keepsq_state; sfields; try reflexivity; discriminate ].

Lemma call_get_keepsq : forall e cb g s a s', fair e -> call_get e cb g s = Ok (a, s') -> keepsq s s'.
Proof.
  intros e cb g s a s' (_ & _ & F & _) H. apply call_get_inv in H as (_ & H).
  eapply keepsq_trans; [|eapply actions_keepsq; [|exact H]; apply F]. kq.
Qed.

Lemma call_exec_keepsq : forall e cb f args argv s s', fair e -> call_exec e cb f args argv s = Ok s' -> keepsq s s'.
Proof.
  intros e cb f args argv s s' F H. pose proof F as (F1 & F2 & _ & _). unfold call_exec in H. destruct cb.
  - unfold help_callback in H. oks2; try kq; eapply keepsq_wp; [|exact H|]; reflexivity.
  - unfold ls_callback in H. oks2; kq.
  - unfold cd_callback, ush_node_set_current_dir in H. oks2; kq.
  - unfold pwd_callback in H. oks2; try kq; eapply keepsq_wp; [|exact H|]; reflexivity.
  - unfold cat_callback in H. oks2; kq.
  - unfold xxd_callback in H. oks2; try kq.
    all: match goal with C : call_get _ _ _ _ = Ok (?r, ?t) |- _ => apply call_get_keepsq in C; [|exact F];
      apply keepsq_trans with (b := t); [eapply keepsq_trans; [|exact C]; kq|destruct (g_ptr r); kq] end.
  - unfold echo_callback in H. oks2; try kq.
    + eapply keepsq_wp; [|exact H|]; reflexivity.
    + eapply keepsq_trans; [|eapply actions_keepsq; [|exact H]; apply F2]. kq.
  - eapply keepsq_trans; [|eapply actions_keepsq; [|exact H]; apply F1]. kq.
Qed.

Lemma parse_finish_keepsq : forall e s s', fair e -> ush_parse_finish e s = Ok s' -> keepsq s s'.
Proof.
  intros e s s' F H. unfold ush_parse_finish in H. ok1. ok1. destruct a0 as [|name rest] eqn:Ea; [oks; kq|].
  ok1. eapply keepsq_trans with (b := a1).
  - clear H. destruct (d_exec (o_desc s)); [|oks; kq].
    eapply keepsq_trans; [|eapply actions_keepsq; [|exact E1]; apply F]. kq.
  - clear E1. ok1. destruct a2 as [f|]; [|oks; kq]. destruct (f_exec f) as [cb|]; [|oks; kq].
    eapply call_exec_keepsq; eauto.
Qed.

Lemma process_keepsq : forall i s b s', fair (io_env i) -> ush_process_service i s = Ok (b, s') -> keepsq s s'.
Proof.
  intros i s b s' F H. unfold ush_process_service in H.
  assert (G : forall f p s1, f_proc f = Some p ->
     match p with
     | PHelp => help_service s | PLs => ls_service s
     | PCat => cat_service (io_env i) s | PXxd => xxd_service s
     | PUser n => do_actions [] (e_proc (io_env i) n (f_name f)) (emit (EvProc n (f_name f)) s)
     end = Ok s1 -> keepsq s s1).
  { clear H. intros f p s1 _ H. destruct p.
    - unfold help_service, print_out in H. destruct (o_state s) eqn:St; try (oks; kq).
      oks2; try kq; try solve [eapply keepsq_wps; [|eassumption|]; sfields; auto]; apply keepsq_wnext; sfields; auto.
    - unfold ls_service, print_out in H. destruct (o_state s) eqn:St; try (oks; kq);
      oks2; try kq; try solve [eapply keepsq_wps; [|eassumption|]; sfields; auto]; try solve [apply keepsq_wnext; sfields; auto].
      all: try match goal with E : ush_write_pointer _ _ _ = Ok ?a |- _ =>
        eapply keepsq_trans with (b := a); [eapply keepsq_wps; [|exact E|]; sfields; auto|kq] end.
    - unfold cat_service in H. destruct (o_state s) eqn:St; try (oks; kq); oks2; try kq.
      match goal with C : call_get _ _ _ _ = Ok (_, ?t) |- _ => apply call_get_keepsq in C; [|exact F]; apply keepsq_trans with (b := t); [exact C|] end.
      apply keepsq_wnext; sfields; auto.
    - unfold xxd_service, print_out in H. destruct (o_state s) eqn:St; try (oks; kq); oks2; try kq;
        try solve [apply keepsq_wnext; sfields; auto].
      all: try match goal with E : ush_write_pointer _ _ _ = Ok ?a |- _ =>
        eapply keepsq_trans with (b := a); [eapply keepsq_wps; [|exact E|]; sfields; auto|kq] end.
    - eapply keepsq_trans; [|eapply actions_keepsq; [|exact H]; apply F]. kq. }
  destruct (o_state s); try (oks; kq); destruct (o_pfile s) as [f|]; try discriminate;
    destruct (f_proc f) as [p|] eqn:Fp; try (oks; kq); ok1; oks; eapply G; eauto.
Qed.


Lemma aloof_write : forall s, o_state s = S_WRITE_CHAR -> ask_phase (o_wnext s) = false -> aloof s.
Proof. intros s A B. unfold aloof. rewrite A. auto. Qed.
Lemma aloof_state : forall s, o_state s <> S_WRITE_CHAR -> ask_phase (o_state s) = false -> aloof s.
Proof. intros s A B. split; auto. congruence. Qed.

Lemma parse_aloof : forall i s b s', fair (io_env i) -> match o_state s with S_PARSE_PREPARE | S_PARSE_SEARCH_ARG | S_PARSE_QUOTE_ARG | S_PARSE_STANDARD_ARG => True | _ => False end ->
  ush_parse_service i s = Ok (b, s') -> aloof s'.
Proof.
  intros i s b s' F P H.
  assert (N : aloof s) by (unfold aloof; destruct (o_state s); try contradiction; split; reflexivity || discriminate).
  assert (G : keepsq s s'); [|destruct G; auto].
  unfold ush_parse_service in H. destruct (o_state s) eqn:St; try contradiction.
  1: oks; kq.
  all: ok1; unfold ush_parse_char in E; ok1; destruct (ceq _ LF || ceq _ CR);
    [ unfold out_char in E; oks; eapply keepsq_trans; [|eapply parse_finish_keepsq; eauto]; kq
    | unfold ush_parse_char_standard, out_escaped, out_char in E; oks2; sfields; try kq ].
  all: try (apply keepsq_same; sfields; auto).
  all: oks2; try (apply keepsq_same; sfields; auto).
Qed.

(** ** The output buffer *)

(** It holds a short string, of which at least the part before the position is printed. *)
Definition echoes (s : st) : Prop :=
  exists t r, outb s = t ++ NUL :: r /\ no_nul t /\ length t <= 3 /\ o_wsize s = length t /\ o_wpos s <= length t.
(** If it is what was written last and the shell polls, all of it is printed. *)
Definition calm (s : st) : Prop := o_wbuf s = Some WOut ->
  (ask_phase (o_state s) = true -> o_state s <> S_READ_PREPARE /\ echoes s /\ o_wpos s = o_wsize s) /\
  (o_state s = S_WRITE_CHAR -> ask_phase (o_wnext s) = true -> o_wnext s <> S_READ_PREPARE /\ echoes s).

Definition same_out (s s' : st) : Prop := o_wbuf s' = o_wbuf s /\ outb s' = outb s /\ o_wsize s' = o_wsize s /\ o_wpos s' = o_wpos s.

Lemma calm_other : forall s, o_wbuf s <> Some WOut -> calm s.
Proof. intros s N W. contradiction. Qed.
Lemma calm_aloof : forall s, aloof s -> calm s.
Proof. intros s (A & B) W. split; [congruence|]. intros E X. rewrite (B E) in X. discriminate. Qed.
Lemma calm_same : forall s s', same_out s s' -> o_state s' = o_state s -> o_wnext s' = o_wnext s -> calm s -> calm s'.
Proof. intros s s' (A & B & C & D) E F H. unfold calm, echoes in *. rewrite A, B, C, D, E, F. exact H. Qed.
Lemma calm_ask : forall s s', same_out s s' -> ask_phase (o_state s) = true -> ask_phase (o_state s') = true -> o_state s' <> S_READ_PREPARE -> calm s -> calm s'.
Proof.
  intros s s' (A & B & C & D) P P' N H W. rewrite A in W. destruct (H W) as (H1 & _). destruct (H1 P) as (_ & H2 & H3). unfold echoes in *. rewrite B, C, D.
  split; [intros _; split; [exact N|split; assumption]|]. intros X. rewrite X in P'. discriminate.
Qed.
Lemma calm_wp : forall p n s s', p <> WOut -> ush_write_pointer p n s = Ok s' -> calm s'.
Proof. intros p n s s' N H. apply wp_shape in H as (k & ->). apply calm_other. cbn. congruence. Qed.

Definition completing (x : fsm) : Prop :=
  match x with S_AC_PREPARE | S_AC_START | S_AC_COUNT | S_AC_OPTIMISE | S_AC_PRINT | S_AC_FINISH
    | S_AC_PROMPT_PREPARE | S_AC_PROMPT | S_AC_RECALL | S_AC_RECALL_SUFFIX => True | _ => False end.

Definition ac_step (s s' : st) : Prop :=
  o_wbuf s' <> Some WOut \/ (same_out s s' /\ ask_phase (o_state s') = true /\ o_state s' <> S_READ_PREPARE) \/ aloof s'.
Lemma calm_ac : forall s s', completing (o_state s) -> ac_step s s' -> calm s -> calm s'.
Proof.
  intros s s' P [N|[(A & B & C)|N]] H; [apply calm_other, N| |apply calm_aloof, N].
  eapply calm_ask; eauto. destruct (o_state s); try contradiction; reflexivity.
Qed.

Ltac acs :=
  first [ solve [left; sfields; discriminate]
        | solve [right; left; split; [repeat split; sfields; auto|split; sfields; auto; try discriminate; try congruence]]
        | solve [right; right; apply aloof_state; sfields; auto; discriminate] ].

Lemma autocomp_calm : forall s b s', completing (o_state s) -> ush_autocomp_service s = Ok (b, s') -> ac_step s s'.
Proof.
  intros s b s' St H. unfold ush_autocomp_service in H.
  assert (P : forall s s', (o_state s = S_AC_COUNT \/ o_state s = S_AC_OPTIMISE \/ o_state s = S_AC_PRINT) ->
     ush_autocomp_state_candidates_process s = Ok s' -> ac_step s s').
  { clear. intros s s' St H. unfold ush_autocomp_state_candidates_process in H.
    assert (N : ask_phase (o_state s) = true /\ o_state s <> S_READ_PREPARE).
    { destruct St as [E|[E|E]]; rewrite E; split; reflexivity || discriminate. }
    destruct N as (N1 & N2).
    destruct (o_pnode s).
    - unfold ush_autocomp_check_for_next in H.
      ok1. destruct a as [nx s1].
      assert (L1 : same_out s s1 /\ o_state s1 = o_state s) by (clear H; oks2; split; repeat split; auto). destruct L1 as (L1 & L1').
      rewrite <- L1' in *. clear E.
      destruct nx; oks; [right; left; auto|]. destruct a as [[sk f] s2].
      assert (L2 : same_out s1 s2 /\ o_state s2 = o_state s1)
        by (clear H; unfold ush_autocomp_process_file_prepare in E; oks2; split; repeat split; auto). destruct L2 as (L2 & L2').
      rewrite <- L2' in *. clear E.
      assert (L3 : same_out s s2) by (unfold same_out in *; intuition congruence). destruct sk; oks; [right; left; auto|].
      unfold ush_autocomp_process_file_index in H. destruct L3 as (A1 & A2 & A3 & A4).
      match goal with H : context [fsm_eqb ?x S_AC_PRINT] |- _ => destruct (fsm_eqb x S_AC_PRINT) eqn:Pr end; oks2; acs.
    - unfold ush_autocomp_check_for_finish in H. oks2; acs. }
  assert (O : forall s s', ush_autocomp_optimize_continue s = Ok s' -> ac_step s s').
  { clear. intros s s' H. unfold ush_autocomp_optimize_continue in H. oks2; acs. }
  assert (W : forall p n s s', p <> WOut -> ush_write_pointer p n s = Ok s' -> forall s0, ac_step s0 s').
  { clear. intros p n s s' N H s0. apply wp_shape in H as (k & ->). left. cbn. congruence. }
  destruct (o_state s) eqn:E0; try contradiction; oks.
  - unfold ush_autocomp_state_prepare in E. oks. acs.
  - acs.
  - apply P in E; auto.
  - apply P in E; auto.
  - apply P in E; auto.
  - unfold ush_autocomp_state_candidates_finish in E. destruct (o_acprev s); try discriminate; oks2; try acs.
    + eapply W; [|eassumption]; discriminate.
    + apply O in E. unfold ac_step, same_out in *. sfields. exact E.
    + apply O in E. exact E.
  - acs.
  - acs.
  - eapply W; [|eassumption]; discriminate.
  - unfold ush_autocomp_state_recall_suffix in E. oks2; try acs. eapply W; [|eassumption]; discriminate.
Qed.

Lemma nul_bounds : forall (b b' : bytes) k n, wr b k NUL = Ok b' -> c_strlen b' 0 = Ok n ->
  exists t r, b' = t ++ NUL :: r /\ no_nul t /\ length t <= k /\ n = length t.
Proof.
  intros b b' k n W H. apply wr_inv in W as (L & ->). unfold c_strlen in H. ok1. injection H as <-.
  apply c_str_inv in E as (N & q & r & E & Lq). destruct q; [|discriminate]. cbn [app] in E.
  exists a, r. split; [exact E|]. split; [exact N|]. split; [|reflexivity].
  destruct (Nat.le_gt_cases (length a) k) as [|X]; [assumption|]. exfalso. apply N.
  apply (nth_error_In a k). rewrite <- (nth_error_app1 a (NUL :: r) X), <- E.
  clear - L. revert k L. induction b as [|x b IH]; intros k L; [cbn in L; lia|]. destruct k; [reflexivity|]. cbn. apply IH. cbn in L. lia.
Qed.

Lemma echo_calm : forall ch s s', ush_read_echo_service ch s = Ok s' -> calm s'.
Proof.
  intros ch s s' H. unfold ush_read_echo_service in H. ok1. unfold ush_write_pointer in H. ok1.
  assert (X : exists t r, a = t ++ NUL :: r /\ no_nul t /\ length t <= 3 /\ a0 = length t).
  { clear H. change (c_strlen a 0 = Ok a0) in E0.
    destruct (ceq ch CR); [|destruct (ceq ch BS || ceq ch DEL)]; repeat (ok1);
      edestruct nul_bounds as (t & r & ? & ? & ? & ?); [eassumption|eassumption| | eassumption|eassumption| |eassumption|eassumption| ];
      exists t, r; repeat (split; auto); lia. }
  destruct X as (t & r & -> & Nt & Lt & ->). injection H as <-. intros _. split; [intros X; discriminate X|].
  intros _ _. split; [cbn; destruct (ceq ch CR || ceq ch LF); discriminate|]. exists t, r. repeat (split; [solve [auto]|]). cbn. lia.
Qed.

Lemma service_calm : forall i s b s', fair (io_env i) -> calm s -> ush_service i s = Ok (b, s') -> calm s'.
Proof.
  intros i s b s' F K H. rewrite service_eq in H. destruct (o_cur s) as [cu|] eqn:C; [|discriminate].
  unfold svc in H.
  assert (A : completing (o_state s) -> (if cfg_autocomp (d_cfg (o_desc s)) then ush_autocomp_service s else Ok (false, s)) = Ok (b, s') -> calm s').
  { clear H. intros P H. destruct (cfg_autocomp _); [|oks; exact K]. eapply calm_ac; [exact P|eapply autocomp_calm; eauto|exact K]. }
  destruct (o_state s) eqn:St; try (apply A; [exact Logic.I|exact H]); clear A.
  - unfold ush_reset_service in H. rewrite St in H. oks. apply calm_other. discriminate.
  - unfold ush_reset_service in H. rewrite St in H. oks. apply calm_aloof, aloof_state; reflexivity || discriminate.
  - unfold ush_prompt_service in H. rewrite St in H. oks. apply calm_other. discriminate.
  - unfold ush_prompt_service in H. rewrite St in H. oks. apply calm_other. discriminate.
  - unfold ush_prompt_service in H. rewrite St in H. oks. apply calm_other. discriminate.
  - unfold ush_prompt_service in H. rewrite St in H. oks. apply calm_other. discriminate.
  - unfold ush_prompt_service in H. rewrite St in H. oks. apply calm_other. discriminate.
  - unfold ush_read_start in H. oks. apply calm_other. intros W. change (o_wbuf s = Some WOut) in W.
    destruct (K W) as (K1 & _). rewrite St in K1. destruct (K1 eq_refl) as (N & _). auto.
  - unfold ush_read_char in H. destruct (io_rd i) as [c|]; [|oks; exact K].
    assert (K0 : calm (emit (EvIn c) s) /\ o_state (emit (EvIn c) s) = S_READ_CHAR) by (split; [exact K|exact St]).
    remember (emit (EvIn c) s) as s0 eqn:Es. clear Es K St. destruct K0 as (K & St).
    ok1. destruct a as [echo s1]. ok1. injection H as <- <-. destruct echo; [eapply echo_calm; eauto|]. injection E0 as <-.
    unfold ush_read_char_by_escape_state in E. repeat ok2; try solve [eapply calm_same; [| | |exact K]; repeat split; auto].
    + apply calm_other. discriminate.
    + destruct (cfg_autocomp _); [|exact K]. eapply calm_ask; [| | | |exact K]; [repeat split|rewrite St; reflexivity|reflexivity|discriminate].
  - apply calm_aloof. eapply parse_aloof; [exact F| |exact H]. rewrite St. exact Logic.I.
  - apply calm_aloof. eapply parse_aloof; [exact F| |exact H]. rewrite St. exact Logic.I.
  - apply calm_aloof. eapply parse_aloof; [exact F| |exact H]. rewrite St. exact Logic.I.
  - apply calm_aloof. eapply parse_aloof; [exact F| |exact H]. rewrite St. exact Logic.I.
  - unfold ush_write_char in H. ok1. injection H as <- <-.
    destruct (Nat.leb_spec (o_wsize s) (o_wpos s)) as [Hle|Hlt].
    + injection E as <-. intros W. change (o_wbuf s = Some WOut) in W. destruct (K W) as (_ & K2). split.
      * intros P. change (ask_phase (o_wnext s) = true) in P. destruct (K2 St P) as (N & X). split; [exact N|]. split; [exact X|].
        destruct X as (t & r & _ & _ & _ & Z & Y). sfields. lia.
      * intros P Q. change (o_wnext s = S_WRITE_CHAR) in P. change (ask_phase (o_wnext s) = true) in Q. rewrite P in Q. discriminate.
    + ok1. destruct (io_wr i); injection E as <-; [|exact K]. intros W. change (o_wbuf s = Some WOut) in W. destruct (K W) as (_ & K2).
      sfields. split; [rewrite St; intros X; discriminate X|]. intros _ Q. destruct (K2 St Q) as (N & t & r & X1 & X2 & X3 & X4 & X5). split; [exact N|].
      exists t, r. sfields. repeat (split; [solve [auto]|]). lia.
  - apply calm_aloof. apply (process_keepsq i s b s' F H). apply aloof_state; rewrite St; reflexivity || discriminate.
  - apply calm_aloof. apply (process_keepsq i s b s' F H). apply aloof_state; rewrite St; reflexivity || discriminate.
  - apply calm_aloof. apply (process_keepsq i s b s' F H). apply aloof_state; rewrite St; reflexivity || discriminate.
Qed.

Lemma drive_calm : forall x cs l s q s', well_behaved x -> calm s -> drive (app_of x) cs l s = Ok (q, s') -> calm s'.
Proof.
  intros x cs l. revert cs. induction l as [|(r, w) l IH]; intros cs s q s' F K H; cbn [drive] in H; [oks; exact K|].
  ok1. destruct a as [b s1]. eapply IH; [exact F| |exact H]. eapply service_calm; [|exact K|exact E]. apply F.
Qed.

Lemma calm_settled : forall s, polling s -> calm s -> settled s.
Proof.
  intros s P K W. destruct (K W) as (K1 & _). rewrite P in K1. destruct (K1 eq_refl) as (_ & (t & r & A & B & C & D & _) & E).
  exists t, r. repeat (split; [assumption|]). congruence.
Qed.
Lemma settled_calm : forall s, polling s -> settled s -> calm s.
Proof.
  intros s P K W. destruct (K W) as (t & r & A & B & C & D & E). rewrite P. split; [|intros X; discriminate X]. intros _.
  split; [discriminate|]. split; [|congruence]. exists t, r. repeat (split; [assumption|]). lia.
Qed.

(** ** Printing while polling *)
Lemma print_anew : forall args ws a s y, printing_call ws a -> do_action args a (set_state y s) = do_action args a s.
Proof.
  intros args ws a s y P. destruct a; cbn [printing_call] in P; try contradiction; destruct s; cbn [do_action]; try reflexivity.
Qed.

Lemma echo_nothing : forall d ws e l full t, length e + length (full ++ formatted l) < d_outsize d -> Forall (printing_call ws) l ->
  spoken d ws (Some (e ++ full, length e)) t l = spoken d ws (Some (full, 0)) t l.
Proof.
  intros d ws e l. induction l as [|a l IH]; intros full t L P; [reflexivity|]. inversion P as [|? ? Pa Pl]; subst.
  destruct a; cbn [printing_call] in Pa; try contradiction; try reflexivity. destruct x as [u|u]; [|contradiction].
  cbn [spoken]. cbn [formatted flat_map] in L. fold (formatted l) in L. rewrite <- app_assoc. rewrite !app_length in *.
  rewrite !printf_eq. rewrite !cut_fits by (rewrite ?app_length; lia). 
  replace (_ <? _) with true by (symmetry; apply Nat.ltb_lt; rewrite !app_length; lia).
  replace (_ <? _) with true by (symmetry; apply Nat.ltb_lt; rewrite !app_length; lia).
  rewrite !app_nil_r. rewrite skipn_app, skipn_all, Nat.sub_diag. cbn [app skipn]. apply IH; [rewrite !app_length; lia|exact Pl].
Qed.

Lemma says_quiet : forall e s l cw, polling s -> settled s -> cwd_is s cw -> bufs_ok s -> l <> [] -> Forall (printing_call []) l -> 3 + length (formatted l) < d_outsize (o_desc s) ->
  exists s1 s', do_actions [] l s = Ok s1 /\ aloof s1 /\ quiet e s1 s' /\ editing 0 [] s' /\ bufs_ok s' /\ core s' = core s /\
    lg s' = lg s ++ map EvOut (spoken (o_desc s) [] None [] l ++ prompt (o_desc s) cw).
Proof.
  intros e s l cw P St W B Ne Pl Lf. set (s0 := set_state S_RESET_PROMPT s).
  assert (E0 : do_actions [] l s0 = do_actions [] l s).
  { destruct l as [|a l]; [congruence|]. inversion Pl; subst. cbn [do_actions]. unfold s0. rewrite (print_anew [] [] a s S_RESET_PROMPT); auto. }
  assert (A0 : aloof s0) by (apply aloof_state; reflexivity || discriminate).
  assert (B0 : bufs_ok s0) by exact B. assert (W0 : cwd_is s0 cw) by exact W.
  assert (Sp : exists buf, speaks s0 s0 buf [] /\ length (buf_text buf) <= 3 /\ spoken (o_desc s) [] buf [] l = spoken (o_desc s) [] None [] l).
  { destruct (o_wbuf s) as [b|] eqn:Wb; [|exists None; split; [|split; [cbn; lia|reflexivity]]; do 4 (split; [reflexivity|]); split; [cbn; congruence|left; auto]].
    assert (Dec : b = WOut \/ b <> WOut) by (destruct b; auto; right; discriminate). destruct Dec as [->|Nb].
    - destruct (St Wb) as (t & r & Ob & Nt & Lt & Sz & Wp). exists (Some (t, length t)). split; [|split; [exact Lt|]].
      + do 4 (split; [reflexivity|]). split; [|left; auto]. unfold holds. assert (Lo : length t < d_outsize (o_desc s0)) by (destruct B as (_ & _ & _ & B4); change (o_desc s0) with (o_desc s); lia).
        rewrite printf_eq, cut_fits by exact Lo. apply Nat.ltb_lt in Lo as Lo'. rewrite Lo', app_nil_r.
        split; [exact Wb|]. split; [exact Nt|]. split; [exists r; exact Ob|]. split; [exact Wp|]. split; [lia|]. split; [exact Sz|right; exact Lo].
      + pose proof (echo_nothing (o_desc s) [] t l [] [] ltac:(cbn [app]; lia) Pl) as X. rewrite app_nil_r in X. rewrite X. destruct l as [|a l]; [reflexivity|]. inversion Pl; subst.
        destruct a; cbn [printing_call] in *; try contradiction; try reflexivity.
    - exists None. split; [|split; [cbn; lia|reflexivity]]. do 4 (split; [reflexivity|]). split; [cbn; congruence|left; auto]. }
  destruct Sp as (buf & Sp & Lb & Et).
  destruct (calls_speak [] [] l s0 s0 buf [] Sp B0 eq_refl Pl) as (s1 & buf1 & E1 & Sp1 & _); [right; change (o_desc s0) with (o_desc s); lia|].
  destruct (speaks_quiet e s0 s1 buf1 _ cw Sp1 W0 B0) as (s' & Q & Ed & B' & K' & L'). change (o_desc s0) with (o_desc s) in L'. rewrite Et in L'.
  exists s1, s'. split; [rewrite <- E0; exact E1|]. split; [|split; [exact Q|split; [exact Ed|split; [exact B'|split; [exact K'|exact L']]]]].
  eapply actions_keepsq; [|exact E1|exact A0]. eapply Forall_impl; [|exact Pl]. intros a Pa. destruct a; cbn in *; auto. contradiction.
Qed.

Lemma flushes_quiet : forall e s u cw, cwd_is s cw -> bufs_ok s -> ~ In NUL u -> length u < d_outsize (o_desc s) ->
  exists s1 s', do_actions [] [AWriteOut u; AFlush] s = Ok s1 /\ aloof s1 /\ quiet e s1 s' /\ editing 0 [] s' /\ bufs_ok s' /\ core s' = core s /\
    lg s' = lg s ++ map EvOut (u ++ prompt (o_desc s) cw).
Proof.
  intros e s u cw W B Nu Lu. cbn [do_actions do_action]. pose proof B as (B1 & B2 & B3 & B4).
  rewrite c_strcpy_ok by (cbn [Nat.add]; lia). cbn [bind Nat.add firstn app]. set (b := u ++ NUL :: skipn _ _). set (s0 := set_outb b s).
  assert (Cs : c_str (outb s0) 0 = Ok u) by (apply c_str_0; exact Nu).
  assert (B0 : bufs_ok s0). { unfold bufs_ok in *. change (inb s0) with (inb s). change (o_desc s0) with (o_desc s). change (outb s0) with b. unfold b. split; [exact B1|]. split; [|auto].
    rewrite app_length. cbn [length]. rewrite skipn_length. lia. }
  destruct (C42_proof e AFlush s0 cw (u ++ prompt (o_desc s) cw) W B0) as (s1 & s' & E & Q & Ed & K & B' & L).
  { cbn [printed]. rewrite Cs. reflexivity. }
  cbn [do_action] in E. rewrite E. cbn [bind]. exists s1, s'. split; [reflexivity|]. split; [|split; [exact Q|split; [exact Ed|split; [exact B'|split; [exact K|exact L]]]]].
  apply wp_shape in E as (k & ->). apply aloof_write; reflexivity.
Qed.

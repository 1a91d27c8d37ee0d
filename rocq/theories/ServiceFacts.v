(** * ServiceFacts: one service call, state by state; schedules. *)
From Verif Require Import Shell BaseFacts LogFacts Sched History.

Definition svc (i : io) (s : st) : res (bool * st) :=
  match o_state s with
  | S_RESET | S_RESET_PROMPT => ush_reset_service s
  | S_PROMPT_PREFIX | S_PROMPT_HOST | S_PROMPT_SPACE | S_PROMPT_PATH | S_PROMPT_SUFFIX =>
      ush_prompt_service s
  | S_READ_PREPARE => s <- ush_read_start s ;; Ok (false, s)
  | S_READ_CHAR => ush_read_char i s
  | S_PARSE_PREPARE | S_PARSE_SEARCH_ARG | S_PARSE_QUOTE_ARG | S_PARSE_STANDARD_ARG =>
      ush_parse_service i s
  | S_WRITE_CHAR => s <- ush_write_char (io_wr i) s ;; Ok (true, s)
  | S_PROCESS_START | S_PROCESS_SERVICE | S_PROCESS_FINISH => ush_process_service i s
  | _ => if cfg_autocomp (d_cfg (o_desc s)) then ush_autocomp_service s else Ok (false, s)
  end.

Lemma service_eq : forall i s,
  ush_service i s = match o_cur s with None => Err EAssert | Some _ => svc i s end.
Proof.
  intros i s. unfold ush_service, svc. destruct (o_cur s) as [c|] eqn:C; [|reflexivity].
  destruct (o_state s) eqn:E;
  unfold ush_reset_service; rewrite E; cbn [bind]; try reflexivity;
  unfold ush_prompt_service; rewrite E; cbn [bind]; try reflexivity;
  try (destruct (getp (hp s) (o_cur s)) as [nd|]; cbn [bind]; [destruct (path_of nd)|]; reflexivity);
  unfold ush_read_service; rewrite E; cbn [bind fst snd];
  try (destruct (ush_read_start s); reflexivity);
  try (destruct (ush_read_char i s) as [[? ?]|]; reflexivity);
  try (unfold ush_autocomp_service; rewrite E;
       match goal with |- context [if ?x then _ else Ok (false, s)] => destruct x end; cbn [bind];
       try (match goal with |- bind (bind ?m _) _ = bind ?m _ => destruct m; reflexivity end);
       try reflexivity;
       unfold ush_parse_service; rewrite E; cbn [bind];
       try (match goal with |- bind (bind ?m _) _ = bind ?m _ => destruct m; reflexivity end);
       try reflexivity;
       unfold ush_write_service; rewrite E; cbn [bind];
       try (match goal with |- bind (bind ?m _) _ = bind ?m _ => destruct m; reflexivity end);
       try reflexivity;
       unfold ush_process_service; rewrite E; reflexivity).
Qed.

Lemma polling_dec : forall s, polling s \/ ~ polling s.
Proof. intros s. unfold polling. destruct (o_state s); (left; reflexivity) || (right; discriminate). Qed.

Lemma svc_rd : forall r r' w e s, ~ polling s ->
  ush_service (mkIo r w e) s = ush_service (mkIo r' w e) s.
Proof.
  intros r r' w e s N. rewrite !service_eq. destruct (o_cur s); [|reflexivity].
  unfold svc, polling in *. destruct (o_state s) eqn:E; try reflexivity; try congruence.
Qed.

Lemma svc_wr : forall r w w' e s, o_state s <> S_WRITE_CHAR ->
  ush_service (mkIo r w e) s = ush_service (mkIo r w' e) s.
Proof.
  intros r w w' e s N. rewrite !service_eq. destruct (o_cur s); [|reflexivity].
  unfold svc. destruct (o_state s) eqn:E; try reflexivity; try congruence.
Qed.

(** ** Log of a service call *)

Lemma read_char_log : forall i s b s', ush_read_char i s = Ok (b, s') ->
  match io_rd i with
  | None => b = false /\ s' = s
  | Some c => b = true /\ lg s' = lg s ++ [EvIn c]
  end.
Proof.
  intros i s b s' H. unfold ush_read_char in H. destruct (io_rd i) as [c|]; [|oks; auto].
  assert (L0 : lg (emit (EvIn c) s) = lg s ++ [EvIn c]) by reflexivity.
  remember (emit (EvIn c) s) as s0 eqn:Es. clear Es.
  ok1. destruct a as [echo s1]. ok1. injection H as <- <-. split; auto. rewrite <- L0.
  assert (L1 : lg s1 = lg s0).
  { clear E0. unfold ush_read_char_by_escape_state in E.
    repeat ok2; try reflexivity; destruct (cfg_autocomp _); reflexivity. }
  rewrite <- L1. destruct echo; [|oks; reflexivity].
  unfold ush_read_echo_service in E0. oks. apply wp_lg in E0. exact E0.
Qed.

Lemma autocomp_log : forall s b s', ush_autocomp_service s = Ok (b, s') -> lg s' = lg s.
Proof.
  intros s b s' H. unfold ush_autocomp_service in H.
  assert (P : forall s s', ush_autocomp_state_candidates_process s = Ok s' -> lg s' = lg s).
  { clear. intros s s' H. unfold ush_autocomp_state_candidates_process in H.
    destruct (o_pnode s).
    - unfold ush_autocomp_check_for_next in H.
      ok1. destruct a as [nx s1].
      assert (L1 : lg s1 = lg s) by (oks2; reflexivity). rewrite <- L1. clear E L1.
      destruct nx; oks; auto. destruct a as [[sk f] s2].
      assert (L2 : lg s2 = lg s1) by (unfold ush_autocomp_process_file_prepare in E; oks2; reflexivity).
      rewrite <- L2. clear E L2. destruct sk; oks; auto.
      unfold ush_autocomp_process_file_index in H.
      oks2; try reflexivity; match goal with |- context [fsm_eqb ?a ?b] => destruct (fsm_eqb a b) end;
        oks; reflexivity.
    - unfold ush_autocomp_check_for_finish in H. oks2; reflexivity. }
  assert (O : forall s s', ush_autocomp_optimize_continue s = Ok s' -> lg s' = lg s).
  { clear. intros s s' H. unfold ush_autocomp_optimize_continue in H. oks2; reflexivity. }
  assert (F : forall s s', ush_autocomp_state_candidates_finish s = Ok s' -> lg s' = lg s).
  { clear P H. intros s0 s0' H0. unfold ush_autocomp_state_candidates_finish in H0.
    oks2; try reflexivity; try (apply O in H0; exact H0). apply wp_lg in H0; exact H0. }
  assert (R : forall s s', ush_autocomp_state_recall_suffix s = Ok s' -> lg s' = lg s).
  { clear. intros s s' H. unfold ush_autocomp_state_recall_suffix in H. oks2; try reflexivity.
    apply wp_lg in H; exact H. }
  destruct (o_state s); oks; try reflexivity;
    try (apply P in E; exact E); try (apply F in E; exact E); try (apply R in E; exact E);
    try (apply wp_lg in E; exact E).
  unfold ush_autocomp_state_prepare in E. oks; reflexivity.
Qed.

Lemma parse_standard_lg : forall ch s s', ush_parse_char_standard ch s = Ok s' -> lg s' = lg s.
Proof.
  intros ch s s' H. unfold ush_parse_char_standard, out_escaped, out_char in H.
  oks2; reflexivity.
Qed.

(** The log of [ush_parse_finish]: nothing, or the hook, then at most one file. *)
Definition finish_log (d : desc) (evs : list event) : Prop :=
  evs = [] \/
  exists argv fs r, argv <> [] /\ evs = hook_events d argv ++ fs ++ r /\
    (fs = [] \/ exists cb f, fs = [EvExec cb (Some f) argv]) /\ Forall ev_noexec r.

Lemma parse_finish_log : forall e s s', ush_parse_finish e s = Ok s' ->
  exists evs, lg s' = lg s ++ evs /\ finish_log (o_desc s) evs.
Proof.
  intros e s s' H. unfold ush_parse_finish in H. ok1. ok1.
  destruct a0 as [|name rest] eqn:Ea.
  { oks. exists []. rewrite app_nil_r. split; [reflexivity|left; reflexivity]. }
  ok1. assert (L : lg a1 = lg s ++ hook_events (o_desc s) (name :: rest)).
  { unfold hook_events. destruct (d_exec (o_desc s)).
    - lgs. exact E1.
    - oks. rewrite app_nil_r. reflexivity. }
  clear E1. ok1.
  destruct a2 as [f|].
  - destruct (f_exec f) as [cb|].
    + apply call_exec_log in H as (ev2 & H & F2). exists (hook_events (o_desc s) (name :: rest) ++ [EvExec cb (Some (f_name f)) (name :: rest)] ++ ev2).
      rewrite H, L, <- app_assoc. split; [reflexivity|]. right. exists (name :: rest), [EvExec cb (Some (f_name f)) (name :: rest)], ev2.
      split; [discriminate|]. split; [reflexivity|]. split; [right; eauto|exact F2].
    + oks. exists (hook_events (o_desc s) (name :: rest) ++ [] ++ []). rewrite !app_nil_r. split; [exact L|]. right. exists (name :: rest), [], [].
      split; [discriminate|]. split; [rewrite !app_nil_r; reflexivity|]. split; [left; reflexivity|constructor].
  - oks. exists (hook_events (o_desc s) (name :: rest) ++ [] ++ []). rewrite !app_nil_r. split; [exact L|]. right. exists (name :: rest), [], [].
      split; [discriminate|]. split; [rewrite !app_nil_r; reflexivity|]. split; [left; reflexivity|constructor].
Qed.

Lemma proc_log : forall i s b s', ush_process_service i s = Ok (b, s') -> logs ev_noexec s s'.
Proof.
  intros i s b s' H. unfold ush_process_service in H.
  assert (G : forall f p, f_proc f = Some p -> forall s', 
     match p with
     | PHelp => help_service s | PLs => ls_service s
     | PCat => cat_service (io_env i) s | PXxd => xxd_service s
     | PUser n => do_actions [] (e_proc (io_env i) n (f_name f)) (emit (EvProc n (f_name f)) s)
     end = Ok s' -> logs ev_noexec s s').
  { clear. intros f p _ s' H. destruct p.
    - unfold help_service in H. oks2; lgs; apply logs_refl; auto.
    - unfold ls_service in H. oks2; lgs; apply logs_refl; auto.
    - unfold cat_service in H. oks2; try (apply logs_refl; reflexivity).
      match goal with C : call_get _ _ _ _ = Ok (_, _) |- _ => eapply logs_one; [exact (call_get_lg _ _ _ _ _ _ C)|exact I] end.
    - unfold xxd_service in H. oks2; lgs; apply logs_refl; auto.
    - lgs. eapply logs_one; [exact H|exact I]. }
  destruct (o_state s); try (oks; apply logs_refl; reflexivity);
  destruct (o_pfile s) as [f|]; try discriminate H;
  destruct (f_proc f) as [p|] eqn:Ep; oks; try (apply logs_refl; reflexivity);
  eapply G; eauto.
Qed.

(** Any service call in a state other than READ_CHAR and the PARSE states. *)
Definition parsing (s : st) : Prop :=
  match o_state s with
  | S_PARSE_SEARCH_ARG | S_PARSE_QUOTE_ARG | S_PARSE_STANDARD_ARG => True
  | _ => False
  end.

Lemma service_log : forall i s b s', ush_service i s = Ok (b, s') ->
  ~ polling s -> ~ parsing s -> logs ev_noexec s s'.
Proof.
  intros i s b s' H N1 N2. rewrite service_eq in H. destruct (o_cur s); [|discriminate].
  unfold svc, polling, parsing in *.
  destruct (o_state s) eqn:E; try (exfalso; congruence); try (exfalso; tauto).
  1-2: unfold ush_reset_service in H; rewrite E in H; oks; apply logs_refl; reflexivity.
  1-5: unfold ush_prompt_service in H; rewrite E in H; oks; apply logs_refl; reflexivity.
  - unfold ush_read_start in H. oks. apply logs_refl; reflexivity.
  - unfold ush_parse_service in H. rewrite E in H. oks. apply logs_refl; reflexivity.
  - unfold ush_write_char in H. oks2; try (apply logs_refl; reflexivity).
    eapply logs_one; [reflexivity|exact I].
  - eapply proc_log; eauto.
  - eapply proc_log; eauto.
  - eapply proc_log; eauto.
  - destruct (cfg_autocomp _); [|oks; apply logs_refl; reflexivity]. apply autocomp_log in H. apply logs_refl; auto.
  - destruct (cfg_autocomp _); [|oks; apply logs_refl; reflexivity]. apply autocomp_log in H. apply logs_refl; auto.
  - destruct (cfg_autocomp _); [|oks; apply logs_refl; reflexivity]. apply autocomp_log in H. apply logs_refl; auto.
  - destruct (cfg_autocomp _); [|oks; apply logs_refl; reflexivity]. apply autocomp_log in H. apply logs_refl; auto.
  - destruct (cfg_autocomp _); [|oks; apply logs_refl; reflexivity]. apply autocomp_log in H. apply logs_refl; auto.
  - destruct (cfg_autocomp _); [|oks; apply logs_refl; reflexivity]. apply autocomp_log in H. apply logs_refl; auto.
  - destruct (cfg_autocomp _); [|oks; apply logs_refl; reflexivity]. apply autocomp_log in H. apply logs_refl; auto.
  - destruct (cfg_autocomp _); [|oks; apply logs_refl; reflexivity]. apply autocomp_log in H. apply logs_refl; auto.
  - destruct (cfg_autocomp _); [|oks; apply logs_refl; reflexivity]. apply autocomp_log in H. apply logs_refl; auto.
  - destruct (cfg_autocomp _); [|oks; apply logs_refl; reflexivity]. apply autocomp_log in H. apply logs_refl; auto.
Qed.

Lemma parsing_log : forall i s b s', ush_service i s = Ok (b, s') -> parsing s ->
  exists evs, lg s' = lg s ++ evs /\ finish_log (o_desc s) evs.
Proof.
  intros i s b s' H P. rewrite service_eq in H. destruct (o_cur s); [|discriminate].
  assert (G : exists s0, ush_parse_char (io_env i) s = Ok s0 /\ s' = s0).
  { unfold svc, parsing, ush_parse_service in *.
    destruct (o_state s) eqn:E; try (exfalso; tauto); oks; eauto. }
  destruct G as (s0 & G & ->). clear H. unfold ush_parse_char in G. ok1.
  destruct (ceq a LF || ceq a CR).
  - ok1. apply parse_finish_log in G. unfold out_char in E0. oks. exact G.
  - apply parse_standard_lg in G. exists []. rewrite app_nil_r. split; [exact G|left; reflexivity].
Qed.

Lemma noexec_noin : forall e, ev_noexec e -> ev_noin e.
Proof. intros []; cbn; auto. Qed.

Lemma service_noin : forall i s b s', ush_service i s = Ok (b, s') -> ~ polling s -> logs ev_noin s s'.
Proof.
  intros i s b s' H N.
  assert (D : parsing s \/ ~ parsing s) by (unfold parsing; destruct (o_state s); tauto).
  destruct D as [P|P].
  - apply parsing_log in H as (evs & L & [F|F]); auto.
    + exists evs. split; auto. rewrite F. constructor.
    + destruct F as (argv & fs & r & _ & -> & F1 & F2). eexists; split; [exact L|].
      apply Forall_app. split; [unfold hook_events; destruct (d_exec (o_desc s)); repeat constructor|].
      apply Forall_app. split; [destruct F1 as [->|(cb & f & ->)]; repeat constructor|].
      eapply Forall_impl; [|exact F2]; apply noexec_noin.
  - eapply logs_weaken; [apply noexec_noin|]. eapply service_log; eauto.
Qed.

Lemma ins_app : forall a b, ins (a ++ b) = ins a ++ ins b.
Proof. intros. apply flat_map_app. Qed.
Lemma outs_app : forall a b, outs (a ++ b) = outs a ++ outs b.
Proof. intros. apply flat_map_app. Qed.
Lemma ins_noin : forall l, Forall ev_noin l -> ins l = [].
Proof.
  induction l as [|e l IH]; intros F; [reflexivity|]. inversion F; subst. cbn [ins flat_map].
  fold (ins l). rewrite IH by auto. destruct e; cbn in *; tauto || reflexivity.
Qed.

Lemma service_ins : forall i s b s', ush_service i s = Ok (b, s') -> ~ polling s -> ins (lg s') = ins (lg s).
Proof.
  intros i s b s' H N. apply service_noin in H as (evs & -> & F); auto.
  rewrite ins_app, (ins_noin evs F). apply app_nil_r.
Qed.

Lemma service_poll : forall i s b s', ush_service i s = Ok (b, s') -> polling s ->
  match io_rd i with
  | None => b = false /\ s' = s
  | Some c => b = true /\ lg s' = lg s ++ [EvIn c]
  end.
Proof.
  intros i s b s' H P. rewrite service_eq in H. destruct (o_cur s); [|discriminate].
  unfold svc in H. rewrite P in H. apply read_char_log; auto.
Qed.

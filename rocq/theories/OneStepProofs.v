(** * OneStepProofs: proofs of C60. *)
From Coq Require Import Arith Lia.
From Verif Require Import Shell BaseFacts LogFacts Sched History ServiceFacts OneStep.

Definition grown (P : list event -> Prop) (s s' : st) : Prop := exists evs, lg s' = lg s ++ evs /\ P evs.
Definition small (l : list event) : Prop := l = [] \/ exists x, file_callback x /\ l = [x].

Lemma grown_none : forall s s', lg s' = lg s -> grown small s s'.
Proof. intros s s' H. exists []. rewrite app_nil_r. split; [exact H|left; reflexivity]. Qed.
Lemma grown_one : forall s s' x, lg s' = lg s ++ [x] -> file_callback x -> grown small s s'.
Proof. intros s s' x H F. exists [x]. split; [exact H|right; eauto]. Qed.

Lemma call_exec_small : forall e cb f args argv s s', call_exec e cb f args argv s = Ok s' ->
  grown small (emit (EvExec cb (Some (f_name f)) argv) s) s'.
Proof.
  intros e cb f args argv s s' H. unfold call_exec in H.
  set (s0 := emit (EvExec cb (Some (f_name f)) argv) s) in *.
  destruct cb.
  - unfold help_callback in H. oks2; lgs; apply grown_none; auto.
  - unfold ls_callback in H. oks2; lgs; apply grown_none; auto.
  - unfold cd_callback in H. oks2; lgs; apply grown_none; auto.
  - unfold pwd_callback in H. oks2; lgs; apply grown_none; auto.
  - unfold cat_callback in H. oks2; lgs; apply grown_none; auto.
  - unfold xxd_callback in H. oks2; lgs; try (apply grown_none; auto; fail);
      match goal with C : call_get _ _ _ _ = Ok (?a, _) |- _ =>
        eapply grown_one; [apply call_get_lg in C; cbn [ush_process_start lg]; destruct (g_ptr a); exact C|exact I] end.
  - unfold echo_callback in H. oks2; lgs; try (apply grown_none; auto; fail).
    eapply grown_one; [exact H|exact I].
  - lgs. apply grown_none; auto.
Qed.

Lemma proc_small : forall i s b s', ush_process_service i s = Ok (b, s') -> grown small s s'.
Proof.
  intros i s b s' H. unfold ush_process_service in H.
  assert (G : forall f p, f_proc f = Some p -> forall s', 
     match p with
     | PHelp => help_service s | PLs => ls_service s
     | PCat => cat_service (io_env i) s | PXxd => xxd_service s
     | PUser n => do_actions [] (e_proc (io_env i) n (f_name f)) (emit (EvProc n (f_name f)) s)
     end = Ok s' -> grown small s s').
  { clear. intros f p _ s' H. destruct p.
    - unfold help_service in H. oks2; lgs; apply grown_none; auto.
    - unfold ls_service in H. oks2; lgs; apply grown_none; auto.
    - unfold cat_service in H. oks2; try (apply grown_none; reflexivity).
      match goal with C : call_get _ _ _ _ = Ok (_, _) |- _ => eapply grown_one; [exact (call_get_lg _ _ _ _ _ _ C)|exact I] end.
    - unfold xxd_service in H. oks2; lgs; apply grown_none; auto.
    - lgs. eapply grown_one; [exact H|exact I]. }
  destruct (o_state s); try (oks; apply grown_none; reflexivity);
  destruct (o_pfile s) as [f|]; try discriminate H;
  destruct (f_proc f) as [p|] eqn:Ep; oks; try (apply grown_none; reflexivity);
  eapply G; eauto.
Qed.

Section One.
Variable i : io.

Lemma small_thing : forall d P l, small l -> one_thing d P i l.
Proof. intros d P l [->|(x & F & ->)]; [apply Nothing|apply CallsOne; exact F]. Qed.
Lemma thing_none : forall P s s', lg s' = lg s -> grown (one_thing (o_desc s) P i) s s'.
Proof. intros P s s' H. exists []. rewrite app_nil_r. split; [exact H|apply Nothing]. Qed.

Lemma parse_finish_thing : forall d P s s', o_desc s = d -> ush_parse_finish (io_env i) s = Ok s' -> grown (one_thing d P i) s s'.
Proof.
  intros d P s s' <- H. unfold ush_parse_finish in H. ok1. ok1.
  destruct a0 as [|name rest] eqn:Ea.
  { oks. exists []. rewrite app_nil_r. split; [reflexivity|apply Nothing]. }
  ok1. assert (L : lg a1 = lg s ++ hook_events (o_desc s) (name :: rest)).
  { unfold hook_events. destruct (d_exec (o_desc s)).
    - lgs. exact E1.
    - oks. rewrite app_nil_r. reflexivity. }
  clear E1. ok1.
  assert (No : forall s2, lg s2 = lg a1 -> grown (one_thing (o_desc s) P i) s s2).
  { intros s2 E3. exists (hook_events (o_desc s) (name :: rest) ++ [] ++ []). split; [rewrite E3, L, !app_nil_r; reflexivity|].
    apply RunsLine with (ws := name :: rest); [discriminate|reflexivity|left; reflexivity|left; reflexivity]. }
  destruct a2 as [f|].
  - destruct (f_exec f) as [cb|].
    + apply call_exec_small in H as (r & H & F). exists (hook_events (o_desc s) (name :: rest) ++ [EvExec cb (Some (f_name f)) (name :: rest)] ++ r).
      unfold emit in H. cbn [lg] in H. unfold set_lg in H; cbn [lg] in H. rewrite H, L, <- !app_assoc. split; [reflexivity|].
      apply RunsLine with (ws := name :: rest); [discriminate|reflexivity|right; eauto|].
      destruct F as [->|(x & F & ->)]; [left; reflexivity|right; split; [discriminate|eauto]].
    + oks. apply No. reflexivity.
  - oks. apply No. reflexivity.
Qed.

Lemma C60_step_proof : forall s b s', ush_service i s = Ok (b, s') ->
  exists evs, lg s' = lg s ++ evs /\ one_thing (o_desc s) (polling s) i evs.
Proof.
  intros s b s' H. change (grown (one_thing (o_desc s) (polling s) i) s s').
  rewrite service_eq in H. destruct (o_cur s); [|discriminate]. unfold svc in H.
  assert (Auto : (if cfg_autocomp (d_cfg (o_desc s)) then ush_autocomp_service s else Ok (false, s)) = Ok (b, s') -> grown (one_thing (o_desc s) (polling s) i) s s').
  { intros A. destruct (cfg_autocomp _); [apply autocomp_log in A; apply thing_none; exact A|oks; apply thing_none; reflexivity]. }
  assert (Proc : ush_process_service i s = Ok (b, s') -> grown (one_thing (o_desc s) (polling s) i) s s').
  { intros A. apply proc_small in A as (evs & L & F). exists evs. split; [exact L|apply small_thing; exact F]. }
  assert (Parse : parsing s -> ush_parse_service i s = Ok (b, s') -> grown (one_thing (o_desc s) (polling s) i) s s').
  { intros P A. assert (G : exists s0, ush_parse_char (io_env i) s = Ok s0 /\ s' = s0).
    { unfold parsing, ush_parse_service in *. destruct (o_state s) eqn:E; try (exfalso; tauto); oks; eauto. }
    destruct G as (s0 & G & ->). clear A H. unfold ush_parse_char in G. ok1.
    destruct (ceq a LF || ceq a CR).
    - ok1. unfold out_char in E0. oks. eapply (parse_finish_thing _ (polling s)) in G; [exact G|reflexivity].
    - apply parse_standard_lg in G. apply thing_none. exact G. }
  unfold parsing, polling in *.
  destruct (o_state s) eqn:E; try (apply Auto; exact H); try (apply Proc; exact H); try (apply Parse; [exact I|exact H]).
  1-2: unfold ush_reset_service in H; rewrite E in H; oks; apply thing_none; reflexivity.
  1-5: unfold ush_prompt_service in H; rewrite E in H; oks; apply thing_none; reflexivity.
  - unfold ush_read_start in H. oks. apply thing_none; reflexivity.
  - apply read_char_log in H. destruct (io_rd i) as [c|] eqn:Er; destruct H as (_ & H).
    + exists [EvIn c]. split; [exact H|]. apply ReadsOne; [reflexivity|exact Er].
    + subst. apply thing_none. reflexivity.
  - unfold ush_parse_service in H. rewrite E in H. oks. apply thing_none; reflexivity.
  - unfold ush_write_char in H. oks2; try (apply thing_none; reflexivity).
    eexists. split; [reflexivity|]. apply WritesOne. assumption.
Qed.

End One.

Lemma thing_bytes : forall d P i l, one_thing d P i l -> length (ins l) + length (outs l) <= 1 /\ length (callback_events l) <= 3 /\
  (ins l ++ outs l <> [] -> callback_events l = []).
Proof.
  intros d P i l [|c _ _|c _|x F|ws h f r _ Eh Ef Er].
  - cbn. repeat split; auto; lia.
  - cbn. repeat split; auto; lia.
  - cbn. repeat split; auto; lia.
  - destruct x; try contradiction; cbn; (split; [lia|split; [lia|intros X; exfalso; apply X; reflexivity]]).
  - assert (H : ins h = [] /\ outs h = [] /\ length (callback_events h) <= 1) by (subst h; destruct (d_exec d); cbn; auto).
    assert (G : ins f = [] /\ outs f = [] /\ length (callback_events f) <= 1) by (destruct Ef as [->|(x & nm & ->)]; cbn; auto).
    assert (K : ins r = [] /\ outs r = [] /\ length (callback_events r) <= 1) by (destruct Er as [->|(_ & x & F & ->)]; [cbn; auto|destruct x; try contradiction; cbn; auto]).
    destruct H as (H1 & H2 & H3), G as (G1 & G2 & G3), K as (K1 & K2 & K3). clear Eh Ef Er.
    rewrite !ins_app, !outs_app. rewrite H1, H2, G1, G2, K1, K2. unfold callback_events in *. rewrite !filter_app, !app_length.
    split; [cbn; lia|]. split; [lia|]. intros X. exfalso. apply X. reflexivity.
Qed.

Lemma C60_count_proof : forall l s s', run l s = Ok s' ->
  exists evs, lg s' = lg s ++ evs /\ length (ins evs) + length (outs evs) <= service_calls l /\ length (callback_events evs) <= 3 * service_calls l.
Proof.
  induction l as [|o l IH]; intros s s' H; cbn [run] in H.
  - oks. exists []. rewrite app_nil_r. cbn. auto.
  - ok1. apply IH in H as (evs & L & B & C). destruct o as [i|a']; cbn [step] in E.
    + ok1. destruct a0 as [b s1]. oks. apply C60_step_proof in E0 as (e1 & L1 & T). apply thing_bytes in T as (T1 & T2 & _).
      exists (e1 ++ evs). rewrite L, L1, app_assoc. split; [reflexivity|]. rewrite ins_app, outs_app. unfold callback_events in *. rewrite filter_app, !app_length.
      unfold service_calls in *. cbn [filter length]. lia.
    + apply do_action_lg in E. exists evs. rewrite L, E. auto.
Qed.

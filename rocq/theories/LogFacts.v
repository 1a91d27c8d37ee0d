(** * LogFacts: what each function appends to the log. *)
From Verif Require Import Shell BaseFacts.

Ltac inv_ok H := injection H as H; subst.

Ltac ok1 :=
  match goal with
  | H : bind ?m _ = Ok _ |- _ =>
      let E := fresh "E" in
      destruct m eqn:E; cbn [bind] in H; [|discriminate H]
  | H : Ok _ = Ok _ |- _ => injection H as H; try subst
  | H : Err _ = Ok _ |- _ => discriminate H
  | H : (_, _) = (_, _) |- _ => injection H; clear H; intros; subst
  | H : (let '(_, _) := ?p in _) = Ok _ |- _ => destruct p eqn:?; cbn [fst snd] in H
  end.
Ltac oks := repeat ok1.
(** also split matches and ifs *)
Ltac ok2 :=
  first [ ok1
        | match goal with
          | H : match ?x with _ => _ end = Ok _ |- _ => destruct x eqn:?; try discriminate H
          end ].
Ltac oks2 := repeat ok2.

Definition logs (P : event -> Prop) (s s' : st) : Prop :=
  exists evs, lg s' = lg s ++ evs /\ Forall P evs.

Lemma logs_refl : forall P s s', lg s' = lg s -> logs P s s'.
Proof. intros P s s' H. exists []. rewrite H, app_nil_r. auto. Qed.

Lemma logs_trans : forall P s s' s'', logs P s s' -> logs P s' s'' -> logs P s s''.
Proof.
  intros P s s' s'' (a & Ha & Fa) (b & Hb & Fb). exists (a ++ b).
  rewrite Hb, Ha, app_assoc. split; auto. apply Forall_app; auto.
Qed.

Lemma logs_one : forall (P : event -> Prop) s s' e, lg s' = lg s ++ [e] -> P e -> logs P s s'.
Proof. intros P s s' e H1 H2. exists [e]. auto. Qed.

Lemma logs_weaken : forall (P Q : event -> Prop) s s', (forall e, P e -> Q e) -> logs P s s' -> logs Q s s'.
Proof. intros P Q s s' H (a & E & F). exists a. split; auto. eapply Forall_impl; eauto. Qed.

(** What a service call other than in READ_CHAR may log. *)
Definition ev_out (e : event) := match e with EvOut _ => True | _ => False end.
Definition ev_none (e : event) := False.
Definition ev_get (e : event) := match e with EvGet _ _ => True | _ => False end.
Definition ev_noin (e : event) := match e with EvIn _ => False | _ => True end.
(** no input and no exec callback *)
Definition ev_noexec (e : event) :=
  match e with EvIn _ | EvExec _ _ _ => False | _ => True end.

Lemma set_current_dir_lg : forall p s x s', ush_node_set_current_dir p s = Ok (x, s') -> lg s' = lg s.
Proof. unfold ush_node_set_current_dir. intros. oks2; reflexivity. Qed.
Lemma mount_lg : forall p i f s x s', ush_node_mount p i f s = Ok (x, s') -> lg s' = lg s.
Proof. unfold ush_node_mount. intros. oks2; reflexivity. Qed.
Lemma unmount_lg : forall p s x s', ush_node_unmount p s = Ok (x, s') -> lg s' = lg s.
Proof. unfold ush_node_unmount. intros. oks2; reflexivity. Qed.
Lemma cadd_lg : forall i f s x s', ush_commands_add i f s = Ok (x, s') -> lg s' = lg s.
Proof. unfold ush_commands_add. intros. oks2; reflexivity. Qed.
Lemma crem_lg : forall i s x s', ush_commands_remove i s = Ok (x, s') -> lg s' = lg s.
Proof. unfold ush_commands_remove. intros. oks2; reflexivity. Qed.
Lemma wp_lg : forall p n s s', ush_write_pointer p n s = Ok s' -> lg s' = lg s.
Proof. unfold ush_write_pointer. intros. oks2; reflexivity. Qed.
Lemma printf_lg : forall x s s', ush_printf x s = Ok s' -> lg s' = lg s.
Proof.
  unfold ush_printf. intros x s s' H.
  ok1. assert (L : lg a = lg s). { destruct (o_wbuf s) as [[]|]; oks; try reflexivity; apply wp_lg in E; exact E. }
  rewrite <- L. clear E L. oks2; reflexivity.
Qed.

Lemma do_action_lg : forall args a s s', do_action args a s = Ok s' -> lg s' = lg s.
Proof.
  intros args a s s' H. destruct a; cbn [do_action] in H;
    try (eapply wp_lg; exact H); try (oks; reflexivity).
  - destruct (nth_error args i); [eapply wp_lg; exact H|]. destruct (i =? length args); discriminate.
  - eapply printf_lg; eauto.
  - oks. eapply set_current_dir_lg; eauto.
  - oks. eapply mount_lg; eauto.
  - oks. eapply unmount_lg; eauto.
  - oks. eapply cadd_lg; eauto.
  - oks. eapply crem_lg; eauto.
Qed.

Lemma do_actions_lg : forall args l s s', do_actions args l s = Ok s' -> lg s' = lg s.
Proof.
  induction l as [|a l IH]; intros s s' H; cbn [do_actions] in H; oks; auto.
  apply do_action_lg in E. apply IH in H. congruence.
Qed.

Lemma call_get_inv : forall e cb g s a s', call_get e cb g s = Ok (a, s') ->
  a = e_get e cb (f_name g) /\ do_actions [] (g_calls (e_get e cb (f_name g))) (emit (EvGet cb (f_name g)) s) = Ok s'.
Proof. unfold call_get. intros e cb g s a s' H. ok1. injection H as <- <-. auto. Qed.
Lemma call_get_lg : forall e cb g s a s', call_get e cb g s = Ok (a, s') -> lg s' = lg s ++ [EvGet cb (f_name g)].
Proof. intros e cb g s a s' H. apply call_get_inv in H as (_ & H). apply do_actions_lg in H. exact H. Qed.

Lemma print_out_lg : forall t n s s', print_out t n s = Ok s' -> lg s' = lg s.
Proof. unfold print_out. intros. oks. apply wp_lg in H. exact H. Qed.

Ltac lgs :=
  repeat match goal with
  | H : ush_write_pointer _ _ _ = Ok _ |- _ => apply wp_lg in H
  | H : print_out _ _ _ = Ok _ |- _ => apply print_out_lg in H
  | H : ush_print _ _ = Ok _ |- _ => apply wp_lg in H
  | H : ush_print_no_newline _ _ = Ok _ |- _ => apply wp_lg in H
  | H : do_actions _ _ _ = Ok _ |- _ => apply do_actions_lg in H
  | H : ush_node_set_current_dir _ _ = Ok _ |- _ => apply set_current_dir_lg in H
  end.

Lemma call_exec_log : forall e cb f args argv s s',
  call_exec e cb f args argv s = Ok s' ->
  exists evs, lg s' = lg s ++ EvExec cb (Some (f_name f)) argv :: evs /\ Forall ev_noexec evs.
Proof.
  intros e cb f args argv s s' H. unfold call_exec in H.
  set (s0 := emit (EvExec cb (Some (f_name f)) argv) s) in *.
  assert (G : logs ev_noexec s0 s').
  { destruct cb.
    - unfold help_callback in H. oks2; lgs; apply logs_refl; auto.
    - unfold ls_callback in H. oks2; lgs; apply logs_refl; auto.
    - unfold cd_callback in H. oks2; lgs; apply logs_refl; auto.
    - unfold pwd_callback in H. oks2; lgs; apply logs_refl; auto.
    - unfold cat_callback in H. oks2; lgs; apply logs_refl; auto.
    - unfold xxd_callback in H. oks2; lgs; try (apply logs_refl; auto; fail);
        match goal with C : call_get _ _ _ _ = Ok (?a, _) |- _ =>
          eapply logs_one; [apply call_get_lg in C; cbn [ush_process_start lg]; destruct (g_ptr a); exact C|exact I] end.
    - unfold echo_callback in H. oks2; lgs; try (apply logs_refl; auto; fail).
      eapply logs_one; [exact H|exact I].
    - lgs. apply logs_refl; auto. }
  destruct G as (evs & G & F). exists evs. split; auto. rewrite G. unfold s0, emit. cbn [lg].
  unfold set_lg; cbn [lg]. rewrite <- app_assoc. reflexivity.
Qed.

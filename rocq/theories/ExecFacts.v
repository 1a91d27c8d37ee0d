(** * ExecFacts: executions follow end-of-line bytes (C04). *)
From Verif Require Import Shell BaseFacts LogFacts Sched ServiceFacts SchedFacts Macro EditFacts PromptFacts PhaseFacts History.

Definition credit (p : event -> bool) (l : list event) : Prop :=
  exists a1 c m, l = a1 ++ EvIn c :: m /\ is_eol c = true /\ Forall (in_between p) m.

(** The two kinds of exec callbacks: of files, and the application-wide hook. *)
Definition counted (p : event -> bool) : Prop := p = file_exec \/ p = hook_exec.

Lemma noexec_between : forall p e, counted p -> ev_noexec e -> in_between p e.
Proof. intros p [| |? [|]| | |] [->| ->]; cbn; intros; try contradiction; split; auto. Qed.

Lemma noexecs_between : forall p l, counted p -> Forall ev_noexec l -> Forall (in_between p) l.
Proof. intros p l Hp F. eapply Forall_impl; [|exact F]. intros e. apply noexec_between; auto. Qed.

(** At most one of the calls for a line is of the given kind. *)
Lemma finish_split : forall p d evs, counted p -> finish_log d evs ->
  Forall (in_between p) evs \/
  exists a x b, evs = a ++ x :: b /\ Forall (in_between p) a /\ Forall (in_between p) b.
Proof.
  intros p d evs Hp [->|(argv & fs & r & _ & -> & F & Fr)]; [left; constructor|].
  apply (noexecs_between p) in Fr; auto. unfold hook_events.
  destruct (d_exec d) as [h|]; destruct F as [->|(cb & f & ->)]; cbn [app].
  - right. exists [], (EvExec (XUser h) None argv), r. repeat split; auto.
  - right. destruct Hp as [->| ->].
    + exists [EvExec (XUser h) None argv], (EvExec cb (Some f) argv), r. repeat split; auto. repeat constructor.
    + exists [], (EvExec (XUser h) None argv), (EvExec cb (Some f) argv :: r). repeat split; auto. constructor; auto. repeat constructor.
  - left. exact Fr.
  - right. exists [], (EvExec cb (Some f) argv), r. repeat split; auto.
Qed.

Lemma credit_app : forall p l m, credit p l -> Forall (in_between p) m -> credit p (l ++ m).
Proof.
  intros p l m (a & c & m0 & -> & E & F) G. exists a, c, (m0 ++ m). rewrite <- app_assoc. cbn [app].
  split; auto. split; auto. apply Forall_app; auto.
Qed.

(** Appending one event. *)
Lemma opl_snoc : forall p l x, one_per_line p l -> (p x = true -> credit p l) -> one_per_line p (l ++ [x]).
Proof.
  intros p l x O C a y b E X. destruct b as [|z b] using rev_ind.
  - apply app_inj_tail in E as (<- & <-). apply C. exact X.
  - clear IHb. rewrite app_comm_cons, app_assoc in E. apply app_inj_tail in E as (-> & _). eapply O; eauto.
Qed.

Lemma opl_between : forall p m l, one_per_line p l -> Forall (in_between p) m -> one_per_line p (l ++ m).
Proof.
  intros p. induction m as [|x m IH]; intros l O F; [rewrite app_nil_r; auto|].
  inversion F as [|? ? Fx Fm]; subst. replace (l ++ x :: m) with ((l ++ [x]) ++ m) by (rewrite <- app_assoc; reflexivity).
  apply IH; auto. apply opl_snoc; auto. destruct Fx as (Fx & _). congruence.
Qed.

Lemma opl_exec : forall p l a x b, one_per_line p l -> credit p l -> Forall (in_between p) a -> Forall (in_between p) b ->
  one_per_line p (l ++ a ++ x :: b).
Proof.
  intros p l a x b O C Fa Fb. replace (l ++ a ++ x :: b) with (((l ++ a) ++ [x]) ++ b) by (rewrite <- !app_assoc; reflexivity).
  apply opl_between; auto. apply opl_snoc; [apply opl_between; auto|]. intros _. apply credit_app; auto.
Qed.

Definition exec_inv (p : event -> bool) (s : st) : Prop :=
  one_per_line p (lg s) /\ parse_phase (o_pnext s) = false /\ (away s \/ credit p (lg s)).

Lemma inv_between : forall p s s', counted p -> exec_inv p s -> logs ev_noexec s s' -> o_pnext s' = o_pnext s ->
  (away s -> away s') -> exec_inv p s'.
Proof.
  intros p s s' Hp (O & P & D) (m & L & F) E K. apply (noexecs_between p) in F; auto. split; [|split].
  - rewrite L. apply opl_between; auto.
  - congruence.
  - destruct D as [D|D]; [left; auto|right]. rewrite L. apply credit_app; auto.
Qed.

Lemma api_inv : forall p args a s s', counted p -> fair_action a -> exec_inv p s -> do_action args a s = Ok s' -> exec_inv p s'.
Proof.
  intros p args a s s' Hp F I H. pose proof (do_action_lg _ _ _ _ H) as L. apply action_keepsp in H as (K1 & K2); auto.
  eapply inv_between; eauto. apply logs_refl; auto.
Qed.

Lemma read_pnext : forall i s b s', polling s -> ush_read_char i s = Ok (b, s') ->
  o_pnext s' = o_pnext s /\ (away s' \/ exists c, io_rd i = Some c /\ is_eol c = true).
Proof.
  intros i s b s' St H.
  unfold ush_read_char in H. destruct (io_rd i) as [c|]; [|oks; split; auto; left; apply away_state; rewrite St; reflexivity || discriminate].
  assert (Ss : o_state (emit (EvIn c) s) = S_READ_CHAR /\ o_pnext (emit (EvIn c) s) = o_pnext s) by auto.
  remember (emit (EvIn c) s) as s0 eqn:Es. clear Es. destruct Ss as (Ss & Ps). rewrite <- Ps.
  ok1. destruct a as [echo s1]. ok1. injection H as <- <-.
  assert (L : (o_state s1 = S_READ_CHAR \/ echo = false /\ away s1) /\ o_pnext s1 = o_pnext s0).
  { clear E0. unfold ush_read_char_by_escape_state in E. repeat ok2; auto.
    - split; auto. right. split; auto. np_.
    - destruct (cfg_autocomp _); split; auto. right. split; auto. np_. }
  destruct L as (L & Lp). rewrite <- Lp. destruct echo.
  - unfold ush_read_echo_service in E0. oks. fold (is_eol c) in E0. destruct (is_eol c) eqn:EC.
    + apply wp_shape in E0 as (k & ->). split; [reflexivity|]. right. eauto.
    + apply away_wp in E0 as (X & Y); auto.
  - oks. split; auto. left. destruct L as [L|[_ L]]; auto. apply away_state; rewrite L; reflexivity || discriminate.
Qed.

Lemma standard_pnext : forall ch s s', ush_parse_char_standard ch s = Ok s' -> o_pnext s' = o_pnext s.
Proof. intros ch s s' H. unfold ush_parse_char_standard, out_escaped, out_char in H. oks2; reflexivity. Qed.

Lemma service_inv : forall p i s b s', counted p -> fair (io_env i) -> exec_inv p s -> ush_service i s = Ok (b, s') -> exec_inv p s'.
Proof.
  intros p i s b s' Hp F I H.
  destruct (polling_dec s) as [P|P].
  { pose proof (service_poll _ _ _ _ H P) as L. rewrite service_eq in H. destruct (o_cur s); [|discriminate].
    unfold svc in H. rewrite P in H. apply read_pnext in H as (R1 & R2); auto. destruct I as (O & Pn & D).
    destruct (io_rd i) as [c|].
    - destruct L as (_ & L). split; [|split].
      + rewrite L. apply opl_snoc; auto. destruct Hp as [->| ->]; discriminate.
      + congruence.
      + destruct R2 as [R2|(c' & E' & R2)]; [left; auto|right]. injection E' as <-. rewrite L.
        exists (lg s), c, []. auto.
    - destruct L as (_ & ->). split; auto. }
  assert (D : parsing s \/ ~ parsing s) by (unfold parsing; destruct (o_state s); tauto).
  destruct D as [Pa|Pa].
  { destruct I as (O & Pn & [(A & _)|C]).
    { unfold parsing in Pa. destruct (o_state s); try contradiction; discriminate. }
    pose proof (parsing_log _ _ _ _ H Pa) as (evs & L & D). apply (finish_split p) in D; auto.
    assert (G : o_pnext s' = o_pnext s /\ ((exists a x b, evs = a ++ x :: b) -> away s')).
    { rewrite service_eq in H. destruct (o_cur s); [|discriminate].
      assert (G : ush_parse_char (io_env i) s = Ok s').
      { unfold svc, parsing, ush_parse_service in *. destruct (o_state s) eqn:E; try (exfalso; tauto); oks; auto. }
      clear H. unfold ush_parse_char in G. ok1. destruct (ceq a LF || ceq a CR).
      - ok1. apply parse_finish_keepsp in G as (K1 & K2); auto. unfold out_char in E0. oks. split; [exact K1|].
        intros _. apply K2. np_.
      - pose proof (parse_standard_lg _ _ _ G) as L'. apply standard_pnext in G. split; [exact G|].
        intros (a' & x & b' & ->). rewrite L in L'. exfalso. apply (f_equal (@length _)) in L'.
        rewrite !app_length in L'. cbn [length] in L'. change (lg (set_inpos (S (o_inpos s)) s)) with (lg s) in L'. lia. }
    destruct G as (G1 & G2). split; [|split; [congruence|]].
    - rewrite L. destruct D as [D|(a & x & b' & -> & Fa & Fb)].
      + apply opl_between; auto using noexecs_between.
      + apply opl_exec; auto using noexecs_between.
    - destruct D as [D|(a & x & b' & -> & Fa & Fb)].
      + right. rewrite L. apply credit_app; auto using noexecs_between.
      + left. apply G2. eauto 10. }
  pose proof (service_log _ _ _ _ H P Pa) as L.
  rewrite service_eq in H. destruct (o_cur s) as [cu|] eqn:C; [|discriminate].
  unfold svc in H.
  assert (T : o_pnext s' = o_pnext s -> (away s -> away s') -> exec_inv p s') by (intros; eapply inv_between; eauto).
  assert (K : keepsp s s' -> exec_inv p s') by (intros (K1 & K2); auto).
  assert (U : forall x, s' = x -> away x -> parse_phase (o_pnext x) = false -> exec_inv p s').
  { intros x -> A B. destruct I as (O & _ & _). split; [|split; auto]. destruct L as (m & L & Fm). rewrite L.
    apply opl_between; auto using noexecs_between. }
  destruct (o_state s) eqn:St; try (unfold parsing in Pa; rewrite St in Pa; tauto); try contradiction.
  1-2: unfold ush_reset_service in H; rewrite St in H; oks; eapply U; [reflexivity|np_|sfields; auto; apply I].
  1-4: unfold ush_prompt_service in H; rewrite St in H; oks; apply K; kp.
  - unfold ush_prompt_service in H; rewrite St in H; oks. eapply U; [reflexivity| |apply I].
    apply away_write; [reflexivity|apply I].
  - unfold ush_read_start in H. oks. apply K. kp.
  - unfold ush_parse_service in H. rewrite St in H. oks. destruct I as (O & Pn & [(A & _)|Cr]).
    + rewrite St in A. discriminate.
    + split; [exact O|]. split; [exact Pn|]. right. exact Cr.
  - unfold ush_write_char in H. ok1. injection H as <- <-. destruct (Nat.leb_spec (o_wsize s) (o_wpos s)) as [Hle|Hlt].
    + injection E as <-. apply T; [reflexivity|]. intros (A1 & A2). specialize (A2 St). split; [exact A2|].
      intros X. change (parse_phase (o_wnext s) = false). exact A2.
    + ok1. destruct (io_wr i); injection E as <-; apply T; auto.
  - apply K. eapply process_keepsp; eauto.
  - apply K. eapply process_keepsp; eauto.
  - apply K. eapply process_keepsp; eauto.
  - destruct (cfg_autocomp _); [|injection H as <- <-; exact I].
    destruct (autocomp_away s b s') as (G1 & G2); auto; [apply I|rewrite St; exact Logic.I|eapply U; eauto].
  - destruct (cfg_autocomp _); [|injection H as <- <-; exact I].
    destruct (autocomp_away s b s') as (G1 & G2); auto; [apply I|rewrite St; exact Logic.I|eapply U; eauto].
  - destruct (cfg_autocomp _); [|injection H as <- <-; exact I].
    destruct (autocomp_away s b s') as (G1 & G2); auto; [apply I|rewrite St; exact Logic.I|eapply U; eauto].
  - destruct (cfg_autocomp _); [|injection H as <- <-; exact I].
    destruct (autocomp_away s b s') as (G1 & G2); auto; [apply I|rewrite St; exact Logic.I|eapply U; eauto].
  - destruct (cfg_autocomp _); [|injection H as <- <-; exact I].
    destruct (autocomp_away s b s') as (G1 & G2); auto; [apply I|rewrite St; exact Logic.I|eapply U; eauto].
  - destruct (cfg_autocomp _); [|injection H as <- <-; exact I].
    destruct (autocomp_away s b s') as (G1 & G2); auto; [apply I|rewrite St; exact Logic.I|eapply U; eauto].
  - destruct (cfg_autocomp _); [|injection H as <- <-; exact I].
    destruct (autocomp_away s b s') as (G1 & G2); auto; [apply I|rewrite St; exact Logic.I|eapply U; eauto].
  - destruct (cfg_autocomp _); [|injection H as <- <-; exact I].
    destruct (autocomp_away s b s') as (G1 & G2); auto; [apply I|rewrite St; exact Logic.I|eapply U; eauto].
  - destruct (cfg_autocomp _); [|injection H as <- <-; exact I].
    destruct (autocomp_away s b s') as (G1 & G2); auto; [apply I|rewrite St; exact Logic.I|eapply U; eauto].
  - destruct (cfg_autocomp _); [|injection H as <- <-; exact I].
    destruct (autocomp_away s b s') as (G1 & G2); auto; [apply I|rewrite St; exact Logic.I|eapply U; eauto].
Qed.

(** Operations whose callbacks are fair. *)
Lemma run_inv : forall p l s s', counted p ->
  Forall (fun o => match o with OpService i => fair (io_env i) | OpApi a => fair_action a end) l ->
  exec_inv p s -> run l s = Ok s' -> exec_inv p s'.
Proof.
  intros p. induction l as [|o l IH]; intros s s' Hp F I H; cbn [run] in H.
  - injection H as <-. exact I.
  - inversion F as [|? ? Fo Fl]; subst. ok1. eapply IH; [auto|auto| |exact H]. destruct o as [i|a0]; cbn [step] in E.
    + ok1. destruct a0 as [b s1]. injection E as <-. eapply service_inv; eauto.
    + eapply api_inv; eauto.
Qed.

(** Counting. *)
Lemma opl_count : forall p l, counted p -> one_per_line p l -> count p l <= lines_read l.
Proof.
  intros p l0 Hp. revert l0. assert (Pi : forall c, p (EvIn c) = false) by (intros; destruct Hp as [->| ->]; reflexivity).
  assert (G : forall n l, length l <= n -> one_per_line p l -> count p l <= lines_read l).
  { induction n as [|n IH]; intros l Ln O.
    { destruct l; [unfold count; cbn; lia|cbn in Ln; lia]. }
    destruct l as [|x l] using rev_ind; [unfold count; cbn; lia|]. clear IHl.
    rewrite app_length in Ln. cbn [length] in Ln.
    assert (Ol : forall a b, l = a ++ b -> one_per_line p a).
    { intros a b -> a1 y b1 -> X. apply (O a1 y (b1 ++ b ++ [x])); auto. rewrite <- !app_assoc. reflexivity. }
    unfold count, lines_read in *. rewrite filter_app, ins_app, filter_app, !app_length.
    destruct (p x) eqn:X.
    - destruct (O l x [] eq_refl X) as (a & c & m & -> & Ec & Fm).
      assert (Za : filter p m = []).
      { clear - Fm. induction Fm as [|y m (F1 & F2) Fm IHm]; [reflexivity|]. cbn [filter]. rewrite F1. exact IHm. }
      rewrite filter_app, ins_app, filter_app, !app_length. cbn [filter]. rewrite Pi, Za, X.
      change (EvIn c :: m) with ([EvIn c] ++ m). rewrite ins_app, filter_app, app_length.
      cbn [ins flat_map app filter length]. rewrite Ec. cbn [length].
      specialize (IH a). rewrite app_length in Ln. specialize (IH ltac:(lia) (Ol a (EvIn c :: m) eq_refl)). lia.
    - cbn [filter]. rewrite X. cbn [length]. specialize (IH l ltac:(lia) (Ol l [] (eq_sym (app_nil_r l)))). lia. }
  intros l O. apply (G (length l)); auto.
Qed.

(** ** The hook *)
Lemma action_desc : forall args a s s', do_action args a s = Ok s' -> o_desc s' = o_desc s.
Proof.
  assert (W : forall p n s s', ush_write_pointer p n s = Ok s' -> o_desc s' = o_desc s) by (unfold ush_write_pointer; intros; oks2; reflexivity).
  intros args a s s' H. destruct a; cbn [do_action] in H;
    try (eapply W; exact H); try (oks; reflexivity).
  - destruct (nth_error args i); [eapply W; exact H|]. destruct (i =? length args); discriminate.
  - unfold ush_printf in H.
    ok1. assert (L : o_desc a = o_desc s). { destruct (o_wbuf s) as [[]|]; oks; try reflexivity; apply W in E; exact E. }
    rewrite <- L. clear E L. oks2; reflexivity.
  - unfold ush_node_set_current_dir in H. oks2; reflexivity.
  - unfold ush_node_mount in H. oks2; reflexivity.
  - unfold ush_node_unmount in H. oks2; reflexivity.
  - unfold ush_commands_add in H. oks2; reflexivity.
  - unfold ush_commands_remove in H. oks2; reflexivity.
Qed.

Lemma wp_desc : forall p n s s', ush_write_pointer p n s = Ok s' -> o_desc s' = o_desc s.
Proof. unfold ush_write_pointer; intros; oks2; reflexivity. Qed.

Lemma print_out_desc : forall t n s s', print_out t n s = Ok s' -> o_desc s' = o_desc s.
Proof. unfold print_out. intros. oks. apply wp_desc in H. exact H. Qed.

Lemma actions_desc : forall args l s s', do_actions args l s = Ok s' -> o_desc s' = o_desc s.
Proof.
  induction l as [|a l IH]; intros s s' H; cbn [do_actions] in H; oks; auto.
  apply action_desc in E. apply IH in H. congruence.
Qed.

Ltac dscs :=
  repeat match goal with
  | H : ush_write_pointer _ _ _ = Ok _ |- _ => apply wp_desc in H
  | H : print_out _ _ _ = Ok _ |- _ => apply print_out_desc in H
  | H : ush_print _ _ = Ok _ |- _ => apply wp_desc in H
  | H : ush_print_no_newline _ _ = Ok _ |- _ => apply wp_desc in H
  | H : do_actions _ _ _ = Ok _ |- _ => apply actions_desc in H
  | H : call_get _ _ _ _ = Ok (_, _) |- _ => apply call_get_inv in H as (_ & H)
  end.

Lemma call_exec_desc : forall e cb f args argv s s', call_exec e cb f args argv s = Ok s' -> o_desc s' = o_desc s.
Proof.
  intros e cb f args argv s s' H. unfold call_exec in H. destruct cb.
  - unfold help_callback in H. oks2; dscs; auto.
  - unfold ls_callback in H. oks2; dscs; auto.
  - unfold cd_callback, ush_node_set_current_dir in H. oks2; dscs; auto.
  - unfold pwd_callback in H. oks2; dscs; auto.
  - unfold cat_callback in H. oks2; dscs; auto.
  - unfold xxd_callback in H. oks2; dscs; auto; try (destruct (g_ptr _); auto).
  - unfold echo_callback in H. oks2; dscs; auto.
  - dscs. auto.
Qed.

Lemma autocomp_desc : forall s b s', ush_autocomp_service s = Ok (b, s') -> o_desc s' = o_desc s.
Proof.
  intros s b s' H. unfold ush_autocomp_service in H.
  assert (P : forall s s', ush_autocomp_state_candidates_process s = Ok s' -> o_desc s' = o_desc s).
  { clear. intros s s' H. unfold ush_autocomp_state_candidates_process in H.
    destruct (o_pnode s).
    - unfold ush_autocomp_check_for_next in H.
      ok1. destruct a as [nx s1].
      assert (L1 : o_desc s1 = o_desc s) by (oks2; reflexivity). rewrite <- L1. clear E L1.
      destruct nx; oks; auto. destruct a as [[sk f] s2].
      assert (L2 : o_desc s2 = o_desc s1) by (unfold ush_autocomp_process_file_prepare in E; oks2; reflexivity).
      rewrite <- L2. clear E L2. destruct sk; oks; auto.
      unfold ush_autocomp_process_file_index in H.
      oks2; try reflexivity; match goal with |- context [fsm_eqb ?a ?b] => destruct (fsm_eqb a b) end;
        oks; reflexivity.
    - unfold ush_autocomp_check_for_finish in H. oks2; reflexivity. }
  assert (O : forall s s', ush_autocomp_optimize_continue s = Ok s' -> o_desc s' = o_desc s).
  { clear. intros s s' H. unfold ush_autocomp_optimize_continue in H. oks2; reflexivity. }
  assert (F : forall s s', ush_autocomp_state_candidates_finish s = Ok s' -> o_desc s' = o_desc s).
  { clear P H. intros s0 s0' H0. unfold ush_autocomp_state_candidates_finish in H0.
    oks2; try reflexivity; try (apply O in H0; exact H0). apply wp_desc in H0; exact H0. }
  assert (R : forall s s', ush_autocomp_state_recall_suffix s = Ok s' -> o_desc s' = o_desc s).
  { clear. intros s s' H. unfold ush_autocomp_state_recall_suffix in H. oks2; try reflexivity.
    apply wp_desc in H; exact H. }
  destruct (o_state s); oks; try reflexivity;
    try (apply P in E; exact E); try (apply F in E; exact E); try (apply R in E; exact E);
    try (apply wp_desc in E; exact E).
  unfold ush_autocomp_state_prepare in E. oks; reflexivity.
Qed.

Lemma proc_desc : forall i s b s', ush_process_service i s = Ok (b, s') -> o_desc s' = o_desc s.
Proof.
  intros i s b s' H. unfold ush_process_service in H.
  assert (G : forall f p, f_proc f = Some p -> forall s', 
     match p with
     | PHelp => help_service s | PLs => ls_service s
     | PCat => cat_service (io_env i) s | PXxd => xxd_service s
     | PUser n => do_actions [] (e_proc (io_env i) n (f_name f)) (emit (EvProc n (f_name f)) s)
     end = Ok s' -> o_desc s' = o_desc s).
  { clear. intros f p _ s' H. destruct p.
    - unfold help_service in H. oks2; dscs; auto.
    - unfold ls_service in H. oks2; dscs; auto.
    - unfold cat_service in H. oks2; dscs; auto.
    - unfold xxd_service in H. oks2; dscs; auto.
    - dscs. auto. }
  destruct (o_state s); try (oks; reflexivity);
  destruct (o_pfile s) as [f|]; try discriminate H;
  destruct (f_proc f) as [p|] eqn:Ep; oks; try reflexivity;
  eapply G; eauto.
Qed.

Lemma parse_char_desc : forall e s s', ush_parse_char e s = Ok s' -> o_desc s' = o_desc s.
Proof.
  intros e s s' G. unfold ush_parse_char in G. ok1. destruct (ceq a LF || ceq a CR).
  - ok1. assert (D : o_desc a0 = o_desc s) by (unfold out_char in E0; oks; reflexivity). rewrite <- D. clear E E0 D.
    unfold ush_parse_finish in G. ok1. ok1. destruct a2 as [|name rest]; [oks; reflexivity|].
    ok1. assert (D : o_desc a2 = o_desc a0). { destruct (d_exec (o_desc (set_state S_RESET_PROMPT a0))); [dscs; exact E1|injection E1 as <-; reflexivity]. } rewrite <- D. clear E1 D.
    ok1. destruct a3 as [f|]; [destruct (f_exec f)|]; try (oks; reflexivity). eapply call_exec_desc; eauto.
  - unfold ush_parse_char_standard, out_escaped, out_char in G. oks2; reflexivity.
Qed.

Lemma service_desc : forall i s b s', ush_service i s = Ok (b, s') -> o_desc s' = o_desc s.
Proof.
  intros i s b s' H. rewrite service_eq in H. destruct (o_cur s); [|discriminate].
  unfold svc in *.
  destruct (o_state s) eqn:E;
    try (destruct (cfg_autocomp _); [apply autocomp_desc in H; exact H|oks; reflexivity]);
    try (eapply proc_desc; exact H).
  1-2: unfold ush_reset_service in H; rewrite E in H; oks; reflexivity.
  1-5: unfold ush_prompt_service in H; rewrite E in H; oks; dscs; auto.
  - unfold ush_read_start in H. oks. reflexivity.
  - clear E. unfold ush_read_char in H. destruct (io_rd i) as [ch|]; [|oks; auto].
    change (o_desc s) with (o_desc (emit (EvIn ch) s)). remember (emit (EvIn ch) s) as s0 eqn:Es. clear Es.
    ok1. destruct a as [echo s1]. ok1. injection H as <- <-.
    assert (L1 : o_desc s1 = o_desc s0).
    { clear E0. unfold ush_read_char_by_escape_state in E.
      repeat ok2; try reflexivity; destruct (cfg_autocomp _); reflexivity. }
    rewrite <- L1. destruct echo; [|oks; reflexivity].
    unfold ush_read_echo_service in E0. oks. apply wp_desc in E0. exact E0.
  - unfold ush_parse_service in H. rewrite E in H. oks. reflexivity.
  - unfold ush_parse_service in H. rewrite E in H. oks. eapply parse_char_desc; eauto.
  - unfold ush_parse_service in H. rewrite E in H. oks. eapply parse_char_desc; eauto.
  - unfold ush_parse_service in H. rewrite E in H. oks. eapply parse_char_desc; eauto.
  - unfold ush_write_char in H. oks2; reflexivity.
Qed.

(** Appending one event. *)
Lemma hooked_snoc : forall d l x, hooked d l ->
  match x with
  | EvExec cb None ws => ws <> [] /\ [EvExec cb None ws] = hook_events d ws
  | EvExec cb (Some _) ws => ws <> [] /\ exists a1, l = a1 ++ hook_events d ws
  | _ => True
  end -> hooked d (l ++ [x]).
Proof.
  intros d l x H Hx a cb who ws b E. destruct b as [|z b _] using rev_ind.
  - apply app_inj_tail in E as (<- & ->). destruct who; exact Hx.
  - rewrite app_comm_cons, app_assoc in E. apply app_inj_tail in E as (-> & _). eapply H; eauto.
Qed.

Lemma hooked_noexec : forall d m l, hooked d l -> Forall ev_noexec m -> hooked d (l ++ m).
Proof.
  intros d. induction m as [|x m IH]; intros l H F; [rewrite app_nil_r; exact H|].
  inversion F as [|? ? Fx Fm]; subst. change (x :: m) with ([x] ++ m). rewrite app_assoc. apply IH; auto.
  apply hooked_snoc; auto. destruct x; auto. contradiction.
Qed.

Lemma hooked_finish : forall d l evs, hooked d l -> finish_log d evs -> hooked d (l ++ evs).
Proof.
  intros d l evs H [->|(ws & fs & r & N & -> & F & Fr)]; [rewrite app_nil_r; exact H|].
  rewrite !app_assoc. apply hooked_noexec; auto.
  assert (H1 : hooked d (l ++ hook_events d ws)).
  { unfold hook_events. destruct (d_exec d) as [h|] eqn:X; [|rewrite app_nil_r; exact H].
    apply hooked_snoc; auto. split; auto. unfold hook_events. rewrite X. reflexivity. }
  destruct F as [->|(cb & f & ->)]; [rewrite app_nil_r; exact H1|]. apply hooked_snoc; auto. split; eauto.
Qed.

Lemma run_hooked : forall l s s', hooked (o_desc s) (lg s) -> run l s = Ok s' -> hooked (o_desc s') (lg s') /\ o_desc s' = o_desc s.
Proof.
  induction l as [|o l IH]; intros s s' H R; cbn [run] in R.
  - injection R as <-. auto.
  - ok1. assert (G : hooked (o_desc a) (lg a) /\ o_desc a = o_desc s).
    { clear R. destruct o as [i|a0]; cbn [step] in E.
      - ok1. destruct a0 as [b s1]. injection E as <-. pose proof (service_desc _ _ _ _ E0) as D. split; [|exact D]. rewrite D.
        destruct (polling_dec s) as [P|P].
        { pose proof (service_poll _ _ _ _ E0 P) as L. destruct (io_rd i) as [c|]; destruct L as (_ & L); [|rewrite L; exact H].
          rewrite L. apply hooked_snoc; auto. }
        assert (Pd : parsing s \/ ~ parsing s) by (unfold parsing; destruct (o_state s); tauto).
        destruct Pd as [Pa|Pa].
        + destruct (parsing_log _ _ _ _ E0 Pa) as (evs & L & F). rewrite L. apply hooked_finish; auto.
        + destruct (service_log _ _ _ _ E0 P Pa) as (evs & L & F). rewrite L. apply hooked_noexec; auto.
      - pose proof (action_desc _ _ _ _ E) as D. rewrite (do_action_lg _ _ _ _ E), D. auto. }
    destruct G as (G1 & G2). destruct (IH _ _ G1 R) as (I1 & I2). split; [exact I1|congruence].
Qed.

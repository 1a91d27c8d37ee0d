(** * PromptFacts: the invariant behind C09. *)
From Verif Require Import Shell BaseFacts LogFacts Sched ServiceFacts SchedFacts Macro EditFacts.

(** Part of the prompt already printed in each prompt state. *)
Definition stage (d : desc) (p : bytes) (x : fsm) : option bytes :=
  let c := d_cfg d in
  match x with
  | S_PROMPT_HOST => Some (sty_magenta c ++ lit "[")
  | S_PROMPT_SPACE => Some ((sty_magenta c ++ lit "[") ++ d_host d)
  | S_PROMPT_PATH => Some (((sty_magenta c ++ lit "[") ++ d_host d) ++ lit " ")
  | S_PROMPT_SUFFIX => Some ((((sty_magenta c ++ lit "[") ++ d_host d) ++ lit " ") ++ ush_utils_path_last p)
  | S_READ_PREPARE | S_AC_RECALL => Some (prompt d p)
  | _ => None
  end.

Definition staged (x : fsm) : bool :=
  match x with
  | S_PROMPT_HOST | S_PROMPT_SPACE | S_PROMPT_PATH | S_PROMPT_SUFFIX | S_READ_PREPARE | S_AC_RECALL => true
  | _ => false
  end.
Definition mid (x : fsm) : bool :=
  match x with
  | S_PROMPT_HOST | S_PROMPT_SPACE | S_PROMPT_PATH | S_PROMPT_SUFFIX | S_WRITE_CHAR => true
  | _ => false
  end.

(** The state is not inside a prompt. *)
Definition neutral (s : st) : Prop :=
  staged (o_state s) = false /\ (o_state s = S_WRITE_CHAR -> staged (o_wnext s) = false).

Definition prompt_inv (s : st) : Prop :=
  mid (o_pnext s) = false /\
  forall p, cwd_is s p ->
  (o_state s = S_WRITE_CHAR -> forall t, stage (o_desc s) p (o_wnext s) = Some t ->
     exists L u w, t = u ++ w /\ o_wbuf s = Some (WStr w) /\ o_wsize s = length w /\ o_wpos s <= length w /\
       outs (lg s) = L ++ u ++ firstn (o_wpos s) w) /\
  (forall t, stage (o_desc s) p (o_state s) = Some t -> exists L, outs (lg s) = L ++ t).

Lemma stage_none : forall d p x, staged x = false -> stage d p x = None.
Proof. destruct x; auto; discriminate. Qed.

Lemma neutral_inv : forall s, mid (o_pnext s) = false -> neutral s -> prompt_inv s.
Proof.
  intros s M (N1 & N2). split; auto. intros p _. split.
  - intros E t H. rewrite stage_none in H by auto. discriminate.
  - intros t H. rewrite stage_none in H by auto. discriminate.
Qed.

(** ** Actions *)
Definition keepsn (s s' : st) : Prop := o_pnext s' = o_pnext s /\ (neutral s -> neutral s').

Lemma keepsn_refl : forall s, keepsn s s.
Proof. split; auto. Qed.
Lemma keepsn_trans : forall a b c, keepsn a b -> keepsn b c -> keepsn a c.
Proof. intros a b c (A1 & A2) (B1 & B2). split; [congruence|auto]. Qed.
Lemma keepsn_same : forall s s', o_pnext s' = o_pnext s -> o_state s' = o_state s -> o_wnext s' = o_wnext s -> keepsn s s'.
Proof. intros s s' A B C. split; auto. unfold neutral. rewrite B, C. auto. Qed.
Lemma keepsn_write : forall s s', o_pnext s' = o_pnext s -> o_state s' = S_WRITE_CHAR -> staged (o_wnext s') = false -> keepsn s s'.
Proof. intros s s' A B C. split; auto. unfold neutral. rewrite B. auto. Qed.
Lemma keepsn_state : forall s s', o_pnext s' = o_pnext s -> o_state s' <> S_WRITE_CHAR -> staged (o_state s') = false -> keepsn s s'.
Proof. intros s s' A B C. split; auto. unfold neutral. split; auto. congruence. Qed.
Lemma keepsn_wnext : forall s s', o_pnext s' = o_pnext s -> o_state s' = S_WRITE_CHAR -> o_wnext s' = o_state s -> keepsn s s'.
Proof. intros s s' A B C. split; auto. unfold neutral. rewrite B, C. intros (N1 & N2). split; auto. Qed.

Lemma wp_shape : forall p n s s', ush_write_pointer p n s = Ok s' ->
  exists k, s' = ush_write_pointer_bin p k n s.
Proof. unfold ush_write_pointer. intros. oks. eauto. Qed.

Lemma keepsn_wp : forall p n s0 s s', o_pnext s = o_pnext s0 -> ush_write_pointer p n s = Ok s' -> staged n = false -> keepsn s0 s'.
Proof. intros p n s0 s s' A H N. apply wp_shape in H as (k & ->). apply keepsn_write; auto. Qed.
Lemma keepsn_wps : forall p n s0 s s', o_pnext s = o_pnext s0 -> ush_write_pointer p n s = Ok s' -> n = o_state s0 -> keepsn s0 s'.
Proof. intros p n s0 s s' A H N. apply wp_shape in H as (k & ->). apply keepsn_wnext; auto. Qed.

Lemma printf_keepsn : forall x s s', ush_printf x s = Ok s' -> keepsn s s'.
Proof.
  unfold ush_printf. intros x s s' H.
  ok1. assert (A : o_pnext a = o_pnext s /\ o_state a = S_WRITE_CHAR /\ o_wnext a = S_RESET_PROMPT).
  { clear H. destruct (o_wbuf s) as [[]|]; oks; auto; apply wp_shape in E as (k & ->); auto. }
  clear E. destruct A as (A1 & A2 & A3).
  oks2; apply keepsn_write; sfields; auto; rewrite A3; reflexivity.
Qed.

Lemma action_keepsn : forall args a s s', fair_action a -> do_action args a s = Ok s' -> keepsn s s'.
Proof.
  intros args a s s' F H. destruct a; cbn [do_action] in H;
    try (eapply keepsn_wp; [reflexivity|exact H|reflexivity]);
    try (oks; apply keepsn_write; reflexivity).
  - destruct (nth_error args i); [eapply keepsn_wp; [reflexivity|exact H|reflexivity]|].
    destruct (i =? length args); discriminate.
  - eapply printf_keepsn; eauto.
  - oks. apply keepsn_same; reflexivity.
  - unfold ush_node_set_current_dir in H. oks2; apply keepsn_same; reflexivity.
  - unfold ush_node_mount in H. oks2; apply keepsn_same; reflexivity.
  - unfold ush_node_unmount in H. oks2; apply keepsn_same; reflexivity.
  - unfold ush_commands_add in H. oks2; apply keepsn_same; reflexivity.
  - unfold ush_commands_remove in H. oks2; apply keepsn_same; reflexivity.
  - oks. apply keepsn_state; sfields; auto; discriminate.
  - oks. apply keepsn_state; sfields; auto; destruct x; cbn in *; auto; discriminate || contradiction.
Qed.

Lemma actions_keepsn : forall args l s s', Forall fair_action l -> do_actions args l s = Ok s' -> keepsn s s'.
Proof.
  intros args l. induction l as [|a l IH]; intros s s' F H; cbn [do_actions] in H.
  - oks. apply keepsn_refl.
  - inversion F; subst. ok1. eapply keepsn_trans; [eapply action_keepsn; eauto|eauto].
Qed.

Ltac kn := first [ apply keepsn_same; sfields; reflexivity
                 | apply keepsn_write; sfields; reflexivity
                 | apply keepsn_state; sfields; try reflexivity; discriminate ].

Lemma call_get_keepsn : forall e cb g s a s', fair e -> call_get e cb g s = Ok (a, s') -> keepsn s s'.
Proof.
  intros e cb g s a s' (_ & _ & F & _) H. apply call_get_inv in H as (_ & H).
  eapply keepsn_trans; [|eapply actions_keepsn; [|exact H]; apply F]. kn.
Qed.

Lemma call_exec_keepsn : forall e cb f args argv s s', fair e -> call_exec e cb f args argv s = Ok s' -> keepsn s s'.
Proof.
  intros e cb f args argv s s' F H. pose proof F as (F1 & F2 & _ & _). unfold call_exec in H. destruct cb.
  - unfold help_callback in H. oks2; try kn; eapply keepsn_wp; [|exact H|]; reflexivity.
  - unfold ls_callback in H. oks2; kn.
  - unfold cd_callback, ush_node_set_current_dir in H. oks2; kn.
  - unfold pwd_callback in H. oks2; try kn; eapply keepsn_wp; [|exact H|]; reflexivity.
  - unfold cat_callback in H. oks2; kn.
  - unfold xxd_callback in H. oks2; try kn.
    all: match goal with C : call_get _ _ _ _ = Ok (?r, ?t) |- _ => apply call_get_keepsn in C; [|exact F];
      apply keepsn_trans with (b := t); [eapply keepsn_trans; [|exact C]; kn|destruct (g_ptr r); kn] end.
  - unfold echo_callback in H. oks2; try kn.
    + eapply keepsn_wp; [|exact H|]; reflexivity.
    + eapply keepsn_trans; [|eapply actions_keepsn; [|exact H]; apply F2]. kn.
  - eapply keepsn_trans; [|eapply actions_keepsn; [|exact H]; apply F1]. kn.
Qed.

Lemma parse_finish_keepsn : forall e s s', fair e -> ush_parse_finish e s = Ok s' -> keepsn s s'.
Proof.
  intros e s s' F H. unfold ush_parse_finish in H. ok1. ok1. destruct a0 as [|name rest] eqn:Ea; [oks; kn|].
  ok1. eapply keepsn_trans with (b := a1).
  - clear H. destruct (d_exec (o_desc s)); [|oks; kn].
    eapply keepsn_trans; [|eapply actions_keepsn; [|exact E1]; apply F]. kn.
  - clear E1. ok1. destruct a2 as [f|]; [|oks; kn]. destruct (f_exec f) as [cb|]; [|oks; kn].
    eapply call_exec_keepsn; eauto.
Qed.

Lemma parse_neutral : forall i s b s', fair (io_env i) -> match o_state s with S_PARSE_PREPARE | S_PARSE_SEARCH_ARG | S_PARSE_QUOTE_ARG | S_PARSE_STANDARD_ARG => True | _ => False end ->
  ush_parse_service i s = Ok (b, s') -> keepsn s s' /\ neutral s'.
Proof.
  intros i s b s' F P H.
  assert (N : neutral s).
  { unfold neutral. destruct (o_state s); try contradiction; split; reflexivity || discriminate. }
  assert (G : keepsn s s'); [|split; [exact G|destruct G; auto]].
  unfold ush_parse_service in H. destruct (o_state s) eqn:St; try contradiction.
  1: oks; kn.
  all: ok1; unfold ush_parse_char in E; ok1; destruct (ceq _ LF || ceq _ CR);
    [ unfold out_char in E; oks; eapply keepsn_trans; [|eapply parse_finish_keepsn; eauto]; kn
    | unfold ush_parse_char_standard, out_escaped, out_char in E; oks2; sfields; try kn ].
  all: try (apply keepsn_same; sfields; auto).
  all: oks2; try (apply keepsn_same; sfields; auto).
Qed.

Lemma process_keepsn : forall i s b s', fair (io_env i) -> ush_process_service i s = Ok (b, s') -> keepsn s s'.
Proof.
  intros i s b s' F H. unfold ush_process_service in H.
  assert (G : forall f p s1, f_proc f = Some p ->
     match p with
     | PHelp => help_service s | PLs => ls_service s
     | PCat => cat_service (io_env i) s | PXxd => xxd_service s
     | PUser n => do_actions [] (e_proc (io_env i) n (f_name f)) (emit (EvProc n (f_name f)) s)
     end = Ok s1 -> keepsn s s1).
  { clear H. intros f p s1 _ H. destruct p.
    - unfold help_service, print_out in H. destruct (o_state s) eqn:St; try (oks; kn).
      oks2; try kn; try solve [eapply keepsn_wps; [|eassumption|]; sfields; auto]; apply keepsn_wnext; sfields; auto.
    - unfold ls_service, print_out in H. destruct (o_state s) eqn:St; try (oks; kn);
      oks2; try kn; try solve [eapply keepsn_wps; [|eassumption|]; sfields; auto]; try solve [apply keepsn_wnext; sfields; auto].
      all: try match goal with E : ush_write_pointer _ _ _ = Ok ?a |- _ =>
        eapply keepsn_trans with (b := a); [eapply keepsn_wps; [|exact E|]; sfields; auto|kn] end.
    - unfold cat_service in H. destruct (o_state s) eqn:St; try (oks; kn); oks2; try kn.
      match goal with C : call_get _ _ _ _ = Ok (_, ?t) |- _ => apply call_get_keepsn in C; [|exact F]; apply keepsn_trans with (b := t); [exact C|] end.
      apply keepsn_wnext; sfields; auto.
    - unfold xxd_service, print_out in H. destruct (o_state s) eqn:St; try (oks; kn); oks2; try kn;
        try solve [apply keepsn_wnext; sfields; auto].
      all: try match goal with E : ush_write_pointer _ _ _ = Ok ?a |- _ =>
        eapply keepsn_trans with (b := a); [eapply keepsn_wps; [|exact E|]; sfields; auto|kn] end.
    - eapply keepsn_trans; [|eapply actions_keepsn; [|exact H]; apply F]. kn. }
  destruct (o_state s); try (oks; kn); destruct (o_pfile s) as [f|]; try discriminate;
    destruct (f_proc f) as [p|] eqn:Fp; try (oks; kn); ok1; oks; eapply G; eauto.
Qed.

Lemma neutral_write : forall s, o_state s = S_WRITE_CHAR -> staged (o_wnext s) = false -> neutral s.
Proof. intros s A B. unfold neutral. rewrite A. auto. Qed.
Lemma neutral_state : forall s, o_state s <> S_WRITE_CHAR -> staged (o_state s) = false -> neutral s.
Proof. intros s A B. split; auto. congruence. Qed.
Lemma neutral_wp : forall p n s s', ush_write_pointer p n s = Ok s' -> staged n = false -> neutral s' /\ o_pnext s' = o_pnext s.
Proof. intros p n s s' H N. apply wp_shape in H as (k & ->). split; auto. apply neutral_write; auto. Qed.

Ltac nn := first [ apply neutral_write; sfields; reflexivity
                 | apply neutral_state; sfields; try reflexivity; discriminate ].

Lemma autocomp_neutral : forall s b s', mid (o_pnext s) = false ->
  match o_state s with S_AC_PREPARE | S_AC_START | S_AC_COUNT | S_AC_OPTIMISE | S_AC_PRINT | S_AC_FINISH
    | S_AC_PROMPT_PREPARE | S_AC_PROMPT | S_AC_RECALL | S_AC_RECALL_SUFFIX => True | _ => False end ->
  ush_autocomp_service s = Ok (b, s') -> neutral s' /\ mid (o_pnext s') = false.
Proof.
  intros s b s' M St H. unfold ush_autocomp_service in H.
  assert (P : forall s s', (o_state s = S_AC_COUNT \/ o_state s = S_AC_OPTIMISE \/ o_state s = S_AC_PRINT) ->
     ush_autocomp_state_candidates_process s = Ok s' -> neutral s' /\ o_pnext s' = o_pnext s).
  { clear. intros s s' St H. unfold ush_autocomp_state_candidates_process in H.
    assert (N : staged (o_state s) = false /\ o_state s <> S_WRITE_CHAR).
    { destruct St as [E|[E|E]]; rewrite E; split; reflexivity || discriminate. }
    destruct N as (N1 & N2).
    destruct (o_pnode s).
    - unfold ush_autocomp_check_for_next in H.
      ok1. destruct a as [nx s1].
      assert (L1 : o_state s1 = o_state s /\ o_pnext s1 = o_pnext s) by (clear H; oks2; auto). destruct L1 as (L1 & L1').
      rewrite <- L1, <- L1' in *. clear E.
      destruct nx; oks; [split; auto; apply neutral_state; auto|]. destruct a as [[sk f] s2].
      assert (L2 : o_state s2 = o_state s1 /\ o_pnext s2 = o_pnext s1)
        by (clear H; unfold ush_autocomp_process_file_prepare in E; oks2; auto). destruct L2 as (L2 & L2').
      rewrite <- L2, <- L2' in *. clear E. destruct sk; oks; [split; auto; apply neutral_state; auto|].
      unfold ush_autocomp_process_file_index in H.
      match goal with H : context [fsm_eqb ?x S_AC_PRINT] |- _ => destruct (fsm_eqb x S_AC_PRINT) eqn:Pr end.
      + oks2; split; try reflexivity; try exact L2';
          solve [apply neutral_write; sfields; auto | apply neutral_state; sfields; auto].
      + oks2; split; try reflexivity; try exact L2';
          solve [apply neutral_write; sfields; auto | apply neutral_state; sfields; auto].
    - unfold ush_autocomp_check_for_finish in H. oks2; split; auto; try (apply neutral_state; sfields; auto; discriminate). }
  assert (O : forall s s', ush_autocomp_optimize_continue s = Ok s' -> neutral s' /\ o_pnext s' = o_pnext s).
  { clear. intros s s' H. unfold ush_autocomp_optimize_continue in H. oks2; split; try reflexivity; nn. }
  assert (F : forall s s', ush_autocomp_state_candidates_finish s = Ok s' -> neutral s' /\ o_pnext s' = o_pnext s).
  { clear P H M St. intros s0 s0' H0. unfold ush_autocomp_state_candidates_finish in H0.
    oks2; try (split; [nn|reflexivity]); try (apply O in H0; exact H0). eapply neutral_wp in H0; [exact H0|reflexivity]. }
  assert (R : forall s s', ush_autocomp_state_recall_suffix s = Ok s' -> neutral s' /\ o_pnext s' = o_pnext s).
  { clear. intros s s' H. unfold ush_autocomp_state_recall_suffix in H. oks2; try (split; [nn|reflexivity]).
    eapply neutral_wp in H; [exact H|reflexivity]. }
  assert (T : forall s1, neutral s1 /\ o_pnext s1 = o_pnext s -> neutral s1 /\ mid (o_pnext s1) = false).
  { intros s1 (A & B). rewrite B. auto. }
  destruct (o_state s) eqn:E0; try contradiction; oks;
    try (apply T; apply P in E; auto; fail); try (apply F in E; auto; fail); try (apply R in E; auto; fail);
    try (apply T; eapply neutral_wp; [exact E|reflexivity]); try (split; [nn|sfields; auto]).
  unfold ush_autocomp_state_prepare in E. oks. split; [nn|exact M].
Qed.

Lemma outs_snoc : forall l c, outs (l ++ [EvOut c]) = outs l ++ [c].
Proof. intros. rewrite outs_app. reflexivity. Qed.

Lemma firstn_snoc : forall A (l : list A) n x, nth_error l n = Some x -> firstn (S n) l = firstn n l ++ [x].
Proof.
  induction l as [|y l IH]; intros n x H; [destruct n; discriminate|].
  destruct n as [|n]; cbn [nth_error] in H; [injection H as ->; reflexivity|].
  cbn [firstn app]. f_equal. apply IH; auto.
Qed.

Lemma service_prompt_inv : forall i s b s', fair (io_env i) -> prompt_inv s ->
  ush_service i s = Ok (b, s') -> prompt_inv s'.
Proof.
  intros i s b s' F (M & I) H. rewrite service_eq in H. destruct (o_cur s) as [cu|] eqn:C; [|discriminate].
  unfold svc in H.
  assert (K : neutral s -> keepsn s s' -> prompt_inv s').
  { intros N (K1 & K2). apply neutral_inv; auto. congruence. }
  (* prompt piece: from state x writing w towards y *)
  assert (PP : forall t u w y, s' = write_str w y s -> (forall p, cwd_is s p -> stage (o_desc s) p (o_state s) = Some t) ->
     (forall p, cwd_is s p -> stage (o_desc s) p y = Some u -> u = t ++ w) -> 
     (forall p, cwd_is s p -> stage (o_desc s) p y = Some u \/ stage (o_desc s) p y = None) -> prompt_inv s').
  { intros t u w y -> A B D. split; [exact M|]. intros p W. split; [|intros ? X; discriminate X].
    intros _ t' Ht'. change (stage (o_desc s) p y = Some t') in Ht'. 
    destruct (D p W) as [D'|D']; [|congruence]. assert (t' = u) by congruence. subst t'.
    destruct (I p W) as (_ & I2). destruct (I2 t (A p W)) as (L & HL).
    exists L, t, w. split; [apply (B p); auto|]. split; [reflexivity|]. split; [reflexivity|]. split; [cbn; lia|].
    cbn [firstn]. change (outs (lg s) = L ++ t ++ []). rewrite app_nil_r. exact HL. }
  destruct (o_state s) eqn:St.
  - unfold ush_reset_service in H. rewrite St in H. oks. apply neutral_inv; [exact M|nn].
  - unfold ush_reset_service in H. rewrite St in H. oks. apply neutral_inv; [reflexivity|nn].
  - unfold ush_prompt_service in H. rewrite St in H. oks.
    split; [exact M|]. intros p W. split; [|intros ? X; discriminate X].
    intros _ t Ht. injection Ht as <-. exists (outs (lg s)), [], (sty_magenta (d_cfg (o_desc s)) ++ lit "[").
    repeat (split; [try reflexivity; cbn; lia|]). sfields. cbn [firstn app]. rewrite app_nil_r. reflexivity.
  - unfold ush_prompt_service in H. rewrite St in H. oks.
    eapply PP; [reflexivity|intros; reflexivity|intros p W X; injection X as <-; reflexivity|intros; left; reflexivity].
  - unfold ush_prompt_service in H. rewrite St in H. oks.
    eapply PP; [reflexivity|intros; reflexivity|intros p W X; injection X as <-; reflexivity|intros; left; reflexivity].
  - unfold ush_prompt_service in H. rewrite St in H. oks.
    assert (U : forall p, cwd_is s p -> p = a0).
    { intros p (nd & G & W). rewrite E in G. injection G as ->. unfold path_of in E0. rewrite W in E0. congruence. }
    eapply PP with (u := ((((sty_magenta (d_cfg (o_desc s)) ++ lit "[") ++ d_host (o_desc s)) ++ lit " ") ++ ush_utils_path_last a0));
      [reflexivity|intros; reflexivity|intros p W _; reflexivity|intros p W; left; rewrite (U p W); reflexivity].
  - unfold ush_prompt_service in H. rewrite St in H. oks.
    split; [exact M|]. intros p W. split; [|intros ? X; discriminate X].
    intros _ t Ht. change (stage (o_desc s) p (o_pnext s) = Some t) in Ht.
    destruct (I p W) as (_ & I2). specialize (I2 _ eq_refl). destruct I2 as (L & HL).
    assert (t = prompt (o_desc s) p) by (destruct (o_pnext s); try discriminate; injection Ht as <-; reflexivity).
    subst t. eexists L, _, (lit "]$ " ++ sty_reset (d_cfg (o_desc s))).
    split; [|split; [reflexivity|split; [reflexivity|split; [cbn; lia|]]]].
    2:{ sfields. cbn [firstn]. rewrite app_nil_r. exact HL. }
    unfold prompt. rewrite <- path_last_label, <- !app_assoc. reflexivity.
  - unfold ush_read_start in H. oks. apply neutral_inv; [exact M|nn].
  - assert (G : neutral s' /\ o_pnext s' = o_pnext s); [|destruct G as (G1 & G2); apply neutral_inv; auto; congruence].
    unfold ush_read_char in H. destruct (io_rd i) as [c|]; [|oks; split; auto; apply neutral_state; rewrite St; reflexivity || discriminate].
    assert (Ss : o_state (emit (EvIn c) s) = S_READ_CHAR /\ o_pnext (emit (EvIn c) s) = o_pnext s) by auto.
    remember (emit (EvIn c) s) as s0 eqn:Es. clear Es. destruct Ss as (Ss & Ps). rewrite <- Ps.
    ok1. destruct a as [echo s1]. ok1. injection H as <- <-.
    assert (L : (o_state s1 = S_READ_CHAR \/ echo = false /\ neutral s1) /\ o_pnext s1 = o_pnext s0).
    { clear E0. unfold ush_read_char_by_escape_state in E. repeat ok2; auto.
      - split; auto. right. split; auto. nn.
      - destruct (cfg_autocomp _); split; auto. right. split; auto. nn. }
    destruct L as (L & Lp). rewrite <- Lp. destruct echo.
    + unfold ush_read_echo_service in E0. oks. apply neutral_wp in E0; auto. destruct (ceq c CR || ceq c LF); reflexivity.
    + oks. split; auto. destruct L as [L|[_ L]]; auto. apply neutral_state; rewrite L; reflexivity || discriminate.
  - destruct (parse_neutral i s b s') as (G1 & G2); auto; [rewrite St; exact Logic.I|]. destruct G1 as (G1 & _). apply neutral_inv; auto; congruence.
  - destruct (parse_neutral i s b s') as (G1 & G2); auto; [rewrite St; exact Logic.I|]. destruct G1 as (G1 & _). apply neutral_inv; auto; congruence.
  - destruct (parse_neutral i s b s') as (G1 & G2); auto; [rewrite St; exact Logic.I|]. destruct G1 as (G1 & _). apply neutral_inv; auto; congruence.
  - destruct (parse_neutral i s b s') as (G1 & G2); auto; [rewrite St; exact Logic.I|]. destruct G1 as (G1 & _). apply neutral_inv; auto; congruence.
  - unfold ush_write_char in H. ok1. injection H as <- <-.
    destruct (Nat.leb_spec (o_wsize s) (o_wpos s)) as [Hle|Hlt].
    + injection E as <-. split; [exact M|]. intros p W. destruct (I p W) as (I1 & _). split.
      * intros X. change (o_wnext s = S_WRITE_CHAR) in X. intros t Ht. change (stage (o_desc s) p (o_wnext s) = Some t) in Ht.
        rewrite X in Ht. discriminate.
      * intros t Ht. change (stage (o_desc s) p (o_wnext s) = Some t) in Ht.
        destruct (I1 eq_refl t Ht) as (L & u & w & -> & Hw & Hsz & Hp & HL). exists L.
        change (outs (lg s) = L ++ u ++ w). rewrite HL. rewrite firstn_all2 by lia. reflexivity.
    + ok1. destruct (io_wr i).
      * injection E as <-. split; [exact M|]. intros p W. destruct (I p W) as (I1 & _). split; [|intros t Ht; change (stage (o_desc s) p (o_state s) = Some t) in Ht; rewrite St in Ht; discriminate].
        intros _ t Ht. change (stage (o_desc s) p (o_wnext s) = Some t) in Ht.
        destruct (I1 eq_refl t Ht) as (L & u & w & -> & Hw & Hsz & Hp & HL). exists L, u, w.
        repeat (split; [solve [auto]|]). split; [cbn; lia|].
        sfields. rewrite outs_snoc, HL. unfold wbuf_rd in E0. rewrite Hw in E0. unfold rd in E0.
        destruct (nth_error w (o_wpos s)) eqn:Nn; [|discriminate]. injection E0 as ->.
        rewrite (firstn_snoc _ _ _ _ Nn), <- !app_assoc. reflexivity.
      * injection E as <-. split; [exact M|]. intros p W. rewrite St. apply (I p W).
  - apply K; [apply neutral_state; rewrite St; reflexivity || discriminate|eapply process_keepsn; eauto].
  - apply K; [apply neutral_state; rewrite St; reflexivity || discriminate|eapply process_keepsn; eauto].
  - apply K; [apply neutral_state; rewrite St; reflexivity || discriminate|eapply process_keepsn; eauto].
  - destruct (cfg_autocomp _); [destruct (autocomp_neutral s b s') as (G1 & G2); auto; [rewrite St; exact Logic.I|apply neutral_inv; auto]|injection H as <- <-; split; auto; rewrite St; exact I].
  - destruct (cfg_autocomp _); [destruct (autocomp_neutral s b s') as (G1 & G2); auto; [rewrite St; exact Logic.I|apply neutral_inv; auto]|injection H as <- <-; split; auto; rewrite St; exact I].
  - destruct (cfg_autocomp _); [destruct (autocomp_neutral s b s') as (G1 & G2); auto; [rewrite St; exact Logic.I|apply neutral_inv; auto]|injection H as <- <-; split; auto; rewrite St; exact I].
  - destruct (cfg_autocomp _); [destruct (autocomp_neutral s b s') as (G1 & G2); auto; [rewrite St; exact Logic.I|apply neutral_inv; auto]|injection H as <- <-; split; auto; rewrite St; exact I].
  - destruct (cfg_autocomp _); [destruct (autocomp_neutral s b s') as (G1 & G2); auto; [rewrite St; exact Logic.I|apply neutral_inv; auto]|injection H as <- <-; split; auto; rewrite St; exact I].
  - destruct (cfg_autocomp _); [destruct (autocomp_neutral s b s') as (G1 & G2); auto; [rewrite St; exact Logic.I|apply neutral_inv; auto]|injection H as <- <-; split; auto; rewrite St; exact I].
  - destruct (cfg_autocomp _); [destruct (autocomp_neutral s b s') as (G1 & G2); auto; [rewrite St; exact Logic.I|apply neutral_inv; auto]|injection H as <- <-; split; auto; rewrite St; exact I].
  - destruct (cfg_autocomp _); [destruct (autocomp_neutral s b s') as (G1 & G2); auto; [rewrite St; exact Logic.I|apply neutral_inv; auto]|injection H as <- <-; split; auto; rewrite St; exact I].
  - destruct (cfg_autocomp _); [destruct (autocomp_neutral s b s') as (G1 & G2); auto; [rewrite St; exact Logic.I|apply neutral_inv; auto]|injection H as <- <-; split; auto; rewrite St; exact I].
  - destruct (cfg_autocomp _); [destruct (autocomp_neutral s b s') as (G1 & G2); auto; [rewrite St; exact Logic.I|apply neutral_inv; auto]|injection H as <- <-; split; auto; rewrite St; exact I].
Qed.

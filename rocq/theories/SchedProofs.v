(** * SchedProofs: proofs of C05, C06, C07, C09, C32, C42. *)
From Verif Require Import Shell BaseFacts LogFacts Sched ServiceFacts SchedFacts Macro EditFacts PromptFacts.

Lemma outs_map : forall t, outs (map EvOut t) = t.
Proof. induction t as [|c t IH]; [reflexivity|]. cbn [map outs flat_map app]. f_equal. exact IH. Qed.

Lemma C05_short : forall s t l, o_cur s <> None -> pending s t -> ready_calls l < length t ->
  exists s', run (services l) s = Ok s' /\ writes s (firstn (ready_calls l) t) s' /\
    pending s' (skipn (ready_calls l) t) /\ s' = delivered s (firstn (ready_calls l) t).
Proof.
  intros s t l C P H. exists (delivered s (firstn (ready_calls l) t)).
  split; [apply pending_run_short; auto|]. split; [|split; [|reflexivity]].
  - unfold writes, delivered. cbn [lg set_wpos set_lg]. rewrite outs_app, outs_map. reflexivity.
  - apply pending_delivered. rewrite firstn_skipn. exact P.
Qed.

Lemma C05_all : forall s t l, o_cur s <> None -> pending s t -> length t <= ready_calls l ->
  exists l1 l2, l = l1 ++ l2 /\ ready_calls l1 = length t /\
    run (services l1) s = Ok (delivered s t) /\ writes s t (delivered s t) /\ pending (delivered s t) [] /\
    forall i, ush_service i (delivered s t) = Ok (true, set_state (o_wnext s) (delivered s t)).
Proof.
  intros s t l C P H. destruct (pending_run_all l s t C P H) as (l1 & l2 & E & R & N).
  exists l1, l2. repeat (split; [solve [auto]|]).
  assert (PE : pending (delivered s t) []) by (apply pending_delivered; rewrite app_nil_r; exact P).
  split; [|split; [exact PE|]].
  - unfold writes, delivered. cbn [lg set_wpos set_lg]. rewrite outs_app, outs_map. reflexivity.
  - intros i. apply (pending_end i (delivered s t)); auto.
Qed.

Lemma C05_api : forall p t s, wptr_str p s = Ok t ->
  (exists s', ush_print p s = Ok s' /\ pending s' t /\ lg s' = lg s) /\
  (exists s', ush_print_no_newline p s = Ok s' /\ pending s' t /\ lg s' = lg s).
Proof.
  intros p t s H. split; eexists; (split; [apply wp_eq; exact H|split; [apply pending_wpb, points_str; exact H|reflexivity]]).
Qed.

(** ** C06 *)
Lemma C06_idle_proof : forall i s b s', ush_service i s = Ok (b, s') ->
  (polling s /\ io_rd i = None) \/ (exists c t, pending s (c :: t) /\ io_wr i = false) -> s' = s.
Proof.
  intros i s b s' H [(P & R)|(c & t & P & W)].
  - apply service_cases in H as [->|[(c & Hc & _)|(N & _)]]; auto; congruence.
  - pose proof (service_cur_ok _ _ _ _ H) as C. rewrite (pending_step i s c t C P), W in H. congruence.
Qed.

Lemma C06_blind_proof : forall r r' w w' e s,
  (polling s -> r = r') -> (o_state s = S_WRITE_CHAR -> w = w') ->
  ush_service (mkIo r w e) s = ush_service (mkIo r' w' e) s.
Proof.
  intros r r' w w' e s P W. transitivity (ush_service (mkIo r w' e) s).
  - assert (o_state s = S_WRITE_CHAR \/ o_state s <> S_WRITE_CHAR) as [E|E] by (destruct (o_state s); (left; reflexivity) || (right; discriminate)).
    + rewrite (W E); reflexivity.
    + apply svc_wr; auto.
  - destruct (polling_dec s) as [Q|Q]; [rewrite (P Q); reflexivity|apply svc_rd; auto].
Qed.

Lemma C06_quiet_proof : forall e s s', quiet_by e s s' -> o_cur s' <> None -> 
  (forall l, exists s1, drive e [] l s = Ok ([], s1) /\ (polling s1 -> s1 = s')) /\
  exists n, forall l, n <= both_ready l -> drive e [] l s = Ok ([], s').
Proof.
  intros e s s' H C. apply quiet_by_esteps in H as (os & H & E & P). split.
  - intros l. destruct (drive_total e l os s s' H P C) as (q1 & s1 & os1 & D & X & Y & Z).
    rewrite E in D. exists s1.
    assert (q1 = []). { apply drive_esteps in D as (? & _ & D). symmetry in D. apply app_eq_nil in D. tauto. }
    subst q1. rewrite H0 in *. split; auto. intros P1. eapply esteps_det; [constructor|exact X|auto|auto|]. cbn. auto.
  - exists (length os). intros l L.
    destruct (drive_total e l os s s' H P C) as (q1 & s1 & os1 & D & X & Y & Z).
    destruct os1; [|cbn [length] in Z; lia]. inversion X; subst. rewrite E in D. exact D.
Qed.

(** ** C07 *)
Lemma read_start_shape : forall s s', ush_read_start s = Ok s' -> polling s' /\ o_cur s' = o_cur s /\ lg s' = lg s.
Proof. unfold ush_read_start. intros. oks. repeat split. Qed.

Lemma C07_proof : forall i s b s', ush_service i s = Ok (b, s') -> serviceable s ->
  (b = false <-> o_state s = S_READ_PREPARE \/ (polling s /\ io_rd i = None)).
Proof.
  intros i s b s' H V. rewrite service_eq in H. destruct (o_cur s); [|discriminate].
  assert (G : (b = false /\ (o_state s = S_READ_PREPARE \/ (polling s /\ io_rd i = None))) \/
              (b = true /\ o_state s <> S_READ_PREPARE /\ ~ (polling s /\ io_rd i = None))).
  2:{ destruct G as [(-> & G)|(-> & G1 & G2)]; split; auto; try discriminate; tauto. }
  unfold svc, polling, serviceable in *. destruct (o_state s) eqn:E.
  1-2: unfold ush_reset_service in H; rewrite E in H; oks; right; split; [auto|split; [discriminate|intros [X _]; discriminate X]].
  1-5: unfold ush_prompt_service in H; rewrite E in H; oks; right; split; [auto|split; [discriminate|intros [X _]; discriminate X]].
  - oks. left; auto.
  - apply read_char_log in H. destruct (io_rd i); [right|left; tauto].
    split; [tauto|]. split; [discriminate|]. intros [_ X]; discriminate X.
  - unfold ush_parse_service in H. rewrite E in H. oks. right; split; [auto|split; [discriminate|intros [X _]; discriminate X]].
  - unfold ush_parse_service in H. rewrite E in H. oks. right; split; [auto|split; [discriminate|intros [X _]; discriminate X]].
  - unfold ush_parse_service in H. rewrite E in H. oks. right; split; [auto|split; [discriminate|intros [X _]; discriminate X]].
  - unfold ush_parse_service in H. rewrite E in H. oks. right; split; [auto|split; [discriminate|intros [X _]; discriminate X]].
  - oks. right; split; [auto|split; [discriminate|intros [X _]; discriminate X]].
  - unfold ush_process_service in H. rewrite E in H. destruct (o_pfile s) as [f|]; [|discriminate].
    destruct (f_proc f); oks; right; (split; [auto|split; [discriminate|intros [X _]; discriminate X]]).
  - unfold ush_process_service in H. rewrite E in H. destruct (o_pfile s) as [f|]; [|discriminate].
    destruct (f_proc f); oks; right; (split; [auto|split; [discriminate|intros [X _]; discriminate X]]).
  - unfold ush_process_service in H. rewrite E in H. destruct (o_pfile s) as [f|]; [|discriminate].
    destruct (f_proc f); oks; right; (split; [auto|split; [discriminate|intros [X _]; discriminate X]]).
  - rewrite V in H. unfold ush_autocomp_service in H. rewrite E in H. oks. right; (split; [auto|split; [discriminate|intros [X _]; discriminate X]]).
  - rewrite V in H. unfold ush_autocomp_service in H. rewrite E in H. oks. right; (split; [auto|split; [discriminate|intros [X _]; discriminate X]]).
  - rewrite V in H. unfold ush_autocomp_service in H. rewrite E in H. oks. right; (split; [auto|split; [discriminate|intros [X _]; discriminate X]]).
  - rewrite V in H. unfold ush_autocomp_service in H. rewrite E in H. oks. right; (split; [auto|split; [discriminate|intros [X _]; discriminate X]]).
  - rewrite V in H. unfold ush_autocomp_service in H. rewrite E in H. oks. right; (split; [auto|split; [discriminate|intros [X _]; discriminate X]]).
  - rewrite V in H. unfold ush_autocomp_service in H. rewrite E in H. oks. right; (split; [auto|split; [discriminate|intros [X _]; discriminate X]]).
  - rewrite V in H. unfold ush_autocomp_service in H. rewrite E in H. oks. right; (split; [auto|split; [discriminate|intros [X _]; discriminate X]]).
  - rewrite V in H. unfold ush_autocomp_service in H. rewrite E in H. oks. right; (split; [auto|split; [discriminate|intros [X _]; discriminate X]]).
  - rewrite V in H. unfold ush_autocomp_service in H. rewrite E in H. oks. right; (split; [auto|split; [discriminate|intros [X _]; discriminate X]]).
  - rewrite V in H. unfold ush_autocomp_service in H. rewrite E in H. oks. right; (split; [auto|split; [discriminate|intros [X _]; discriminate X]]).
Qed.

Lemma C07_idle_proof : forall i s s', ush_service i s = Ok (false, s') -> serviceable s ->
  polling s' /\ lg s' = lg s /\ forall w e, ush_service (mkIo None w e) s' = Ok (false, s').
Proof.
  intros i s s' H V. pose proof (service_cur_ok _ _ _ _ H) as C.
  assert (G : polling s' /\ o_cur s' <> None /\ lg s' = lg s).
  { destruct (C07_proof _ _ _ _ H V) as [D _]. destruct (D eq_refl) as [E|(P & R)].
    - rewrite service_eq in H. destruct (o_cur s) eqn:Cu; [|congruence]. unfold svc in H. rewrite E in H. oks.
      apply read_start_shape in E0 as (A & B & D'). repeat split; auto. congruence.
    - assert (s' = s) by (eapply C06_idle_proof; eauto). subst. auto. }
  destruct G as (P & C' & L). repeat split; auto. intros w e. apply polling_none; auto.
Qed.

(** ** C09 *)
Lemma run_prompt_inv : forall l s s', Forall (fun i => fair (io_env i)) l -> prompt_inv s ->
  run (services l) s = Ok s' -> prompt_inv s'.
Proof.
  induction l as [|i l IH]; intros s s' F I H; cbn [services map run] in H.
  - injection H as <-. exact I.
  - inversion F; subst. cbn [step] in H. oks. eapply IH; [auto| |exact H]. eapply service_prompt_inv; eauto.
Qed.

Lemma C09_before_reading_proof : forall l s0 s p,
  Forall (fun i => fair (io_env i)) l ->
  o_pnext s0 = S_RESET \/ o_pnext s0 = S_READ_PREPARE \/ o_pnext s0 = S_AC_RECALL ->
  (o_state s0 = S_WRITE_CHAR /\ o_wnext s0 = S_RESET_PROMPT) \/ polling s0 ->
  run (services l) s0 = Ok s -> o_state s = S_READ_PREPARE -> cwd_is s p ->
  exists before, outs (lg s) = before ++ prompt (o_desc s) p.
Proof.
  intros l s0 s p F M N R E W.
  assert (I : prompt_inv s).
  { eapply run_prompt_inv; eauto. apply neutral_inv.
    - destruct M as [->|[->| ->]]; reflexivity.
    - destruct N as [(N1 & N2)|N]; [apply neutral_write; auto; rewrite N2; reflexivity|].
      apply neutral_state; rewrite N; reflexivity || discriminate. }
  destruct I as (_ & I). destruct (I p W) as (_ & I2). apply I2. rewrite E. reflexivity.
Qed.

(** ** C32, C42 *)
Lemma print_nl : forall e p t s s1 cw, cwd_is s cw -> bufs_ok s -> wptr_str p s = Ok t ->
  ush_write_pointer p S_RESET s = Ok s1 ->
  exists s', quiet e s1 s' /\ editing 0 [] s' /\ core s' = core s /\ bufs_ok s' /\
    lg s' = lg s ++ map EvOut (t ++ CRLF ++ prompt (o_desc s) cw).
Proof.
  intros e p t s s1 cw W B P H.
  destruct (quiet_reset e (after_write p t S_RESET s) cw) as (s' & Q & I & K & B' & L); auto.
  exists s'. split; [|split; [exact I|split; [exact K|split; [exact B'|]]]].
  - eapply quiet_wp; eauto using cwd_cur.
  - rewrite L. unfold after_write. sfields. rewrite !map_app, <- !app_assoc. reflexivity.
Qed.

Lemma print_nonl : forall e p t s s1 cw, cwd_is s cw -> bufs_ok s -> wptr_str p s = Ok t ->
  ush_write_pointer p S_RESET_PROMPT s = Ok s1 ->
  exists s', quiet e s1 s' /\ editing 0 [] s' /\ core s' = core s /\ bufs_ok s' /\
    lg s' = lg s ++ map EvOut (t ++ prompt (o_desc s) cw).
Proof.
  intros e p t s s1 cw W B P H.
  destruct (quiet_reset_prompt e (after_write p t S_RESET_PROMPT s) cw) as (s' & Q & I & K & B' & L); auto.
  exists s'. split; [|split; [exact I|split; [exact K|split; [exact B'|]]]].
  - eapply quiet_wp; eauto using cwd_cur.
  - rewrite L. unfold after_write. sfields. rewrite !map_app, <- !app_assoc. reflexivity.
Qed.

Lemma C42_proof : forall e a s cw t, cwd_is s cw -> bufs_ok s -> printed s cw a = Some t ->
  exists s1 s', do_action [] a s = Ok s1 /\ quiet e s1 s' /\ editing 0 [] s' /\ core s' = core s /\
    bufs_ok s' /\ lg s' = lg s ++ map EvOut t.
Proof.
  intros e a s cw t W B P.
  destruct a; cbn [printed] in P; try discriminate; cbn [do_action].
  - injection P as <-. destruct (print_nl e (WStr s0) s0 s _ cw W B eq_refl (wp_eq (WStr s0) S_RESET s s0 eq_refl)) as (s' & Q).
    eexists. exists s'. split; [apply wp_eq; reflexivity|exact Q].
  - injection P as <-. destruct (print_nonl e (WStr s0) s0 s _ cw W B eq_refl (wp_eq (WStr s0) S_RESET_PROMPT s s0 eq_refl)) as (s' & Q).
    eexists. exists s'. split; [apply wp_eq; reflexivity|exact Q].
  - injection P as <-. set (t := status_text _ _).
    destruct (print_nl e (WStr t) t s _ cw W B eq_refl (wp_eq (WStr t) S_RESET s t eq_refl)) as (s' & Q).
    eexists. exists s'. split; [reflexivity|exact Q].
  - destruct (c_str (outb s) 0) as [u|] eqn:E; [|discriminate]. injection P as <-.
    destruct (print_nonl e WOut u s _ cw W B E (wp_eq WOut S_RESET_PROMPT s u E)) as (s' & Q).
    eexists. exists s'. split; [apply (wp_eq WOut S_RESET_PROMPT s u E)|exact Q].
Qed.

Lemma prints_frame : forall a s s1, prints a -> do_action [] a s = Ok s1 ->
  core s1 = core s /\ inb s1 = inb s /\ outb s1 = outb s /\ lg s1 = lg s.
Proof.
  intros a s s1 P H. destruct a; cbn in P; try contradiction; cbn [do_action] in H;
    try (apply wp_shape in H as (k & ->); auto); injection H as <-; auto.
Qed.

Lemma prints_frames : forall l s s1, Forall prints l -> do_actions [] l s = Ok s1 ->
  core s1 = core s /\ inb s1 = inb s /\ outb s1 = outb s /\ lg s1 = lg s.
Proof.
  induction l as [|a l IH]; intros s s1 F H; cbn [do_actions] in H.
  - injection H as <-. auto.
  - inversion F; subst. ok1. apply prints_frame in E as (A1 & A2 & A3 & A4); auto.
    apply IH in H as (B1 & B2 & B3 & B4); auto. repeat split; congruence.
Qed.

Lemma core_cwd : forall s s' p, core s' = core s -> cwd_is s p -> cwd_is s' p.
Proof. unfold core, cwd_is. intros s s' p E (nd & G). exists nd. injection E as _ _ _ E1 _ E2. rewrite E1, E2. exact G. Qed.
Lemma core_desc : forall s s', core s' = core s -> o_desc s' = o_desc s.
Proof. unfold core. intros. congruence. Qed.

Lemma C42_last_proof : forall e l a s s0 cw t, cwd_is s cw -> bufs_ok s ->
  Forall prints l -> do_actions [] l s = Ok s0 -> printed s cw a = Some t ->
  exists s1 s', do_actions [] (l ++ [a]) s = Ok s1 /\ quiet e s1 s' /\ editing 0 [] s' /\ core s' = core s /\
    bufs_ok s' /\ lg s' = lg s ++ map EvOut t.
Proof.
  intros e l a s s0 cw t W B F H P.
  assert (A : do_actions [] (l ++ [a]) s = do_action [] a s0).
  { clear - H. revert s H. induction l as [|x l IH]; intros s H; cbn [do_actions app] in *.
    - injection H as ->. destruct (do_action [] a s0); reflexivity.
    - ok1. cbn [bind]. auto. }
  apply prints_frames in H as (H1 & H2 & H3 & H4); auto.
  assert (P' : printed s0 cw a = Some t).
  { unfold printed in *. rewrite (core_desc _ _ H1), H3. exact P. }
  assert (B0 : bufs_ok s0) by (unfold bufs_ok in *; rewrite (core_desc _ _ H1), H2, H3; exact B).
  destruct (C42_proof e a s0 cw t (core_cwd _ _ _ H1 W) B0 P') as (s1 & s' & Q1 & Q2 & Q3 & Q4 & Q5 & Q6).
  exists s1, s'. rewrite A, <- H4, <- H1. auto 10.
Qed.

Lemma C32_proof : forall e s r nd cw, o_root s = Some r -> getn (hp s) r = Ok nd -> n_path nd = Some cw -> bufs_ok s ->
  exists s', quiet e (ush_reset s) s' /\ editing 0 [] s' /\ core s' = core (set_cur (o_root s) s) /\
    bufs_ok s' /\ lg s' = lg s ++ map EvOut (greeting ++ prompt (o_desc s) cw).
Proof.
  intros e s r nd cw R G P B.
  assert (W : cwd_is (set_cur (o_root s) s) cw). { exists nd. cbn. rewrite R. auto. }
  destruct (print_nonl e (WStr greeting) greeting (set_cur (o_root s) s) _ cw W B eq_refl
     (wp_eq (WStr greeting) S_RESET_PROMPT _ greeting eq_refl)) as (s' & Q).
  exists s'. exact Q.
Qed.

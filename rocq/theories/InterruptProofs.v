(** * InterruptProofs: behind C53. *)
From Verif Require Import Shell BaseFacts LogFacts Sched ServiceFacts SchedFacts SchedProofs Macro EditFacts PromptFacts Line Spec Cmds Tree TreeFacts TreeFind TreeProofs GetProofs PrintfFacts ReconfProofs Session SessionProofs IdleFacts IdleProofs CmdProofs Interrupt StepFacts.

Lemma rest_course : forall own x (W : world -> Prop) w s, W w -> at_rest own x w s -> on_course own x W w s.
Proof.
  intros own x W w s Ww (Ds & K & Wc & B & H). split; [exact K|]. split; [exact Wc|]. split; [exact Ww|]. split; [exact B|]. split; [exact Ds|]. left.
  destruct H as [P|((P & _) & N)]; [unfold polling in P; apply outside_state; rewrite P; reflexivity || discriminate|].
  apply outside_write; [exact P|rewrite N; reflexivity|rewrite N; reflexivity].
Qed.

Lemma reset_course : forall own x W w s, ample own x W -> on_course own x W w s ->
  on_course own x W (mkWorld (w_fs w) (w_groups w) (Some [])) (ush_reset s) /\ snd (spec_op (TChdir (lit "/")) w) = mkWorld (w_fs w) (w_groups w) (Some []).
Proof.
  intros own x W w s Am (K & Wc & Ww & B & Ds & J). pose proof K as ((O & St & Ch) & Gr & Dj & Us & Ow & Cu).
  destruct (w_cwd w) as [cwd|] eqn:Ew; [|congruence]. destruct Cu as (d & Dd & _).
  destruct (dir_at [] (w_fs w)) as [r|] eqn:Dr; [|rewrite (no_root_empty _ O Dr) in Dd; discriminate].
  assert (Rt : o_root s = Some (de_node r)). { unfold node_at in Ch. rewrite Dr in Ch. cbn [option_map] in Ch. apply Ch. }
  pose proof Dr as Dr'. apply dir_at_some in Dr' as (Ir & Pr).
  assert (Ww' : W (mkWorld (w_fs w) (w_groups w) (Some []))).
  { destruct (Am w Ww) as (_ & _ & _ & _ & _ & Cd & _). rewrite <- Pr. apply Cd. exact Ir. }
  split.
  - split; [|split; [discriminate|split; [exact Ww'|split; [exact B|split; [exact Ds|left; apply outside_write; reflexivity]]]]].
    split; [exact (conj O (conj St Ch))|]. split; [exact Gr|]. split; [exact Dj|]. split; [exact Us|]. split; [exact Ow|]. exists r. split; [exact Dr|exact Rt].
  - cbn [spec_op]. change (lit "/") with [SL]. cbv iota. replace (resolve_text (here w) [SL]) with (@nil bytes) by (destruct (here w); reflexivity).
    rewrite dir_named_show; [rewrite Dr; cbn [snd]; rewrite Pr; reflexivity|apply O|constructor].
Qed.

Lemma still_course : forall own x W w s s', on_course own x W w s -> still s s' -> outside s' -> on_course own x W w s'.
Proof.
  intros own x W w s s' (K & Wc & Ww & B & Ds & J) S1 O1. pose proof (still_moved _ _ S1) as M. split; [eapply still_knows; eauto|]. split; [exact Wc|]. split; [exact Ww|].
  split; [eapply moved_bufs; eauto|]. split; [rewrite (proj1 M); exact Ds|left; exact O1].
Qed.

Lemma reached_course : forall own x W w0 s0 ops s, ample own x W -> W w0 -> at_rest own x w0 s0 -> reached own x W w0 s0 ops s ->
  on_course own x W (snd (spec_ops ops w0)) s.
Proof.
  intros own x W w0 s0 ops s Am Ww R H. induction H as [|ops s i b s' evs H IH Ei Sv Lg|ops s o r s' H IH A D|ops s a s' H IH P D|ops s u s' H IH D|ops s H IH].
  - apply rest_course; assumption.
  - destruct (service_goes own x W _ i s b s' Am IH Ei Sv) as (w' & evs' & L' & Ew & C'). rewrite Lg in L'. apply app_inv_head in L'. subst evs'.
    rewrite spec_ops_app, <- Ew. exact C'.
  - destruct A as (A1 & A2 & A3). destruct IH as (K & _ & _ & B & Ds & J). rewrite <- Ds in A1. destruct (op_step own o s _ K A1) as (s1 & E1 & K1 & O1).
    rewrite E1 in D. injection D as _ <-. rewrite spec_ops_app. cbn [spec_ops]. destruct (spec_op o (snd (spec_ops ops w0))) as (y & w1). cbn [snd] in *.
    destruct (only_tree_moved _ _ _ O1) as (M1 & M2). split; [exact K1|]. split; [exact A2|]. split; [exact A3|]. split; [eapply moved_bufs; eauto|].
    split; [rewrite (proj1 M1); exact Ds|]. destruct J as [J|J]; [left; eapply steady_outside; [right; exact M2|exact J]|]. eapply moved_proc; [exact M1|exact J|right; exact M2].
  - apply (print_hushed []) in D as (S1 & O1); [|exact P]. eapply still_course; eauto.
  - cbn [do_actions do_action] in D. assert (X : hushed s s') by (oks; unfold ush_flush in *; hsh). destruct X as (S1 & O1). eapply still_course; eauto.
  - destruct (reset_course own x W _ s Am IH) as (C & E). rewrite spec_ops_app, spec_ops_cons, E. exact C.
Qed.

Lemma C53_tree_proof : forall own x W w0 s0 ops s, ample own x W -> W w0 -> at_rest own x w0 s0 -> reached own x W w0 s0 ops s ->
  let w := snd (spec_ops ops w0) in knows own s w /\ w_cwd w <> None /\ W w.
Proof.
  intros own x W w0 s0 ops s Am Ww R H. destruct (reached_course own x W w0 s0 ops s Am Ww R H) as (K & Wc & Ww' & _). split; [exact K|]. split; assumption.
Qed.

Lemma service_grows : forall i s b s', ush_service i s = Ok (b, s') -> exists evs, lg s' = lg s ++ evs.
Proof.
  intros i s b s' H. assert (D : polling s \/ ~ polling s) by (unfold polling; destruct (o_state s); (left; reflexivity) || (right; discriminate)). destruct D as [P|P].
  - apply service_poll in H; [|exact P]. destruct (io_rd i) as [c|]; destruct H as (_ & H); [exists [EvIn c]; exact H|subst; exists []; rewrite app_nil_r; reflexivity].
  - apply service_noin in H as (evs & L & _); eauto.
Qed.

Lemma drive_reached : forall own x W w0 s0 l cs ops s q s', reached own x W w0 s0 ops s -> drive (app_of x) cs l s = Ok (q, s') ->
  exists evs, lg s' = lg s ++ evs /\ reached own x W w0 s0 (ops ++ deeds x (lg s) evs) s'.
Proof.
  intros own x W w0 s0 l. induction l as [|(r, v) l IH]; intros cs ops s q s' H D; cbn [drive] in D.
  - oks. exists []. cbn [deeds]. rewrite !app_nil_r. auto.
  - ok1. destruct a as [b s1]. destruct (service_grows _ _ _ _ E) as (e1 & L1).
    assert (R1 : reached own x W w0 s0 (ops ++ deeds x (lg s) e1) s1) by (eapply reached_service; [exact H| |exact E|exact L1]; reflexivity).
    destruct (IH _ _ s1 q s' R1 D) as (e2 & L2 & R2). exists (e1 ++ e2).
    split; [rewrite L2, L1, app_assoc; reflexivity|]. rewrite deeds_app, app_assoc, <- L1. exact R2.
Qed.

(** ** Interrupting *)

Lemma says_any : forall e s a l cw, cwd_is s cw -> bufs_ok s -> (forall u, a <> APrintf u) -> Forall (printing_call []) (a :: l) -> length (formatted l) < d_outsize (o_desc s) ->
  exists s1 s', do_actions [] (a :: l) s = Ok s1 /\ aloof s1 /\ quiet e s1 s' /\ editing 0 [] s' /\ bufs_ok s' /\ core s' = core s /\
    lg s' = lg s ++ map EvOut (spoken (o_desc s) [] None [] (a :: l) ++ prompt (o_desc s) cw).
Proof.
  intros e s a l cw W B Na Pl Lf. set (s0 := set_state S_RESET_PROMPT (set_wbuf None s)).
  assert (E0 : do_actions [] (a :: l) s0 = do_actions [] (a :: l) s).
  { inversion Pl as [|? ? Pa _]; subst. cbn [do_actions]. unfold s0. destruct a; cbn [printing_call] in Pa; try contradiction; try (exfalso; eapply Na; reflexivity); destruct s; cbn [do_action]; reflexivity. }
  assert (A0 : aloof s0) by (apply aloof_state; reflexivity || discriminate).
  assert (B0 : bufs_ok s0) by exact B. assert (W0 : cwd_is s0 cw) by exact W.
  assert (Sp : speaks s0 s0 None []) by (do 4 (split; [reflexivity|]); split; [discriminate|left; auto]).
  assert (Fa : formatted (a :: l) = formatted l) by (destruct a; try reflexivity; exfalso; eapply Na; reflexivity).
  destruct (calls_speak [] [] (a :: l) s0 s0 None [] Sp B0 eq_refl Pl) as (s1 & buf1 & E1 & Sp1 & _); [right; rewrite Fa; exact Lf|].
  destruct (speaks_quiet e s0 s1 buf1 _ cw Sp1 W0 B0) as (s' & Q & Ed & B' & K' & L'). change (o_desc s0) with (o_desc s) in L'.
  exists s1, s'. split; [rewrite <- E0; exact E1|]. split; [|split; [exact Q|split; [exact Ed|split; [exact B'|split; [exact K'|exact L']]]]].
  eapply actions_keepsq; [|exact E1|exact A0]. eapply Forall_impl; [|exact Pl]. intros c Pc. destruct c; cbn in *; auto. contradiction.
Qed.

Definition turn_ops (t : turn) : list treeop := match t with Resets => [TChdir (lit "/")] | _ => [] end.
Lemma reached_turn : forall own x W w0 s0 ops s t s1, reached own x W w0 s0 ops s -> interrupting x t -> do_actions [] (turn_calls t) s = Ok s1 ->
  reached own x W w0 s0 (ops ++ turn_ops t) s1.
Proof.
  intros own x W w0 s0 ops s t s1 H It E. destruct t as [cs|o|l|u|]; cbn [interrupting] in It; try contradiction; cbn [turn_calls turn_ops] in *; rewrite ?app_nil_r.
  - assert (F : Forall (printing_call []) l) by (destruct l; [contradiction|apply It]). clear It. revert s H E. induction F as [|a l Pa F IH]; intros s H E; cbn [do_actions] in E; [oks; exact H|].
    ok1. eapply IH; [|exact E]. eapply reached_print; eauto.
  - eapply reached_flush; eauto.
  - cbn [do_actions do_action] in E. oks. apply reached_reset. exact H.
Qed.

Lemma interrupt_quiet : forall own x W w s t, ample own x W -> on_course own x W w s -> interrupting x t ->
  let r := take_turn x (mkSess w (ins (lg s)) 0 []) t in
  exists s1 s2, do_actions [] (turn_calls t) s = Ok s1 /\ calm s1 /\ quiet_by (app_of x) s1 s2 /\ shows own x (snd r) s2 /\ lg s2 = lg s ++ fst r /\ W (se_world (snd r)).
Proof.
  intros own x W w s t Am Co It. pose proof (reset_course own x W w s Am Co) as ((_ & _ & Wr & _) & _). destruct Co as (K & Wn & Ww & B & D & _).
  assert (Fin : forall s1 s2 w tx, aloof s1 -> ins (lg s1) = ins (lg s) -> quiet (x_app x (ins (lg s1))) s1 s2 -> editing 0 [] s2 -> bufs_ok s2 -> knows own s2 w -> w_cwd w <> None -> o_desc s2 = o_desc s ->
     lg s2 = lg s ++ map EvOut (tx ++ prompt (o_desc s) (show (here w))) -> W w ->
     calm s1 /\ quiet_by (app_of x) s1 s2 /\ shows own x (mkSess w (ins (lg s)) 0 []) s2 /\ lg s2 = lg s ++ map EvOut (tx ++ prompt (x_desc x) (show (here w))) /\ W w).
  { intros s1 s2 w' tx Al I1 Q Ed2 B2 K2 Wn2 D2 L2 W2. split; [apply calm_aloof; exact Al|]. split; [apply (quiet_on_input (x_app x)); exact Q|].
    rewrite <- D. split; [|split; [exact L2|exact W2]]. split; [cbn; congruence|]. cbn [se_world se_read se_esc se_line].
    split; [exact K2|]. split; [exact Wn2|]. split; [|split; [exact Ed2|split; [exact B2|split; [cbn; lia|split; intros []]]]].
    pose proof (quiet_reads _ _ _ Q) as Rd. unfold Sched.reads in Rd. rewrite Rd, app_nil_r in *. congruence. }
  assert (Lg1 : forall l s1, do_actions [] l s = Ok s1 -> lg s1 = lg s) by (intros l s1 E; eapply do_actions_lg; exact E).
  destruct (w_cwd w) as [cwd|] eqn:Wc; [|congruence]. pose proof (cwd_show _ _ _ _ K Wc) as Wd.
  assert (Hh : here w = cwd) by (unfold here; rewrite Wc; reflexivity).
  destruct t as [cs|o|[|a l]|u|]; cbn [interrupting] in It; try contradiction; cbn [turn_calls take_turn finishes fst snd se_world se_read].
  - destruct It as (L1 & L2 & L3). rewrite <- D in L3.
    destruct (says_any (x_app x (ins (lg s))) s a l (show cwd) Wd B L1 L2 L3) as (s1 & s2 & E & Al & Q & Ed2 & B2 & K2 & Lg2).
    exists s1, s2. split; [exact E|]. rewrite <- D. rewrite D at 2. apply Fin; auto.
    + rewrite (Lg1 _ _ E). reflexivity.
    + rewrite (Lg1 _ _ E). exact Q.
    + eapply knows_core; eauto.
    + congruence.
    + exact (core_desc _ _ K2).
    + rewrite Hh. exact Lg2.
  - destruct It as (L1 & L2). rewrite <- D in L2.
    destruct (flushes_quiet (x_app x (ins (lg s))) s u (show cwd) Wd B L1 L2) as (s1 & s2 & E & Al & Q & Ed2 & B2 & K2 & Lg2).
    exists s1, s2. split; [exact E|]. apply Fin; auto.
    + rewrite (Lg1 _ _ E). reflexivity.
    + rewrite (Lg1 _ _ E). exact Q.
    + eapply knows_core; eauto.
    + congruence.
    + exact (core_desc _ _ K2).
    + rewrite Hh. exact Lg2.
  - destruct (reset_quiet own (x_app x (ins (lg s))) s w K ltac:(congruence) B) as (s2 & Q & Ed2 & B2 & K2 & D2 & Lg2).
    exists (ush_reset s), s2. split; [reflexivity|]. apply Fin; auto.
    + apply aloof_write; reflexivity.
    + discriminate.
Qed.

Lemma C53_interrupt_proof : forall own x W w0 s0 ops s t q, well_behaved x -> ample own x W -> W w0 -> at_rest own x w0 s0 -> reached own x W w0 s0 ops s ->
  interrupting x t ->
  let r := take_turn x (mkSess (snd (spec_ops ops w0)) (ins (lg s)) 0 []) t in tabs_fit x (snd r) q ->
  let z := sess_run x (snd r) q in
  exists s1, do_actions [] (turn_calls t) s = Ok s1 /\
    (forall l, exists q' s2, drive (app_of x) q l s1 = Ok (q', s2)) /\
    exists n s2, (forall l, n <= both_ready l -> drive (app_of x) q l s1 = Ok ([], s2)) /\
      shows own x (snd z) s2 /\ settled s2 /\ W (se_world (snd z)) /\ lg s2 = lg s ++ fst r ++ fst z.
Proof.
  intros own x W w0 s0 ops s t q Wb Am Ww R H It r Nt z. pose proof (reached_course own x W w0 s0 ops s Am Ww R H) as Co.
  destruct (interrupt_quiet own x W _ s t Am Co It) as (s1 & s2 & E & Cm & Q & Sh & Lg & W1). fold r in Sh, Lg, W1.
  exists s1. split; [exact E|]. pose proof (tabs_run own x W q (snd r) s2 (ample_snug own x W Am) W1 Sh Nt) as Li.
  destruct (schedule_done own x q (snd r) s1 s2 Q Sh Li) as (A & n & s3 & Dr & Sh3 & Lg3). split; [exact A|]. fold z in Sh3, Lg3. exists n, s3. split; [exact Dr|].
  split; [exact Sh3|]. split; [|split; [exact (ample_walk own x W q (snd r) Am W1)|rewrite Lg3, Lg, app_assoc; reflexivity]].
  apply calm_settled; [exact (shows_polling _ _ _ _ Sh3)|]. eapply drive_calm; [exact Wb|exact Cm|].
  apply (Dr (repeat (true, true) n)). clear. induction n as [|n IH]; [reflexivity|]. apply le_n_S in IH. exact IH.
Qed.

Lemma quiet_by_grows : forall e s s', quiet_by e s s' -> exists evs, lg s' = lg s ++ evs.
Proof.
  intros e s s' Q. apply quiet_by_esteps in Q as (os & H & _). induction H as [s|o os s s1 s2 (_ & b & S) _ (e2 & L2)]; [exists []; rewrite app_nil_r; reflexivity|].
  apply service_grows in S as (e1 & L1). exists (e1 ++ e2). rewrite L2, L1, app_assoc. reflexivity.
Qed.

Lemma sess_run_app : forall x p q a, fst (sess_run x a (p ++ q)) = fst (sess_run x a p) ++ fst (sess_run x (snd (sess_run x a p)) q).
Proof.
  intros x p q. induction p as [|c p IH]; intros a; [reflexivity|]. cbn [app sess_run]. destruct (sess_step x a c) as (e1, a1). specialize (IH a1).
  destruct (sess_run x a1 (p ++ q)) as (e2, a2). destruct (sess_run x a1 p) as (e3, a3). cbn [fst snd] in *. rewrite IH, app_assoc. reflexivity.
Qed.

Lemma C53_prefix_proof : forall own x W w0 s0 ops s t q l s1 q' s2, ample own x W -> W w0 -> at_rest own x w0 s0 -> reached own x W w0 s0 ops s ->
  interrupting x t -> do_actions [] (turn_calls t) s = Ok s1 -> drive (app_of x) q l s1 = Ok (q', s2) ->
  let r := take_turn x (mkSess (snd (spec_ops ops w0)) (ins (lg s)) 0 []) t in tabs_fit x (snd r) q ->
  exists evs rest, lg s2 = lg s ++ evs /\ fst r ++ fst (sess_run x (snd r) q) = evs ++ rest.
Proof.
  intros own x W w0 s0 ops s t q l s1 q' s2 Am Ww R H It E D r Nt. pose proof (reached_course own x W w0 s0 ops s Am Ww R H) as Co.
  destruct (interrupt_quiet own x W _ s t Am Co It) as (s1' & s3 & E' & Cm & Q & Sh & Lg & W1). fold r in Sh, Lg, W1. rewrite E in E'. injection E' as <-.
  pose proof (tabs_run own x W q (snd r) s3 (ample_snug own x W Am) W1 Sh Nt) as Li.
  destruct (drive_reached own x W w0 s0 l q _ s1 q' s2 (reached_turn _ _ _ _ _ _ _ _ _ H It E) D) as (evs & L2 & _).
  destruct (schedule_proof own x q (snd r) s1 s3 l q' s2 Q Sh Li D) as (p & s4 & Eq & Q4 & Sh4 & Lg4). destruct (quiet_by_grows _ _ _ Q4) as (e4 & L4).
  apply do_actions_lg in E. rewrite E in L2. exists evs, (e4 ++ fst (sess_run x (snd (sess_run x (snd r) p)) q')). split; [exact L2|].
  rewrite Eq, sess_run_app. cbn [fst]. rewrite !app_assoc. f_equal. rewrite L2, Lg4, Lg, <- !app_assoc in L4. apply app_inv_head in L4. exact L4.
Qed.

Lemma turn_fresh : forall x a t, interrupting x t -> se_esc (snd (take_turn x a t)) = 0 /\ se_line (snd (take_turn x a t)) = [].
Proof. intros x a t It. destruct t as [cs|o|l|u|]; try contradiction; split; reflexivity. Qed.
Lemma C53_safe_proof : forall own x W w0 s0 ts ops s, ample own x W -> W w0 -> at_rest own x w0 s0 -> reached own x W w0 s0 ops s ->
  Forall (fun '(t, q, l) => interrupting x t /\ (forall a, W (se_world a) -> se_esc a = 0 -> se_line a = [] -> tabs_fit x a q)) ts ->
  exists ops' s', interrupted x ts s = Ok s' /\ reached own x W w0 s0 (ops ++ ops') s'.
Proof.
  intros own x W w0 s0 ts. induction ts as [|((t, q), l) ts IH]; intros ops s Am Ww R H F; [exists [], s; rewrite app_nil_r; auto|]. inversion F as [|? ? X Ft]; subst. destruct X as (It & Nt).
  pose proof (reached_course own x W w0 s0 ops s Am Ww R H) as Co.
  destruct (interrupt_quiet own x W _ s t Am Co It) as (s1 & s2 & E & Cm & Q & Sh & Lg & W1). 
  pose proof (tabs_run own x W q _ s2 (ample_snug own x W Am) W1 Sh (Nt _ W1 (proj1 (turn_fresh x _ t It)) (proj2 (turn_fresh x _ t It)))) as Li.
  destruct (schedule_done own x q _ s1 s2 Q Sh Li) as (A & _). destruct (A l) as (q' & s3 & D).
  pose proof (reached_turn _ _ _ _ _ _ _ _ _ H It E) as H1. destruct (drive_reached own x W w0 s0 l q _ s1 q' s3 H1 D) as (evs & _ & H3).
  destruct (IH _ s3 Am Ww R H3 Ft) as (ops' & s' & G & H'). cbn [interrupted]. rewrite E. cbn [bind]. rewrite D. cbn [bind snd]. rewrite <- !app_assoc in H'. eauto.
Qed.

Lemma C53_start_proof : forall d d0 b ib0 ob0 h l ib ob own os f, 2 <= d_insize d -> 4 <= d_outsize d -> length ib = d_insize d -> length ob = d_outsize d ->
  (cfg_commands (d_cfg d) = true -> buildin_commands (d_cfg d) <> []) -> In b own -> (forall i, In i own -> nth_error h i = Some node_zero) ->
  let w0 := mkWorld [] (if cfg_commands (d_cfg d) then [(b, buildin_commands (d_cfg d))] else []) None in
  all_allowed (d_pathmax d) own os w0 -> w_cwd (snd (spec_ops os w0)) <> None ->
  exists s0 s1, ush_init d ib ob (st_zero d0 b ib0 ob0 h l) = Ok s0 /\ do_ops os s0 = Ok (fst (spec_ops os w0), s1) /\
    at_rest own (mkSetting d f) (snd (spec_ops os w0)) s1.
Proof.
  intros d d0 b ib0 ob0 h l ib ob own os f I1 O1 Li Lo Bc Ib Hz w0 Al Wc.
  destruct (C36_init_proof d d0 b ib0 ob0 h l ib ob own) as (s0 & E0 & K0 & D0 & Ei & Eo & El & _ & P0 & N0 & _); auto; [lia|].
  fold w0 in K0. rewrite <- D0 in Al. destruct (C15_history_proof own os s0 w0 K0 Al) as (s1 & E1 & K1 & (T1 & _)).
  assert (F : o_desc s1 = d /\ inb s1 = ib /\ outb s1 = ob /\ o_wnext s1 = S_RESET_PROMPT /\ pending s1 greeting).
  { rewrite T1. split; [exact D0|]. split; [exact Ei|]. split; [exact Eo|]. split; [exact N0|]. exact P0. }
  destruct F as (F1 & F2 & F3 & F5 & F6). exists s0, s1. split; [exact E0|]. split; [exact E1|].
  split; [exact F1|]. split; [exact K1|]. split; [exact Wc|]. split; [|right; auto]. unfold bufs_ok. rewrite F1, F2, F3. auto.
Qed.

Lemma C53_polls_proof : forall own x a s, shows own x a s -> at_rest own x (se_world a) s.
Proof.
  intros own x a s Sh. pose proof (shows_polling _ _ _ _ Sh) as P. destruct Sh as (D & K & Wn & _ & _ & B & _). split; [exact D|]. split; [exact K|]. split; [exact Wn|]. split; [exact B|]. left. exact P.
Qed.

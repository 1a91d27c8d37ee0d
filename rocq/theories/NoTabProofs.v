(** * NoTabProofs: proofs of C79. *)
From Coq Require Import Arith Lia.
From Verif Require Import Shell BaseFacts Words Sched Line Editor Spec Tree Cmds Complete Session SessionProofs NoTab.

Lemma spoken_bare : forall d ws l buf t, spoken (bare_desc d) ws buf t l = spoken d ws buf t l.
Proof.
  intros d ws l. induction l as [|a l IH]; intros buf t; [reflexivity|]. destruct a as [| | | |x| | | | | | | | | |]; cbn [spoken tree_call]; try apply IH.
  destruct x; [|apply IH]. destruct buf as [[]|]; apply IH.
Qed.
Lemma said_bare : forall d c ws l, said (bare_desc d) c ws l = said d c ws l.
Proof. intros. apply spoken_bare. Qed.

Lemma react_bare : forall d e w c ws, react (bare_desc d) e w c ws = react d e w c ws.
Proof.
  intros d e w c ws. unfold react. destruct ws as [|n r] eqn:E; [reflexivity|]. rewrite <- E. cbv zeta.
  change (hook_events (bare_desc d) ws) with (hook_events d ws). change (after_hook e (bare_desc d) ws w) with (after_hook e d ws w).
  destruct (denotes (after_hook e d ws w) n) as [f|]; [|reflexivity]. destruct (f_exec f) as [cb|]; [|reflexivity].
  assert (X : do_exec (bare_desc d) e (after_hook e d ws w) c cb f ws = do_exec d e (after_hook e d ws w) c cb f ws); [|rewrite X; reflexivity].
  unfold do_exec. destruct (accepts cb (length ws)); [|reflexivity]. change (hook_calls e (bare_desc d) ws) with (hook_calls e d ws).
  destruct cb; try reflexivity.
  - unfold do_cd. change (hook_calls e (bare_desc d) ws) with (hook_calls e d ws). rewrite said_bare. reflexivity.
  - unfold do_echo. destruct (tl ws) as [|t1 [|t2 [|t3 [|]]]]; try reflexivity. destruct (beq t2 (lit ">")); [|reflexivity].
    destruct (denotes (after_hook e d ws w) t3) as [g|]; [|reflexivity]. destruct (f_set g) as [k|]; [|reflexivity]. unfold do_calls.
    change (hook_calls e (bare_desc d) ws) with (hook_calls e d ws). rewrite said_bare. reflexivity.
  - unfold do_calls. change (hook_calls e (bare_desc d) ws) with (hook_calls e d ws). rewrite said_bare. reflexivity.
Qed.

Lemma no_tabs_app : forall a b, no_tabs (a ++ b) = no_tabs a ++ no_tabs b.
Proof. intros. apply filter_app. Qed.
Lemma tabs_app : forall a b, tabs_unread (a ++ b) = tabs_unread a ++ tabs_unread b.
Proof. intros. apply filter_app. Qed.

(** TAB does nothing. *)
Lemma tab_bare : forall x b, sess_step (uncompleting x) b TAB = ([], mkSess (se_world b) (se_read b ++ [TAB]) (se_esc b) (se_line b)).
Proof.
  intros x b. unfold sess_step. cbv zeta. assert (E : ends_line b TAB = false) by (unfold ends_line; destruct (se_esc b =? 0); reflexivity). rewrite E.
  assert (C : completes (uncompleting x) TAB = false) by reflexivity. rewrite C. reflexivity.
Qed.

(** The answers do not read anything. *)
Lemma tabs_out : forall t, tabs_unread (map EvOut t) = map EvOut t.
Proof. intros t. induction t as [|c t IH]; [reflexivity|]. cbn [map tabs_unread filter]. f_equal. exact IH. Qed.
Lemma read_all_tabs : forall e ns w, tabs_unread (fst (read_all e w ns)) = fst (read_all e w ns).
Proof.
  intros e ns. induction ns as [|n r IH]; intros w; [reflexivity|]. cbn [read_all]. destruct (denotes w n) as [f|]; [|reflexivity]. destruct (f_get f) as [cb|]; [|reflexivity].
  specialize (IH (after_get e w cb f)). destruct (read_all e (after_get e w cb f) r) as [evs w']. cbn [fst] in *. 
  change (tabs_unread (EvGet cb (f_name f) :: map EvOut (data_of e cb f) ++ evs)) with (EvGet cb (f_name f) :: tabs_unread (map EvOut (data_of e cb f) ++ evs)).
  rewrite tabs_app, tabs_out, IH. reflexivity.
Qed.
Lemma react_tabs : forall d e w c ws, tabs_unread (fst (fst (react d e w c ws))) = fst (fst (react d e w c ws)).
Proof.
  intros d e w c ws. unfold react. destruct ws as [|n r] eqn:E; [reflexivity|]. rewrite <- E. cbv zeta.
  assert (H : tabs_unread (hook_events d ws) = hook_events d ws) by (unfold hook_events; destruct (d_exec d); reflexivity).
  destruct (denotes (after_hook e d ws w) n) as [f|]; [|exact H]. destruct (f_exec f) as [cb|]; [|exact H].
  assert (X : tabs_unread (fst (fst (do_exec d e (after_hook e d ws w) c cb f ws))) = fst (fst (do_exec d e (after_hook e d ws w) c cb f ws))).
  { unfold do_exec. destruct (accepts cb (length ws)); [|reflexivity]. destruct cb; try reflexivity.
    - unfold do_cd. destruct (nth 1 ws []); [reflexivity|]. destruct (dir_named _ _); reflexivity.
    - unfold do_cat. destruct (first_unreadable _ (tl ws)); [reflexivity|]. pose proof (read_all_tabs e (tl ws) (after_hook e d ws w)) as R. destruct (read_all e (after_hook e d ws w) (tl ws)). exact R.
    - unfold do_xxd. destruct (denotes _ (nth 1 ws [])) as [g|]; [|reflexivity]. destruct (f_get g); reflexivity.
    - unfold do_echo. destruct (tl ws) as [|t1 [|t2 [|t3 [|]]]]; try reflexivity. destruct (beq t2 (lit ">")); [|reflexivity].
      destruct (denotes _ t3) as [g|]; [|reflexivity]. destruct (f_set g) as [k|]; reflexivity. }
  destruct (do_exec d e (after_hook e d ws w) c cb f ws) as [[e1 t1] w1]. cbn [fst] in *. rewrite tabs_app, H. f_equal. cbn [tabs_unread filter]. f_equal. exact X.
Qed.
Lemma step_tabs : forall x a c, tabs_unread (fst (sess_step x a c)) = fst (sess_step x a c).
Proof.
  intros x a c. unfold sess_step. cbv zeta. destruct (ends_line a c).
  - pose proof (react_tabs (x_desc x) (env_at x a c) (se_world a) c (line_argv x a)) as R. destruct (react _ _ _ _ _) as [[e1 t1] w1]. cbn [fst] in *.
    rewrite !tabs_app, !tabs_out, R. reflexivity.
  - destruct (completes x c); [destruct (complete _ _ _); apply tabs_out|apply tabs_out].
Qed.

Lemma step_bare : forall x a b c, c <> TAB -> deaf_to_tabs x -> alike_but_tabs a b ->
  fst (sess_step (uncompleting x) b c) = fst (sess_step x a c) /\ alike_but_tabs (snd (sess_step x a c)) (snd (sess_step (uncompleting x) b c)).
Proof.
  intros x a b c N D (W & R & E & L). unfold sess_step. cbv zeta. unfold ends_line, line_argv, env_at. cbn [uncompleting x_desc x_app].
  assert (Cx : completes x c = false) by (unfold completes; rewrite (ceq_neq c TAB N); reflexivity).
  assert (Cy : completes (uncompleting x) c = false) by (unfold completes; rewrite (ceq_neq c TAB N); reflexivity).
  rewrite Cx, Cy, <- W, <- E, <- L. change (d_insize (bare_desc (x_desc x))) with (d_insize (x_desc x)).
  assert (Rd : no_tabs (se_read a ++ [c]) = no_tabs (se_read b ++ [c])) by (rewrite !no_tabs_app, R; reflexivity).
  destruct ((se_esc a =? 0) && (ceq c CR || ceq c LF)).
  - rewrite (D (se_read b ++ [c])), <- Rd, <- (D (se_read a ++ [c])), react_bare.
    destruct (react (x_desc x) (x_app x (se_read a ++ [c])) (se_world a) c (argv_of (kept_line (d_insize (x_desc x)) (se_line a)))) as [[e1 t1] w1].
    split; [reflexivity|]. cbn [snd]. split; [reflexivity|]. split; [exact Rd|split; reflexivity].
  - split; [reflexivity|]. cbn [snd]. split; [reflexivity|]. split; [exact Rd|split; reflexivity].
Qed.

Lemma run_bare : forall x cs a b, deaf_to_tabs x -> alike_but_tabs a b ->
  tabs_unread (fst (sess_run (uncompleting x) b cs)) = fst (sess_run x a (no_tabs cs)) /\ alike_but_tabs (snd (sess_run x a (no_tabs cs))) (snd (sess_run (uncompleting x) b cs)).
Proof.
  intros x cs. induction cs as [|c r IH]; intros a b D A; [split; [reflexivity|exact A]|]. destruct (ceq_spec c TAB) as [->|N].
  - cbn [sess_run no_tabs filter]. change (negb (ceq TAB TAB)) with false. cbv iota. fold (no_tabs r). rewrite tab_bare.
    assert (A' : alike_but_tabs a (mkSess (se_world b) (se_read b ++ [TAB]) (se_esc b) (se_line b))).
    { destruct A as (W & R & E & L). split; [exact W|]. split; [|split; [exact E|exact L]]. cbn [se_read]. rewrite no_tabs_app, app_nil_r. exact R. }
    specialize (IH a _ D A'). destruct IH as (I1 & I2). destruct (sess_run (uncompleting x) _ r) as [e2 b2]. cbn [fst snd app] in *. split; [exact I1|exact I2].
  - cbn [sess_run no_tabs filter]. rewrite (ceq_neq c TAB N). cbn [negb]. fold (no_tabs r). cbn [sess_run].
    pose proof (step_bare x a b c N D A) as (S1 & S2). pose proof (step_tabs x a c) as S3.
    destruct (sess_step x a c) as [e1 a1], (sess_step (uncompleting x) b c) as [e1' b1]. cbn [fst snd] in S1, S2, S3. subst e1'.
    destruct (IH a1 b1 D S2) as (I1 & I2). destruct (sess_run x a1 (no_tabs r)) as [e2 a2], (sess_run (uncompleting x) b1 r) as [e2' b2]. cbn [fst snd] in *.
    split; [|exact I2]. cbn [tabs_unread filter]. rewrite (ceq_neq c TAB N). cbn [negb]. f_equal. fold (tabs_unread (e1 ++ e2')). rewrite tabs_app, S3, I1. reflexivity.
Qed.

(** ** Limits *)
Lemma cat_bare : forall own d e ns w, cat_limits own d e w ns -> cat_limits own (bare_desc d) e w ns.
Proof.
  intros own d e. induction ns as [|n r IH]; intros w A; [exact I|]. cbn [cat_limits] in *. destruct A as (A & B & f & cb & C & D & E & F & H & K).
  split; [exact A|]. split; [exact B|]. exists f, cb. split; [exact C|]. split; [exact D|]. split; [exact E|]. split; [exact F|]. split; [exact H|apply IH; exact K].
Qed.
Lemma line_bare : forall own d e w ws, line_limits own d e w ws -> line_limits own (bare_desc d) e w ws.
Proof.
  intros own d e w [|n r]; [auto|]. unfold line_limits. cbv zeta. intros (A & B & C & D). split; [exact A|]. split; [exact B|]. split; [exact C|].
  intros f cb E1 E2 E3. specialize (D f cb E1 E2 E3). destruct cb; try exact D. destruct D as (D1 & D2). split; [exact D1|]. intros E. apply cat_bare, D2, E.
Qed.

Lemma limits_bare : forall own x cs a b, deaf_to_tabs x -> alike_but_tabs a b -> run_limits own x a (no_tabs cs) -> run_limits own (uncompleting x) b cs.
Proof.
  intros own x cs. induction cs as [|c r IH]; intros a b D A L; [exact I|]. cbn [run_limits]. destruct (ceq_spec c TAB) as [->|N].
  - cbn [no_tabs filter] in L. change (negb (ceq TAB TAB)) with false in L. cbv iota in L. fold (no_tabs r) in L. split.
    + split; [|intros E; discriminate E]. intros E. exfalso. unfold ends_line in E. destruct (se_esc b =? 0); discriminate E.
    + rewrite tab_bare. cbn [snd]. apply (IH a); [exact D| |exact L]. destruct A as (W & R & E & Li). split; [exact W|]. split; [|split; [exact E|exact Li]].
      cbn [se_read]. rewrite no_tabs_app, app_nil_r. exact R.
  - cbn [no_tabs filter] in L. rewrite (ceq_neq c TAB N) in L. cbn [negb] in L. fold (no_tabs r) in L. cbn [run_limits] in L. destruct L as ((L1 & _) & Lr). split.
    + split.
      * intros E. apply line_bare. destruct A as (W & R & Ee & Li). unfold env_at, line_argv, ends_line in *. cbn [uncompleting x_desc x_app] in *. change (d_insize (bare_desc (x_desc x))) with (d_insize (x_desc x)).
        rewrite <- W, <- Li. rewrite <- Ee in E. rewrite (D (se_read b ++ [c])), no_tabs_app, <- R, <- no_tabs_app, <- (D (se_read a ++ [c])). exact (L1 E).
      * intros E. unfold completes in E. rewrite (ceq_neq c TAB N) in E. discriminate E.
    + apply (IH (snd (sess_step x a c))); [exact D|exact (proj2 (step_bare x a b c N D A))|exact Lr].
Qed.

Lemma C79_proof : forall own x a b s t cs, deaf_to_tabs x -> alike_but_tabs a b -> shows own x a s -> run_limits own x a (no_tabs cs) -> shows own (uncompleting x) b t ->
  (forall m, exists q t', drive (app_of (uncompleting x)) cs m t = Ok (q, t')) /\
  exists n evs evs', evs = tabs_unread evs' /\
    (forall l, n <= both_ready l -> exists s', drive (app_of x) (no_tabs cs) l s = Ok ([], s') /\ polling s' /\ lg s' = lg s ++ evs) /\
    (forall m, n <= both_ready m -> exists t', drive (app_of (uncompleting x)) cs m t = Ok ([], t') /\ polling t' /\ lg t' = lg t ++ evs').
Proof.
  intros own x a b s t cs D A Hs Ls Ht. pose proof (limits_bare own x cs a b D A Ls) as Lp.
  destruct (schedule_done own x (no_tabs cs) a s s (quiet_by_here _ _ (shows_polling _ _ _ _ Hs)) Hs Ls) as (_ & n1 & s' & B1 & Sh1 & Lg1).
  destruct (schedule_done own (uncompleting x) cs b t t (quiet_by_here _ _ (shows_polling _ _ _ _ Ht)) Ht Lp) as (Al & n2 & t' & B2 & Sh2 & Lg2).
  split; [intros m; destruct (Al m) as (q & u & X); eauto|].
  exists (n1 + n2), (fst (sess_run x a (no_tabs cs))), (fst (sess_run (uncompleting x) b cs)). split; [symmetry; exact (proj1 (run_bare x cs a b D A))|]. split.
  - intros l L. exists s'. split; [apply B1; lia|]. split; [apply (shows_polling _ _ _ _ Sh1)|exact Lg1].
  - intros m L. exists t'. split; [apply B2; lia|]. split; [apply (shows_polling _ _ _ _ Sh2)|exact Lg2].
Qed.

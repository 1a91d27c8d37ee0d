(** * WatchProofs: proofs of C84. *)
From Coq Require Import Arith Lia.
From Verif Require Import Shell BaseFacts Words Sched Line Editor Spec Tree Cmds Complete History Session SessionProofs Watch.

Lemma spoken_unhooked : forall d ws l buf t, spoken (unhooked_desc d) ws buf t l = spoken d ws buf t l.
Proof.
  intros d ws l. induction l as [|a l IH]; intros buf t; [reflexivity|]. destruct a as [| | | |x| | | | | | | | | |]; cbn [spoken tree_call]; try apply IH.
  destruct x; [|apply IH]. destruct buf as [[]|]; apply IH.
Qed.
Lemma said_unhooked : forall d c ws l, said (unhooked_desc d) c ws l = said d c ws l.
Proof. intros. apply spoken_unhooked. Qed.

Lemma uw_app : forall a b, unwatched (a ++ b) = unwatched a ++ unwatched b.
Proof. intros. apply filter_app. Qed.
Lemma uw_out : forall t, unwatched (map EvOut t) = map EvOut t.
Proof. intros t. induction t as [|c t IH]; [reflexivity|]. cbn [map unwatched filter]. f_equal. exact IH. Qed.
Lemma uw_read : forall e ns w, unwatched (fst (read_all e w ns)) = fst (read_all e w ns).
Proof.
  intros e ns. induction ns as [|n r IH]; intros w; [reflexivity|]. cbn [read_all]. destruct (denotes w n) as [f|]; [|reflexivity]. destruct (f_get f) as [cb|]; [|reflexivity].
  specialize (IH (after_get e w cb f)). destruct (read_all e (after_get e w cb f) r) as [evs w']. cbn [fst] in *.
  change (unwatched (EvGet cb (f_name f) :: map EvOut (data_of e cb f) ++ evs)) with (EvGet cb (f_name f) :: unwatched (map EvOut (data_of e cb f) ++ evs)).
  rewrite uw_app, uw_out, IH. reflexivity.
Qed.

Lemma exec_unhooked : forall d e w c cb f ws, hook_calls e d ws = [] ->
  let r := do_exec d e w c cb f ws in do_exec (unhooked_desc d) e w c cb f ws = r /\ unwatched (fst (fst r)) = fst (fst r).
Proof.
  intros d e w c cb f ws H. cbv zeta. unfold do_exec. destruct (accepts cb (length ws)); [|split; reflexivity]. change (hook_calls e (unhooked_desc d) ws) with (@nil action). rewrite H.
  destruct cb; try (split; reflexivity).
  - unfold do_cd. destruct (nth 1 ws []); [split; reflexivity|]. destruct (dir_named _ _); [|split; reflexivity]. change (hook_calls e (unhooked_desc d) ws) with (@nil action). rewrite H, said_unhooked. split; reflexivity.
  - unfold do_cat. destruct (first_unreadable _ (tl ws)); [split; reflexivity|]. pose proof (uw_read e (tl ws) w) as R. destruct (read_all e w (tl ws)). split; [reflexivity|exact R].
  - unfold do_xxd. destruct (denotes _ (nth 1 ws [])) as [g|]; [|split; reflexivity]. destruct (f_get g); split; reflexivity.
  - unfold do_echo. destruct (tl ws) as [|t1 [|t2 [|t3 [|]]]]; try (split; reflexivity). destruct (beq t2 (lit ">")); [|split; reflexivity].
    destruct (denotes w t3) as [g|]; [|split; reflexivity]. destruct (f_set g) as [k|]; [|split; reflexivity]. unfold do_calls. change (hook_calls e (unhooked_desc d) ws) with (@nil action). rewrite H, said_unhooked. split; reflexivity.
  - unfold do_calls. rewrite said_unhooked. split; reflexivity.
Qed.

Lemma react_unhooked : forall d e w c ws, hook_calls e d ws = [] ->
  let r := react d e w c ws in react (unhooked_desc d) e w c ws = (unwatched (fst (fst r)), snd (fst r), snd r).
Proof.
  intros d e w c ws H. cbv zeta. unfold react. destruct ws as [|n r] eqn:E; [reflexivity|]. rewrite <- E in *. cbv zeta.
  assert (A : after_hook e d ws w = w) by (unfold after_hook; rewrite H; reflexivity). rewrite A. change (after_hook e (unhooked_desc d) ws w) with w.
  assert (U : unwatched (hook_events d ws) = []) by (unfold hook_events; destruct (d_exec d); reflexivity). change (hook_events (unhooked_desc d) ws) with (@nil event).
  destruct (denotes w n) as [f|]; [|cbn [fst snd]; rewrite U; reflexivity]. destruct (f_exec f) as [cb|]; [|cbn [fst snd]; rewrite U; reflexivity].
  destruct (exec_unhooked d e w c cb f ws H) as (X & Y). rewrite X. destruct (do_exec d e w c cb f ws) as [[evs t] w']. cbn [fst snd] in *. rewrite uw_app, U.
  change (unwatched (EvExec cb (Some (f_name f)) ws :: evs)) with (EvExec cb (Some (f_name f)) ws :: unwatched evs). rewrite Y. reflexivity.
Qed.

Lemma silent : forall x h ws, only_watches x -> hook_calls (x_app x h) (x_desc x) ws = [].
Proof. intros x h ws W. unfold hook_calls. destruct (d_exec (x_desc x)) as [k|] eqn:E; [exact (W h k ws E)|reflexivity]. Qed.

Lemma step_unhooked : forall x a c, only_watches x -> sess_step (unhooked x) a c = (unwatched (fst (sess_step x a c)), snd (sess_step x a c)).
Proof.
  intros x a c W. unfold sess_step. cbv zeta. change (env_at (unhooked x) a c) with (env_at x a c). change (line_argv (unhooked x) a) with (line_argv x a).
  change (completes (unhooked x) c) with (completes x c). change (x_desc (unhooked x)) with (unhooked_desc (x_desc x)). destruct (ends_line a c).
  - rewrite (react_unhooked (x_desc x) (env_at x a c) (se_world a) c (line_argv x a) (silent x _ _ W)). destruct (react _ _ _ _ _) as [[evs t] w']. cbn [fst snd].
    rewrite !uw_app, !uw_out. reflexivity.
  - destruct (completes x c).
    + change (complete (unhooked_desc (x_desc x)) (se_world a) (se_line a)) with (complete (x_desc x) (se_world a) (se_line a)). destruct (complete _ _ _). cbn [fst snd]. rewrite uw_out. reflexivity.
    + cbn [fst snd]. rewrite uw_out. reflexivity.
Qed.
Lemma run_unhooked : forall x cs a, only_watches x -> sess_run (unhooked x) a cs = (unwatched (fst (sess_run x a cs)), snd (sess_run x a cs)).
Proof.
  intros x cs. induction cs as [|c r IH]; intros a W; [reflexivity|]. cbn [sess_run]. rewrite step_unhooked by exact W. destruct (sess_step x a c) as [e1 a1]. cbn [fst snd]. rewrite IH by exact W.
  destruct (sess_run x a1 r) as [e2 a2]. cbn [fst snd]. change (unwatched (EvIn c :: e1 ++ e2)) with (EvIn c :: unwatched (e1 ++ e2)). rewrite uw_app. reflexivity.
Qed.

Lemma cat_unhooked : forall own d e ns w, cat_limits own d e w ns -> cat_limits own (unhooked_desc d) e w ns.
Proof.
  intros own d e ns. induction ns as [|n r IH]; intros w L; [exact I|]. cbn [cat_limits] in *. destruct L as (A & B & f & cb & D & G & Dl & Ch & Cw & L).
  split; [exact A|]. split; [exact B|]. exists f, cb. split; [exact D|]. split; [exact G|]. split; [exact Dl|]. split; [exact Ch|]. split; [exact Cw|exact (IH _ L)].
Qed.
Lemma line_unhooked : forall own d e w ws, hook_calls e d ws = [] -> line_limits own d e w ws -> line_limits own (unhooked_desc d) e w ws.
Proof.
  intros own d e w ws H L. unfold line_limits in *. destruct ws as [|n r] eqn:E; [exact I|]. rewrite <- E in *. cbv zeta in *.
  assert (A : after_hook e d ws w = w) by (unfold after_hook; rewrite H; reflexivity). rewrite A in L. change (after_hook e (unhooked_desc d) ws w) with w.
  destruct L as (C & St & So & L). split; [rewrite H in C; exact C|]. split; [exact St|]. split; [exact So|]. intros f cb D F Ac. specialize (L f cb D F Ac).
  unfold exec_limits in *. rewrite H in L. change (hook_calls e (unhooked_desc d) ws) with (@nil action).
  destruct cb; try exact L. destruct L as (L1 & L2). split; [exact L1|]. intros U. apply cat_unhooked. exact (L2 U).
Qed.
Lemma limits_unhooked : forall own x cs a, only_watches x -> run_limits own x a cs -> run_limits own (unhooked x) a cs.
Proof.
  intros own x cs. induction cs as [|c r IH]; intros a W L; [exact I|]. cbn [run_limits] in *. destruct L as ((L1 & L2) & L). split.
  - split; [|exact L2]. intros E. apply (line_unhooked own (x_desc x)); [exact (silent x _ _ W)|exact (L1 E)].
  - rewrite step_unhooked by exact W. exact (IH _ W L).
Qed.

Lemma C84_proof : forall own x a s t cs, only_watches x -> shows own x a s -> shows own (unhooked x) a t -> run_limits own x a cs ->
  exists n evs b,
    (forall l, n <= both_ready l -> exists s', drive (app_of x) cs l s = Ok ([], s') /\ shows own x b s' /\ lg s' = lg s ++ evs) /\
    (forall m, n <= both_ready m -> exists t', drive (app_of (unhooked x)) cs m t = Ok ([], t') /\ shows own (unhooked x) b t' /\ lg t' = lg t ++ unwatched evs).
Proof.
  intros own x a s t cs W Hs Ht Ls. pose proof (limits_unhooked own x cs a W Ls) as Lt.
  destruct (schedule_done own x cs a s s (quiet_by_here _ _ (shows_polling _ _ _ _ Hs)) Hs Ls) as (_ & n1 & s' & B1 & Sh1 & Lg1).
  destruct (schedule_done own (unhooked x) cs a t t (quiet_by_here _ _ (shows_polling _ _ _ _ Ht)) Ht Lt) as (_ & n2 & t' & B2 & Sh2 & Lg2).
  rewrite run_unhooked in Sh2, Lg2 by exact W. cbn [fst snd] in Sh2, Lg2.
  exists (n1 + n2), (fst (sess_run x a cs)), (snd (sess_run x a cs)). split.
  - intros l L. exists s'. split; [apply B1; lia|]. split; [exact Sh1|exact Lg1].
  - intros m L. exists t'. split; [apply B2; lia|]. split; [exact Sh2|exact Lg2].
Qed.

(** * LooksProofs: proofs of C81. *)
From Coq Require Import Arith Lia.
From Verif Require Import Shell BaseFacts Words Sched Line Editor Spec Tree Cmds Complete Session SessionProofs Looks.

Lemma un_app : forall a b, unseen (a ++ b) = unseen a ++ unseen b.
Proof. intros. apply filter_app. Qed.
Lemma un_out : forall t, unseen (map EvOut t) = [].
Proof. induction t; [reflexivity|exact IHt]. Qed.

(** Descriptors with the same hook give the same calls and the same world. *)
Lemma react_looks : forall d d' e w c ws, d_exec d = d_exec d' ->
  fst (fst (react d e w c ws)) = fst (fst (react d' e w c ws)) /\ snd (react d e w c ws) = snd (react d' e w c ws).
Proof.
  intros d d' e w c ws Ex. unfold react. destruct ws as [|n r] eqn:E; [auto|]. rewrite <- E. cbv zeta.
  assert (H1 : hook_events d ws = hook_events d' ws) by (unfold hook_events; rewrite Ex; reflexivity).
  assert (H2 : hook_calls e d ws = hook_calls e d' ws) by (unfold hook_calls; rewrite Ex; reflexivity).
  assert (H3 : after_hook e d ws w = after_hook e d' ws w) by (unfold after_hook; rewrite H2; reflexivity).
  rewrite H1, H3. destruct (denotes (after_hook e d' ws w) n) as [f|]; [|auto]. destruct (f_exec f) as [cb|]; [|auto].
  assert (X : let r1 := do_exec d e (after_hook e d' ws w) c cb f ws in let r2 := do_exec d' e (after_hook e d' ws w) c cb f ws in fst (fst r1) = fst (fst r2) /\ snd r1 = snd r2).
  { cbv zeta. unfold do_exec. destruct (accepts cb (length ws)); [|auto]. destruct cb; auto.
    - unfold do_cd. destruct (nth 1 ws []); [auto|]. destruct (dir_named _ _); auto.
    - unfold do_cat. destruct (first_unreadable _ (tl ws)); [auto|]. destruct (read_all e (after_hook e d' ws w) (tl ws)); auto.
    - unfold do_xxd. destruct (denotes _ (nth 1 ws [])) as [g|]; [|auto]. destruct (f_get g); auto.
    - unfold do_echo. destruct (tl ws) as [|t1 [|t2 [|t3 [|]]]]; auto. destruct (beq t2 (lit ">")); [|auto]. destruct (denotes _ t3) as [g|]; [|auto].
      destruct (f_set g) as [k|]; auto. }
  cbv zeta in X. destruct X as (A & B). destruct (do_exec d e (after_hook e d' ws w) c cb f ws) as [[e1 t1] w1], (do_exec d' e (after_hook e d' ws w) c cb f ws) as [[e2 t2] w2].
  cbn [fst snd] in *. subst. auto.
Qed.

Lemma complete_looks : forall d d' w l, snd (complete d w l) = snd (complete d' w l).
Proof. intros d d' w l. unfold complete. destruct (candidates w (here w) (last_word l)) as [|n [|m r]]; try reflexivity. destruct (beq _ _); reflexivity. Qed.

Lemma step_looks : forall x y a c, same_but_looks x y -> snd (sess_step x a c) = snd (sess_step y a c) /\ unseen (fst (sess_step x a c)) = unseen (fst (sess_step y a c)).
Proof.
  intros x y a c (Ei & Ee & Ea & Ef). unfold sess_step. cbv zeta. unfold env_at, line_argv, completes. rewrite <- Ei, <- Ea, <- Ef. destruct (ends_line a c).
  - pose proof (react_looks (x_desc x) (x_desc y) (x_app x (se_read a ++ [c])) (se_world a) c (argv_of (kept_line (d_insize (x_desc x)) (se_line a))) Ee) as (A & B).
    destruct (react (x_desc x) _ _ _ _) as [[e1 t1] w1], (react (x_desc y) _ _ _ _) as [[e2 t2] w2]. cbn [fst snd] in *. subst. split; [reflexivity|]. rewrite !un_app, !un_out. reflexivity.
  - destruct (ceq c TAB && cfg_autocomp (d_cfg (x_desc x))).
    + pose proof (complete_looks (x_desc x) (x_desc y) (se_world a) (se_line a)) as C.
      destruct (complete (x_desc x) (se_world a) (se_line a)), (complete (x_desc y) (se_world a) (se_line a)). cbn [fst snd] in *. subst. rewrite !un_out. auto.
    + split; [reflexivity|]. cbn [fst]. rewrite !un_out. reflexivity.
Qed.

Lemma run_looks : forall x y cs a, same_but_looks x y -> snd (sess_run x a cs) = snd (sess_run y a cs) /\ unseen (fst (sess_run x a cs)) = unseen (fst (sess_run y a cs)).
Proof.
  intros x y cs. induction cs as [|c r IH]; intros a S; [auto|]. cbn [sess_run]. pose proof (step_looks x y a c S) as (A & B).
  destruct (sess_step x a c) as [e1 a1], (sess_step y a c) as [e2 a2]. cbn [fst snd] in A, B. subst a2. destruct (IH a1 S) as (C & D).
  destruct (sess_run x a1 r) as [f1 b1], (sess_run y a1 r) as [f2 b2]. cbn [fst snd] in *. subst b2. split; [reflexivity|].
  change (unseen (EvIn c :: e1 ++ f1)) with (EvIn c :: unseen (e1 ++ f1)). change (unseen (EvIn c :: e2 ++ f2)) with (EvIn c :: unseen (e2 ++ f2)). rewrite !un_app, B, D. reflexivity.
Qed.

Lemma C81_proof : forall own own' x y a s t cs, same_but_looks x y -> shows own x a s -> run_limits own x a cs -> shows own' y a t -> run_limits own' y a cs ->
  exists n evs evs' b, unseen evs = unseen evs' /\
    (forall l, n <= both_ready l -> exists s', drive (app_of x) cs l s = Ok ([], s') /\ shows own x b s' /\ lg s' = lg s ++ evs) /\
    (forall m, n <= both_ready m -> exists t', drive (app_of y) cs m t = Ok ([], t') /\ shows own' y b t' /\ lg t' = lg t ++ evs').
Proof.
  intros own own' x y a s t cs S Hs Ls Ht Lt.
  destruct (schedule_done own x cs a s s (quiet_by_here _ _ (shows_polling _ _ _ _ Hs)) Hs Ls) as (_ & n1 & s' & B1 & Sh1 & Lg1).
  destruct (schedule_done own' y cs a t t (quiet_by_here _ _ (shows_polling _ _ _ _ Ht)) Ht Lt) as (_ & n2 & t' & B2 & Sh2 & Lg2).
  pose proof (run_looks x y cs a S) as (A & B). rewrite <- A in Sh2.
  exists (n1 + n2), (fst (sess_run x a cs)), (fst (sess_run y a cs)), (snd (sess_run x a cs)). split; [exact B|]. split.
  - intros l L. exists s'. split; [apply B1; lia|]. split; [exact Sh1|exact Lg1].
  - intros m L. exists t'. split; [apply B2; lia|]. split; [exact Sh2|exact Lg2].
Qed.

(** * SpacingProofs: proofs of C76. *)
From Coq Require Import Arith Lia.
From Verif Require Import Shell BaseFacts Words Sched Line Editor Spec Tree Cmds Complete Session SessionProofs Interrupt Forget ForgetProofs Spacing.

Lemma words_step : forall x a b c, same_words x a b -> no_memory_of x (se_read a) (se_read b) -> c = CR \/ c = LF ->
  fst (sess_step x a c) = fst (sess_step x b c) /\ stand_alike (snd (sess_step x a c)) (snd (sess_step x b c)) /\
  no_memory_of x (se_read (snd (sess_step x a c))) (se_read (snd (sess_step x b c))) /\
  (forall own, step_limits own x a c -> step_limits own x b c).
Proof.
  intros x a b c (Ew & E1 & E2 & Ea) N Hc.
  assert (Ev : env_at x b c = env_at x a c) by (unfold env_at; symmetry; apply N).
  assert (N' : no_memory_of x (se_read a ++ [c]) (se_read b ++ [c])) by (intros u; rewrite <- !app_assoc; apply N).
  assert (La : ends_line a c = true) by (unfold ends_line; rewrite E1; destruct Hc as [->| ->]; reflexivity).
  assert (Lb : ends_line b c = true) by (unfold ends_line; rewrite E2; destruct Hc as [->| ->]; reflexivity).
  unfold sess_step. rewrite La, Lb, Ev, <- Ew, <- Ea. destruct (react (x_desc x) (env_at x a c) (se_world a) c (line_argv x a)) as [[evs t] w2].
  cbn [fst snd se_read]. split; [reflexivity|]. split; [repeat split|]. split; [exact N'|].
  intros own (L & T). split; [rewrite Lb, Ev, <- Ew, <- Ea; intros _; exact (L La)|].
  intros H. unfold completes in H. destruct Hc as [->| ->]; discriminate H.
Qed.

Lemma C76_words_proof : forall own x a b s t c cs, same_words x a b -> no_memory_of x (se_read a) (se_read b) -> c = CR \/ c = LF ->
  shows own x a s -> shows own x b t -> run_limits own x a (c :: cs) ->
  (forall m, exists q t', drive (app_of x) (c :: cs) m t = Ok (q, t')) /\
  exists n evs, (forall l, n <= both_ready l -> exists s', drive (app_of x) (c :: cs) l s = Ok ([], s') /\ polling s' /\ lg s' = lg s ++ evs) /\
    (forall m, n <= both_ready m -> exists t', drive (app_of x) (c :: cs) m t = Ok ([], t') /\ polling t' /\ lg t' = lg t ++ evs).
Proof.
  intros own x a b s t c cs Al Nm Hc Hs Ht Ls. destruct (words_step x a b c Al Nm Hc) as (E & S' & N' & L). destruct (run_forgets x cs _ _ S' N') as (E' & L').
  assert (Lt : run_limits own x b (c :: cs)) by (destruct Ls as (A & B); split; [apply L; exact A|apply L'; exact B]).
  assert (Er : fst (sess_run x a (c :: cs)) = fst (sess_run x b (c :: cs))).
  { cbn [sess_run]. destruct (sess_step x a c) as [ev a1], (sess_step x b c) as [ev' b1]. cbn [fst snd] in *. destruct (sess_run x a1 cs), (sess_run x b1 cs). cbn [fst] in *. subst. reflexivity. }
  destruct (schedule_done own x _ a s s (quiet_by_here _ _ (shows_polling _ _ _ _ Hs)) Hs Ls) as (_ & n1 & s' & B1 & Sh1 & Lg1).
  destruct (schedule_done own x _ b t t (quiet_by_here _ _ (shows_polling _ _ _ _ Ht)) Ht Lt) as (A & n2 & t' & B2 & Sh2 & Lg2).
  split; [intros m; destruct (A m) as (q & u & D); eauto|]. exists (n1 + n2), (fst (sess_run x a (c :: cs))). split.
  - intros l H. exists s'. split; [apply B1; lia|]. split; [apply (shows_polling _ _ _ _ Sh1)|exact Lg1].
  - intros m H. exists t'. split; [apply B2; lia|]. split; [apply (shows_polling _ _ _ _ Sh2)|rewrite Er; exact Lg2].
Qed.

(** ** Blanks *)
Lemma lex_closed : forall n u v q, length u <= n -> closed q u = true -> lex q (u ++ v) = lex q u ++ lex false v.
Proof.
  induction n as [|n IH]; intros [|c u] v q L H.
  - cbn in H. apply negb_true_iff in H as ->. reflexivity.
  - cbn in L. lia.
  - cbn in H. apply negb_true_iff in H as ->. reflexivity.
  - cbn [length] in L. cbn [closed] in H. cbn [app lex]. destruct (ceq c BSL).
    + destruct u as [|e u]; [discriminate|]. cbn [app length] in *. rewrite IH by (auto; lia). rewrite app_assoc. reflexivity.
    + destruct (ceq c DQ); [rewrite IH by (auto; lia); reflexivity|]. destruct (ceq c SP && negb q); rewrite IH by (auto; lia); reflexivity.
Qed.
Lemma group_app : forall l w m, group w (l ++ Blank :: m) = group w l ++ group None m.
Proof.
  induction l as [|i l IH]; intros w m; [reflexivity|]. destruct i; cbn [app group]; try apply IH. rewrite IH, app_assoc. reflexivity.
Qed.
Lemma blank_first : forall v, words (SP :: v) = words v.
Proof. intros v. reflexivity. Qed.

Lemma C76_blanks_proof : forall u v n, closed false u = true -> words (u ++ repeat SP (S n) ++ v) = words u ++ words v.
Proof.
  intros u v n H. unfold words at 1. rewrite (lex_closed (length u) u _ false (Nat.le_refl _) H). cbn [repeat app].
  change (lex false (SP :: repeat SP n ++ v)) with (Blank :: lex false (repeat SP n ++ v)). rewrite group_app. f_equal.
  induction n as [|n IH]; [reflexivity|exact IH].
Qed.

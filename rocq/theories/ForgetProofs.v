(** * ForgetProofs: proofs of C69 and C70. *)
From Coq Require Import Arith Lia.
From Verif Require Import Shell BaseFacts Words Sched Line Editor Spec Tree Cmds Complete Session SessionProofs Interrupt Forget.

Lemma step_forgets : forall x a b c, stand_alike a b -> no_memory_of x (se_read a) (se_read b) ->
  fst (sess_step x a c) = fst (sess_step x b c) /\ stand_alike (snd (sess_step x a c)) (snd (sess_step x b c)) /\
  no_memory_of x (se_read (snd (sess_step x a c))) (se_read (snd (sess_step x b c))) /\
  (forall own, step_limits own x a c -> step_limits own x b c).
Proof.
  intros x [w h k l] [w' h' k' l'] c (E1 & E2 & E3) N. cbn [se_world se_esc se_line se_read] in *. subst w' k' l'.
  assert (Ev : env_at x (mkSess w h' k l) c = env_at x (mkSess w h k l) c) by (unfold env_at; cbn [se_read]; symmetry; apply N).
  assert (N' : no_memory_of x (h ++ [c]) (h' ++ [c])) by (intros u; rewrite <- !app_assoc; apply N).
  unfold sess_step. rewrite Ev. unfold ends_line, line_argv, completes, step_limits. rewrite Ev. cbn [se_world se_esc se_line se_read].
  destruct ((k =? 0) && (ceq c CR || ceq c LF)) eqn:En.
  - destruct (react (x_desc x) (env_at x (mkSess w h k l) c) w c (argv_of (kept_line (d_insize (x_desc x)) l))) as [[evs t] w2].
    cbn [fst snd se_read]. split; [reflexivity|]. split; [repeat split|]. split; [exact N'|]. unfold ends_line, line_argv, completes. cbn [se_esc se_line]. auto.
  - destruct (ceq c TAB && cfg_autocomp (d_cfg (x_desc x))).
    + destruct (complete (x_desc x) w l) as [out l2]. cbn [fst snd se_read]. split; [reflexivity|]. split; [repeat split|]. split; [exact N'|]. unfold ends_line, line_argv, completes. cbn [se_esc se_line]. auto.
    + cbn [fst snd se_read]. split; [reflexivity|]. split; [repeat split|]. split; [exact N'|]. unfold ends_line, line_argv, completes. cbn [se_esc se_line]. auto.
Qed.

Lemma run_forgets : forall x cs a b, stand_alike a b -> no_memory_of x (se_read a) (se_read b) ->
  fst (sess_run x a cs) = fst (sess_run x b cs) /\ (forall own, run_limits own x a cs -> run_limits own x b cs).
Proof.
  intros x cs. induction cs as [|c r IH]; intros a b S N; [split; [reflexivity|auto]|].
  destruct (step_forgets x a b c S N) as (E & S' & N' & L). destruct (IH _ _ S' N') as (E' & L'). cbn [sess_run run_limits].
  destruct (sess_step x a c) as [ev a1], (sess_step x b c) as [ev' b1]. cbn [fst snd] in *.
  destruct (sess_run x a1 r) as [ev2 a2], (sess_run x b1 r) as [ev2' b2]. cbn [fst] in *. subst ev' ev2'. split; [reflexivity|].
  intros own (A & B). split; [apply L; exact A|apply L'; exact B].
Qed.

Lemma C69_forgets_proof : forall own x a b s t cs, stand_alike a b -> no_memory_of x (se_read a) (se_read b) ->
  shows own x a s -> shows own x b t -> run_limits own x a cs ->
  (forall m, exists q t', drive (app_of x) cs m t = Ok (q, t')) /\
  exists n evs, (forall l, n <= both_ready l -> exists s', drive (app_of x) cs l s = Ok ([], s') /\ polling s' /\ lg s' = lg s ++ evs) /\
    (forall m, n <= both_ready m -> exists t', drive (app_of x) cs m t = Ok ([], t') /\ polling t' /\ lg t' = lg t ++ evs).
Proof.
  intros own x a b s t cs Al Nm Hs Ht Ls. destruct (run_forgets x cs a b Al Nm) as (E & L). pose proof (L own Ls) as Lt.
  destruct (schedule_done own x cs a s s (quiet_by_here _ _ (shows_polling _ _ _ _ Hs)) Hs Ls) as (_ & n1 & s' & B1 & Sh1 & Lg1).
  destruct (schedule_done own x cs b t t (quiet_by_here _ _ (shows_polling _ _ _ _ Ht)) Ht Lt) as (A & n2 & t' & B2 & Sh2 & Lg2).
  split; [intros m; destruct (A m) as (q & u & D); eauto|]. exists (n1 + n2), (fst (sess_run x a cs)). split.
  - intros l H. exists s'. split; [apply B1; lia|]. split; [apply (shows_polling _ _ _ _ Sh1)|exact Lg1].
  - intros m H. exists t'. split; [apply B2; lia|]. split; [apply (shows_polling _ _ _ _ Sh2)|rewrite E; exact Lg2].
Qed.

Lemma run_cat : forall x p q a, sess_run x a (p ++ q) =
  (fst (sess_run x a p) ++ fst (sess_run x (snd (sess_run x a p)) q), snd (sess_run x (snd (sess_run x a p)) q)).
Proof.
  intros x p. induction p as [|c p IH]; intros q a; cbn [app sess_run fst snd]; [destruct (sess_run x a q); reflexivity|].
  destruct (sess_step x a c) as [ev a1]. rewrite IH. destruct (sess_run x a1 p) as [ev2 a2]. cbn [fst snd].
  destruct (sess_run x a2 q). cbn [fst snd app]. rewrite <- app_assoc. reflexivity.
Qed.

Lemma limits_cat : forall own x p q a, run_limits own x a (p ++ q) <-> run_limits own x a p /\ run_limits own x (snd (sess_run x a p)) q.
Proof.
  intros own x p. induction p as [|c p IH]; intros q a; cbn [app sess_run run_limits snd]; [tauto|].
  rewrite IH. destruct (sess_step x a c) as [ev a1]. cbn [snd]. destruct (sess_run x a1 p). cbn [snd]. tauto.
Qed.

Lemma C69_histories_proof : forall own x a s p1 p2 cs, shows own x a s ->
  run_limits own x a (p1 ++ cs) -> run_limits own x a p2 ->
  let b1 := snd (sess_run x a p1) in let b2 := snd (sess_run x a p2) in
  stand_alike b1 b2 -> no_memory_of x (se_read b1) (se_read b2) ->
  exists n evs, forall l, n <= both_ready l ->
    (exists s', drive (app_of x) (p1 ++ cs) l s = Ok ([], s') /\ polling s' /\ lg s' = lg s ++ fst (sess_run x a p1) ++ evs) /\
    (exists s', drive (app_of x) (p2 ++ cs) l s = Ok ([], s') /\ polling s' /\ lg s' = lg s ++ fst (sess_run x a p2) ++ evs).
Proof.
  intros own x a s p1 p2 cs Hs L1 L2 b1 b2 Al Nm. apply limits_cat in L1 as (L1 & L1'). fold b1 in L1'.
  destruct (run_forgets x cs b1 b2 Al Nm) as (E & Lf). pose proof (Lf own L1') as L2'.
  assert (Q1 : run_limits own x a (p1 ++ cs)) by (apply limits_cat; split; assumption).
  assert (Q2 : run_limits own x a (p2 ++ cs)) by (apply limits_cat; split; assumption).
  destruct (schedule_done own x _ a s s (quiet_by_here _ _ (shows_polling _ _ _ _ Hs)) Hs Q1) as (_ & n1 & s1 & B1 & Sh1 & Lg1).
  destruct (schedule_done own x _ a s s (quiet_by_here _ _ (shows_polling _ _ _ _ Hs)) Hs Q2) as (_ & n2 & s2 & B2 & Sh2 & Lg2).
  exists (n1 + n2), (fst (sess_run x b1 cs)). intros l H. rewrite run_cat in Lg1, Lg2. cbn [fst] in Lg1, Lg2. fold b1 in Lg1. fold b2 in Lg2. rewrite <- E in Lg2. split.
  - exists s1. split; [apply B1; lia|]. split; [apply (shows_polling _ _ _ _ Sh1)|exact Lg1].
  - exists s2. split; [apply B2; lia|]. split; [apply (shows_polling _ _ _ _ Sh2)|exact Lg2].
Qed.

(** ** The tree *)
Definition mild (e : env) : Prop :=
  (forall k f ws, tree_calls (e_exec e k f ws) = []) /\ (forall k f t, tree_calls (e_set e k f t) = []) /\ (forall k f, tree_calls (g_calls (e_get e k f)) = []).

Lemma mild_hook : forall e d ws w, mild e -> after_hook e d ws w = w.
Proof. intros e d ws w (M & _). unfold after_hook, hook_calls. destruct (d_exec d); [rewrite M|]; reflexivity. Qed.
Lemma mild_get : forall e w k f, mild e -> after_get e w k f = w.
Proof. intros e w k f (_ & _ & M). unfold after_get. rewrite M. reflexivity. Qed.
Lemma mild_all : forall e w ns, mild e -> snd (read_all e w ns) = w.
Proof.
  intros e w ns M. revert w. induction ns as [|n r IH]; intros w; [reflexivity|]. cbn [read_all]. destruct (denotes w n) as [f|]; [|reflexivity]. destruct (f_get f) as [k|]; [|reflexivity].
  rewrite (mild_get e w k f M). specialize (IH w). destruct (read_all e w r). exact IH.
Qed.
Lemma mild_calls : forall d w c ws hk l, tree_calls l = [] -> snd (do_calls d w c ws hk l) = w.
Proof. intros d w c ws hk l E. unfold do_calls. rewrite E. reflexivity. Qed.

Lemma dir_named_dir : forall t fs dd, dir_named t fs = Some dd -> In dd fs.
Proof. intros [|c t] fs dd E; exact (proj1 (find_some _ _ E)). Qed.

Lemma mild_exec : forall d e w c cb f ws, mild e -> let w' := snd (do_exec d e w c cb f ws) in
  (cb <> XCd -> w' = w) /\ w_fs w' = w_fs w /\ w_groups w' = w_groups w /\
  (w_cwd w' = w_cwd w \/ exists dd, In dd (w_fs w) /\ w_cwd w' = Some (de_path dd)).
Proof.
  intros d e w c cb f ws M w'.
  assert (Or : w' = w \/ (cb = XCd /\ exists dd, In dd (w_fs w) /\ w' = mkWorld (w_fs w) (w_groups w) (Some (de_path dd)))).
  { subst w'. unfold do_exec. destruct (accepts cb (length ws)); [|left; reflexivity]. destruct cb.
    - left. reflexivity.
    - left. reflexivity.
    - unfold do_cd. cbv zeta. destruct (nth 1 ws []); [left; reflexivity|]. match goal with |- context [dir_named ?p (w_fs w)] => destruct (dir_named p (w_fs w)) as [dd|] eqn:E end; [|left; reflexivity].
      right. split; [reflexivity|]. exists dd. split; [exact (dir_named_dir _ _ _ E)|reflexivity].
    - left. reflexivity.
    - left. unfold do_cat. destruct (first_unreadable w (tl ws)); [reflexivity|]. pose proof (mild_all e w (tl ws) M) as E. destruct (read_all e w (tl ws)). exact E.
    - left. unfold do_xxd. destruct (denotes w (nth 1 ws [])) as [g|]; [|reflexivity]. destruct (f_get g) as [k|]; [|reflexivity]. apply (mild_get e w k g M).
    - left. unfold do_echo. destruct (tl ws) as [|t1 [|t2 [|t3 [|]]]]; try reflexivity. destruct (beq t2 (lit ">")); [|reflexivity].
      destruct (denotes w t3) as [g|]; [|reflexivity]. destruct (f_set g) as [k|]; [|reflexivity].
      pose proof (mild_calls d w c [] (hook_calls e d ws) (e_set e k (f_name g) (decode t1)) (proj1 (proj2 M) _ _ _)) as E. destruct (do_calls d w c [] (hook_calls e d ws) (e_set e k (f_name g) (decode t1))). exact E.
    - left. pose proof (mild_calls d w c ws (hook_calls e d ws) (e_exec e n (Some (f_name f)) ws) (proj1 M _ _ _)) as E. destruct (do_calls d w c ws (hook_calls e d ws) (e_exec e n (Some (f_name f)) ws)). exact E. }
  destruct Or as [->|(-> & dd & I & ->)]; [repeat split; auto|]. split; [congruence|]. cbn. split; [reflexivity|]. split; [reflexivity|]. right. eauto.
Qed.

Lemma mild_step : forall x a c, leaves_tree x -> let w := se_world a in let w' := se_world (snd (sess_step x a c)) in
  w_fs w' = w_fs w /\ w_groups w' = w_groups w /\ (w_cwd w' = w_cwd w \/ exists dd, In dd (w_fs w) /\ w_cwd w' = Some (de_path dd)) /\
  ((ends_line a c = true -> forall f, denotes (se_world a) (hd [] (line_argv x a)) = Some f -> f_exec f <> Some XCd) -> w' = w).
Proof.
  intros x a c Lt w w'. pose proof (Lt (se_read a ++ [c])) as M. cbv zeta in M. change (x_app x (se_read a ++ [c])) with (env_at x a c) in M. fold (mild (env_at x a c)) in M.
  subst w w'. unfold sess_step. destruct (ends_line a c).
  - unfold react. destruct (line_argv x a) as [|n r] eqn:Ea; [cbn [prints_only snd se_world]; repeat split; auto|].
    rewrite (mild_hook _ _ _ _ M). cbn [hd]. destruct (denotes (se_world a) n) as [f|]; [|cbn [snd se_world]; repeat split; auto].
    destruct (f_exec f) as [cb|] eqn:Ef; [|cbn [snd se_world]; repeat split; auto].
    pose proof (mild_exec (x_desc x) (env_at x a c) (se_world a) c cb f (n :: r) M) as (P1 & P2 & P3 & P4).
    destruct (do_exec (x_desc x) (env_at x a c) (se_world a) c cb f (n :: r)) as [[evs t] w2]. cbn [snd se_world] in *.
    split; [exact P2|]. split; [exact P3|]. split; [exact P4|]. intros Nc. apply P1. intros ->. exact (Nc eq_refl f eq_refl Ef).
  - destruct (completes x c); [destruct (complete (x_desc x) (se_world a) (se_line a))|]; cbn [snd se_world]; repeat split; auto.
Qed.

Lemma mild_run : forall x cs a, leaves_tree x -> let w := se_world a in let w' := se_world (snd (sess_run x a cs)) in
  w_fs w' = w_fs w /\ w_groups w' = w_groups w /\ (w_cwd w' = w_cwd w \/ exists dd, In dd (w_fs w) /\ w_cwd w' = Some (de_path dd)) /\
  (never_cd x a cs -> w' = w).
Proof.
  intros x cs. induction cs as [|c r IH]; intros a Lt w w'; [repeat split; auto|].
  subst w w'. cbn [sess_run never_cd]. pose proof (mild_step x a c Lt) as (A1 & A2 & A3 & A4). destruct (sess_step x a c) as [ev a1]. cbn [snd] in *.
  pose proof (IH a1 Lt) as (B1 & B2 & B3 & B4). destruct (sess_run x a1 r) as [ev2 a2]. cbn [snd] in *.
  split; [congruence|]. split; [congruence|]. split; [|intros (N & N'); rewrite (B4 N'); apply A4; exact N].
  destruct B3 as [B3|(dd & I & B3)]; [rewrite B3; exact A3|]. right. exists dd. split; [congruence|exact B3].
Qed.

Lemma never_cd_prefix : forall x p q a, never_cd x a (p ++ q) -> never_cd x a p.
Proof. intros x p. induction p as [|c p IH]; intros q a H; [exact I|]. cbn [app never_cd] in *. destruct H as (A & B). split; [exact A|exact (IH _ _ B)]. Qed.

Lemma C70_typing_proof : forall own x a s cs l q s', leaves_tree x -> shows own x a s -> run_limits own x a cs ->
  drive (app_of x) cs l s = Ok (q, s') -> polling s' ->
  let w := se_world a in exists cwd, knows own s' (mkWorld (w_fs w) (w_groups w) cwd) /\
    (cwd = w_cwd w \/ exists dd, In dd (w_fs w) /\ cwd = Some (de_path dd)) /\
    (never_cd x a cs -> cwd = w_cwd w).
Proof.
  intros own x a s cs l q s' Lt Hs Ls D P w.
  destruct (schedule_proof own x cs a s s l q s' (quiet_by_here _ _ (shows_polling _ _ _ _ Hs)) Hs Ls D) as (p & s2 & E & Q & Sh & _).
  rewrite (polling_quiet _ _ _ P Q) in Sh. destruct Sh as (_ & K & _). pose proof (mild_run x p a Lt) as (A1 & A2 & A3 & A4).
  destruct (se_world (snd (sess_run x a p))) as [fs gs cw]. cbn [w_fs w_groups w_cwd] in *. exists cw. subst fs gs. split; [exact K|]. split; [exact A3|].
  intros N. rewrite E in N. apply never_cd_prefix in N. specialize (A4 N). unfold w. rewrite <- A4. reflexivity.
Qed.

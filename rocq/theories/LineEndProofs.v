(** * LineEndProofs: proofs of C80. *)
From Coq Require Import Arith Lia.
From Verif Require Import Shell BaseFacts Words Sched Line Editor Spec Tree Cmds Complete Session SessionProofs LineEnd.

Lemma ble_refl : forall l, but_line_ends l l.
Proof. induction l; constructor; auto. Qed.
Lemma ble_app : forall l m l' m', but_line_ends l m -> but_line_ends l' m' -> but_line_ends (l ++ l') (m ++ m').
Proof. intros l m l' m' D. induction D; intros D'; cbn [app]; try (constructor; auto). exact D'. Qed.
Lemma cb_app : forall a b, callbacks (a ++ b) = callbacks a ++ callbacks b.
Proof. intros. apply filter_app. Qed.
Lemma cb_out : forall t, callbacks (map EvOut t) = [].
Proof. induction t; [reflexivity|exact IHt]. Qed.
Lemma same_key_refl : forall c, same_key c c.
Proof. left. reflexivity. Qed.
Lemma F2_refl : forall h, Forall2 same_key h h.
Proof. induction h; constructor; auto using same_key_refl. Qed.
Lemma F2_app : forall a b c d, Forall2 same_key a b -> Forall2 same_key c d -> Forall2 same_key (a ++ c) (b ++ d).
Proof. intros. apply Forall2_app; assumption. Qed.

(** What is printed when everything fits does not depend on the text already printed before. *)
Lemma spoken_shift : forall d ws l f1 f2 u t, 
  length (f1 ++ u) + length (formatted l) < d_outsize d -> length (f2 ++ u) + length (formatted l) < d_outsize d ->
  spoken d ws (Some (f1 ++ u, length f1)) t l = spoken d ws (Some (f2 ++ u, length f2)) t l.
Proof.
  intros d ws l. induction l as [|a l IH]; intros f1 f2 u t L1 L2; [reflexivity|].
  assert (Lf : length (formatted l) <= length (formatted (a :: l))) by (unfold formatted; cbn [flat_map]; rewrite app_length; lia).
  destruct a as [| | | |x| | | | | | | | | |]; cbn [spoken tree_call]; try reflexivity; try (apply IH; lia).
  destruct x as [v|]; [|reflexivity]. rewrite <- !app_assoc.
  assert (Lv : length (formatted (APrintf (FmtOk v) :: l)) = length v + length (formatted l)) by (unfold formatted; cbn [flat_map]; rewrite app_length; reflexivity).
  rewrite Lv, !app_length in *. unfold printf_text.
  destruct (Nat.ltb_spec (length (f1 ++ u ++ v)) (d_outsize d)) as [_|H]; [|rewrite !app_length in H; lia].
  destruct (Nat.ltb_spec (length (f2 ++ u ++ v)) (d_outsize d)) as [_|H]; [|rewrite !app_length in H; lia].
  rewrite !skipn_app, !skipn_all, !Nat.sub_diag. cbn [app skipn]. apply IH; rewrite !app_length; lia.
Qed.
Lemma said_end : forall d c c' ws l, 2 + length (formatted l) < d_outsize d -> said d c ws l = said d c' ws l.
Proof.
  intros d c c' ws l L. unfold said.
  assert (E : forall z, length (eol_echo z) <= 2) by (intros z; unfold eol_echo; destruct (ceq z CR); cbn; lia). pose proof (E c). pose proof (E c').
  pose proof (spoken_shift d ws l (eol_echo c) (eol_echo c') [] []) as S. rewrite !app_nil_r in S. apply S; lia.
Qed.

Definition fits_of (e : env) (d : desc) (ws : list bytes) : Prop :=
  let fit (calls : list action) := 2 + length (formatted (hook_calls e d ws ++ calls)) < d_outsize d in
  (forall k f, fit (e_exec e k f ws)) /\ (forall k f t, fit (e_set e k f t)) /\ fit [].

Lemma react_end : forall d e w c c' ws, fst (fst (react d e w c ws)) = fst (fst (react d e w c' ws)) /\ snd (react d e w c ws) = snd (react d e w c' ws) /\
  (fits_of e d ws -> snd (fst (react d e w c ws)) = snd (fst (react d e w c' ws))).
Proof.
  intros d e w c c' ws. unfold react. destruct ws as [|n r] eqn:E; [auto|]. rewrite <- E. cbv zeta.
  destruct (denotes (after_hook e d ws w) n) as [f|]; [|auto]. destruct (f_exec f) as [cb|]; [|auto].
  assert (X : let r1 := do_exec d e (after_hook e d ws w) c cb f ws in let r2 := do_exec d e (after_hook e d ws w) c' cb f ws in
    fst (fst r1) = fst (fst r2) /\ snd r1 = snd r2 /\ (fits_of e d ws -> snd (fst r1) = snd (fst r2))).
  { cbv zeta. unfold do_exec. destruct (accepts cb (length ws)); [|auto]. destruct cb; auto.
    - unfold do_cd. destruct (nth 1 ws []); [auto|]. destruct (dir_named _ _); [|auto]. cbn [fst snd]. split; [reflexivity|]. split; [reflexivity|].
      intros (_ & _ & F). rewrite app_nil_r in F. apply said_end. exact F.
    - unfold do_echo. destruct (tl ws) as [|t1 [|t2 [|t3 [|]]]]; auto. destruct (beq t2 (lit ">")); [|auto]. destruct (denotes _ t3) as [g|]; [|auto].
      destruct (f_set g) as [k|]; [|auto]. unfold do_calls. cbn [fst snd]. split; [reflexivity|]. split; [reflexivity|]. intros (_ & F & _). apply said_end. apply F.
    - unfold do_calls. cbn [fst snd]. split; [reflexivity|]. split; [reflexivity|]. intros (F & _). apply said_end. apply F. }
  cbv zeta in X. destruct X as (A & B & C). destruct (do_exec d e (after_hook e d ws w) c cb f ws) as [[e1 t1] w1], (do_exec d e (after_hook e d ws w) c' cb f ws) as [[e2 t2] w2].
  cbn [fst snd] in *. subst. auto.
Qed.

(** One key. *)
Lemma step_end : forall x a b c c', any_line_end x -> alike_but_ends a b -> same_key c c' ->
  alike_but_ends (snd (sess_step x a c)) (snd (sess_step x b c')) /\
  callbacks (EvIn c :: fst (sess_step x a c)) = callbacks (EvIn c' :: fst (sess_step x b c')) /\
  (prints_fit x -> but_line_ends (EvIn c :: fst (sess_step x a c)) (EvIn c' :: fst (sess_step x b c'))).
Proof.
  intros x a b c c' Al (W & R & E & L) K.
  assert (Rd : Forall2 same_key (se_read a ++ [c]) (se_read b ++ [c'])) by (apply F2_app; [exact R|constructor; [exact K|constructor]]).
  assert (En : env_at x a c = env_at x b c') by (unfold env_at; apply Al; exact Rd).
  assert (Ar : line_argv x a = line_argv x b) by (unfold line_argv; rewrite L; reflexivity).
  assert (Ei : forall d : byte, ends_line a d = ends_line b d) by (intros d; unfold ends_line; rewrite E; reflexivity).
  destruct K as [<-|K].
  - (* the same key *)
    unfold sess_step. cbv zeta. rewrite <- En, <- Ar, <- W, <- E, <- L, <- Ei. destruct (ends_line a c).
    + destruct (react (x_desc x) (env_at x a c) (se_world a) c (line_argv x a)) as [[e1 t1] w1]. cbn [fst snd].
      split; [split; [reflexivity|split; [exact Rd|split; reflexivity]]|]. split; [reflexivity|intros _; apply ble_refl].
    + destruct (completes x c); [destruct (complete (x_desc x) (se_world a) (se_line a)) as [o l']|]; cbn [fst snd];
        (split; [split; [reflexivity|split; [exact Rd|split; reflexivity]]|]; split; [reflexivity|intros _; apply ble_refl]).
  - assert (Cc : ends_line a c = (se_esc a =? 0) /\ ends_line b c' = (se_esc a =? 0)).
    { rewrite <- Ei. unfold ends_line. destruct K as [(-> & ->)|(-> & ->)]; cbn; rewrite Bool.andb_true_r; auto. }
    destruct Cc as (C1 & C2). unfold sess_step. cbv zeta. rewrite C1, C2, <- En, <- Ar, <- W, <- E, <- L.
    destruct (se_esc a =? 0) eqn:Es.
    + pose proof (react_end (x_desc x) (env_at x a c) (se_world a) c c' (line_argv x a)) as (A & B & C).
      destruct (react (x_desc x) (env_at x a c) (se_world a) c (line_argv x a)) as [[e1 t1] w1], (react (x_desc x) (env_at x a c) (se_world a) c' (line_argv x a)) as [[e2 t2] w2].
      cbn [fst snd] in *. subst e2 w2. split; [split; [reflexivity|split; [exact Rd|split; reflexivity]]|]. split.
      * cbn [callbacks filter]. fold (callbacks (map EvOut (eol_echo c) ++ e1 ++ map EvOut (t1 ++ prompt (x_desc x) (show (here w1))))).
        fold (callbacks (map EvOut (eol_echo c') ++ e1 ++ map EvOut (t2 ++ prompt (x_desc x) (show (here w1))))). rewrite !cb_app, !cb_out. reflexivity.
      * intros P. specialize (C (P _ _)). subst t2. destruct K as [(-> & ->)|(-> & ->)]; cbn [eol_echo]; constructor; apply ble_refl.
    + assert (Ct : completes x c = false /\ completes x c' = false) by (destruct K as [(-> & ->)|(-> & ->)]; auto). destruct Ct as (T1 & T2). rewrite T1, T2.
      apply Nat.eqb_neq in Es. destruct (se_esc a) as [|k]; [congruence|].
      assert (G : forall z, z = CR \/ z = LF -> ed_step (d_insize (x_desc x)) (S k, se_line a) z = (0, se_line a) /\ ed_out (CRLF ++ prompt (x_desc x) (show (here (se_world a)))) (S k, se_line a) z = []).
      { intros z [->| ->]; cbn; destruct k; auto. }
      destruct (G c) as (G1 & G2); [tauto|]. destruct (G c') as (G3 & G4); [tauto|]. rewrite G1, G2, G3, G4. cbn [fst snd map].
      split; [split; [reflexivity|split; [exact Rd|split; reflexivity]]|]. split; [reflexivity|]. intros _. destruct K as [(-> & ->)|(-> & ->)]; constructor; constructor.
Qed.

Lemma run_end : forall x cs ds a b, any_line_end x -> Forall2 same_key cs ds -> alike_but_ends a b ->
  alike_but_ends (snd (sess_run x a cs)) (snd (sess_run x b ds)) /\
  callbacks (fst (sess_run x a cs)) = callbacks (fst (sess_run x b ds)) /\
  (prints_fit x -> but_line_ends (fst (sess_run x a cs)) (fst (sess_run x b ds))).
Proof.
  intros x cs ds a b Al F. revert a b. induction F as [|c c' cs ds K F IH]; intros a b A; [split; [exact A|split; [reflexivity|intros _; constructor]]|].
  cbn [sess_run]. pose proof (step_end x a b c c' Al A K) as (S1 & S2 & S3). destruct (sess_step x a c) as [e1 a1], (sess_step x b c') as [e2 b1]. cbn [fst snd] in *.
  destruct (IH a1 b1 S1) as (I1 & I2 & I3). destruct (sess_run x a1 cs) as [f1 a2], (sess_run x b1 ds) as [f2 b2]. cbn [fst snd] in *. split; [exact I1|].
  change (EvIn c :: e1 ++ f1) with ((EvIn c :: e1) ++ f1). change (EvIn c' :: e2 ++ f2) with ((EvIn c' :: e2) ++ f2). split.
  - rewrite !cb_app, S2, I2. reflexivity.
  - intros P. apply ble_app; auto.
Qed.

(** The limits are the same. *)
Lemma limits_end : forall own x cs ds a b, any_line_end x -> Forall2 same_key cs ds -> alike_but_ends a b -> run_limits own x a cs -> run_limits own x b ds.
Proof.
  intros own x cs ds a b Al F. revert a b. induction F as [|c c' cs ds K F IH]; intros a b A L; [exact I|]. cbn [run_limits] in *. destruct L as ((L1 & L2) & Lr).
  split; [|apply (IH _ _ (proj1 (step_end x a b c c' Al A K)) Lr)].
  destruct A as (W & R & E & Li).
  assert (En : env_at x a c = env_at x b c') by (unfold env_at; apply Al; apply F2_app; [exact R|constructor; [exact K|constructor]]).
  split.
  - intros H. unfold line_argv in *. rewrite <- En, <- W, <- Li. apply L1. unfold ends_line in *. rewrite E. destruct K as [<-|[(-> & ->)|(-> & ->)]]; exact H.
  - intros H. rewrite <- W, <- Li. apply L2. destruct K as [<-|[(-> & ->)|(-> & ->)]]; [exact H|discriminate H|discriminate H].
Qed.

Lemma C80_proof : forall own x a b s t cs ds, any_line_end x -> Forall2 same_key cs ds -> alike_but_ends a b -> shows own x a s -> run_limits own x a cs -> shows own x b t ->
  (forall m, exists q t', drive (app_of x) ds m t = Ok (q, t')) /\
  exists n evs evs', callbacks evs = callbacks evs' /\ (prints_fit x -> but_line_ends evs evs') /\
    (forall l, n <= both_ready l -> exists s', drive (app_of x) cs l s = Ok ([], s') /\ polling s' /\ lg s' = lg s ++ evs) /\
    (forall m, n <= both_ready m -> exists t', drive (app_of x) ds m t = Ok ([], t') /\ polling t' /\ lg t' = lg t ++ evs').
Proof.
  intros own x a b s t cs ds Al F A Hs Ls Ht. pose proof (limits_end own x cs ds a b Al F A Ls) as Lp.
  destruct (schedule_done own x cs a s s (quiet_by_here _ _ (shows_polling _ _ _ _ Hs)) Hs Ls) as (_ & n1 & s' & B1 & Sh1 & Lg1).
  destruct (schedule_done own x ds b t t (quiet_by_here _ _ (shows_polling _ _ _ _ Ht)) Ht Lp) as (All & n2 & t' & B2 & Sh2 & Lg2).
  split; [intros m; destruct (All m) as (q & u & X); eauto|]. pose proof (run_end x cs ds a b Al F A) as (_ & Cb & Bl).
  exists (n1 + n2), (fst (sess_run x a cs)), (fst (sess_run x b ds)). split; [exact Cb|]. split; [exact Bl|]. split.
  - intros l L. exists s'. split; [apply B1; lia|]. split; [apply (shows_polling _ _ _ _ Sh1)|exact Lg1].
  - intros m L. exists t'. split; [apply B2; lia|]. split; [apply (shows_polling _ _ _ _ Sh2)|exact Lg2].
Qed.

(** An empty line. *)
Lemma C80_empty_proof : forall own x a s c, shows own x a s -> se_esc a = 0 -> se_line a = [] -> c = CR \/ c = LF ->
  let b := mkSess (se_world a) (se_read a ++ [c]) 0 [] in
  exists n, forall l, n <= both_ready l -> exists s', drive (app_of x) [c] l s = Ok ([], s') /\ shows own x b s' /\
    lg s' = lg s ++ EvIn c :: map EvOut (eol_echo c ++ prompt (x_desc x) (show (here (se_world a)))).
Proof.
  intros own x a s c Hs Es El C b.
  assert (Ib : 2 <= d_insize (x_desc x)) by (destruct Hs as (D & _ & _ & _ & _ & (_ & _ & B & _) & _); rewrite <- D; exact B).
  assert (Ar : line_argv x a = []).
  { unfold line_argv. rewrite El. unfold kept_line. cbn [length]. destruct (Nat.ltb_spec 1 (d_insize (x_desc x))); [reflexivity|lia]. }
  assert (En : ends_line a c = true) by (unfold ends_line; rewrite Es; destruct C as [->| ->]; reflexivity).
  assert (Nt : completes x c = false) by (destruct C as [->| ->]; reflexivity).
  assert (Li : run_limits own x a [c]).
  { cbn [run_limits]. split; [|exact I]. split; [intros _; rewrite Ar; exact I|intros E; rewrite Nt in E; discriminate E]. }
  destruct (schedule_done own x [c] a s s (quiet_by_here _ _ (shows_polling _ _ _ _ Hs)) Hs Li) as (_ & n & s' & B & Sh & Lg).
  assert (Rn : sess_run x a [c] = (EvIn c :: map EvOut (eol_echo c ++ prompt (x_desc x) (show (here (se_world a)))), b)).
  { cbn [sess_run]. unfold sess_step. cbv zeta. rewrite En, Ar. cbn [react prints_only]. cbn [app]. rewrite app_nil_r, map_app. reflexivity. }
  rewrite Rn in Sh, Lg. exists n. intros l L. exists s'. split; [exact (B l L)|]. split; [exact Sh|exact Lg].
Qed.

(** * AliasProofs: proofs of C83. *)
From Coq Require Import Arith Lia.
From Verif Require Import Shell BaseFacts Words Sched Line Editor Spec Tree Cmds Complete Session SessionProofs Forget ForgetProofs Alias.

Lemma place_file : forall w w' n n', w_fs w = w_fs w' -> same_place w w' n n' -> denotes w n = denotes w' n'.
Proof. intros w w' n n' F (_ & _ & R & A & B). unfold denotes, find_file. rewrite A, B, R, F. reflexivity. Qed.

Lemma places_readable : forall w w' ns ns', w_fs w = w_fs w' -> Forall2 (same_place w w') ns ns' -> first_unreadable w ns = first_unreadable w' ns'.
Proof.
  intros w w' ns ns' F H. induction H as [|n n' r r' P H IH]; [reflexivity|]. cbn [first_unreadable]. unfold unreadable. rewrite (place_file _ _ _ _ F P), IH. reflexivity.
Qed.
Lemma places_read : forall e w w' ns ns', mild e -> w_fs w = w_fs w' -> Forall2 (same_place w w') ns ns' -> fst (read_all e w ns) = fst (read_all e w' ns').
Proof.
  intros e w w' ns ns' M F H. induction H as [|n n' r r' P H IH]; [reflexivity|]. cbn [read_all]. rewrite (place_file _ _ _ _ F P).
  destruct (denotes w' n') as [f|]; [|reflexivity]. destruct (f_get f) as [k|]; [|reflexivity]. rewrite !mild_get by exact M.
  destruct (read_all e w r), (read_all e w' r'). cbn [fst] in *. subst. reflexivity.
Qed.

Lemma places_length : forall w w' ns ns', Forall2 (same_place w w') ns ns' -> length ns = length ns'.
Proof. intros w w' ns ns' H. induction H; [reflexivity|]. cbn [length]. rewrite IHForall2. reflexivity. Qed.

Lemma exec_alias : forall d e w w' c cb f name args args', mild e -> d_exec d = None -> w_fs w = w_fs w' -> w_groups w = w_groups w' -> renamed cb w w' args args' ->
  let r := do_exec d e w c cb f (name :: args) in let r' := do_exec d e w' c cb f (name :: args') in
  fst r = fst r' /\ ((snd r = w /\ snd r' = w') \/ (cb = XCd /\ snd r = snd r')).
Proof.
  intros d e w w' c cb f name args args' M Hk F G R. cbv zeta.
  assert (Ln : length args = length args').
  { destruct cb; cbn [renamed] in R; try (exfalso; exact R); try (destruct R as (_ & R); exact (places_length _ _ _ _ R)). destruct R as (t & n & n' & -> & -> & _). reflexivity. }
  unfold do_exec. cbn [length tl nth]. rewrite <- Ln. destruct (accepts cb (S (length args))) eqn:Ac; [|cbn; auto].
  destruct cb; cbn [renamed] in R; try (exfalso; exact R).
  - destruct R as (Ne & R). destruct R as [|n n' r r' P R]; [destruct (Ne eq_refl)|]. unfold do_help, prints_only. rewrite (place_file _ _ _ _ F P). cbn; auto.
  - destruct R as (Ne & R). destruct R as [|n n' r r' P R]; [destruct (Ne eq_refl)|]. unfold do_ls, prints_only. destruct P as (_ & _ & E & _). rewrite E, F. cbn; auto.
  - destruct R as (Ne & R). destruct R as [|n n' r r' P R]; [destruct (Ne eq_refl)|]. unfold do_cd, prints_only. cbn [nth]. destruct P as (N & N' & E & _).
    destruct n as [|n0 nr]; [destruct (N eq_refl)|]. destruct n' as [|m0 mr]; [destruct (N' eq_refl)|]. rewrite E, F. unfold hook_calls. rewrite Hk.
    destruct (dir_named _ _) as [dd|]; [|cbn; auto]. cbn [fst snd]. split; [reflexivity|]. right. rewrite G. auto.
  - destruct R as (Ne & R). unfold do_cat, prints_only. rewrite (places_readable _ _ _ _ F R). destruct (first_unreadable w' args'); [cbn; auto|].
    pose proof (places_read e w w' args args' M F R) as X. pose proof (mild_all e w args M) as Y. pose proof (mild_all e w' args' M) as Z.
    destruct (read_all e w args), (read_all e w' args'). cbn [fst snd] in *. subst. auto.
  - destruct R as (Ne & R). destruct R as [|n n' r r' P R]; [destruct (Ne eq_refl)|]. cbn [nth]. unfold do_xxd, prints_only. rewrite (place_file _ _ _ _ F P).
    destruct (denotes w' n') as [g|]; [|cbn; auto]. destruct (f_get g) as [k|]; [|cbn; auto]. rewrite !mild_get by exact M. cbn; auto.
  - destruct R as (t & n & n' & -> & -> & P). unfold do_echo, prints_only. cbn [tl]. rewrite (place_file _ _ _ _ F P). destruct (beq (lit ">") (lit ">")); [|cbn; auto].
    destruct (denotes w' n') as [g|]; [|cbn; auto]. destruct (f_set g) as [k|]; [|cbn; auto]. unfold hook_calls. rewrite Hk. unfold do_calls.
    destruct M as (_ & Ms & _). rewrite Ms. cbn; auto.
Qed.

Lemma C83_proof : forall own own' x a b s t c name args args' f cb,
  shows own x a s -> shows own' x b t -> se_esc a = 0 -> se_esc b = 0 -> c = CR \/ c = LF ->
  w_fs (se_world a) = w_fs (se_world b) -> w_groups (se_world a) = w_groups (se_world b) ->
  leaves_tree x -> d_exec (x_desc x) = None -> x_app x (se_read a ++ [c]) = x_app x (se_read b ++ [c]) ->
  line_argv x a = name :: args -> line_argv x b = name :: args' ->
  file_named name (flat_map snd (w_groups (se_world a))) = Some f -> f_exec f = Some cb -> renamed cb (se_world a) (se_world b) args args' ->
  run_limits own x a [c] -> run_limits own' x b [c] ->
  exists n gs u a' b',
    (forall l, n <= both_ready l -> exists s', drive (app_of x) [c] l s = Ok ([], s') /\ shows own x a' s' /\
       lg s' = lg s ++ EvIn c :: map EvOut (eol_echo c) ++ EvExec cb (Some (f_name f)) (name :: args) :: gs ++ map EvOut (u ++ prompt (x_desc x) (show (here (se_world a'))))) /\
    (forall l, n <= both_ready l -> exists t', drive (app_of x) [c] l t = Ok ([], t') /\ shows own' x b' t' /\
       lg t' = lg t ++ EvIn c :: map EvOut (eol_echo c) ++ EvExec cb (Some (f_name f)) (name :: args') :: gs ++ map EvOut (u ++ prompt (x_desc x) (show (here (se_world b'))))) /\
    ((se_world a' = se_world a /\ se_world b' = se_world b) \/ (cb = XCd /\ se_world a' = se_world b')).
Proof.
  intros own own' x a b s t c name args args' f cb Hs Ht Ea Eb Ec F G Lt Hk Ap La Lb Fn Fe R Ls Lt'.
  destruct (schedule_done own x [c] a s s (quiet_by_here _ _ (shows_polling _ _ _ _ Hs)) Hs Ls) as (_ & n1 & s' & B1 & Sh1 & Lg1).
  destruct (schedule_done own' x [c] b t t (quiet_by_here _ _ (shows_polling _ _ _ _ Ht)) Ht Lt') as (_ & n2 & t' & B2 & Sh2 & Lg2).
  pose proof (Lt (se_read b ++ [c])) as M. cbv zeta in M. fold (mild (x_app x (se_read b ++ [c]))) in M.
  assert (En : forall a0, se_esc a0 = 0 -> ends_line a0 c = true) by (intros a0 E0; unfold ends_line; rewrite E0; destruct Ec as [->| ->]; reflexivity).
  assert (De : forall w, w_groups w = w_groups (se_world b) -> denotes w name = Some f) by (intros w E; unfold denotes, find_file; rewrite E, <- G, Fn; reflexivity).
  pose proof (exec_alias (x_desc x) (x_app x (se_read b ++ [c])) (se_world a) (se_world b) c cb f name args args' M Hk F G R) as X. cbv zeta in X.
  cbn [sess_run] in Sh1, Lg1, Sh2, Lg2. unfold sess_step in Sh1, Lg1, Sh2, Lg2. rewrite (En a Ea) in Sh1, Lg1. rewrite (En b Eb) in Sh2, Lg2.
  unfold env_at in Sh1, Lg1, Sh2, Lg2. rewrite Ap in Sh1, Lg1. rewrite La in Sh1, Lg1. rewrite Lb in Sh2, Lg2.
  unfold react, hook_events in Sh1, Lg1, Sh2, Lg2. rewrite Hk in Sh1, Lg1, Sh2, Lg2. cbv zeta in Sh1, Lg1, Sh2, Lg2.
  rewrite mild_hook in Sh1, Lg1, Sh2, Lg2 by exact M. rewrite (De _ G) in Sh1, Lg1. rewrite (De _ eq_refl) in Sh2, Lg2. rewrite Fe in Sh1, Lg1, Sh2, Lg2.
  destruct (do_exec _ _ (se_world a) _ _ _ _) as [[g1 u1] w1], (do_exec _ _ (se_world b) _ _ _ _) as [[g2 u2] w2]. cbn [fst snd app] in *.
  destruct X as (X1 & X2). injection X1 as -> ->. rewrite !app_nil_r in Lg1, Lg2.
  exists (n1 + n2), g2, u2. do 2 eexists. split; [|split].
  - intros l L. exists s'. split; [apply B1; lia|]. split; [exact Sh1|]. rewrite Lg1. reflexivity.
  - intros l L. exists t'. split; [apply B2; lia|]. split; [exact Sh2|]. rewrite Lg2. reflexivity.
  - exact X2.
Qed.

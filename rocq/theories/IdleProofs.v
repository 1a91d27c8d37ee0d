(** * IdleProofs: behind C52. *)
From Coq Require Import Arith.
From Verif Require Import Shell BaseFacts LogFacts Sched SchedFacts SchedProofs Macro Line Spec Tree TreeFacts TreeProofs Cmds PrintfFacts CmdProofs PromptFacts IdleFacts Session SessionProofs.

Lemma op_aloof : forall o s r s', do_op o s = Ok (r, s') -> aloof s -> aloof s'.
Proof.
  intros o s r s' H A.
  assert (X : exists a, fair_action a /\ do_action [] a s = Ok s').
  { destruct o; [exists (AMount (show p) id fl)|exists (AUnmount t)|exists (ACmdAdd id fl)|exists (ACmdRemove id)|exists (ASetDir t)]; (split; [exact Logic.I|]); cbn [do_action do_op] in *; rewrite H; reflexivity. }
  destruct X as (a & F & E). apply (action_keepsq [] a s s' F E). exact A.
Qed.
Lemma ops_aloof : forall os s r s', do_ops os s = Ok (r, s') -> aloof s -> aloof s'.
Proof.
  intros os. induction os as [|o os IH]; intros s r s' H A; cbn [do_ops] in H; [oks; exact A|]. ok1. destruct a as [y s1]. ok1. destruct a as [ys s2].
  injection H as <- <-. eapply IH; [exact E0|]. eapply op_aloof; eauto.
Qed.
Lemma init_aloof : forall d ib ob s s', ush_init d ib ob s = Ok s' -> aloof s'.
Proof. intros d ib ob s s' H. unfold ush_init in H. ok1. ok1. ok1. injection H as <-. apply aloof_write; reflexivity. Qed.

Lemma C52_settled_proof : forall x d ib ob s s0 os rs s1 cs l q s2, ush_init d ib ob s = Ok s0 -> do_ops os s0 = Ok (rs, s1) ->
  well_behaved x -> drive (app_of x) cs l s1 = Ok (q, s2) -> polling s2 -> settled s2.
Proof.
  intros x d ib ob s s0 os rs s1 cs l q s2 I O Wb Dr P. apply calm_settled; [exact P|]. eapply drive_calm; [exact Wb| |exact Dr].
  apply calm_aloof. eapply ops_aloof; [exact O|]. eapply init_aloof. exact I.
Qed.

Lemma C52_kept_proof : forall x cs l q s s', well_behaved x -> polling s -> settled s -> drive (app_of x) cs l s = Ok (q, s') -> polling s' -> settled s'.
Proof. intros x cs l q s s' Wb P Se Dr P'. apply calm_settled; [exact P'|]. eapply drive_calm; [exact Wb| |exact Dr]. apply settled_calm; assumption. Qed.

Lemma C52_printing_proof : forall own x a s l, shows own x a s -> settled s -> l <> [] -> Forall (printing_call []) l -> 3 + length (formatted l) < d_outsize (x_desc x) ->
  exists s1 s2 n, do_actions [] l s = Ok s1 /\ (forall sched, n <= both_ready sched -> drive (app_of x) [] sched s1 = Ok ([], s2)) /\
    editing 0 [] s2 /\ core s2 = core s /\ lg s2 = lg s ++ map EvOut (spoken (x_desc x) [] None [] l ++ prompt (x_desc x) (show (here (se_world a)))).
Proof.
  intros own x a s l Sh Se L1 L2 L3. pose proof Sh as (D & K & Wn & Hr & Ed & B & Le & Ef).
  assert (W : cwd_is s (show (here (se_world a)))) by (eapply cwd_show; [exact K|apply here_cwd; exact Wn]).
  rewrite <- D in L3. destruct (says_quiet (x_app x (ins (lg s))) s l _ (proj1 Ed) Se W B L1 L2 L3) as (s1 & s2 & E & Al & Q & Ed2 & B2 & K2 & Lg2).
  assert (Q' : quiet_by (app_of x) s1 s2). { apply (quiet_on_input (x_app x)). rewrite (do_actions_lg _ _ _ _ E). exact Q. }
  destruct (drive_started (app_of x) [] s1 s2 s2 Q') as (_ & n & Dn); [constructor; exact (proj1 Ed2)|injection K2 as _ _ _ X _ _; rewrite X; exact (cwd_cur _ _ W)|].
  exists s1, s2, n. split; [exact E|]. split; [exact Dn|]. split; [exact Ed2|]. split; [exact K2|]. rewrite <- D. exact Lg2.
Qed.

Lemma spoken_printf : forall d us full, length (full ++ concat us) < d_outsize d -> us <> [] ->
  spoken d [] (Some (full, 0)) full (map (fun u => APrintf (FmtOk u)) us) = full ++ concat us.
Proof.
  intros d us. induction us as [|u us IH]; intros full L Ne; [congruence|]. cbn [map spoken concat]. cbn [concat] in L. rewrite app_assoc in L.
  assert (Lu : length (full ++ u) < d_outsize d) by (rewrite app_length in L; lia).
  rewrite printf_eq, cut_fits by exact Lu. apply Nat.ltb_lt in Lu as Lu'. rewrite Lu', app_nil_r. cbn [skipn].
  destruct us as [|v us]; [cbn [map spoken concat]; rewrite app_nil_r; reflexivity|]. rewrite IH by (congruence || exact L). rewrite <- app_assoc. reflexivity.
Qed.
Lemma spoken_series : forall d us, length (concat us) < d_outsize d -> us <> [] -> spoken d [] None [] (map (fun u => APrintf (FmtOk u)) us) = concat us.
Proof.
  intros d us L Ne. destruct us as [|u us]; [congruence|]. exact (spoken_printf d (u :: us) [] L Ne).
Qed.
Lemma formatted_series : forall us, formatted (map (fun u => APrintf (FmtOk u)) us) = concat us.
Proof. intros us. unfold formatted. induction us as [|u us IH]; [reflexivity|]. cbn [map flat_map concat]. rewrite IH. reflexivity. Qed.

Lemma C52_printf_proof : forall own x a s us, shows own x a s -> settled s -> us <> [] -> Forall (fun u => ~ In NUL u) us -> 3 + length (concat us) < d_outsize (x_desc x) ->
  exists s1 s2 n, do_actions [] (map (fun u => APrintf (FmtOk u)) us) s = Ok s1 /\ (forall sched, n <= both_ready sched -> drive (app_of x) [] sched s1 = Ok ([], s2)) /\
    editing 0 [] s2 /\ core s2 = core s /\ lg s2 = lg s ++ map EvOut (concat us ++ prompt (x_desc x) (show (here (se_world a)))).
Proof.
  intros own x a s us Sh Se Ne Nn Lf. rewrite <- (spoken_series (x_desc x) us) by (lia || exact Ne). apply (C52_printing_proof own); auto.
  - destruct us; [congruence|discriminate].
  - clear - Nn. induction Nn as [|u us Hu _ IH]; constructor; [exact Hu|exact IH].
  - rewrite formatted_series. exact Lf.
Qed.

Lemma C52_ample_proof : forall own x W ts a s, well_behaved x -> snug own x W -> W (se_world a) -> shows own x a s -> settled s ->
  turns_fit own x W a ts -> turns_limits own x a ts.
Proof.
  intros own x W ts. induction ts as [|t ts IH]; intros a s Wb Am Iw Sh Se F; [exact Logic.I|]. destruct F as (Ft & Fr).
  assert (L : turn_limits own x a t /\ W (se_world (snd (take_turn x a t)))).
  { destruct t as [cs|o|l|u|]; cbn [turn_fits turn_limits take_turn finishes snd se_world] in *; auto.
    - split; [exact (tabs_run own x W cs a s Am Iw Sh Ft)|exact (snug_walk own x W cs a Am Iw)].
    - destruct (Ft _ Iw) as (A & B & C). auto.
    - split; [exact Logic.I|]. destruct Sh as (_ & K & Wn & _). pose proof K as ((O & _) & _ & _ & _ & _ & Cu). destruct (w_cwd (se_world a)) as [cwd|]; [|congruence]. destruct Cu as (d & Dd & _).
      destruct (dir_at [] (w_fs (se_world a))) as [r|] eqn:Dr; [|rewrite (no_root_empty _ O Dr) in Dd; discriminate]. apply dir_at_some in Dr as (Ir & Pr).
      destruct (Am _ Iw) as (_ & _ & _ & _ & _ & Ch & _). rewrite <- Pr. apply Ch. exact Ir. }
  destruct L as (L & Iw'). split; [exact L|].
  destruct (C49_exists_proof own x [t] a s Wb Sh Se (conj L Logic.I)) as (s1 & A).
  destruct (C49_turns_proof own x [t] a s s1 Wb Sh Se (conj L Logic.I) A) as (Sh1 & Se1 & _). cbn [take_turns] in Sh1.
  destruct (take_turn x a t) as [evs a1]. cbn [snd] in *. eapply IH; eauto.
Qed.

(** * Proofs for property C58 *)
From Coq Require Import Arith Lia.
From Verif Require Import Shell BaseFacts LogFacts Words Sched ServiceFacts SchedFacts SchedProofs EditFacts Line Editor Spec Tree TreeProofs Cmds Complete Session SessionProofs ExecFacts BuildinFacts Interrupt InterruptProofs Busy BusyProofs Lives.

Lemma op_buildin : forall o s r s', do_op o s = Ok (r, s') -> o_buildin s' = o_buildin s.
Proof.
  intros o s r s' H. destruct o; cbn [do_op] in H.
  - unfold ush_node_mount in H. oks2; reflexivity.
  - unfold ush_node_unmount in H. oks2; reflexivity.
  - unfold ush_commands_add in H. oks2; reflexivity.
  - unfold ush_commands_remove in H. oks2; reflexivity.
  - unfold ush_node_set_current_dir in H. oks2; reflexivity.
Qed.
Lemma ops_buildin : forall os s rs s', do_ops os s = Ok (rs, s') -> o_buildin s' = o_buildin s.
Proof.
  induction os as [|o os IH]; intros s rs s' H; cbn [do_ops] in H; [injection H as <- <-; reflexivity|].
  destruct (do_op o s) as [[r s1]|] eqn:E; [|discriminate H]. cbn [bind] in H. destruct (do_ops os s1) as [[rs1 s2]|] eqn:E2; [|discriminate H]. cbn [bind] in H. injection H as <- <-.
  rewrite (IH _ _ _ E2). exact (op_buildin _ _ _ _ E).
Qed.
Lemma init_buildin : forall d ib ob s s', ush_init d ib ob s = Ok s' -> o_buildin s' = o_buildin s.
Proof. intros d ib ob s s' H. unfold ush_init, ush_commands_add in H. oks2; reflexivity. Qed.
Lemma lived_buildin : forall own x W w0 s0 ops held s, lived own x W w0 s0 ops held s -> o_buildin s = o_buildin s0.
Proof.
  induction 1; auto.
  - rewrite <- IHlived. eapply service_buildin; eauto.
  - rewrite <- IHlived. eapply op_buildin; eauto.
  - rewrite <- IHlived. eapply action_buildin; eauto.
  - rewrite <- IHlived. eapply actions_buildin; eauto.
Qed.

Definition fresh_object (own : list nat) (b : nat) (s : st) : Prop :=
  exists d0 ib0 ob0 h l, s = st_zero d0 b ib0 ob0 h l /\ In b own /\ childless own h.

Lemma start_fresh : forall own b s d ib ob os f, fresh_object own b s -> right_start own b d ib ob os ->
  let w := snd (spec_ops os (first_world b d)) in
  exists s0 s1, ush_init d ib ob s = Ok s0 /\ do_ops os s0 = Ok (fst (spec_ops os (first_world b d)), s1) /\
    begins own (mkSetting d f) w s1 /\ o_buildin s1 = b.
Proof.
  intros own b s d ib ob os f (d0 & ib0 & ob0 & h & l & -> & Ib & Ch) (I1 & O1 & Li & Lo & Bc & Al & Wc) w.
  destruct (start_again d d0 b ib0 ob0 h l ib ob own os f I1 O1 Li Lo Bc Ib Ch Al Wc) as (s0 & s1 & E0 & E1 & Bg).
  exists s0, s1. split; [exact E0|]. split; [exact E1|]. split; [exact Bg|]. rewrite (ops_buildin _ _ _ _ E1), (init_buildin _ _ _ _ _ E0). reflexivity.
Qed.

Lemma shut_proof : forall own b w s, knows own s w -> o_buildin s = b -> In b own ->
  exists s', ush_deinit s = Ok s' /\ fresh_object own b s' /\ lg s' = lg s /\ (forall i, ush_service i s' = Err EAssert) /\
    (forall i, In i (map de_node (w_fs w)) -> nth_error (hp s') i = Some node_zero) /\
    (forall i, ~ In i (map de_node (w_fs w)) -> i <> b -> nth_error (hp s') i = nth_error (hp s) i).
Proof.
  intros own b w s K <- Ib. pose proof K as (_ & _ & _ & _ & Kc & _).
  destruct (C35_proof own s w K) as (h' & E & _ & Z & O). { destruct (Kc _ Ib) as (nd & E & _). rewrite E. discriminate. }
  eexists. split; [exact E|]. split; [|split; [reflexivity|split; [intros i; apply service_no_dir; reflexivity|split; [intros i I; apply Z; auto|exact O]]]].
  exists (o_desc s), (inb s), (outb s), h', (lg s). split; [reflexivity|]. split; [exact Ib|]. intros i I.
  destruct (Nat.eq_dec i (o_buildin s)) as [->|Nb]; [exists node_zero; split; [apply Z; auto|reflexivity]|].
  destruct (in_dec Nat.eq_dec i (map de_node (w_fs w))) as [J|J]; [exists node_zero; split; [apply Z; auto|reflexivity]|].
  destruct (Kc i I) as (nd & En & Cn). exists nd. split; [rewrite (O i J Nb); exact En|exact (Cn J)].
Qed.

Lemma fresh_in : forall own b s, fresh_object own b s -> In b own.
Proof. intros own b s (d0 & ib0 & ob0 & h & l & _ & Ib & _). exact Ib. Qed.

Lemma life_ends : forall own b s d ib ob os f W s0 rs s1 ops held s2, fresh_object own b s -> right_start own b d ib ob os ->
  ush_init d ib ob s = Ok s0 -> do_ops os s0 = Ok (rs, s1) ->
  let x := mkSetting d f in let w := snd (spec_ops os (first_world b d)) in
  ample own x W -> W w -> lived own x W w s1 ops held s2 -> let w2 := snd (spec_ops ops w) in
  exists s3, ush_deinit s2 = Ok s3 /\ fresh_object own b s3 /\ lg s3 = lg s2 /\ (forall i, ush_service i s3 = Err EAssert) /\
    (forall i, In i (map de_node (w_fs w2)) -> nth_error (hp s3) i = Some node_zero) /\
    (forall i, ~ In i (map de_node (w_fs w2)) -> i <> b -> nth_error (hp s3) i = nth_error (hp s2) i).
Proof.
  intros own b s d ib ob os f W s0 rs s1 ops held s2 Fr Rs E0 E1 x w Am Ww Lv w2.
  destruct (start_fresh own b s d ib ob os f Fr Rs) as (s0' & s1' & E0' & E1' & Bg & Bi). fold w x in Bg. rewrite E0 in E0'. injection E0' as <-. rewrite E1 in E1'. injection E1' as _ <-.
  pose proof (lived_course _ _ _ _ _ _ _ _ Am Ww Bg Lv) as (K & _). apply shut_proof; [exact K| |exact (fresh_in _ _ _ Fr)]. rewrite (lived_buildin _ _ _ _ _ _ _ _ Lv). exact Bi.
Qed.

Lemma retired_fresh : forall own b s, retired own b s -> fresh_object own b s.
Proof.
  induction 1 as [d0 ib0 ob0 h l Ib Z|s d ib ob os f W s0 rs s1 ops held s2 s3 H IH Rs E0 E1 x w Am Ww Lv E3].
  - exists d0, ib0, ob0, h, l. split; [reflexivity|]. split; [exact Ib|apply blank_childless; exact Z].
  - destruct (life_ends own b s d ib ob os f W s0 rs s1 ops held s2 IH Rs E0 E1 Am Ww Lv) as (s3' & E3' & Fr & _). rewrite E3 in E3'. injection E3' as <-. exact Fr.
Qed.

Lemma C58_start_proof : forall own b s d ib ob os f, retired own b s -> right_start own b d ib ob os ->
  let w := snd (spec_ops os (first_world b d)) in
  exists s0 s1, ush_init d ib ob s = Ok s0 /\ do_ops os s0 = Ok (fst (spec_ops os (first_world b d)), s1) /\ begins own (mkSetting d f) w s1.
Proof. intros own b s d ib ob os f R Rs w. destruct (start_fresh own b s d ib ob os f (retired_fresh _ _ _ R) Rs) as (s0 & s1 & E0 & E1 & Bg & _). eauto. Qed.

Lemma C58_session_proof : forall own b s d ib ob os f, retired own b s -> right_start own b d ib ob os ->
  let w := snd (spec_ops os (first_world b d)) in let x := mkSetting d f in let a := mkSess w (ins (lg s)) 0 [] in
  forall cs, run_limits own x a cs ->
  exists s0 s1, ush_init d ib ob s = Ok s0 /\ do_ops os s0 = Ok (fst (spec_ops os (first_world b d)), s1) /\
    (forall l, exists q s2, drive (app_of x) cs l s1 = Ok (q, s2) /\
       (polling s2 -> exists p, cs = p ++ q /\ shows own x (snd (sess_run x a p)) s2 /\
          lg s2 = lg s ++ map EvOut (greeting ++ prompt d (show (here w))) ++ fst (sess_run x a p))) /\
    exists n, forall l, n <= both_ready l -> exists s2, drive (app_of x) cs l s1 = Ok ([], s2) /\ polling s2.
Proof.
  intros own b s d ib ob os f R (H1 & H2 & H3 & H4 & H5 & Al & Wc) w x a cs Li. destruct (retired_fresh _ _ _ R) as (d0 & ib0 & ob0 & h & l0 & -> & Ib & Ch).
  fold w in Wc. assert (Wn : w_cwd w = Some (here w)) by (unfold here; destruct (w_cwd w); [reflexivity|contradiction]).
  destruct (boot_again d d0 b ib0 ob0 h l0 ib ob own os f H1 H2 H3 H4 H5 Ib Ch Al (here w) Wn) as (s0 & s1 & s2 & E0 & E1 & Q & Sh & Lg).
  fold (first_world b d) w in Sh, E1. fold x in Q, Sh. change (ins l0) with (ins (lg (st_zero d0 b ib0 ob0 h l0))) in Sh. fold a in Sh. exists s0, s1. split; [exact E0|]. split; [exact E1|].
  destruct (schedule_done own x cs _ s1 s2 Q Sh Li) as (A & n & s' & B & Sh' & _). split.
  - intros l. destruct (A l) as (q & s3 & Dr). exists q, s3. split; [exact Dr|]. intros P.
    destruct (schedule_proof own x cs _ s1 s2 l q s3 Q Sh Li Dr) as (p & s4 & E & Q4 & Sh4 & Lg4). exists p. split; [exact E|].
    rewrite (polling_quiet _ _ _ P Q4) in Sh4, Lg4. split; [exact Sh4|]. rewrite Lg4, Lg, <- app_assoc. reflexivity.
  - exists n. intros l L. exists s'. split; [exact (B l L)|apply Sh'].
Qed.

Lemma C58_shutdown_proof : forall own b s d ib ob os f W s0 rs s1 ops held s2, retired own b s -> right_start own b d ib ob os ->
  ush_init d ib ob s = Ok s0 -> do_ops os s0 = Ok (rs, s1) ->
  let x := mkSetting d f in let w := snd (spec_ops os (first_world b d)) in
  ample own x W -> W w -> lived own x W w s1 ops held s2 -> let w2 := snd (spec_ops ops w) in
  exists s3, ush_deinit s2 = Ok s3 /\ retired own b s3 /\ lg s3 = lg s2 /\ (forall i, ush_service i s3 = Err EAssert) /\
    (forall i, In i (map de_node (w_fs w2)) -> nth_error (hp s3) i = Some node_zero) /\
    (forall i, ~ In i (map de_node (w_fs w2)) -> i <> b -> nth_error (hp s3) i = nth_error (hp s2) i).
Proof.
  intros own b s d ib ob os f W s0 rs s1 ops held s2 R Rs E0 E1 x w Am Ww Lv w2.
  destruct (life_ends own b s d ib ob os f W s0 rs s1 ops held s2 (retired_fresh _ _ _ R) Rs E0 E1 Am Ww Lv) as (s3 & E3 & _ & Rest).
  exists s3. split; [exact E3|]. split; [|exact Rest]. exact (shut_down own b s d ib ob os f W s0 rs s1 ops held s2 s3 R Rs E0 E1 Am Ww Lv E3).
Qed.

(** * DirtyProofs: proofs of C67. *)
From Coq Require Import Arith Lia.
From Verif Require Import Shell BaseFacts LogFacts Words Sched ServiceFacts SchedFacts SchedProofs EditFacts Line Editor Spec Tree TreeFacts TreeOps TreeFind TreeProofs Cmds CmdProofs Complete Session SessionProofs ExecFacts BuildinFacts Interrupt InterruptProofs Busy BusyProofs Lives LivesProofs Dirty.

Lemma dirty_blank : forall own b s, dirty_object own b s -> o_root s = None -> knows own s (mkWorld [] [] None).
Proof.
  intros own b s (C & _ & _ & Ch) R. split; [|split; [|split; [|split; [|split]]]].
  - split; [split; [constructor|split; [constructor|split; [constructor|intros d []]]]|]. split; [intros d []|]. exact R.
  - split; [constructor|]. split; [exact C|intros i fl []].
  - intros i [].
  - intros i [[]|[]].
  - intros i I. destruct (Ch i I) as (nd & E & N). exists nd. auto.
  - exact Logic.I.
Qed.

Lemma dirty_init : forall own b s d ib ob, dirty_object own b s -> 1 <= d_insize d -> 4 <= d_outsize d ->
  (cfg_commands (d_cfg d) = true -> buildin_commands (d_cfg d) <> []) ->
  exists s', ush_init d ib ob s = Ok s' /\ knows own s' (first_world b d) /\
    o_desc s' = d /\ inb s' = ib /\ outb s' = ob /\ lg s' = lg s /\ o_cur s' = None /\
    pending s' greeting /\ o_wnext s' = S_RESET_PROMPT /\ forall i, ush_service i s' = Err EAssert.
Proof.
  intros own b s d ib ob Dt L1 L2 Nb. pose proof Dt as (C & Bu & I & Ch). unfold ush_init, first_world.
  destruct (Nat.ltb_spec 0 (d_insize d)); [|lia]. cbn [assert_ bind]. destruct (Nat.leb_spec 4 (d_outsize d)); [|lia]. cbn [assert_ bind].
  set (s0 := set_root None (set_outb ob (set_inb ib (set_desc d s)))).
  assert (K0 : knows own s0 (mkWorld [] [] None)) by (apply (dirty_blank own b); [exact Dt|reflexivity]).
  assert (F0 : o_root s0 = None /\ o_desc s0 = d /\ inb s0 = ib /\ outb s0 = ob /\ lg s0 = lg s) by (repeat split).
  assert (B0 : o_buildin s0 = b) by exact Bu.
  assert (HH : exists s1, (if cfg_commands (d_cfg d) then '(_, s) <- ush_commands_add (o_buildin s0) (buildin_commands (d_cfg d)) s0 ;; Ok s else Ok s0) = Ok s1 /\
     knows own s1 (mkWorld [] (builtins d b) None) /\ o_root s1 = None /\ o_desc s1 = d /\ inb s1 = ib /\ outb s1 = ob /\ lg s1 = lg s).
  { unfold builtins. destruct (cfg_commands (d_cfg d)) eqn:Ec.
    - rewrite B0. clearbody s0.
      destruct (add_step own s0 (mkWorld [] [] None) b (buildin_commands (d_cfg d)) K0 (Nb eq_refl) I) as (s1 & E1 & K1 & _).
      { intros [[]|[]]. }
      rewrite E1. cbn [bind]. exists s1. split; [reflexivity|]. split; [exact K1|]. apply add_fields in E1 as (-> & -> & -> & -> & ->). exact F0.
    - exists s0. split; [reflexivity|]. split; [exact K0|exact F0]. }
  destruct HH as (s1 & E1 & K1 & F1 & F2 & F3 & F4 & F5). clearbody s0. rewrite E1. cbn [bind]. exists (ush_reset s1). split; [reflexivity|].
  destruct (reset_fields s1) as (R1 & R2 & R3 & R4 & R5 & R6 & R7 & R8 & R9 & R10).
  split; [eapply knows_no_cwd; [exact R1|exact R2|exact R3|reflexivity|exact K1]|].
  rewrite R4, R5, R6, R7, R8, R10. repeat (split; [auto|]). intros i. apply service_no_dir. congruence.
Qed.

Lemma C67_start_proof : forall own b s d ib ob os f, dirty_object own b s -> right_start own b d ib ob os ->
  let w := snd (spec_ops os (first_world b d)) in
  exists s0 s1, ush_init d ib ob s = Ok s0 /\ do_ops os s0 = Ok (fst (spec_ops os (first_world b d)), s1) /\ begins own (mkSetting d f) w s1.
Proof.
  intros own b s d ib ob os f Dt (I1 & O1 & Li & Lo & Bc & Al & Wc) w.
  destruct (dirty_init own b s d ib ob Dt) as (s0 & E0 & K0 & D0 & Ei & Eo & El & _ & P0 & N0 & _); auto; [lia|].
  assert (Al' : all_allowed (d_pathmax (o_desc s0)) own os (first_world b d)) by (rewrite D0; exact Al). destruct (C15_history_proof own os s0 _ K0 Al') as (s1 & E1 & K1 & (T1 & _)).
  assert (F : o_desc s1 = d /\ inb s1 = ib /\ outb s1 = ob /\ o_wnext s1 = S_RESET_PROMPT /\ pending s1 greeting /\ o_wbuf s1 = Some (WStr greeting)).
  { rewrite T1. split; [exact D0|]. split; [exact Ei|]. split; [exact Eo|]. split; [exact N0|]. split; [exact P0|]. exact (init_wbuf _ _ _ _ _ E0). }
  destruct F as (F1 & F2 & F3 & F5 & F6 & F7). exists s0, s1. split; [exact E0|]. split; [exact E1|]. right.
  split; [exact F1|]. split; [exact K1|]. split; [exact Wc|]. split; [unfold bufs_ok; rewrite F1, F2, F3; auto|]. split; [exact F6|]. split; [exact F5|]. rewrite F7. discriminate.
Qed.

Lemma C67_session_proof : forall own b s d ib ob os f, dirty_object own b s -> right_start own b d ib ob os ->
  let w := snd (spec_ops os (first_world b d)) in let x := mkSetting d f in let a := mkSess w (ins (lg s)) 0 [] in
  forall cs, run_limits own x a cs ->
  exists s0 s1, ush_init d ib ob s = Ok s0 /\ do_ops os s0 = Ok (fst (spec_ops os (first_world b d)), s1) /\
    (forall l, exists q s2, drive (app_of x) cs l s1 = Ok (q, s2) /\
       (polling s2 -> exists p, cs = p ++ q /\ shows own x (snd (sess_run x a p)) s2 /\
          lg s2 = lg s ++ map EvOut (greeting ++ prompt d (show (here w))) ++ fst (sess_run x a p))) /\
    exists n, forall l, n <= both_ready l -> exists s2, drive (app_of x) cs l s1 = Ok ([], s2) /\ polling s2.
Proof.
  intros own b s d ib ob os f Dt (I1 & O1 & Li & Lo & Bc & Al & Wc) w x a cs Lim.
  fold w in Wc. assert (Wn : w_cwd w = Some (here w)) by (unfold here; destruct (w_cwd w); [reflexivity|contradiction]).
  destruct (dirty_init own b s d ib ob Dt) as (s0 & E0 & K0 & D0 & Ei & Eo & El & _ & P0 & N0 & _); auto; [lia|].
  assert (Al' : all_allowed (d_pathmax (o_desc s0)) own os (first_world b d)) by (rewrite D0; exact Al). destruct (C15_history_proof own os s0 _ K0 Al') as (s1 & E1 & K1 & (T1 & _)). fold w in K1.
  assert (F : o_desc s1 = d /\ inb s1 = ib /\ outb s1 = ob /\ lg s1 = lg s /\ o_wnext s1 = S_RESET_PROMPT /\ pending s1 greeting).
  { rewrite T1. split; [exact D0|]. split; [exact Ei|]. split; [exact Eo|]. split; [exact El|]. split; [exact N0|]. exact P0. }
  destruct F as (F1 & F2 & F3 & F4 & F5 & F6).
  assert (B1 : bufs_ok s1) by (unfold bufs_ok; rewrite F1, F2, F3; auto).
  destruct (start_proof (f (ins (lg s))) own s1 w (here w) K1 Wn F6 F5 B1) as (s2 & Q & Ed & C & B2 & Lg).
  assert (Qb : quiet_by (app_of x) s1 s2) by (apply (quiet_on_input f); rewrite F4; exact Q).
  assert (Sh : shows own x a s2).
  { pose proof (quiet_reads _ _ _ Q) as Rd. unfold Sched.reads in Rd. rewrite F4 in Rd.
    split; [rewrite (core_desc _ _ C); exact F1|]. split; [|split; [cbn [se_world a]; rewrite Wn; discriminate|split; [cbn [se_read a]; rewrite Rd, app_nil_r; reflexivity|split; [exact Ed|split; [exact B2|split; [cbn; lia|split; intros []]]]]]].
    apply (knows_core own s1 s2); [exact C|exact K1]. }
  rewrite F1, F4 in Lg. exists s0, s1. split; [exact E0|]. split; [exact E1|].
  destruct (schedule_done own x cs _ s1 s2 Qb Sh Lim) as (A & n & s' & B & Sh' & _). split.
  - intros l. destruct (A l) as (q & s3 & Dr). exists q, s3. split; [exact Dr|]. intros P.
    destruct (schedule_proof own x cs _ s1 s2 l q s3 Qb Sh Lim Dr) as (p & s4 & E & Q4 & Sh4 & Lg4). exists p. split; [exact E|].
    rewrite (polling_quiet _ _ _ P Q4) in Sh4, Lg4. split; [exact Sh4|]. rewrite Lg4, Lg, <- app_assoc. reflexivity.
  - exists n. intros l L. exists s'. split; [exact (B l L)|apply Sh'].
Qed.

Lemma C36_refuses_proof : forall d ib ob s, (exists nd, nth_error (hp s) (o_buildin s) = Some nd) ->
  let bad := d_insize d = 0 \/ d_outsize d < 4 \/ (cfg_commands (d_cfg d) = true /\ buildin_commands (d_cfg d) = []) in
  (bad -> ush_init d ib ob s = Err EAssert) /\ (~ bad -> exists s', ush_init d ib ob s = Ok s').
Proof.
  intros d ib ob s (nd & E) bad. unfold ush_init. destruct (Nat.ltb_spec 0 (d_insize d)); cbn [assert_ bind].
  2:{ split; [reflexivity|]. intros N. exfalso. apply N. left. lia. }
  destruct (Nat.leb_spec 4 (d_outsize d)); cbn [assert_ bind].
  2:{ split; [reflexivity|]. intros N. exfalso. apply N. right; left. lia. }
  destruct (cfg_commands (d_cfg d)) eqn:Ec; cbn [bind].
  2:{ split; [intros [B|[B|[B _]]]; [lia|lia|discriminate]|]. eauto. }
  unfold ush_commands_add. destruct (buildin_commands (d_cfg d)) as [|f fs] eqn:Eb; cbn [length Nat.eqb negb assert_ bind].
  - split; [reflexivity|]. intros N. exfalso. apply N. right; right. auto.
  - split; [intros [B|[B|[_ B]]]; [lia|lia|discriminate]|]. intros _.
    cbn [hp o_buildin set_root set_outb set_inb set_desc]. unfold getn. rewrite E. cbn [bind]. unfold setn.
    destruct (Nat.ltb_spec (o_buildin s) (length (hp s))); [cbn [bind]; eauto|].
    apply nth_error_None in H1. congruence.
Qed.

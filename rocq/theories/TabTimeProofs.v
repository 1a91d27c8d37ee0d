(** * TabTimeProofs: how many service calls sessions take (behind C65). *)
From Coq Require Import Arith Lia List.
From Verif Require Import Shell Spec BaseFacts LogFacts Sched ServiceFacts SchedFacts Macro EditFacts PromptFacts PhaseFacts Editor Line Tree TreeFacts TreeProofs Complete CompleteFacts CompleteProofs Session SessionProofs Memory MemoryProofs Time TabTime TimeProofs.

(** One byte of a session. *)
Lemma step_time : forall ap own x a s c s', fair_app ap -> shows own x a s -> step_limits own x a c -> fed_by ap [c] s s' ->
  lg s' = lg s ++ EvIn c :: fst (sess_step x a c) ->
  exists os, esteps ap os s s' /\ somes os = [c] /\ length (hp s') = length (hp s) /\
    length os <= tolls (d_insize (x_desc x)) (length (hp s)) (EvIn c :: fst (sess_step x a c)) + (if completes x c then search (se_world a) (se_line a) else 0).
Proof.
  intros ap own x a s c s' F Sh (_ & L2) H Lg. pose proof Sh as (De & K & Wn & _ & Ed & Bo & _). destruct (fed_by_esteps _ _ _ _ H) as (os & E & Z & P').
  assert (P : polling s) by (destruct H; assumption). assert (In_ : length (inb s) = d_insize (x_desc x)) by (rewrite <- De; apply Bo).
  destruct (completes x c) eqn:Co.
  - apply andb_true_iff in Co as (Ec & Au). apply ceq_true in Ec. subst c. destruct (L2 eq_refl) as (Ty & Nn & Rm & _).
    assert (At : at_tab own (se_world a) (here (se_world a)) (se_esc a) (se_line a) s).
    { split; [exact K|]. split; [apply here_cwd, Wn|]. split; [exact Ed|]. split; [exact Bo|]. split; [exact Nn|]. split; [exact Ty|]. rewrite De. exact Au. }
    rewrite <- De in Rm. destruct (tab_time ap own (se_world a) (se_esc a) (se_line a) s At Rm) as (s2 & Tk & P2 & C). apply takes_esteps in Tk as (os2 & E2 & Z2 & Q).
    assert (s2 = s') by (eapply esteps_det; [exact E2|exact E|exact P2|exact P'|congruence]). subst s2.
    exists os2. split; [exact E2|]. split; [exact Z2|]. split; [unfold core in C; congruence|].
    unfold sess_step. assert (El : ends_line a TAB = false) by (unfold ends_line; apply andb_false_r). assert (Ct : completes x TAB = true) by (unfold completes; rewrite Au; reflexivity). rewrite El, Ct.
    rewrite De in Q. destruct (complete (x_desc x) (se_world a) (se_line a)) as [out l']. cbn [fst] in *.
    assert (T : forall m n t, length t <= tolls m n (map EvOut t)).
    { intros m n t. unfold tolls. induction t as [|b t IH]; [cbn; lia|]. cbn [map length list_sum fold_right toll]. unfold list_sum in IH. lia. }
    change (EvIn TAB :: map EvOut out) with ([EvIn TAB] ++ map EvOut out). rewrite tolls_app. specialize (T (d_insize (x_desc x)) (length (hp s)) out).
    change (tolls (d_insize (x_desc x)) (length (hp s)) [EvIn TAB]) with 2. lia.
  - destruct (polling_clear s P) as (Cl & B & L).
    destruct (part_cost _ _ _ _ E [] s' (es_nil _ _) P' F Cl) with (n := 0) as (evs & n1 & L1 & _ & _ & Sz & Q); [|exact L|].
    { rewrite Z. intros [->|[]]. unfold completes in Co. rewrite De. exact Co. }
    rewrite Lg in L1. apply app_inv_head in L1. subst evs. exists os. split; [exact E|]. split; [exact Z|]. unfold sizes in Sz. injection Sz as _ Sz. split; [exact Sz|].
    rewrite B, In_ in Q. lia.
Qed.

(** Sessions. *)
Lemma run_time : forall own x cs a s, well_behaved x -> shows own x a s -> run_limits own x a cs ->
  exists os s', esteps (app_of x) os s s' /\ somes os = cs /\ length (hp s') = length (hp s) /\
    shows own x (snd (sess_run x a cs)) s' /\ lg s' = lg s ++ fst (sess_run x a cs) /\
    length os <= tolls (d_insize (x_desc x)) (length (hp s)) (fst (sess_run x a cs)) + searches x a cs.
Proof.
  intros own x cs. induction cs as [|c cs IH]; intros a s W Sh Li.
  - exists [], s. split; [constructor|]. split; [reflexivity|]. split; [reflexivity|]. split; [exact Sh|]. cbn [sess_run fst]. rewrite app_nil_r. split; [reflexivity|]. cbn. lia.
  - destruct Li as (L1 & L2). destruct (C41_proof own x [c] a s Sh (conj L1 I)) as (s1 & F1 & Sh1 & Lg1).
    assert (E1 : sess_run x a [c] = (EvIn c :: fst (sess_step x a c), snd (sess_step x a c))) by (cbn [sess_run]; destruct (sess_step x a c); cbn [fst snd]; rewrite app_nil_r; reflexivity).
    rewrite E1 in Sh1, Lg1. cbn [fst snd] in Sh1, Lg1.
    destruct (step_time (app_of x) own x a s c s1 (well_fair x W) Sh L1 F1 Lg1) as (o1 & X1 & Z1 & H1 & Q1).
    destruct (IH _ s1 W Sh1 L2) as (o2 & s2 & X2 & Z2 & H2 & Sh2 & Lg2 & Q2). exists (o1 ++ o2), s2.
    split; [eapply esteps_app; eauto|]. split; [rewrite somes_app, Z1, Z2; reflexivity|]. split; [congruence|].
    cbn [sess_run searches]. destruct (sess_step x a c) as [evs a1]. cbn [fst snd] in *. destruct (sess_run x a1 cs) as [evs2 a2]. cbn [fst snd] in *.
    split; [exact Sh2|]. split; [rewrite Lg2, Lg1, <- app_assoc; reflexivity|].
    change (EvIn c :: evs ++ evs2) with ((EvIn c :: evs) ++ evs2). rewrite tolls_app, app_length. rewrite H1 in Q2. lia.
Qed.

Lemma mem_time : forall own m d cs a s, fair_app m -> shows own (fixed m d (lg s)) a s -> mem_limits own m d (lg s) a cs ->
  exists os s', esteps (at_reads m) os s s' /\ somes os = cs /\ length (hp s') = length (hp s) /\
    shows own (fixed m d (lg s')) (snd (mem_run m d (lg s) a cs)) s' /\ lg s' = lg s ++ fst (mem_run m d (lg s) a cs) /\
    length os <= tolls (d_insize d) (length (hp s)) (fst (mem_run m d (lg s) a cs)) + mem_searches m d (lg s) a cs.
Proof.
  intros own m d cs. induction cs as [|c cs IH]; intros a s W Sh Li.
  - exists [], s. split; [constructor|]. split; [reflexivity|]. split; [reflexivity|]. split; [exact Sh|]. cbn [mem_run fst]. rewrite app_nil_r. split; [reflexivity|]. cbn. lia.
  - cbn [mem_limits] in Li. set (x := fixed m d (lg s ++ [EvIn c])) in *. destruct Li as (L1 & L2).
    destruct (step_proof own x a s c Sh L1) as (s1 & F1 & Sh1 & Lg1). apply mem_fed in F1.
    destruct (step_time (at_reads m) own x a s c s1 (fun k => W _) Sh L1 F1 Lg1) as (o1 & X1 & Z1 & H1 & Q1).
    rewrite <- Lg1 in L2. destruct (IH _ s1 W Sh1 L2) as (o2 & s2 & X2 & Z2 & H2 & Sh2 & Lg2 & Q2). exists (o1 ++ o2), s2.
    split; [eapply esteps_app; eauto|]. split; [rewrite somes_app, Z1, Z2; reflexivity|]. split; [congruence|].
    cbn [mem_run mem_searches]. fold x. destruct (sess_step x a c) as [evs a1] eqn:Es. cbn [fst snd] in *. rewrite <- Lg1. destruct (mem_run m d (lg s1) a1 cs) as [evs2 a2]. cbn [fst snd] in *.
    split; [exact Sh2|]. split; [rewrite Lg2, Lg1, <- app_assoc; reflexivity|].
    change (EvIn c :: evs ++ evs2) with ((EvIn c :: evs) ++ evs2). rewrite tolls_app, app_length. rewrite H1 in Q2. cbn [fixed x_desc x] in Q1. lia.
Qed.

Lemma enough : forall ap os s s' l, esteps ap os s s' -> polling s' -> o_cur s' <> None -> length os <= both_ready l -> drive ap (somes os) l s = Ok ([], s').
Proof.
  intros ap os s s' l E P C B. destruct (drive_total ap l _ _ _ E P C) as (q1 & s1 & os1 & D & X & Y & W). assert (length os1 = 0) by lia. destruct os1; [|discriminate].
  inversion X; subst. exact D.
Qed.

Lemma C65_session_proof : forall own x cs a s l, well_behaved x -> shows own x a s -> run_limits own x a cs ->
  tolls (d_insize (x_desc x)) (length (hp s)) (fst (sess_run x a cs)) + searches x a cs <= both_ready l ->
  exists s', drive (app_of x) cs l s = Ok ([], s') /\ shows own x (snd (sess_run x a cs)) s' /\ lg s' = lg s ++ fst (sess_run x a cs).
Proof.
  intros own x cs a s l W Sh Li B. destruct (run_time own x cs a s W Sh Li) as (os & s' & E & Z & _ & Sh' & Lg & Q). exists s'. split; [|auto].
  rewrite <- Z. apply enough; [exact E|eapply shows_polling; exact Sh'|eapply shows_cur; exact Sh'|lia].
Qed.

Lemma C65_memory_proof : forall own m d cs a s l, fair_app m -> shows own (fixed m d (lg s)) a s -> mem_limits own m d (lg s) a cs ->
  tolls (d_insize d) (length (hp s)) (fst (mem_run m d (lg s) a cs)) + mem_searches m d (lg s) a cs <= both_ready l ->
  exists s', drive (at_reads m) cs l s = Ok ([], s') /\ shows own (fixed m d (lg s')) (snd (mem_run m d (lg s) a cs)) s' /\ lg s' = lg s ++ fst (mem_run m d (lg s) a cs).
Proof.
  intros own m d cs a s l W Sh Li B. destruct (mem_time own m d cs a s W Sh Li) as (os & s' & E & Z & _ & Sh' & Lg & Q). exists s'. split; [|auto].
  rewrite <- Z. apply enough; [exact E|eapply shows_polling; exact Sh'|eapply shows_cur; exact Sh'|lia].
Qed.

Lemma C65_init_proof : forall d d0 b ib0 ob0 h l0 ib ob own os f,
  2 <= d_insize d -> 4 <= d_outsize d -> length ib = d_insize d -> length ob = d_outsize d ->
  (cfg_commands (d_cfg d) = true -> buildin_commands (d_cfg d) <> []) -> In b own -> (forall i, In i own -> nth_error h i = Some node_zero) ->
  let w0 := mkWorld [] (if cfg_commands (d_cfg d) then [(b, buildin_commands (d_cfg d))] else []) None in
  let w := snd (spec_ops os w0) in
  let x := mkSetting d f in let a := mkSess w (ins l0) 0 [] in
  all_allowed (d_pathmax d) own os w0 -> well_behaved x ->
  forall cwd cs, w_cwd w = Some cwd -> run_limits own x a cs ->
  let evs := map EvOut (greeting ++ prompt d (show cwd)) ++ fst (sess_run x a cs) in
  exists s0 s1, ush_init d ib ob (st_zero d0 b ib0 ob0 h l0) = Ok s0 /\ do_ops os s0 = Ok (fst (spec_ops os w0), s1) /\
    forall l, tolls (d_insize d) (length h) evs + searches x a cs <= both_ready l ->
      exists s2, drive (app_of x) cs l s1 = Ok ([], s2) /\ shows own x (snd (sess_run x a cs)) s2 /\ lg s2 = l0 ++ evs.
Proof.
  intros d d0 b ib0 ob0 h l0 ib ob own os f I1 O1 Li Lo Bc Ib Hz w0 w x a Al Wb cwd cs Wc Rl evs.
  destruct (boot_proof d d0 b ib0 ob0 h l0 ib ob own os f I1 O1 Li Lo Bc Ib Hz Al cwd Wc) as (s0 & s1 & s2 & E0 & E1 & Q & Sh & Lg).
  exists s0, s1. split; [exact E0|]. split; [exact E1|]. fold x in Q, Sh. fold w0 in E1. fold w in Sh. fold a in Sh.
  destruct (init_proof d d0 b ib0 ob0 h l0 ib ob own) as (s0' & E0' & K0 & D0 & Ei & Eo & El & _ & P0 & N0 & _); auto; [lia|apply blank_childless; auto|].
  rewrite E0 in E0'. injection E0' as <-. change (mkWorld [] (builtins d b) None) with w0 in K0. pose proof Al as Al'. rewrite <- D0 in Al'.
  destruct (C15_history_proof own os s0 w0 K0 Al') as (s1' & E1' & _ & (T1 & Hl & _)). rewrite E1 in E1'. injection E1' as <-.
  assert (F : o_desc s1 = d /\ inb s1 = ib /\ lg s1 = l0 /\ o_wnext s1 = S_RESET_PROMPT /\ pending s1 greeting).
  { rewrite T1. split; [exact D0|]. split; [exact Ei|]. split; [exact El|]. split; [exact N0|]. exact P0. }
  destruct F as (F1 & F2 & F3 & F4 & (F5 & F6 & _)).
  assert (Hh : length (hp s1) = length h) by (rewrite Hl; apply init_sizes in E0; unfold sizes in E0; injection E0 as _ E0; exact E0).
  apply quiet_by_esteps in Q as (oq & Q1 & Q2 & P2).
  assert (Cl : clear_ s1) by (unfold clear_, good; rewrite F4, F5; repeat split; discriminate).
  assert (Lf : left_ s1 0) by (unfold left_, helping, starting; rewrite F4, F5, Bool.andb_false_r; reflexivity).
  assert (Bs : base s1 = 0). { unfold base. rewrite F4, F5, F6. change (length greeting) with 14. assert (X : o_wpos s1 + 14 <=? o_wpos s1 = false) by (apply Nat.leb_gt; lia). rewrite X. reflexivity. }
  destruct (part_cost _ _ _ _ Q1 [] s2 (es_nil _ _) P2 (well_fair x Wb) Cl) with (n := 0) as (ev & n1 & Le & _ & _ & Sz & Bc'); [rewrite Q2; intros []|exact Lf|].
  rewrite Lg, F3 in Le. apply app_inv_head in Le. subst ev. unfold sizes in Sz. injection Sz as _ Sz. rewrite Bs, F2, Hh, Li in Bc'.
  destruct (run_time own x cs a s2 Wb Sh Rl) as (os2 & s' & E & Z & _ & Sh' & Lg' & Qt). rewrite Sz, Hh in Qt.
  intros l B. exists s'. split; [|split; [exact Sh'|rewrite Lg', Lg, <- app_assoc; reflexivity]].
  replace cs with (somes (oq ++ os2)) by (rewrite somes_app, Q2, Z; reflexivity).
  apply enough; [eapply esteps_app; eauto|eapply shows_polling; exact Sh'|eapply shows_cur; exact Sh'|].
  unfold evs in B. rewrite tolls_app in B. change (x_desc x) with d in Qt. rewrite app_length. lia.
Qed.

Lemma C65_no_search_proof : forall x cs a, no_completion (x_desc x) cs -> searches x a cs = 0.
Proof.
  intros x cs. induction cs as [|c cs IH]; intros a N; [reflexivity|]. cbn [searches]. rewrite IH by (intros I; apply N; right; exact I).
  destruct (completes x c) eqn:C; [|reflexivity]. apply andb_true_iff in C as (E & Au). apply ceq_true in E. subst c. rewrite (N (or_introl eq_refl)) in Au. discriminate.
Qed.

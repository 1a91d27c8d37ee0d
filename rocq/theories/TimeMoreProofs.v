(** * TimeMoreProofs: how many service calls learning applications and processes take (C65). *)
From Coq Require Import Arith Lia List.
From Verif Require Import Shell Spec BaseFacts LogFacts Sched ServiceFacts SchedFacts Editor Line Tree Complete Session SessionProofs Memory MemoryProofs Learn LearnProofs Process ProcSession ProcSessionProofs Time TabTime TimeProofs TabTimeProofs.

Lemma learns_time : forall own m d cs a s, learns m -> fair_app m -> shows own (fixed m d (lg s)) a s -> mem_limits own m d (lg s) a cs ->
  exists os s', esteps m os s s' /\ somes os = cs /\ length (hp s') = length (hp s) /\
    shows own (fixed m d (lg s')) (snd (mem_run m d (lg s) a cs)) s' /\ lg s' = lg s ++ fst (mem_run m d (lg s) a cs) /\
    length os <= tolls (d_insize d) (length (hp s)) (fst (mem_run m d (lg s) a cs)) + mem_searches m d (lg s) a cs.
Proof.
  intros own m d cs. induction cs as [|c cs IH]; intros a s Le W Sh Li.
  - exists [], s. split; [constructor|]. split; [reflexivity|]. split; [reflexivity|]. split; [exact Sh|]. cbn [mem_run fst]. rewrite app_nil_r. split; [reflexivity|]. cbn. lia.
  - cbn [mem_limits] in Li. set (x := fixed m d (lg s ++ [EvIn c])) in *. destruct Li as (L1 & L2).
    destruct (step_proof own x a s c Sh L1) as (s1 & F1 & Sh1 & Lg1). apply mem_fed in F1. pose proof (live_fed1 m c s s1 (fst (sess_step x a c)) Le F1 Lg1 (step_last x a c)) as G1. clear F1. rename G1 into F1.
    destruct (step_time m own x a s c s1 W Sh L1 F1 Lg1) as (o1 & X1 & Z1 & H1 & Q1).
    rewrite <- Lg1 in L2. destruct (IH _ s1 Le W Sh1 L2) as (o2 & s2 & X2 & Z2 & H2 & Sh2 & Lg2 & Q2). exists (o1 ++ o2), s2.
    split; [eapply esteps_app; eauto|]. split; [rewrite somes_app, Z1, Z2; reflexivity|]. split; [congruence|].
    cbn [mem_run mem_searches]. fold x. destruct (sess_step x a c) as [evs a1] eqn:Es. cbn [fst snd] in *. rewrite <- Lg1. destruct (mem_run m d (lg s1) a1 cs) as [evs2 a2]. cbn [fst snd] in *.
    split; [exact Sh2|]. split; [rewrite Lg2, Lg1, <- app_assoc; reflexivity|].
    change (EvIn c :: evs ++ evs2) with ((EvIn c :: evs) ++ evs2). rewrite tolls_app, app_length. rewrite H1 in Q2. cbn [fixed x_desc x] in Q1. lia.
Qed.
Lemma C65_learns_proof : forall own m d cs a s l, learns m -> fair_app m -> shows own (fixed m d (lg s)) a s -> mem_limits own m d (lg s) a cs ->
  tolls (d_insize d) (length (hp s)) (fst (mem_run m d (lg s) a cs)) + mem_searches m d (lg s) a cs <= both_ready l ->
  exists s', drive m cs l s = Ok ([], s') /\ shows own (fixed m d (lg s')) (snd (mem_run m d (lg s) a cs)) s' /\ lg s' = lg s ++ fst (mem_run m d (lg s) a cs).
Proof.
  intros own m d cs a s l Le W Sh Li B. destruct (learns_time own m d cs a s Le W Sh Li) as (os & s' & E & Z & _ & Sh' & Lg & Q). exists s'. split; [|auto].
  rewrite <- Z. apply enough; [exact E|eapply shows_polling; exact Sh'|eapply shows_cur; exact Sh'|lia].
Qed.

Lemma C65_processes_proof : forall own x b j a cs evs j' a' s l, fair_app (at_work x b) -> task_run own x b j a cs evs j' a' -> shows own x a s -> procs (lg s) = j ->
  no_completion (x_desc x) cs -> tolls (d_insize (x_desc x)) (length (hp s)) evs <= both_ready l ->
  exists s', drive (at_work x b) cs l s = Ok ([], s') /\ shows own x a' s' /\ lg s' = lg s ++ evs.
Proof.
  intros own x b j a cs evs j' a' s l Fa R Sh Pj Nc B. destruct (task_proof own x b j a cs evs j' a' R s Sh Pj) as (s' & F & Sh' & _ & Lg).
  pose proof Sh as (D & _ & _ & _ & _ & Bo & _). exists s'. split; [|split; [exact Sh'|exact Lg]].
  apply (C65_calls_proof (at_work x b) cs s s' evs l Fa F (shows_cur _ _ _ _ Sh')); [rewrite D; exact Nc|exact Lg|].
  replace (length (inb s)) with (d_insize (x_desc x)); [exact B|]. rewrite <- D. symmetry. apply Bo.
Qed.

(** * Property C65: learning applications and processes.

    Vocabulary: [toll], [tolls], [mem_searches], [no_completion], [fair_app] in Time.v; [learns] in
    Learn.v; [fixed], [mem_run], [mem_limits] in Memory.v; [at_work], [task_run] in ProcSession.v;
    [procs] in Process.v; [drive], [both_ready] in Sched.v; [shows] in Session.v. *)
From Coq Require Import Arith.
From Verif Require Import Shell Sched Tree Complete Session Memory Learn Process ProcSession Time TimeMoreProofs Demo PropTree PropLine DemoCmd PropSession PropReconf PropProcess PropProcSession PropLearn.

(** C65: an application that changes at the moment a setter or a command of it is called. *)
Theorem C65_learns : forall own m d cs a s l, learns m -> fair_app m -> shows own (fixed m d (lg s)) a s -> mem_limits own m d (lg s) a cs ->
  tolls (d_insize d) (length (hp s)) (fst (mem_run m d (lg s) a cs)) + mem_searches m d (lg s) a cs <= both_ready l ->
  exists s', drive m cs l s = Ok ([], s') /\ shows own (fixed m d (lg s')) (snd (mem_run m d (lg s) a cs)) s' /\ lg s' = lg s ++ fst (mem_run m d (lg s) a cs).
Proof. exact C65_learns_proof. Qed.
Print Assumptions C65_learns.

(** C65: a session with processes (C59): each call of a process callback is an event, hence paid
    for as any other callback. *)
Theorem C65_processes : forall own x b j a cs evs j' a' s l, fair_app (at_work x b) -> task_run own x b j a cs evs j' a' -> shows own x a s -> procs (lg s) = j ->
  no_completion (x_desc x) cs -> tolls (d_insize (x_desc x)) (length (hp s)) evs <= both_ready l ->
  exists s', drive (at_work x b) cs l s = Ok ([], s') /\ shows own x a' s' /\ lg s' = lg s ++ evs.
Proof. exact C65_processes_proof. Qed.
Print Assumptions C65_processes.

(** The session of C59_session_example: 6 callbacks of the application, among them 4 calls of
    the process. *)
Example C65_processes_example : fair_app (at_work task_setting (fun _ => task)) /\ no_completion demo_desc task_keys /\
  exists evs a', task_run demo_own task_setting (fun _ => task) 0 demo_sess task_keys evs 4 a' /\ shows demo_own task_setting demo_sess demo /\ procs (lg demo) = 0.
Proof.
  split; [|split].
  - intros l. split; [intros; repeat constructor|]. split; [intros; repeat constructor|]. split; [intros; repeat constructor|].
    intros n f. cbn. destruct (procs l) as [|[|k]]; repeat constructor.
  - intros H. exfalso. revert H. cbn. intuition discriminate.
  - destruct C59_session_example as (evs & a' & R & Sh & P & _). exists evs, a'. auto.
Qed.
(** The learning application of PropLearn.v. *)
Example C65_learns_example : learns switch /\ fair_app switch /\ shows demo_own (fixed switch demo_desc (lg demo)) demo_sess demo /\
  mem_limits demo_own switch demo_desc (lg demo) demo_sess switch_keys.
Proof.
  split; [exact (proj1 C63_learns_example)|]. split; [|split; [exact demo_shows|exact switch_limits]].
  intros l. split; [intros; cbn; repeat constructor|]. split; [intros; cbn; repeat constructor|]. split; [intros; cbn; repeat constructor|intros; cbn; repeat constructor].
Qed.

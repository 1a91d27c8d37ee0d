(** * Properties C69 and C70: what was typed before does not show; typing does not change the tree.

    Vocabulary: [no_memory_of], [stand_alike], [leaves_tree], [never_cd] in Forget.v; [shows],
    [run_limits], [sess_run] in Session.v; [drive], [both_ready], [polling] in Sched.v; [knows] in
    Tree.v. *)
From Coq Require Import Arith Lia.
From Verif Require Import Shell BaseFacts Words Sched Line Editor Spec Tree Cmds Complete Session SessionProofs Forget ForgetProofs Demo PropTree PropLine DemoCmd PropSession.

(** C69: two shells with different pasts that stand alike do exactly the same from then on, each
    under its own schedule, unless the application itself remembers. *)
Theorem C69_forgets : forall own x a b s t cs, stand_alike a b -> no_memory_of x (se_read a) (se_read b) ->
  shows own x a s -> shows own x b t -> run_limits own x a cs ->
  (forall m, exists q t', drive (app_of x) cs m t = Ok (q, t')) /\
  exists n evs, (forall l, n <= both_ready l -> exists s', drive (app_of x) cs l s = Ok ([], s') /\ polling s' /\ lg s' = lg s ++ evs) /\
    (forall m, n <= both_ready m -> exists t', drive (app_of x) cs m t = Ok ([], t') /\ polling t' /\ lg t' = lg t ++ evs).
Proof. exact C69_forgets_proof. Qed.
Print Assumptions C69_forgets.

(** C69: the same for two inputs [p1], [p2] to the same shell that leave it standing alike: the
    answer [evs] to what follows is the same. *)
Theorem C69_histories : forall own x a s p1 p2 cs, shows own x a s ->
  run_limits own x a (p1 ++ cs) -> run_limits own x a p2 ->
  let b1 := snd (sess_run x a p1) in let b2 := snd (sess_run x a p2) in
  stand_alike b1 b2 -> no_memory_of x (se_read b1) (se_read b2) ->
  exists n evs, forall l, n <= both_ready l ->
    (exists s', drive (app_of x) (p1 ++ cs) l s = Ok ([], s') /\ polling s' /\ lg s' = lg s ++ fst (sess_run x a p1) ++ evs) /\
    (exists s', drive (app_of x) (p2 ++ cs) l s = Ok ([], s') /\ polling s' /\ lg s' = lg s ++ fst (sess_run x a p2) ++ evs).
Proof. exact C69_histories_proof. Qed.
Print Assumptions C69_histories.

(** C70: if the callbacks leave the tree alone, then whatever is typed, at every point where the
    shell polls the directories and commands are those of the beginning, and the current
    directory is the one of the beginning or some mounted directory; without cd the former. *)
Theorem C70_typing : forall own x a s cs l q s', leaves_tree x -> shows own x a s -> run_limits own x a cs ->
  drive (app_of x) cs l s = Ok (q, s') -> polling s' ->
  let w := se_world a in exists cwd, knows own s' (mkWorld (w_fs w) (w_groups w) cwd) /\
    (cwd = w_cwd w \/ exists dd, In dd (w_fs w) /\ cwd = Some (de_path dd)) /\
    (never_cd x a cs -> cwd = w_cwd w).
Proof. exact C70_typing_proof. Qed.
Print Assumptions C70_typing.

Definition past1 : bytes := lit "/run secret" ++ [CR].
Definition past2 : bytes := lit "echo hi" ++ [CR] ++ lit "cd dev" ++ [CR] ++ lit "cd .." ++ [CR].
Definition after_past : bytes := lit "ls" ++ [CR] ++ lit "cat dev/time" ++ [CR].

Lemma demo_typing : forall cs, ~ In TAB cs -> run_limits demo_own demo_setting demo_sess cs.
Proof. intros cs N. apply (ample_run demo_own demo_setting demo_worlds cs demo_sess demo demo_ample demo_in demo_shows). intros I. destruct (N I). Qed.

Example C69_example :
  shows demo_own demo_setting demo_sess demo /\ run_limits demo_own demo_setting demo_sess (past1 ++ after_past) /\ run_limits demo_own demo_setting demo_sess past2 /\
  (let b1 := snd (sess_run demo_setting demo_sess past1) in let b2 := snd (sess_run demo_setting demo_sess past2) in
   stand_alike b1 b2 /\ no_memory_of demo_setting (se_read b1) (se_read b2) /\ se_read b1 <> se_read b2).
Proof.
  split; [exact demo_shows|]. split; [apply demo_typing; cbn; intuition discriminate|]. split; [apply demo_typing; cbn; intuition discriminate|].
  cbv zeta. split; [repeat split; vm_compute; reflexivity|]. split; [intros h; reflexivity|]. vm_compute. discriminate.
Qed.

Example C70_example :
  leaves_tree demo_setting /\ run_limits demo_own demo_setting demo_sess demo_keys /\
  (exists s', drive (app_of demo_setting) demo_keys (repeat (true, true) 400) demo = Ok ([], s') /\ polling s') /\
  run_limits demo_own demo_setting demo_sess after_past /\ never_cd demo_setting demo_sess after_past.
Proof.
  split; [intros h; repeat split|]. split; [exact demo_limits|]. split; [eexists; split; [vm_compute; reflexivity|vm_compute; auto]|].
  split; [apply demo_typing; cbn; intuition discriminate|].
  vm_compute. repeat (split; [first [intros E; discriminate E|intros _ f Ef; injection Ef as <-; discriminate]|]). exact I.
Qed.

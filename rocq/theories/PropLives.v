(** * Property C58: a shell is shut down at any moment, and started again.

    Vocabulary: [first_world], [right_start], [retired] in Lives.v; [lived], [begins] in
    Busy.v; [knows], [spec_ops] in Tree.v; [ample], [run_limits], [sess_run], [shows] in
    Session.v; [drive], [both_ready], [prompt] in Sched.v. *)
From Coq Require Import Arith Lia.
From Verif Require Import Shell BaseFacts Words Sched SchedFacts Line Editor Spec Tree Cmds Complete Session Interrupt StepFacts InterruptProofs Busy BusyProofs Lives LivesProofs Demo PropTree PropLine DemoCmd PropSession PropReconf PropInterrupt PropBusy.

(** C58: after any number of lives the object can be initialised again, with any descriptor,
    and used like a new one (C54 applies from there on). *)
Theorem C58_start : forall own b s d ib ob os f, retired own b s -> right_start own b d ib ob os ->
  let w := snd (spec_ops os (first_world b d)) in
  exists s0 s1, ush_init d ib ob s = Ok s0 /\ do_ops os s0 = Ok (fst (spec_ops os (first_world b d)), s1) /\
    begins own (mkSetting d f) w s1.
Proof. exact C58_start_proof. Qed.
Print Assumptions C58_start.

(** C58: a session in the new life prints what it prints the first time. *)
Theorem C58_session : forall own b s d ib ob os f, retired own b s -> right_start own b d ib ob os ->
  let w := snd (spec_ops os (first_world b d)) in let x := mkSetting d f in let a := mkSess w (ins (lg s)) 0 [] in
  forall cs, run_limits own x a cs ->
  exists s0 s1, ush_init d ib ob s = Ok s0 /\ do_ops os s0 = Ok (fst (spec_ops os (first_world b d)), s1) /\
    (forall l, exists q s2, drive (app_of x) cs l s1 = Ok (q, s2) /\
       (polling s2 -> exists p, cs = p ++ q /\ shows own x (snd (sess_run x a p)) s2 /\
          lg s2 = lg s ++ map EvOut ((lit "uShell 0.1.0" ++ [CR; LF]) ++ prompt d (show (here w))) ++ fst (sess_run x a p))) /\
    exists n, forall l, n <= both_ready l -> exists s2, drive (app_of x) cs l s1 = Ok ([], s2) /\ polling s2.
Proof. exact C58_session_proof. Qed.
Print Assumptions C58_session.

(** C58: at any moment of a life ush_deinit succeeds; it prints and reads nothing, it zeroes
    the node objects of the directories mounted then and changes no other node object of the
    application; afterwards ush_service refuses to work. *)
Theorem C58_shutdown : forall own b s d ib ob os f W s0 rs s1 ops held s2, retired own b s -> right_start own b d ib ob os ->
  ush_init d ib ob s = Ok s0 -> do_ops os s0 = Ok (rs, s1) ->
  let x := mkSetting d f in let w := snd (spec_ops os (first_world b d)) in
  ample own x W -> W w -> lived own x W w s1 ops held s2 -> let w2 := snd (spec_ops ops w) in
  exists s3, ush_deinit s2 = Ok s3 /\ retired own b s3 /\ lg s3 = lg s2 /\ (forall i, ush_service i s3 = Err EAssert) /\
    (forall i, In i (map de_node (w_fs w2)) -> nth_error (hp s3) i = Some node_zero) /\
    (forall i, ~ In i (map de_node (w_fs w2)) -> i <> b -> nth_error (hp s3) i = nth_error (hp s2) i).
Proof. exact C58_shutdown_proof. Qed.
Print Assumptions C58_shutdown.

(** The demo shell is shut down in the middle of a listing, and started again with another
    host name and other directories. *)
Definition life_calls : list treeop := [TMount [] 1 [f_run]; TMount [lit "dev"] 2 [f_time; f_log]; TMount [lit "dev"; lit "a"] 3 []].
Definition life_born : st := Eval vm_compute in st_of (do_ops life_calls (from (ush_init demo_desc (repeat NUL 32) (repeat NUL 64) demo_blank))).
Definition life_late : st := Eval vm_compute in st_of (drive (app_of lively_setting) (lit "ls" ++ [CR]) (repeat (true, true) 90) life_born).
Definition life_over : st := Eval vm_compute in from (ush_deinit life_late).
Definition next_desc : desc := mkDesc 32 64 64 (lit "next") None cfg_posix.
Definition next_calls : list treeop := [TMount [] 3 [f_time]; TMount [lit "x"] 1 []].
Definition next_born : st := Eval vm_compute in st_of (do_ops next_calls (from (ush_init next_desc (repeat NUL 32) (repeat NUL 64) life_over))).
Definition next_late : st := Eval vm_compute in st_of (drive (app_of (mkSetting next_desc (fun _ => demo_env))) (lit "cat time" ++ [CR]) (repeat (true, true) 300) next_born).

Example C58_example :
  retired demo_own 0 demo_blank /\ right_start demo_own 0 demo_desc (repeat NUL 32) (repeat NUL 64) life_calls /\
  ample demo_own lively_setting lively_worlds /\ lively_worlds demo_world /\
  (exists ops held, lived demo_own lively_setting lively_worlds demo_world life_born ops held life_late) /\
  outs (lg life_late) = (lit "uShell 0.1.0" ++ CRLF) ++ prompt demo_desc (lit "/") ++ lit "ls" ++ CRLF ++ green "." ++ lit "d---- " ++ [ESC] ++ lit "[3" /\
  retired demo_own 0 life_over /\ right_start demo_own 0 next_desc (repeat NUL 32) (repeat NUL 64) next_calls /\
  outs (lg next_late) = outs (lg life_late) ++ (lit "uShell 0.1.0" ++ CRLF) ++ prompt next_desc (lit "/") ++
    lit "cat time" ++ CRLF ++ lit "12:00" ++ prompt next_desc (lit "/").
Proof.
  assert (R0 : retired demo_own 0 demo_blank) by (apply never_used; [vm_compute; tauto|intros i I; solve_in; reflexivity]).
  assert (S0 : right_start demo_own 0 demo_desc (repeat NUL 32) (repeat NUL 64) life_calls).
  { split; [apply Nat.leb_le; vm_compute; reflexivity|]. split; [apply Nat.leb_le; vm_compute; reflexivity|]. split; [reflexivity|]. split; [reflexivity|]. split; [discriminate|]. split; [right_calls|vm_compute; discriminate]. }
  assert (L0 : exists ops held, lived demo_own lively_setting lively_worlds demo_world life_born ops held life_late).
  { assert (D : drive (app_of lively_setting) (lit "ls" ++ [CR]) (repeat (true, true) 90) life_born = Ok ([], life_late)) by (vm_compute; reflexivity).
    destruct (C54_drive demo_own lively_setting lively_worlds demo_world life_born _ (lit "ls" ++ [CR]) [] _ life_born _ _ (lived_start _ _ _ _ _) (plain_keys _ _ _ (lit "ls" ++ [CR]) _ eq_refl) D) as (evs & held & L & R & _). eauto. }
  split; [exact R0|]. split; [exact S0|]. split; [exact lively_ample|]. split; [exact lively_in|]. split; [exact L0|]. split; [vm_compute; reflexivity|]. split; [|split].
  - destruct L0 as (ops & held & L0).
    apply (shut_down demo_own 0 demo_blank demo_desc (repeat NUL 32) (repeat NUL 64) life_calls lively lively_worlds (from (ush_init demo_desc (repeat NUL 32) (repeat NUL 64) demo_blank)) [ST_OK; ST_OK; ST_OK] life_born ops held life_late);
      [exact R0|exact S0|vm_compute; reflexivity|vm_compute; reflexivity|exact lively_ample|exact lively_in|exact L0|vm_compute; reflexivity].
  - split; [apply Nat.leb_le; vm_compute; reflexivity|]. split; [apply Nat.leb_le; vm_compute; reflexivity|]. split; [reflexivity|]. split; [reflexivity|]. split; [discriminate|]. split; [right_calls|vm_compute; discriminate].
  - vm_compute. reflexivity.
Qed.

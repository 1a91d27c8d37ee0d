(** * Property C61: the application may change the host name at any time.

    Vocabulary: Host.v, in particular [renamed t s] (the application has written [t] to the
    memory of the host name), [drive_host a h] ([drive] with an application whose host name is
    at every moment [h] of what it has seen: bytes read and callbacks called) and
    [sess_host h x log a cs] (the session of Session.v in which every answer is given with the
    host name of that moment). *)
From Coq Require Import Arith.
From Verif Require TreeProofs SessionProofs.
From Verif Require Import Shell Sched Spec Tree Session SessionProofs Host HostFacts HostProofs Demo PropTree PropLine DemoCmd PropSession.

(** C61: in every state, but for the one in which the shell is about to print the host name,
    a call of ush_service does the same whatever the host name is. *)
Theorem C61_any_moment : forall t i s, o_state s <> S_PROMPT_HOST ->
  ush_service i (renamed t s) =
  match ush_service i s with Ok (b, s1) => Ok (b, renamed t s1) | Err e => Err e end.
Proof. exact service_r. Qed.
Print Assumptions C61_any_moment.

(** C61: in that one, it starts to print the name the memory holds at that moment. *)
Theorem C61_name : forall t i s, o_cur s <> None -> o_state s = S_PROMPT_HOST ->
  exists s1, ush_service i (renamed t s) = Ok (true, s1) /\ pending s1 t /\ lg s1 = lg s.
Proof. exact C61_name_proof. Qed.
Print Assumptions C61_name.

(** C61: whole sessions, under every schedule: whenever the shell polls again, it has read a
    part [p] of the input, and all that has happened is what the session with the changing
    host name says; so every prompt shows the name after the callbacks of its line. *)
Theorem C61_every_schedule : forall own x h cs a s l q s1, (forall r, fair (x_app x r)) ->
  shows own (named_at h x (lg s)) a (current h s) -> run_limits own x a cs ->
  drive_host (app_of x) h cs l s = Ok (q, s1) -> polling s1 ->
  exists p, cs = p ++ q /\ lg s1 = lg s ++ fst (sess_host h x (lg s) a p) /\
    shows own (named_at h x (lg s1)) (snd (sess_host h x (lg s) a p)) (current h s1).
Proof. exact C61_schedule_proof. Qed.
Print Assumptions C61_every_schedule.

(** C61: no schedule makes it fail, and once enough calls find both sides ready, the whole
    input has been read and answered. *)
Theorem C61_completes : forall own x h cs a s, (forall r, fair (x_app x r)) ->
  shows own (named_at h x (lg s)) a (current h s) -> run_limits own x a cs ->
  (forall l, exists q s1, drive_host (app_of x) h cs l s = Ok (q, s1)) /\
  exists n, forall l, n <= both_ready l -> exists s1, drive_host (app_of x) h cs l s = Ok ([], s1) /\ polling s1.
Proof. exact C61_done_proof. Qed.
Print Assumptions C61_completes.

(** C61: from ush_init on (as C41_from_init), the name in the descriptor being the one the
    application starts with. *)
Theorem C61_from_init : forall d d0 b ib0 ob0 hp0 l0 ib ob own os f h,
  2 <= d_insize d -> 4 <= d_outsize d -> length ib = d_insize d -> length ob = d_outsize d ->
  (cfg_commands (d_cfg d) = true -> buildin_commands (d_cfg d) <> []) -> In b own -> (forall i, In i own -> nth_error hp0 i = Some node_zero) ->
  let w0 := mkWorld [] (if cfg_commands (d_cfg d) then [(b, buildin_commands (d_cfg d))] else []) None in
  let w := snd (spec_ops os w0) in
  let x := mkSetting d f in let a := mkSess w (ins l0) 0 [] in
  all_allowed (d_pathmax d) own os w0 ->
  (forall r, fair (f r)) -> h (seen l0) = d_host d ->
  forall cwd cs, w_cwd w = Some cwd -> run_limits own x a cs ->
  exists s0 s1, ush_init d ib ob (st_zero d0 b ib0 ob0 hp0 l0) = Ok s0 /\ do_ops os s0 = Ok (fst (spec_ops os w0), s1) /\
    let L := l0 ++ map EvOut ((lit "uShell 0.1.0" ++ [CR; LF]) ++ prompt d (show cwd)) in
    (forall l, exists q s2, drive_host (app_of x) h cs l s1 = Ok (q, s2) /\
       (polling s2 -> exists p, cs = p ++ q /\ lg s2 = L ++ fst (sess_host h x L a p) /\
          shows own (named_at h x (lg s2)) (snd (sess_host h x L a p)) (current h s2))) /\
    exists n, forall l, n <= both_ready l -> exists s2, drive_host (app_of x) h cs l s1 = Ok ([], s2) /\ polling s2.
Proof. exact C61_init_proof. Qed.
Print Assumptions C61_from_init.

(** The demo shell with an application that, as examples/demo_linux does, takes what is written
    to a file as the new host name: the prompt after the line shows it. *)
Definition rename_keys : bytes := lit "echo box > /dev/time" ++ [CR] ++ lit "pwd" ++ [CR].
Definition demo_name (evs : list event) : bytes :=
  fold_left (fun n x => match x with EvSet 0 _ t => t | _ => n end) evs (d_host demo_desc).
Example C61_example :
  (forall r, fair (x_app demo_setting r)) /\
  shows demo_own (named_at demo_name demo_setting (lg demo)) demo_sess (current demo_name demo) /\
  run_limits demo_own demo_setting demo_sess rename_keys /\
  outs_of (fst (sess_host demo_name demo_setting (lg demo) demo_sess rename_keys)) =
    lit "echo box > /dev/time" ++ CRLF ++ prompt (with_host (lit "box") demo_desc) (lit "/") ++ lit "pwd" ++ CRLF ++ lit "/" ++ CRLF ++ prompt (with_host (lit "box") demo_desc) (lit "/") /\
  (exists s1, drive_host (app_of demo_setting) demo_name rename_keys (repeat (true, true) 300) demo = Ok ([], s1) /\ polling s1 /\
     outs (lg s1) = outs (lg demo) ++ outs_of (fst (sess_host demo_name demo_setting (lg demo) demo_sess rename_keys))) /\
  (exists s1 b, drive_host (app_of demo_setting) demo_name [CR] (repeat (true, true) 15) demo = Ok ([], s1) /\ o_state s1 = S_PROMPT_HOST /\
     ush_service (tick demo_env None) (renamed (lit "other") s1) = Ok (true, b) /\ pending b (lit "other")).
Proof.
  split; [intros r; exact demo_fair|]. split; [exact demo_shows|].
  split; [apply (ample_run demo_own demo_setting demo_worlds _ demo_sess demo demo_ample demo_in demo_shows); cbn; intuition discriminate|].
  split; [vm_compute; reflexivity|]. split.
  - eexists. split; [vm_compute; reflexivity|]. split; vm_compute; reflexivity.
  - destruct (drive_host (app_of demo_setting) demo_name [CR] (repeat (true, true) 15) demo) as [(q, s1)|e] eqn:D; [|vm_compute in D; discriminate].
    assert (E : q = [] /\ o_state s1 = S_PROMPT_HOST /\ o_cur s1 <> None) by (vm_compute in D; injection D as <- <-; repeat split; discriminate).
    destruct E as (-> & E & C). destruct (C61_name_proof (lit "other") (tick demo_env None) s1 C E) as (b & B & P & _). exists s1, b. auto.
Qed.

(** * Property C52: the application prints while the shell waits for input.

    Vocabulary: [shows], [settled], [well_behaved], [turn], [take_turns], [turns_limits],
    [acted] in Session.v; [drive] (the service calls of any schedule), [both_ready],
    [polling], [editing], [core] in Sched.v; [printing_call], [spoken], [formatted] in Cmds.v. *)
From Coq Require Import Arith Lia.
From Verif Require Import Shell BaseFacts Words Sched SchedFacts SchedProofs Line Editor Spec Tree Cmds Complete Session SessionProofs IdleProofs Demo PropTree PropLine DemoCmd PropSession PropReconf.

(** C52: however the shell has come to poll since ush_init, with whatever input, schedule and
    calls from callbacks, nothing of its output buffer remains to be printed. *)
Theorem C52_settled : forall x d ib ob s s0 os rs s1 cs l q s2, ush_init d ib ob s = Ok s0 -> do_ops os s0 = Ok (rs, s1) ->
  well_behaved x -> drive (app_of x) cs l s1 = Ok (q, s2) -> polling s2 -> settled s2.
Proof. exact C52_settled_proof. Qed.
Print Assumptions C52_settled.

(** C52: this remains so. *)
Theorem C52_kept : forall x cs l q s s', well_behaved x -> polling s -> settled s -> drive (app_of x) cs l s = Ok (q, s') -> polling s' -> settled s'.
Proof. exact C52_kept_proof. Qed.
Print Assumptions C52_kept.

(** C52: printing calls made while the shell polls: the text that a callback would print
    with them comes out, then a prompt; the line being typed is given up. *)
Theorem C52_printing : forall own x a s l, shows own x a s -> settled s -> l <> [] -> Forall (printing_call []) l -> 3 + length (formatted l) < d_outsize (x_desc x) ->
  exists s1 s2 n, do_actions [] l s = Ok s1 /\ (forall sched, n <= both_ready sched -> drive (app_of x) [] sched s1 = Ok ([], s2)) /\
    editing 0 [] s2 /\ core s2 = core s /\ lg s2 = lg s ++ map EvOut (spoken (x_desc x) [] None [] l ++ prompt (x_desc x) (show (here (se_world a)))).
Proof. exact C52_printing_proof. Qed.
Print Assumptions C52_printing.

(** C52: of a series of ush_printf calls every text comes out, in order, and nothing else. *)
Theorem C52_printf : forall own x a s us, shows own x a s -> settled s -> us <> [] -> Forall (fun u => ~ In NUL u) us -> 3 + length (concat us) < d_outsize (x_desc x) ->
  exists s1 s2 n, do_actions [] (map (fun u => APrintf (FmtOk u)) us) s = Ok s1 /\ (forall sched, n <= both_ready sched -> drive (app_of x) [] sched s1 = Ok ([], s2)) /\
    editing 0 [] s2 /\ core s2 = core s /\ lg s2 = lg s ++ map EvOut (concat us ++ prompt (x_desc x) (show (here (se_world a)))).
Proof. exact C52_printf_proof. Qed.
Print Assumptions C52_printf.

(** C52: in a snug setting (Session.v) turns of all kinds stay within the limits of
    C49_turns, if TAB is typed only where there is room to complete the word. *)
Theorem C52_ample : forall own x W ts a s, well_behaved x -> snug own x W -> W (se_world a) -> shows own x a s -> settled s ->
  turns_fit own x W a ts -> turns_limits own x a ts.
Proof. exact C52_ample_proof. Qed.
Print Assumptions C52_ample.

(** A session in which the application prints, flushes the output buffer and resets. *)
Definition talk : list turn :=
  [Types (lit "cd de" ++ [TAB]); Says [APrintf (FmtOk (lit "tick ")); APrintf (FmtOk (lit "tack") )]; Types (lit "cd dev" ++ [CR]); Flushes (lit "busy" ++ [CR; LF]);
   Types (lit "pw" ++ [BS]); Says [APrint (lit "alarm")]; Types (lit "pwd" ++ [CR]); Resets].
Example C52_example :
  well_behaved lively_setting /\ shows demo_own lively_setting demo_sess demo /\ settled demo /\ turns_limits demo_own lively_setting demo_sess talk /\
  outs_of (fst (take_turns lively_setting demo_sess talk)) =
    lit "cd dev" ++ lit "tick tack" ++ prompt demo_desc (lit "/") ++ lit "cd dev" ++ CRLF ++ prompt demo_desc (lit "/dev") ++
    lit "busy" ++ CRLF ++ prompt demo_desc (lit "/dev") ++ lit "pw" ++ [BS; SP; BS] ++ lit "alarm" ++ CRLF ++ prompt demo_desc (lit "/dev") ++
    lit "pwd" ++ CRLF ++ lit "/dev" ++ CRLF ++ prompt demo_desc (lit "/dev") ++ lit "uShell 0.1.0" ++ CRLF ++ prompt demo_desc (lit "/") /\
  se_line (snd (take_turns lively_setting demo_sess talk)) = [].
Proof.
  split; [exact lively_behaved|]. split; [exact lively_shows|]. split; [exact demo_settled|]. split; [|split; vm_compute; reflexivity].
  apply (C52_ample demo_own lively_setting lively_worlds talk demo_sess demo lively_behaved (ample_snug _ _ _ lively_ample) lively_in lively_shows demo_settled).
  split; [|split; [|split; [|split; [|split; [|split; [|split; [|split]]]]]]]; cbn [turn_fits].
  - intros _ p q H. assert (E : p = lit "cd de").
    { do 5 (destruct p as [|? p]; [discriminate H|injection H as <- H]). destruct p as [|? p]; [reflexivity|injection H as <- H]. destruct p; discriminate H. }
    subst p. replace (snd (sess_run lively_setting demo_sess (lit "cd de"))) with (mkSess demo_world (lit "cd de") 0 (lit "cd de")) by (vm_compute; reflexivity).
    split; [|split; apply Nat.ltb_lt; vm_compute; reflexivity].
    split; [exact demo_tidy|]. split; [vm_compute; repeat constructor; intuition discriminate|]. cbn. clear. intuition discriminate.
  - split; [discriminate|]. split; [|apply Nat.ltb_lt; reflexivity]. repeat constructor; cbn; clear; intuition discriminate.
  - apply no_tabs_fit. cbn. clear. intuition discriminate.
  - split; [cbn; clear; intuition discriminate|apply Nat.ltb_lt; reflexivity].
  - apply no_tabs_fit. cbn. clear. intuition discriminate.
  - split; [discriminate|]. split; [|apply Nat.ltb_lt; reflexivity]. repeat constructor; cbn; clear; intuition discriminate.
  - apply no_tabs_fit. cbn. clear. intuition discriminate.
  - exact Logic.I.
  - exact Logic.I.
Qed.

(** C52: text written into the output buffer while the shell polls is taken for what
    ush_printf printed before: after typing "a", the buffer set to "hello" and
    ush_printf("x") print just "e". *)
Definition half_typed : st := Eval vm_compute in st_of (drive (app_of demo_setting) (lit "a") (repeat (true, true) 10) demo).
Definition scratched : st := Eval vm_compute in from (do_actions [] [AWriteOut (lit "hello"); APrintf (FmtOk (lit "x"))] half_typed).
Definition scratched_done : st := Eval vm_compute in st_of (drive (app_of demo_setting) [] (repeat (true, true) 100) scratched).
Theorem C52_scratch_refuted : exists own x a s s1 l s2 t,
  well_behaved x /\ shows own x a s /\ settled s /\ do_actions [] [AWriteOut (lit "hello"); APrintf (FmtOk (lit "x"))] s = Ok s1 /\
  drive (app_of x) [] l s1 = Ok ([], s2) /\ polling s2 /\ lg s2 = lg s ++ map EvOut (t ++ prompt (x_desc x) (show (here (se_world a)))) /\
  t <> lit "x" /\ t <> lit "hellox".
Proof.
  assert (Wb : well_behaved demo_setting) by (intros h; split; [|split; [|split]]; intros; cbn; repeat constructor).
  assert (A : acted demo_setting [Types (lit "a")] demo half_typed) by (eapply acted_types with (l := repeat (true, true) 10); [vm_compute; reflexivity|reflexivity|constructor]).
  destruct (C49_turns demo_own demo_setting [Types (lit "a")] demo_sess demo half_typed Wb demo_shows demo_settled) as (Sh & Se & _); [|exact A|].
  { split; [apply (ample_run demo_own demo_setting demo_worlds _ demo_sess demo demo_ample demo_in demo_shows); cbn; intuition discriminate|exact I]. }
  exists demo_own, demo_setting, (snd (take_turns demo_setting demo_sess [Types (lit "a")])), half_typed, scratched, (repeat (true, true) 100), scratched_done, (lit "e").
  split; [exact Wb|]. split; [exact Sh|]. split; [exact Se|]. split; [vm_compute; reflexivity|]. split; [vm_compute; reflexivity|]. split; [reflexivity|].
  split; [vm_compute; reflexivity|]. split; discriminate.
Qed.
Print Assumptions C52_scratch_refuted.

(** * Property C65: how many service calls an answer takes.

    Vocabulary: [toll], [tolls], [count], [searches], [no_completion], [fair_app] in Time.v; [fed_by],
    [drive], [both_ready] in Sched.v; [shows], [sess_run], [run_limits], [well_behaved] in
    Session.v; [mem_run], [mem_limits], [at_reads] in Memory.v.

    [both_ready l] is the number of calls of the schedule [l] that find both sides ready; the
    other calls are wasted at worst.  Completion (TAB) makes passes over all names in which nothing
    happens; the theorems on sessions count them ([searches]), the others are for input without
    completion ([no_completion]). *)
From Coq Require Import Arith.
From Verif Require Import Shell Spec Words Sched Tree Line Complete Session SessionProofs Memory Demo PropTree PropSession Time TimeProofs TabTimeProofs.

(** C65: whatever the callbacks do (they may call any function of the API, and answer
    differently each time), if reading [cs] makes [evs] happen and leads to [s'], then any schedule
    gets there that has as many calls with both sides ready as [evs] is worth. *)
Theorem C65_calls : forall a cs s s' evs l, fair_app a -> fed_by a cs s s' -> o_cur s' <> None -> no_completion (o_desc s) cs ->
  lg s' = lg s ++ evs -> tolls (length (inb s)) (length (hp s)) evs <= both_ready l -> drive a cs l s = Ok ([], s').
Proof. exact C65_calls_proof. Qed.
Print Assumptions C65_calls.

(** C65: what events are worth, as a sum. *)
Theorem C65_sum : forall room nodes l,
  tolls room nodes l = 2 * count is_in l + (room + 3) * count is_enter l + 13 * count is_out l + (nodes + 13) * count is_call l.
Proof. exact C65_sum_proof. Qed.
Print Assumptions C65_sum.

(** C65: a shell that has been called, with both sides ready, more often than the size of the
    input buffer plus the number of node objects plus 14, and has neither read nor written a byte
    nor called a callback, has answered all the input and waits. *)
Theorem C65_silence : forall a cs s s' l1 q1 s1 l2 q2 s2, fair_app a -> fed_by a cs s s' -> o_cur s' <> None -> no_completion (o_desc s) cs ->
  drive a cs l1 s = Ok (q1, s1) -> drive a q1 l2 s1 = Ok (q2, s2) -> lg s2 = lg s1 ->
  length (inb s) + length (hp s) + 14 < both_ready l2 -> q2 = [] /\ s2 = s'.
Proof. exact C65_silence_proof. Qed.
Print Assumptions C65_silence.

(** C65: sessions (C41): the number of calls is that of the events of the abstract shell, and that
    of the passes over the names that TAB makes. *)
Theorem C65_session : forall own x cs a s l, well_behaved x -> shows own x a s -> run_limits own x a cs ->
  tolls (d_insize (x_desc x)) (length (hp s)) (fst (sess_run x a cs)) + searches x a cs <= both_ready l ->
  exists s', drive (app_of x) cs l s = Ok ([], s') /\ shows own x (snd (sess_run x a cs)) s' /\ lg s' = lg s ++ fst (sess_run x a cs).
Proof. exact C65_session_proof. Qed.
Print Assumptions C65_session.

(** C65: without completion there are no such passes. *)
Theorem C65_no_search : forall x cs a, no_completion (x_desc x) cs -> searches x a cs = 0.
Proof. exact C65_no_search_proof. Qed.
Print Assumptions C65_no_search.

(** C65: also with an application that remembers everything (C63). *)
Theorem C65_memory : forall own m d cs a s l, fair_app m -> shows own (fixed m d (lg s)) a s -> mem_limits own m d (lg s) a cs ->
  tolls (d_insize d) (length (hp s)) (fst (mem_run m d (lg s) a cs)) + mem_searches m d (lg s) a cs <= both_ready l ->
  exists s', drive (at_reads m) cs l s = Ok ([], s') /\ shows own (fixed m d (lg s')) (snd (mem_run m d (lg s) a cs)) s' /\ lg s' = lg s ++ fst (mem_run m d (lg s) a cs).
Proof. exact C65_memory_proof. Qed.
Print Assumptions C65_memory.

(** C65: from ush_init on: the greeting and the first prompt included. *)
Theorem C65_from_init : forall d d0 b ib0 ob0 h l0 ib ob own os f,
  2 <= d_insize d -> 4 <= d_outsize d -> length ib = d_insize d -> length ob = d_outsize d ->
  (cfg_commands (d_cfg d) = true -> buildin_commands (d_cfg d) <> []) -> In b own -> (forall i, In i own -> nth_error h i = Some node_zero) ->
  let w0 := mkWorld [] (if cfg_commands (d_cfg d) then [(b, buildin_commands (d_cfg d))] else []) None in
  let w := snd (spec_ops os w0) in
  let x := mkSetting d f in let a := mkSess w (ins l0) 0 [] in
  all_allowed (d_pathmax d) own os w0 -> well_behaved x ->
  forall cwd cs, w_cwd w = Some cwd -> run_limits own x a cs ->
  let evs := map EvOut (greeting ++ prompt d (show cwd)) ++ fst (sess_run x a cs) in
  exists s0 s1, ush_init d ib ob (st_zero d0 b ib0 ob0 h l0) = Ok s0 /\ do_ops os s0 = Ok (fst (spec_ops os w0), s1) /\
    forall l, tolls (d_insize d) (length h) evs + searches x a cs <= both_ready l ->
      exists s2, drive (app_of x) cs l s1 = Ok ([], s2) /\ shows own x (snd (sess_run x a cs)) s2 /\ lg s2 = l0 ++ evs.
Proof. exact C65_init_proof. Qed.
Print Assumptions C65_from_init.

(** The demo shell: [help] and [ls] are within the hypotheses; what they make happen is worth
    at most 13 calls for each byte printed and 200 more. *)
Definition timed_keys : bytes := lit "help" ++ [CR] ++ lit "ls" ++ [CR].
Lemma timed_limits : run_limits demo_own demo_setting demo_sess timed_keys.
Proof.
  apply (ample_run demo_own demo_setting demo_worlds timed_keys demo_sess demo demo_ample demo_in demo_shows). cbn. intuition discriminate.
Qed.
Example C65_example : well_behaved demo_setting /\ shows demo_own demo_setting demo_sess demo /\ run_limits demo_own demo_setting demo_sess timed_keys /\
  no_completion (x_desc demo_setting) timed_keys /\
  let evs := fst (sess_run demo_setting demo_sess timed_keys) in
  13 * length (outs evs) <= tolls (d_insize demo_desc) (length (hp demo)) evs <= 13 * length (outs evs) + 200 /\ 200 <= length (outs evs) /\ count is_call evs = 2.
Proof.
  split; [intros h; exact demo_fair|]. split; [exact demo_shows|]. split; [exact timed_limits|].
  split; [intros H; exfalso; revert H; cbn; intuition discriminate|].
  cbv zeta. split; [split; apply Nat.leb_le; vm_compute; reflexivity|]. split; [apply Nat.leb_le; vm_compute; reflexivity|vm_compute; reflexivity].
Qed.
(** With a completion: "cd de" and TAB, among other lines.  The only candidate is "dev", one
    character longer than the word: four passes over the names are paid for. *)
Example C65_tab_example : run_limits demo_own demo_setting demo_sess demo_keys /\ In TAB demo_keys /\ one_pass demo_world = 66 /\ searches demo_setting demo_sess demo_keys = 4 * 66 + 16.
Proof. split; [exact demo_limits|]. split; [cbn; tauto|]. split; vm_compute; reflexivity. Qed.

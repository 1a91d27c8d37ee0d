(** * Properties C63 and C64, continued: applications that learn at any moment.

    The theorems of PropMemory.v speak of [at_reads m], an application that answers from what it
    knew when the byte was read.  Here the application [m] itself drives the shell.

    Vocabulary: [learns], [lesson] in Learn.v; [mem_run], [mem_limits], [keeps], [contents],
    [writable], [readable], [linux_app] in Memory.v; [shows] in Session.v; [typeable] in Builtin.v;
    [drive], [both_ready] in Sched.v. *)
From Coq Require Import Arith Lia.
From Verif Require Import Shell ServiceFacts Spec Words Sched Editor Line Tree Cmds Complete Session Builtin Examples ExampleProofs Memory Learn LearnProofs Demo PropTree PropLine DemoCmd PropSession PropMemory.

(** C63: the callbacks may change with every byte read, every setter called and every command of
    the application run, at that moment.  Under every schedule, whenever the shell polls, it has
    done what the session does, and stands where the session stands. *)
Theorem C63_learns_every_schedule : forall own m d cs a s l q s1, learns m -> shows own (fixed m d (lg s)) a s -> mem_limits own m d (lg s) a cs ->
  drive m cs l s = Ok (q, s1) -> polling s1 ->
  exists p, cs = p ++ q /\ shows own (fixed m d (lg s1)) (snd (mem_run m d (lg s) a p)) s1 /\ lg s1 = lg s ++ fst (mem_run m d (lg s) a p).
Proof. exact learns_schedule_proof. Qed.
Print Assumptions C63_learns_every_schedule.

(** C63: no schedule makes it fail, and schedules with enough calls in which both sides are
    ready answer all the input. *)
Theorem C63_learns_completes : forall own m d cs a s, learns m -> shows own (fixed m d (lg s)) a s -> mem_limits own m d (lg s) a cs ->
  (forall l, exists q s1, drive m cs l s = Ok (q, s1)) /\
  exists n s', (forall l, n <= both_ready l -> drive m cs l s = Ok ([], s')) /\
    shows own (fixed m d (lg s')) (snd (mem_run m d (lg s) a cs)) s' /\ lg s' = lg s ++ fst (mem_run m d (lg s) a cs).
Proof. exact learns_done_proof. Qed.
Print Assumptions C63_learns_completes.

(** C63: the same from ush_init on. *)
Theorem C63_learns_from_init : forall d d0 b ib0 ob0 h l0 ib ob own os m, learns m ->
  2 <= d_insize d -> 4 <= d_outsize d -> length ib = d_insize d -> length ob = d_outsize d ->
  (cfg_commands (d_cfg d) = true -> buildin_commands (d_cfg d) <> []) -> In b own -> (forall i, In i own -> nth_error h i = Some node_zero) ->
  let w0 := mkWorld [] (if cfg_commands (d_cfg d) then [(b, buildin_commands (d_cfg d))] else []) None in
  let w := snd (spec_ops os w0) in let a := mkSess w (ins l0) 0 [] in
  all_allowed (d_pathmax d) own os w0 ->
  forall cwd cs, w_cwd w = Some cwd ->
  let L := l0 ++ map EvOut (greeting ++ prompt d (show cwd)) in
  mem_limits own m d L a cs ->
  exists s0 s1, ush_init d ib ob (st_zero d0 b ib0 ob0 h l0) = Ok s0 /\ do_ops os s0 = Ok (fst (spec_ops os w0), s1) /\
    (forall l, exists q s2, drive m cs l s1 = Ok (q, s2) /\
       (polling s2 -> exists p, cs = p ++ q /\ shows own (fixed m d (lg s2)) (snd (mem_run m d L a p)) s2 /\ lg s2 = L ++ fst (mem_run m d L a p))) /\
    exists n, forall l, n <= both_ready l -> exists s2, drive m cs l s1 = Ok ([], s2) /\ polling s2.
Proof. exact learns_init_proof. Qed.
Print Assumptions C63_learns_from_init.

(** C64: [echo] changes the contents of the file by [data]. *)
Theorem C64_learns_write : forall own m d ks kg fn upd init up data name a s, learns m -> keeps m ks kg fn upd init -> d_exec d = None ->
  shows own (fixed m d (lg s)) a s -> writable a name fn ks -> let t := write_line up data name in typeable d t -> mem_limits own m d (lg s) a (t ++ [CR]) ->
  exists n s', (forall l, n <= both_ready l -> drive m (t ++ [CR]) l s = Ok ([], s')) /\ shows own (fixed m d (lg s')) (after_line a t) s' /\
    outs (lg s') = outs (lg s) ++ t ++ crlf ++ prompt d (show (here (se_world a))) /\
    contents ks fn upd init (lg s') = upd (contents ks fn upd init (lg s)) data.
Proof. exact learns_write_proof. Qed.
Print Assumptions C64_learns_write.

(** C64: [cat] prints the contents. *)
Theorem C64_learns_cat : forall own m d ks kg fn upd init name a s, learns m -> keeps m ks kg fn upd init -> d_exec d = None ->
  shows own (fixed m d (lg s)) a s -> readable a cmd_cat name fn kg -> let t := cat_line name in typeable d t -> mem_limits own m d (lg s) a (t ++ [CR]) ->
  exists n s', (forall l, n <= both_ready l -> drive m (t ++ [CR]) l s = Ok ([], s')) /\ shows own (fixed m d (lg s')) (after_line a t) s' /\
    outs (lg s') = outs (lg s) ++ t ++ crlf ++ contents ks fn upd init (lg s) ++ prompt d (show (here (se_world a))) /\
    contents ks fn upd init (lg s') = contents ks fn upd init (lg s).
Proof. exact learns_cat_proof. Qed.
Print Assumptions C64_learns_cat.

(** C64: [xxd] prints a dump of the contents. *)
Theorem C64_learns_xxd : forall own m d ks kg fn upd init name a s, learns m -> keeps m ks kg fn upd init -> d_exec d = None ->
  shows own (fixed m d (lg s)) a s -> readable a cmd_xxd name fn kg -> let t := dump_line name in typeable d t -> mem_limits own m d (lg s) a (t ++ [CR]) ->
  exists n s', (forall l, n <= both_ready l -> drive m (t ++ [CR]) l s = Ok ([], s')) /\ shows own (fixed m d (lg s')) (after_line a t) s' /\
    outs (lg s') = outs (lg s) ++ t ++ crlf ++ xxd_dump (cfg_cols (d_cfg d)) (contents ks fn upd init (lg s)) ++ prompt d (show (here (se_world a))) /\
    contents ks fn upd init (lg s') = contents ks fn upd init (lg s).
Proof. exact learns_xxd_proof. Qed.
Print Assumptions C64_learns_xxd.

(** C64: what is written is what is read. *)
Theorem C64_learns_reads_back : forall own m d ks kg fn upd init up data name name' q a s, learns m -> keeps m ks kg fn upd init -> d_exec d = None ->
  shows own (fixed m d (lg s)) a s ->
  let W := write_line up data name ++ [CR] in let C := cat_line name' ++ [CR] in
  let R := mem_run m d (lg s) a W in let Q := mem_run m d (lg s ++ fst R) (snd R) q in
  writable a name fn ks -> typeable d (write_line up data name) -> unwritten ks fn (fst Q) -> readable (snd Q) cmd_cat name' fn kg -> typeable d (cat_line name') ->
  mem_limits own m d (lg s) a (W ++ q ++ C) ->
  exists n s', (forall l, n <= both_ready l -> drive m (W ++ q ++ C) l s = Ok ([], s')) /\ polling s' /\
    outs (lg s') = outs (lg s ++ fst R ++ fst Q) ++ cat_line name' ++ crlf ++ upd (contents ks fn upd init (lg s)) data ++ prompt d (show (here (se_world (snd Q)))).
Proof. exact learns_back_proof. Qed.
Print Assumptions C64_learns_reads_back.

(** C64: the RAM and the EEPROM of demo_linux, from its start. *)
Theorem C64_learns_linux : forall i o p null mc, 2 <= i -> 26 <= o -> i + 8 <= p -> 16 <= p -> (forall log, machine_ok (mc log)) ->
  (forall log x, ~ lesson x -> mc (log ++ [x]) = mc log) ->
  let d := linux_desc i o p in let m := linux_app null mc in let a := mkSess (world_of d linux_calls) [] 0 [] in
  let L := map EvOut (greeting ++ prompt d (lit "/")) in
  exists s, set_up d 8 linux_calls = Ok s /\ forall name f ks kg n up data q, linux_memfile name f ks kg n -> ~ In TAB q -> length data <= n ->
    let W := write_line up data name ++ [CR] in let C := cat_line name ++ [CR] in
    let R := mem_run m d L a W in let Q := mem_run m d (L ++ fst R) (snd R) q in
    typeable d (write_line up data name) -> typeable d (cat_line name) -> at_prompt (snd Q) -> unwritten ks (f_name f) (fst Q) ->
    exists k s', (forall l, k <= both_ready l -> drive m (W ++ q ++ C) l s = Ok ([], s')) /\ polling s' /\
      outs (lg s') = outs (L ++ fst R ++ fst Q) ++ cat_line name ++ crlf ++ (data ++ repeat NUL (n - length data)) ++
        prompt d (show (here (se_world (snd Q)))).
Proof. exact learns_linux_proof. Qed.
Print Assumptions C64_learns_linux.

(** An application whose getter says something else each time it is called does not learn in this
    sense, and the session of Memory.v is not what happens: [cat] of two files calls it twice. *)
Definition turns (log : list event) : nat := length (filter (fun x => match x with EvGet _ _ => true | _ => false end) log).
Definition fickle : application := fun log =>
  mkEnv (e_exec demo_env) (fun _ _ => mkGet (GData (repeat "x"%char (turns log))) (turns log) []) (e_set demo_env) (e_proc demo_env).
Theorem C63_getters_refuted : let cs := lit "cat dev/time dev/time" ++ [CR] in
  shows demo_own (fixed fickle demo_desc (lg demo)) demo_sess demo /\
  exists l s1, drive fickle cs l demo = Ok ([], s1) /\ polling s1 /\ lg s1 <> lg demo ++ fst (mem_run fickle demo_desc (lg demo) demo_sess cs).
Proof.
  cbv zeta. split; [exact demo_shows|]. exists (repeat (true, true) 400). eexists. split; [vm_compute; reflexivity|]. split; [reflexivity|].
  intros H. apply (f_equal (@length event)) in H. vm_compute in H. discriminate H.
Qed.
Print Assumptions C63_getters_refuted.

(** demo_linux learns, with a clock that shows how many bytes have been typed. *)
Definition typed_clock (log : list event) : machine := mkMachine (N.of_nat (length (ins log))) (repeat NUL 4) (repeat NUL 256) (repeat NUL 32) (repeat NUL 1024) (lit "host").
Example C64_learns_example : learns (linux_app [] typed_clock) /\ typed_clock [EvIn CR] <> typed_clock [] /\ (forall log, machine_ok (typed_clock log)).
Proof.
  split; [|split; [discriminate|]].
  - apply linux_learns. intros log x N. unfold typed_clock. rewrite ins_app. destruct x; try (cbn [ins flat_map]; rewrite app_nil_r; reflexivity). destruct (N I).
  - intros log. repeat split. apply Nat.leb_le. reflexivity.
Qed.
(** A command of the application that switches what a file shows: at once. *)
Definition switch : application := fun log =>
  let n := length (filter (fun x => match x with EvExec (XUser _) (Some _) _ => true | _ => false end) log) in
  mkEnv (e_exec demo_env) (fun _ _ => mkGet (GData (repeat "x"%char n)) n []) (e_set demo_env) (e_proc demo_env).
Definition switch_keys : bytes := lit "run" ++ [CR] ++ lit "cat dev/time" ++ [CR].
Lemma next_key : forall own m d L a c r L' a', let x := fixed m d (L ++ [EvIn c]) in step_limits own x a c ->
  L ++ EvIn c :: fst (sess_step x a c) = L' -> snd (sess_step x a c) = a' -> mem_limits own m d L' a' r -> mem_limits own m d L a (c :: r).
Proof. intros own m d L a c r L' a' x H <- <- R. split; [exact H|exact R]. Qed.
Ltac keys_typed := repeat (eapply next_key; [split; intros Hx; vm_compute in Hx; discriminate Hx|vm_compute; reflexivity|vm_compute; reflexivity|]).
Lemma switch_limits : mem_limits demo_own switch demo_desc (lg demo) demo_sess switch_keys.
Proof.
  unfold switch_keys. cbn [lit list_ascii_of_string app]. keys_typed. eapply next_key; [|vm_compute; reflexivity|vm_compute; reflexivity|].
  { split; [|intros Hx; vm_compute in Hx; discriminate Hx]. intros _.
    match goal with |- line_limits _ _ _ ?w ?ws => replace w with demo_world by (vm_compute; reflexivity); replace ws with [lit "run"] by (vm_compute; reflexivity) end.
    split; [|split; [exact demo_stock|split; [right; apply Nat.ltb_lt; vm_compute; reflexivity|]]].
    - split; [constructor|]. split; [left; apply Nat.leb_le; vm_compute; reflexivity|]. split; [exact I|discriminate].
    - intros f cb De Fx _. vm_compute in De. injection De as <-. vm_compute in Fx. injection Fx as <-.
      split; [repeat constructor|]. split; [left; apply Nat.leb_le; vm_compute; reflexivity|]. split; [exact I|discriminate]. }
  keys_typed. eapply next_key; [|vm_compute; reflexivity|vm_compute; reflexivity|exact I].
  split; [|intros Hx; vm_compute in Hx; discriminate Hx]. intros _.
  match goal with |- line_limits _ _ _ ?w ?ws => replace w with demo_world by (vm_compute; reflexivity); replace ws with [lit "cat"; lit "dev/time"] by (vm_compute; reflexivity) end.
  split; [|split; [exact demo_stock|split; [left; vm_compute; discriminate|]]].
  - split; [constructor|]. split; [left; apply Nat.leb_le; vm_compute; reflexivity|]. split; [exact I|discriminate].
  - intros f cb De Fx _. vm_compute in De. injection De as <-. vm_compute in Fx. injection Fx as <-.
    split; [constructor; [right; apply Nat.ltb_lt; vm_compute; reflexivity|constructor]|]. intros _.
    split; [exact (proj1 C17_example)|]. split; [right; apply Nat.ltb_lt; vm_compute; reflexivity|].
    eexists _, _. split; [vm_compute; reflexivity|]. split; [vm_compute; reflexivity|]. split; [exists [], []; vm_compute; reflexivity|].
    split; [split; [constructor|exact I]|]. split; [vm_compute; discriminate|exact I].
Qed.
Example C63_learns_example : learns switch /\ shows demo_own (fixed switch demo_desc (lg demo)) demo_sess demo /\
  mem_limits demo_own switch demo_desc (lg demo) demo_sess switch_keys /\
  outs (fst (mem_run switch demo_desc (lg demo) demo_sess switch_keys)) =
    lit "run" ++ CRLF ++ lit "running" ++ CRLF ++ prompt demo_desc (lit "/") ++ lit "cat dev/time" ++ CRLF ++ lit "x" ++ prompt demo_desc (lit "/").
Proof.
  split; [|split; [exact demo_shows|split; [exact switch_limits|vm_compute; reflexivity]]].
  intros log x N. unfold switch. rewrite filter_app. destruct x as [| |cb [nm|] ws| | |]; try (cbn [filter]; rewrite app_nil_r; reflexivity).
  - destruct cb; try (cbn [filter]; rewrite app_nil_r; reflexivity). destruct (N I).
  - destruct cb; cbn [filter]; rewrite app_nil_r; reflexivity.
Qed.

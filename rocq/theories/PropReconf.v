(** * Properties C48, C49: changing the tree while the shell runs.

    Vocabulary: [called], [asked], [does], [said], [hook_calls], [tree_calls] (the calls of a
    callback that change the tree), [proper_call] (such a call, a printing call or ush_reset) in
    Cmds.v; [spec_op(s)], [allowed], [all_allowed] (correct calls and their effect on the
    world) and [knows] in Tree.v; [turn], [take_turns], [turns_limits], [acted], [ample] in
    Session.v. *)
From Coq Require Import Arith.
From Verif Require Import Shell Words Sched SchedFacts Line Editor Spec Tree Cmds LineFacts CmdProofs Complete CompleteProofs ReconfProofs Session SessionProofs Demo PropTree PropLine DemoCmd PropPrintf PropSession.

(** C48: a callback may mount and unmount directories, register and remove commands and
    change the directory while its file is executed, and reset the shell.  The calls have the effect they have
    outside callbacks, what the callback prints is not affected by them, and the prompt
    shows the new current directory. *)
Theorem C48_callback : forall e own w cwd l ws f s c k cwd', called e own w cwd l ws f s -> c = CR \/ c = LF -> ws <> [] -> f_exec f = Some (XUser k) ->
  let calls := e_exec e k (Some (f_name f)) ws in
  let w' := snd (spec_ops (tree_calls calls) w) in
  Forall (proper_call ws) calls -> room_for (o_desc s) (hook_calls e (o_desc s) ws ++ calls) ->
  all_allowed (d_pathmax (o_desc s)) own (tree_calls calls) w -> w_cwd w' = Some cwd' ->
  exists s', does e c s (XUser k) f ws [] (said (o_desc s) c ws (hook_calls e (o_desc s) ws ++ calls)) cwd' s' /\ knows own s' w' /\ o_desc s' = o_desc s.
Proof. exact C48_proof. Qed.
Print Assumptions C48_callback.

(** C48: so may a setter called by echo. *)
Theorem C48_setter : forall e own w cwd l n text name s c g cb cwd', asked e own w cwd l [n; text; lit ">"; name] cmd_echo s -> c = CR \/ c = LF -> findable s w [name] ->
  denotes w name = Some g -> f_set g = Some cb ->
  let hk := hook_calls e (o_desc s) [n; text; lit ">"; name] in
  let calls := e_set e cb (f_name g) (decode text) in
  let w' := snd (spec_ops (tree_calls calls) w) in
  Forall (printing_call []) hk -> Forall (proper_call []) calls -> room_for (o_desc s) (hk ++ calls) ->
  all_allowed (d_pathmax (o_desc s)) own (tree_calls calls) w -> w_cwd w' = Some cwd' ->
  exists s', does e c s XEcho cmd_echo [n; text; lit ">"; name] [EvSet cb (f_name g) (decode text)]
    (said (o_desc s) c [] (hk ++ calls)) cwd' s' /\ knows own s' w' /\ o_desc s' = o_desc s.
Proof. exact C48_setter_proof. Qed.
Print Assumptions C48_setter.

(** C48: a callback may reset the shell: the banner and a prompt for the root follow. *)
Theorem C48_reset : forall e own w cwd l ws f s c k, called e own w cwd l ws f s -> c = CR \/ c = LF -> ws <> [] -> f_exec f = Some (XUser k) ->
  e_exec e k (Some (f_name f)) ws = [AReset] -> 1 < d_pathmax (o_desc s) ->
  exists s', does e c s (XUser k) f ws [] greeting [] s' /\ knows own s' (mkWorld (w_fs w) (w_groups w) (Some [])) /\ o_desc s' = o_desc s.
Proof. exact C48_reset_proof. Qed.
Print Assumptions C48_reset.
Definition resetting_env : env := mkEnv (fun _ _ _ => [AReset]) (fun _ _ => mkGet (GData []) 0 []) (fun _ _ _ => []) (fun _ _ => []).
Example C48_reset_example : called resetting_env demo_own demo_world [] (lit "run x") [lit "run"; lit "x"] f_run (demo_line "run x") /\
  e_exec resetting_env 0 (Some (f_name f_run)) [lit "run"; lit "x"] = [AReset] /\ 1 < d_pathmax (o_desc (demo_line "run x")).
Proof. split; [exact (demo_called resetting_env)|]. split; [reflexivity|]. apply Nat.ltb_lt. reflexivity. Qed.

(** An application with a memory that changes the tree: with an argument, "run" mounts
    "/tmp" afresh and enters it; without, it unmounts it.  "time" holds the number of lines
    read so far. *)
Definition fresh_calls : list action := [ASetDir (lit "/"); AUnmount (lit "/tmp"); AMount (lit "/tmp") 4 [f_log]; APrint (lit "mounted"); ASetDir (lit "tmp")].
Definition gone_calls : list action := [APrint (lit "gone"); ASetDir (lit "/"); AUnmount (lit "/tmp")].
Definition lines_seen (h : bytes) : bytes := [ascii_of_nat (48 + Nat.modulo (length (filter (ceq CR) h)) 10)].
Definition lively (h : bytes) : env :=
  mkEnv (fun _ _ ws => match ws with _ :: _ :: _ => fresh_calls | _ => gone_calls end)
        (fun _ _ => mkGet (GData (lines_seen h)) 1 []) (fun _ _ _ => []) (fun _ _ => []).
Definition lively_setting : setting := mkSetting demo_desc lively.
Definition tmp_fs : fsys := w_fs (snd (spec_op (TMount [lit "tmp"] 4 [f_log]) demo_world)).

Ltac right_calls :=
  repeat split; try (apply Nat.ltb_lt; vm_compute; reflexivity); try (cbn; tauto); try discriminate; try (repeat constructor; try discriminate; vm_compute; intuition discriminate);
  try (intros [I|I]; vm_compute in I; intuition discriminate).

Example C48_example :
  called (lively []) demo_own demo_world [] (lit "run x") [lit "run"; lit "x"] f_run (demo_line "run x") /\
  Forall (proper_call [lit "run"; lit "x"]) fresh_calls /\ room_for demo_desc fresh_calls /\
  all_allowed (d_pathmax demo_desc) demo_own (tree_calls fresh_calls) demo_world /\
  snd (spec_ops (tree_calls fresh_calls) demo_world) = mkWorld tmp_fs (w_groups demo_world) (Some [lit "tmp"]) /\
  said demo_desc CR [lit "run"; lit "x"] fresh_calls = lit "mounted" ++ CRLF.
Proof.
  split; [exact (demo_called (lively []))|]. split; [repeat constructor|]. split; [left; apply Nat.leb_le; reflexivity|].
  split; [|split; reflexivity].
  cbn [tree_calls fresh_calls flat_map tree_call app]. unfold mount_path.
  right_calls.
Qed.

(** "/run" typed in "/dev/a". *)
Definition lost_env : env := mkEnv (fun _ _ _ => [AUnmount (lit "/dev/a")]) (fun _ _ => mkGet (GData []) 0 []) (fun _ _ _ => []) (fun _ _ => []).
Definition lost_keys : bytes := lit "cd /dev/a" ++ [CR] ++ lit "/run".
Definition lost_world : world := mkWorld (w_fs demo_world) (w_groups demo_world) (Some [lit "dev"; lit "a"]).
Definition lost : st := Eval vm_compute in st_of (drive (app_of demo_setting) lost_keys (repeat (true, true) 400) demo).
Definition lost_after : st := Eval vm_compute in st_of (drive (always lost_env) [CR] (repeat (true, true) 400) lost).
Lemma lost_shows : shows demo_own demo_setting (mkSess lost_world lost_keys 0 (lit "/run")) lost.
Proof.
  assert (L : run_limits demo_own demo_setting demo_sess lost_keys).
  { apply (ample_run demo_own demo_setting demo_worlds _ demo_sess demo demo_ample demo_in demo_shows). cbn. intuition discriminate. }
  assert (D : drive (app_of demo_setting) lost_keys (repeat (true, true) 400) demo = Ok ([], lost)) by (vm_compute; reflexivity).
  destruct (C41_every_schedule demo_own demo_setting lost_keys demo_sess demo _ [] lost demo_shows L D eq_refl) as (p & E & Sh & _).
  rewrite app_nil_r in E. subst p. replace (mkSess lost_world lost_keys 0 (lit "/run")) with (snd (sess_run demo_setting demo_sess lost_keys)) by (vm_compute; reflexivity). exact Sh.
Qed.

(** C48: a callback that unmounts the current directory leaves the shell in a directory
    that is not mounted; if it mounts the node object elsewhere, the shell has moved there.
    All calls are correct and succeed. *)
Theorem C48_lost_directory_refuted : exists e own w l ws f s k t id s' p,
  called e own w [lit "dev"; lit "a"] l ws f s /\ f_exec f = Some (XUser k) /\
  let calls := e_exec e k (Some (f_name f)) ws in
  calls = [AUnmount t] /\ all_allowed (d_pathmax (o_desc s)) own (tree_calls calls ++ [TMount p id []]) w /\
  fst (spec_ops (tree_calls calls ++ [TMount p id []]) w) = [ST_OK; ST_OK] /\
  fed e [CR] s s' /\ cwd_is s' (lit "/dev/a") /\ ush_node_get_by_path (d_pathmax (o_desc s')) (hp s') (o_root s') (lit "/dev/a") = Ok None /\
  exists s2, ush_node_mount (show p) id [] s' = Ok (ST_OK, s2) /\ p = [lit "x"] /\ cwd_is s2 (show p).
Proof.
  exists lost_env, demo_own, lost_world, (lit "/run"), [lit "/run"], f_run, lost, 0, (lit "/dev/a"), 3, lost_after, [lit "x"].
  split; [|split; [reflexivity|cbv zeta; split; [reflexivity|split; [|split; [reflexivity|split; [|split; [|split]]]]]]].
  - destruct lost_shows as (D & K & _ & _ & Ed & B & _ & Ef). split; [exact K|]. split; [reflexivity|].
    split; [split; [exact Ed|split; [exact B|split; [exact Ef|rewrite D; vm_compute; reflexivity]]]|].
    split; [rewrite D; apply demo_no_hook|]. split; [|vm_compute; reflexivity].
    split; [rewrite D; exact (proj1 C17_example)|]. constructor; [|constructor]. right. rewrite D. apply Nat.ltb_lt. vm_compute. reflexivity.
  - cbn [tree_calls e_exec lost_env flat_map tree_call app]. right_calls.
  - apply (key_ok 200); vm_compute; reflexivity.
  - eexists. split; vm_compute; reflexivity.
  - vm_compute. reflexivity.
  - eexists. split; [vm_compute; reflexivity|]. split; [reflexivity|]. eexists. split; vm_compute; reflexivity.
Qed.
Print Assumptions C48_lost_directory_refuted.

(** C49: while the shell polls, the application may call the API: the call has the effect
    it has elsewhere, the line being typed remains, nothing is printed, and from then on the
    shell behaves as the abstract shell in the new world. *)
Theorem C49_call : forall own x a s o, shows own x a s -> allowed (d_pathmax (x_desc x)) own (se_world a) o ->
  let w' := snd (spec_op o (se_world a)) in w_cwd w' <> None ->
  exists s', do_op o s = Ok (fst (spec_op o (se_world a)), s') /\ shows own x (mkSess w' (se_read a) (se_esc a) (se_line a)) s' /\ lg s' = lg s.
Proof. exact C49_call_proof. Qed.
Print Assumptions C49_call.

(** C49, C52: typing, under any schedule, and calls by turns: the shell does exactly what
    the abstract shell does. *)
Theorem C49_turns : forall own x ts a s s', well_behaved x -> shows own x a s -> settled s -> turns_limits own x a ts -> acted x ts s s' ->
  shows own x (snd (take_turns x a ts)) s' /\ settled s' /\ lg s' = lg s ++ fst (take_turns x a ts).
Proof. exact C49_turns_proof. Qed.
Print Assumptions C49_turns.

(** C49: and it gets through all turns. *)
Theorem C49_turns_complete : forall own x ts a s, well_behaved x -> shows own x a s -> settled s -> turns_limits own x a ts -> exists s', acted x ts s s'.
Proof. exact C49_exists_proof. Qed.
Print Assumptions C49_turns_complete.

(** The lively application is within the limits, whatever is typed. *)
Definition lively_worlds (w : world) : Prop :=
  (w_fs w = w_fs demo_world \/ w_fs w = tmp_fs) /\ w_groups w = w_groups demo_world /\ exists dd, In dd (w_fs w) /\ w_cwd w = Some (de_path dd).

Lemma lively_file : forall w f, lively_worlds w -> file_of w f -> In f (buildin_commands cfg_posix ++ [f_run; f_time; f_log]).
Proof.
  intros w f (F & G & _) [I|(dd & I & J)]; apply in_or_app.
  - left. rewrite G in I. cbn [demo_world w_groups flat_map snd] in I. rewrite app_nil_r in I. exact I.
  - right. destruct F as [F|F]; rewrite F in I; vm_compute in I; [destruct I as [<-|[<-|[<-|[]]]]|destruct I as [<-|[<-|[<-|[<-|[]]]]]]; cbn in J; cbn; tauto.
Qed.

Lemma lively_calls : forall w, lively_worlds w -> forall ws l, l = fresh_calls \/ l = gone_calls ->
  calls_well demo_own demo_desc w ws [] l /\ lively_worlds (snd (spec_ops (tree_calls l) w)).
Proof.
  intros [fs gs cwd] (F & G & dd & I & Cd) ws l L. cbn [w_fs w_groups w_cwd] in *. subst gs.
  assert (R : exists w', snd (spec_ops (tree_calls l) (mkWorld fs (w_groups demo_world) cwd)) = w' /\ lively_worlds w' /\ w_cwd w' <> None /\
    all_allowed (d_pathmax demo_desc) demo_own (tree_calls l) (mkWorld fs (w_groups demo_world) cwd)).
  { assert (A : In (fs, cwd) ([(w_fs demo_world, Some [lit "dev"; lit "a"]); (w_fs demo_world, Some [lit "dev"]); (w_fs demo_world, Some []);
                  (tmp_fs, Some [lit "tmp"]); (tmp_fs, Some [lit "dev"; lit "a"]); (tmp_fs, Some [lit "dev"]); (tmp_fs, Some [])])).
    { subst cwd. destruct F as [->| ->]; cbn in I; [destruct I as [<-|[<-|[<-|[]]]]|destruct I as [<-|[<-|[<-|[<-|[]]]]]]; cbn; tauto. }
    clear I Cd F. destruct L as [->| ->]; (repeat (destruct A as [A|A]; [injection A as <- <-|]; [|]); [..|destruct A]); (eexists; split; [vm_compute; reflexivity|]; split; [|split; [discriminate|]]);
      try (split; [first [left; vm_compute; reflexivity|right; vm_compute; reflexivity]|split; [vm_compute; reflexivity|first [exists (mkDir [] 1 [f_run]); split; [cbn; tauto|reflexivity]|exists (mkDir [lit "tmp"] 4 [f_log]); split; [cbn; tauto|reflexivity]]]]);
      cbn [tree_calls fresh_calls gone_calls flat_map tree_call app]; unfold mount_path;
      right_calls. }
  destruct R as (w' & E & Lw' & Wn & Al). rewrite E. split; [|exact Lw']. split; [|split; [|split; [exact Al|rewrite E; exact Wn]]].
  - destruct L as [->| ->]; repeat constructor.
  - left. apply Nat.leb_le. reflexivity.
Qed.

Lemma lively_stock : forall w, lively_worlds w -> stock demo_desc w.
Proof.
  intros w Lw. pose proof Lw as (F & G & _). destruct demo_stock as (S1 & _ & _). split; [rewrite G; exact S1|]. split.
  - intros dd f cb I J. destruct F as [F|F]; rewrite F in I; vm_compute in I;
      [destruct I as [<-|[<-|[<-|[]]]]|destruct I as [<-|[<-|[<-|[<-|[]]]]]]; cbn in J; repeat (destruct J as [<-|J]; [intros E; try discriminate E; injection E as <-; eauto|]); destruct J.
  - destruct F as [-> | ->]; [exact (proj1 C17_example)|].
    intros dd f I J. cbn in I. destruct I as [<-|[<-|[<-|[<-|[]]]]]; cbn in J; repeat (destruct J as [<-|J]; [split; [split; cbn; intuition discriminate|apply Nat.ltb_lt; vm_compute; reflexivity]|]); destruct J.
Qed.

Lemma lively_ample : ample demo_own lively_setting lively_worlds.
Proof.
  intros w Lw. pose proof Lw as (F & G & dd0 & I0 & C0). split; [exact (lively_stock w Lw)|].
  assert (Sm : forall dd, In dd (w_fs w) -> length (show (de_path dd)) + 32 < 64).
  { intros dd I. destruct F as [F|F]; rewrite F in I; vm_compute in I; [destruct I as [<-|[<-|[<-|[]]]]|destruct I as [<-|[<-|[<-|[<-|[]]]]]]; apply Nat.ltb_lt; reflexivity. }
  split; [exact Sm|]. split; [unfold here; rewrite C0; exact (Sm _ I0)|]. split; [apply Nat.ltb_lt; reflexivity|].
  split; [|split; [|intros h; split; [|split; [|split]]]].
  - intros f If. apply (lively_file w f Lw) in If. assert (A : Forall (listable demo_desc) (buildin_commands cfg_posix ++ [f_run; f_time; f_log])).
    { repeat constructor; try (apply Nat.ltb_lt; vm_compute; reflexivity); cbn; intuition discriminate. }
    exact (proj1 (Forall_forall _ _) A f If).
  - intros dd I. split; [exact F|]. split; [exact G|]. exists dd. split; [exact I|reflexivity].
  - intros f k ws _ _. split; [exists [], []; reflexivity|]. split.
    { split; [apply Nat.ltb_lt; reflexivity|]. split; [vm_compute; discriminate|]. split; apply Nat.ltb_lt; reflexivity. }
    split; [constructor|]. split; [split; [constructor|]; split; [left; apply Nat.leb_le; reflexivity|]; split; [exact I|]|].
    { cbn. rewrite C0. discriminate. }
    split; [exact Lw|intros n U; exact U].
  - intros ws. split; [|exact Lw]. split; [constructor|]. split; [left; apply Nat.leb_le; reflexivity|]. split; [exact I|].
    cbn [hook_calls x_desc lively_setting demo_desc d_exec tree_calls flat_map spec_ops snd]. rewrite C0. discriminate.
  - intros f k ws t _ _. split; [constructor|]. split; [|exact Lw]. split; [constructor|]. split; [left; apply Nat.leb_le; reflexivity|]. split; [exact I|].
    cbn [tree_calls e_set x_app lively_setting lively flat_map spec_ops snd]. rewrite C0. discriminate.
  - intros f k ws _ _. apply (lively_calls w Lw). cbn [e_exec x_app lively_setting lively]. destruct ws as [|? [|? ?]]; auto.
Qed.
Lemma lively_in : lively_worlds demo_world.
Proof. split; [left; reflexivity|]. split; [reflexivity|]. exists (mkDir [] 1 [f_run]). split; [cbn; tauto|reflexivity]. Qed.
Lemma lively_shows : shows demo_own lively_setting demo_sess demo.
Proof. exact demo_shows. Qed.

(** A session with it (C41, C48): the getter returns something else at the second reading. *)
Definition lively_keys : bytes := lit "cat dev/time" ++ [CR] ++ lit "run x" ++ [CR] ++ lit "pwd" ++ [CR] ++ lit "cat /dev/time" ++ [CR] ++ lit "/run" ++ [CR] ++ lit "cd tmp" ++ [CR].
Example C48_example_session :
  ample demo_own lively_setting lively_worlds /\ lively_worlds (se_world demo_sess) /\ shows demo_own lively_setting demo_sess demo /\ ~ In TAB lively_keys /\
  outs_of (fst (sess_run lively_setting demo_sess lively_keys)) =
    lit "cat dev/time" ++ CRLF ++ lit "1" ++ prompt demo_desc (lit "/") ++
    lit "run x" ++ CRLF ++ lit "mounted" ++ CRLF ++ prompt demo_desc (lit "/tmp") ++
    lit "pwd" ++ CRLF ++ lit "/tmp" ++ CRLF ++ prompt demo_desc (lit "/tmp") ++
    lit "cat /dev/time" ++ CRLF ++ lit "4" ++ prompt demo_desc (lit "/tmp") ++
    lit "/run" ++ CRLF ++ lit "gone" ++ CRLF ++ prompt demo_desc (lit "/") ++
    lit "cd tmp" ++ CRLF ++ lit "error: directory not found" ++ CRLF ++ prompt demo_desc (lit "/").
Proof.
  split; [exact lively_ample|]. split; [exact lively_in|]. split; [exact lively_shows|]. split; [cbn; intuition discriminate|]. vm_compute. reflexivity.
Qed.

Lemma demo_settled : settled demo.
Proof. intros X. discriminate X. Qed.
Lemma lively_behaved : well_behaved lively_setting.
Proof.
  intros h. cbn [x_app lively_setting]. split; [|split; [|split]]; intros; cbn; repeat constructor.
  destruct a as [|? [|? ?]]; repeat constructor.
Qed.

(** Turns (C49): the directory is mounted while a line is being typed. *)
Definition some_turns : list turn :=
  [Types (lit "cd tm"); Calls (TMount [lit "tmp"] 4 [f_log]); Types (lit "p" ++ [CR]); Calls (TChdir (lit "/dev")); Types (lit "pwd" ++ [CR])].
Example C49_example :
  well_behaved lively_setting /\ shows demo_own lively_setting demo_sess demo /\ settled demo /\ turns_limits demo_own lively_setting demo_sess some_turns /\
  outs_of (fst (take_turns lively_setting demo_sess some_turns)) =
    lit "cd tm" ++ lit "p" ++ CRLF ++ prompt demo_desc (lit "/tmp") ++ lit "pwd" ++ CRLF ++ lit "/dev" ++ CRLF ++ prompt demo_desc (lit "/dev").
Proof.
  split; [exact lively_behaved|]. split; [exact lively_shows|]. split; [exact demo_settled|]. split; [|vm_compute; reflexivity]. unfold some_turns.
  apply (turns_types demo_own lively_setting lively_worlds _ _ demo_sess demo lively_ample lively_in lively_shows); [cbn; intuition discriminate|]. intros s1 I1 Sh1.
  apply (turns_calls demo_own lively_setting _ _ _ s1 Sh1); [vm_compute; right_calls|vm_compute; discriminate|]. intros s2 Sh2.
  apply (turns_types demo_own lively_setting lively_worlds _ _ _ s2 lively_ample); [|exact Sh2|cbn; intuition discriminate|].
  { split; [right; vm_compute; reflexivity|]. split; [vm_compute; reflexivity|]. exists (mkDir [] 1 [f_run]). split; [vm_compute; tauto|vm_compute; reflexivity]. }
  intros s3 I3 Sh3. apply (turns_calls demo_own lively_setting _ _ _ s3 Sh3); [|vm_compute; discriminate|].
  { split; [cbn; intuition discriminate|]. split; [apply Nat.ltb_lt; vm_compute; reflexivity|vm_compute; discriminate]. }
  intros s4 Sh4. apply (turns_types demo_own lively_setting lively_worlds _ _ _ s4 lively_ample); [|exact Sh4|cbn; intuition discriminate|intros; exact I].
  split; [right; vm_compute; reflexivity|]. split; [vm_compute; reflexivity|]. exists (mkDir [lit "dev"] 2 [f_time; f_log]). split; [vm_compute; tauto|vm_compute; reflexivity].
Qed.

(** C49: while a directory is being listed, correct calls between two calls of ush_service
    can make the listing show directories of another one: neither before nor after the
    calls there is a directory "dev" in "/dev". *)
Definition listing_keys : bytes := lit "cd dev" ++ [CR] ++ lit "ls" ++ [CR].
Definition listing : st := Eval vm_compute in st_of (drive (app_of demo_setting) listing_keys (repeat (true, true) 100) demo).
Definition listing_ops : list treeop := [TUnmount (lit "/dev/a"); TMount [lit "b"] 3 []].
Definition listing_moved : st := Eval vm_compute in st_of (do_ops listing_ops listing).
Definition listing_done : st := Eval vm_compute in st_of (drive (app_of demo_setting) [] (repeat (true, true) 400) listing_moved).
Theorem C49_while_listing_refuted : exists own x a s ks l s1 os s2 l2 s3 pre post,
  shows own x a s /\ run_limits own x a ks /\ drive (app_of x) ks l s = Ok ([], s1) /\
  let w := se_world (snd (sess_run x a ks)) in let w' := snd (spec_ops os w) in
  w_cwd w = Some [lit "dev"] /\ w_cwd w' = Some [lit "dev"] /\ all_allowed (d_pathmax (x_desc x)) own os w /\
  do_ops os s1 = Ok ([ST_OK; ST_OK], s2) /\ drive (app_of x) [] l2 s2 = Ok ([], s3) /\ polling s3 /\
  outs (lg s3) = outs (lg s1) ++ pre ++ dir_line (d_cfg (x_desc x)) (lit "dev/") ++ post /\
  dir_at [lit "dev"; lit "dev"] (w_fs w) = None /\ dir_at [lit "dev"; lit "dev"] (w_fs w') = None.
Proof.
  exists demo_own, demo_setting, demo_sess, demo, listing_keys, (repeat (true, true) 100), listing, listing_ops, listing_moved, (repeat (true, true) 400), listing_done.
  exists (firstn 34 (skipn (length (outs (lg listing))) (outs (lg listing_done)))), (skipn 55 (skipn (length (outs (lg listing))) (outs (lg listing_done)))).
  split; [exact demo_shows|]. split; [apply (ample_run demo_own demo_setting demo_worlds _ demo_sess demo demo_ample demo_in demo_shows); cbn; intuition discriminate|].
  split; [vm_compute; reflexivity|]. cbv zeta. split; [vm_compute; reflexivity|]. split; [vm_compute; reflexivity|].
  split; [|split; [vm_compute; reflexivity|]; split; [vm_compute; reflexivity|]; split; [vm_compute; reflexivity|]; split; [vm_compute; reflexivity|]; split; vm_compute; reflexivity].
  replace (se_world (snd (sess_run demo_setting demo_sess listing_keys))) with (mkWorld (w_fs demo_world) (w_groups demo_world) (Some [lit "dev"])) by (vm_compute; reflexivity).
  unfold listing_ops. right_calls.
Qed.
Print Assumptions C49_while_listing_refuted.

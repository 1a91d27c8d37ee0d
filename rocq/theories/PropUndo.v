(** * Property C77: what was mounted or registered can be taken back without a trace.

    Vocabulary: [takes_back], [outside], [called_in], [tree_of] in Undo.v; [allowed], [do_op] in
    Tree.v; [leaves_tree] in Forget.v; [shows], [run_limits], [sess_run] in Session.v; [drive],
    [both_ready], [polling] in Sched.v. *)
From Coq Require Import Arith Lia.
From Verif Require Import Shell BaseFacts Words Sched Line Editor Spec Tree Cmds Complete Session SessionProofs Forget ForgetProofs Undo UndoProofs Demo PropTree PropLine DemoCmd PropSession PropForget.

(** C77: after a successful ush_node_mount (ush_commands_add), ush_node_unmount of the same path
    (ush_commands_remove of the same object) succeeds and prints nothing, and the shell shows the
    session it showed before the first call. *)
Theorem C77_at_once : forall own x a s o o' s1, takes_back o o' -> shows own x a s -> allowed (d_pathmax (x_desc x)) own (se_world a) o ->
  do_op o s = Ok (ST_OK, s1) -> exists s2, do_op o' s1 = Ok (ST_OK, s2) /\ shows own x a s2 /\ lg s2 = lg s.
Proof. exact C77_at_once_proof. Qed.
Print Assumptions C77_at_once.

(** C77: whatever is typed next is answered, event for event, as if the two calls had not been
    made. *)
Theorem C77_no_trace : forall own x a s o o' s1 cs, takes_back o o' -> shows own x a s -> allowed (d_pathmax (x_desc x)) own (se_world a) o ->
  do_op o s = Ok (ST_OK, s1) -> run_limits own x a cs ->
  exists s2 n evs, do_op o' s1 = Ok (ST_OK, s2) /\ lg s2 = lg s /\ forall l m, n <= both_ready l -> n <= both_ready m -> exists s3 s4,
    drive (app_of x) cs l s = Ok ([], s3) /\ polling s3 /\ lg s3 = lg s ++ evs /\
    drive (app_of x) cs m s2 = Ok ([], s4) /\ polling s4 /\ lg s4 = lg s ++ evs.
Proof. exact C77_no_trace_proof. Qed.
Print Assumptions C77_no_trace.

(** C77: the same when the user types in between: unless the current directory is the one to be
    unmounted, it can be taken back, and directories and commands are those of the beginning. *)
Theorem C77_for_a_while : forall own x a s o o' s1 cs, takes_back o o' -> leaves_tree x -> shows own x a s -> allowed (d_pathmax (x_desc x)) own (se_world a) o ->
  do_op o s = Ok (ST_OK, s1) -> run_limits own x (called_in o a) cs ->
  let b := snd (sess_run x (called_in o a) cs) in outside o (w_cwd (se_world b)) ->
  exists n, forall l, n <= both_ready l -> exists s2 s3,
    drive (app_of x) cs l s1 = Ok ([], s2) /\ polling s2 /\ do_op o' s2 = Ok (ST_OK, s3) /\ lg s3 = lg s2 /\ shows own x (tree_of a b) s3.
Proof. exact C77_for_a_while_proof. Qed.
Print Assumptions C77_for_a_while.

(** "/tmp" is mounted, entered and left, and unmounted. *)
Definition tmp_mount : treeop := TMount [lit "tmp"] 4 [f_log].
Definition tmp_mounted : st := Eval vm_compute in match do_op tmp_mount demo with Ok (_, s) => s | Err _ => demo end.
Definition tmp_sess : sess := called_in tmp_mount demo_sess.
Definition tmp_worlds (w : world) : Prop :=
  w_fs w = w_fs (se_world tmp_sess) /\ w_groups w = w_groups demo_world /\ exists dd, In dd (w_fs (se_world tmp_sess)) /\ w_cwd w = Some (de_path dd).

Lemma tmp_allowed : allowed (d_pathmax demo_desc) demo_own demo_world tmp_mount.
Proof.
  split; [repeat constructor; try discriminate; vm_compute; intuition discriminate|]. split; [apply Nat.ltb_lt; vm_compute; reflexivity|]. split; [cbn; tauto|].
  intros [I|I]; vm_compute in I; intuition discriminate.
Qed.
Lemma tmp_shows : shows demo_own demo_setting tmp_sess tmp_mounted.
Proof.
  destruct (C49_call_proof demo_own demo_setting demo_sess demo tmp_mount demo_shows tmp_allowed) as (s' & D & Sh & _); [vm_compute; discriminate|].
  assert (E : do_op tmp_mount demo = Ok (ST_OK, tmp_mounted)) by (vm_compute; reflexivity). rewrite E in D. injection D as E2. rewrite E2. exact Sh.
Qed.
Lemma tmp_stock : forall c, stock demo_desc (mkWorld (w_fs (se_world tmp_sess)) (w_groups demo_world) c).
Proof.
  intros c. split; [|split].
  - intros f cb I. cbn in I. repeat (destruct I as [<-|I]; [intros E; injection E as <-; reflexivity|]). destruct I.
  - intros dd f cb I J. cbn in I.
    destruct I as [<-|[<-|[<-|[<-|[]]]]]; cbn in J; repeat (destruct J as [<-|J]; [intros E; try discriminate E; injection E as <-; eauto|]); destruct J.
  - intros d f I J. cbn in I. destruct I as [<-|[<-|[<-|[<-|[]]]]]; cbn in J; repeat (destruct J as [<-|J]); try destruct J;
    (split; [split; cbn; intuition discriminate|apply Nat.ltb_lt; vm_compute; reflexivity]).
Qed.
Lemma tmp_file : forall c f, file_of (mkWorld (w_fs (se_world tmp_sess)) (w_groups demo_world) c) f -> In f (buildin_commands cfg_posix ++ [f_run; f_time; f_log]).
Proof.
  intros c f [I|(dd & I & J)]; apply in_or_app.
  - left. cbn [demo_world w_groups flat_map snd] in I. rewrite app_nil_r in I. exact I.
  - right. cbn in I. destruct I as [<-|[<-|[<-|[<-|[]]]]]; cbn in J; cbn; tauto.
Qed.
Lemma tmp_ample : ample demo_own demo_setting tmp_worlds.
Proof.
  intros [fs gs cwd] (F & G & dd0 & I0 & C). cbn [w_fs w_groups w_cwd] in F, G, C. subst fs gs cwd.
  split; [exact (tmp_stock _)|]. split; [|split; [|split; [apply Nat.ltb_lt; reflexivity|]]].
  { intros dd I. cbn in I. destruct I as [<-|[<-|[<-|[<-|[]]]]]; apply Nat.ltb_lt; reflexivity. }
  { cbn in I0. destruct I0 as [<-|[<-|[<-|[<-|[]]]]]; apply Nat.ltb_lt; reflexivity. }
  split; [|split; [|intros h; split; [|split; [|split]]]].
  - intros f F. apply tmp_file in F. assert (A : Forall (listable demo_desc) (buildin_commands cfg_posix ++ [f_run; f_time; f_log])).
    { repeat constructor; try (apply Nat.ltb_lt; vm_compute; reflexivity); cbn; intuition discriminate. }
    exact (proj1 (Forall_forall _ _) A f F).
  - intros dd I. split; [reflexivity|]. split; [reflexivity|]. exists dd. split; [exact I|reflexivity].
  - intros f k ws _ _. split; [exists [], []; reflexivity|]. split.
    { split; [apply Nat.ltb_lt; reflexivity|]. split; [vm_compute; discriminate|]. split; apply Nat.ltb_lt; reflexivity. }
    split; [constructor|]. split; [split; [constructor|]; split; [left; apply Nat.leb_le; reflexivity|]; split; [exact I|discriminate]|].
    split; [|intros n U; exact U]. split; [reflexivity|]. split; [reflexivity|]. exists dd0. split; [exact I0|reflexivity].
  - intros ws. split; [|split; [reflexivity|split; [reflexivity|exists dd0; split; [exact I0|reflexivity]]]].
    split; [constructor|]. split; [left; apply Nat.leb_le; reflexivity|]. split; [exact I|discriminate].
  - intros f k ws t _ _. split; [constructor|]. split; [|split; [reflexivity|split; [reflexivity|exists dd0; split; [exact I0|reflexivity]]]].
    split; [constructor|]. split; [left; apply Nat.leb_le; reflexivity|]. split; [exact I|discriminate].
  - intros f k ws _ _. split; [|split; [reflexivity|split; [reflexivity|exists dd0; split; [exact I0|reflexivity]]]].
    split; [repeat constructor|]. split; [left; apply Nat.leb_le; reflexivity|]. split; [exact I|discriminate].
Qed.
Lemma tmp_typing : forall cs, ~ In TAB cs -> run_limits demo_own demo_setting tmp_sess cs.
Proof.
  intros cs N. apply (ample_run demo_own demo_setting tmp_worlds cs tmp_sess tmp_mounted tmp_ample); [|apply tmp_shows|intros I; destruct (N I)].
  split; [reflexivity|]. split; [reflexivity|]. exists (mkDir [] 1 [f_run]). split; [cbn; tauto|reflexivity].
Qed.

Definition tmp_keys : bytes := lit "cd tmp" ++ [CR] ++ lit "pwd" ++ [CR] ++ lit "cd .." ++ [CR].

Example C77_example :
  takes_back tmp_mount (TUnmount (lit "/tmp")) /\ leaves_tree demo_setting /\ shows demo_own demo_setting demo_sess demo /\ allowed (d_pathmax (x_desc demo_setting)) demo_own (se_world demo_sess) tmp_mount /\
  do_op tmp_mount demo = Ok (ST_OK, tmp_mounted) /\ run_limits demo_own demo_setting demo_sess after_past /\
  run_limits demo_own demo_setting (called_in tmp_mount demo_sess) tmp_keys /\
  outside tmp_mount (w_cwd (se_world (snd (sess_run demo_setting (called_in tmp_mount demo_sess) tmp_keys)))) /\
  outs_of (fst (sess_run demo_setting (called_in tmp_mount demo_sess) tmp_keys)) =
    lit "cd tmp" ++ CRLF ++ prompt demo_desc (lit "/tmp") ++ lit "pwd" ++ CRLF ++ lit "/tmp" ++ CRLF ++ prompt demo_desc (lit "/tmp") ++ lit "cd .." ++ CRLF ++ prompt demo_desc (lit "/") /\
  (* in the directory itself the unmounting would take the current directory away *)
  ~ outside tmp_mount (w_cwd (se_world (snd (sess_run demo_setting (called_in tmp_mount demo_sess) (lit "cd tmp" ++ [CR]))))).
Proof.
  split; [reflexivity|]. split; [intros h; repeat split|]. split; [exact demo_shows|]. split; [exact tmp_allowed|]. split; [vm_compute; reflexivity|].
  split; [apply demo_typing; cbn; intuition discriminate|]. split; [apply tmp_typing; cbn; intuition discriminate|].
  split; [vm_compute; discriminate|]. split; [vm_compute; reflexivity|]. vm_compute. intros N. apply N. reflexivity.
Qed.

Example C77_example_commands :
  takes_back (TAdd 4 [f_run]) (TRemove 4) /\ allowed (d_pathmax (x_desc demo_setting)) demo_own (se_world demo_sess) (TAdd 4 [f_run]) /\
  exists s1, do_op (TAdd 4 [f_run]) demo = Ok (ST_OK, s1).
Proof.
  split; [reflexivity|]. split; [split; [discriminate|split; [cbn; tauto|intros [I|I]; vm_compute in I; intuition discriminate]]|]. eexists. vm_compute. reflexivity.
Qed.

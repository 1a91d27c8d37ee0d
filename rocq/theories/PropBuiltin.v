(** * Property C56: the built-in commands and their switches.

    Vocabulary: [rows] (the table of the commands), [listing], [roomy], [replies], [typeable] in Builtin.v;
    [runs], [init_calls], [set_up] in Examples.v; [argv_of] in Words.v; [status_text] in Sched.v. *)
From Coq Require Import Arith Lia.
From Verif Require Import Shell Words Sched Cmds Session Examples ExampleProofs Builtin BuiltinProofs.

(** C56: for every configuration a shell with an empty root directory follows the session of
    Session.v, whatever is typed. *)
Theorem C56_runs : forall d f, roomy d -> runs (mkSetting d f) 2 init_calls 4.
Proof. intros d f R. exact (sound_runs _ _ _ _ _ (bare_sound d f R)). Qed.
Print Assumptions C56_runs.

(** C56: each command that is switched on works: typed alone it prints what the table says; for
    help this is the listing of exactly the commands switched on, in the order of the table. *)
Theorem C56_alone : forall d f r, roomy d -> In r (rows (d_cfg d)) -> r_on r = true -> 2 + length (r_name r) <= d_insize d ->
  replies (mkSetting d f) (r_name r) (r_alone r).
Proof. exact C56_alone_proof. Qed.
Print Assumptions C56_alone.

(** C56: with the name of a command, help prints its usage, or that there is no such file if it
    is switched off. *)
Theorem C56_usage : forall d f r, roomy d -> cfg_commands (d_cfg d) = true -> cfg_help (d_cfg d) = true -> In r (rows (d_cfg d)) -> 7 + length (r_name r) <= d_insize d ->
  replies (mkSetting d f) (lit "help " ++ r_name r) (if r_on r then r_usage r else status_text (d_cfg d) ST_FILE_NOT_FOUND ++ crlf).
Proof. exact C56_usage_proof. Qed.
Print Assumptions C56_usage.

(** C56: nothing else is a command: a line whose first word is not the name of a command that
    is switched on is answered with the syntax error. *)
Theorem C56_only : forall d f t n ws, roomy d -> typeable d t -> argv_of t = n :: ws ->
  (forall r, In r (rows (d_cfg d)) -> r_on r = true -> r_name r <> n) -> replies (mkSetting d f) t (status_text (d_cfg d) ST_COMMAND_SYNTAX_ERROR ++ crlf).
Proof. exact C56_only_proof. Qed.
Print Assumptions C56_only.

(** C56: commands compiled in but all switched off: ush_init fails its own assertion. *)
Theorem C56_none : forall d, 1 <= d_insize d -> 4 <= d_outsize d -> cfg_commands (d_cfg d) = true -> (forall r, In r (rows (d_cfg d)) -> r_on r = false) ->
  set_up d 2 init_calls = Err EAssert.
Proof. exact C56_none_proof. Qed.
Print Assumptions C56_none.

(** Without styles and TAB, with help, cd and cat only. *)
Definition few_cfg : config := mkConfig false false true 6 8 true false true false true false false (lit "Fehler") posix_msg.
Definition few_desc : desc := mkDesc 20 24 20 (lit "kit") None few_cfg.
Example C56_example :
  roomy few_desc /\ In (nth 0 (rows few_cfg) (mkRow false [] [] [] [])) (rows few_cfg) /\ r_on (nth 0 (rows few_cfg) (mkRow false [] [] [] [])) = true /\
  r_alone (nth 0 (rows few_cfg) (mkRow false [] [] [] [])) =
    lit "help   - list available commands" ++ crlf ++ lit "cd     - change current directory" ++ crlf ++ lit "cat    - print files content" ++ crlf /\
  typeable few_desc (lit "ls -l") /\ argv_of (lit "ls -l") = [lit "ls"; lit "-l"] /\ (forall r, In r (rows few_cfg) -> r_on r = true -> r_name r <> lit "ls") /\
  status_text few_cfg ST_COMMAND_SYNTAX_ERROR = lit "Fehler: syntax error" /\
  (let d := mkDesc 20 24 20 (lit "kit") None (mkConfig false false true 6 8 false false false false false false false (lit "Fehler") posix_msg) in
   forall r, In r (rows (d_cfg d)) -> r_on r = false).
Proof.
  split; [repeat split; try (apply Nat.leb_le; reflexivity); intros _; eexists; split; [left; reflexivity|reflexivity]|].
  split; [left; reflexivity|]. split; [reflexivity|]. split; [vm_compute; reflexivity|].
  split; [split; [repeat (constructor; [split; [reflexivity|discriminate]|]); constructor|apply Nat.leb_le; reflexivity]|].
  split; [reflexivity|]. split; [intros r I On; cbn in I; destruct I as [<-|[<-|[<-|[<-|[<-|[<-|[<-|[]]]]]]]]; try discriminate On; discriminate|].
  split; [reflexivity|]. cbv zeta. intros r I. cbn in I. destruct I as [<-|[<-|[<-|[<-|[<-|[<-|[<-|[]]]]]]]]; reflexivity.
Qed.

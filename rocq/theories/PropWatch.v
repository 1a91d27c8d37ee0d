(** * Property C84: an exec hook that only watches is not noticed.

    Vocabulary: [only_watches], [unhooked], [unwatched] in Watch.v; [shows], [run_limits],
    [sess_run] in Session.v; [drive], [both_ready] in Sched.v. *)
From Coq Require Import Arith Lia.
From Verif Require Import Shell BaseFacts Words Sched Line Editor Spec Tree Cmds Complete Session SessionProofs Watch WatchProofs Demo PropTree PropLine DemoCmd PropSession PropForget.

(** C84: a shell with an exec hook that makes no calls, and the same shell without hook, answer
    every input within the limits alike: everything happens in both in the same order except
    the calls of the hook, and they stand alike afterwards. *)
Theorem C84_watching : forall own x a s t cs, only_watches x -> shows own x a s -> shows own (unhooked x) a t -> run_limits own x a cs ->
  exists n evs b,
    (forall l, n <= both_ready l -> exists s', drive (app_of x) cs l s = Ok ([], s') /\ shows own x b s' /\ lg s' = lg s ++ evs) /\
    (forall m, n <= both_ready m -> exists t', drive (app_of (unhooked x)) cs m t = Ok ([], t') /\ shows own (unhooked x) b t' /\ lg t' = lg t ++ unwatched evs).
Proof. exact C84_proof. Qed.
Print Assumptions C84_watching.

(** A hook that logs the words, and prints nothing. *)
Definition watch_desc : desc := mkDesc 32 64 64 (lit "host") (Some 7) cfg_posix.
Definition watch_env : env := mkEnv (fun k f ws => match f with None => [] | Some _ => e_exec demo_env k f ws end) (e_get demo_env) (e_set demo_env) (fun _ _ => []).
Definition watch_setting : setting := mkSetting watch_desc (fun _ => watch_env).
Definition watch_keys : bytes := lit "/run 1" ++ [CR] ++ lit "cd dev" ++ [CR] ++ lit "cat time" ++ [CR].
Lemma watch_shows : shows demo_own watch_setting demo_sess (set_desc watch_desc demo).
Proof.
  split; [reflexivity|]. split; [exact demo_knows|]. split; [discriminate|]. split; [reflexivity|]. split; [exact demo_editing|]. split; [exact demo_bufs|].
  split; [cbn; repeat constructor|split; intros []].
Qed.
Lemma unwatch_shows : shows demo_own (unhooked watch_setting) demo_sess demo.
Proof.
  split; [reflexivity|]. split; [exact demo_knows|]. split; [discriminate|]. split; [reflexivity|]. split; [exact demo_editing|]. split; [exact demo_bufs|].
  split; [cbn; repeat constructor|split; intros []].
Qed.
Lemma watch_ample : ample demo_own watch_setting demo_worlds.
Proof.
  intros [fs gs cwd] (F & G & dd0 & I0 & C). cbn [w_fs w_groups w_cwd] in *. subst fs gs cwd.
  split; [exact demo_stock|]. split; [|split; [|split; [apply Nat.ltb_lt; reflexivity|]]].
  { intros dd I. cbn in I. destruct I as [<-|[<-|[<-|[]]]]; apply Nat.ltb_lt; reflexivity. }
  { cbn in I0. destruct I0 as [<-|[<-|[<-|[]]]]; apply Nat.ltb_lt; reflexivity. }
  split; [|split; [|intros h; split; [|split; [|split]]]].
  - intros f F. apply (demo_file f) in F. assert (A : Forall (listable watch_desc) (buildin_commands cfg_posix ++ [f_run; f_time; f_log])).
    { repeat constructor; try (apply Nat.ltb_lt; vm_compute; reflexivity); cbn; intuition discriminate. }
    exact (proj1 (Forall_forall _ _) A f F).
  - intros dd I. split; [reflexivity|]. split; [reflexivity|]. exists dd. split; [exact I|reflexivity].
  - intros f k ws _ _. split; [exists [], []; reflexivity|]. split.
    { split; [apply Nat.ltb_lt; reflexivity|]. split; [vm_compute; discriminate|]. split; apply Nat.ltb_lt; reflexivity. }
    split; [constructor|]. split; [split; [constructor|]; split; [left; apply Nat.leb_le; reflexivity|]; split; [exact I|discriminate]|].
    split; [|intros n U; exact U]. split; [reflexivity|]. split; [reflexivity|]. exists dd0. split; [exact I0|reflexivity].
  - intros ws. split; [|split; [reflexivity|split; [reflexivity|exists dd0; split; [exact I0|reflexivity]]]].
    split; [constructor|]. split; [left; apply Nat.leb_le; reflexivity|]. split; [exact I|discriminate].
  - intros f k ws t _ _. split; [constructor|]. split; [|split; [reflexivity|split; [reflexivity|exists dd0; split; [exact I0|reflexivity]]]].
    split; [constructor|]. split; [left; apply Nat.leb_le; reflexivity|]. split; [exact I|discriminate].
  - intros f k ws _ _. split; [|split; [reflexivity|split; [reflexivity|exists dd0; split; [exact I0|reflexivity]]]].
    split; [repeat constructor|]. split; [left; apply Nat.leb_le; reflexivity|]. split; [exact I|discriminate].
Qed.


Example C84_example :
  only_watches watch_setting /\ shows demo_own watch_setting demo_sess (set_desc watch_desc demo) /\ shows demo_own (unhooked watch_setting) demo_sess demo /\
  run_limits demo_own watch_setting demo_sess watch_keys /\
  (let l := fst (sess_run watch_setting demo_sess watch_keys) in length l = 3 + length (unwatched l) /\
     filter (fun e => match e with EvExec _ None _ => true | _ => false end) l =
       [EvExec (XUser 7) None [lit "/run"; lit "1"]; EvExec (XUser 7) None [lit "cd"; lit "dev"]; EvExec (XUser 7) None [lit "cat"; lit "time"]]).
Proof.
  split; [intros h k ws _; reflexivity|]. split; [exact watch_shows|]. split; [exact unwatch_shows|].
  split; [apply (ample_run demo_own watch_setting demo_worlds _ demo_sess _ watch_ample demo_in watch_shows); cbn; intuition discriminate|].
  split; vm_compute; reflexivity.
Qed.

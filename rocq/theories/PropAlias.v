(** * Property C83: a place of the tree is the same by every name and from everywhere.

    Vocabulary: [same_place], [renamed] in Alias.v; [leaves_tree] in Forget.v; [shows],
    [run_limits], [line_argv] in Session.v; [drive], [both_ready] in Sched.v; [resolve_text] in
    Spec.v. *)
From Coq Require Import Arith Lia.
From Verif Require Import Shell BaseFacts Words Sched Line Editor Spec Tree Cmds Complete Session SessionProofs Forget ForgetProofs Alias AliasProofs Demo PropTree PropLine DemoCmd PropSession PropForget.

(** C83: two users of equal trees are in whatever directories and give the same built-in command
    (help, ls, cd, cat, xxd, or echo into a file), naming the same places, relatively or
    absolutely, with or without "." and "..".  Then the getters and setters called are the same
    ([gs], with the data of cat) and so is the text [u] printed before the prompt; cd takes both to
    the same directory, and the other commands leave them where they are. *)
Theorem C83_alias : forall own own' x a b s t c name args args' f cb,
  shows own x a s -> shows own' x b t -> se_esc a = 0 -> se_esc b = 0 -> c = CR \/ c = LF ->
  w_fs (se_world a) = w_fs (se_world b) -> w_groups (se_world a) = w_groups (se_world b) ->
  leaves_tree x -> d_exec (x_desc x) = None -> x_app x (se_read a ++ [c]) = x_app x (se_read b ++ [c]) ->
  line_argv x a = name :: args -> line_argv x b = name :: args' ->
  file_named name (flat_map snd (w_groups (se_world a))) = Some f -> f_exec f = Some cb -> renamed cb (se_world a) (se_world b) args args' ->
  run_limits own x a [c] -> run_limits own' x b [c] ->
  exists n gs u a' b',
    (forall l, n <= both_ready l -> exists s', drive (app_of x) [c] l s = Ok ([], s') /\ shows own x a' s' /\
       lg s' = lg s ++ EvIn c :: map EvOut (eol_echo c) ++ EvExec cb (Some (f_name f)) (name :: args) :: gs ++ map EvOut (u ++ prompt (x_desc x) (show (here (se_world a'))))) /\
    (forall l, n <= both_ready l -> exists t', drive (app_of x) [c] l t = Ok ([], t') /\ shows own' x b' t' /\
       lg t' = lg t ++ EvIn c :: map EvOut (eol_echo c) ++ EvExec cb (Some (f_name f)) (name :: args') :: gs ++ map EvOut (u ++ prompt (x_desc x) (show (here (se_world b'))))) /\
    ((se_world a' = se_world a /\ se_world b' = se_world b) \/ (cb = XCd /\ se_world a' = se_world b')).
Proof. exact C83_proof. Qed.
Print Assumptions C83_alias.

(** From the root, and from /dev. *)
Definition from_root : bytes := lit "cat dev/time".
Definition from_dev : bytes := lit "cd dev" ++ [CR] ++ lit "cat ../dev/./time".
Example C83_example :
  let x := demo_setting in let a := snd (sess_run x demo_sess from_root) in let b := snd (sess_run x demo_sess from_dev) in
  (exists s, shows demo_own x a s) /\ (exists t, shows demo_own x b t) /\ se_esc a = 0 /\ se_esc b = 0 /\
  w_fs (se_world a) = w_fs (se_world b) /\ w_groups (se_world a) = w_groups (se_world b) /\ here (se_world a) <> here (se_world b) /\ leaves_tree x /\ d_exec (x_desc x) = None /\
  line_argv x a = [lit "cat"; lit "dev/time"] /\ line_argv x b = [lit "cat"; lit "../dev/./time"] /\
  (exists f, file_named (lit "cat") (flat_map snd (w_groups (se_world a))) = Some f /\ f_exec f = Some XCat) /\
  renamed XCat (se_world a) (se_world b) [lit "dev/time"] [lit "../dev/./time"] /\ run_limits demo_own x a [CR] /\ run_limits demo_own x b [CR].
Proof.
  cbv zeta.
  assert (L1 : run_limits demo_own demo_setting demo_sess (from_root ++ [CR])) by (apply demo_typing; cbn; intuition discriminate). apply limits_cat in L1 as (L1 & L1').
  assert (L2 : run_limits demo_own demo_setting demo_sess (from_dev ++ [CR])) by (apply demo_typing; cbn; intuition discriminate). apply limits_cat in L2 as (L2 & L2').
  destruct (C41_proof demo_own demo_setting _ demo_sess demo demo_shows L1) as (s & _ & S1 & _).
  destruct (C41_proof demo_own demo_setting _ demo_sess demo demo_shows L2) as (t & _ & S2 & _).
  split; [exists s; exact S1|]. split; [exists t; exact S2|]. split; [vm_compute; reflexivity|]. split; [vm_compute; reflexivity|]. split; [vm_compute; reflexivity|].
  split; [vm_compute; reflexivity|]. split; [vm_compute; discriminate|]. split; [intros h; repeat split|]. split; [reflexivity|].
  split; [vm_compute; reflexivity|]. split; [vm_compute; reflexivity|]. split; [eexists; split; vm_compute; reflexivity|].
  split; [|split; assumption]. split; [discriminate|]. constructor; [|constructor].
  split; [discriminate|]. split; [discriminate|]. split; [vm_compute; reflexivity|]. split; vm_compute; reflexivity.
Qed.

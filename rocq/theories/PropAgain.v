(** * Property C86: the same lines get the same answer, any number of times.

    Vocabulary: [memoryless], [times], [plain_lines] in Again.v; [leaves_tree], [never_cd] in Forget.v; [shows],
    [run_limits], [ends_line] in Session.v; [drive], [both_ready] in Sched.v. *)
From Coq Require Import Arith Lia.
From Verif Require Import Shell BaseFacts Words Sched Line Editor Spec Tree Cmds Complete Session SessionProofs Forget Again AgainProofs Demo PropTree PropLine DemoCmd PropSession PropForget.

(** C86: an application without memory whose callbacks leave the tree alone; at the prompt the
    user types any lines [q ++ [c]], the last one ended by [c], and none of them runs cd.  Typing
    them [k] times makes exactly [k] times the same happen: nothing in the shell wears out or
    fills up, and the limits that hold once hold always. *)
Theorem C86_again : forall own x a s q c, memoryless x -> leaves_tree x -> shows own x a s -> se_esc a = 0 -> se_line a = [] ->
  ends_line (snd (sess_run x a q)) c = true -> never_cd x a (q ++ [c]) -> run_limits own x a (q ++ [c]) ->
  exists evs, forall k, exists n, forall l, n <= both_ready l ->
    exists s', drive (app_of x) (times k (q ++ [c])) l s = Ok ([], s') /\ polling s' /\ lg s' = lg s ++ times k evs.
Proof. exact C86_proof. Qed.
Print Assumptions C86_again.

(** C86, any order: there is one answer to each piece of complete lines, and any pieces typed in any
    order, each as often as one likes, get their own answers one after the other. *)
Theorem C86_any_order : forall own x a s, memoryless x -> leaves_tree x -> shows own x a s -> se_esc a = 0 -> se_line a = [] ->
  exists answer : bytes -> list event, forall bs, Forall (plain_lines own x a) bs -> exists n, forall l, n <= both_ready l ->
    exists s', drive (app_of x) (concat bs) l s = Ok ([], s') /\ polling s' /\ lg s' = lg s ++ concat (map answer bs).
Proof. exact C86_order_proof. Qed.
Print Assumptions C86_any_order.

Example C86_example :
  let q := lit "ls" ++ [CR] ++ lit "catt" ++ [BS] ++ lit " dev/time" in
  memoryless demo_setting /\ leaves_tree demo_setting /\ shows demo_own demo_setting demo_sess demo /\ se_esc demo_sess = 0 /\ se_line demo_sess = [] /\
  ends_line (snd (sess_run demo_setting demo_sess q)) CR = true /\ never_cd demo_setting demo_sess (q ++ [CR]) /\
  run_limits demo_own demo_setting demo_sess (q ++ [CR]).
Proof.
  cbv zeta. split; [intros h h'; reflexivity|]. split; [intros h; repeat split|]. split; [exact demo_shows|]. split; [reflexivity|]. split; [reflexivity|].
  split; [vm_compute; reflexivity|]. split; [|apply demo_typing; cbn; intuition discriminate].
  vm_compute. repeat (split; [first [intros E; discriminate E|intros _ f Ef; injection Ef as <-; discriminate]|]). exact I.
Qed.

Example C86_order_example : Forall (plain_lines demo_own demo_setting demo_sess) [lit "ls" ++ [CR]; lit "cat dev/time" ++ [CR]; lit "ls" ++ [CR]].
Proof.
  assert (P : forall q, ends_line (snd (sess_run demo_setting demo_sess q)) CR = true -> never_cd demo_setting demo_sess (q ++ [CR]) -> run_limits demo_own demo_setting demo_sess (q ++ [CR]) ->
    plain_lines demo_own demo_setting demo_sess (q ++ [CR])) by (intros q H1 H2 H3; split; [exists q, CR; split; [reflexivity|exact H1]|split; [exact H2|exact H3]]).
  assert (L : plain_lines demo_own demo_setting demo_sess (lit "ls" ++ [CR])).
  { apply P; [vm_compute; reflexivity| |apply demo_typing; cbn; intuition discriminate].
    vm_compute. repeat (split; [first [intros E; discriminate E|intros _ f Ef; injection Ef as <-; discriminate]|]). exact I. }
  constructor; [exact L|]. constructor; [|constructor; [exact L|constructor]].
  apply P; [vm_compute; reflexivity| |apply demo_typing; cbn; intuition discriminate].
  vm_compute. repeat (split; [first [intros E; discriminate E|intros _ f Ef; injection Ef as <-; discriminate]|]). exact I.
Qed.

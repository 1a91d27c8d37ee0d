(** * Property C78: colours only decorate.

    Vocabulary: [uncoloured], [decorated] in Colours.v; [shows], [run_limits], [sess_run] in
    Session.v; [drive], [both_ready], [polling] in Sched.v. *)
From Coq Require Import Arith Lia.
From Verif Require Import Shell BaseFacts Words Sched Line Editor Spec Tree Cmds Complete Session SessionProofs Colours ColoursProofs Demo PropTree PropLine DemoCmd PropSession.

(** C78: two shells standing alike, one built with colours and one without, do the same, each
    under its own schedule: the same callbacks with the same arguments in the same order, the
    same output but for the colour codes that the former prints in addition, and they stand
    alike afterwards.  What is within the limits of the former is within those of the latter. *)
Theorem C78_colours : forall own x a s t cs, shows own x a s -> run_limits own x a cs -> shows own (uncoloured x) a t ->
  (forall m, exists q t', drive (app_of (uncoloured x)) cs m t = Ok (q, t')) /\
  exists n evs evs' b, decorated evs evs' /\
    (forall l, n <= both_ready l -> exists s', drive (app_of x) cs l s = Ok ([], s') /\ polling s' /\ lg s' = lg s ++ evs /\ shows own x b s') /\
    (forall m, n <= both_ready m -> exists t', drive (app_of (uncoloured x)) cs m t = Ok ([], t') /\ polling t' /\ lg t' = lg t ++ evs' /\ shows own (uncoloured x) b t').
Proof. exact C78_colours_proof. Qed.
Print Assumptions C78_colours.

(** The shell of the examples, built without colours. *)
Definition plain_demo : st := set_desc (plain_desc demo_desc) demo.
Lemma plain_shows : shows demo_own (uncoloured demo_setting) demo_sess plain_demo.
Proof.
  split; [reflexivity|]. split; [exact demo_knows|]. split; [discriminate|]. split; [reflexivity|]. split; [exact demo_editing|]. split; [exact demo_bufs|].
  split; [cbn; repeat constructor|split; intros []].
Qed.

Example C78_example :
  shows demo_own demo_setting demo_sess demo /\ run_limits demo_own demo_setting demo_sess demo_keys /\ shows demo_own (uncoloured demo_setting) demo_sess plain_demo /\
  outs_of (fst (sess_run demo_setting demo_sess (lit "cd dev" ++ [CR]))) =
    lit "cd dev" ++ CRLF ++ [ESC] ++ lit "[35m[host dev]$ " ++ [ESC] ++ lit "[0m" /\
  outs_of (fst (sess_run (uncoloured demo_setting) demo_sess (lit "cd dev" ++ [CR]))) =
    lit "cd dev" ++ CRLF ++ lit "[host dev]$ ".
Proof. split; [exact demo_shows|]. split; [exact demo_limits|]. split; [exact plain_shows|]. split; vm_compute; reflexivity. Qed.

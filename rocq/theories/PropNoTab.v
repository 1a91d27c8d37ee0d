(** * Property C79: without completion TAB does nothing, and all else is as with it.

    Vocabulary: [uncompleting], [no_tabs], [tabs_unread], [deaf_to_tabs], [alike_but_tabs] in
    NoTab.v; [shows], [run_limits], [sess_run] in Session.v; [drive], [both_ready], [polling] in
    Sched.v. *)
From Coq Require Import Arith Lia.
From Verif Require Import Shell BaseFacts Words Sched Line Editor Spec Tree Cmds Complete Session SessionProofs NoTab NoTabProofs Demo PropTree PropLine DemoCmd PropSession PropForget.

(** C79: a shell built without completion, given any input, does exactly what a shell built with
    it, standing alike, does when given that input without the TABs (which the former reads and
    ignores), each under its own schedule. *)
Theorem C79_no_completion : forall own x a b s t cs, deaf_to_tabs x -> alike_but_tabs a b -> shows own x a s -> run_limits own x a (no_tabs cs) -> shows own (uncompleting x) b t ->
  (forall m, exists q t', drive (app_of (uncompleting x)) cs m t = Ok (q, t')) /\
  exists n evs evs', evs = tabs_unread evs' /\
    (forall l, n <= both_ready l -> exists s', drive (app_of x) (no_tabs cs) l s = Ok ([], s') /\ polling s' /\ lg s' = lg s ++ evs) /\
    (forall m, n <= both_ready m -> exists t', drive (app_of (uncompleting x)) cs m t = Ok ([], t') /\ polling t' /\ lg t' = lg t ++ evs').
Proof. exact C79_proof. Qed.
Print Assumptions C79_no_completion.

(** The shell of the examples, built without completion. *)
Definition bare_demo : st := set_desc (bare_desc demo_desc) demo.
Lemma bare_shows : shows demo_own (uncompleting demo_setting) demo_sess bare_demo.
Proof.
  split; [reflexivity|]. split; [exact demo_knows|]. split; [discriminate|]. split; [reflexivity|]. split; [exact demo_editing|]. split; [exact demo_bufs|].
  split; [cbn; repeat constructor|split; intros []].
Qed.
Definition tab_typed : bytes := [TAB] ++ lit "cd d" ++ [TAB] ++ lit "ev" ++ [TAB; CR].

Example C79_example :
  deaf_to_tabs demo_setting /\ alike_but_tabs demo_sess demo_sess /\ shows demo_own demo_setting demo_sess demo /\
  run_limits demo_own demo_setting demo_sess (no_tabs tab_typed) /\ shows demo_own (uncompleting demo_setting) demo_sess bare_demo /\
  outs_of (fst (sess_run (uncompleting demo_setting) demo_sess tab_typed)) = lit "cd dev" ++ CRLF ++ prompt demo_desc (lit "/dev") /\
  (* with completion the second TAB completes the word *)
  outs_of (fst (sess_run demo_setting demo_sess (lit "cd d" ++ [TAB] ++ lit "ev" ++ [CR]))) =
    lit "cd devev" ++ CRLF ++ lit "error: directory not found" ++ CRLF ++ prompt demo_desc (lit "/").
Proof.
  split; [intros h; reflexivity|]. split; [repeat split|]. split; [exact demo_shows|]. split; [apply demo_typing; vm_compute; intuition discriminate|]. split; [exact bare_shows|].
  split; vm_compute; reflexivity.
Qed.

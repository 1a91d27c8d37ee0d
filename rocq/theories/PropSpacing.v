(** * Property C76: only the words count.

    Vocabulary: [same_words], [closed] in Spacing.v; [words] in Words.v; [no_memory_of] in Forget.v;
    [shows], [run_limits] in Session.v; [command_line] in Line.v; [drive], [both_ready], [polling] in Sched.v. *)
From Coq Require Import Arith Lia.
From Verif Require Import Shell BaseFacts Words Sched Line LineFacts LineProofs Editor Spec Tree Cmds Complete Session SessionProofs Forget ForgetProofs Spacing SpacingProofs Demo PropTree PropLine DemoCmd PropSession PropForget.

(** C76: two lines with the same words, however they have been typed (corrections, cursor keys,
    completion), spaced and quoted, are answered alike, and so is everything that follows. *)
Theorem C76_words : forall own x a b s t c cs, same_words x a b -> no_memory_of x (se_read a) (se_read b) -> c = CR \/ c = LF ->
  shows own x a s -> shows own x b t -> run_limits own x a (c :: cs) ->
  (forall m, exists q t', drive (app_of x) (c :: cs) m t = Ok (q, t')) /\
  exists n evs, (forall l, n <= both_ready l -> exists s', drive (app_of x) (c :: cs) l s = Ok ([], s') /\ polling s' /\ lg s' = lg s ++ evs) /\
    (forall m, n <= both_ready m -> exists t', drive (app_of x) (c :: cs) m t = Ok ([], t') /\ polling t' /\ lg t' = lg t ++ evs).
Proof. exact C76_words_proof. Qed.
Print Assumptions C76_words.

(** C76: the number of blanks does not matter: before, between and after words, if no quote is
    open and no backslash is pending there. *)
Theorem C76_blanks : forall u v n, closed false u = true -> words (u ++ repeat SP (S n) ++ v) = words u ++ words v.
Proof. exact C76_blanks_proof. Qed.
Print Assumptions C76_blanks.

Definition spaced1 : bytes := lit "  cat   ""dev/time""  ".
Definition spaced2 : bytes := lit "cxat"   ++ [BS; BS; BS] ++ lit "at de" ++ [ESC; "["%char; "A"%char] ++ lit "v/t\ime".
Example C76_example :
  (let a := snd (sess_run demo_setting demo_sess spaced1) in let b := snd (sess_run demo_setting demo_sess spaced2) in
   same_words demo_setting a b /\ line_argv demo_setting a = [lit "cat"; lit "dev/time"] /\ se_line a <> se_line b /\
   no_memory_of demo_setting (se_read a) (se_read b) /\ run_limits demo_own demo_setting a (CR :: lit "ls" ++ [CR]) /\
   (exists s, shows demo_own demo_setting a s) /\ (exists t, shows demo_own demo_setting b t)) /\
  closed false (lit "cat ""a b""") = true /\ closed false (lit "cat ""a b") = false.
Proof.
  assert (D : forall cs, ~ In TAB cs -> exists s, shows demo_own demo_setting (snd (sess_run demo_setting demo_sess cs)) s).
  { intros cs N. destruct (schedule_done demo_own demo_setting cs demo_sess demo demo (quiet_by_here _ _ (shows_polling _ _ _ _ demo_shows)) demo_shows (demo_typing cs N)) as (_ & n & s' & _ & Sh & _). exists s'. exact Sh. }
  split; [|split; vm_compute; reflexivity]. cbv zeta. split; [split; [vm_compute; reflexivity|split; [vm_compute; reflexivity|split; vm_compute; reflexivity]]|]. split; [vm_compute; reflexivity|]. split; [vm_compute; discriminate|]. split; [intros h; reflexivity|].
  split; [|split; apply D; cbn; intuition discriminate].
  assert (L : run_limits demo_own demo_setting demo_sess (spaced1 ++ CR :: lit "ls" ++ [CR])) by (apply demo_typing; cbn; intuition discriminate). apply limits_cat in L. apply L.
Qed.

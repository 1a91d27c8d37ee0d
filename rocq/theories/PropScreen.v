(** * Property C71: the screen shows the line that will be run.

    Vocabulary: the terminal ([screen], [display]) and [row_ends], [seen_line], [clean],
    [typable] in Screen.v; [shows], [run_limits] in Session.v; [drive], [polling] in Sched.v. *)
From Coq Require Import Arith Lia.
From Verif Require Import Shell BaseFacts Spec Words Sched Line Editor Tree Cmds Complete Session SessionProofs Screen ScreenProofs Demo PropTree PropLine DemoCmd PropSession.

(** C71: if the row of the cursor ends with the prompt and the line, it does so whenever the shell
    polls, whatever is typed: the screen shows the line the shell holds. *)
Theorem C71_screen : forall own x a s cs l q s' sc, shows own x a s -> run_limits own x a cs -> all_typable x a cs ->
  row_ends (seen_line (x_desc x) a) (display sc (outs (lg s))) -> forallb printable (se_line a) = true ->
  drive (app_of x) cs l s = Ok (q, s') -> polling s' ->
  exists b, shows own x b s' /\ row_ends (seen_line (x_desc x) b) (display sc (outs (lg s'))) /\ forallb printable (se_line b) = true.
Proof. exact C71_screen_proof. Qed.
Print Assumptions C71_screen.

(** C71: it does after the banner and the first prompt. *)
Theorem C71_first : forall d w sc, row_ends [] sc -> visible_prompt d w ->
  row_ends (seen_line d (mkSess w [] 0 [])) (display sc ((lit "uShell 0.1.0" ++ [CR; LF]) ++ prompt d (show (here w)))).
Proof. exact C71_first_proof. Qed.
Print Assumptions C71_first.

(** C71: printable text, ends of line and colours are clean. *)
Theorem C71_clean : forall t, plain_text t -> clean t.
Proof. exact plain_clean. Qed.
Print Assumptions C71_clean.

(** C71: answers are clean if files, directories and messages have plain names and texts, callbacks
    print plain text and so does the argument of echo. *)
Theorem C71_answers : forall d e w c ws, plain_names d (after_hook e d ws w) -> plain_talk d e c ws -> plain_echo ws ->
  let '(evs, t, _) := react d e w c ws in clean (outs evs ++ t).
Proof. exact C71_answers_proof. Qed.
Print Assumptions C71_answers.

(** C71: a dump by xxd is plain text whatever the data are. *)
Theorem C71_xxd : forall cols data, plain_text (xxd_dump cols data).
Proof. exact plain_xxd. Qed.
Print Assumptions C71_xxd.

(** C71: a byte that fills the input buffer breaks it: the line starts over, the screen still
    shows the old one. *)
Theorem C71_full_line_refuted : exists own x a s cs s', shows own x a s /\ run_limits own x a cs /\
  row_ends (seen_line (x_desc x) a) (display empty_screen (outs (lg s))) /\ forallb printable cs = true /\
  (exists n, drive (app_of x) cs (repeat (true, true) n) s = Ok ([], s')) /\ editing 0 [] s' /\
  row_ends (lit "[host /]$ " ++ cs) (display empty_screen (outs (lg s'))).
Proof.
  exists demo_own, demo_setting, demo_sess, demo, (repeat "x"%char 32).
  destruct (drive (app_of demo_setting) (repeat "x"%char 32) (repeat (true, true) 200) demo) as [[q s']|] eqn:D; [|vm_compute in D; discriminate D].
  exists s'. split; [exact demo_shows|]. split.
  { apply (ample_run demo_own demo_setting demo_worlds _ demo_sess demo demo_ample demo_in demo_shows). cbn. intuition discriminate. }
  split; [split; [reflexivity|split; [exists []; vm_compute; reflexivity|vm_compute; constructor]]|]. split; [reflexivity|].
  vm_compute in D. injection D as <- <-. split; [exists 200; vm_compute; reflexivity|].
  split; [split; [reflexivity|split; [reflexivity|split; [reflexivity|eexists; vm_compute; reflexivity]]]|].
  split; [reflexivity|split; [exists []; vm_compute; reflexivity|vm_compute; constructor]].
Qed.
Print Assumptions C71_full_line_refuted.

(** Typing with corrections, completion, an arrow key and ^C, and three commands. *)
Definition screen_keys : bytes := lit "xyz" ++ [ETX] ++ lit "cd q" ++ [BS; ESC; "["%char; "A"%char] ++ lit "de" ++ [TAB; CR] ++ lit "ls" ++ [CR] ++ lit "cat tiime" ++ [BS; BS; DEL].
Definition screen_late : st := Eval vm_compute in st_of (drive (app_of demo_setting) screen_keys (repeat (true, true) 900) demo).
Example C71_example :
  shows demo_own demo_setting demo_sess demo /\ run_limits demo_own demo_setting demo_sess demo_keys /\ all_typable demo_setting demo_sess demo_keys /\
  row_ends (seen_line demo_desc demo_sess) (display empty_screen (outs (lg demo))) /\
  all_typable demo_setting demo_sess screen_keys /\
  drive (app_of demo_setting) screen_keys (repeat (true, true) 900) demo = Ok ([], screen_late) /\
  display empty_screen (outs (lg screen_late)) = mkScreen Ground (lit "[host dev]$ cat ti") (lit "   ").
Proof.
  split; [exact demo_shows|]. split; [exact demo_limits|]. split; [apply all_typableb_ok; vm_compute; reflexivity|].
  split; [split; [reflexivity|split; [exists []; vm_compute; reflexivity|vm_compute; constructor]]|].
  split; [apply all_typableb_ok; vm_compute; reflexivity|]. split; vm_compute; reflexivity.
Qed.

(** The demo meets the conditions of [C71_answers] for a line "echo hi". *)
Example C71_answers_example : let ws := [lit "echo"; lit "hi"] in
  plain_names demo_desc (after_hook demo_env demo_desc ws demo_world) /\ plain_talk demo_desc demo_env CR ws /\ plain_echo ws /\
  snd (fst (react demo_desc demo_env demo_world CR ws)) = lit "hi" ++ CRLF.
Proof.
  assert (F : forallb plain_fileb (buildin_commands cfg_posix ++ [f_run; f_time; f_log]) = true) by (vm_compute; reflexivity).
  split; [|split; [|split]].
  - split; [|split; [|split; [|split]]].
    + intros f I. apply plain_fileb_ok. rewrite forallb_forall in F. exact (F f (demo_file f I)).
    + intros dd n I. cbn in I. destruct I as [<-|[<-|[<-|[]]]]; cbn; intuition (subst; reflexivity).
    + intros n [].
    + apply plain_chars. reflexivity.
    + intros x. apply plain_chars. destruct x; reflexivity.
  - split; [|split; [|split]]; intros; apply (linesb_plain _ _ (le_n _)); reflexivity.
  - intros name t E. injection E as <- <-. apply plain_chars. reflexivity.
  - reflexivity.
Qed.

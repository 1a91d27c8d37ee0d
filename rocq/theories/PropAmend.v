(** * Property C82: what is taken back leaves no trace.

    Vocabulary: [scrap], [abandoned] in Amend.v; [callbacks] in LineEnd.v; [shows], [run_limits]
    in Session.v; [drive], [both_ready] in Sched.v; [ins] (the bytes read) in Shell.v. *)
From Coq Require Import Arith Lia.
From Verif Require Import Shell BaseFacts Words Sched Line Editor Spec Tree Cmds Complete Session SessionProofs Forget LineEnd Amend AmendProofs Demo PropTree PropLine DemoCmd PropSession PropForget.

(** C82: wherever the user types something, erases it again, presses cursor keys, or begins a
    line and gives it up with Ctrl-C, no callback is called meanwhile, and all that follows is
    answered exactly as if they had not: the same callbacks and the same output [evs].  (The
    line must not outgrow the input buffer, and the application must not look at the keys.) *)
Theorem C82_amends : forall own x a s p cs, shows own x a s -> run_limits own x a cs -> se_esc a = 0 ->
  (exists r, length (se_line a) + r < d_insize (x_desc x) /\ scrap r p) \/ (se_line a = [] /\ abandoned p) ->
  (forall h, x_app x (se_read a ++ p ++ h) = x_app x (se_read a ++ h)) ->
  exists n tr evs, callbacks tr = [] /\ ins tr = p /\ forall l, n <= both_ready l ->
    (exists s', drive (app_of x) cs l s = Ok ([], s') /\ polling s' /\ lg s' = lg s ++ evs) /\
    (exists s', drive (app_of x) (p ++ cs) l s = Ok ([], s') /\ polling s' /\ lg s' = lg s ++ tr ++ evs).
Proof. exact C82_proof. Qed.
Print Assumptions C82_amends.

(** Two characters, cursor up between them, and both erased; a line given up. *)
Definition demo_scrap : bytes := "x"%char :: [ESC; "["%char; "A"%char] ++ "y"%char :: [] ++ BS :: [] ++ DEL :: [].
Definition demo_abandoned : bytes := lit "/run now" ++ [ESC; BS; ETX].
Example C82_example :
  shows demo_own demo_setting demo_sess demo /\ run_limits demo_own demo_setting demo_sess (lit "/run" ++ [CR]) /\
  scrap 2 demo_scrap /\ length (se_line demo_sess) + 2 < d_insize (x_desc demo_setting) /\ abandoned demo_abandoned /\
  length (callbacks (fst (sess_run demo_setting demo_sess (demo_scrap ++ lit "/run" ++ [CR])))) = 1.
Proof.
  split; [exact demo_shows|]. split; [apply demo_typing; cbn; intuition discriminate|]. split.
  - apply (scrap_typo 1 "x"%char ([ESC; "["%char; "A"%char] ++ "y"%char :: [] ++ BS :: []) DEL []); [reflexivity|reflexivity| |apply scrap_none].
    apply scrap_cursor; [left; reflexivity|left; reflexivity|]. apply (scrap_typo 0 "y"%char [] BS []); try reflexivity; apply scrap_none.
  - split; [apply Nat.ltb_lt; reflexivity|]. split; [|vm_compute; reflexivity].
    exists (lit "/run now" ++ [ESC; BS]). split; [reflexivity|]. split; [|split]; cbn; intuition discriminate.
Qed.

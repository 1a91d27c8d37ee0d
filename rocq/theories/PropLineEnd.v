(** * Property C80: CR and LF end a line alike.

    Vocabulary: [same_key], [any_line_end], [but_line_ends], [callbacks], [prints_fit],
    [alike_but_ends] in LineEnd.v; [shows], [run_limits], [sess_run] in Session.v; [drive],
    [both_ready], [polling] in Sched.v. *)
From Coq Require Import Arith Lia.
From Verif Require Import Shell BaseFacts Words Sched Line Editor Spec Tree Cmds Complete Session SessionProofs LineEnd LineEndProofs Demo PropTree PropLine DemoCmd PropSession PropForget.

(** C80: two inputs that differ in their line ends only are treated alike: the same callbacks are
    called with the same arguments, and, if what they print fits in the output buffer, the output
    is the same but for the echo of the line ends. *)
Theorem C80_line_ends : forall own x a b s t cs ds, any_line_end x -> Forall2 same_key cs ds -> alike_but_ends a b -> shows own x a s -> run_limits own x a cs -> shows own x b t ->
  (forall m, exists q t', drive (app_of x) ds m t = Ok (q, t')) /\
  exists n evs evs', callbacks evs = callbacks evs' /\ (prints_fit x -> but_line_ends evs evs') /\
    (forall l, n <= both_ready l -> exists s', drive (app_of x) cs l s = Ok ([], s') /\ polling s' /\ lg s' = lg s ++ evs) /\
    (forall m, n <= both_ready m -> exists t', drive (app_of x) ds m t = Ok ([], t') /\ polling t' /\ lg t' = lg t ++ evs').
Proof. exact C80_proof. Qed.
Print Assumptions C80_line_ends.

(** C80: an empty line, hence also the second byte of CR LF, gives another prompt and nothing
    else. *)
Theorem C80_empty_line : forall own x a s c, shows own x a s -> se_esc a = 0 -> se_line a = [] -> c = CR \/ c = LF ->
  let b := mkSess (se_world a) (se_read a ++ [c]) 0 [] in
  exists n, forall l, n <= both_ready l -> exists s', drive (app_of x) [c] l s = Ok ([], s') /\ shows own x b s' /\
    lg s' = lg s ++ EvIn c :: map EvOut (eol_echo c ++ prompt (x_desc x) (show (here (se_world a)))).
Proof. exact C80_empty_proof. Qed.
Print Assumptions C80_empty_line.

Definition cr_keys : bytes := lit "cd dev" ++ [CR] ++ lit "cat time" ++ [LF; ESC; CR; CR].
Definition lf_keys : bytes := lit "cd dev" ++ [LF] ++ lit "cat time" ++ [CR; ESC; LF; CR].

Lemma same_keys : Forall2 same_key cr_keys lf_keys.
Proof.
  unfold cr_keys, lf_keys. apply F2_app; [apply F2_refl|]. apply Forall2_cons; [right; left; split; reflexivity|]. apply F2_app; [apply F2_refl|].
  apply Forall2_cons; [right; right; split; reflexivity|]. apply Forall2_cons; [left; reflexivity|]. apply Forall2_cons; [right; left; split; reflexivity|]. apply F2_refl.
Qed.

Example C80_example :
  any_line_end demo_setting /\ Forall2 same_key cr_keys lf_keys /\ alike_but_ends demo_sess demo_sess /\ shows demo_own demo_setting demo_sess demo /\
  run_limits demo_own demo_setting demo_sess cr_keys /\ prints_fit demo_setting /\
  outs_of (fst (sess_run demo_setting demo_sess cr_keys)) <> outs_of (fst (sess_run demo_setting demo_sess lf_keys)) /\
  length (callbacks (fst (sess_run demo_setting demo_sess cr_keys))) = 3.
Proof.
  split; [intros h h' _; reflexivity|]. split; [exact same_keys|]. split; [repeat split; constructor|]. split; [exact demo_shows|].
  split; [apply demo_typing; vm_compute; intuition discriminate|]. split; [intros h ws; cbv zeta; split; [|split]; intros; cbn; lia|].
  split; [vm_compute; discriminate|vm_compute; reflexivity].
Qed.

(** C80: if the texts do not fit, the bytes echoed before them count, too: what fits after LF
    may be cut off after CR. *)
Definition long_text : bytes := repeat "a"%char 62.
Definition long_env : env := mkEnv (fun _ _ _ => [APrintf (FmtOk long_text)]) (fun _ _ => mkGet (GData []) 0 []) (fun _ _ _ => []) (fun _ _ => []).
Definition long_setting : setting := mkSetting demo_desc (fun _ => long_env).
Theorem C80_overflow_refuted : exists x a s u n s' t', any_line_end x /\ shows demo_own x a s /\
  drive (app_of x) (lit "/run" ++ [CR]) (repeat (true, true) n) s = Ok ([], s') /\ drive (app_of x) (lit "/run" ++ [LF]) (repeat (true, true) n) s = Ok ([], t') /\
  polling s' /\ polling t' /\ callbacks (lg s') = callbacks (lg t') /\
  outs (lg s') = outs (lg s) ++ lit "/run" ++ CRLF ++ firstn 42 u ++ overflow_message ++ [NUL] ++ prompt demo_desc (lit "/") /\
  outs (lg t') = outs (lg s) ++ lit "/run" ++ [LF] ++ u ++ prompt demo_desc (lit "/") /\ 42 < length u.
Proof.
  exists long_setting, demo_sess, demo, long_text, 300. do 2 eexists. split; [intros h h' _; reflexivity|]. split; [exact demo_shows|].
  split; [vm_compute; reflexivity|]. split; [vm_compute; reflexivity|]. split; [vm_compute; auto|]. split; [vm_compute; auto|]. split; [vm_compute; reflexivity|].
  split; [vm_compute; reflexivity|]. split; [vm_compute; reflexivity|]. apply Nat.ltb_lt. vm_compute. reflexivity.
Qed.
Print Assumptions C80_overflow_refuted.

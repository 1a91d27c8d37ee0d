(** * Properties C31 and C46: printing from callbacks of the application.

    Vocabulary: Cmds.v, in particular [called e own w cwd l ws f s] (in world [w], the line [l]
    has been typed, reads as the words [ws], and its first word denotes the file [f]),
    [does], [printf_text] (a formatted text, cut to the output buffer), [said] (what a series
    of printing calls prints). *)
From Coq Require Import Arith.
From Verif Require Import Shell Words Sched SchedProofs Macro Line Editor Spec Tree Cmds CmdProofs PrintfProofs Demo PropTree PropLine DemoCmd.

(** C31: the formatted strings of a callback are printed one after the other if they fit
    in the output buffer (with the echo of the end of line and a terminator). *)
Theorem C31_printf : forall e own w cwd l ws f s c k us, called e own w cwd l ws f s -> c = CR \/ c = LF -> ws <> [] -> f_exec f = Some (XUser k) ->
  e_exec e k (Some (f_name f)) ws = map (fun u => APrintf (FmtOk u)) us -> Forall no_nul us -> hook_calls e (o_desc s) ws = [] -> 2 + length (concat us) < d_outsize (o_desc s) ->
  exists s', does e c s (XUser k) f ws [] (concat us) cwd s' /\ core s' = core s.
Proof. exact C31_fits_proof. Qed.
Print Assumptions C31_printf.

(** C31: otherwise the end of the text is replaced by the overflow message (and the
    terminator is printed). *)
Theorem C31_overflow : forall e own w cwd l ws f s c k us, called e own w cwd l ws f s -> c = CR \/ c = LF -> ws <> [] -> f_exec f = Some (XUser k) ->
  e_exec e k (Some (f_name f)) ws = map (fun u => APrintf (FmtOk u)) us -> Forall no_nul us -> hook_calls e (o_desc s) ws = [] ->
  22 <= d_outsize (o_desc s) -> d_outsize (o_desc s) <= length (eol_echo c ++ concat us) ->
  exists s', does e c s (XUser k) f ws [] (firstn (d_outsize (o_desc s) - 20 - length (eol_echo c)) (concat us) ++ overflow_message ++ [NUL]) cwd s' /\ core s' = core s.
Proof. exact C31_over_proof. Qed.
Print Assumptions C31_overflow.

(** C31: outside a callback, when the output buffer is not being printed. *)
Theorem C31_series : forall e s cw us, cwd_is s cw -> bufs_ok s -> o_wbuf s <> Some WOut -> us <> [] -> Forall no_nul us ->
  20 <= d_outsize (o_desc s) \/ length (concat us) < d_outsize (o_desc s) ->
  exists s1 s', do_actions [] (map (fun u => APrintf (FmtOk u)) us) s = Ok s1 /\ quiet e s1 s' /\ editing 0 [] s' /\ bufs_ok s' /\ core s' = core s /\
    lg s' = lg s ++ map EvOut (printf_text (d_outsize (o_desc s)) (concat us) ++ prompt (o_desc s) cw).
Proof. exact C31_series_proof. Qed.
Print Assumptions C31_series.

(** C31: the calls may be interleaved with service calls in any way, as long as the text so
    far has not been finished: every byte is still printed exactly once. *)
Theorem C31_interleaved : forall e s cw u l, cwd_is s cw -> bufs_ok s -> o_wbuf s <> Some WOut -> Forall no_nul (u :: map snd l) ->
  length (u ++ concat (map snd l)) < d_outsize (o_desc s) -> in_time 0 (length u) l ->
  exists s1 s', run (OpApi (APrintf (FmtOk u)) :: flat_map (fun x => services (fst x) ++ [OpApi (APrintf (FmtOk (snd x)))]) l) s = Ok s1 /\
    quiet e s1 s' /\ editing 0 [] s' /\ bufs_ok s' /\ core s' = core s /\
    lg s' = lg s ++ map EvOut (u ++ concat (map snd l) ++ prompt (o_desc s) cw).
Proof. exact C31_interleaved_proof. Qed.
Print Assumptions C31_interleaved.

(** C31: a text that does not fit in an output buffer of less than 20 bytes makes the shell
    write before the start of the buffer (the offset wraps). *)
Theorem C31_small_buffer : forall s u, o_wbuf s <> Some WOut -> bufs_ok s -> no_nul u -> d_outsize (o_desc s) < 20 -> d_outsize (o_desc s) <= length u ->
  ush_printf (FmtOk u) s = Err EWrap.
Proof. exact C31_small_proof. Qed.
Print Assumptions C31_small_buffer.

(** C31: a formatting error is reported after the text formatted so far ... *)
Theorem C31_format_error : forall e s cw u, cwd_is s cw -> bufs_ok s -> o_wbuf s <> Some WOut -> no_nul u -> length u + 17 < d_outsize (o_desc s) ->
  exists s1 s', ush_printf (FmtErr u) s = Ok s1 /\ quiet e s1 s' /\ editing 0 [] s' /\ bufs_ok s' /\ core s' = core s /\
    lg s' = lg s ++ map EvOut (u ++ (lit "...format error" ++ crlf) ++ prompt (o_desc s) cw).
Proof. exact C31_format_proof. Qed.
Print Assumptions C31_format_error.

(** ... but if the message just fits without its terminator, the terminator is written
    behind the buffer. *)
Theorem C31_format_error_edge : forall s u, o_wbuf s <> Some WOut -> bufs_ok s -> no_nul u -> length u + 17 = d_outsize (o_desc s) -> ush_printf (FmtErr u) s = Err EOob.
Proof. exact C31_format_edge_proof. Qed.
Print Assumptions C31_format_error_edge.

(** Callbacks that use ush_printf; the demo file "run" is called. *)
Definition printf_env (us : list bytes) : env := mkEnv (fun _ _ _ => map (fun u => APrintf (FmtOk u)) us) (e_get demo_env) (e_set demo_env) (e_proc demo_env).
Definition printf_output (us : list bytes) : bytes :=
  flat_map (fun x => match x with EvOut c => [c] | _ => [] end)
    (skipn (length (lg (demo_line "run x"))) (lg (st_of (drive (always (printf_env us)) [CR] (repeat (true, true) 500) (demo_line "run x"))))).
Definition long_text (n : nat) : bytes := repeat "a"%char n.

Lemma demo_called : forall e, called e demo_own demo_world [] (lit "run x") [lit "run"; lit "x"] f_run (demo_line "run x").
Proof.
  intros e. assert (K : core (demo_line "run x") = core demo) by (vm_compute; reflexivity).
  split; [eapply knows_core; [exact K|exact demo_knows]|]. split; [reflexivity|]. split; [change [lit "run"; lit "x"] with (words (lit "run x")); apply C03_entered; eapply demo_typed_ok; vm_compute; reflexivity|].
  split; [rewrite (core_desc _ _ K); apply demo_no_hook|]. split; [apply demo_findable; vm_compute; reflexivity|vm_compute; reflexivity].
Qed.

Example C31_example :
  (forall e, called e demo_own demo_world [] (lit "run x") [lit "run"; lit "x"] f_run (demo_line "run x")) /\ d_outsize (o_desc (demo_line "run x")) = 64 /\
  printf_output [lit "a"; []; lit "bc"] = CRLF ++ lit "abc" ++ demo_prompt /\
  printf_output [long_text 61] = CRLF ++ long_text 61 ++ demo_prompt /\
  printf_output [long_text 61; lit "b"] = CRLF ++ long_text 42 ++ lit "...overflow error" ++ CRLF ++ NUL :: demo_prompt /\
  bufs_ok demo /\ cwd_is demo (lit "/") /\ o_wbuf demo <> Some WOut /\
  in_time 0 3 [(repeat (tick demo_env None) 2, lit "d"); ([], lit "e")] /\
  is_ok (ush_printf (FmtErr (long_text 46)) demo) = true /\ ush_printf (FmtErr (long_text 47)) demo = Err EOob /\
  ush_printf (FmtOk (long_text 19)) (set_outb (repeat NUL 19) (set_desc (mkDesc 32 19 64 (lit "host") None cfg_posix) demo)) = Err EWrap.
Proof.
  split; [exact demo_called|]. split; [vm_compute; reflexivity|]. split; [vm_compute; reflexivity|]. split; [vm_compute; reflexivity|]. split; [vm_compute; reflexivity|].
  split; [exact demo_bufs|]. split; [exact demo_cwd|]. split; [vm_compute; discriminate|]. split; [cbn; unfold ready_calls; cbn; auto|].
  split; [vm_compute; reflexivity|]. split; vm_compute; reflexivity.
Qed.

(** A formatted text that contains a NUL (%c) is reported as an overflow. *)
Theorem C31_nul_refuted : exists s u s1, bufs_ok s /\ o_wbuf s <> Some WOut /\ length u < 4 /\ d_outsize (o_desc s) = 64 /\
  ush_printf (FmtOk u) s = Ok s1 /\ c_str (outb s1) 0 = Ok (lit "a" ++ overflow_message).
Proof.
  exists demo, (lit "a" ++ NUL :: lit "b"), (from (ush_printf (FmtOk (lit "a" ++ NUL :: lit "b")) demo)). split; [exact demo_bufs|]. split; [vm_compute; discriminate|].
  split; [vm_compute; repeat constructor|]. split; [reflexivity|]. split; vm_compute; reflexivity.
Qed.
Print Assumptions C31_nul_refuted.

(** C46: what a callback that only makes printing calls prints, after what the
    application-wide exec hook, if there is one, has printed. *)
Theorem C46_callback_output : forall e own w cwd l ws f s c k, called e own w cwd l ws f s -> c = CR \/ c = LF -> ws <> [] -> f_exec f = Some (XUser k) ->
  Forall (printing_call ws) (e_exec e k (Some (f_name f)) ws) -> room_for (o_desc s) (hook_calls e (o_desc s) ws ++ e_exec e k (Some (f_name f)) ws) ->
  exists s', does e c s (XUser k) f ws [] (said (o_desc s) c ws (hook_calls e (o_desc s) ws ++ e_exec e k (Some (f_name f)) ws)) cwd s' /\ core s' = core s.
Proof. exact C46_proof. Qed.
Print Assumptions C46_callback_output.

Example C46_example :
  demo_said "run x" = CRLF ++ lit "running" ++ CRLF ++ demo_prompt /\
  e_exec demo_env 0 (Some (lit "run")) [lit "run"; lit "x"] = [APrint (lit "running")] /\
  said demo_desc CR [lit "run"; lit "x"] [] = [] /\
  said demo_desc CR [lit "run"; lit "x"] [APrint (lit "one"); APrintArg 1] = lit "x" ++ CRLF /\
  said demo_desc CR [lit "run"; lit "x"] [APrintf (FmtOk (lit "one")); APrint (lit "two")] = lit "two" ++ CRLF /\
  said demo_desc CR [lit "run"; lit "x"] [APrint (lit "two"); APrintf (FmtOk (lit "one")); APrintf (FmtOk (lit "three"))] = lit "onethree".
Proof. split; [vm_compute; reflexivity|]. repeat split. Qed.

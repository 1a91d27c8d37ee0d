(** * Properties C02, C33, C34, C37: the line editor.

    Specification in Editor.v ([edit], [fits], [echo], [ed_run], [ed_outs],
    [stored_line], [kept_line]); vocabulary in Sched.v.  [fed e ks s s'] is the run
    with both sides ready; C06_ideal_run_decides carries it over to every schedule. *)
From Verif Require Import Shell Sched Editor EditProofs KeyCodes SchedProofs Demo.

(** C02: typing and deleting, while the line fits. *)
Theorem C02_line_editing : forall e ks l s p, editing 0 l s -> cwd_is s p -> bufs_ok s ->
  Forall edit_key ks -> fits (d_insize (o_desc s)) ks l ->
  exists s', fed e ks s s' /\ editing 0 (edit ks l) s' /\ core s' = core s /\ bufs_ok s' /\
    writes s (echo l ks) s' /\ execs (lg s') = execs (lg s).
Proof. exact C02_proof. Qed.
Print Assumptions C02_line_editing.

Example C02_example :
  let ks := lit "lss" ++ [BS; DEL; BS; BS] ++ lit "pwd" in
  editing 0 [] demo /\ cwd_is demo (lit "/") /\ bufs_ok demo /\ Forall edit_key ks /\
  fits (d_insize (o_desc demo)) ks [] /\ edit ks [] = lit "pwd" /\
  echo [] ks = lit "lss" ++ [BS; SP; BS; BS; SP; BS; BS; SP; BS] ++ lit "pwd".
Proof.
  split; [exact demo_editing|]. split; [exact demo_cwd|]. split; [exact demo_bufs|].
  split. { repeat (constructor; [first [left; reflexivity|right; left; reflexivity|right; right; reflexivity]|]). constructor. }
  split; [|split; vm_compute; reflexivity]. vm_compute. repeat split; repeat constructor.
Qed.

(** C02: which codes have a meaning of their own (3 Ctrl-C, 8 and 127 the two
    backspace codes, 9 TAB, 10 and 13 the ends of a line, 27 ESC), and which erase. *)
Theorem C02_key_codes : forall c,
  (plain_key c = true <-> ~ In (nat_of_ascii c) [3; 8; 9; 10; 13; 27; 127]) /\
  (erase_key c = true <-> In (nat_of_ascii c) [8; 127]).
Proof. exact C02_key_codes_proof. Qed.
Print Assumptions C02_key_codes.

Example C02_codes_example :
  map nat_of_ascii [NUL; ETX; BS; TAB; LF; CR; ESC; SP; DQ; SL; BSL; DEL] =
    [0; 3; 8; 9; 10; 13; 27; 32; 34; 47; 92; 127] /\
  plain_key "a"%char = true /\ plain_key ETX = false /\ erase_key DEL = true /\ erase_key TAB = false.
Proof. repeat split. Qed.

(** C33: Ctrl-C. *)
Theorem C33_cancel : forall e k l s p, editing k l s -> cwd_is s p -> bufs_ok s ->
  exists s', fed e [ETX] s s' /\ editing 0 [] s' /\ core s' = core s /\ bufs_ok s' /\
    writes s (lit "^C" ++ CRLF ++ prompt (o_desc s) p) s' /\ execs (lg s') = execs (lg s).
Proof. exact C33_proof. Qed.
Print Assumptions C33_cancel.

(** [fed] as a computation, for the examples. *)
Definition type_keys (ks : bytes) (s : st) : st :=
  match drive (always demo_env) ks (repeat (true, true) 400) s with Ok (_, s') => s' | Err _ => demo_blank end.

Example C33_example :
  let s := type_keys (lit "rebo") demo in
  editing 0 (lit "rebo") s /\ cwd_is s (lit "/") /\ bufs_ok s /\
  outs (lg (type_keys [ETX] s)) = outs (lg s) ++ lit "^C" ++ CRLF ++ prompt demo_desc (lit "/").
Proof.
  split. { split; [reflexivity|split; [reflexivity|split; [reflexivity|]]]. eexists. vm_compute. reflexivity. }
  split. { eexists. split; vm_compute; reflexivity. }
  split. { vm_compute. repeat split; repeat constructor. }
  vm_compute. reflexivity.
Qed.

(** C34: escape sequences leave no trace but the bytes read. *)
Theorem C34_escape_sequences : forall e l s cs, editing 0 l s -> o_cur s <> None -> bufs_ok s ->
  (exists c, (cs = [ESC; "["%char; c] \/ cs = [ESC; "O"%char; c]) /\ swallowed_key c) \/
  (exists c, cs = [ESC; c] /\ swallowed_key c /\ c <> "["%char /\ c <> "O"%char) ->
  exists s', fed e cs s s' /\ editing 0 l s' /\ core s' = core s /\ bufs_ok s' /\ lg s' = lg s ++ map EvIn cs.
Proof. exact C34_proof. Qed.
Print Assumptions C34_escape_sequences.

Example C34_example :
  let s := type_keys (lit "ls") demo in
  editing 0 (lit "ls") s /\ o_cur s <> None /\ bufs_ok s /\ swallowed_key "A"%char /\
  editing 0 (lit "ls /") (type_keys ([ESC] ++ lit "[A" ++ lit " /") s).
Proof.
  split. { split; [reflexivity|split; [reflexivity|split; [reflexivity|]]]. eexists. vm_compute. reflexivity. }
  split. { vm_compute. discriminate. }
  split. { vm_compute. repeat split; repeat constructor. }
  split. { left. reflexivity. }
  split; [reflexivity|split; [reflexivity|split; [reflexivity|]]]. eexists. vm_compute. reflexivity.
Qed.

(** C37: reading any byte whatsoever, in any editor state, stays inside the buffers, and
    the write position stays below the size. *)
Theorem C37_every_byte_in_bounds : forall i k l s c, editing k l s -> bufs_ok s -> k <= 2 -> io_rd i = Some c ->
  exists s', ush_read_char i s = Ok (true, s') /\ o_inpos s' < d_insize (o_desc s) /\
    length (inb s') = length (inb s) /\ length (outb s') = length (outb s).
Proof. exact C37_step_proof. Qed.
Print Assumptions C37_every_byte_in_bounds.

(** C37: for every sequence of keys that does not end the line, of any length, the line
    is that of the bounded editor and stays shorter than the buffer. *)
Theorem C37_bounded_for_ever : forall e ks k l s p, editing k l s -> cwd_is s p -> bufs_ok s -> k <= 2 ->
  no_eol (d_insize (o_desc s)) ks (k, l) -> (In TAB ks -> cfg_autocomp (d_cfg (o_desc s)) = false) ->
  let kl' := ed_run (d_insize (o_desc s)) ks (k, l) in
  exists s', fed e ks s s' /\ editing (fst kl') (snd kl') s' /\ length (snd kl') < d_insize (o_desc s) /\
    core s' = core s /\ bufs_ok s' /\
    writes s (ed_outs (d_insize (o_desc s)) (CRLF ++ prompt (o_desc s) p) (k, l) ks) s' /\ execs (lg s') = execs (lg s).
Proof. exact C37_bounded_proof. Qed.
Print Assumptions C37_bounded_for_ever.

(** C37: typed into an empty line, plain text wraps: what remains is the text after the
    last full buffer. *)
Theorem C37_wraps : forall e cs s p, editing 0 [] s -> cwd_is s p -> bufs_ok s ->
  Forall (fun c => plain_key c = true) cs ->
  exists s', fed e cs s s' /\
    editing 0 (skipn (d_insize (o_desc s) * (length cs / d_insize (o_desc s))) cs) s' /\
    length (skipn (d_insize (o_desc s) * (length cs / d_insize (o_desc s))) cs) = length cs mod d_insize (o_desc s) /\
    core s' = core s /\ bufs_ok s' /\ writes s (flat_map echo_of cs) s' /\ execs (lg s') = execs (lg s).
Proof. exact C37_wrap_proof. Qed.
Print Assumptions C37_wraps.

(** C37: the end of a line is stored behind it, unless the line fills the buffer: then
    the first byte of the line is lost. *)
Theorem C37_enter : forall i l s c, editing 0 l s -> bufs_ok s -> io_rd i = Some c -> c = CR \/ c = LF ->
  exists s', ush_read_char i s = Ok (true, s') /\ exists r, inb s' = kept_line (d_insize (o_desc s)) l ++ c :: r.
Proof. exact C37_enter_proof. Qed.
Print Assumptions C37_enter.

(** 40 bytes into a buffer of 32. *)
Example C37_example :
  let cs := lit "0123456789abcdefghijklmnopqrstuvWXYZwxyz" in
  Forall (fun c => plain_key c = true) cs /\ d_insize (o_desc demo) = 32 /\ length cs = 40 /\
  editing 0 (lit "WXYZwxyz") (type_keys cs demo) /\
  no_eol 32 (cs ++ [ESC; CR; BS; ETX]) (0, []).
Proof.
  split; [repeat constructor|]. split; [reflexivity|]. split; [reflexivity|]. split.
  - split; [reflexivity|split; [reflexivity|split; [reflexivity|]]]. eexists. vm_compute. reflexivity.
  - vm_compute. repeat split; try discriminate; intros; discriminate.
Qed.

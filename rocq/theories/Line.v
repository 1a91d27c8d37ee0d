(** * Line: vocabulary for statements about a line that has been entered. *)
From Verif Require Import Shell Sched Editor Words.

(** The line [l] has been typed (nothing else), fits the input buffer together with its
    end and contains neither an end of line nor NUL. *)
Definition typed (l : bytes) (s : st) : Prop :=
  editing 0 l s /\ bufs_ok s /\ S (length l) < d_insize (o_desc s) /\ eol_free l /\ ~ In NUL l.

(** The line [l], any bytes of any length, has been typed and reads as the argument vector
    [ws]: [kept_line] (Editor.v) is what the input buffer holds of it at the end of line,
    and [argv_of] (Words.v) splits that.  For a line that fits, without NUL, [ws] is
    [words l] (theorem C03_entered). *)
Definition entered (l : bytes) (ws : list bytes) (s : st) : Prop :=
  editing 0 l s /\ bufs_ok s /\ eol_free l /\ argv_of (kept_line (d_insize (o_desc s)) l) = ws.

(** [answered e c s evs s']: the end of line [c] read in [s] is echoed, then exactly the
    events [evs] happen (output, calls of callbacks), and in [s'] the shell polls again
    with an empty line. *)
Definition answered (e : env) (c : byte) (s : st) (evs : list event) (s' : st) : Prop :=
  fed e [c] s s' /\ editing 0 [] s' /\ bufs_ok s' /\
  lg s' = lg s ++ EvIn c :: map EvOut (eol_echo c) ++ evs.

(** The text printed after a message: a new line and the prompt. *)
Definition then_prompt (s : st) (cw : bytes) (t : bytes) : list event :=
  map EvOut (t ++ CRLF ++ prompt (o_desc s) cw).

(** The message of a status. *)
Definition message (s : st) (x : status) : bytes := status_text (d_cfg (o_desc s)) x.

(** A text to type for any list of arguments: each in double quotes, with a backslash
    before backslashes and double quotes. *)
Definition quote_char (c : byte) : bytes := if ceq c BSL || ceq c DQ then [BSL; c] else [c].
Definition quote (w : bytes) : bytes := DQ :: flat_map quote_char w ++ [DQ].
Fixpoint command_line (ws : list bytes) : bytes :=
  match ws with
  | [] => []
  | [w] => quote w
  | w :: r => quote w ++ [SP] ++ command_line r
  end.

(** Bytes that separate nothing and mean nothing to the tokenizer. *)
Definition bare_char (c : byte) : Prop := c <> BSL /\ c <> DQ /\ c <> SP.

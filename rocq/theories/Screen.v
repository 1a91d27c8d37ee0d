(** * Screen: what a terminal shows (C71).

    A small terminal, independent of the shell: it interprets the bytes it receives.  Only the
    row of the cursor is kept; rows have no end. *)
From Verif Require Import Shell Spec Words Sched Editor Tree Cmds Complete Session.

(** Inside an escape sequence or not; the cells left of the cursor, and those from the cursor on. *)
Inductive mode := Ground | AfterEsc | InSequence.
Record screen := mkScreen { sc_mode : mode; sc_left : bytes; sc_right : bytes }.

Definition printable (c : byte) : bool := (32 <=? nat_of_ascii c) && (nat_of_ascii c <? 127).

(** One byte.  LF starts a new row, CR goes back to the start of the row, BS one cell to the
    left; a printable byte overwrites the cell at the cursor; control sequences (ESC '[' up to a
    letter or the like: colours) and other control characters show nothing. *)
Definition receive (s : screen) (c : byte) : screen :=
  let '(mkScreen m l r) := s in
  match m with
  | AfterEsc => if ceq c "["%char then mkScreen InSequence l r else mkScreen Ground l r
  | InSequence => if (64 <=? nat_of_ascii c) && (nat_of_ascii c <? 127) then mkScreen Ground l r else s
  | Ground =>
      if ceq c ESC then mkScreen AfterEsc l r
      else if ceq c CR then mkScreen Ground [] (l ++ r)
      else if ceq c LF then mkScreen Ground [] []
      else if ceq c BS then
        match l with [] => s | _ => mkScreen Ground (removelast l) (last l SP :: r) end
      else if printable c then mkScreen Ground (l ++ [c]) (tl r)
      else s
  end.
Definition display (s : screen) (t : bytes) : screen := fold_left receive t s.
Definition empty_screen : screen := mkScreen Ground [] [].

(** The row reads [pre ++ t], the cursor stands behind it, and there is nothing right of the cursor. *)
Definition row_ends (t : bytes) (s : screen) : Prop :=
  sc_mode s = Ground /\ (exists pre, sc_left s = pre ++ t) /\ Forall (fun c => c = SP) (sc_right s).

(** The prompt and the line of the session, as they are to be seen. *)
Definition seen_line (d : desc) (a : sess) : bytes :=
  lit "[" ++ d_host d ++ lit " " ++ label (show (here (se_world a))) ++ lit "]$ " ++ se_line a.

(** A text that leaves the terminal outside escape sequences with nothing right of the cursor. *)
Definition clean (t : bytes) : Prop := forall s, row_ends [] s -> row_ends [] (display s t).

(** Digits, ';' and the like. *)
Definition parameter (c : byte) : bool := (48 <=? nat_of_ascii c) && (nat_of_ascii c <? 64).
(** Text that is clean: printable characters, ends of line, and sequences such as colours. *)
Inductive plain_text : bytes -> Prop :=
| pt_nil : plain_text []
| pt_char : forall c t, printable c = true -> plain_text t -> plain_text (c :: t)
| pt_lf : forall t, plain_text t -> plain_text (LF :: t)
| pt_crlf : forall t, plain_text t -> plain_text (CR :: LF :: t)
| pt_colour : forall ds t, forallb parameter ds = true -> plain_text t -> plain_text (ESC :: "["%char :: ds ++ "m"%char :: t).

Definition visible_prompt (d : desc) (w : world) : Prop :=
  forallb printable (d_host d) = true /\ forallb printable (label (show (here w))) = true.

(** The byte [c] in session [a]: the answer to a line is clean, offered names are printable, and
    an ordinary byte is printable and does not fill the input buffer. *)
Definition typable (x : setting) (a : sess) (c : byte) : Prop :=
  let d := x_desc x in let w := se_world a in
  visible_prompt d w /\ visible_prompt d (se_world (snd (sess_step x a c))) /\
  if ends_line a c then let '(evs, t, _) := react d (env_at x a c) w c (line_argv x a) in clean (outs evs ++ t)
  else if completes x c then Forall (fun n => forallb printable n = true) (candidates w (here w) (last_word (se_line a)))
  else se_esc a <> 0 \/ plain_key c = false \/ (printable c = true /\ S (length (se_line a)) < d_insize d).
Fixpoint all_typable (x : setting) (a : sess) (cs : bytes) : Prop :=
  match cs with
  | [] => True
  | c :: r => typable x a c /\ all_typable x (snd (sess_step x a c)) r
  end.

(** ** When answers are clean *)

(** Texts of a file are plain. *)
Definition plain_file (f : file) : Prop :=
  plain_text (f_name f) /\ (forall t, f_desc f = Some t -> plain_text t) /\ (forall t, f_help f = Some t -> plain_text t).
(** Files, directories and messages are. *)
Definition plain_names (d : desc) (w : world) : Prop :=
  (forall f, file_of w f -> plain_file f) /\
  (forall dd n, In dd (w_fs w) -> In n (de_path dd) -> forallb printable n = true) /\
  (forall n, In n (here w) -> forallb printable n = true) /\
  plain_text (cfg_error (d_cfg d)) /\ (forall x, plain_text (cfg_msg (d_cfg d) x)).
(** What callbacks say after the line [ws] is, and so are the data of files. *)
Definition plain_talk (d : desc) (e : env) (c : byte) (ws : list bytes) : Prop :=
  (forall cb f, plain_text (data_of e cb f)) /\
  plain_text (said d c ws (hook_calls e d ws)) /\
  (forall k n, plain_text (said d c ws (hook_calls e d ws ++ e_exec e k n ws))) /\
  (forall cb n t, plain_text (said d c [] (hook_calls e d ws ++ e_set e cb n t))).
(** The escapes of an argument of echo stand for plain text. *)
Definition plain_echo (ws : list bytes) : Prop :=
  forall name t, ws = [name; t] -> plain_text (until_nul (decode t ++ skipn (length (decode t)) t)).

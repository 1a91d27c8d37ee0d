(** * Editor: specification of line editing (independent of the model). *)
From Verif Require Import Base.

(** Bytes without a special meaning for the line editor. *)
Definition plain_key (c : byte) : bool :=
  negb (existsb (ceq c) [ETX; BS; DEL; TAB; ESC; CR; LF]).
Definition erase_key (c : byte) : bool := ceq c BS || ceq c DEL.

(** One key on an unbounded line. *)
Definition edit1 (l : bytes) (c : byte) : bytes :=
  if erase_key c then removelast l else l ++ [c].
Definition edit (ks : bytes) (l : bytes) : bytes := fold_left edit1 ks l.

(** The line stays shorter than the buffer all the time. *)
Fixpoint fits (n : nat) (ks : bytes) (l : bytes) : Prop :=
  match ks with
  | [] => True
  | c :: r => length (edit1 l c) < n /\ fits n r (edit1 l c)
  end.

(** What is echoed for an ordinary byte: the byte, as a C string. *)
Definition echo_of (c : byte) : bytes := if ceq c NUL then [] else [c].
(** What is sent back for a key pressed while the line is [l]. *)
Definition echo1 (l : bytes) (c : byte) : bytes :=
  if erase_key c then match l with [] => [] | _ => [BS; SP; BS] end else echo_of c.
Fixpoint echo (l : bytes) (ks : bytes) : bytes :=
  match ks with
  | [] => []
  | c :: r => echo1 l c ++ echo (edit1 l c) r
  end.

(** ** The bounded editor: [n] is the buffer size *)

(** An ordinary byte that would fill the buffer makes the line start over. *)
Definition stored_line (n : nat) (l : bytes) (c : byte) : bytes :=
  if S (length l) <? n then l ++ [c] else [].

(** Progress of an escape sequence: ESC, then '[' or 'O', then one byte. *)
Definition esc_next (k : nat) (c : byte) : nat :=
  match k with
  | 1 => if ceq c "["%char || ceq c "O"%char then 2 else 0
  | _ => 0
  end.

(** Editor state: escape progress and line. *)
Definition ed_step (n : nat) (kl : nat * bytes) (c : byte) : nat * bytes :=
  let '(k, l) := kl in
  if ceq c ETX then (0, [])
  else if erase_key c then (k, removelast l)
  else if ceq c TAB then (k, l)
  else if ceq c ESC then (1, l)
  else match k with
       | 0 => (0, stored_line n l c)
       | _ => (esc_next k c, l)
       end.
Definition ed_run (n : nat) (ks : bytes) (kl : nat * bytes) : nat * bytes :=
  fold_left (ed_step n) ks kl.

(** Output for one key, [after_cancel] being printed after "^C". *)
Definition ed_out (after_cancel : bytes) (kl : nat * bytes) (c : byte) : bytes :=
  let '(k, l) := kl in
  if ceq c ETX then lit "^C" ++ after_cancel
  else if erase_key c then echo1 l c
  else if ceq c TAB || ceq c ESC then []
  else match k with 0 => echo_of c | _ => [] end.
Fixpoint ed_outs (n : nat) (after_cancel : bytes) (kl : nat * bytes) (ks : bytes) : bytes :=
  match ks with
  | [] => []
  | c :: r => ed_out after_cancel kl c ++ ed_outs n after_cancel (ed_step n kl c) r
  end.

(** The text that is parsed when the line is ended: if the end-of-line byte itself
    falls on the last buffer position, the first byte is overwritten by NUL. *)
Definition kept_line (n : nat) (l : bytes) : bytes :=
  if S (length l) <? n then l else NUL :: tl l.
(** Echo of an end of line. *)
Definition eol_echo (c : byte) : bytes := if ceq c CR then CRLF else [LF].

(** The keys never end a line: an end-of-line byte only occurs inside an escape
    sequence. *)
Fixpoint no_eol (n : nat) (ks : bytes) (kl : nat * bytes) : Prop :=
  match ks with
  | [] => True
  | c :: r => (fst kl = 0 -> c <> CR /\ c <> LF) /\ no_eol n r (ed_step n kl c)
  end.

(** Keys for typing and deleting. *)
Definition edit_key (c : byte) : Prop := plain_key c = true \/ c = BS \/ c = DEL.

(** Final bytes of an escape sequence that are not themselves editing keys. *)
Definition swallowed_key (c : byte) : Prop := plain_key c = true \/ c = CR \/ c = LF.

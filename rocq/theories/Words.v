(** * Words: specification of argument splitting (independent of the model). *)
From Verif Require Import Base.

(** What a line consists of, once quotes and backslashes are resolved: characters that
    belong to a word, separating blanks, and marks (a quote, or a backslash at the very
    end) that contribute nothing but make a word present even if it is empty. *)
Inductive item := Chr (c : byte) | Mark | Blank.

(** A backslash takes the next byte literally, except that \x stays \x; a double quote
    switches quoting on and off; blanks separate outside quotes only. *)
Fixpoint lex (quoted : bool) (l : bytes) : list item :=
  match l with
  | [] => []
  | c :: r =>
      if ceq c BSL then
        match r with
        | [] => [Mark]
        | d :: r' => (if ceq d "x"%char then [Chr BSL; Chr d] else [Chr d]) ++ lex quoted r'
        end
      else if ceq c DQ then Mark :: lex (negb quoted) r
      else if ceq c SP && negb quoted then Blank :: lex quoted r
      else Chr c :: lex quoted r
  end.

(** Words are the maximal non-empty runs of non-blanks; [w] is the word being read. *)
Definition flush_word (w : option bytes) : list bytes :=
  match w with Some t => [t] | None => [] end.
Definition word_so_far (w : option bytes) : bytes :=
  match w with Some t => t | None => [] end.
Fixpoint group (w : option bytes) (l : list item) : list bytes :=
  match l with
  | [] => flush_word w
  | Blank :: r => flush_word w ++ group None r
  | Mark :: r => group (Some (word_so_far w)) r
  | Chr c :: r => group (Some (word_so_far w ++ [c])) r
  end.

(** The words of a line. *)
Definition words (l : bytes) : list bytes := group None (lex false l).

(** A word containing NUL bytes counts as several when read back from the buffer. *)
Fixpoint split_nul (w : bytes) : list bytes :=
  match w with
  | [] => [[]]
  | c :: r =>
      if ceq c NUL then [] :: split_nul r
      else match split_nul r with h :: t => (c :: h) :: t | [] => [[c]] end
  end.

(** The argument vector: as many pieces as there are words.  For a line without NULs
    this is [words] (lemma [argv_no_nul]). *)
Definition argv_of (l : bytes) : list bytes :=
  firstn (length (words l)) (flat_map split_nul (words l)).

(** Words written one after the other, each with its terminator. *)
Definition packed (ws : list bytes) : bytes := flat_map (fun w => w ++ [NUL]) ws.

(** A line contains no end-of-line byte. *)
Definition eol_free (l : bytes) : Prop := ~ In CR l /\ ~ In LF l.

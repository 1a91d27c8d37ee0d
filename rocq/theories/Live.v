(** * Live: memory of the application that changes while the shell prints from it.

    The shell is handed pointers: by ush_print and ush_print_no_newline, and by the getter
    of a file.  The model keeps what such a pointer points to in the state ([WStr] in the
    write pointer, [o_pdata]); that the application changes the memory is the assignment of
    new contents there. *)
From Verif Require Import Shell Sched Spec Tree Cmds.

(** The application overwrites the text that is being printed, respectively the data that
    xxd shows, by [m]. *)
Definition overwrite_text (m : bytes) (s : st) : st :=
  match o_wbuf s with Some (WStr _) => set_wbuf (Some (WStr m)) s | _ => s end.
Definition overwrite_data (m : bytes) (s : st) : st :=
  match o_pdata s with Some _ => set_pdata (Some m) s | None => s end.

(** Service calls; before each of them the memory that is being printed from is filled
    with the bytes given. *)
Fixpoint live (l : list (bytes * io)) (s : st) : res st :=
  match l with
  | [] => Ok s
  | (m, i) :: r => '(_, s1) <- ush_service i (overwrite_text m s) ;; live r s1
  end.

(** The bytes at the positions [pos], [pos] + 1, ..., each at the moment when the write
    callback accepts a byte. *)
Fixpoint shown (pos : nat) (l : list (bytes * io)) : bytes :=
  match l with
  | [] => []
  | (m, i) :: r => if io_wr i then nth pos m NUL :: shown (S pos) r else shown pos r
  end.

(** Each of the calls is made before [n] bytes have been accepted, while the memory still
    holds [n] bytes. *)
Definition accepted (l : list (bytes * io)) : nat := ready_calls (map snd l).
Definition during (n : nat) (l : list (bytes * io)) : Prop :=
  forall before m i after, l = before ++ (m, i) :: after -> accepted before < n /\ n <= length m.

(** Service calls with a ready output; before each of them the data xxd shows are those
    given by [mem] for everything that has happened so far. *)
Inductive meanwhile (e : env) (mem : list event -> bytes) : st -> st -> Prop :=
| meanwhile_here : forall s, meanwhile e mem s s
| meanwhile_step : forall s b s1 s2, ~ polling s ->
    ush_service (tick e None) (overwrite_data (mem (lg s)) s) = Ok (b, s1) -> meanwhile e mem s1 s2 -> meanwhile e mem s s2.

(** A line of the dump of [size] bytes of changing memory: address, hexadecimal columns and
    characters, each as the memory is after what has been printed before. *)
Definition hex_part (cols : nat) (row : bytes) : bytes :=
  flat_map (fun x => hex2 x ++ lit " ") row ++ blanks (3 * (cols - length row)) ++ lit " ".
Definition char_part (cols : nat) (row : bytes) : bytes := map visible row ++ blanks (cols - length row).
Definition live_line (mem : list event -> bytes) (cols size off : nat) (log : list event) : bytes :=
  let row l := firstn cols (skipn off (firstn size (mem l))) in
  let a := address off ++ lit ": " in
  let h := hex_part cols (row (log ++ map EvOut a)) in
  let t := char_part cols (row (log ++ map EvOut (a ++ h))) in
  a ++ h ++ t ++ crlf.
Fixpoint live_lines (mem : list event -> bytes) (cols size k n : nat) (log : list event) : bytes :=
  match n with
  | 0 => []
  | S n' => let t := live_line mem cols size (k * cols) log in t ++ live_lines mem cols size (S k) n' (log ++ map EvOut t)
  end.
Definition live_dump (mem : list event -> bytes) (cols size : nat) (log : list event) : bytes :=
  live_lines mem cols size 0 (rows cols size) log.

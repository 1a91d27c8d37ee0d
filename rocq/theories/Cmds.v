(** * Cmds: specification of what the built-in commands print.

    Independent of the state machine: plain functions of file lists, directory names and
    data.  The colour codes [colour] (Sched.v) and the column width [cfg_align] are those of the
    configuration (Types.v). *)
From Coq Require Import Arith.
From Verif Require Import Shell Spec Words Sched Editor Line Tree.
From Verif Require Export History.

Definition blanks (n : nat) : bytes := repeat SP n.

(** ** help and ls *)

(** Name, padded to the column width, and description. *)
Definition name_text (c : config) (f : file) : bytes :=
  match f_desc f with
  | Some d => f_name f ++ blanks (cfg_align c - length (f_name f)) ++ lit " " ++ colour c "[33m" ++ lit "- " ++ d ++ colour c "[0m"
  | None => f_name f
  end.

(** The longest text that passes through the output buffer for a file. *)
Definition name_room (c : config) (f : file) : nat :=
  match f_desc f with
  | Some _ => max (cfg_align c) (length (f_name f)) + length (colour c "[33m") + 3
  | None => length (f_name f)
  end.
(** It fits, and the name is a C string. *)
Definition listable (d : desc) (f : file) : Prop := name_room (d_cfg d) f < d_outsize d /\ ~ In NUL (f_name f).

Definition help_text (c : config) (fl : list file) : bytes :=
  flat_map (fun f => name_text c f ++ crlf) fl.

Definition flag {A} (x : option A) (ch : byte) : byte := match x with Some _ => ch | None => "-"%char end.
(** "-rwxh " with '-' for what the file does not have. *)
Definition file_flags (f : file) : bytes :=
  "-"%char :: flag (f_get f) "r"%char :: flag (f_set f) "w"%char :: flag (f_exec f) "x"%char :: flag (f_help f) "h"%char :: lit " ".

Definition dir_line (c : config) (name : bytes) : bytes := lit "d---- " ++ colour c "[32m" ++ name ++ colour c "[0m" ++ crlf.

(** [root]: the listed directory is "/"; [dirs]: names of its sub-directories. *)
Definition ls_text (c : config) (root : bool) (dirs : list bytes) (fl : list file) : bytes :=
  dir_line c (lit ".") ++ (if root then [] else dir_line c (lit "..")) ++
  flat_map (fun n => dir_line c (n ++ lit "/")) dirs ++
  flat_map (fun f => file_flags f ++ name_text c f ++ crlf) fl.

(** Name of a directory in its parent. *)
Definition dir_name (d : dirent) : bytes := last (de_path d) [].

Definition is_root (d : dirent) : bool := match de_path d with [] => true | _ => false end.

(** The listing of a mounted directory. *)
Definition ls_dir (c : config) (d : dirent) (fs : fsys) : bytes :=
  ls_text c (is_root d) (map dir_name (children (de_path d) fs)) (de_files d).

(** ** cat and xxd *)

(** The getter [cb] of file [f] returns the data [d] (a pointer to it and its size) and
    makes no API call. *)
Definition gives (e : env) (cb : nat) (f : file) (d : bytes) : Prop :=
  exists extra, e_get e cb (f_name f) = mkGet (GData (d ++ extra)) (length d) [].

(** The same, but if there are no data the pointer may be anything, or not be set. *)
Definition gives_or_none (e : env) (cb : nat) (f : file) (d : bytes) : Prop :=
  exists p, e_get e cb (f_name f) = mkGet p (length d) [] /\ (d = [] \/ exists extra, p = GData (d ++ extra)).

(** Reading the files named, in order: each getter is called, then its data printed. *)
Inductive reads (e : env) (find : bytes -> option file) : list bytes -> list event -> Prop :=
| reads_nil : reads e find [] []
| reads_cons : forall name f cb d r evs, find name = Some f -> f_get f = Some cb -> gives e cb f d -> reads e find r evs ->
    reads e find (name :: r) (EvGet cb (f_name f) :: map EvOut d ++ evs).

Definition has_getter (find : bytes -> option file) (name : bytes) : Prop :=
  exists f cb, find name = Some f /\ f_get f = Some cb.

Definition hexd (n : N) : byte := nth (N.to_nat n) (lit "0123456789ABCDEF") "0"%char.
(** Two digits of a byte. *)
Definition hex2 (x : byte) : bytes := [hexd (N_of_ascii x / 16); hexd (N_of_ascii x mod 16)].
(** The [k] least significant hexadecimal digits, most significant first. *)
Fixpoint hex_digits (k : nat) (n : N) : bytes :=
  match k with 0 => [] | S k' => hex_digits k' (n / 16) ++ [hexd (n mod 16)] end.
Definition address (off : nat) : bytes := hex_digits 8 (N.of_nat off).

Definition visible (x : byte) : byte := if (32 <=? N_of_ascii x)%N && (N_of_ascii x <=? 126)%N then x else "."%char.

(** One line for at most [cols] bytes at offset [off]. *)
Definition xxd_line (cols off : nat) (row : bytes) : bytes :=
  address off ++ lit ": " ++ flat_map (fun x => hex2 x ++ lit " ") row ++ blanks (3 * (cols - length row)) ++ lit " " ++
  map visible row ++ blanks (cols - length row) ++ crlf.

(** Data that can be dumped: columns exist, addresses have eight digits, and a line of
    hexadecimal columns as well as an address fit in the output buffer. *)
Definition dumpable (d : desc) (data : bytes) : Prop :=
  0 < cfg_cols (d_cfg d) /\ (N.of_nat (length data) <= 2 ^ 32)%N /\ 10 < d_outsize d /\ 3 * cfg_cols (d_cfg d) + 1 < d_outsize d.

(** Number of lines: one for an empty file. *)
Definition rows (cols n : nat) : nat := max 1 ((n + cols - 1) / cols).

Definition xxd_dump (cols : nat) (d : bytes) : bytes :=
  flat_map (fun k => xxd_line cols (k * cols) (firstn cols (skipn (k * cols) d))) (seq 0 (rows cols (length d))).

(** Reading a dump: hexadecimal columns of a line. *)
Fixpoint read_columns (n : nat) (t : bytes) : bytes * bytes :=
  match n, t with
  | S n', a :: b :: _ :: r =>
      let (d, rest) := read_columns n' r in
      ((if ceq a SP then d else ascii_of_N (16 * hex_value a + hex_value b) :: d), rest)
  | _, _ => ([], t)
  end.
Fixpoint after_colon (t : bytes) : bytes :=
  match t with [] => [] | c :: r => if ceq c ":"%char then r else after_colon r end.
(** The data of a dump with [cols] columns. *)
Fixpoint undump (fuel cols : nat) (t : bytes) : bytes :=
  match fuel, t with
  | S f, _ :: _ =>
      let (d, rest) := read_columns cols (tl (after_colon t)) in
      d ++ undump f cols (skipn (1 + cols + 2) rest)
  | _, _ => []
  end.

(** ** echo *)

(** A text read up to its first NUL. *)
Fixpoint until_nul (t : bytes) : bytes :=
  match t with [] => [] | c :: r => if ceq c NUL then [] else c :: until_nul r end.

(** ** Callbacks of the application *)

(** The printing calls of a callback with arguments [ws]; formatted texts have no NUL. *)
Definition printing_call (ws : list bytes) (a : action) : Prop :=
  match a with
  | APrint _ | APrintNoNl _ | APrintStatus _ => True
  | APrintArg i => i < length ws
  | APrintf (FmtOk u) => ~ In NUL u
  | _ => False
  end.
Definition print_text (d : desc) (ws : list bytes) (a : action) : bytes :=
  match a with
  | APrint t => t ++ crlf
  | APrintNoNl t => t
  | APrintStatus x => status_text (d_cfg d) x ++ crlf
  | APrintArg i => nth i ws [] ++ crlf
  | AReset => greeting
  | _ => []
  end.

(** Calls that change the directories, the commands or the current directory. *)
Definition mount_path (t : bytes) : dirpath := root_form (snd (text_comps t)).
Definition tree_call (a : action) : option treeop :=
  match a with
  | AMount t id fl => Some (TMount (mount_path t) id fl)
  | AUnmount t => Some (TUnmount t)
  | ACmdAdd id fl => Some (TAdd id fl)
  | ACmdRemove id => Some (TRemove id)
  | ASetDir t => Some (TChdir t)
  | _ => None
  end.
(** ush_reset changes the current directory to the root, and prints. *)
Definition tree_effect (a : action) : list treeop :=
  match a with
  | AReset => [TChdir (lit "/")]
  | _ => match tree_call a with Some o => [o] | None => [] end
  end.
Definition tree_calls (l : list action) : list treeop := flat_map tree_effect l.
(** Such a call, or a printing call; a directory is mounted at an absolute path. *)
Definition proper_call (ws : list bytes) (a : action) : Prop :=
  match a with
  | AMount t _ _ => t = show (mount_path t)
  | AUnmount _ | ACmdAdd _ _ | ACmdRemove _ | ASetDir _ | AReset => True
  | _ => printing_call ws a
  end.

Definition overflow_message : bytes := lit "...overflow error" ++ crlf.
(** What is left of a text printed with ush_printf: it must fit in the output buffer with
    its terminator, otherwise its end is replaced by the message (and the terminator is
    printed, too). *)
Definition printf_text (size : nat) (t : bytes) : bytes :=
  if length t <? size then t else firstn (size - 20) t ++ overflow_message ++ [NUL].

(** What a series of printing calls prints.  A call replaces what the previous ones were
    going to print, except that ush_printf appends to the text of the previous ush_printf;
    [buf] is that text and how much of it has been printed already, [t] what is going to
    be printed.  Calls that change directories or commands print nothing. *)
Fixpoint spoken (d : desc) (ws : list bytes) (buf : option (bytes * nat)) (t : bytes) (l : list action) : bytes :=
  match l with
  | [] => t
  | APrintf (FmtOk u) :: r =>
      let '(full, p) := match buf with Some (full, p) => (full ++ u, p) | None => (u, 0) end in
      spoken d ws (Some (full, p)) (skipn p (printf_text (d_outsize d) full)) r
  | a :: r => match tree_call a with Some _ => spoken d ws buf t r | None => spoken d ws None (print_text d ws a) r end
  end.
(** In a callback: the echo of the end of line is in the output buffer, already printed. *)
Definition said (d : desc) (c : byte) (ws : list bytes) (l : list action) : bytes :=
  spoken d ws (Some (eol_echo c, length (eol_echo c))) [] l.

(** The texts of the ush_printf calls. *)
Definition formatted (l : list action) : bytes :=
  flat_map (fun a => match a with APrintf (FmtOk u) => u | _ => [] end) l.
(** Either they fit or at least the overflow message does. *)
Definition room_for (d : desc) (l : list action) : Prop :=
  20 <= d_outsize d \/ 2 + length (formatted l) < d_outsize d.

(** What the application-wide exec hook of the descriptor does.  It is called with the
    words of every line before the file the first word denotes is looked up (the event is
    [hook_events], History.v). *)
Definition hook_calls (e : env) (d : desc) (ws : list bytes) : list action :=
  match d_exec d with Some h => e_exec e h None ws | None => [] end.
(** If there is one, it only prints. *)
Definition hook_prints (e : env) (d : desc) (ws : list bytes) : Prop :=
  Forall (printing_call ws) (hook_calls e d ws) /\ room_for d (hook_calls e d ws).

(** Or it makes correct calls in the world [w], printing ones and such that change the tree;
    the world afterwards. *)
Definition hook_fine (e : env) (own : list nat) (d : desc) (w : world) (ws : list bytes) : Prop :=
  let calls := hook_calls e d ws in
  Forall (proper_call ws) calls /\ room_for d calls /\ all_allowed (d_pathmax d) own (tree_calls calls) w.
Definition after_hook (e : env) (d : desc) (ws : list bytes) (w : world) : world := snd (spec_ops (tree_calls (hook_calls e d ws)) w).

(** ** A command line that has been typed *)

(** In the world [w], with current directory [cwd], the line [l] has been typed; it reads
    as the argument vector [ws], the first of which is the registered command [f].  An
    application-wide exec hook only prints. *)
Definition asked (e : env) (own : list nat) (w : world) (cwd : dirpath) (l : bytes) (ws : list bytes) (f : file) (s : st) : Prop :=
  knows own s w /\ w_cwd w = Some cwd /\ entered l ws s /\ hook_prints e (o_desc s) ws /\
  file_named (hd [] ws) (flat_map snd (w_groups w)) = Some f.

(** The file a name denotes. *)
Definition denotes (w : world) (name : bytes) : option file := find_file (w_groups w) (w_fs w) (here w) name.

(** The names can be looked up within path_max_length. *)
Definition findable (s : st) (w : world) (names : list bytes) : Prop :=
  names_ok (d_pathmax (o_desc s)) (w_fs w) /\
  Forall (fun n => file_named n (flat_map snd (w_groups w)) <> None \/ length (full_text (here w) n) < d_pathmax (o_desc s)) names.

(** The same for any file: the first word denotes [f]. *)
Definition called (e : env) (own : list nat) (w : world) (cwd : dirpath) (l : bytes) (ws : list bytes) (f : file) (s : st) : Prop :=
  knows own s w /\ w_cwd w = Some cwd /\ entered l ws s /\ hook_prints e (o_desc s) ws /\
  findable s w [hd [] ws] /\ denotes w (hd [] ws) = Some f.

(** The end of line [c] makes the shell call the application-wide hook, if there is one,
    and the exec callback [x] of the command [f] with all the words; then exactly the events [evs] happen and the text [t] is printed,
    followed by a prompt for the directory [cwd]. *)
Definition does (e : env) (c : byte) (s : st) (x : exec_cb) (f : file) (ws : list bytes) (evs : list event) (t : bytes) (cwd : dirpath) (s' : st) : Prop :=
  answered e c s (hook_events (o_desc s) ws ++ EvExec x (Some (f_name f)) ws :: evs ++ map EvOut (t ++ prompt (o_desc s) (show cwd))) s'.

(** The getter [cb] of file [f] returns the data [d] and makes the calls [ops] that change
    directories or commands, and no other calls. *)
Definition gives_calling (e : env) (cb : nat) (f : file) (d : bytes) (ops : list treeop) : Prop :=
  exists extra calls, e_get e cb (f_name f) = mkGet (GData (d ++ extra)) (length d) calls /\
    Forall (fun a => tree_call a <> None /\ proper_call [] a) calls /\ tree_calls calls = ops.
(** Reading the files named, in order, from the world [w] to the world [w'] ([s] is the
    shell): each name is looked up in the world the getters before it have left, its getter
    is called with its effects, and its data are printed. *)
Inductive reads_on (e : env) (own : list nat) (s : st) : world -> list bytes -> list event -> world -> Prop :=
| reads_on_nil : forall w, reads_on e own s w [] [] w
| reads_on_cons : forall w name f cb d ops r evs w', findable s w [name] -> denotes w name = Some f -> f_get f = Some cb ->
    gives_calling e cb f d ops -> all_allowed (d_pathmax (o_desc s)) own ops w -> w_cwd (snd (spec_ops ops w)) <> None ->
    reads_on e own s (snd (spec_ops ops w)) r evs w' ->
    reads_on e own s w (name :: r) (EvGet cb (f_name f) :: map EvOut d ++ evs) w'.
(** Calls that print a text or a message. *)
Definition plain_print (a : action) : Prop :=
  match a with APrint _ | APrintNoNl _ | APrintStatus _ => True | _ => False end.

(** Numbers of words a built-in command accepts. *)
Definition accepts (x : exec_cb) (n : nat) : bool :=
  match x with
  | XHelp | XLs => (n =? 1) || (n =? 2)
  | XCd | XXxd => n =? 2
  | XPwd => n =? 1
  | XCat => 2 <=? n
  | XEcho => (n =? 1) || (n =? 2) || (n =? 4)
  | XUser _ => true
  end.

(** Further calls while the shell is being serviced: each element of [l] is the
    service calls made before the call, and its text.  With [done] bytes printed out of
    [total], the shell has not finished printing the text so far. *)
Fixpoint in_time (done total : nat) (l : list (list io * bytes)) : Prop :=
  match l with
  | [] => True
  | (x, u) :: r => (x = [] \/ done + ready_calls x < total) /\ in_time (done + ready_calls x) (total + length u) r
  end.

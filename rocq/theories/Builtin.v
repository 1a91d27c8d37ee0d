(** * Builtin: the built-in commands and their switches (independent of the model). *)
From Coq Require Import Arith.
From Verif Require Import Shell Sched Editor Words Tree Cmds Session Examples.

(** For each command whether it is switched on, its name, description and help text, and what
    it prints when it is typed alone in an empty root directory. *)
Record row := mkRow { r_on : bool; r_name : bytes; r_about : bytes; r_usage : bytes; r_alone : bytes }.

Definition about_line (c : config) (name about : bytes) : bytes :=
  name ++ blanks (cfg_align c - length name) ++ lit " " ++ colour c "[33m" ++ lit "- " ++ about ++ colour c "[0m" ++ crlf.
Definition listing (c : config) (l : list row) : bytes :=
  concat (map (fun r => about_line c (r_name r) (r_about r)) (filter r_on l)).

(** In the order of the listing. *)
Definition rows (c : config) : list row :=
  let on (b : bool) := cfg_commands c && b in
  let wrong := status_text c ST_COMMAND_WRONG_ARGUMENTS ++ crlf in
  let others :=
    [mkRow (on (cfg_ls c)) (lit "ls") (lit "list directory content") (lit "usage: ls [path]" ++ crlf)
       (lit "d---- " ++ colour c "[32m" ++ lit "." ++ colour c "[0m" ++ crlf);
     mkRow (on (cfg_cd c)) (lit "cd") (lit "change current directory") (lit "usage: cd <path>" ++ crlf) wrong;
     mkRow (on (cfg_pwd c)) (lit "pwd") (lit "print current directory") (lit "usage: pwd" ++ crlf) (lit "/" ++ crlf);
     mkRow (on (cfg_cat c)) (lit "cat") (lit "print files content") (lit "usage: cat <files...>" ++ crlf) wrong;
     mkRow (on (cfg_xxd c)) (lit "xxd") (lit "dump file hex content") (lit "usage: xxd <file>" ++ crlf) wrong;
     mkRow (on (cfg_echo c)) (lit "echo") (lit "print string to file")
       (lit "usage: echo <string> > <file>" ++ crlf ++ lit "       echo [string]" ++ crlf ++
        lit "       * can be ascii-hex encoded string with \xNN format." ++ crlf) crlf] in
  let help := mkRow (on (cfg_help c)) (lit "help") (lit "list available commands") (lit "usage: help [file]" ++ crlf) [] in
  mkRow (r_on help) (r_name help) (r_about help) (r_usage help) (listing c (help :: others)) :: others.

(** A descriptor without exec hook, any configuration: buffers in which lines and the listing
    fit; if commands are compiled in, there is one. *)
Definition roomy (d : desc) : Prop :=
  2 <= d_insize d /\ d_insize d <= d_pathmax d /\ 20 <= d_outsize d /\ cfg_align (d_cfg d) + 8 < d_outsize d /\ d_exec d = None /\
  (cfg_commands (d_cfg d) = true -> exists r, In r (rows (d_cfg d)) /\ r_on r = true).

(** Set up with an empty root directory, the shell prints greeting and prompt; then the line [t] is
    typed (it is echoed) and answered by [u] and a prompt, under every schedule. *)
Definition replies (x : setting) (t u : bytes) : Prop :=
  let d := x_desc x in let p := prompt d (lit "/") in
  exists s n, set_up d 2 init_calls = Ok s /\ forall l, n <= both_ready l ->
    exists s', drive (app_of x) (t ++ [CR]) l s = Ok ([], s') /\ polling s' /\
      outs (lg s') = greeting ++ p ++ t ++ crlf ++ u ++ p.

(** Bytes a user types to enter words; the line fits the input buffer. *)
Definition typeable (d : desc) (t : bytes) : Prop := Forall (fun c => plain_key c = true /\ c <> NUL) t /\ 2 + length t <= d_insize d.

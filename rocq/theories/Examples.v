(** * Examples: the example programs of the repository, as users of the shell.

    Each program is a descriptor (parametrised by the sizes of the buffers), the calls made
    after ush_init, and the callbacks.  The hardware (LED, clock, random numbers, memory
    contents) may answer anything, as a function of what has been typed. *)
From Coq Require Import ZArith DecimalString.
From Verif Require Import Shell Sched Words Tree Cmds Session Host.

(** src/config/arduino/ush_config.h:33-64 has the values of src/config/posix/ush_config.h (only
    USH_ASSERT differs: it is empty). *)
Definition cfg_arduino : config := cfg_posix.

(** ** DemoBasic and DemoAdvanced *)

(** DemoBasic.ino:51-77; DemoAdvanced/shell.cpp:52-78; Initialize.ino:51-71: 32/32/32; the first two on larger
    boards 128/128/128. *)
Definition basic_desc (insize outsize pathmax : nat) : desc := mkDesc insize outsize pathmax (lit "arduino") None cfg_arduino.

(** User function numbers: exec 0 toggle, 1 set, 2 reboot; get 0 info.txt, 1 led, 2 time; set 0 led. *)
(** DemoBasic.ino:178-186; DemoAdvanced/node_root.cpp:40-48 *)
Definition info_file : file := mkFile (lit "info.txt") None None None (Some 0) None None.
(** DemoBasic.ino:189-202; DemoAdvanced/node_bin.cpp:60-73 *)
Definition toggle_file : file := mkFile (lit "toggle") (Some (lit "toggle led")) (Some (lit "usage: toggle" ++ CRLF)) (Some (XUser 0)) None None None.
Definition set_file : file := mkFile (lit "set") (Some (lit "set led")) (Some (lit "usage: set {0,1}" ++ CRLF)) (Some (XUser 1)) None None None.
(** DemoBasic.ino:205-221; DemoAdvanced/node_dev.cpp:72-88 *)
Definition led_file : file := mkFile (lit "led") None None None (Some 1) (Some 0) None.
Definition time_file : file := mkFile (lit "time") None None None (Some 2) None None.
(** DemoBasic.ino:224-231; DemoAdvanced/shell_cmd.cpp:42-49 *)
Definition reboot_file : file := mkFile (lit "reboot") (Some (lit "reboot device")) None (Some (XUser 2)) None None None.

(** DemoBasic.ino:165-170: snprintf into 16 bytes *)
Definition time_text (ms : Z) : bytes := firstn 15 (lit (NilZero.string_of_int (Z.to_int ms)) ++ CRLF).
Definition gives (t : bytes) : getres := mkGet (GData (t ++ [NUL])) (length t) [].
(** DemoBasic.ino:80-175; DemoAdvanced/node_bin.cpp:29-58, node_dev.cpp:29-70, node_root.cpp:29-38,
    shell_cmd.cpp:29-40.  [led]: what digitalRead returns; [ms]: the time.  On the boards with ESP32 or AVR
    reboot_exec_callback does not return (not modelled), on the others it prints. *)
Definition basic_env (led : bool) (ms : Z) : env :=
  mkEnv (fun k _ ws => match k with
           | 0 => []
           | 1 => match ws with
                  | [_; v] => if beq v (lit "1") || beq v (lit "0") then [] else [APrintStatus ST_COMMAND_WRONG_ARGUMENTS]
                  | _ => [APrintStatus ST_COMMAND_WRONG_ARGUMENTS]
                  end
           | _ => [APrint (lit "error: reboot not supported...")]
           end)
        (fun k _ => match k with
           | 0 => gives (lit "Use MicroShell and make fun!" ++ CRLF)
           | 1 => gives ((if led then lit "1" else lit "0") ++ CRLF)
           | _ => gives (time_text ms)
           end)
        (fun _ _ _ => [])
        (fun _ _ => []).

(** DemoBasic.ino:251-262; DemoAdvanced/shell.cpp:91-99.  Node objects: 0 built-in commands (in the shell object),
    1 cmd, 2 root, 3 dev, 4 bin. *)
Definition basic_own : list nat := [0; 1; 2; 3; 4].
Definition basic_calls : list treeop :=
  [TAdd 1 [reboot_file]; TMount [] 2 [info_file]; TMount [lit "dev"] 3 [led_file; time_file]; TMount [lit "bin"] 4 [toggle_file; set_file]].

(** ** Initialize *)

(** Initialize.ino:82-85; node objects: 0 built-in commands, 1 root. *)
Definition init_own : list nat := [0; 1].
Definition init_calls : list treeop := [TMount [] 1 []].

(** ** A program up to its main loop *)
Definition nodes_blank (n : nat) : list node := repeat node_zero n.
(** All static objects are zero; then ush_init and the calls. *)
Definition set_up (d : desc) (n : nat) (calls : list treeop) : res st :=
  s <- ush_init d (repeat NUL (d_insize d)) (repeat NUL (d_outsize d)) (st_zero d 0 (repeat NUL (d_insize d)) (repeat NUL (d_outsize d)) (nodes_blank n) []) ;;
  '(_, s') <- do_ops calls s ;; Ok s'.

(** ** demo_linux *)

(** demo_linux/shell.c:35-51, 55-63: 256/256/256; the host name is "host" at the start
    (afterwards: [linux_name]). *)
Definition linux_desc (insize outsize pathmax : nat) : desc := mkDesc insize outsize pathmax (lit "host") None cfg_posix.

(** User function numbers: exec 0 reset, 1 uptime, 2 print; get 0 readme.txt, 1 config,
    2 hostname, 3 null, 4 random, 5 ram, 6 eeprom, 7 rom; set 0 hostname, 1 null, 2 ram, 3 eeprom. *)
(** demo_linux/commands.c:38-44 *)
Definition reset_file : file := mkFile (lit "reset") (Some (lit "reset shell")) None (Some (XUser 0)) None None None.
(** demo_linux/fs/path/bin.c:58-69 *)
Definition uptime_file : file :=
  mkFile (lit "uptime") None (Some (lit "usage: uptime" ++ CRLF ++ lit "  show system uptime" ++ CRLF)) (Some (XUser 1)) None None None.
Definition print_file : file :=
  mkFile (lit "print") None (Some (lit "usage: print <arg>" ++ CRLF ++ lit "  print argument to shell" ++ CRLF)) (Some (XUser 2)) None None None.
(** demo_linux/fs/path/root.c:44-49 *)
Definition readme_file : file := mkFile (lit "readme.txt") None None None (Some 0) None None.
(** demo_linux/fs/path/etc.c:62-74 *)
Definition config_file : file := mkFile (lit "config") (Some (lit "system configuration")) None None (Some 1) None None.
Definition hostname_file : file := mkFile (lit "hostname") (Some (lit "shell hostname")) None None (Some 2) (Some 0) None.
(** demo_linux/fs/path/dev.c:64-74, 78-87, 138-153 *)
Definition null_file : file := mkFile (lit "null") None None None (Some 3) (Some 1) None.
Definition random_file : file := mkFile (lit "random") None None None (Some 4) None None.
Definition spi_file : file := mkFile (lit "spi") None (Some (lit "not implemented yet" ++ CRLF)) None None None None.
Definition uart_file : file := mkFile (lit "uart") None (Some (lit "not implemented yet" ++ CRLF)) None None None None.
Definition ram_file : file := mkFile (lit "ram") None None None (Some 5) (Some 2) None.
Definition eeprom_file : file := mkFile (lit "eeprom") None None None (Some 6) (Some 3) None.
Definition rom_file : file := mkFile (lit "rom") None None None (Some 7) None None.

(** What the program reads at some moment: the clock, rand(), its memories and the host name. *)
Record machine := mkMachine { m_uptime : N; m_random : bytes; m_ram : bytes; m_eeprom : bytes; m_rom : bytes; m_name : bytes }.
(** dev.c:59-61, 91-93; shell.c:33, 36 *)
Definition machine_ok (m : machine) : Prop :=
  length (m_random m) = 4 /\ length (m_ram m) = 256 /\ length (m_eeprom m) = 32 /\ N.of_nat (length (m_rom m)) = 1024%N /\ length (m_name m) <= 16.
(** root.c:30-33; etc.c:30-33 *)
Definition readme_text : bytes :=
  lit "Welcome to MicroShell DEMO implementation!" ++ CRLF ++ lit "You will see how most common features work." ++ CRLF ++ lit "Enjoy!" ++ CRLF.
Definition config_text : bytes := lit "# system configuration" ++ CRLF ++ lit "freq = 16MHz" ++ CRLF ++ lit "ram = 4kB" ++ CRLF.
(** bin.c:55: "time: %lus\r\n"; the time does not go back. *)
Definition uptime_text (n : N) : bytes := lit "time: " ++ lit (NilEmpty.string_of_uint (N.to_uint n)) ++ lit "s" ++ CRLF.
Definition holds_all (t : bytes) : getres := mkGet (GData t) (length t) [].
(** commands.c:29-36; bin.c:31-56; root.c:35-42; etc.c:35-60; dev.c:31-62, 95-136.  [null] is what the
    getter of /dev/null leaves in the pointer (dev.c:31-40: it is not set). *)
Definition linux_env (null : gptr) (m : machine) : env :=
  mkEnv (fun k _ ws => match k with
           | 0 => [AReset]
           | 1 => match ws with [_] => [APrintf (FmtOk (uptime_text (m_uptime m)))] | _ => [APrintStatus ST_COMMAND_WRONG_ARGUMENTS] end
           | _ => match ws with [_; _] => [APrintArg 1] | _ => [APrintStatus ST_COMMAND_WRONG_ARGUMENTS] end
           end)
        (fun k _ => match k with
           | 0 => gives readme_text
           | 1 => gives config_text
           | 2 => gives (m_name m)
           | 3 => mkGet null 0 []
           | 4 => holds_all (m_random m)
           | 5 => holds_all (m_ram m)
           | 6 => holds_all (m_eeprom m)
           | _ => holds_all (m_rom m)
           end)
        (fun _ _ _ => [])
        (fun _ _ => []).
(** The host name after the events [evs].  etc.c:53-60, shell.c:70-74: the setter of /etc/hostname copies
    a C string, at most 16 bytes of it.  As echo decodes the text in place and does not terminate it
    (ush_cmd_echo.c:58-64), the string goes on with what is left of the text typed. *)
Definition linux_name (evs : list event) : bytes :=
  snd (fold_left (fun p x => match x with
         | EvExec _ _ ws => (ws, snd p)
         | EvSet 0 _ t => (fst p, firstn 16 (until_nul (t ++ skipn (length t) (nth 1 (fst p) []))))
         | _ => p end) evs (@nil bytes, lit "host")).
(** dev.c:104-110, 121-127: the setters copy what they get, whatever its size, into 256 and 32 bytes
    (dev.c:91, 93). *)
Definition setter_room (cb : nat) : option nat := match cb with 2 => Some 256 | 3 => Some 32 | _ => None end.
Definition setters_fit (log : list event) : Prop :=
  forall cb n t r, In (EvSet cb n t) log -> setter_room cb = Some r -> length t <= r.

(** commands.c:48-51; fs.c:32-38; root.c:53-56; etc.c:78-81; dev.c:157-170; bin.c:74-79.  Node objects:
    0 built-in commands, 1 cmd, 2 root, 3 etc, 4 dev, 5 bus, 6 mem, 7 bin. *)
Definition linux_own : list nat := [0; 1; 2; 3; 4; 5; 6; 7].
Definition linux_calls : list treeop :=
  [TAdd 1 [reset_file]; TMount [] 2 [readme_file]; TMount [lit "etc"] 3 [config_file; hostname_file];
   TMount [lit "dev"] 4 [null_file; random_file]; TMount [lit "dev"; lit "bus"] 5 [spi_file; uart_file];
   TMount [lit "dev"; lit "mem"] 6 [ram_file; eeprom_file; rom_file]; TMount [lit "bin"] 7 [uptime_file; print_file]].

(** ** What is claimed of a program *)

(** The world after the calls. *)
Definition world_of (d : desc) (calls : list treeop) : world :=
  snd (spec_ops calls (mkWorld [] (if cfg_commands (d_cfg d) then [(0, buildin_commands (d_cfg d))] else []) None)).

(** TAB is pressed only in lines that leave [k] bytes of the input buffer free, and two more. *)
Definition tabs_early (x : setting) (a : sess) (k : nat) (cs : bytes) : Prop :=
  forall p q, cs = p ++ TAB :: q -> let l := se_line (snd (sess_run x a p)) in ~ In NUL l /\ 2 + length l + k <= d_insize (x_desc x).
(** Its set-up succeeds.  After that, whatever is typed (with this limit on TAB) and however the
    calls of ush_service are scheduled, no call fails; all the input is consumed if the output is ready
    often enough; and whenever the shell polls, what it has printed and the callbacks it has
    called are those of the session (Session.v) on the input consumed so far. *)
Definition runs (x : setting) (n : nat) (calls : list treeop) (k : nat) : Prop :=
  let d := x_desc x in
  let a := mkSess (world_of d calls) [] 0 [] in
  exists s, set_up d n calls = Ok s /\
  forall cs, tabs_early x a k cs ->
    (forall l, exists q s2, drive (app_of x) cs l s = Ok (q, s2) /\
       (polling s2 -> exists p, cs = p ++ q /\ lg s2 = map EvOut (greeting ++ prompt d (lit "/")) ++ fst (sess_run x a p))) /\
    exists m, forall l, m <= both_ready l -> exists s2, drive (app_of x) cs l s = Ok ([], s2) /\ polling s2.
(** The same for a program that changes its host name: at every moment it is [h] of what the
    application has seen (Host.v). *)
Definition runs_named (h : list event -> bytes) (x : setting) (n : nat) (calls : list treeop) (k : nat) : Prop :=
  let d := x_desc x in
  let a := mkSess (world_of d calls) [] 0 [] in
  let first := map EvOut (greeting ++ prompt d (lit "/")) in
  exists s, set_up d n calls = Ok s /\
  forall cs, tabs_early x a k cs ->
    (forall l, exists q s2, drive_host (app_of x) h cs l s = Ok (q, s2) /\
       (polling s2 -> exists p, cs = p ++ q /\ lg s2 = first ++ fst (sess_host h x first a p))) /\
    exists m, forall l, m <= both_ready l -> exists s2, drive_host (app_of x) h cs l s = Ok ([], s2) /\ polling s2.
(** Typing [cs] makes a call of ush_service fail with [e]. *)
Definition breaks (x : setting) (n : nat) (calls : list treeop) (cs : bytes) (e : err) : Prop :=
  exists s l, set_up (x_desc x) n calls = Ok s /\ drive (app_of x) cs l s = Err e.

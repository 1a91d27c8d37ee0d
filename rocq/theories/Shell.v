(** * Shell: model of the state machine: ush.c, ush_write*.c, ush_read*.c,
    ush_parse*.c, ush_prompt.c, ush_reset.c, ush_process.c, ush_autocomp*.c and
    commands/*.c. *)
From Verif Require Export Node.

(** ** The outside world during one call *)

(** Outcome of a [vsnprintf] (ush.c:135): the complete formatted text, or a
    negative result after some text was stored. *)
Inductive fmt :=
| FmtOk (s : bytes)
| FmtErr (partial : bytes).

(** What a user callback (or user code between two service calls) does with the
    public API.  A callback is the list of its API calls; callbacks may answer
    differently at every call (see [io]), so nothing is lost by not modelling
    their control flow. *)
Inductive action :=
| APrint (s : bytes)                    (* ush_print *)
| APrintNoNl (s : bytes)                (* ush_print_no_newline *)
| APrintStatus (x : status)             (* ush_print_status *)
| APrintArg (i : nat)                   (* ush_print(self, argv[i]) *)
| APrintf (x : fmt)                     (* ush_printf *)
| AWriteOut (s : bytes)                 (* sprintf(desc->output_buffer, "%s", s) *)
| AFlush                                (* ush_flush *)
| AReset                                (* ush_reset *)
| ASetDir (path : bytes)                (* ush_node_set_current_dir *)
| AMount (path : bytes) (id : nat) (fs : list file)
| AUnmount (path : bytes)
| ACmdAdd (id : nat) (fs : list file)
| ACmdRemove (id : nat)
| AProcessStart (f : file)              (* ush_process_start(self, file) *)
| ASetState (x : fsm).                  (* self->state = x, in a process callback *)

(** Answer of a getter (ush_types.h:144): whether and how it sets the data
    pointer, the size it returns, and the API calls it makes before returning.  The
    data does not change while it is being printed (simplification, dropped in Live.v). *)
Inductive gptr := GUnset | GNull | GData (d : bytes).
Record getres := mkGet { g_ptr : gptr; g_size : nat; g_calls : list action }.

(** The user's callbacks. *)
Record env := mkEnv {
  e_exec : nat -> option bytes -> list bytes -> list action;
  e_get  : nat -> bytes -> getres;
  e_set  : nat -> bytes -> bytes -> list action;
  e_proc : nat -> bytes -> list action;
}.

(** Everything the outside answers during one [ush_service] call: the byte the
    read callback delivers ([None]: it returns 0), whether the write callback
    accepts, and the callbacks' behaviour. *)
Record io := mkIo {
  io_rd  : option byte;
  io_wr  : bool;
  io_env : env;
}.

(** ** ush_write.c, ush_write_utils.c *)

(** ush_write_utils.c:28-40 [ush_write_pointer_bin] (data is not NULL) *)
Definition ush_write_pointer_bin (p : wptr) (size : nat) (next : fsm) (s : st) : st :=
  set_wnext next (set_state S_WRITE_CHAR (set_wbuf (Some p) (set_wsize size (set_wpos 0 s)))).

(** strlen of what a write pointer points to *)
Definition wptr_strlen (p : wptr) (s : st) : res nat :=
  match p with
  | WIn off => c_strlen (inb s) off
  | WOut => c_strlen (outb s) 0
  | WStr t => Ok (length t)
  end.

(** ush_write.c:30-37 [ush_write_pointer] *)
Definition ush_write_pointer (p : wptr) (next : fsm) (s : st) : res st :=
  n <- wptr_strlen p s ;; Ok (ush_write_pointer_bin p n next s).

(** [ush_write_pointer] of a string constant or another immutable string. *)
Definition write_str (t : bytes) (next : fsm) (s : st) : st :=
  ush_write_pointer_bin (WStr t) (length t) next s.

(** [self->write_buf[pos]] *)
Definition wbuf_rd (s : st) (pos : nat) : res byte :=
  match o_wbuf s with
  | None => Err ENull
  | Some (WIn off) => rd (inb s) (off + pos)
  | Some WOut => rd (outb s) pos
  | Some (WStr t) => rd t pos
  end.

(** ush_write_utils.c:42-57 [ush_write_char] *)
Definition ush_write_char (ready : bool) (s : st) : res st :=
  if o_wsize s <=? o_wpos s then Ok (set_state (o_wnext s) s)
  else
    ch <- wbuf_rd s (o_wpos s) ;;
    if ready then Ok (set_wpos (S (o_wpos s)) (emit (EvOut ch) s)) else Ok s.

(** ush_write.c:39-55 [ush_write_service] *)
Definition ush_write_service (i : io) (s : st) : res (bool * st) :=
  match o_state s with
  | S_WRITE_CHAR => s <- ush_write_char (io_wr i) s ;; Ok (true, s)
  | _ => Ok (false, s)
  end.

(** ** ush.c printing API *)

(** ush.c:97-104 [ush_print_status] *)
Definition ush_print_status (x : status) (s : st) : st :=
  write_str (ush_utils_get_status_string (d_cfg (o_desc s)) x) S_RESET s.

(** ush.c:106-112 [ush_print] *)
Definition ush_print (p : wptr) (s : st) : res st := ush_write_pointer p S_RESET s.

(** ush.c:173-179 [ush_print_no_newline] *)
Definition ush_print_no_newline (p : wptr) (s : st) : res st :=
  ush_write_pointer p S_RESET_PROMPT s.

(** ush.c:181-186 [ush_flush] *)
Definition ush_flush (s : st) : res st := ush_write_pointer WOut S_RESET_PROMPT s.

(** ush.c:145-146; [sizeof] is the length plus one *)
Definition error_format : bytes := lit "...format error" ++ CRLF.
Definition error_overflow : bytes := lit "...overflow error" ++ CRLF.

(** ush.c:135, [vsnprintf(&b[off], max, ...)]: stores at most max-1 characters and a
    NUL ([max > 0] at the only call).  The formatted text may contain NULs (%c). *)
Definition c_vsnprintf (b : bytes) (off max : nat) (x : fmt) : res bytes :=
  let t := match x with FmtOk t => t | FmtErr t => t end in
  c_strcpy b off (firstn (max - 1) t).

(** ush.c:114-171 [ush_printf] *)
Definition ush_printf (x : fmt) (s : st) : res st :=
  let size := d_outsize (o_desc s) in
  s <- (match o_wbuf s with
        | Some WOut => Ok (set_wnext S_RESET_PROMPT (set_state S_WRITE_CHAR s))
        | _ =>
            b <- wr (outb s) 0 NUL ;;
            ush_write_pointer WOut S_RESET_PROMPT (set_outb b s)
        end) ;;
  insert_idx <- c_strlen (outb s) 0 ;;
  let max := size - insert_idx in
  b <- c_vsnprintf (outb s) insert_idx max x ;;
  real <- c_strlen b insert_idx ;;
  let s := set_wsize (o_wsize s + real) (set_outb b s) in
  let bad := match x with FmtErr _ => true | FmtOk t => real <? length t end in
  if bad then
    let msg := match x with FmtErr _ => error_format | FmtOk _ => error_overflow end in
    len <- c_strlen (outb s) 0 ;;
    if length msg <=? size - len then
      b <- c_strcpy (outb s) len msg ;;
      n <- c_strlen b len ;;
      Ok (set_wsize (o_wsize s + n) (set_outb b s))
    else
      if size <? length msg + 1 then Err EWrap
      else
        b <- c_strcpy (outb s) (size - (length msg + 1)) msg ;;
        Ok (set_wsize size (set_outb b s))
  else Ok s.

(** ** ush_prompt.c, ush_reset.c *)

(** ush_prompt.c:32-36 [ush_prompt_start] *)
Definition ush_prompt_start (next : fsm) (s : st) : st :=
  set_pnext next (set_state S_PROMPT_PREFIX s).

(** ush_prompt.c:38-68 [ush_prompt_service] *)
Definition ush_prompt_service (s : st) : res (bool * st) :=
  let c := d_cfg (o_desc s) in
  match o_state s with
  | S_PROMPT_PREFIX => Ok (true, write_str (sty_magenta c ++ lit "[") S_PROMPT_HOST s)
  | S_PROMPT_HOST => Ok (true, write_str (d_host (o_desc s)) S_PROMPT_SPACE s)
  | S_PROMPT_SPACE => Ok (true, write_str (lit " ") S_PROMPT_PATH s)
  | S_PROMPT_PATH =>
      nd <- getp (hp s) (o_cur s) ;;
      p <- path_of nd ;;
      Ok (true, write_str (ush_utils_path_last p) S_PROMPT_SUFFIX s)
  | S_PROMPT_SUFFIX => Ok (true, write_str (lit "]$ " ++ sty_reset c) (o_pnext s) s)
  | _ => Ok (false, s)
  end.

(** ush_const.h:33-35 USH_NAME " " USH_VERSION "\r\n" *)
Definition banner : bytes := lit "uShell 0.1.0" ++ CRLF.

(** ush_reset.c:38-44 [ush_reset] *)
Definition ush_reset (s : st) : st :=
  write_str banner S_RESET_PROMPT (set_cur (o_root s) s).

(** ush_reset.c:46-65 [ush_reset_service] *)
Definition ush_reset_service (s : st) : res (bool * st) :=
  match o_state s with
  | S_RESET => Ok (true, write_str CRLF S_RESET_PROMPT s)
  | S_RESET_PROMPT => Ok (true, ush_prompt_start S_READ_PREPARE s)
  | _ => Ok (false, s)
  end.

(** ** ush_read.c, ush_read_char.c, ush_read_utils.c *)

(** ush_read_utils.c:27-50 [ush_read_echo_service] *)
Definition ush_read_echo_service (ch : byte) (s : st) : res st :=
  b <- (if ceq ch CR then
          b <- wr (outb s) 0 ch ;; b <- wr b 1 LF ;; wr b 2 NUL
        else if ceq ch BS || ceq ch DEL then
          b <- wr (outb s) 0 BS ;; b <- wr b 1 SP ;; b <- wr b 2 BS ;; wr b 3 NUL
        else
          b <- wr (outb s) 0 ch ;; wr b 1 NUL) ;;
  let next := if ceq ch CR || ceq ch LF then S_PARSE_PREPARE else S_READ_CHAR in
  ush_write_pointer WOut next (set_outb b s).

(** ush_read_utils.c:52-84 [ush_read_char_by_escape_state]: returns echo *)
Definition ush_read_char_by_escape_state (ch : byte) (s : st) : res (bool * st) :=
  match o_esc s with
  | 0 =>
      b <- wr (inb s) (o_inpos s) ch ;;
      let p := S (o_inpos s) in
      let p := if d_insize (o_desc s) <=? p then 0 else p in
      b <- wr b p NUL ;;
      Ok (true, set_inpos p (set_inb b s))
  | 1 =>
      if ceq ch "["%char || ceq ch "O"%char
      then Ok (false, set_esc 2 s)
      else Ok (false, set_esc 0 s)
  | 2 => Ok (false, set_esc 0 s)
  | _ => Ok (true, s)
  end.

(** ush_read_utils.c:86-94 [ush_read_start] *)
Definition ush_read_start (s : st) : res st :=
  b <- wr (inb s) 0 NUL ;;
  Ok (set_esc 0 (set_state S_READ_CHAR (set_inpos 0 (set_inb b s)))).

(** ush_autocomp_utils.c:34-39 [ush_autocomp_start] *)
Definition ush_autocomp_start (s : st) : st := set_state S_AC_PREPARE s.

(** ush_read_char.c:28-75 [ush_read_char] *)
Definition ush_read_char (i : io) (s : st) : res (bool * st) :=
  match io_rd i with
  | None => Ok (false, s)
  | Some ch =>
      let s := emit (EvIn ch) s in
      '(echo, s) <-
        (if ceq ch ETX then Ok (false, write_str (lit "^C") S_RESET s)
         else if ceq ch BS || ceq ch DEL then
           match o_inpos s with
           | 0 => Ok (false, s)
           | S p =>
               b <- wr (inb s) p NUL ;; Ok (true, set_inpos p (set_inb b s))
           end
         else if ceq ch TAB then
           Ok (false, if cfg_autocomp (d_cfg (o_desc s)) then ush_autocomp_start s else s)
         else if ceq ch ESC then Ok (false, set_esc 1 s)
         else ush_read_char_by_escape_state ch s) ;;
      s <- (if echo : bool then ush_read_echo_service ch s else Ok s) ;;
      Ok (true, s)
  end.

(** ush_read.c:3-22 [ush_read_service]: returns (processed, busy) *)
Definition ush_read_service (i : io) (s : st) : res ((bool * bool) * st) :=
  match o_state s with
  | S_READ_PREPARE => s <- ush_read_start s ;; Ok ((true, false), s)
  | S_READ_CHAR => '(r, s) <- ush_read_char i s ;; Ok ((true, r), s)
  | _ => Ok ((false, false), s)
  end.

(** ** ush_process.c *)

(** ush_process.c:29-36 [ush_process_start] *)
Definition ush_process_start (f : file) (s : st) : st :=
  set_state S_PROCESS_START (set_pfile (Some f) s).

(** ** User callbacks *)

(** One API call of user code; [args] are the offsets argv[] of the running
    exec callback ([] elsewhere).  Status results are returned to the user, who
    may react in any way (the next actions are arbitrary). *)
Definition do_action (args : list nat) (a : action) (s : st) : res st :=
  match a with
  | APrint t => ush_print (WStr t) s
  | APrintNoNl t => ush_print_no_newline (WStr t) s
  | APrintStatus x => Ok (ush_print_status x s)
  | APrintArg i =>
      match nth_error args i with
      | Some off => ush_print (WIn off) s
      | None => if i =? length args then Err EAssert (* argv[argc] is NULL *) else Err EOob
      end
  | APrintf x => ush_printf x s
  | AWriteOut t => b <- c_strcpy (outb s) 0 t ;; Ok (set_outb b s)
  | AFlush => ush_flush s
  | AReset => Ok (ush_reset s)
  | ASetDir p => '(_, s) <- ush_node_set_current_dir p s ;; Ok s
  | AMount p id fs => '(_, s) <- ush_node_mount p id fs s ;; Ok s
  | AUnmount p => '(_, s) <- ush_node_unmount p s ;; Ok s
  | ACmdAdd id fs => '(_, s) <- ush_commands_add id fs s ;; Ok s
  | ACmdRemove id => '(_, s) <- ush_commands_remove id s ;; Ok s
  | AProcessStart f => Ok (ush_process_start f s)
  | ASetState x => Ok (set_state x s)
  end.

Fixpoint do_actions (args : list nat) (l : list action) (s : st) : res st :=
  match l with
  | [] => Ok s
  | a :: r => s <- do_action args a s ;; do_actions args r s
  end.

(** ** Argument vector *)

(** ush_parse_utils.c:49-52, the loop of [ush_parse_get_args] *)
Fixpoint args_loop (n : nat) (b : bytes) (ptr : nat) : res (list nat) :=
  match n with
  | 0 => Ok []
  | S n' => l <- c_strlen b ptr ;; r <- args_loop n' b (ptr + l + 1) ;; Ok (ptr :: r)
  end.

(** ush_parse_utils.c:41-55 [ush_parse_get_args]: offsets of argv[0..argc-1] *)
Definition ush_parse_get_args (s : st) : res (list nat) :=
  args_loop (o_argc s) (inb s) 0.

(** The strings argv[] points to. *)
Fixpoint arg_values (b : bytes) (args : list nat) : res (list bytes) :=
  match args with
  | [] => Ok []
  | a :: r => x <- c_str b a ;; y <- arg_values b r ;; Ok (x :: y)
  end.

(** ** Built-in commands: exec callbacks *)

(** commands/ush_cmd_help.c:34-62 [ush_buildin_cmd_help_callback] *)
Definition help_callback (f : file) (argv : list bytes) (s : st) : res st :=
  match argv with
  | [_] =>
      Ok (ush_process_start f (set_pitem 0 (set_pidx 0 (set_pnode (o_cmds s) s))))
  | [_; name] =>
      r <- ush_file_find_by_name name s ;;
      match r with
      | None => Ok (ush_print_status ST_FILE_NOT_FOUND s)
      | Some g =>
          match f_help g with
          | None => Ok (ush_print_status ST_FILE_NO_HELP s)
          | Some t => ush_print_no_newline (WStr t) s
          end
      end
  | _ => Ok (ush_print_status ST_COMMAND_WRONG_ARGUMENTS s)
  end.

(** commands/ush_cmd_ls.c:34-59 [ush_buildin_cmd_ls_callback] *)
Definition ls_callback (f : file) (argv : list bytes) (s : st) : res st :=
  match argv with
  | [_] => Ok (ush_process_start f (set_pnode (o_cur s) s))
  | [_; path] =>
      let pm := d_pathmax (o_desc s) in
      abs <- abs_path_str pm (hp s) (o_cur s) path ;;
      n <- ush_node_get_by_path pm (hp s) (o_root s) abs ;;
      let s := set_pnode n s in
      match n with
      | None => Ok (ush_print_status ST_NODE_NOT_FOUND s)
      | Some _ => Ok (ush_process_start f s)
      end
  | _ => Ok (ush_print_status ST_COMMAND_WRONG_ARGUMENTS s)
  end.

(** commands/ush_cmd_cd.c:31-45 [ush_buildin_cmd_cd_callback] *)
Definition cd_callback (argv : list bytes) (s : st) : res st :=
  match argv with
  | [_; path] =>
      '(x, s) <- ush_node_set_current_dir path s ;;
      match x with
      | ST_OK => Ok s
      | _ => Ok (ush_print_status x s)
      end
  | _ => Ok (ush_print_status ST_COMMAND_WRONG_ARGUMENTS s)
  end.

(** commands/ush_cmd_pwd.c:31-42 [ush_buildin_cmd_pwd_callback] *)
Definition pwd_callback (argv : list bytes) (s : st) : res st :=
  match argv with
  | [_] =>
      nd <- getp (hp s) (o_cur s) ;;
      p <- path_of nd ;;
      ush_print (WStr p) s
  | _ => Ok (ush_print_status ST_COMMAND_WRONG_ARGUMENTS s)
  end.

(** commands/ush_cmd_cat.c:41-51, the checking loop of the cat callback *)
Fixpoint cat_check (names : list bytes) (s : st) : res (option status) :=
  match names with
  | [] => Ok None
  | n :: r =>
      f <- ush_file_find_by_name n s ;;
      match f with
      | None => Ok (Some ST_FILE_NOT_FOUND)
      | Some g =>
          match f_get g with
          | None => Ok (Some ST_FILE_NOT_READABLE)
          | Some _ => cat_check r s
          end
      end
  end.

(** commands/ush_cmd_cat.c:32-54 [ush_buildin_cmd_cat_callback] *)
Definition cat_callback (f : file) (argv : list bytes) (s : st) : res st :=
  if length argv <? 2 then Ok (ush_print_status ST_COMMAND_WRONG_ARGUMENTS s)
  else
    c <- cat_check (tl argv) s ;;
    match c with
    | Some x => Ok (ush_print_status x s)
    | None => Ok (ush_process_start f s)
    end.

(** Call of a getter (ush_types.h:144): logged; its API calls act on the shell, its
    answer comes from the environment. *)
Definition call_get (e : env) (cb : nat) (g : file) (s : st) : res (getres * st) :=
  let a := e_get e cb (f_name g) in
  s <- do_actions [] (g_calls a) (emit (EvGet cb (f_name g)) s) ;;
  Ok (a, s).

(** commands/ush_cmd_xxd.c:36-58 [ush_buildin_cmd_xxd_callback] *)
Definition xxd_callback (e : env) (f : file) (argv : list bytes) (s : st) : res st :=
  match argv with
  | [_; name] =>
      r <- ush_file_find_by_name name s ;;
      match r with
      | None => Ok (ush_print_status ST_FILE_NOT_FOUND s)
      | Some g =>
          match f_get g with
          | None => Ok (ush_print_status ST_FILE_NOT_READABLE s)
          | Some cb =>
              '(a, s) <- call_get e cb g s ;;
              let s := match g_ptr a with
                       | GUnset => s
                       | GNull => set_pdata None s
                       | GData d => set_pdata (Some d) s
                       end in
              Ok (ush_process_start f (set_pdsize (g_size a) s))
          end
      end
  | _ => Ok (ush_print_status ST_COMMAND_WRONG_ARGUMENTS s)
  end.

(** commands/ush_cmd_echo.c:35-83 [ush_buildin_cmd_echo_callback]; [args] are the
    offsets of the arguments, which are decoded in place. *)
Definition echo_callback (e : env) (args : list nat) (argv : list bytes) (s : st) : res st :=
  match argv with
  | [_; text; op; name] =>
      if negb (beq op (lit ">")) then Ok (ush_print_status ST_COMMAND_WRONG_ARGUMENTS s)
      else
        r <- ush_file_find_by_name name s ;;
        match r with
        | None => Ok (ush_print_status ST_FILE_NOT_FOUND s)
        | Some g =>
            match f_set g with
            | None => Ok (ush_print_status ST_FILE_NOT_WRITABLE s)
            | Some cb =>
                off <- rd args 1 ;;
                max <- c_strlen (inb s) off ;;
                '(b, n) <- ush_utils_decode_ascii (inb s) off off max ;;
                let data := firstn n (skipn off b) in
                let s := emit (EvSet cb (f_name g) data) (set_inb b s) in
                do_actions [] (e_set e cb (f_name g) data) s
            end
        end
  | [_; text] =>
      off <- rd args 1 ;;
      max <- c_strlen (inb s) off ;;
      '(b, n) <- ush_utils_decode_ascii (inb s) off off max ;;
      ush_print (WIn off) (set_inb b s)
  | [_] => Ok (set_state S_RESET s)
  | _ => Ok (ush_print_status ST_COMMAND_WRONG_ARGUMENTS s)
  end.

(** [file->exec(self, file, argc, argv)], logged. *)
Definition call_exec (e : env) (cb : exec_cb) (f : file) (args : list nat)
           (argv : list bytes) (s : st) : res st :=
  let s := emit (EvExec cb (Some (f_name f)) argv) s in
  match cb with
  | XHelp => help_callback f argv s
  | XLs => ls_callback f argv s
  | XCd => cd_callback argv s
  | XPwd => pwd_callback argv s
  | XCat => cat_callback f argv s
  | XXxd => xxd_callback e f argv s
  | XEcho => echo_callback e args argv s
  | XUser n => do_actions args (e_exec e n (Some (f_name f)) argv) s
  end.

(** ** ush_parse.c, ush_parse_char.c, ush_parse_utils.c *)

(** ush_parse_utils.c:30-39 [ush_parse_start] *)
Definition ush_parse_start (s : st) : st :=
  set_state S_PARSE_SEARCH_ARG
    (set_escf false (set_argc 0 (set_outpos 0 (set_inpos 0 s)))).

(** ush_parse.c:32-61 [ush_parse_finish] *)
Definition ush_parse_finish (e : env) (s : st) : res st :=
  args <- ush_parse_get_args s ;;
  argv <- arg_values (inb s) args ;;
  match argv with
  | [] => Ok s
  | name :: _ =>
      s <- (match d_exec (o_desc s) with
            | None => Ok s
            | Some cb =>
                do_actions args (e_exec e cb None argv) (emit (EvExec (XUser cb) None argv) s)
            end) ;;
      r <- ush_file_find_by_name name s ;;
      match r with
      | None => Ok (ush_print_status ST_COMMAND_SYNTAX_ERROR s)
      | Some f =>
          match f_exec f with
          | None => Ok (ush_print_status ST_FILE_NOT_EXECUTABLE s)
          | Some cb => call_exec e cb f args argv s
          end
      end
  end.

(** [self->desc->input_buffer[self->out_pos++] = ch] *)
Definition out_char (ch : byte) (s : st) : res st :=
  b <- wr (inb s) (o_outpos s) ch ;; Ok (set_outpos (S (o_outpos s)) (set_inb b s)).

(** ush_parse_utils.c:81-87 and 102-108, a character after a backslash *)
Definition out_escaped (ch : byte) (s : st) : res st :=
  s <- (if ceq ch "x"%char then out_char BSL s else Ok s) ;;
  s <- out_char ch s ;;
  Ok (set_escf false s).

(** ush_parse_utils.c:57-130 [ush_parse_char_standard] *)
Definition ush_parse_char_standard (ch : byte) (s : st) : res st :=
  match o_state s with
  | S_PARSE_SEARCH_ARG =>
      if ceq ch SP then Ok s
      else if ceq ch DQ then
        Ok (set_state S_PARSE_QUOTE_ARG (set_argc (S (o_argc s)) s))
      else if ceq ch BSL then
        Ok (set_state S_PARSE_STANDARD_ARG (set_argc (S (o_argc s)) (set_escf true s)))
      else
        s <- out_char ch s ;;
        Ok (set_state S_PARSE_STANDARD_ARG (set_argc (S (o_argc s)) s))
  | S_PARSE_QUOTE_ARG =>
      if o_escf s then out_escaped ch s
      else if ceq ch DQ then Ok (set_state S_PARSE_STANDARD_ARG s)
      else if ceq ch BSL then Ok (set_escf true s)
      else out_char ch s
  | S_PARSE_STANDARD_ARG =>
      if o_escf s then out_escaped ch s
      else if ceq ch SP then
        s <- out_char NUL s ;; Ok (set_state S_PARSE_SEARCH_ARG s)
      else if ceq ch DQ then Ok (set_state S_PARSE_QUOTE_ARG s)
      else if ceq ch BSL then Ok (set_escf true s)
      else out_char ch s
  | _ => Err EAssert
  end.

(** ush_parse_char.c:28-42 [ush_parse_char] *)
Definition ush_parse_char (e : env) (s : st) : res st :=
  ch <- rd (inb s) (o_inpos s) ;;
  let s := set_inpos (S (o_inpos s)) s in
  if ceq ch LF || ceq ch CR then
    s <- out_char NUL s ;;
    ush_parse_finish e (set_state S_RESET_PROMPT s)
  else ush_parse_char_standard ch s.

(** ush_parse.c:63-84 [ush_parse_service] *)
Definition ush_parse_service (i : io) (s : st) : res (bool * st) :=
  match o_state s with
  | S_PARSE_PREPARE => Ok (true, ush_parse_start s)
  | S_PARSE_SEARCH_ARG | S_PARSE_QUOTE_ARG | S_PARSE_STANDARD_ARG =>
      s <- ush_parse_char (io_env i) s ;; Ok (true, s)
  | _ => Ok (false, s)
  end.

(** ** ush_autocomp.c, ush_autocomp_state.c, ush_autocomp_utils.c *)

(** [strlen(self->autocomp_input)] and its offset *)
Definition ac_input (s : st) : res (nat * bytes) :=
  match o_acin s with
  | None => Err ENull
  | Some off => t <- c_str (inb s) off ;; Ok (off, t)
  end.

Definition deref {A} (p : option A) : res A :=
  match p with Some a => Ok a | None => Err ENull end.

(** ush_autocomp_utils.c:41-48 [ush_autocomp_prepare_candidates] *)
Definition ush_autocomp_prepare_candidates (s : st) : st :=
  set_pitem 0 (set_pidx 0 (set_pnode (o_cmds s) (set_pstage 0 (set_account 0 s)))).

(** ush_autocomp_utils.c:50-68 [ush_autocomp_optimize_continue] *)
Definition ush_autocomp_optimize_continue (s : st) : res st :=
  let s := set_acprevc (o_account s) s in
  '(_, t) <- ac_input s ;;
  cand <- deref (o_accand s) ;;
  let pos := length t in
  if length cand <=? pos then Ok (set_state S_AC_RECALL_SUFFIX s)
  else
    ch <- rd cand pos ;;
    b <- wr (inb s) (o_inpos s) ch ;;
    let p := S (o_inpos s) in
    let p := if d_insize (o_desc s) <=? p then 0 else p in
    b <- wr b p NUL ;;
    let s := set_acsuf (S (o_acsuf s)) (set_inpos p (set_inb b s)) in
    Ok (set_state S_AC_OPTIMISE (ush_autocomp_prepare_candidates s)).

(** ush_autocomp_utils.c:70-99 [ush_autocomp_check_for_finish] *)
Definition ush_autocomp_check_for_finish (s : st) : res st :=
  let pm := d_pathmax (o_desc s) in
  match o_pstage s with
  | 0 => Ok (set_pstage 1 (set_pitem 0 (set_pidx 0 (set_pnode (o_cur s) s))))
  | 1 =>
      '(_, t) <- ac_input s ;;
      abs <- abs_path_str pm (hp s) (o_cur s) t ;;
      pn <- (match t with
             | [] => Ok (o_cur s)
             | _ =>
                 r <- ush_node_get_parent_by_path pm (hp s) (o_root s) abs ;;
                 match r with None => Ok (o_cur s) | Some i => Ok (Some i) end
             end) ;;
      nd <- getp (hp s) pn ;;
      Ok (set_pstage 2 (set_pitem 0 (set_pidx 0 (set_pnode (n_children nd) s))))
  | 2 => Ok (set_state S_AC_FINISH (set_acprev (o_state s) s))
  | _ => Err EAssert
  end.

(** ush_autocomp_utils.c:101-124 [ush_autocomp_check_for_next] *)
Definition ush_autocomp_check_for_next (s : st) : res (bool * st) :=
  match o_pstage s with
  | 0 =>
      nd <- getp (hp s) (o_pnode s) ;;
      if length (n_files nd) <=? o_pitem s
      then Ok (true, set_pnode (n_next nd) (set_pitem 0 s)) else Ok (false, s)
  | 1 =>
      nd <- getp (hp s) (o_pnode s) ;;
      if length (n_files nd) <=? o_pitem s
      then Ok (true, set_pnode None (set_pitem 0 s)) else Ok (false, s)
  | 2 => Ok (false, s)
  | _ => Err EAssert
  end.

(** ush_autocomp_utils.c:126-166 [ush_autocomp_process_file_index]; [f] is the
    file ([None] in stage 2). *)
Definition ush_autocomp_process_file_index (f : option file) (s : st) : res st :=
  let printing := fsm_eqb (o_state s) S_AC_PRINT in
  match o_pidx s with
  | 0 =>
      match o_pstage s with
      | 0 | 1 =>
          g <- deref f ;;
          let s := if printing then write_str (f_name g) (o_state s) s else s in
          Ok (set_accand (Some (f_name g)) (set_account (S (o_account s)) (set_pidx 1 s)))
      | 2 =>
          s <- (if printing then n <- deref (o_acname s) ;; Ok (write_str n (o_state s) s)
                else Ok s) ;;
          Ok (set_accand (o_acname s) (set_account (S (o_account s)) (set_pidx 1 s)))
      | _ => Err EAssert
      end
  | 1 =>
      let s := if printing then write_str CRLF (o_state s) s else s in
      Ok (set_pidx 2 s)
  | 2 =>
      match o_pstage s with
      | 0 | 1 => Ok (set_pidx 0 (set_pitem (S (o_pitem s)) s))
      | 2 =>
          nd <- getp (hp s) (o_pnode s) ;;
          Ok (set_pidx 0 (set_pnode (n_next nd) s))
      | _ => Err EAssert
      end
  | _ => Err EAssert
  end.

(** ush_autocomp_utils.c:168-191 [ush_autocomp_process_file_prepare]: returns
    (skip, file) *)
Definition ush_autocomp_process_file_prepare (s : st) : res (bool * option file * st) :=
  '(_, t) <- ac_input s ;;
  match o_pstage s with
  | 0 | 1 =>
      nd <- getp (hp s) (o_pnode s) ;;
      f <- rd (n_files nd) (o_pitem s) ;;
      if ush_utils_startswith (f_name f) t then Ok (false, Some f, s)
      else Ok (true, Some f, set_pidx 0 (set_pitem (S (o_pitem s)) s))
  | 2 =>
      nd <- getp (hp s) (o_pnode s) ;;
      p <- path_of nd ;;
      let name := ush_utils_path_last p in
      let s := set_acname (Some name) s in
      if ush_utils_startswith name t then Ok (false, None, s)
      else Ok (true, None, set_pidx 0 (set_pnode (n_next nd) s))
  | _ => Err EAssert
  end.

(** ush_autocomp_state.c:34-43 [ush_autocomp_state_recall_suffix] *)
Definition ush_autocomp_state_recall_suffix (s : st) : res st :=
  '(off, t) <- ac_input s ;;
  if off + length t <? o_acsuf s then Err EOob
  else
    let so := off + length t - o_acsuf s in
    n <- c_strlen (inb s) so ;;
    if 0 <? n then ush_write_pointer (WIn so) S_READ_CHAR s
    else Ok (write_str CRLF S_AC_PRINT (ush_autocomp_prepare_candidates s)).

(** ush_autocomp_state.c:45-49 [ush_autocomp_state_prepare] *)
Definition ush_autocomp_state_prepare (s : st) : res st :=
  off <- ush_utils_get_last_arg (inb s) ;;
  Ok (set_state S_AC_START (set_acin (Some off) s)).

(** ush_autocomp_state.c:51-57 [ush_autocomp_state_candidates_start] *)
Definition ush_autocomp_state_candidates_start (s : st) : st :=
  set_state S_AC_COUNT (ush_autocomp_prepare_candidates (set_acsuf 0 (set_acprevc 0 s))).

(** ush_autocomp_state.c:59-75 [ush_autocomp_state_candidates_process] *)
Definition ush_autocomp_state_candidates_process (s : st) : res st :=
  match o_pnode s with
  | None => ush_autocomp_check_for_finish s
  | Some _ =>
      '(next, s) <- ush_autocomp_check_for_next s ;;
      if next : bool then Ok s
      else
        '(skip, f, s) <- ush_autocomp_process_file_prepare s ;;
        if skip : bool then Ok s
        else ush_autocomp_process_file_index f s
  end.

(** ush_autocomp_state.c:77-115 [ush_autocomp_state_candidates_finish] *)
Definition ush_autocomp_state_candidates_finish (s : st) : res st :=
  match o_acprev s with
  | S_AC_PRINT => Ok (set_state S_AC_PROMPT s)
  | S_AC_COUNT =>
      match o_account s with
      | 0 => Ok (set_state S_READ_CHAR s)
      | 1 =>
          '(off, t) <- ac_input s ;;
          cand <- deref (o_accand s) ;;
          b <- c_strcpy (inb s) off cand ;;
          n <- c_strlen b 0 ;;
          ush_write_pointer (WIn (off + length t)) S_READ_CHAR (set_inpos n (set_inb b s))
      | _ => ush_autocomp_optimize_continue (set_acsuf 0 s)
      end
  | S_AC_OPTIMISE =>
      if o_account s <? o_acprevc s then
        let p := o_inpos s - 1 in
        b <- wr (inb s) p NUL ;;
        match o_acsuf s with
        | 0 => Err EWrap
        | S k => Ok (set_state S_AC_RECALL_SUFFIX (set_acsuf k (set_inpos p (set_inb b s))))
        end
      else ush_autocomp_optimize_continue s
  | _ => Err EAssert
  end.

(** ush_autocomp.c:34-85 [ush_autocomp_service] *)
Definition ush_autocomp_service (s : st) : res (bool * st) :=
  match o_state s with
  | S_AC_PREPARE => s <- ush_autocomp_state_prepare s ;; Ok (true, s)
  | S_AC_START => Ok (true, ush_autocomp_state_candidates_start s)
  | S_AC_COUNT | S_AC_OPTIMISE | S_AC_PRINT =>
      s <- ush_autocomp_state_candidates_process s ;; Ok (true, s)
  | S_AC_FINISH => s <- ush_autocomp_state_candidates_finish s ;; Ok (true, s)
  | S_AC_PROMPT_PREPARE => Ok (true, write_str CRLF S_AC_PROMPT s)
  | S_AC_PROMPT => Ok (true, ush_prompt_start S_AC_RECALL s)
  | S_AC_RECALL => s <- ush_write_pointer (WIn 0) S_READ_CHAR s ;; Ok (true, s)
  | S_AC_RECALL_SUFFIX => s <- ush_autocomp_state_recall_suffix s ;; Ok (true, s)
  | _ => Ok (false, s)
  end.

(** ** Built-in commands: process services *)

(** [sprintf(output_buffer, "%s", t); ush_write_pointer(self, output_buffer, next)] *)
Definition print_out (t : bytes) (next : fsm) (s : st) : res st :=
  b <- c_strcpy (outb s) 0 t ;; ush_write_pointer WOut next (set_outb b s).

(** commands/ush_cmd_help.c:91 and ush_cmd_ls.c:139, the name column *)
Definition name_column (c : config) (name : bytes) : bytes :=
  fmt_left (cfg_align c) name ++ lit " " ++ sty_yellow c ++ lit "- ".

(** commands/ush_cmd_help.c:64-123 [ush_buildin_cmd_help_service] *)
Definition help_service (s : st) : res st :=
  let c := d_cfg (o_desc s) in
  match o_state s with
  | S_PROCESS_START =>
      match o_pnode s with
      | None => Ok (set_state S_RESET_PROMPT s)
      | Some i =>
          nd <- getn (hp s) i ;;
          if length (n_files nd) <=? o_pitem s then
            Ok (set_pnode (n_next nd) (set_pitem 0 (set_pidx 0 s)))
          else
            f <- rd (n_files nd) (o_pitem s) ;;
            match o_pidx s with
            | 0 =>
                match f_desc f with
                | Some _ =>
                    print_out (name_column c (f_name f)) (o_state s) (set_pidx 1 s)
                | None => print_out (f_name f) (o_state s) (set_pidx 2 s)
                end
            | 1 =>
                d <- deref (f_desc f) ;;
                Ok (set_pidx 2 (write_str d (o_state s) s))
            | 2 =>
                let t := match f_desc f with
                         | Some _ => sty_reset c ++ CRLF
                         | None => CRLF
                         end in
                Ok (set_pitem (S (o_pitem s)) (set_pidx 0 (write_str t (o_state s) s)))
            | _ => Err EAssert
            end
      end
  | _ => Ok s
  end.

(** commands/ush_cmd_ls.c:74-80 *)
Definition ls_dot (c : config) : bytes :=
  lit "d---- " ++ sty_green c ++ lit "." ++ sty_reset c ++ CRLF.
Definition ls_dotdot (c : config) : bytes :=
  lit "d---- " ++ sty_green c ++ lit ".." ++ sty_reset c ++ CRLF.

(** commands/ush_cmd_ls.c:128-132 *)
Definition ls_flag {A} (x : option A) (ch : byte) : byte :=
  match x with Some _ => ch | None => "-"%char end.
Definition ls_flags (f : file) : bytes :=
  ["-"%char; ls_flag (f_get f) "r"%char; ls_flag (f_set f) "w"%char;
   ls_flag (f_exec f) "x"%char; ls_flag (f_help f) "h"%char; SP].

(** commands/ush_cmd_ls.c:61-171 [ush_buildin_cmd_ls_service] *)
Definition ls_service (s : st) : res st :=
  let c := d_cfg (o_desc s) in
  match o_state s with
  | S_PROCESS_START =>
      nd <- getp (hp s) (o_pnode s) ;;
      let t := match n_parent nd with
               | Some _ => ls_dot c ++ ls_dotdot c
               | None => ls_dot c
               end in
      Ok (set_pidx 0 (set_pchild (n_children nd) (write_str t S_PROCESS_SERVICE s)))
  | S_PROCESS_SERVICE =>
      match o_pchild s with
      | None => Ok (set_state S_PROCESS_FINISH (set_pitem 0 (set_pidx 0 s)))
      | Some i =>
          match o_pidx s with
          | 0 => Ok (set_pidx 1 (write_str (lit "d---- " ++ sty_green c) (o_state s) s))
          | 1 =>
              nd <- getn (hp s) i ;;
              p <- path_of nd ;;
              Ok (set_pidx 2 (write_str (ush_utils_path_last p) (o_state s) s))
          | 2 => Ok (set_pidx 3 (write_str (lit "/" ++ sty_reset c ++ CRLF) (o_state s) s))
          | 3 =>
              nd <- getn (hp s) i ;;
              Ok (set_pchild (n_next nd) (set_pidx 0 s))
          | _ => Err EAssert
          end
      end
  | S_PROCESS_FINISH =>
      nd <- getp (hp s) (o_pnode s) ;;
      if length (n_files nd) <=? o_pitem s then Ok (set_state S_RESET_PROMPT s)
      else
        f <- rd (n_files nd) (o_pitem s) ;;
        match o_pidx s with
        | 0 => s <- print_out (ls_flags f) (o_state s) s ;; Ok (set_pidx 1 s)
        | 1 =>
            match f_desc f with
            | Some _ => print_out (name_column c (f_name f)) (o_state s) (set_pidx 2 s)
            | None => print_out (f_name f) (o_state s) (set_pidx 3 s)
            end
        | 2 =>
            d <- deref (f_desc f) ;;
            Ok (set_pidx 3 (write_str d (o_state s) s))
        | 3 =>
            let t := match f_desc f with
                     | Some _ => sty_reset c ++ CRLF
                     | None => CRLF
                     end in
            Ok (set_pitem (S (o_pitem s)) (set_pidx 0 (write_str t (o_state s) s)))
        | _ => Err EAssert
        end
  | _ => Ok s
  end.

(** commands/ush_cmd_cat.c:56-101 [ush_buildin_cmd_cat_service] *)
Definition cat_service (e : env) (s : st) : res st :=
  match o_state s with
  | S_PROCESS_START => Ok (set_state S_PROCESS_SERVICE (set_pitem 1 s))
  | S_PROCESS_SERVICE =>
      if o_argc s <=? o_pitem s then Ok (set_state S_PROCESS_FINISH s)
      else
        args <- ush_parse_get_args s ;;
        off <- rd args (o_pitem s) ;;
        name <- c_str (inb s) off ;;
        r <- ush_file_find_by_name name s ;;
        f <- deref r ;;
        cb <- deref (f_get f) ;;
        '(a, s) <- call_get e cb f s ;;
        match g_ptr a with
        | GUnset => Err EUninit
        | GNull => Err EAssert
        | GData d =>
            Ok (set_pitem (S (o_pitem s))
                  (ush_write_pointer_bin (WStr d) (g_size a) (o_state s) s))
        end
  | S_PROCESS_FINISH => Ok (set_state S_RESET_PROMPT s)
  | _ => Ok s
  end.

(** [self->process_data[offset]] *)
Definition pdata_rd (s : st) (off : nat) : res byte :=
  d <- deref (o_pdata s) ;; rd d off.

(** commands/ush_cmd_xxd.c:86-94, hex columns: [n] columns are left, [off] is the
    offset of the next one, [b] the output buffer. *)
Fixpoint xxd_hex (n off : nat) (s : st) (b : bytes) : res bytes :=
  match n with
  | 0 => Ok b
  | S n' =>
      b <- (if off <? o_pdsize s then
              x <- pdata_rd s off ;;
              l <- c_strlen b 0 ;;
              c_strcpy b l (fmt_hex 2 (N_of_ascii x) ++ lit " ")
            else c_strcat b 0 (lit "   ")) ;;
      xxd_hex n' (S off) s b
  end.

(** commands/ush_cmd_xxd.c:102-115, character columns *)
Fixpoint xxd_chr (n off : nat) (s : st) (b : bytes) : res bytes :=
  match n with
  | 0 => Ok b
  | S n' =>
      b <- (if off <? o_pdsize s then
              x <- pdata_rd s off ;;
              if ush_utils_is_printable x then
                l <- c_strlen b 0 ;; c_strcpy b l [x]
              else c_strcat b 0 (lit ".")
            else c_strcat b 0 (lit " ")) ;;
      xxd_chr n' (S off) s b
  end.

(** commands/ush_cmd_xxd.c:60-145 [ush_buildin_cmd_xxd_service] *)
Definition xxd_service (s : st) : res st :=
  let cols := cfg_cols (d_cfg (o_desc s)) in
  match o_state s with
  | S_PROCESS_START => Ok (set_state S_PROCESS_SERVICE (set_pitem 0 (set_pidx 0 s)))
  | S_PROCESS_SERVICE =>
      match o_pidx s with
      | 0 =>
          s <- print_out (fmt_hex 8 (N.of_nat (o_pitem s)) ++ lit ": ") (o_state s) s ;;
          Ok (set_pidx 1 s)
      | 1 =>
          b <- wr (outb s) 0 NUL ;;
          b <- xxd_hex cols (o_pitem s) s b ;;
          b <- c_strcat b 0 (lit " ") ;;
          s <- ush_write_pointer WOut (o_state s) (set_outb b s) ;;
          Ok (set_pidx 2 s)
      | 2 =>
          b <- wr (outb s) 0 NUL ;;
          b <- xxd_chr cols (o_pitem s) s b ;;
          s <- ush_write_pointer WOut (o_state s) (set_outb b (set_pitem (o_pitem s + cols) s)) ;;
          Ok (set_pidx 3 s)
      | 3 =>
          if o_pdsize s <=? o_pitem s then Ok (write_str CRLF S_PROCESS_FINISH s)
          else Ok (set_pidx 0 (write_str CRLF (o_state s) s))
      | _ => Err EAssert
      end
  | S_PROCESS_FINISH => Ok (set_state S_RESET_PROMPT s)
  | _ => Ok s
  end.

(** ush_process.c:38-62 [ush_process_service] *)
Definition ush_process_service (i : io) (s : st) : res (bool * st) :=
  match o_state s with
  | S_PROCESS_START | S_PROCESS_SERVICE | S_PROCESS_FINISH =>
      match o_pfile s with
      | None => Err EAssert
      | Some f =>
          match f_proc f with
          | None => Ok (true, set_state S_RESET s)
          | Some p =>
              s <- (match p with
                    | PHelp => help_service s
                    | PLs => ls_service s
                    | PCat => cat_service (io_env i) s
                    | PXxd => xxd_service s
                    | PUser n =>
                        do_actions [] (e_proc (io_env i) n (f_name f))
                                   (emit (EvProc n (f_name f)) s)
                    end) ;;
              Ok (true, s)
          end
      end
  | _ => Ok (false, s)
  end.

(** ** ush.c: service, init, deinit *)

(** ush.c:70-95 [ush_service] *)
Definition ush_service (i : io) (s : st) : res (bool * st) :=
  match o_cur s with
  | None => Err EAssert
  | Some _ =>
      '(p, s) <- ush_reset_service s ;;
      if p : bool then Ok (true, s) else
      '(p, s) <- ush_prompt_service s ;;
      if p : bool then Ok (true, s) else
      '(pb, s) <- ush_read_service i s ;;
      if fst pb : bool then Ok (snd pb, s) else
      '(p, s) <- (if cfg_autocomp (d_cfg (o_desc s)) then ush_autocomp_service s
                  else Ok (false, s)) ;;
      if p : bool then Ok (true, s) else
      '(p, s) <- ush_parse_service i s ;;
      if p : bool then Ok (true, s) else
      '(p, s) <- ush_write_service i s ;;
      if p : bool then Ok (true, s) else
      ush_process_service i s
  end.

(** commands/ush_cmd.c:62-125 [g_ush_buildin_commands] *)
Definition cmd_help : file :=
  mkFile (lit "help") (Some (lit "list available commands"))
         (Some (lit "usage: help [file]" ++ CRLF)) (Some XHelp) None None (Some PHelp).
Definition cmd_ls : file :=
  mkFile (lit "ls") (Some (lit "list directory content"))
         (Some (lit "usage: ls [path]" ++ CRLF)) (Some XLs) None None (Some PLs).
Definition cmd_cd : file :=
  mkFile (lit "cd") (Some (lit "change current directory"))
         (Some (lit "usage: cd <path>" ++ CRLF)) (Some XCd) None None None.
Definition cmd_pwd : file :=
  mkFile (lit "pwd") (Some (lit "print current directory"))
         (Some (lit "usage: pwd" ++ CRLF)) (Some XPwd) None None None.
Definition cmd_cat : file :=
  mkFile (lit "cat") (Some (lit "print files content"))
         (Some (lit "usage: cat <files...>" ++ CRLF)) (Some XCat) None None (Some PCat).
Definition cmd_xxd : file :=
  mkFile (lit "xxd") (Some (lit "dump file hex content"))
         (Some (lit "usage: xxd <file>" ++ CRLF)) (Some XXxd) None None (Some PXxd).
Definition cmd_echo : file :=
  mkFile (lit "echo") (Some (lit "print string to file"))
         (Some (lit "usage: echo <string> > <file>" ++ CRLF ++
                lit "       echo [string]" ++ CRLF ++
                lit "       * can be ascii-hex encoded string with \xNN format." ++ CRLF))
         (Some XEcho) None None None.

Definition opt_cmd (b : bool) (f : file) : list file := if b then [f] else [].

Definition buildin_commands (c : config) : list file :=
  opt_cmd (cfg_help c) cmd_help ++ opt_cmd (cfg_ls c) cmd_ls ++ opt_cmd (cfg_cd c) cmd_cd ++
  opt_cmd (cfg_pwd c) cmd_pwd ++ opt_cmd (cfg_cat c) cmd_cat ++
  opt_cmd (cfg_xxd c) cmd_xxd ++ opt_cmd (cfg_echo c) cmd_echo.

(** ush.c:33-60 [ush_init]; [ib] and [ob] are the arrays of the new descriptor.
    The other fields of the object are left as they are. *)
Definition ush_init (d : desc) (ib ob : bytes) (s : st) : res st :=
  _ <- assert_ (0 <? d_insize d) ;;
  _ <- assert_ (4 <=? d_outsize d) ;;
  let s := set_root None (set_outb ob (set_inb ib (set_desc d s))) in
  s <- (if cfg_commands (d_cfg d)
        then '(_, s) <- ush_commands_add (o_buildin s) (buildin_commands (d_cfg d)) s ;; Ok s
        else Ok s) ;;
  Ok (ush_reset s).

(** ush.c:62-68 [ush_deinit]: the tree, then the whole object (including the
    node of the built-in commands) is zeroed. *)
Definition ush_deinit (s : st) : res st :=
  h <- ush_node_deinit_recursive (S (2 * length (hp s))) (hp s) (o_root s) ;;
  h <- setn h (o_buildin s) node_zero ;;
  Ok (st_zero (o_desc s) (o_buildin s) (inb s) (outb s) h (lg s)).

(** ** Histories *)

(** What the application does: call [ush_service], or use the API in between. *)
Inductive op :=
| OpService (i : io)
| OpApi (a : action).

Definition step (o : op) (s : st) : res st :=
  match o with
  | OpService i => '(_, s) <- ush_service i s ;; Ok s
  | OpApi a => do_action [] a s
  end.

Fixpoint run (ops : list op) (s : st) : res st :=
  match ops with
  | [] => Ok s
  | o :: r => s <- step o s ;; run r s
  end.

(** A schedule: only service calls. *)
Definition services (l : list io) : list op := map OpService l.

(** Bytes read and written so far. *)
Definition ins (l : list event) : bytes :=
  flat_map (fun e => match e with EvIn c => [c] | _ => [] end) l.
Definition outs (l : list event) : bytes :=
  flat_map (fun e => match e with EvOut c => [c] | _ => [] end) l.
(** Exec callbacks called so far. *)
Definition execs (l : list event) : list (exec_cb * option bytes * list bytes) :=
  flat_map (fun e => match e with EvExec c f a => [(c, f, a)] | _ => [] end) l.

(** * Types: model of src/inc/ush_types.h, ush_config.h, ush_shell.h, ush_const.h *)
From Verif Require Export Utils.

(** ush_types.h:45-60 [ush_status_t] *)
Inductive status :=
| ST_OK
| ST_NODE_NOT_FOUND
| ST_NODE_WITH_CHILDS
| ST_NODE_WITHOUT_PARENT
| ST_NODE_ALREADY_MOUNTED
| ST_COMMAND_SYNTAX_ERROR
| ST_COMMAND_WRONG_ARGUMENTS
| ST_FILE_NOT_EXECUTABLE
| ST_FILE_NOT_WRITABLE
| ST_FILE_NOT_READABLE
| ST_FILE_NO_HELP
| ST_FILE_NOT_FOUND
| ST_FILE_READ_ONLY.

Definition status_eqb (a b : status) : bool :=
  match a, b with
  | ST_OK, ST_OK
  | ST_NODE_NOT_FOUND, ST_NODE_NOT_FOUND
  | ST_NODE_WITH_CHILDS, ST_NODE_WITH_CHILDS
  | ST_NODE_WITHOUT_PARENT, ST_NODE_WITHOUT_PARENT
  | ST_NODE_ALREADY_MOUNTED, ST_NODE_ALREADY_MOUNTED
  | ST_COMMAND_SYNTAX_ERROR, ST_COMMAND_SYNTAX_ERROR
  | ST_COMMAND_WRONG_ARGUMENTS, ST_COMMAND_WRONG_ARGUMENTS
  | ST_FILE_NOT_EXECUTABLE, ST_FILE_NOT_EXECUTABLE
  | ST_FILE_NOT_WRITABLE, ST_FILE_NOT_WRITABLE
  | ST_FILE_NOT_READABLE, ST_FILE_NOT_READABLE
  | ST_FILE_NO_HELP, ST_FILE_NO_HELP
  | ST_FILE_NOT_FOUND, ST_FILE_NOT_FOUND
  | ST_FILE_READ_ONLY, ST_FILE_READ_ONLY => true
  | _, _ => false
  end.

(** ush_types.h:63-101 [ush_state_t] *)
Inductive fsm :=
| S_RESET | S_RESET_PROMPT
| S_PROMPT_PREFIX | S_PROMPT_HOST | S_PROMPT_SPACE | S_PROMPT_PATH | S_PROMPT_SUFFIX
| S_READ_PREPARE | S_READ_CHAR
| S_PARSE_PREPARE | S_PARSE_SEARCH_ARG | S_PARSE_QUOTE_ARG | S_PARSE_STANDARD_ARG
| S_WRITE_CHAR
| S_PROCESS_START | S_PROCESS_SERVICE | S_PROCESS_FINISH
| S_AC_PREPARE | S_AC_START | S_AC_COUNT | S_AC_OPTIMISE | S_AC_PRINT | S_AC_FINISH
| S_AC_PROMPT_PREPARE | S_AC_PROMPT | S_AC_RECALL | S_AC_RECALL_SUFFIX.

Definition fsm_eqb (a b : fsm) : bool :=
  match a, b with
  | S_RESET, S_RESET | S_RESET_PROMPT, S_RESET_PROMPT
  | S_PROMPT_PREFIX, S_PROMPT_PREFIX | S_PROMPT_HOST, S_PROMPT_HOST
  | S_PROMPT_SPACE, S_PROMPT_SPACE | S_PROMPT_PATH, S_PROMPT_PATH
  | S_PROMPT_SUFFIX, S_PROMPT_SUFFIX
  | S_READ_PREPARE, S_READ_PREPARE | S_READ_CHAR, S_READ_CHAR
  | S_PARSE_PREPARE, S_PARSE_PREPARE | S_PARSE_SEARCH_ARG, S_PARSE_SEARCH_ARG
  | S_PARSE_QUOTE_ARG, S_PARSE_QUOTE_ARG | S_PARSE_STANDARD_ARG, S_PARSE_STANDARD_ARG
  | S_WRITE_CHAR, S_WRITE_CHAR
  | S_PROCESS_START, S_PROCESS_START | S_PROCESS_SERVICE, S_PROCESS_SERVICE
  | S_PROCESS_FINISH, S_PROCESS_FINISH
  | S_AC_PREPARE, S_AC_PREPARE | S_AC_START, S_AC_START | S_AC_COUNT, S_AC_COUNT
  | S_AC_OPTIMISE, S_AC_OPTIMISE | S_AC_PRINT, S_AC_PRINT | S_AC_FINISH, S_AC_FINISH
  | S_AC_PROMPT_PREPARE, S_AC_PROMPT_PREPARE | S_AC_PROMPT, S_AC_PROMPT
  | S_AC_RECALL, S_AC_RECALL | S_AC_RECALL_SUFFIX, S_AC_RECALL_SUFFIX => true
  | _, _ => false
  end.

(** ush_types.h:118 [ush_file_execute_callback]: a pointer to a built-in callback
    (commands/ush_cmd.c:62-125) or to user function number [n]. *)
Inductive exec_cb :=
| XHelp | XLs | XCd | XPwd | XCat | XXxd | XEcho | XUser (n : nat).

(** ush_types.h:129 [ush_file_process_service] *)
Inductive proc_cb :=
| PHelp | PLs | PCat | PXxd | PUser (n : nat).

(** ush_types.h:165-174 [struct ush_file_descriptor]; [None] is NULL.  Getter and
    setter callbacks are user functions identified by a number. *)
Record file := mkFile {
  f_name : bytes;
  f_desc : option bytes;
  f_help : option bytes;
  f_exec : option exec_cb;
  f_get  : option nat;
  f_set  : option nat;
  f_proc : option proc_cb;
}.

(** ush_types.h:184-192 [struct ush_node_object].  [file_list]/[file_list_size] are
    one list (simplification: the size always matches the array). Pointers to
    nodes are indices into the node memory. *)
Record node := mkNode {
  n_files    : list file;
  n_path     : option bytes;
  n_parent   : option nat;
  n_children : option nat;
  n_next     : option nat;
}.

(** A zeroed node object (memset 0 / static storage). *)
Definition node_zero : node := mkNode [] None None None None.

(** ush_config.h: compile-time configuration. [cfg_msg] gives the translation text
    of each status (USH_CONFIG_TRANSLATION_xxx). *)
Record config := mkConfig {
  cfg_styles   : bool;   (* USH_CONFIG_ENABLE_FEATURE_SHELL_STYLES *)
  cfg_autocomp : bool;   (* USH_CONFIG_ENABLE_FEATURE_AUTOCOMPLETE *)
  cfg_commands : bool;   (* USH_CONFIG_ENABLE_FEATURE_COMMANDS *)
  cfg_align    : nat;    (* USH_CONFIG_FILENAME_ALIGN_SPACE *)
  cfg_cols     : nat;    (* USH_CONFIG_CMD_XXD_COLUMNS *)
  cfg_help : bool; cfg_ls : bool; cfg_cd : bool; cfg_pwd : bool;
  cfg_cat : bool; cfg_xxd : bool; cfg_echo : bool;  (* USH_CONFIG_ENABLE_COMMAND_xxx *)
  cfg_error    : bytes;  (* USH_CONFIG_TRANSLATION_ERROR *)
  cfg_msg      : status -> bytes;
}.

(** config/posix/ush_config.h:51-64 *)
Definition posix_msg (s : status) : bytes :=
  match s with
  | ST_OK => lit "ok"
  | ST_NODE_NOT_FOUND => lit "directory not found"
  | ST_NODE_WITH_CHILDS => lit "nested directories exist"
  | ST_NODE_WITHOUT_PARENT => lit "cannot find parent node"
  | ST_NODE_ALREADY_MOUNTED => lit "directory already mounted"
  | ST_COMMAND_SYNTAX_ERROR => lit "syntax error"
  | ST_COMMAND_WRONG_ARGUMENTS => lit "wrong arguments"
  | ST_FILE_NOT_EXECUTABLE => lit "file not executable"
  | ST_FILE_NOT_WRITABLE => lit "file not writable"
  | ST_FILE_NOT_READABLE => lit "file not readable"
  | ST_FILE_NO_HELP => lit "no help available"
  | ST_FILE_NOT_FOUND => lit "file not found"
  | ST_FILE_READ_ONLY => lit "read only file"
  end.

(** config/posix/ush_config.h:36-64 *)
Definition cfg_posix : config :=
  mkConfig true true true 16 8 true true true true true true true (lit "error") posix_msg.

(** tests/func_tests/ush_config.h: same, styles off *)
Definition cfg_test : config :=
  mkConfig false true true 16 8 true true true true true true true (lit "error") posix_msg.

(** ush_utils.c:223-259 [ush_utils_get_status_string] (valid statuses only; the type
    [status] has no out-of-range values). *)
Definition ush_utils_get_status_string (c : config) (s : status) : bytes :=
  match s with
  | ST_OK => cfg_msg c ST_OK
  | _ => cfg_error c ++ lit ": " ++ cfg_msg c s
  end.

(** ush_shell.h:36-68 style macros: empty when styles are disabled. *)
Definition sty (c : config) (code : string) : bytes :=
  if cfg_styles c then ESC :: lit code else [].
Definition sty_reset (c : config) : bytes := sty c "[0m".
Definition sty_green (c : config) : bytes := sty c "[32m".
Definition sty_yellow (c : config) : bytes := sty c "[33m".
Definition sty_magenta (c : config) : bytes := sty c "[35m".

(** ush_types.h:241-251 [struct ush_descriptor]; io callbacks are part of the
    environment (see [io] in Shell.v), buffers are in [st]. *)
Record desc := mkDesc {
  d_insize  : nat;
  d_outsize : nat;
  d_pathmax : nat;
  d_host    : bytes;
  d_exec    : option nat;     (* user function number, file argument NULL *)
  d_cfg     : config;
}.

(** What [write_buf] (ush_types.h:267) points to: into the input buffer, at the
    start of the output buffer, or at constant / user data. *)
Inductive wptr :=
| WIn (off : nat)
| WOut
| WStr (s : bytes).

(** Observable events, in the order they happen. *)
Inductive event :=
| EvIn (c : byte)                                      (* read callback delivered c *)
| EvOut (c : byte)                                     (* write callback accepted c *)
| EvExec (cb : exec_cb) (f : option bytes) (argv : list bytes)
    (* exec callback called; [f] is the file's name, None for the general
       callback of the descriptor (file argument NULL) *)
| EvGet (cb : nat) (f : bytes)                         (* getter callback *)
| EvSet (cb : nat) (f : bytes) (data : bytes)          (* setter callback *)
| EvProc (cb : nat) (f : bytes).                       (* user process callback *)


(** ush_types.h:260-304 [struct ush_object], plus the memory it works on. *)
Record st := mkSt {
  o_desc : desc; (* ush_types.h:261 desc *)
  o_state : fsm; (* 263 state *)
  o_wnext : fsm; (* 264 write_next_state *)
  o_pnext : fsm; (* 265 prompt_next_state *)
  o_wbuf : option wptr; (* 267 write_buf *)
  o_wsize : nat; (* 268 write_size *)
  o_wpos : nat; (* 269 write_pos *)
  o_esc : nat; (* 271 ansi_escape_state *)
  o_inpos : nat; (* 272 in_pos *)
  o_outpos : nat; (* 273 out_pos *)
  o_argc : nat; (* 274 args_count *)
  o_escf : bool; (* 275 escape_flag *)
  o_cmds : option nat; (* 277 commands *)
  o_root : option nat; (* 278 root *)
  o_cur : option nat; (* 279 current_node *)
  o_buildin : nat; (* 281 buildin_commands (its address) *)
  o_pnode : option nat; (* 283 process_node *)
  o_pchild : option nat; (* 284 process_child_node *)
  o_pfile : option file; (* 285 process_file *)
  o_pidx : nat; (* 287 process_index *)
  o_pitem : nat; (* 288 process_index_item *)
  o_pdata : option bytes; (* 289 process_data *)
  o_pdsize : nat; (* 290 process_data_size *)
  o_pstage : nat; (* 291 process_stage *)
  o_acprev : fsm; (* 294 autocomp_prev_state *)
  o_acin : option nat; (* 296 autocomp_input (offset in the input buffer) *)
  o_accand : option bytes; (* 297 autocomp_candidate_name *)
  o_acname : option bytes; (* 298 autocomp_name *)
  o_account : nat; (* 300 autocomp_count *)
  o_acprevc : nat; (* 301 autocomp_prev_count *)
  o_acsuf : nat; (* 302 autocomp_suffix_len *)
  inb : bytes; (* array behind desc->input_buffer *)
  outb : bytes; (* array behind desc->output_buffer *)
  hp : list node; (* all node objects of the program *)
  lg : list event; (* observable events so far, oldest first *)
}.

(** Field updates ([self->f = v]). *)
Definition set_desc (v : desc) (s : st) : st :=
  mkSt v (o_state s) (o_wnext s) (o_pnext s) (o_wbuf s) (o_wsize s) (o_wpos s) (o_esc s) (o_inpos s) (o_outpos s) (o_argc s) (o_escf s) (o_cmds s) (o_root s) (o_cur s) (o_buildin s) (o_pnode s) (o_pchild s) (o_pfile s) (o_pidx s) (o_pitem s) (o_pdata s) (o_pdsize s) (o_pstage s) (o_acprev s) (o_acin s) (o_accand s) (o_acname s) (o_account s) (o_acprevc s) (o_acsuf s) (inb s) (outb s) (hp s) (lg s).
Definition set_state (v : fsm) (s : st) : st :=
  mkSt (o_desc s) v (o_wnext s) (o_pnext s) (o_wbuf s) (o_wsize s) (o_wpos s) (o_esc s) (o_inpos s) (o_outpos s) (o_argc s) (o_escf s) (o_cmds s) (o_root s) (o_cur s) (o_buildin s) (o_pnode s) (o_pchild s) (o_pfile s) (o_pidx s) (o_pitem s) (o_pdata s) (o_pdsize s) (o_pstage s) (o_acprev s) (o_acin s) (o_accand s) (o_acname s) (o_account s) (o_acprevc s) (o_acsuf s) (inb s) (outb s) (hp s) (lg s).
Definition set_wnext (v : fsm) (s : st) : st :=
  mkSt (o_desc s) (o_state s) v (o_pnext s) (o_wbuf s) (o_wsize s) (o_wpos s) (o_esc s) (o_inpos s) (o_outpos s) (o_argc s) (o_escf s) (o_cmds s) (o_root s) (o_cur s) (o_buildin s) (o_pnode s) (o_pchild s) (o_pfile s) (o_pidx s) (o_pitem s) (o_pdata s) (o_pdsize s) (o_pstage s) (o_acprev s) (o_acin s) (o_accand s) (o_acname s) (o_account s) (o_acprevc s) (o_acsuf s) (inb s) (outb s) (hp s) (lg s).
Definition set_pnext (v : fsm) (s : st) : st :=
  mkSt (o_desc s) (o_state s) (o_wnext s) v (o_wbuf s) (o_wsize s) (o_wpos s) (o_esc s) (o_inpos s) (o_outpos s) (o_argc s) (o_escf s) (o_cmds s) (o_root s) (o_cur s) (o_buildin s) (o_pnode s) (o_pchild s) (o_pfile s) (o_pidx s) (o_pitem s) (o_pdata s) (o_pdsize s) (o_pstage s) (o_acprev s) (o_acin s) (o_accand s) (o_acname s) (o_account s) (o_acprevc s) (o_acsuf s) (inb s) (outb s) (hp s) (lg s).
Definition set_wbuf (v : option wptr) (s : st) : st :=
  mkSt (o_desc s) (o_state s) (o_wnext s) (o_pnext s) v (o_wsize s) (o_wpos s) (o_esc s) (o_inpos s) (o_outpos s) (o_argc s) (o_escf s) (o_cmds s) (o_root s) (o_cur s) (o_buildin s) (o_pnode s) (o_pchild s) (o_pfile s) (o_pidx s) (o_pitem s) (o_pdata s) (o_pdsize s) (o_pstage s) (o_acprev s) (o_acin s) (o_accand s) (o_acname s) (o_account s) (o_acprevc s) (o_acsuf s) (inb s) (outb s) (hp s) (lg s).
Definition set_wsize (v : nat) (s : st) : st :=
  mkSt (o_desc s) (o_state s) (o_wnext s) (o_pnext s) (o_wbuf s) v (o_wpos s) (o_esc s) (o_inpos s) (o_outpos s) (o_argc s) (o_escf s) (o_cmds s) (o_root s) (o_cur s) (o_buildin s) (o_pnode s) (o_pchild s) (o_pfile s) (o_pidx s) (o_pitem s) (o_pdata s) (o_pdsize s) (o_pstage s) (o_acprev s) (o_acin s) (o_accand s) (o_acname s) (o_account s) (o_acprevc s) (o_acsuf s) (inb s) (outb s) (hp s) (lg s).
Definition set_wpos (v : nat) (s : st) : st :=
  mkSt (o_desc s) (o_state s) (o_wnext s) (o_pnext s) (o_wbuf s) (o_wsize s) v (o_esc s) (o_inpos s) (o_outpos s) (o_argc s) (o_escf s) (o_cmds s) (o_root s) (o_cur s) (o_buildin s) (o_pnode s) (o_pchild s) (o_pfile s) (o_pidx s) (o_pitem s) (o_pdata s) (o_pdsize s) (o_pstage s) (o_acprev s) (o_acin s) (o_accand s) (o_acname s) (o_account s) (o_acprevc s) (o_acsuf s) (inb s) (outb s) (hp s) (lg s).
Definition set_esc (v : nat) (s : st) : st :=
  mkSt (o_desc s) (o_state s) (o_wnext s) (o_pnext s) (o_wbuf s) (o_wsize s) (o_wpos s) v (o_inpos s) (o_outpos s) (o_argc s) (o_escf s) (o_cmds s) (o_root s) (o_cur s) (o_buildin s) (o_pnode s) (o_pchild s) (o_pfile s) (o_pidx s) (o_pitem s) (o_pdata s) (o_pdsize s) (o_pstage s) (o_acprev s) (o_acin s) (o_accand s) (o_acname s) (o_account s) (o_acprevc s) (o_acsuf s) (inb s) (outb s) (hp s) (lg s).
Definition set_inpos (v : nat) (s : st) : st :=
  mkSt (o_desc s) (o_state s) (o_wnext s) (o_pnext s) (o_wbuf s) (o_wsize s) (o_wpos s) (o_esc s) v (o_outpos s) (o_argc s) (o_escf s) (o_cmds s) (o_root s) (o_cur s) (o_buildin s) (o_pnode s) (o_pchild s) (o_pfile s) (o_pidx s) (o_pitem s) (o_pdata s) (o_pdsize s) (o_pstage s) (o_acprev s) (o_acin s) (o_accand s) (o_acname s) (o_account s) (o_acprevc s) (o_acsuf s) (inb s) (outb s) (hp s) (lg s).
Definition set_outpos (v : nat) (s : st) : st :=
  mkSt (o_desc s) (o_state s) (o_wnext s) (o_pnext s) (o_wbuf s) (o_wsize s) (o_wpos s) (o_esc s) (o_inpos s) v (o_argc s) (o_escf s) (o_cmds s) (o_root s) (o_cur s) (o_buildin s) (o_pnode s) (o_pchild s) (o_pfile s) (o_pidx s) (o_pitem s) (o_pdata s) (o_pdsize s) (o_pstage s) (o_acprev s) (o_acin s) (o_accand s) (o_acname s) (o_account s) (o_acprevc s) (o_acsuf s) (inb s) (outb s) (hp s) (lg s).
Definition set_argc (v : nat) (s : st) : st :=
  mkSt (o_desc s) (o_state s) (o_wnext s) (o_pnext s) (o_wbuf s) (o_wsize s) (o_wpos s) (o_esc s) (o_inpos s) (o_outpos s) v (o_escf s) (o_cmds s) (o_root s) (o_cur s) (o_buildin s) (o_pnode s) (o_pchild s) (o_pfile s) (o_pidx s) (o_pitem s) (o_pdata s) (o_pdsize s) (o_pstage s) (o_acprev s) (o_acin s) (o_accand s) (o_acname s) (o_account s) (o_acprevc s) (o_acsuf s) (inb s) (outb s) (hp s) (lg s).
Definition set_escf (v : bool) (s : st) : st :=
  mkSt (o_desc s) (o_state s) (o_wnext s) (o_pnext s) (o_wbuf s) (o_wsize s) (o_wpos s) (o_esc s) (o_inpos s) (o_outpos s) (o_argc s) v (o_cmds s) (o_root s) (o_cur s) (o_buildin s) (o_pnode s) (o_pchild s) (o_pfile s) (o_pidx s) (o_pitem s) (o_pdata s) (o_pdsize s) (o_pstage s) (o_acprev s) (o_acin s) (o_accand s) (o_acname s) (o_account s) (o_acprevc s) (o_acsuf s) (inb s) (outb s) (hp s) (lg s).
Definition set_cmds (v : option nat) (s : st) : st :=
  mkSt (o_desc s) (o_state s) (o_wnext s) (o_pnext s) (o_wbuf s) (o_wsize s) (o_wpos s) (o_esc s) (o_inpos s) (o_outpos s) (o_argc s) (o_escf s) v (o_root s) (o_cur s) (o_buildin s) (o_pnode s) (o_pchild s) (o_pfile s) (o_pidx s) (o_pitem s) (o_pdata s) (o_pdsize s) (o_pstage s) (o_acprev s) (o_acin s) (o_accand s) (o_acname s) (o_account s) (o_acprevc s) (o_acsuf s) (inb s) (outb s) (hp s) (lg s).
Definition set_root (v : option nat) (s : st) : st :=
  mkSt (o_desc s) (o_state s) (o_wnext s) (o_pnext s) (o_wbuf s) (o_wsize s) (o_wpos s) (o_esc s) (o_inpos s) (o_outpos s) (o_argc s) (o_escf s) (o_cmds s) v (o_cur s) (o_buildin s) (o_pnode s) (o_pchild s) (o_pfile s) (o_pidx s) (o_pitem s) (o_pdata s) (o_pdsize s) (o_pstage s) (o_acprev s) (o_acin s) (o_accand s) (o_acname s) (o_account s) (o_acprevc s) (o_acsuf s) (inb s) (outb s) (hp s) (lg s).
Definition set_cur (v : option nat) (s : st) : st :=
  mkSt (o_desc s) (o_state s) (o_wnext s) (o_pnext s) (o_wbuf s) (o_wsize s) (o_wpos s) (o_esc s) (o_inpos s) (o_outpos s) (o_argc s) (o_escf s) (o_cmds s) (o_root s) v (o_buildin s) (o_pnode s) (o_pchild s) (o_pfile s) (o_pidx s) (o_pitem s) (o_pdata s) (o_pdsize s) (o_pstage s) (o_acprev s) (o_acin s) (o_accand s) (o_acname s) (o_account s) (o_acprevc s) (o_acsuf s) (inb s) (outb s) (hp s) (lg s).
Definition set_buildin (v : nat) (s : st) : st :=
  mkSt (o_desc s) (o_state s) (o_wnext s) (o_pnext s) (o_wbuf s) (o_wsize s) (o_wpos s) (o_esc s) (o_inpos s) (o_outpos s) (o_argc s) (o_escf s) (o_cmds s) (o_root s) (o_cur s) v (o_pnode s) (o_pchild s) (o_pfile s) (o_pidx s) (o_pitem s) (o_pdata s) (o_pdsize s) (o_pstage s) (o_acprev s) (o_acin s) (o_accand s) (o_acname s) (o_account s) (o_acprevc s) (o_acsuf s) (inb s) (outb s) (hp s) (lg s).
Definition set_pnode (v : option nat) (s : st) : st :=
  mkSt (o_desc s) (o_state s) (o_wnext s) (o_pnext s) (o_wbuf s) (o_wsize s) (o_wpos s) (o_esc s) (o_inpos s) (o_outpos s) (o_argc s) (o_escf s) (o_cmds s) (o_root s) (o_cur s) (o_buildin s) v (o_pchild s) (o_pfile s) (o_pidx s) (o_pitem s) (o_pdata s) (o_pdsize s) (o_pstage s) (o_acprev s) (o_acin s) (o_accand s) (o_acname s) (o_account s) (o_acprevc s) (o_acsuf s) (inb s) (outb s) (hp s) (lg s).
Definition set_pchild (v : option nat) (s : st) : st :=
  mkSt (o_desc s) (o_state s) (o_wnext s) (o_pnext s) (o_wbuf s) (o_wsize s) (o_wpos s) (o_esc s) (o_inpos s) (o_outpos s) (o_argc s) (o_escf s) (o_cmds s) (o_root s) (o_cur s) (o_buildin s) (o_pnode s) v (o_pfile s) (o_pidx s) (o_pitem s) (o_pdata s) (o_pdsize s) (o_pstage s) (o_acprev s) (o_acin s) (o_accand s) (o_acname s) (o_account s) (o_acprevc s) (o_acsuf s) (inb s) (outb s) (hp s) (lg s).
Definition set_pfile (v : option file) (s : st) : st :=
  mkSt (o_desc s) (o_state s) (o_wnext s) (o_pnext s) (o_wbuf s) (o_wsize s) (o_wpos s) (o_esc s) (o_inpos s) (o_outpos s) (o_argc s) (o_escf s) (o_cmds s) (o_root s) (o_cur s) (o_buildin s) (o_pnode s) (o_pchild s) v (o_pidx s) (o_pitem s) (o_pdata s) (o_pdsize s) (o_pstage s) (o_acprev s) (o_acin s) (o_accand s) (o_acname s) (o_account s) (o_acprevc s) (o_acsuf s) (inb s) (outb s) (hp s) (lg s).
Definition set_pidx (v : nat) (s : st) : st :=
  mkSt (o_desc s) (o_state s) (o_wnext s) (o_pnext s) (o_wbuf s) (o_wsize s) (o_wpos s) (o_esc s) (o_inpos s) (o_outpos s) (o_argc s) (o_escf s) (o_cmds s) (o_root s) (o_cur s) (o_buildin s) (o_pnode s) (o_pchild s) (o_pfile s) v (o_pitem s) (o_pdata s) (o_pdsize s) (o_pstage s) (o_acprev s) (o_acin s) (o_accand s) (o_acname s) (o_account s) (o_acprevc s) (o_acsuf s) (inb s) (outb s) (hp s) (lg s).
Definition set_pitem (v : nat) (s : st) : st :=
  mkSt (o_desc s) (o_state s) (o_wnext s) (o_pnext s) (o_wbuf s) (o_wsize s) (o_wpos s) (o_esc s) (o_inpos s) (o_outpos s) (o_argc s) (o_escf s) (o_cmds s) (o_root s) (o_cur s) (o_buildin s) (o_pnode s) (o_pchild s) (o_pfile s) (o_pidx s) v (o_pdata s) (o_pdsize s) (o_pstage s) (o_acprev s) (o_acin s) (o_accand s) (o_acname s) (o_account s) (o_acprevc s) (o_acsuf s) (inb s) (outb s) (hp s) (lg s).
Definition set_pdata (v : option bytes) (s : st) : st :=
  mkSt (o_desc s) (o_state s) (o_wnext s) (o_pnext s) (o_wbuf s) (o_wsize s) (o_wpos s) (o_esc s) (o_inpos s) (o_outpos s) (o_argc s) (o_escf s) (o_cmds s) (o_root s) (o_cur s) (o_buildin s) (o_pnode s) (o_pchild s) (o_pfile s) (o_pidx s) (o_pitem s) v (o_pdsize s) (o_pstage s) (o_acprev s) (o_acin s) (o_accand s) (o_acname s) (o_account s) (o_acprevc s) (o_acsuf s) (inb s) (outb s) (hp s) (lg s).
Definition set_pdsize (v : nat) (s : st) : st :=
  mkSt (o_desc s) (o_state s) (o_wnext s) (o_pnext s) (o_wbuf s) (o_wsize s) (o_wpos s) (o_esc s) (o_inpos s) (o_outpos s) (o_argc s) (o_escf s) (o_cmds s) (o_root s) (o_cur s) (o_buildin s) (o_pnode s) (o_pchild s) (o_pfile s) (o_pidx s) (o_pitem s) (o_pdata s) v (o_pstage s) (o_acprev s) (o_acin s) (o_accand s) (o_acname s) (o_account s) (o_acprevc s) (o_acsuf s) (inb s) (outb s) (hp s) (lg s).
Definition set_pstage (v : nat) (s : st) : st :=
  mkSt (o_desc s) (o_state s) (o_wnext s) (o_pnext s) (o_wbuf s) (o_wsize s) (o_wpos s) (o_esc s) (o_inpos s) (o_outpos s) (o_argc s) (o_escf s) (o_cmds s) (o_root s) (o_cur s) (o_buildin s) (o_pnode s) (o_pchild s) (o_pfile s) (o_pidx s) (o_pitem s) (o_pdata s) (o_pdsize s) v (o_acprev s) (o_acin s) (o_accand s) (o_acname s) (o_account s) (o_acprevc s) (o_acsuf s) (inb s) (outb s) (hp s) (lg s).
Definition set_acprev (v : fsm) (s : st) : st :=
  mkSt (o_desc s) (o_state s) (o_wnext s) (o_pnext s) (o_wbuf s) (o_wsize s) (o_wpos s) (o_esc s) (o_inpos s) (o_outpos s) (o_argc s) (o_escf s) (o_cmds s) (o_root s) (o_cur s) (o_buildin s) (o_pnode s) (o_pchild s) (o_pfile s) (o_pidx s) (o_pitem s) (o_pdata s) (o_pdsize s) (o_pstage s) v (o_acin s) (o_accand s) (o_acname s) (o_account s) (o_acprevc s) (o_acsuf s) (inb s) (outb s) (hp s) (lg s).
Definition set_acin (v : option nat) (s : st) : st :=
  mkSt (o_desc s) (o_state s) (o_wnext s) (o_pnext s) (o_wbuf s) (o_wsize s) (o_wpos s) (o_esc s) (o_inpos s) (o_outpos s) (o_argc s) (o_escf s) (o_cmds s) (o_root s) (o_cur s) (o_buildin s) (o_pnode s) (o_pchild s) (o_pfile s) (o_pidx s) (o_pitem s) (o_pdata s) (o_pdsize s) (o_pstage s) (o_acprev s) v (o_accand s) (o_acname s) (o_account s) (o_acprevc s) (o_acsuf s) (inb s) (outb s) (hp s) (lg s).
Definition set_accand (v : option bytes) (s : st) : st :=
  mkSt (o_desc s) (o_state s) (o_wnext s) (o_pnext s) (o_wbuf s) (o_wsize s) (o_wpos s) (o_esc s) (o_inpos s) (o_outpos s) (o_argc s) (o_escf s) (o_cmds s) (o_root s) (o_cur s) (o_buildin s) (o_pnode s) (o_pchild s) (o_pfile s) (o_pidx s) (o_pitem s) (o_pdata s) (o_pdsize s) (o_pstage s) (o_acprev s) (o_acin s) v (o_acname s) (o_account s) (o_acprevc s) (o_acsuf s) (inb s) (outb s) (hp s) (lg s).
Definition set_acname (v : option bytes) (s : st) : st :=
  mkSt (o_desc s) (o_state s) (o_wnext s) (o_pnext s) (o_wbuf s) (o_wsize s) (o_wpos s) (o_esc s) (o_inpos s) (o_outpos s) (o_argc s) (o_escf s) (o_cmds s) (o_root s) (o_cur s) (o_buildin s) (o_pnode s) (o_pchild s) (o_pfile s) (o_pidx s) (o_pitem s) (o_pdata s) (o_pdsize s) (o_pstage s) (o_acprev s) (o_acin s) (o_accand s) v (o_account s) (o_acprevc s) (o_acsuf s) (inb s) (outb s) (hp s) (lg s).
Definition set_account (v : nat) (s : st) : st :=
  mkSt (o_desc s) (o_state s) (o_wnext s) (o_pnext s) (o_wbuf s) (o_wsize s) (o_wpos s) (o_esc s) (o_inpos s) (o_outpos s) (o_argc s) (o_escf s) (o_cmds s) (o_root s) (o_cur s) (o_buildin s) (o_pnode s) (o_pchild s) (o_pfile s) (o_pidx s) (o_pitem s) (o_pdata s) (o_pdsize s) (o_pstage s) (o_acprev s) (o_acin s) (o_accand s) (o_acname s) v (o_acprevc s) (o_acsuf s) (inb s) (outb s) (hp s) (lg s).
Definition set_acprevc (v : nat) (s : st) : st :=
  mkSt (o_desc s) (o_state s) (o_wnext s) (o_pnext s) (o_wbuf s) (o_wsize s) (o_wpos s) (o_esc s) (o_inpos s) (o_outpos s) (o_argc s) (o_escf s) (o_cmds s) (o_root s) (o_cur s) (o_buildin s) (o_pnode s) (o_pchild s) (o_pfile s) (o_pidx s) (o_pitem s) (o_pdata s) (o_pdsize s) (o_pstage s) (o_acprev s) (o_acin s) (o_accand s) (o_acname s) (o_account s) v (o_acsuf s) (inb s) (outb s) (hp s) (lg s).
Definition set_acsuf (v : nat) (s : st) : st :=
  mkSt (o_desc s) (o_state s) (o_wnext s) (o_pnext s) (o_wbuf s) (o_wsize s) (o_wpos s) (o_esc s) (o_inpos s) (o_outpos s) (o_argc s) (o_escf s) (o_cmds s) (o_root s) (o_cur s) (o_buildin s) (o_pnode s) (o_pchild s) (o_pfile s) (o_pidx s) (o_pitem s) (o_pdata s) (o_pdsize s) (o_pstage s) (o_acprev s) (o_acin s) (o_accand s) (o_acname s) (o_account s) (o_acprevc s) v (inb s) (outb s) (hp s) (lg s).
Definition set_inb (v : bytes) (s : st) : st :=
  mkSt (o_desc s) (o_state s) (o_wnext s) (o_pnext s) (o_wbuf s) (o_wsize s) (o_wpos s) (o_esc s) (o_inpos s) (o_outpos s) (o_argc s) (o_escf s) (o_cmds s) (o_root s) (o_cur s) (o_buildin s) (o_pnode s) (o_pchild s) (o_pfile s) (o_pidx s) (o_pitem s) (o_pdata s) (o_pdsize s) (o_pstage s) (o_acprev s) (o_acin s) (o_accand s) (o_acname s) (o_account s) (o_acprevc s) (o_acsuf s) v (outb s) (hp s) (lg s).
Definition set_outb (v : bytes) (s : st) : st :=
  mkSt (o_desc s) (o_state s) (o_wnext s) (o_pnext s) (o_wbuf s) (o_wsize s) (o_wpos s) (o_esc s) (o_inpos s) (o_outpos s) (o_argc s) (o_escf s) (o_cmds s) (o_root s) (o_cur s) (o_buildin s) (o_pnode s) (o_pchild s) (o_pfile s) (o_pidx s) (o_pitem s) (o_pdata s) (o_pdsize s) (o_pstage s) (o_acprev s) (o_acin s) (o_accand s) (o_acname s) (o_account s) (o_acprevc s) (o_acsuf s) (inb s) v (hp s) (lg s).
Definition set_hp (v : list node) (s : st) : st :=
  mkSt (o_desc s) (o_state s) (o_wnext s) (o_pnext s) (o_wbuf s) (o_wsize s) (o_wpos s) (o_esc s) (o_inpos s) (o_outpos s) (o_argc s) (o_escf s) (o_cmds s) (o_root s) (o_cur s) (o_buildin s) (o_pnode s) (o_pchild s) (o_pfile s) (o_pidx s) (o_pitem s) (o_pdata s) (o_pdsize s) (o_pstage s) (o_acprev s) (o_acin s) (o_accand s) (o_acname s) (o_account s) (o_acprevc s) (o_acsuf s) (inb s) (outb s) v (lg s).
Definition set_lg (v : list event) (s : st) : st :=
  mkSt (o_desc s) (o_state s) (o_wnext s) (o_pnext s) (o_wbuf s) (o_wsize s) (o_wpos s) (o_esc s) (o_inpos s) (o_outpos s) (o_argc s) (o_escf s) (o_cmds s) (o_root s) (o_cur s) (o_buildin s) (o_pnode s) (o_pchild s) (o_pfile s) (o_pidx s) (o_pitem s) (o_pdata s) (o_pdsize s) (o_pstage s) (o_acprev s) (o_acin s) (o_accand s) (o_acname s) (o_account s) (o_acprevc s) (o_acsuf s) (inb s) (outb s) (hp s) v.

(** Append an event to the log. *)
Definition emit (e : event) (s : st) : st := set_lg (lg s ++ [e]) s.

(** A zeroed object (ush.c:67 memset, or static storage) over given memory; the
    [desc] field is kept (simplification: in C it becomes NULL). *)
Definition st_zero (d : desc) (buildin : nat) (ib ob : bytes) (h : list node) (l : list event) : st :=
  mkSt d S_RESET S_RESET S_RESET None 0 0 0 0 0 0 false None None None buildin
       None None None 0 0 None 0 0 S_RESET None None None 0 0 0 ib ob h l.

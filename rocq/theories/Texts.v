(** * Texts: the messages of the shipped configuration, as a user sees them.

    Specification for C42, copied by hand from src/config/posix/ush_config.h; it uses nothing of
    the model but the names of the statuses. *)
From Verif Require Import Types.

(** The texts, as a user sees them. *)
Definition shipped : list (status * bytes) :=
  [ (ST_OK, lit "ok");
    (ST_NODE_NOT_FOUND, lit "error: directory not found");
    (ST_NODE_WITH_CHILDS, lit "error: nested directories exist");
    (ST_NODE_WITHOUT_PARENT, lit "error: cannot find parent node");
    (ST_NODE_ALREADY_MOUNTED, lit "error: directory already mounted");
    (ST_COMMAND_SYNTAX_ERROR, lit "error: syntax error");
    (ST_COMMAND_WRONG_ARGUMENTS, lit "error: wrong arguments");
    (ST_FILE_NOT_EXECUTABLE, lit "error: file not executable");
    (ST_FILE_NOT_WRITABLE, lit "error: file not writable");
    (ST_FILE_NOT_READABLE, lit "error: file not readable");
    (ST_FILE_NO_HELP, lit "error: no help available");
    (ST_FILE_NOT_FOUND, lit "error: file not found");
    (ST_FILE_READ_ONLY, lit "error: read only file") ].

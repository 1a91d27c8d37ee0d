{"id": "C01", "title": "Typing never corrupts memory", "statement": "With an input buffer of at least 2 bytes, an output buffer large enough for every listed name, a path_max_length that can hold any typed word joined to any mounted path, getters that deliver their data without printing and without making readable names unreadable, and application callbacks (getters included) that print or make correct calls to mount, unmount, register, remove and change the directory (leaving a current directory), no sequence of received bytes makes ush_service read or write outside its buffers, dereference a bad pointer, fail an assertion or loop forever, provided that whenever TAB is received the line has room for the completion (C30; two bytes left by the line and by the text before the last word with the longest candidate are enough). After a single TAB without that room the shell never polls again (it fails, or in a rare case works for ever), whatever came before. (With a 1-byte input buffer, which ush_init accepts, the newline is lost and parsing runs off the buffer.)", "quantifier": "every byte sequence received, every write/read readiness schedule, every buffer size, every application whose callbacks may depend on all bytes received before", "why_tests_cant": "tests try a few short lines with 256-byte buffers; the claim is about all byte sequences and all sizes, including wrap-around of the buffer", "anchors": ["src/src/ush_read_char.c: ush_read_char", "src/src/ush_read_utils.c: ush_read_char_by_escape_state", "src/src/ush_parse_char.c: ush_parse_char", "src/src/ush_parse_utils.c: ush_parse_char_standard", "src/src/ush.c: ush_service"]}
{"id": "C02", "title": "Line editing", "statement": "As long as the line fits the input buffer, after any sequence of printable bytes and backspaces the pending line is exactly the list of typed bytes with each backspace removing the last remaining byte (and doing nothing on an empty line); the echo sent back is the byte itself, or BS SP BS for an effective backspace, or nothing for a backspace on an empty line.", "quantifier": "every sequence of keys whose line fits the buffer", "why_tests_cant": "interleavings of typing and deleting are unbounded", "anchors": ["src/src/ush_read_char.c: ush_read_char", "src/src/ush_read_utils.c: ush_read_echo_service, ush_read_char_by_escape_state"]}
{"id": "C03", "title": "Argument splitting", "statement": "The argv handed to a command is exactly the tokenisation of the line: blanks separate arguments, double quotes group (and may be empty), backslash takes the next byte literally except that \\x is kept as the two bytes \\x, quoting state never survives the end of line. Splitting is done in place inside the input buffer and never needs more room than the line itself.", "quantifier": "every line without NUL bytes that fits the buffer", "why_tests_cant": "quoting and escaping interact over arbitrarily long lines", "anchors": ["src/src/ush_parse_utils.c: ush_parse_char_standard, ush_parse_get_args, ush_parse_start", "src/src/ush_parse_char.c: ush_parse_char"]}
{"id": "C04", "title": "One line, one execution", "statement": "Each received end-of-line (CR or LF) leads to at most one call of a file's exec callback, of the file that the first argument names, with argc/argv of that line, and an empty or blank line leads to none; no other byte ever triggers an execution.", "quantifier": "every byte sequence, every schedule", "why_tests_cant": "needs to hold over every history of keys and service calls", "anchors": ["src/src/ush_parse.c: ush_parse_finish", "src/src/ush_parse_char.c: ush_parse_char"]}
{"id": "C05", "title": "Output survives back-pressure", "statement": "A text handed to the shell for printing is delivered to the write callback byte by byte, each byte exactly once and in order, for every pattern of the write callback returning 0; a refused byte is offered again and nothing else changes meanwhile; only after the last byte does the shell move on.", "quantifier": "every text and every sequence of write-callback results", "why_tests_cant": "the number of write-readiness schedules is unbounded", "anchors": ["src/src/ush_write_utils.c: ush_write_char, ush_write_pointer_bin", "src/src/ush_write.c: ush_write_service"]}
{"id": "C06", "title": "Schedule independence", "statement": "What the shell does depends only on the bytes it reads and on what callbacks answer (which may depend on everything that has happened so far), not on how often ush_service is called or how often the interface is not ready: a service call that finds no input or a busy output changes nothing, so any two schedules that deliver the same input go through the same states.", "quantifier": "every pair of schedules", "why_tests_cant": "schedules are infinite in number", "anchors": ["src/src/ush.c: ush_service", "src/src/ush_read.c: ush_read_service", "src/src/ush_write_utils.c: ush_write_char"]}
{"id": "C07", "title": "Meaning of the ush_service result", "statement": "ush_service returns false exactly when it has just prepared for a new line or when it polled the input and there was no byte (or when the object is in no serviceable state); in every other case it returns true. Hence the documented loop 'call until false' stops only when all pending output has been written.", "quantifier": "every reachable shell state and every I/O answer", "why_tests_cant": "quantifies over all internal states", "anchors": ["src/src/ush.c: ush_service", "src/src/ush_read.c: ush_read_service"]}
{"id": "C08", "title": "The shell always gets back to the prompt", "statement": "Wherever a session has got to, under any schedule (in the middle of a listing, a dump, a prompt, a line), the shell reaches the state where it polls for input after finitely many ush_service calls that find the write callback ready, without any further input byte; the number of calls needed depends only on the state, and so does the state reached.", "quantifier": "every state reached by a session within the limits of C41, every schedule before and after", "why_tests_cant": "liveness over unbounded file contents, directory sizes and lines", "anchors": ["src/src/ush.c: ush_service", "src/src/ush_process.c: ush_process_service", "src/src/ush_autocomp_state.c: ush_autocomp_state_candidates_process"]}
{"id": "C09", "title": "Prompt shows where you are", "statement": "After every reset, finished command, printed message or candidate list the shell prints exactly '[' host ' ' last-component-of-cwd ']$ ' (with the style codes when enabled; '/' for the root) before it reads again.", "quantifier": "every hostname, every current directory, every schedule", "why_tests_cant": "all paths and hosts", "anchors": ["src/src/ush_prompt.c: ush_prompt_service, ush_prompt_start", "src/src/ush_utils.c: ush_utils_path_last"]}
{"id": "C10", "title": "Path collapsing", "statement": "Collapsing an absolute path without empty components yields the standard normal form: '.' disappears, '..' removes the previous component and is dropped at the root, the result starts with '/', contains no '.' or '..' component, and collapsing again changes nothing. The output is never longer than the input (except that an empty result becomes '/').", "quantifier": "every path string", "why_tests_cant": "paths are unbounded", "anchors": ["src/src/ush_utils.c: ush_utils_get_collapse_path, ush_utils_get_path_levels_count"]}
{"id": "C11", "title": "Absolute path resolution", "statement": "ush_node_get_absolute_path turns a relative path into the normal form of cwd/path and an absolute one into its own normal form, ignoring one trailing slash; it does not look at the mounted tree.", "quantifier": "every current directory and every input path that fits path_max_length", "why_tests_cant": "paths are unbounded", "anchors": ["src/src/ush_node.c: ush_node_get_absolute_path"]}
{"id": "C12", "title": "Path helper functions", "statement": "For an absolute path with components c1..cn: the level count is n, the level-k prefix is /c1/../ck, the upper path is /c1/../c(n-1) ('/' for n=1, empty for '/'), the last part is cn, and joining the upper path with the last part gives the path back.", "quantifier": "every component list and every level", "why_tests_cant": "paths are unbounded", "anchors": ["src/src/ush_utils.c: ush_utils_get_path_levels_count, ush_utils_get_path_level, ush_utils_path_upper, ush_utils_path_last, ush_utils_join_path"]}
{"id": "C13", "title": "Mounting", "statement": "Mounting a fresh node at an absolute path returns ALREADY_MOUNTED if that path is mounted, WITHOUT_PARENT if its parent is not mounted (and it is not '/'), and otherwise OK; on OK exactly that path is added with the given files, first among its siblings, and nothing else changes; on an error the tree does not change. Mounting '/' also makes it the current directory. For any other text (relative, with empty components or a trailing '/') the call never fails in the C sense, the status is ALREADY_MOUNTED, OK or WITHOUT_PARENT as the text names a mounted directory, reads as one directly inside a mounted directory, or neither, and an error leaves the tree as it was. (A text that is not normalised, like '//b', is accepted but then neither found nor unmounted, and an object still in use is renamed or tears the tree apart.)", "quantifier": "every tree built by earlier operations, every text without NUL that fits, every file list, every object not in use", "why_tests_cant": "all histories of mounts", "anchors": ["src/src/ush_node_mount.c: ush_node_mount"]}
{"id": "C14", "title": "Unmounting", "statement": "Unmounting returns NOT_FOUND if the path is not mounted, WITH_CHILDS if something is mounted below it, and otherwise OK; on OK exactly that path disappears and the order of the others is kept; on an error nothing changes.", "quantifier": "every tree, every path", "why_tests_cant": "all histories", "anchors": ["src/src/ush_node_mount.c: ush_node_unmount"]}
{"id": "C15", "title": "Tree lookup equals an abstract directory map", "statement": "After any history of mount and unmount calls with fresh node objects, ush_node_get_by_path returns a node for exactly the paths that an abstract map driven by the same calls contains, and it is the node object given to the mount; children links never form cycles, so every lookup terminates.", "quantifier": "every finite history of mount/unmount", "why_tests_cant": "histories are unbounded", "anchors": ["src/src/ush_node.c: ush_node_get_by_path", "src/src/ush_node_utils.c: ush_node_get_parent_by_path", "src/src/ush_node_mount.c: ush_node_mount, ush_node_unmount"]}
{"id": "C16", "title": "Changing directory", "statement": "ush_node_set_current_dir returns OK and moves to the directory exactly when the path resolves (after normalisation against the current directory) to a mounted node; otherwise it returns NOT_FOUND and the current directory stays. An empty path is NOT_FOUND.", "quantifier": "every tree, current directory and path", "why_tests_cant": "all trees and paths", "anchors": ["src/src/ush_node_utils.c: ush_node_set_current_dir", "src/src/commands/ush_cmd_cd.c: ush_buildin_cmd_cd_callback"]}
{"id": "C17", "title": "File lookup and shadowing", "statement": "ush_file_find_by_name first searches the registered command groups, newest group first and in list order; only if none matches does it resolve the name as a path and return the first file of that name in the mounted parent directory; otherwise NULL.", "quantifier": "every command list, tree, current directory and name", "why_tests_cant": "all trees and names", "anchors": ["src/src/ush_file.c: ush_file_find_by_name"]}
{"id": "C18", "title": "Registering and removing command groups", "statement": "ush_commands_add puts the group in front; ush_commands_remove removes exactly that group, keeps the order of the others and returns OK, or returns NOT_FOUND and changes nothing when the group is not registered; after any history the registered groups are those of an abstract list.", "quantifier": "every finite history of add/remove with distinct group objects", "why_tests_cant": "histories are unbounded", "anchors": ["src/src/ush_commands.c: ush_commands_add, ush_commands_remove"]}
{"id": "C19", "title": "cat prints the files, all or nothing", "statement": "cat with n>=1 existing readable files prints the bytes their getters return, concatenated in argument order, byte-exact including NULs, calling each getter once; if any argument is missing or unreadable it prints the matching error for the first such argument and reads no file; with no argument it prints the wrong-arguments error.", "quantifier": "every argument list, every file contents, every schedule", "why_tests_cant": "contents and argument lists are unbounded", "anchors": ["src/src/commands/ush_cmd_cat.c: ush_buildin_cmd_cat_callback, ush_buildin_cmd_cat_service"]}
{"id": "C20", "title": "xxd dump format", "statement": "xxd prints ceil(n/columns) lines (one blank line for an empty file), each with the 8-digit upper-case hexadecimal offset, the bytes as two hex digits, blank padding, and the printable characters with '.' for the others. If the getter returns the size 0 its pointer does not matter: it may be NULL or not set.", "quantifier": "every file contents", "why_tests_cant": "contents are unbounded", "anchors": ["src/src/commands/ush_cmd_xxd.c: ush_buildin_cmd_xxd_callback, ush_buildin_cmd_xxd_service", "src/src/ush_utils.c: ush_utils_is_printable"]}
{"id": "C21", "title": "xxd dump is faithful", "statement": "The dump determines the data: decoding the hex columns of the printed lines gives back exactly the file contents, so two different files of whatever length never print the same dump.", "quantifier": "every pair of byte strings", "why_tests_cant": "an injectivity claim over unbounded data", "anchors": ["src/src/commands/ush_cmd_xxd.c: ush_buildin_cmd_xxd_service"]}
{"id": "C22", "title": "ls listing", "statement": "ls prints '.', also '..' unless the directory is the root, then every child directory in tree order, then every file in list order with the r/w/x/h flags telling which callbacks/help exist, its name and description; nothing is omitted or repeated; a path that is not mounted gives directory-not-found.", "quantifier": "every tree and every directory", "why_tests_cant": "directories are unbounded", "anchors": ["src/src/commands/ush_cmd_ls.c: ush_buildin_cmd_ls_callback, ush_buildin_cmd_ls_service"]}
{"id": "C23", "title": "help listing", "statement": "help without argument prints one line per registered command, all groups in order; help with one argument prints that file's help text, or file-not-found, or no-help-available.", "quantifier": "every set of registered commands", "why_tests_cant": "unbounded command sets", "anchors": ["src/src/commands/ush_cmd_help.c: ush_buildin_cmd_help_callback, ush_buildin_cmd_help_service"]}
{"id": "C24", "title": "echo into a file", "statement": "echo text > file calls that file's setter exactly once with exactly the decoded text (\\xNN replaced by the byte NN) and its length; a missing file, an unwritable file or a malformed redirection calls no setter and prints the matching error. Whatever is typed, a setter is never handed more bytes than the size of the input buffer less 10.", "quantifier": "every text and file", "why_tests_cant": "texts are unbounded", "anchors": ["src/src/commands/ush_cmd_echo.c: ush_buildin_cmd_echo_callback", "src/src/ush_utils.c: ush_utils_decode_ascii"]}
{"id": "C25", "title": "echo to the terminal", "statement": "echo text prints the decoded text followed by CR LF; echo alone prints an empty line. (This holds for text without escapes; with a \\xNN escape the undecoded tail of the buffer is printed too.)", "quantifier": "every text", "why_tests_cant": "texts are unbounded", "anchors": ["src/src/commands/ush_cmd_echo.c: ush_buildin_cmd_echo_callback"]}
{"id": "C26", "title": "Hex escapes can express every byte string", "statement": "Decoding is total: \\xNN (either case) gives the byte NN, \\c gives c, other bytes stand for themselves; encoding any byte string with \\xNN and decoding it gives the byte string back.", "quantifier": "every byte string", "why_tests_cant": "unbounded strings", "anchors": ["src/src/ush_utils.c: ush_utils_decode_ascii, hex_to_dec"]}
{"id": "C27", "title": "Decoding stays inside its buffer", "statement": "Decoding writes at most min(max_size, strlen(input)) bytes, so decoding a string over itself never overwrites a byte that has not been read and never passes its terminator.", "quantifier": "every string, every max_size, in-place and out-of-place", "why_tests_cant": "unbounded strings and aliasing", "anchors": ["src/src/ush_utils.c: ush_utils_decode_ascii"]}
{"id": "C28", "title": "TAB with no or one candidate", "statement": "If no command, file of the current directory or sub-directory starts with the last word of the line, TAB prints nothing and leaves the line alone; if exactly one does (and it fits), the line becomes the line with that word completed and exactly the missing suffix is printed. (Two exceptions in the code: a word after a space in the very first column is not recognised, and a directory whose name starts with a dot is not found when only the dot has been typed.)", "quantifier": "every set of names, every line that fits", "why_tests_cant": "all name sets and lines", "anchors": ["src/src/ush_autocomp_state.c: ush_autocomp_state_candidates_finish", "src/src/ush_autocomp_utils.c: ush_autocomp_check_for_finish, ush_autocomp_check_for_next, ush_autocomp_process_file_prepare, ush_autocomp_process_file_index"]}
{"id": "C29", "title": "TAB completes to the longest common prefix", "statement": "With two or more candidates TAB extends the last word to the longest common prefix of all of them and prints exactly the extension; if the word already is that prefix, it prints all candidates, one per line and in order, then the prompt and the unchanged line.", "quantifier": "every set of names, every line that fits", "why_tests_cant": "all name sets and lines", "anchors": ["src/src/ush_autocomp_utils.c: ush_autocomp_optimize_continue", "src/src/ush_autocomp_state.c: ush_autocomp_state_recall_suffix, ush_autocomp_state_candidates_finish"]}
{"id": "C30", "title": "TAB completion and the input buffer bound", "statement": "TAB comes to an end without a memory error exactly when there is room for what the shell tries in place of the last word: with one candidate the candidate itself, with several their common prefix and one character more. The line with that text must fit the input buffer, and the paths that are looked up must fit path_max_length. Then the line only grows. Otherwise the shell never polls again: TAB is a memory error (a completion is not checked against the buffer), although with several candidates the completed line itself may fit; or, if the common prefix of all names fills the whole buffer, the shell works for ever.", "quantifier": "every line and every set of names", "why_tests_cant": "all lines and name lengths", "anchors": ["src/src/ush_autocomp_state.c: ush_autocomp_state_candidates_finish", "src/src/ush_autocomp_utils.c: ush_autocomp_optimize_continue"]}
{"id": "C31", "title": "ush_printf appends, and reports overflow", "statement": "As long as the accumulated text fits the output buffer, a series of ush_printf calls prints the concatenation of the formatted strings; otherwise the text is cut and ends with the overflow message, and nothing is written past the output buffer when it can hold that message.", "quantifier": "every series of formatted strings, every output buffer size, every amount already printed", "why_tests_cant": "all series and sizes", "anchors": ["src/src/ush.c: ush_printf"]}
{"id": "C32", "title": "Reset", "statement": "ush_reset, at whatever moment it is called, abandons the running activity, sets the current directory to the root and prints the banner and the prompt of the root before anything is read.", "quantifier": "every reachable state", "why_tests_cant": "all states", "anchors": ["src/src/ush_reset.c: ush_reset, ush_reset_service"]}
{"id": "C33", "title": "Ctrl-C discards the line", "statement": "Receiving byte 0x03 while a line is being typed prints ^C, a new line and the prompt, discards what was typed and executes nothing.", "quantifier": "every partially typed line", "why_tests_cant": "all lines", "anchors": ["src/src/ush_read_char.c: ush_read_char"]}
{"id": "C34", "title": "Cursor-key sequences are swallowed", "statement": "ESC [ c and ESC O c (and ESC c for other c) never change the pending line and echo nothing, for every byte c that is not itself a control key handled earlier, and typing afterwards works as before.", "quantifier": "every pending line and every final byte", "why_tests_cant": "all lines", "anchors": ["src/src/ush_read_utils.c: ush_read_char_by_escape_state", "src/src/ush_read_char.c: ush_read_char"]}
{"id": "C35", "title": "Deinitialisation clears exactly the shell's nodes", "statement": "ush_deinit zeroes every node of the mounted tree and the shell object, touches no other node object, and terminates.", "quantifier": "every tree shape", "why_tests_cant": "trees are unbounded", "anchors": ["src/src/ush.c: ush_deinit", "src/src/ush_node.c: ush_node_deinit_recursive"]}
{"id": "C36", "title": "Initialisation", "statement": "On a zeroed object and a valid descriptor ush_init succeeds, registers the built-in commands as the only group, and leaves the shell about to print the banner; servicing it before '/' is mounted fails the assertion. It refuses, by an assertion, exactly the descriptors with an empty input buffer, with an output buffer of less than 4 bytes, or with the built-in commands enabled but all of them configured away. Initialising again without ush_deinit makes the command list cyclic, and looking up an unknown name then never terminates.", "quantifier": "every descriptor; every unknown name", "why_tests_cant": "non-termination is not testable", "anchors": ["src/src/ush.c: ush_init", "src/src/ush_file.c: ush_file_find_by_name"]}
{"id": "C37", "title": "Over-long lines", "statement": "A line longer than the buffer never writes outside it: the write position wraps to the start, so positions stay below the buffer size for ever.", "quantifier": "every line length and buffer size >= 2", "why_tests_cant": "all lengths", "anchors": ["src/src/ush_read_utils.c: ush_read_char_by_escape_state"]}
{"id": "C38", "title": "Errors are reported", "statement": "A non-empty line whose first word names nothing prints 'error: syntax error'; naming a file without exec prints 'error: file not executable'; each is followed by CR LF and the prompt, and no callback of that file runs.", "quantifier": "every line, tree and command set", "why_tests_cant": "all names", "anchors": ["src/src/ush_parse.c: ush_parse_finish", "src/src/ush.c: ush_print_status"]}
{"id": "C39", "title": "Path buffers have a sufficient size", "statement": "ush_node_get_by_path, ush_node_get_absolute_path and ush_file_find_by_name stay inside their path_max_length stack buffers exactly when the strings they build are shorter than path_max_length; a longer typed word overflows the stack buffer.", "quantifier": "every path and every path_max_length", "why_tests_cant": "the boundary is over all lengths", "anchors": ["src/src/ush_node.c: ush_node_get_by_path, ush_node_get_absolute_path", "src/src/ush_file.c: ush_file_find_by_name"]}
{"id": "C40", "title": "Independent shells", "statement": "Operations of one shell (mount, unmount, command registration, deinit) on its own node objects do not change what another shell with disjoint node objects finds.", "quantifier": "every pair of shells with disjoint nodes, every operation", "why_tests_cant": "all pairs of histories", "anchors": ["src/src/ush_node_mount.c: ush_node_mount, ush_node_unmount", "src/src/ush_node.c: ush_node_deinit_recursive, ush_node_get_by_path"]}
{"id": "C41", "title": "Whole-session behaviour", "statement": "The callbacks called, the bytes read and the bytes written by the shell whenever it is back polling for input are exactly those of a small abstract shell (line editor, tokenizer, built-in commands, completion, prompt, effect of the application's callbacks on directories, commands and current directory) fed with the bytes read so far, for every schedule, from ush_init on.", "quantifier": "every input byte sequence, every schedule, every application with a memory (callbacks and the exec hook may depend on all bytes read so far, print, and change the tree), within the stated limits (correct API calls, buffers large enough for the texts printed)", "why_tests_cant": "sessions are unbounded", "anchors": ["src/src/ush.c: ush_service"]}
{"id": "C42", "title": "Printing API", "statement": "ush_print prints the text, CR LF and the prompt; ush_print_no_newline prints the text and the prompt; ush_print_status prints the status message, CR LF and the prompt; ush_flush prints the output buffer's string and the prompt; with the shipped configuration the status messages are the thirteen texts of its header; called several times before servicing, the last call wins.", "quantifier": "every text and state", "why_tests_cant": "all texts and call orders", "anchors": ["src/src/ush.c: ush_print, ush_print_no_newline, ush_print_status, ush_flush"]}
{"id": "C43", "title": "The current directory stays mounted unless it is itself unmounted", "statement": "Mounting, unmounting another directory, and registering or removing command groups never move the current directory and leave it mounted; unmounting the current directory itself (when it has no sub-directories) returns OK and leaves the shell in it: the prompt still shows its path although it is no longer found in the tree.", "quantifier": "every tree, current directory and operation", "why_tests_cant": "A test fixes one tree and one sequence of calls; the claim is about every tree shape and every operation interleaved with every current directory.", "anchors": ["src/src/ush_node_mount.c: ush_node_mount, ush_node_unmount", "src/src/ush_node_utils.c: ush_node_set_current_dir"]}
{"id": "C44", "title": "cd and pwd", "statement": "pwd prints the path of the current directory; cd path makes the directory the path leads to the current one if it is mounted, printing nothing but the next prompt, which shows it; otherwise it prints the not-found message and the current directory stays.", "quantifier": "every shell state, directory tree and path that fits in path_max_length", "why_tests_cant": "trees and paths are unbounded", "anchors": ["src/src/commands/ush_cmd_cd.c: ush_buildin_cmd_cd_callback", "src/src/commands/ush_cmd_pwd.c: ush_buildin_cmd_pwd_callback", "src/src/ush_node_utils.c: ush_node_set_current_dir"]}
{"id": "C45", "title": "Wrong number of arguments", "statement": "A built-in command called with a number of arguments it does not accept calls no getter or setter, changes nothing, and prints only the wrong-arguments message and a new prompt.", "quantifier": "every built-in command and every argument list", "why_tests_cant": "argument lists are unbounded", "anchors": ["src/src/commands/ush_cmd_help.c", "src/src/commands/ush_cmd_ls.c", "src/src/commands/ush_cmd_cd.c", "src/src/commands/ush_cmd_pwd.c", "src/src/commands/ush_cmd_cat.c", "src/src/commands/ush_cmd_xxd.c", "src/src/commands/ush_cmd_echo.c"]}
{"id": "C46", "title": "Output of application callbacks", "statement": "When the line names a file whose exec callback is provided by the application and only makes printing calls, the callback is called exactly once with the words of the line, and what is printed before the new prompt is the text of its last print call or, if its last calls are ush_printf calls, the accumulated text of that final run of ush_printf calls; an earlier text that has not been written is replaced.", "quantifier": "every line, every file, every sequence of printing calls made by the callback", "why_tests_cant": "sequences of calls, texts and buffer sizes are unbounded", "anchors": ["src/src/ush.c: ush_print, ush_print_no_newline, ush_print_status, ush_printf", "src/src/ush_write_utils.c: ush_write_pointer", "src/src/ush_process.c"]}
{"id": "C47", "title": "Application-wide exec hook", "statement": "If the descriptor has an exec hook, every line with at least one word leads to exactly one call of it, with exactly the words of the line, before the named file's exec callback and whether or not the first word names a file; a blank line leads to none, and without a hook none is called. Every call of a file's exec callback directly follows a hook call with the same words. Between an end-of-line byte and the hook call nothing is read and the hook is called at most once per line, over any history. What the hook prints appears if the file's callback makes no call, and is lost if that callback prints. The hook may change the directories, the commands and the current directory; the first word is then looked up in the tree it leaves, so that it can provide the file the line calls or take it away, and what it changed remains.", "quantifier": "every history of service and API calls, every descriptor, every line, every fair behaviour of the callbacks, every sequence of printing and correct tree calls of the hook", "why_tests_cant": "histories, lines and callback behaviours are unbounded", "anchors": ["src/src/ush_parse.c: ush_parse_finish", "src/inc/ush_types.h: struct ush_descriptor, exec", "src/src/ush_write_utils.c: ush_write_pointer"]}
{"id": "C48", "title": "Callbacks may reconfigure the shell", "statement": "An exec callback or a setter may mount and unmount directories, register and remove commands, change the current directory and reset the shell while it is executed: each call has the same result and effect as outside callbacks, it does not disturb what the callback prints before or after it, and the next prompt shows the new current directory (after ush_reset: the banner and a prompt for the root). (If the callback unmounts the current directory, the shell stays in it although it is not mounted, and moves with the node object if that is mounted elsewhere.)", "quantifier": "every tree, every line, every sequence of printing calls and correct tree calls made by a callback", "why_tests_cant": "sequences of calls, trees and lines are unbounded", "anchors": ["src/src/ush_node_mount.c: ush_node_mount, ush_node_unmount", "src/src/ush_commands.c: ush_commands_add, ush_commands_remove", "src/src/ush_node_utils.c: ush_node_set_current_dir", "src/src/ush_parse.c: ush_parse_finish", "src/src/commands/ush_cmd_echo.c", "src/src/ush_reset.c: ush_reset"]}
{"id": "C49", "title": "Reconfiguration between service calls", "statement": "While the shell waits for input the application may mount, unmount, register, remove and change the directory: the half-typed line stays, nothing is printed, and from then on the shell behaves exactly as one whose tree had been so configured; any alternation of typing, under any schedule, and such calls behaves as the same alternation on the abstract shell. (Not so while a directory is being listed: the listing can then show entries of another directory.)", "quantifier": "every alternation of input and correct API calls, every schedule, every setting within the limits of C41", "why_tests_cant": "alternations and schedules are unbounded", "anchors": ["src/src/ush.c: ush_service", "src/src/ush_node_mount.c: ush_node_mount, ush_node_unmount", "src/src/ush_commands.c", "src/src/commands/ush_cmd_ls.c: ush_buildin_cmd_ls_service"]}
{"id": "C50", "title": "Shells of one program are independent", "statement": "Whatever an application does with several shell objects, in whatever order (initialising, servicing, calling the API from the main loop or from callbacks, deinitialising), each shell ends exactly as if the others did not exist: same object, same buffers, same bytes read and written, same callbacks with the same arguments, same node objects; and the program fails only if one of its shells would fail alone. The only condition is that a node object is never handed to two shells, and without it the claim is false.", "quantifier": "every number of shells, every interleaving of operations, every callback behaviour, every memory", "why_tests_cant": "interleavings and the number of shells are unbounded", "anchors": ["src/src/ush.c: ush_init, ush_service, ush_deinit", "src/src/ush_node.c", "src/src/ush_node_mount.c", "src/src/ush_commands.c", "src/inc/ush_types.h: struct ush_object"]}
{"id": "C51", "title": "Getters that call the API", "statement": "A getter called by cat or xxd may mount and unmount directories, register and remove commands and change the directory: the calls have the effect they have outside callbacks, the data printed are exactly those the getters return, each name is looked up in the tree the getters before it have left, and the prompt shows the new directory; what a getter prints during xxd is lost. Some uses are fatal: a getter that prints during cat makes the shell stop for good after the data, whatever is typed and however often it is serviced, and a getter that makes a later argument of the same cat unreadable makes cat follow a NULL pointer. A getter that gives NULL stops cat with a failed assertion, one that does not set its pointer makes cat use an indeterminate pointer; with a size above 0 xxd follows NULL, or, if the pointer is not set, shows the data of the file dumped before.", "quantifier": "every list of files, every getter behaviour, every tree, every later schedule and input", "why_tests_cant": "trees, file lists and getter behaviours are unbounded, and a hang is a statement about all later executions", "anchors": ["src/src/commands/ush_cmd_cat.c: ush_buildin_cmd_cat_callback, ush_buildin_cmd_cat_service", "src/src/commands/ush_cmd_xxd.c: ush_buildin_cmd_xxd_callback", "src/src/ush_write_utils.c: ush_write_pointer_bin, ush_write_char", "src/inc/ush_types.h: ush_file_data_getter"]}
{"id": "C52", "title": "Printing from the main loop", "statement": "While the shell waits for input, with a line possibly half typed, the application may call ush_print, ush_print_no_newline, ush_print_status and ush_printf, any number of them one after the other: exactly the text these calls print in a callback comes out (for a series of ush_printf all the texts in order), then a prompt; the half-typed line is discarded. The same holds for ush_flush after filling the output buffer and for ush_reset, and any alternation of typing, reconfiguration and such printing, under any schedule, with input arriving even while the text is being printed, behaves as the abstract shell. Condition: the formatted text fits beside a three-byte echo. (Not so if the application fills the output buffer itself and then calls ush_printf.)", "quantifier": "every state in which a shell polls since ush_init, every sequence of printing calls, every alternation with typing and reconfiguration, every schedule", "why_tests_cant": "the text depends on what the output buffer was last used for, which is a statement about all histories", "anchors": ["src/src/ush.c: ush_print, ush_printf, ush_print_no_newline, ush_print_status, ush_flush", "src/src/ush_reset.c: ush_reset", "src/src/ush_read_utils.c: ush_read_echo_service", "src/src/ush_write_utils.c: ush_write_char"]}
{"id": "C53", "title": "Interrupting the shell at any moment", "statement": "Between any two service calls, whatever the shell is doing (printing a listing, a prompt or a callback's text, parsing, completing, running cat), the tree, the commands and the current directory are exactly those produced by the API calls made so far and by the callbacks called so far; and the application may at any such moment call ush_print (or ush_print_no_newline, ush_print_status, then further printing calls), ush_flush after filling the output buffer, or ush_reset: the text comes out, then a prompt; the rest of the output and the line in progress are given up, what the line has already done stays done, and the session goes on from there as a fresh one in that tree. No number of interruptions makes any call fail.", "quantifier": "every history of service calls, schedules, inputs and API calls, every moment in it, every interrupting call, every later input and schedule", "why_tests_cant": "the moments are all the points of all histories; each leaves another part of the state half done", "anchors": ["src/src/ush.c: ush_service, ush_print, ush_print_no_newline, ush_print_status, ush_flush", "src/src/ush_reset.c: ush_reset", "src/src/ush_process.c: ush_process_service", "src/src/ush_parse.c: ush_parse_service", "src/src/ush_node_mount.c: ush_node_mount, ush_node_unmount", "src/src/ush_node_utils.c: ush_node_set_current_dir"]}
{"id": "C54", "title": "Reconfiguring the shell while it is at work", "statement": "The application may mount, unmount, add and remove commands, change the directory, print, flush and reset between any two service calls, also while help, ls, xxd, cat or any callback's text is being printed or TAB is being handled: no call ever fails or corrupts anything, each call has exactly its specified result and effect on the tree, every later service call succeeds, and with a ready interface the shell returns to polling after finitely many service calls, at a correct prompt for the directory then current, from which the session goes on in the changed tree. This needs care in two cases: from the moment help or ls is called or TAB is read until the shell polls again, a node object in use since it last polled must not be handed over again, and during cat a file that was readable must not become unreadable. Without that care ush_service follows a NULL pointer. Printing calls at any such moment, ush_printf included, print their text and then a prompt; ush_printf continues the text in the output buffer: if the shell is printing from there the rest of that text comes out first, and nothing is printed twice.", "quantifier": "every history of service calls, inputs (TAB where every name there may be fits in the input buffer in place of the word before the cursor), schedules and API calls from initialisation or from any polling state, every point in it, every later input and schedule", "why_tests_cant": "every moment of every listing combines with every sequence of calls; the cursors the commands keep between service calls point into lists that the calls change", "anchors": ["src/src/ush.c: ush_service, ush_print, ush_flush", "src/src/ush_process.c: ush_process_service", "src/src/ush_node_mount.c: ush_node_mount, ush_node_unmount", "src/src/ush_commands.c: ush_commands_add, ush_commands_remove", "src/src/commands/ush_cmd_ls.c: ush_buildin_cmd_ls_service", "src/src/commands/ush_cmd_help.c: ush_buildin_cmd_help_service", "src/src/commands/ush_cmd_cat.c: ush_buildin_cmd_cat_service", "src/src/commands/ush_cmd_xxd.c: ush_buildin_cmd_xxd_service", "src/src/ush_autocomp.c: ush_autocomp_service"]}
{"id": "C55", "title": "The example programs", "statement": "The example programs set themselves up without error, and then whatever is typed (TAB only in lines that leave room for the longest name and two bytes), however the service calls are scheduled and whatever the hardware answers, no service call fails and output and callback calls are those of the documented session. Initialize does so as shipped. DemoBasic, DemoAdvanced and demo_linux need a path_max_length that exceeds the size of the input buffer by the length of the longest mounted path (with the shipped sizes a long word typed in /dev or /dev/mem overflows the path buffer), and demo_linux needs a getter of /dev/null that sets its pointer. The setter of /dev/mem/ram never overflows its memory; that of /dev/mem/eeprom can be made to. demo_linux shows in every prompt the host name last written to /etc/hostname (at most 16 bytes of it; if it was typed with a \\x escape, followed by the rest of the typed text).", "quantifier": "every input with TAB only in lines that leave this room, every schedule, every sequence of hardware readings, all buffer sizes", "why_tests_cant": "the examples are only compiled; the failing inputs depend on buffer sizes, the current directory and the word typed together", "anchors": ["examples/Initialize/Initialize.ino: setup", "examples/DemoBasic/DemoBasic.ino: setup, ush_desc, bin_files, dev_files", "examples/DemoAdvanced/shell.cpp: shell_init", "examples/demo_linux/shell.c: g_ush_desc, shell_init", "examples/demo_linux/fs/path/dev.c: null_data_getter, eeprom_data_setter, ram_data_setter"]}
{"id": "C56", "title": "The built-in commands and their switches", "statement": "Whatever the configuration (each built-in command switched on or off, styles, completion, column width, translations, host name, sizes), a shell with an empty root directory runs, and exactly the commands switched on exist: 'help' lists them in the fixed order (help, ls, cd, pwd, cat, xxd, echo), one line each with its description; each of them typed alone gives its answer; 'help name' prints the usage of a command switched on and 'file not found' for one switched off; any line with another first word is answered with the syntax error. Needs no exec hook and buffers in which lines and the listing fit. If commands are compiled in but all are switched off, ush_init fails its own assertion.", "quantifier": "every configuration and sizes, every line without editing keys, every schedule", "why_tests_cant": "two to the seven combinations of switches, times all widths, texts and sizes", "anchors": ["src/src/commands/ush_cmd.c: g_ush_buildin_commands, g_ush_buildin_commands_num", "src/src/ush.c: ush_init", "src/src/ush_commands.c: ush_commands_add", "src/src/commands/ush_cmd_help.c: ush_buildin_cmd_help_service"]}
{"id": "C57", "title": "Printing reads the application's memory at the moment of printing", "statement": "ush_print and ush_print_no_newline copy nothing: they measure the text when called, and each byte that comes out is the one the memory holds when the write callback accepts it, in order, exactly as many as the text had at the time of the call; then a new line (ush_print only) and the prompt. The same holds for the data of a getter printed by cat, with the size the getter returned, and the files after it are printed as usual. xxd reads each row twice: the hexadecimal columns show the memory as it is after the address has been printed, the characters as it is after the columns have been printed, so a dump of changing memory may be the dump of no data at all. Memory that keeps its contents until printed comes out unchanged; memory that has become shorter is read out of bounds.", "quantifier": "every text, every sequence of contents of the memory between service calls, every readiness of the output (print, cat), every moment of the call, every file, size and number of columns", "why_tests_cant": "depends on how the changes of the memory interleave with the service calls and with the readiness of the output", "anchors": ["src/src/ush.c: ush_print, ush_print_no_newline", "src/src/ush_write.c: ush_write_pointer, ush_write_service", "src/src/commands/ush_cmd_cat.c: ush_buildin_cmd_cat_service", "src/src/commands/ush_cmd_xxd.c: ush_buildin_cmd_xxd_service"]}
{"id": "C58", "title": "A shell can be shut down at any moment and started again", "statement": "After any number of lives, each begun with ush_init (with any valid descriptor and buffers) and correct calls that mount the root, continued with service calls and API calls at any points, and ended with ush_deinit at any moment, be it in the middle of a command or of its output, the object can be initialised again and behaves like a new one: the session in the new life prints the banner, the prompt of the new descriptor and exactly what it prints the first time, and nothing of earlier lives. ush_deinit succeeds at every such moment, prints and reads nothing, zeroes the node objects mounted at that time and changes no other node object of the application; afterwards ush_service refuses to work until the next ush_init.", "quantifier": "every number and course of earlier lives (input, schedules of readiness, callbacks, API calls and their moments, configuration), every moment of the shutdown, every new descriptor, application and input", "why_tests_cant": "quantifies over all histories, all moments of the shutdown and all later inputs", "anchors": ["src/src/ush.c: ush_init, ush_deinit, ush_service", "src/src/ush_node.c: ush_node_deinit_recursive", "src/src/ush_commands.c: ush_commands_add", "src/inc/ush_types.h: ush_object"]}
{"id": "C59", "title": "Processes of the application", "statement": "If a command's exec callback starts a process, the shell calls the file's process callback once in each call of ush_service, whatever the readiness of input and output, until the callback prints; then it is never called again, what it printed in that call comes out, and the prompt and the next line follow. Meanwhile the shell reads and prints nothing, and the callback may mount, unmount, change the directory and add or remove commands in any call; the prompt shows the directory it leaves. A callback that assigns USH_STATE_RESET or USH_STATE_RESET_PROMPT ends the process with an empty line and the prompt, or the prompt alone. A process that makes no call never ends. Starting the process of a file that has none gives an empty line and the prompt. This holds for every process of a session: the lines before, between and after them are answered as in C41, in the world the processes have left.", "quantifier": "every session and command line, number of processes and of silent calls, calls made by the process, schedule, descriptor and set of directories", "why_tests_cant": "unbounded number of calls; non-termination", "anchors": ["src/src/ush_process.c: ush_process_start, ush_process_service", "src/inc/ush_types.h: ush_file_process_service", "src/src/ush.c: ush_service, ush_print, ush_printf"]}
{"id": "C60", "title": "One call of ush_service does one small thing", "statement": "Whatever the state, the input and the application: a call of ush_service reads at most one byte (only while polling), or writes at most one byte, or calls one getter, setter or process callback, or runs one line (the exec hook if there is one, then at most one file, whose command may call one getter or setter); never two of these. Over any history the bytes read and written together are at most the number of ush_service calls, and the callbacks at most three times that number; the other API calls read and write nothing.", "quantifier": "every state, every answer of the interface and the callbacks, every history of calls", "why_tests_cant": "all states and histories; a main loop relies on no call doing more", "anchors": ["src/src/ush.c: ush_service", "src/src/ush_read_char.c: ush_read_char", "src/src/ush_write.c: ush_write_char", "src/src/ush_process.c: ush_process_service", "src/src/ush_parse.c: ush_parse_finish"]}
{"id": "C61", "title": "The host name may change at run time", "statement": "The application may overwrite the host name at any time (as demo_linux does in a setter). Whatever the moment, a call of ush_service does the same with any host name, except that the prompt prints the name the memory holds when its turn comes. Over whole sessions under every schedule: every prompt shows the host name as it is after the callbacks of the line it answers, everything else is as in a session with a fixed name, no schedule makes the shell fail, and with enough calls all input is answered.", "quantifier": "every state and host name; every session within the limits, every application that changes the name depending on what it has seen, every schedule", "why_tests_cant": "all moments of change, sessions and schedules", "anchors": ["src/src/ush_prompt.c: ush_prompt_service", "src/inc/ush_types.h: struct ush_descriptor", "examples/demo_linux/shell.c: shell_set_hostname", "examples/demo_linux/fs/path/etc.c: g_hostname_data_setter"]}
{"id": "C62", "title": "The output buffer needed by help, ls and xxd, exactly", "statement": "help, ls and xxd put their texts in the caller's output buffer without looking at its size. help gets back to the prompt if and only if for each registered command the name (padded, with the start of the description column) fits in the buffer with its terminator; ls if and only if the same holds for each file of the directory and, if there are files, the seven bytes of the flag column fit; xxd if and only if 11 bytes and three bytes per column plus two fit, however short the data. Otherwise the shell lists what comes before the first text that does not fit and then writes outside the buffer, and under no schedule it polls again.", "quantifier": "every buffer size, configuration, set of commands and files, state reached with such a line typed, end of line, data, schedule", "why_tests_cant": "all buffer sizes, names and configurations", "anchors": ["src/src/commands/ush_cmd_help.c: ush_buildin_cmd_help_service", "src/src/commands/ush_cmd_ls.c: ush_buildin_cmd_ls_service", "src/src/commands/ush_cmd_xxd.c: ush_buildin_cmd_xxd_service"]}
{"id": "C63", "title": "The application may remember everything", "statement": "The callbacks may depend on everything that has happened until the byte being answered was read: the bytes read and printed, and all calls of callbacks with their arguments. Within the limits, under every schedule, whenever the shell polls, the callbacks it has called and the bytes it has printed are those of the abstract shell of C41 with this application, no schedule makes the shell fail, and with enough calls all input is answered; also from ush_init on. The same holds if the callbacks change at the moment a setter or a command of the application is called; it does not hold if a getter's answers change with each call of a getter within one line.", "quantifier": "every application that is a function of the history, descriptor, input within the limits, schedule", "why_tests_cant": "all applications, inputs and schedules", "anchors": ["src/src/ush.c: ush_service", "src/src/ush_file.c", "src/src/ush_parse.c", "src/inc/ush_types.h: ush_file_data_getter, ush_file_data_setter"]}
{"id": "C64", "title": "Files keep what is written to them", "statement": "Take a file whose setter stores its data and whose getter returns what is stored. Any bytes can be written to it with one echo line (in quotes, with hexadecimal escapes), which prints nothing, and cat then prints exactly these bytes and xxd their dump, whatever else is typed in between that does not write to that file, under every schedule with enough calls. In demo_linux, from its start: after data is written to /dev/mem/ram or /dev/mem/eeprom, cat prints it followed by the zeros in the rest of the memory. This holds for a file that is stored at once, when its setter is called.", "quantifier": "every data (all byte values), file, name for it, way of storing, text typed in between, session state, schedule", "why_tests_cant": "all data, histories and schedules", "anchors": ["src/src/commands/ush_cmd_echo.c", "src/src/commands/ush_cmd_cat.c", "src/src/commands/ush_cmd_xxd.c", "src/src/ush_utils.c: ush_utils_decode_ascii", "examples/demo_linux/fs/path/dev.c"]}
{"id": "C65", "title": "An answer takes a bounded number of service calls", "statement": "Every answer comes after a bounded number of calls of ush_service that find both sides ready, however such calls and others are mixed: at most 2 for each byte read, further ones as many as the size of the input buffer plus 3 for each end of line, 13 for each byte printed, and the number of node objects plus 13 for each call of a callback. So a shell that has been called that way more often than the input buffer size plus the number of node objects plus 14, and has neither read nor written a byte nor called a callback, has answered everything and waits for input. A TAB that asks for completion takes further calls: one pass over all names for each character it tries beyond the word typed and up to three more, a pass being five calls for each command, file and directory, one for each list of commands, and five more; the statement about silence is for input without completion.", "quantifier": "every application (callbacks may use the API and change their answers), input, state, schedule, configuration; input with completion in sessions within the limits of C41 and C63; sessions with processes (C59) for input without completion", "why_tests_cant": "worst case over all inputs, histories and schedules", "anchors": ["src/src/ush.c: ush_service", "src/src/ush_read.c", "src/src/ush_write.c", "src/src/ush_parse.c", "src/src/ush_reset.c", "src/src/ush_prompt.c"]}
{"id": "C66", "title": "Only registered callbacks are called, with arguments that fit", "statement": "Whatever the state of the shell and its memory, and whatever sequence of service calls and API calls follows, ush_service calls a command's callback only if it belongs to a file that is at that moment in a registered command group or in a mounted directory (after the calls the application-wide hook has made), under that file's name; the hook itself only if the descriptor has one; a getter or a setter only if it belongs to such a file; a process callback only of the file the process was last started with. A callback gets at least one argument, all its arguments with their terminators fit in the input buffer together, and a setter gets fewer bytes than the input buffer has. So after a directory has been unmounted or a command group removed none of its callbacks is called. API calls by themselves call no callback.", "quantifier": "every state (no invariant assumed), input, schedule, application, history of service calls and API calls", "why_tests_cant": "all states and histories; a stale pointer or an unbounded argument shows in one history only", "anchors": ["src/src/ush_parse.c: ush_parse_finish", "src/src/ush_parse_utils.c: ush_parse_get_args", "src/src/ush_file.c: ush_file_find_by_name", "src/src/ush_process.c: ush_process_service", "src/src/commands/ush_cmd_cat.c", "src/src/commands/ush_cmd_xxd.c", "src/src/commands/ush_cmd_echo.c"]}
{"id": "C67", "title": "What must be zeroed before a shell is used", "statement": "Of the memory of the shell object and of the node objects, ush_init and the first mounts rely on two things only: the object's list of command groups is NULL, and the children pointer of each node object is NULL. Everything else (the state machine, counters, positions, process and completion data, root and current directory, names, parents and siblings of the node objects, the contents of both buffers) may hold any values: initialisation and mounting succeed with the same results, and every session after them reads, prints and calls exactly what it does on zeroed memory. Neither of the two conditions can be dropped: with a stale list of groups an unknown command follows the stale pointer, with a stale children pointer mounting a directory does.", "quantifier": "all prior contents of the object, of its buffers and of the node objects; all descriptors; all sequences of correct API calls that mount the root; all inputs within the limits of C41 and all I/O schedules", "why_tests_cant": "Tests use static, zeroed objects; the claim is about every possible content of uninitialised memory.", "anchors": ["src/src/ush.c: ush_init", "src/src/ush_commands.c: ush_commands_add", "src/src/ush_node_mount.c: ush_node_mount", "src/inc/ush_types.h: struct ush_object, struct ush_node_object"]}
{"id": "C68", "title": "The sizes of the buffers do not show", "statement": "Two shells with the same host name, hook, configuration and application, in the same session state, but with input buffers, output buffers and path_max_length of different sizes, read, print and call exactly the same for the same input, each under its own I/O schedule, as long as the input is within the limits of both: lines leave two bytes of the input buffer free, texts printed with ush_printf fit in the output buffer, and the limits of C41. Enlarging buffers is safe: an input within the limits of the smaller shell is within those of the larger one, which then does exactly the same. The limit on lines is needed: a line that fills the smaller buffer starts over there.", "quantifier": "all sizes, worlds, applications (which may remember everything read), inputs within the limits, and pairs of I/O schedules", "why_tests_cant": "Tests fix one size of each buffer; the claim compares all pairs of sizes.", "anchors": ["src/inc/ush_types.h: struct ush_descriptor", "src/src/ush_read_char.c: ush_read_char", "src/src/ush.c: ush_service", "src/src/ush.c: ush_printf"]}
{"id": "C69", "title": "What was typed before does not show", "statement": "Two shells with the same descriptor and application that stand alike (same directories, commands and current directory, same unfinished line and escape progress) read, print and call exactly the same from then on, each under its own I/O schedule, whatever was typed, printed and executed in them before; only callbacks of the application that themselves remember could make a difference. In particular two different inputs that leave a shell standing alike are followed by the same answers: nothing of earlier lines (a password, say) stays in the buffers and comes out later.", "quantifier": "all pairs of histories that leave the shell standing alike, all later inputs within the limits of C41, all pairs of I/O schedules, all applications that do not remember the difference", "why_tests_cant": "A statement about pairs of runs with unbounded histories.", "anchors": ["src/src/ush_read_char.c: ush_read_char", "src/src/ush_read.c: ush_read_service", "src/src/ush_parse.c: ush_parse_finish", "src/src/ush.c: ush_service"]}
{"id": "C70", "title": "Typing does not change the tree", "statement": "If no callback of the application mounts, unmounts, registers, removes, changes the directory or resets, then whatever is typed, at every point where the shell waits for input the mounted directories with their files and the registered commands are those of the beginning, and the current directory is the one of the beginning or a mounted directory. If no line runs the command cd, the current directory is that of the beginning: help, ls, pwd, cat, xxd and echo, completion, errors and unfinished lines change nothing.", "quantifier": "all inputs within the limits of C41, all I/O schedules, all points where the shell polls, all applications that leave the tree alone", "why_tests_cant": "all inputs and schedules", "anchors": ["src/src/commands/ush_cmd_cd.c: ush_buildin_cmd_cd_callback", "src/src/ush_node_utils.c: ush_node_set_current_dir", "src/src/ush_parse.c: ush_parse_finish", "src/src/ush_autocomp.c: ush_autocomp_service"]}
{"id": "C71", "title": "What is on the screen is what will be run", "statement": "On a terminal that interprets the bytes the shell writes (printable bytes overwrite the cell at the cursor, BS moves left, CR goes to the start of the row, LF starts a new row, colours show nothing), whenever the shell waits for input the row of the cursor ends with the prompt [hostname directory]$ followed by exactly the bytes of the line held by the shell - the line that ENTER will run - and nothing is visible right of the cursor; it is so after the first prompt and stays so through typing, backspace, delete, arrow keys, completion, ^C, commands and errors. Conditions: typed bytes, names and the prompt are printable, what callbacks print is text with complete colour sequences, and the line does not fill the input buffer (when it does, the line starts over while the screen still shows it: refuted). The answers of the built-in commands satisfy the condition when files, directories and messages have plain names and texts, and a dump by xxd does whatever the data are.", "quantifier": "all inputs within the limits of C41 that satisfy the conditions, all I/O schedules, all points where the shell polls, all contents of the terminal before", "why_tests_cant": "all key sequences and schedules", "anchors": ["src/src/ush_read_char.c: ush_read_char", "src/src/ush_read_utils.c: ush_read_echo_service", "src/src/ush_autocomp.c: ush_autocomp_service", "src/src/ush_prompt.c: ush_prompt_service", "src/inc/ush_shell.h: USH_SHELL_FONT_STYLE_RESET"]}
{"id": "C72", "title": "Every command is one line away", "statement": "Whatever has been typed so far - half a line, an open quote, half an escape sequence - pressing ^C and typing one line executes any file the shell knows with any list of arguments (in quotes), exactly once, with exactly these arguments, and executes no other file; afterwards the shell waits for input again. From every current directory a file of a mounted directory is named by its absolute path (unless a command has that name), and cd with its absolute path enters any mounted directory. The keyboard never locks up and nothing mounted is out of reach. The line must fit in the input buffer and consist of bytes that are not control keys.", "quantifier": "all sessions within the limits of C41, all states of line and escape sequence, all files and arguments, all mounted directories, all I/O schedules with enough ready calls", "why_tests_cant": "all states of the line, all argument lists, all trees and schedules", "anchors": ["src/src/ush_read_char.c: ush_read_char", "src/src/ush_parse_utils.c: ush_parse_char_standard", "src/src/ush_file.c: ush_file_find_by_name", "src/src/commands/ush_cmd_cd.c: ush_buildin_cmd_cd_callback"]}
{"id": "C73", "title": "TAB only adds, offers what exists, and settles at once", "statement": "Pressing TAB never removes or changes what has been typed: afterwards the line is the line before, possibly with something appended, and directories, commands and current directory are untouched. It prints exactly what it appends; or it appends nothing and prints names, one per line, then the prompt and the line. Every name it offers names a command, a file or a mounted directory as seen from the current directory. Pressing TAB a second time leaves the line as the first press left it (if names contain no spaces).", "quantifier": "all sessions within the limits of C41, all lines and trees, all I/O schedules with enough ready calls", "why_tests_cant": "all lines, name sets and schedules", "anchors": ["src/src/ush_autocomp_state.c: ush_autocomp_state_candidates_finish, ush_autocomp_state_recall_suffix", "src/src/ush_autocomp_utils.c: ush_autocomp_optimize_continue, ush_autocomp_check_for_finish"]}
{"id": "C74", "title": "The order of mounting shows in listings only", "statement": "Two shells in which the same directories are mounted with the same files, in whatever order and from whatever node objects, with the same commands, current directory and input so far, make exactly the same callback calls with the same arguments and write exactly the same bytes on any further input, as long as nothing lists names: no ls, and no TAB that finds several names and nothing to add. The callbacks are assumed not to change the tree.", "quantifier": "all pairs of such shells, all inputs within the limits of C41, all I/O schedules with enough ready calls", "why_tests_cant": "all orders of mounting, trees, inputs and schedules", "anchors": ["src/src/ush_node_mount.c: ush_node_mount", "src/src/ush_node.c: ush_node_get_by_path", "src/src/ush_file.c: ush_file_find_by_name", "src/src/ush_autocomp_utils.c"]}
{"id": "C75", "title": "ls and help tell everything", "statement": "A reader of the terminal that drops colour codes and splits lines recovers from the output of ls, for any mounted directory, the names of all its sub-directories and of all its files in order, with each file's description and whether it can be read, written and executed and has a help text; and from the output of help the names and descriptions of all registered commands. Going from / into every directory that a listing names finds exactly the mounted directories. (File names without spaces; names and descriptions without line ends and escape codes.)", "quantifier": "all trees, directories, command lists and configurations with such names, all states of the line, all I/O schedules with enough ready calls", "why_tests_cant": "all trees, names, descriptions, column widths and schedules", "anchors": ["src/src/commands/ush_cmd_ls.c: ush_buildin_cmd_ls_service", "src/src/commands/ush_cmd_help.c: ush_buildin_cmd_help_service"]}
{"id": "C76", "title": "Only the words count", "statement": "If two lines, in shells with the same directories, commands and current directory, consist of the same words, then ending them gives exactly the same callback calls and output, and everything that follows is the same, too, however the lines were typed: with other spacing or quoting, with corrections, cursor keys or completion. The number of blanks before, between and after words does not matter outside quotes. (The application must not itself remember the difference.)", "quantifier": "all pairs of such shells and lines, all later inputs within the limits of C41, all I/O schedules with enough ready calls", "why_tests_cant": "all ways of typing the same words, all continuations and schedules", "anchors": ["src/src/ush_parse.c: ush_parse_service", "src/src/ush_parse_char.c: ush_parse_char", "src/src/ush_read.c: ush_read_service"]}
{"id": "C77", "title": "Mounting and registering can be taken back without a trace", "statement": "While the shell polls: after a successful ush_node_mount, ush_node_unmount of the same path succeeds, and after ush_commands_add, ush_commands_remove of the same object. Neither call prints anything, and afterwards every input is answered exactly as if the two calls had not been made. Likewise if the user types anything in between, provided the callbacks leave the tree alone and the current directory is not the one to be unmounted: the directories and commands are those of the beginning, in the same order.", "quantifier": "all worlds, all correct calls, all inputs in between and afterwards within the limits of C41, all I/O schedules with enough ready calls", "why_tests_cant": "all trees, all inputs between and after the two calls, all schedules", "anchors": ["src/src/ush_node_mount.c: ush_node_mount, ush_node_unmount", "src/src/ush_commands.c: ush_commands_add, ush_commands_remove"]}
{"id": "C78", "title": "Colours only decorate", "statement": "A shell built with USH_CONFIG_ENABLE_FEATURE_SHELL_STYLES and one built without, standing alike, treat every input alike: the same callbacks with the same arguments in the same order, the same directories, current directory and line afterwards, and the same output except that the former prints the colour codes (reset, green, yellow, magenta) in addition. Whatever is within the limits of the former is within those of the latter.", "quantifier": "all settings, all pairs of shells standing alike, all inputs within the limits of C41, all I/O schedules with enough ready calls", "why_tests_cant": "a test fixes one configuration; all inputs and schedules", "anchors": ["src/inc/ush_shell.h: USH_SHELL_FONT_COLOR_*, USH_SHELL_FONT_STYLE_RESET", "src/src/ush_prompt.c: ush_prompt_service", "src/src/commands/ush_cmd_ls.c: ush_buildin_cmd_ls_service", "src/src/commands/ush_cmd_help.c: ush_buildin_cmd_help_service"]}
{"id": "C79", "title": "Without completion TAB does nothing, and all else is as with it", "statement": "A shell built without USH_CONFIG_ENABLE_FEATURE_AUTOCOMPLETE, given any input, does exactly what a shell built with it, standing alike, does when given the same input without its TABs: the same callbacks with the same arguments, and the same output. The TABs themselves are read and ignored, even inside an escape sequence. (The application must not itself count TABs.)", "quantifier": "all settings, all pairs of shells standing alike, all inputs within the limits of C41, all I/O schedules with enough ready calls", "why_tests_cant": "the test suites are built with completion; all inputs and schedules", "anchors": ["src/src/ush_read_char.c: ush_read_char", "src/src/ush.c: ush_service", "src/config/posix/ush_config.h: USH_CONFIG_ENABLE_FEATURE_AUTOCOMPLETE"]}
{"id": "C80", "title": "CR and LF end a line alike", "statement": "Two inputs that differ only in whether lines are ended by CR or by LF are treated alike: the same callbacks are called with the same arguments in the same order, and, provided that what callbacks print with ush_printf fits in the output buffer, the output is the same except for the echo of the line end itself (CR LF for CR, LF for LF). An empty line, hence also the second byte of CR LF, only gives another prompt. (The application must not itself look at the line ends.)", "quantifier": "all settings, all pairs of shells standing alike, all inputs within the limits of C41, all I/O schedules with enough ready calls", "why_tests_cant": "all inputs and schedules; the echo of the line end shares the output buffer with the callbacks", "anchors": ["src/src/ush_read_utils.c: ush_read_char_by_escape_state, ush_read_echo_service", "src/src/ush_parse_char.c: ush_parse_char", "src/src/ush.c: ush_printf"]}
{"id": "C81", "title": "How the shell looks does not change what it does", "statement": "Two shells with the same tree, application, hook and input buffer that differ in host name, colours, texts of the messages, widths of columns, output buffer size and path_max_length read the same bytes and call the same callbacks with the same arguments in the same order for the same input, and stand alike afterwards (same line being edited, current directory and tree), as long as the input is within the limits of both.", "quantifier": "all pairs of settings differing in looks only, all pairs of shells standing alike, all inputs within the limits of C41 of both, all I/O schedules with enough ready calls (not necessarily the same)", "why_tests_cant": "all inputs, configurations and schedules; texts shown share buffers with what is executed", "anchors": ["src/inc/ush_types.h: ush_descriptor", "src/inc/ush_preconfig.h", "src/src/ush.c: ush_service, ush_print_status", "src/src/ush_prompt.c"]}
{"id": "C82", "title": "What is taken back leaves no trace", "statement": "Characters typed and erased again, cursor keys, and lines begun and given up with Ctrl-C call no callback, and everything that follows is answered exactly as if they had not been typed: the same callbacks with the same arguments and the same output. (The line must not outgrow the input buffer meanwhile, unless it is given up; the application must not itself look at the keys.)", "quantifier": "all sessions at any point outside an escape sequence, all such detours of any length and nesting, all continuations within the limits of C41, all I/O schedules with enough ready calls", "why_tests_cant": "unboundedly many detours at any point of any line", "anchors": ["src/src/ush_read_utils.c: ush_read_char_by_escape_state, ush_read_echo_service", "src/src/ush_read_char.c: ush_read_char"]}
{"id": "C83", "title": "A place of the tree is the same by every name and from everywhere", "statement": "A built-in command (help, ls, cd, cat, xxd, or echo into a file) given names of the same places - relative or absolute, with or without \".\" and \"..\", from the same or from different current directories - calls the same getters and setters with the same data and prints the same text before the prompt; cd leads to the same directory, and the other commands leave the current directory as it is.", "quantifier": "all equal trees, all pairs of current directories and names that resolve to the same place and are not names of commands, all data, all I/O schedules with enough ready calls; callbacks that leave the tree alone, no exec hook", "why_tests_cant": "all trees, directories and spellings of a path", "anchors": ["src/src/ush_node.c: ush_node_get_absolute_path", "src/src/ush_file.c: ush_file_find_by_name", "src/src/ush_utils.c: ush_utils_get_collapse_path", "src/src/commands"]}
{"id": "C84", "title": "An exec hook that only watches is not noticed", "statement": "With an exec hook that makes no calls into the library, everything else happens as without hook: the same callbacks with the same arguments in the same order and the same output, for every input; the only difference are the calls of the hook itself. Both shells stand alike afterwards.", "quantifier": "all settings whose hook makes no calls, all pairs of shells standing alike, all inputs within the limits of C41, all I/O schedules with enough ready calls", "why_tests_cant": "all inputs and trees; the hook runs between reading and executing, in the middle of the use of the shared buffers", "anchors": ["src/src/ush_parse.c: ush_parse_finish", "src/inc/ush_types.h: ush_descriptor"]}
{"id": "C85", "title": "Changes of the tree are local", "statement": "Mounting a directory never changes what a name already means, and names that gain a meaning name files of the new directory. Unmounting gives no name a new meaning and takes it only from names of the directory's own files. Registering a command group gives its names to its commands and changes no other name; removing one changes only names of its commands. Changing the current directory changes neither commands nor absolute names.", "quantifier": "all shells, all trees, all calls with allowed arguments, successful or refused, all names that can be looked up before and after within path_max_length", "why_tests_cant": "all trees, histories and names", "anchors": ["src/src/ush_node_mount.c: ush_node_mount, ush_node_unmount", "src/src/ush_commands.c: ush_commands_add, ush_commands_remove", "src/src/ush_node_utils.c: ush_node_set_current_dir", "src/src/ush_file.c: ush_file_find_by_name"]}
{"id": "C86", "title": "The same lines get the same answer any number of times", "statement": "With an application without memory whose callbacks leave the tree alone, typing the same lines, none of which runs cd, k times at the prompt makes exactly k times the same happen: the same output, the same callbacks with the same arguments. More generally each piece of complete lines has one answer, and pieces typed in any order get their answers one after the other. Nothing in the shell wears out or fills up, and no undefined behaviour occurs in any round.", "quantifier": "all memoryless applications, trees and settings, all lines within the limits (checked for one round only), all numbers of repetitions, all I/O schedules with enough ready calls", "why_tests_cant": "all inputs, all numbers of repetitions, all schedules", "anchors": ["src/src/ush.c: ush_service", "src/src/ush_read.c: ush_read_service", "src/src/ush_parse.c: ush_parse_service", "src/src/ush_reset.c: ush_reset_service"]}
{"id": "C87", "title": "The order of files and commands shows in listings only", "statement": "Two shells with the same directories, files and commands - in whatever order the directories were mounted, the files stand in their directory's list and the commands were registered - call the same callbacks with the same arguments and print the same, unless they list names: ls, help without a name, or TAB when several names fit and nothing can be added.", "quantifier": "all pairs of trees equal up to order in which no two commands and no two files of one directory have the same name, all inputs within the limits of C41, all I/O schedules with enough ready calls; callbacks that leave the tree alone", "why_tests_cant": "all trees, orders and inputs", "anchors": ["src/src/ush_file.c: ush_file_find_by_name", "src/src/ush_commands.c: ush_commands_add", "src/src/ush_node_mount.c: ush_node_mount", "src/src/ush_autocomp.c: ush_autocomp_service"]}

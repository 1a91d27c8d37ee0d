{
 "claims": [
  {
   "property": "C01",
   "status": "proved",
   "theorems": [
    "C01_typing_is_safe",
    "C01_no_tab",
    "C01_tab_room",
    "C01_tab_is_unsafe",
    "C01_tab_never",
    "C01_one_byte_refuted"
   ],
   "note": "C01_typing_is_safe: limits on the setting (snug) and room at each TAB (tabs_fit; C01_tab_room gives a simple sufficient condition, C01_no_tab is the case without TAB). C01_tab_is_unsafe is the converse: one TAB without room and the shell fails (except in the case of C30_endless); C01_tab_never: in any case it never polls again. C01_one_byte_refuted: the 1-byte buffer fails."
  },
  {
   "property": "C02",
   "status": "proved",
   "theorems": [
    "C02_codes",
    "C02_line_editing",
    "C02_key_codes"
   ],
   "note": ""
  },
  {
   "property": "C03",
   "status": "proved",
   "theorems": [
    "C03_codes",
    "C03_argv_of_hook",
    "C03_argv_is_words",
    "C03_entered",
    "C03_in_place",
    "C03_every_argv",
    "C03_typing",
    "C03_argv_of_file"
   ],
   "note": ""
  },
  {
   "property": "C04",
   "status": "proved",
   "theorems": [
    "C04_one_execution_per_line",
    "C04_blank_line",
    "C04_which_execution"
   ],
   "note": ""
  },
  {
   "property": "C05",
   "status": "proved",
   "theorems": [
    "C05_back_pressure",
    "C05_delivered",
    "C05_print_makes_pending"
   ],
   "note": ""
  },
  {
   "property": "C06",
   "status": "proved",
   "theorems": [
    "C06_idle_call",
    "C06_blind",
    "C06_any_two_schedules",
    "C06_ideal_run_decides",
    "C06_ideal_quiet_decides",
    "C06_fixed_callbacks"
   ],
   "note": ""
  },
  {
   "property": "C07",
   "status": "proved",
   "theorems": [
    "C07_result",
    "C07_false_means_idle"
   ],
   "note": ""
  },
  {
   "property": "C08",
   "status": "proved",
   "theorems": [
    "C08_back_to_polling",
    "C08_ample"
   ],
   "note": "C08_back_to_polling for every state a session within the limits reaches, C08_ample with limits on the setting and room at each TAB."
  },
  {
   "property": "C09",
   "status": "proved",
   "theorems": [
    "C09_prompt_before_reading",
    "C09_exactly_the_prompt",
    "C09_new_line_and_prompt"
   ],
   "note": ""
  },
  {
   "property": "C10",
   "status": "proved",
   "theorems": [
    "C10_codes",
    "C10_collapse_path",
    "C10_normal_form",
    "C10_collapse_every_string"
   ],
   "note": ""
  },
  {
   "property": "C11",
   "status": "proved",
   "theorems": [
    "C11_absolute_path",
    "C11_relative",
    "C11_absolute"
   ],
   "note": ""
  },
  {
   "property": "C12",
   "status": "proved",
   "theorems": [
    "C12_levels_count",
    "C12_level_prefix",
    "C12_upper",
    "C12_last",
    "C12_join",
    "C12_join_back"
   ],
   "note": ""
  },
  {
   "property": "C13",
   "status": "proved",
   "theorems": [
    "C13_mount",
    "C13_any_text",
    "C13_unnormalised_refuted",
    "C13_object_in_use_refuted"
   ],
   "note": "C13_mount: normalised absolute paths, with the effect on the tree; C13_any_text: the status for every text. The two _refuted theorems show why the path must be normalised and the object not in use."
  },
  {
   "property": "C14",
   "status": "proved",
   "theorems": [
    "C14_unmount"
   ],
   "note": ""
  },
  {
   "property": "C15",
   "status": "proved",
   "theorems": [
    "C15_abstract_map",
    "C15_history",
    "C15_lookup"
   ],
   "note": ""
  },
  {
   "property": "C16",
   "status": "proved",
   "theorems": [
    "C16_chdir"
   ],
   "note": ""
  },
  {
   "property": "C17",
   "status": "proved",
   "theorems": [
    "C17_lookup"
   ],
   "note": ""
  },
  {
   "property": "C18",
   "status": "proved",
   "theorems": [
    "C18_add",
    "C18_remove",
    "C18_groups_searched"
   ],
   "note": ""
  },
  {
   "property": "C19",
   "status": "proved",
   "theorems": [
    "C19_cat",
    "C19_cat_nothing"
   ],
   "note": "With no argument: C45_wrong_arguments."
  },
  {
   "property": "C20",
   "status": "proved",
   "theorems": [
    "C20_xxd",
    "C20_xxd_error"
   ],
   "note": "Requires columns > 0, addresses of at most 8 digits and an output buffer that holds one group of hexadecimal columns (dumpable)."
  },
  {
   "property": "C21",
   "status": "proved",
   "theorems": [
    "C21_undump",
    "C21_injective"
   ],
   "note": ""
  },
  {
   "property": "C22",
   "status": "proved",
   "theorems": [
    "C22_ls",
    "C22_ls_path"
   ],
   "note": "Requires an output buffer that holds the flags and the padded name of each file (listable)."
  },
  {
   "property": "C23",
   "status": "proved",
   "theorems": [
    "C23_help",
    "C23_help_file"
   ],
   "note": "Requires an output buffer that holds the padded name of each command (listable)."
  },
  {
   "property": "C24",
   "status": "proved",
   "theorems": [
    "C24_echo_file",
    "C24_echo_error",
    "C24_size"
   ],
   "note": "For setters that only make printing calls (ush_print, ush_print_no_newline, ush_print_status, ush_printf), or none; an output buffer under 20 bytes must hold all the formatted text. The bound on the size: C24_size."
  },
  {
   "property": "C25",
   "status": "proved",
   "theorems": [
    "C25_echo",
    "C25_echo_alone",
    "C25_echo_any",
    "C25_echo_decoded_refuted"
   ],
   "note": "Holds for text without backslashes and for echo alone; C25_echo_any gives the exact output for every text and C25_echo_decoded_refuted shows that the undecoded tail is printed when the text contains an escape."
  },
  {
   "property": "C26",
   "status": "proved",
   "theorems": [
    "C26_encode_decode",
    "C26_plain_text"
   ],
   "note": ""
  },
  {
   "property": "C27",
   "status": "proved",
   "theorems": [
    "C27_decode",
    "C27_decode_in_place",
    "C27_decode_shrinks"
   ],
   "note": ""
  },
  {
   "property": "C28",
   "status": "proved",
   "theorems": [
    "C28_none",
    "C28_one",
    "C28_leading_space_refuted",
    "C28_dot_refuted"
   ],
   "note": "Names are plain and no directory name starts with a dot (tidy). C28_dot_refuted and C28_leading_space_refuted show the two cases in which the code does not complete the word."
  },
  {
   "property": "C29",
   "status": "proved",
   "theorems": [
    "C29_extend",
    "C29_list",
    "C29_common"
   ],
   "note": "Under the same conditions as C28; C29_common states that the prefix is the longest common one."
  },
  {
   "property": "C30",
   "status": "proved",
   "theorems": [
    "C30_fits",
    "C30_exact",
    "C30_overflow",
    "C30_endless",
    "C30_overflow_one",
    "C30_extend_refuted"
   ],
   "note": "C30_exact: TAB comes to an end exactly when there is room. C30_fits describes that case, C30_overflow the memory error in the others, C30_endless the one exception (a loop). C30_overflow_one is the case of one candidate; C30_extend_refuted shows that with several candidates it is not enough that the completed line fits."
  },
  {
   "property": "C31",
   "status": "proved",
   "theorems": [
    "C31_printf",
    "C31_overflow",
    "C31_series",
    "C31_interleaved",
    "C31_small_buffer",
    "C31_format_error",
    "C31_format_error_edge",
    "C31_nul_refuted"
   ],
   "note": "Below 20 bytes an overflow writes before the buffer (C31_small_buffer); the format error message is off by one (C31_format_error_edge); a formatted NUL is taken for an overflow (C31_nul_refuted)."
  },
  {
   "property": "C32",
   "status": "proved",
   "theorems": [
    "C32_reset"
   ],
   "note": ""
  },
  {
   "property": "C33",
   "status": "proved",
   "theorems": [
    "C33_cancel"
   ],
   "note": ""
  },
  {
   "property": "C34",
   "status": "proved",
   "theorems": [
    "C34_escape_sequences"
   ],
   "note": ""
  },
  {
   "property": "C35",
   "status": "proved",
   "theorems": [
    "C35_deinit"
   ],
   "note": ""
  },
  {
   "property": "C36",
   "status": "proved",
   "theorems": [
    "C36_refuses",
    "C36_init",
    "C36_init_twice"
   ],
   "note": ""
  },
  {
   "property": "C37",
   "status": "proved",
   "theorems": [
    "C37_every_byte_in_bounds",
    "C37_bounded_for_ever",
    "C37_wraps",
    "C37_enter"
   ],
   "note": ""
  },
  {
   "property": "C38",
   "status": "proved",
   "theorems": [
    "C38_errors"
   ],
   "note": ""
  },
  {
   "property": "C39",
   "status": "proved",
   "theorems": [
    "C39_lookup",
    "C39_absolute",
    "C39_find"
   ],
   "note": ""
  },
  {
   "property": "C40",
   "status": "proved",
   "theorems": [
    "C40_operations",
    "C40_deinit"
   ],
   "note": ""
  },
  {
   "property": "C41",
   "status": "proved",
   "theorems": [
    "C41_session",
    "C41_every_schedule",
    "C41_completes",
    "C41_from_init"
   ],
   "note": "Limits: run_limits in Session.v (built-in callbacks on the built-in commands only; the exec hook and the callbacks of the application print and make correct tree calls that leave a current directory; buffers large enough)."
  },
  {
   "property": "C42",
   "status": "proved",
   "theorems": [
    "C42_printing",
    "C42_last_call_wins",
    "C42_shipped_texts"
   ],
   "note": ""
  },
  {
   "property": "C43",
   "status": "proved",
   "theorems": [
    "C43_current_stays",
    "C43_current_lost"
   ],
   "note": ""
  },
  {
   "property": "C44",
   "status": "proved",
   "theorems": [
    "C44_pwd",
    "C44_cd"
   ],
   "note": ""
  },
  {
   "property": "C45",
   "status": "proved",
   "theorems": [
    "C45_wrong_arguments"
   ],
   "note": ""
  },
  {
   "property": "C46",
   "status": "proved",
   "theorems": [
    "C46_callback_output"
   ],
   "note": ""
  },
  {
   "property": "C47",
   "status": "proved",
   "theorems": [
    "C47_history",
    "C47_once",
    "C47_kept",
    "C47_replaced",
    "C47_changes",
    "C47_lookup"
   ],
   "note": ""
  },
  {
   "property": "C48",
   "status": "proved",
   "theorems": [
    "C48_callback",
    "C48_setter",
    "C48_reset",
    "C48_lost_directory_refuted"
   ],
   "note": "C48_lost_directory_refuted: the exception for the current directory."
  },
  {
   "property": "C49",
   "status": "proved",
   "theorems": [
    "C49_call",
    "C49_turns",
    "C49_turns_complete",
    "C49_while_listing_refuted"
   ],
   "note": "C49_while_listing_refuted: calls in the middle of a listing."
  },
  {
   "property": "C50",
   "status": "proved",
   "theorems": [
    "C50_independent",
    "C50_from_the_start",
    "C50_shared_node_refuted"
   ],
   "note": ""
  },
  {
   "property": "C51",
   "status": "proved",
   "theorems": [
    "C51_cat",
    "C51_xxd",
    "C51_printing_getter_hangs",
    "C51_lost_file_crashes",
    "C51_cat_no_pointer",
    "C51_xxd_null",
    "C51_xxd_unset_refuted"
   ],
   "note": ""
  },
  {
   "property": "C52",
   "status": "proved",
   "theorems": [
    "C52_settled",
    "C52_kept",
    "C52_printing",
    "C52_printf",
    "C52_ample",
    "C52_scratch_refuted"
   ],
   "note": "The session with printing turns is C49_turns / C49_turns_complete."
  },
  {
   "property": "C53",
   "status": "proved",
   "theorems": [
    "C53_start",
    "C53_polls",
    "C53_tree",
    "C53_drive",
    "C53_interrupt",
    "C53_prefix",
    "C53_safe"
   ],
   "note": ""
  },
  {
   "property": "C54",
   "status": "proved",
   "theorems": [
    "C54_start",
    "C54_drive",
    "C54_service",
    "C54_call",
    "C54_print",
    "C54_flush",
    "C54_returns",
    "C54_says",
    "C54_unprinted",
    "C54_careless_refuted"
   ],
   "note": "From ush_init (after the root and the commands are in place) or any polling state; the two cases that need care are in the statement, and C54_careless_refuted shows that they are needed (also for TAB). TAB within a history needs room for every name there may be (tab_fine); TAB in the input that follows needs tabs_fit, as in C01. Interruption by ush_printf never fails given 20 bytes of output buffer, as in C31 (C54_print); what it prints is stated if it fits behind the text in the buffer (C54_says). C54_unprinted needs an exec hook and data callbacks that do not use the output buffer: the text they leave in it can be overtaken by a command and come out with the next ush_printf."
  },
  {
   "property": "C55",
   "status": "proved",
   "theorems": [
    "C55_initialize",
    "C55_initialize_sizes",
    "C55_basic",
    "C55_basic_refuted",
    "C55_tab_refuted",
    "C55_linux",
    "C55_linux_refuted",
    "C55_setters",
    "C55_ram"
   ],
   "note": "TAB is limited because of C30 (C55_tab_refuted). The hardware answers are any function of what has been typed, the answer of the getter of /etc/hostname as well; the host name in the prompt is the one last written (linux_name)."
  },
  {
   "property": "C56",
   "status": "proved",
   "theorems": [
    "C56_runs",
    "C56_alone",
    "C56_usage",
    "C56_only",
    "C56_none"
   ],
   "note": "C56_runs: the whole session for every configuration; C56_alone, C56_usage, C56_only: the answers spelled out in the table of Builtin.v; C56_none: all switched off."
  },
  {
   "property": "C57",
   "status": "proved",
   "theorems": [
    "C57_print",
    "C57_kept",
    "C57_too_short",
    "C57_cat",
    "C57_xxd",
    "C57_xxd_kept",
    "C57_xxd_torn_refuted"
   ],
   "note": "C57_print, C57_cat: any changes of the memory between service calls and any readiness of the output; C57_too_short: memory that shrank; C57_xxd: exact dump of changing memory; C57_kept, C57_xxd_kept: unchanged memory; C57_xxd_torn_refuted: columns and characters may disagree."
  },
  {
   "property": "C58",
   "status": "proved",
   "theorems": [
    "C58_start",
    "C58_session",
    "C58_shutdown"
   ],
   "note": "C58_start: the object after any lives begins a life (C54 applies); C58_session: the whole session in the new life; C58_shutdown: ush_deinit at any moment."
  },
  {
   "property": "C59",
   "status": "proved",
   "theorems": [
    "C59_session",
    "C59_session_every_schedule",
    "C59_session_completes",
    "C59_session_from_init",
    "C59_process",
    "C59_finish",
    "C59_endless",
    "C59_none"
   ],
   "note": "C59_process: a process that is silent m times and then prints; C59_finish: one that assigns the state; C59_endless: one that makes no call, for every schedule; C59_none: a file without process. C59_session, _every_schedule, _completes, _from_init: whole sessions with any number of processes."
  },
  {
   "property": "C60",
   "status": "proved",
   "theorems": [
    "C60_one_thing",
    "C60_count"
   ],
   "note": "C60_one_thing: every call from every state; C60_count: every history."
  },
  {
   "property": "C61",
   "status": "proved",
   "theorems": [
    "C61_any_moment",
    "C61_name",
    "C61_every_schedule",
    "C61_completes",
    "C61_from_init"
   ],
   "note": "C61_any_moment, C61_name: every state; C61_every_schedule, C61_completes, C61_from_init: every session within the limits of C41. The name does not change while it is itself being printed."
  },
  {
   "property": "C62",
   "status": "proved",
   "theorems": [
    "C62_help_exact",
    "C62_help",
    "C62_ls_exact",
    "C62_ls_path_exact",
    "C62_ls",
    "C62_ls_path",
    "C62_xxd_exact",
    "C62_xxd",
    "C62_every_schedule"
   ],
   "note": "Necessity here; sufficiency (and what is printed then) by C20, C22, C23. Names are C strings; xxd data up to 2^32 bytes and at least one column."
  },
  {
   "property": "C63",
   "status": "proved",
   "theorems": [
    "C63_learns_every_schedule",
    "C63_learns_completes",
    "C63_learns_from_init",
    "C63_getters_refuted",
    "C63_every_schedule",
    "C63_completes",
    "C63_from_init",
    "C63_limits"
   ],
   "note": "Generalises C41: the callbacks answer from the whole history up to the byte being answered. C63_limits: the limits hold for any input without TAB in a snug setting. C63_learns_*: the application drives the shell directly and may change with every byte read, setter and command of its own; getters whose answers change with each getter call are outside (C63_getters_refuted)."
  },
  {
   "property": "C64",
   "status": "proved",
   "theorems": [
    "C64_learns_write",
    "C64_learns_cat",
    "C64_learns_xxd",
    "C64_learns_reads_back",
    "C64_learns_linux",
    "C64_write",
    "C64_cat",
    "C64_xxd",
    "C64_reads_back",
    "C64_linux"
   ],
   "note": "Without exec hook. C64_reads_back: any input in between. C64_linux cuts data longer than the memory (the code writes past its end, C55) and keeps the host name. C64_learns_*: the contents change when the setter is called."
  },
  {
   "property": "C65",
   "status": "proved",
   "theorems": [
    "C65_calls",
    "C65_sum",
    "C65_silence",
    "C65_session",
    "C65_no_search",
    "C65_memory",
    "C65_from_init",
    "C65_learns",
    "C65_processes"
   ],
   "note": "The answer must come to an end (fed_by): an application whose process callback prints for ever has none. C65_session and C65_memory: that holds for the sessions of C41 and C63, with completion (TAB) counted by searches. C65_calls and C65_silence are for input without completion (no_completion). C65_learns, C65_processes: learning applications; sessions with processes."
  },
  {
   "property": "C66",
   "status": "proved",
   "theorems": [
    "C66_calls",
    "C66_history",
    "C66_arguments",
    "C66_registered",
    "C66_only_known"
   ],
   "note": "C66_calls, C66_history and C66_arguments assume nothing about the state. C66_registered and C66_only_known say it in terms of the mounted directories and registered groups of C15 and C18. For a process callback 'the file last started' is the object's process_file field."
  },
  {
   "property": "C67",
   "status": "proved",
   "theorems": [
    "C67_start",
    "C67_session",
    "C67_commands_needed",
    "C67_children_needed"
   ],
   "note": "C67_start, C67_session: any contents, including dangling pointers, except the two kinds of pointers. C67_commands_needed, C67_children_needed: witnesses that each condition is needed. Pointer fields hold arbitrary references; memory that is read before it was written counts as holding some value."
  },
  {
   "property": "C68",
   "status": "proved",
   "theorems": [
    "C68_devices",
    "C68_larger",
    "C68_short_lines_needed"
   ],
   "note": "C68_devices: any two sizes. C68_larger: the limits are monotone in the sizes. Both start in the same session state (shows), hence also from ush_init (C41_from_init). C68_short_lines_needed: witness that the limit on lines cannot be dropped."
  },
  {
   "property": "C69",
   "status": "proved",
   "theorems": [
    "C69_forgets",
    "C69_histories"
   ],
   "note": "Both theorems start in sessions of C41 (shows); an application's memory is its dependence on the bytes read so far, and no_memory_of is the weakest condition on it (equal answers whatever is read from then on)."
  },
  {
   "property": "C70",
   "status": "proved",
   "theorems": [
    "C70_typing"
   ],
   "note": "For the sessions of C41, at every polling point of every schedule, also in the middle of the input."
  },
  {
   "property": "C71",
   "status": "proved",
   "theorems": [
    "C71_screen",
    "C71_first",
    "C71_clean",
    "C71_answers",
    "C71_xxd",
    "C71_full_line_refuted"
   ],
   "note": "The terminal keeps one unbounded row (no wrapping) and LF also returns to the start of the row. C71_full_line_refuted: a line that fills the input buffer starts over while the screen still shows it. C71_clean: printable text, line ends and colours are clean, so the condition on callbacks is met by ordinary output. C71_answers reduces the condition on answers to plain names, texts and callbacks; a dump by xxd is always clean (C71_xxd)."
  },
  {
   "property": "C72",
   "status": "proved",
   "theorems": [
    "C72_runs",
    "C72_files",
    "C72_cd"
   ],
   "note": "In sessions of C41; the only limits are those of the line itself (line_limits), nothing is assumed about what was typed before."
  },
  {
   "property": "C73",
   "status": "proved",
   "theorems": [
    "C73_extends",
    "C73_again",
    "C73_prints",
    "C73_works"
   ],
   "note": "For lines with room to complete (C41). A second TAB with names that contain spaces may complete another word, hence the condition."
  },
  {
   "property": "C74",
   "status": "proved",
   "theorems": [
    "C74_order"
   ],
   "note": "For applications whose callbacks leave the tree alone (leaves_tree). The example has two shells, mounted in different orders, that only ls tells apart."
  },
  {
   "property": "C75",
   "status": "proved",
   "theorems": [
    "C75_ls",
    "C75_help",
    "C75_explore"
   ],
   "note": "For shells without an exec hook (it may print, too). The reader (Listing.v) knows nothing about the column width or whether colours are on. C75_explore is about listings that tell what C75_ls recovers."
  },
  {
   "property": "C76",
   "status": "proved",
   "theorems": [
    "C76_words",
    "C76_blanks"
   ],
   "note": "no_memory_of says that the callbacks answer alike after the two histories; without it the application could tell the difference, see C63."
  },
  {
   "property": "C77",
   "status": "proved",
   "theorems": [
    "C77_at_once",
    "C77_no_trace",
    "C77_for_a_while"
   ],
   "note": "The current directory is excluded because unmounting it leaves the shell without one (C48_lost_directory_refuted)."
  },
  {
   "property": "C78",
   "status": "proved",
   "theorems": [
    "C78_colours"
   ],
   "note": "decorated inserts whole colour codes between events; an application that itself prints escape sequences is covered, too."
  },
  {
   "property": "C79",
   "status": "proved",
   "theorems": [
    "C79_no_completion"
   ],
   "note": "deaf_to_tabs: the callbacks do not depend on how many TABs were read; without it the application could tell the difference."
  },
  {
   "property": "C80",
   "status": "proved",
   "theorems": [
    "C80_line_ends",
    "C80_empty_line",
    "C80_overflow_refuted"
   ],
   "note": "C80_overflow_refuted shows that the condition on ush_printf is needed: the bytes echoed for the line end stay in the output buffer, so a text that just fits after LF is cut off after CR."
  },
  {
   "property": "C81",
   "status": "proved",
   "theorems": [
    "C81_looks"
   ],
   "note": ""
  },
  {
   "property": "C82",
   "status": "proved",
   "theorems": [
    "C82_amends"
   ],
   "note": ""
  },
  {
   "property": "C83",
   "status": "proved",
   "theorems": [
    "C83_alias"
   ],
   "note": ""
  },
  {
   "property": "C84",
   "status": "proved",
   "theorems": [
    "C84_watching"
   ],
   "note": ""
  },
  {
   "property": "C85",
   "status": "proved",
   "theorems": [
    "C85_local"
   ],
   "note": ""
  },
  {
   "property": "C86",
   "status": "proved",
   "theorems": [
    "C86_again",
    "C86_any_order"
   ],
   "note": ""
  },
  {
   "property": "C87",
   "status": "proved",
   "theorems": [
    "C87_shuffled"
   ],
   "note": ""
  }
 ]
}
# Formal model of microshell in Rocq/Coq: design

## Approach

The whole C library (`/repo/src/src/**`, `/repo/src/inc/**`) is a small asynchronous
state machine working on caller-supplied memory.  It is modelled function by function
as total, executable Gallina functions (Coq standard library only) that return

    res A := Ok a | Err e

where `Err` is a *distinct* outcome for every way the C program can go wrong:
access outside an array (`EOob`), use of a null or dangling pointer (`ENull`), use of an
indeterminate value (`EUninit`), failed `USH_ASSERT` (`EAssert`), size_t wrap used as
size or index (`EWrap`), endless walk over a cyclic list (`EDiverge`).  Safety theorems
say that the outcome is `Ok`; `..._refuted` theorems exhibit runs that go wrong or that
do something else than one would expect.

Model state (`st`, Types.v): every field of `struct ush_object`, the two working
buffers (lists of bytes of fixed length), the node objects (a list indexed by node id,
with `parent/children/next` links as in C), and a log of observable events (byte read,
byte written, exec/get/set/process callback called with its arguments).

One `ush_service` call is `ush_service io s : res (bool * st)`.  `io` carries everything
the outside world answers during that call: the result of the read callback, whether
the write callback accepts, and the behaviour of the user callbacks (`env`).  A history
is a list of `io`s and API calls (`run`); quantifying over lists quantifies over all
schedules.  `drive e cs l s` runs the shell on the input queue `cs` under the schedule
`l` (for each service call: has the next byte arrived, does the output accept a byte).

## Files (rocq/theories)

| file | content |
|---|---|
| **Model** | |
| Base.v | bytes, `res`, C string primitives on bounded buffers |
| Utils.v | ush_utils.c |
| Types.v | ush_types.h, ush_config.h, ush_shell.h: descriptor, file, node, object, configuration |
| Node.v | ush_node*.c, ush_file.c, ush_commands.c on linked nodes |
| Shell.v | ush.c, ush_write*.c, ush_read*.c, ush_parse*.c, ush_prompt.c, ush_reset.c, ush_process.c, ush_autocomp*.c, commands/*.c; `ush_service`, `ush_init`, `ush_deinit` |
| FuncTests.v, UnitTests.v | the project's functional tests and every one of its unit tests replayed on the model: tests of the model, not proofs |
| **Specification** (no state machine inside) | |
| Spec.v | component lists, normal form of paths, escapes |
| Words.v | splitting of a line into words |
| Editor.v | line editor: line and echo after each byte; what the buffer keeps of an over-long line |
| Sched.v | schedules, applications with a memory, polling, pending output, prompt text, fair callbacks |
| History.v | counting lines and executions in a log |
| Line.v | a line that has been entered, its answer |
| Tree.v | abstract directory tree and command groups; `knows`: the linked nodes represent it |
| Cmds.v | texts printed by the built-in commands, printing callbacks |
| Complete.v | completion candidates, common prefix |
| Session.v | the abstract shell: one step per byte, limits; typing and API calls by turns |
| Interrupt.v, Busy.v | histories of service calls and API calls at any moment; what the calls so far have done |
| Multi.v | programs with several shells sharing the memory of node objects |
| Examples.v | the example programs of the repository as users of the shell (model), and what is claimed of them |
| Live.v | memory of the application that changes while the shell prints from it |
| Lives.v | an object that is used, shut down and used again, any number of times |
| Process.v | applications whose process callback acts by the number of its calls |
| OneStep.v | what one call of ush_service may do |
| Host.v | host names that change while the shell runs |
| Room.v | commands that run past the output buffer |
| Memory.v | applications that remember everything; files that keep what is written |
| Learn.v | applications that learn at any moment |
| ProcSession.v | sessions in which commands start processes |
| Time.v | what the events of an answer are worth in service calls |
| Texts.v | the messages of the shipped configuration, spelled out |
| Calls.v | files that are registered; what a callback may be given |
| Dirty.v | an object that was not zeroed |
| Sizes.v | shells that differ in the sizes of their buffers |
| Forget.v | applications without memory, applications that leave the tree alone |
| Screen.v | a small terminal, and when its row shows the prompt and the line |
| Reach.v | ^C and a quoted command line |
| Order.v | trees that differ in the order of mounting only |
| Listing.v | a reader of what ls and help print |
| Spacing.v | lines with the same words |
| Undo.v | calls that take back another |
| Colours.v | the same shell without colours |
| NoTab.v | the same shell without completion |
| LineEnd.v | the same input with other line ends |
| Looks.v | two shells that differ in how they look |
| Amend.v | keys that are taken back |
| Alias.v | the same places by other names |
| Watch.v | the same shell without its exec hook |
| Local.v | what a change of the tree may change |
| Again.v | applications without memory, repeated input |
| Shuffle.v | trees equal up to the order of directories, files and commands |
| Builtin.v | the table of the built-in commands and what they answer |
| **Lemmas** | BaseFacts, PathFacts, CollapseFacts, PathProofs, PathJoin, DecodeFacts, LogFacts, ServiceFacts, SchedFacts, Macro, EditFacts, EditProofs, KeyCodes, ParseFacts, PromptFacts, PhaseFacts, LineFacts, LineProofs, NamesProofs, ExecFacts, SchedProofs, TreeFacts, TreeOps, TreeFind, TreeProofs, MountProofs, CmdFacts, CmdProofs, PrintfFacts, PrintfProofs, HookFacts, HookProofs, ReconfProofs, HookTree, CompleteFacts, CompleteProofs, SessionProofs, IdleFacts, StepFacts, InterruptProofs, BusyFacts, BusyTrack, BusyTab, BusyWork, BusyProofs, BusySay, ExampleProofs, BuiltinProofs, LiveProofs, BuildinFacts, LivesProofs, ProcessProofs, MultiFacts, MultiProofs, MemoryProofs, GetProofs, IdleProofs, OneStepProofs, HostFacts, HostProofs, OffPrompt, RoomProofs, DemoRoom, TimeProofs, TabTime, TabTimeProofs, TextProofs, LearnProofs, ProcSessionProofs, TimeMoreProofs, CallsProofs, DirtyProofs, SizesProofs, ForgetProofs, ScreenProofs, ReachProofs, OfferProofs, OrderProofs, ListingProofs, SpacingProofs, UndoProofs, ColoursProofs, NoTabProofs, LineEndProofs, LooksProofs, AmendProofs, AliasProofs, WatchProofs, LocalProofs, AgainProofs, ShuffleProofs, CodesProofs |
| **Theorems** | PropPaths, PropSched, PropEdit, PropLine, PropNames, PropTree, PropCmd, PropPrintf, PropHook, PropComplete, PropSession, PropReconf, PropGet, PropIdle, PropInterrupt, PropBusy, PropExamples, PropBuiltin, PropLive, PropLives, PropProcess, PropMulti, PropOneStep, PropHost, PropRoom, PropMemory, PropTime, PropTexts, PropLearn, PropProcSession, PropTimeMore, PropCalls, PropDirty, PropSizes, PropForget, PropScreen, PropReach, PropOffer, PropOrder, PropListing, PropSpacing, PropUndo, PropColours, PropNoTab, PropLineEnd, PropLooks, PropAmend, PropAlias, PropWatch, PropLocal, PropAgain, PropShuffle, PropCodes: the property theorems, each with `Print Assumptions` beneath and an example whose hypotheses a concrete shell meets |
| Demo.v, DemoCmd.v | the concrete shell of the examples: reached from `ush_init` by three mounts |

## Properties: what is modelled and how it is proved

* C01, C08 (PropSession): corollaries of C41 for settings with enough room (`snug`; C53 and C54 use
  `ample`, which asks for two bytes more of path_max_length).  TAB needs room in addition:
  `tabs_fit` (C01_typing_is_safe); C01_tab_is_unsafe and C01_tab_never are the converse.
  C01_one_byte_refuted: the 1-byte input buffer which `ush_init` accepts is unsafe.
* C02, C33, C34, C37 (PropEdit): simulation of `ush_read_char` against the editor of
  Editor.v, for every byte, also beyond the end of the buffer.
* C03, C04, C38 (PropLine, PropNames): loop invariant relating the in-place rewriting of
  the input buffer to the word list; dispatch from the state machine lemmas; the history
  part of C04 is an invariant over all service and API calls.
* C05, C06, C07, C09, C32, C42 (PropSched): case analysis of `ush_service`, induction
  over schedules.
* C10, C11, C12, C26, C27 (PropPaths): loop invariants of the pointer loops against
  component lists; induction on the string.
* C13 to C18, C35, C36, C39, C40, C43 (PropTree): the linked nodes represent an abstract
  tree (`knows`); each operation commutes with the abstract one.  C39 is exact: the
  functions go out of bounds if and only if the strings do not fit.
* C19 to C25, C44, C45 (PropCmd): macro steps of the process states, induction on data
  and lists.
* C28 to C30 (PropComplete): induction over the two passes of the candidate
  enumeration; longest common prefix.
* C31, C46 (PropPrintf): buffer arithmetic of `ush_printf`, series of printing calls.
* C47 (PropHook): the invariant of C04 for the hook instead of the files; a second
  invariant relates each call of a file to the hook call before it.  A hook that changes the
  tree: the lemmas of C03 to C48 start after the hook (`poised` in HookFacts), in the tree it leaves.
* C41 (PropSession): composition of all the above into one refinement theorem: the shell
  under every schedule does what the abstract shell of Session.v does, from `ush_init` on.
  The application has a memory: its callbacks are a function of all the bytes read so far.
* C48 (PropReconf): induction over the calls of a callback, by the commutation lemmas of
  C13 to C18 and the buffer lemmas of C31/C46.
* C49 (PropReconf): C41 composed with the tree operations.
* C50 (PropMulti): every model function is shown to read and write only the shell's own node
  objects (a relational proof over two memories that agree on them); induction over the
  interleaving.
* C51 (PropGet): induction over the names; each is looked up in the world left by the getters
  before it; the hang by showing that service calls leave the state unchanged.
* C52 (PropIdle, C49_turns in PropReconf): an invariant of all service calls (the output
  buffer, if printed last, holds an echo of at most three bytes, all printed, whenever the
  shell polls), then the buffer lemmas of C31/C46; C49 with turns in which the application
  prints, flushes or resets.
* C53 (PropInterrupt): an invariant of every single service call and API call (StepFacts:
  the heap represents the world that the calls so far produce, the buffers keep their
  sizes, a process at work is one of the shell's own), by cases over the states; then the
  lemmas of C31, C32, C42 from any state, and C41 for what follows.
* C54 (PropBusy): in addition to the invariant of C53, an invariant of help, ls, xxd, cat
  and completion at work (BusyFacts, BusyTrack: which node each cursor is on or was on, and that nodes taken
  off a list stay linked to what follows until they are handed over again), kept by every
  service call and every call of the main loop; a measure that each service call decreases
  and no call of the main loop increases beyond what it adds (BusyWork, BusyTab); then induction over
  the history (BusyProofs).  What ush_printf prints at any moment follows from the same invariant
  (the output buffer holds a text of which a part is printed) and one more (BusySay): nothing of it is
  left when the shell is not printing.
* C55 (PropExamples): the example programs are settings (descriptor and callbacks) and lists of
  calls (Examples.v); ExampleProofs shows that they are `snug` for symbolic sizes and any
  hardware answers, so that C41 applies (C61 for demo_linux, whose host name changes); the failing inputs are run.
* C56 (PropBuiltin): the empty shell is `snug` for every configuration (BuiltinProofs), so that C41
  applies; the answers are then computed in the session for symbolic switches.
* C57 (PropLive): the model keeps what a pointer points to in the state, so that a change of the
  application's memory is an assignment there (Live.v).  Induction over the service calls, with
  a change before each; for xxd the invariant of C20 without the data.
* C58 (PropLives): C54's invariant holds at every moment of a life, and gives the directories
  and commands that ush_deinit then takes apart (C35); what ush_init needs is that no node object
  but its own holds children, which survives (LivesProofs).  Induction over the lives.
* C59 (PropProcess): induction over the silent calls; the last call is C48's.
* C59 again (PropProcSession): whole sessions some of whose lines start processes. A call of ush_service that runs no process callback does not depend on it, so the lines without processes are those of C41; nothing is read while a process runs, so its line is that of C59. Induction over the input.
* C60 (PropOneStep): case analysis over the states; induction over the history for the counts.
* C61 (PropHost): every function commutes with a change of the host name, except the one that prints it; simulation of the session with a host name that changes by the session with a fixed one, byte by byte. Simplification: the name does not change while it is itself being printed.
* C62 (PropRoom): the loops of C20, C22 and C23 up to the first text that does not fit, where sprintf/strcat leave the buffer (error EOob); with C20, C22, C23 an equivalence.
* C63 (PropMemory): while a byte is answered such an application is a fixed one, so each byte is a step of C41; induction over the input, with the schedules as in C41.
* C64 (PropMemory): C63, the answers of echo, cat and xxd, `decode (encode data) = data` (C24) and `words (command_line ws) = ws` (C03); contents of a file as a fold over the setter calls in the history. Instance: demo_linux.
* C42 again (PropTexts): the general theorem at `cfg_posix`, with the table of Texts.v in place of the model's strings.
* C63, C64 again (PropLearn): without `at_reads`. A call of ush_service that calls no callback of the application does not depend on the callbacks; in the events of one byte nothing is asked after a lesson (a setter or a command of the application). So an application that changes only by lessons answers as if it had been asked when the byte was read. One whose getters change their answer is outside: `C63_getters_refuted`.
* C65 (PropTime): amortised cost: a potential over the internal states that every call with both sides ready decreases by one and every event pays for with its toll; callbacks may move the shell anywhere, so each is paid with a whole walk over the nodes. Silent loops never reach the state awaited. Completion, in which passes over the names happen silently, is counted in sessions by repeating the lemmas of C28 to C30 with the number of calls (TabTime, TabTimeProofs). PropTimeMore: the same for applications that learn at any moment, and for sessions with processes.
* C66 (PropCalls): no invariant: the lookup functions are followed along the pointers they read, from the list of groups and from the root, so what they return is a file of a linked node object; every place that logs a callback has just looked its file up. The argument offsets are consecutive strings of the input buffer. Under the relation of C15 and C18 the linked node objects are the mounted directories and registered groups.
* C67 (PropDirty): [dirty_object] fixes two pointers and nothing else; the relation of C15 and C18 holds after ush_init from such a state, since it says nothing of the other fields, and C41's proof goes on from there. Two runs by computation show that neither condition can be dropped.
* C68 (PropSizes): the abstract shell of C41 uses the sizes in three places only (a full line, the kept line, the text of ush_printf), where the limits make them irrelevant; the limits of C41 only bound lengths from above by sizes, so they are monotone.
* C69, C70 (PropForget): C41 reduces both to the abstract shell, where they are inductions over the input: what was read before is used by the application only, and only cd and calls of callbacks give a new world.
* C71 (PropScreen): a terminal is specified without reference to the shell; every step of the abstract shell of C41 keeps "the row ends with prompt and line", and C41 carries this to the device at every polling point. Only the row of the cursor is modelled and rows have no end (no wrapping).
* C72 (PropReach): ^C empties the line and ends an escape sequence in the abstract shell, a quoted line reads as its words (C03_every_argv), and C41 carries the execution to the device.
* C73 (PropOffer): facts about the specification of completion (a candidate starts with the word; the candidates of the completed word are those of the word that start with it), carried to the device by C41.
* C74 (PropOrder): looking up a path and a name gives the same in two well-formed trees with the same entries; candidates are permutations of each other and the longest common prefix does not depend on the order; induction over the input, carried to both devices by C41.
* C75 (PropListing): a reader is defined that is independent of the printing; induction over the entries shows that it inverts the texts of C22 and C23, which C41 and C72 bring to the device.
* C76 (PropSpacing): the answer to a line is a function of its argument vector; afterwards C69 applies. Blanks: induction over the text with the state of quoting.
* C77 (PropUndo): in the abstract world the two calls cancel out (a directory that was not mounted has no children); then C49 and C69.
* C78 (PropColours): each text of the abstract shell with colours decorates the one without; induction over the input; the limits of the latter are weaker.
* C79 (PropNoTab): step by step, TABs skipped; the limits of the shell without completion follow from those of the other one.
* C80 (PropLineEnd): step by step; what is printed after the echo does not depend on its length as long as everything fits. Where it does not fit, a witness (C80_overflow_refuted).
* C81 (PropLooks): step by step, the calls and the world do not depend on the descriptor's texts and sizes; then by C41 for both shells.
* C82 (PropAmend): by induction over the detour the editor comes back to where it was; then by C69.
* C83 (PropAlias): the built-in commands use a name only through what it resolves to; then by C41 for both shells.
* C84 (PropWatch): step by step, the limits carry over; then by C41 for both shells.
* C85 (PropLocal): by C15 the calls act as on the abstract tree and by C17 lookups answer from it; there by cases.
* C86 (PropAgain): after one round the session stands as before it (C70's lemma for the tree, the last line end for the line), so by C69's lemma every round is like the first; by induction on the rounds, then lifted by C41's schedule lemma.
* C87 (PropShuffle): as C74, with lookup by name invariant under permutations of lists with distinct names.
* C03_codes (PropCodes): the characters with a meaning in a line, by their codes, as C02_key_codes does for keys.

No property is dropped as inexpressible.  Where the code does not do what the English
sentence says in general, the sentence states the exception, and a `_refuted` theorem
(or the exact failure, e.g. C30_overflow, C31_small_buffer, C36_init_twice) proves it.

## Trusted base

* Coq 8.16.1's kernel, including `vm_compute` (used in examples and for concrete
  witnesses).
* Axioms: none.  `Print Assumptions` beneath every property theorem prints
  "Closed under the global context".  (Files that import `Lia` etc. load the standard
  library's ssreflect modules, whose module-type fields a scan may list; no theorem here
  depends on them.)
* `coqchk -o` on all Prop*.v modules and the test modules, with everything they depend on, accepts them and
  reports: no axioms, no type-in-type, no unsafe fixpoints, no assumed positivity.
* The faithfulness of the reading of the C code: each model definition cites the file
  and lines it models, and FuncTests.v and UnitTests.v run the project's own tests on it.

### Modelled

Every function of `src/src/*.c` and `src/src/commands/*.c`: initialisation, reset, deinit,
service dispatch, reading with escape sequences and echo, in-place parsing, prompt,
writing with back-pressure, processes, completion, node and command lists, path
arithmetic, hex escapes, all seven built-in commands, the printing API.  All
configuration switches (styles, autocompletion, commands, each command on or off, column
width, xxd columns, translations) are parameters.  (`ush_reset_start`, which nothing calls,
is the one-line set-up of the state from which C09_new_line_and_prompt starts.)  The four example programs (Examples.v):
descriptors, files, callbacks and the calls that set them up.

### Not modelled

* `vsnprintf`'s formatting itself: `ush_printf` takes the formatted text (or the error)
  as a parameter; all of its buffer handling is modelled.
* `sprintf` in the built-in commands is modelled by the text it produces for the
  format used there.
* The Arduino glue, the tests and the website; of the examples the terminal set-up, the
  serial port (any schedule of bytes stands for it) and the hardware (any answers, as a
  function of what has been typed).
* Concurrency: microshell has no threads; service calls and API calls are atomic.
* Stack overflow, alignment, size_t overflow by huge buffers (sizes are natural numbers;
  subtractions that can go below zero are checked).

### Simplifications

* `file_list` with `file_list_size` (and commands likewise) is one list; file names are
  not NULL.
* The strings passed to mount and the descriptors are immutable while in use.
* A getter's data, and texts passed to the printing calls, do not change while they are
  printed; C57 drops this for one text, file or dump at a time.
* A user callback is the list of API calls it makes.  It may depend on the arguments, and
  between service calls on time (`io` carries the callbacks); in C06 and C41 it may depend
  on everything that happened before (`application`).
* `ush_deinit` leaves the `desc` field in place (in C it becomes NULL).
* C strings given by the user (names, paths) contain no NUL where a theorem says so.

## Findings

The model is faithful to these behaviours of the code; theorems state the marked ones.

* An input buffer of 1 byte passes `ush_init` but the first end of line reads outside it
  (C01_one_byte_refuted).
* A line longer than the buffer wraps to its start (C37_wraps).
* `ush_init` twice makes the command list cyclic, and lookups do not terminate
  (C36_init_twice).
* `ush_node_mount` accepts "//b" (and "/dev/"), which then can be mounted again, and neither found nor
  unmounted (C13_unnormalised_refuted); given an object that is in use it renames that directory
  although it reports an error, or makes others disappear (C13_object_in_use_refuted).
* Unmounting the current directory leaves `current_node` pointing to the unmounted node
  object (C43_current_lost), also if a callback does it; the shell moves with the object if it
  is mounted elsewhere (C48_lost_directory_refuted); after unmounting "/" the root is NULL but the current node stays.
* Words longer than path_max_length allows overflow stack buffers (C39_*).
* `echo` prints the undecoded tail of a text with escapes (C25_echo_decoded_refuted).
* Completion is not checked against the buffer (C30_overflow, C30_overflow_one), or it loops for
  ever if all names share a beginning that fills the buffer (C30_endless);
  with several it fails although the completed line would fit (C30_extend_refuted);
  it ignores words after leading blanks and directories whose name starts with a dot
  (C28_leading_space_refuted, C28_dot_refuted).
* `ush_printf`: below 20 bytes of output buffer an overflow writes before the buffer
  (C31_small_buffer); the format error message is off by one (C31_format_error_edge); a
  formatted NUL counts as an overflow (C31_nul_refuted); the overflow text ends with a
  printed NUL (C31_overflow).
* What the application-wide exec hook prints is replaced by what the file's exec callback
  or the "syntax error" message prints (C47_replaced).
* What the exec hook has printed before a built-in that starts a process (`ls`, `help`, `cat`,
  `xxd`) is not printed then; it stays in the output buffer (hence `plain_app` in C54_unprinted).
* `ush_printf` from the main loop while a listing is printed cuts it off in the middle of a line: the
  text in the output buffer comes out first, the name in print (a string elsewhere) does not
  (C54_says_example).
* `ush_print` copies nothing: a text in a buffer that is reused or freed before it has been printed
  comes out changed or is read out of bounds (C57_print, C57_too_short).  `xxd` reads each row
  twice, so that columns and characters may differ (C57_xxd_torn_refuted).
* With every built-in switched off `ush_init` fails its assertion (C56_none).
* `help`, `ls` and `xxd` build their lines with sprintf/strcat and leave an output buffer that is too
  small for them (C62_help, C62_ls, C62_xxd).
* A hook that prints one of its arguments (a pointer into the input buffer) prints it
  altered when the line is `echo text > file` with escapes in the text, which `echo` decodes in
  place (hence the restriction on the calls in C24_echo_file).
* A getter that does not set its pointer makes `cat` use an indeterminate pointer (C51_cat_no_pointer)
  and `xxd` show the data of the file dumped before (C51_xxd_unset_refuted).
* A getter that prints during `cat` stops the shell for good: `cat` takes the state the print
  left behind as the one to go on with (C51_printing_getter_hangs); during `xxd` the printing is lost.
* `cat` checks all its arguments first and does not check again; a getter that makes a later
  argument unreadable (by unmounting, or by changing the directory) makes it follow NULL
  (C51_lost_file_crashes).
* `ush_service` returns false in the state before polling although it made progress
  (C07_result).
* ESC [ 3 ~ leaves a '~' in the line; CR in the middle of an escape sequence is
  swallowed (C34, exact in C02/C37/C41 through the editor).
* A directory unmounted and mounted elsewhere while `ls` is at it makes the listing go on
  with the other directory's entries (C49_while_listing_refuted).
* `ush_printf` while the shell polls appends to the output buffer if an echo was printed last;
  text the application has put there itself is taken for text already printed
  (C52_scratch_refuted).
* A mount that fails still overwrites the node object's path and file list.
* Reconfiguring from the main loop while a command is at work can make `ush_service` follow
  NULL: unmounting a file that `cat` has checked but not yet printed; handing over again the
  node object `ls`, `help` or TAB completion is at (C54_careless_refuted).  Everything else is safe (C54_service).
* Example programs: with the shipped sizes a word of 27 characters typed in /dev overflows the
  path buffer of DemoBasic and DemoAdvanced (C55_basic_refuted; 123 on the larger boards), as one of 247 in /dev/mem does
  in demo_linux; there also `cat /dev/null` uses a pointer that is never set, and writing more
  than 32 bytes to /dev/mem/eeprom overflows its memory (C55_linux_refuted), and a host name typed with
  a `\x` escape is taken over with the rest of the typed text (C55_example_name).

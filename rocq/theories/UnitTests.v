(** * UnitTests: the project's unit tests replayed on the model.

    Tests of the model's faithfulness (examples on literals), not property proofs.  The C tests
    replace the functions called by stubs; here the model of the function called runs, so that a
    stub's expectation ("called with this text and this state") becomes one about what the call
    leaves behind.  Where a C test uses the number of states as a state that is none of
    them, [S_RESET] is used.  (tests/unit_tests/test_unit_utils.c: FuncTests.v.) *)
From Verif Require Import Shell.

Definition every_byte : bytes := map ascii_of_nat (seq 0 256).
Definition every_state : list fsm :=
  [S_RESET; S_RESET_PROMPT; S_PROMPT_PREFIX; S_PROMPT_HOST; S_PROMPT_SPACE; S_PROMPT_PATH; S_PROMPT_SUFFIX;
   S_READ_PREPARE; S_READ_CHAR; S_PARSE_PREPARE; S_PARSE_SEARCH_ARG; S_PARSE_QUOTE_ARG; S_PARSE_STANDARD_ARG;
   S_WRITE_CHAR; S_PROCESS_START; S_PROCESS_SERVICE; S_PROCESS_FINISH; S_AC_PREPARE; S_AC_START; S_AC_COUNT;
   S_AC_OPTIMISE; S_AC_PRINT; S_AC_FINISH; S_AC_PROMPT_PREPARE; S_AC_PROMPT; S_AC_RECALL; S_AC_RECALL_SUFFIX].
Example states_all : forall x, In x every_state.
Proof. intros []; vm_compute; tauto. Qed.

Definition unit_desc (n : nat) : desc := mkDesc n 128 256 (lit "host") None cfg_test.
(** [setUp]: a zeroed object over an input buffer holding [t], and the node objects [h]. *)
Definition fresh (n : nat) (t : bytes) (h : list node) : st :=
  st_zero (unit_desc n) 0 (t ++ repeat NUL (n - length t)) (repeat NUL 128) h [].
Definition zeroed : st := fresh 128 [] [].
Definition no_env : env := mkEnv (fun _ _ _ => []) (fun _ _ => mkGet GUnset 0 []) (fun _ _ _ => []) (fun _ _ => []).
Definition reads_ (c : option byte) : io := mkIo c true no_env.

Definition holds {A} (r : res A) (p : A -> bool) : bool := match r with Ok a => p a | Err _ => false end.
Definition asserts {A} (r : res A) : bool := match r with Err EAssert => true | _ => false end.
Definition at_ (b : bytes) (i : nat) (c : byte) : bool := match nth_error b i with Some x => ceq x c | None => false end.
Definition oeq {A} (eqb : A -> A -> bool) (a b : option A) : bool := match a, b with Some x, Some y => eqb x y | None, None => true | _, _ => false end.
(** [ush_write_pointer] has been called with the text [t] and the state [x]. *)
Definition written (t : bytes) (x : fsm) (s : st) : bool :=
  fsm_eqb (o_state s) S_WRITE_CHAR && fsm_eqb (o_wnext s) x && (o_wpos s =? 0) && (o_wsize s =? length t) &&
  match o_wbuf s with
  | Some (WStr u) => beq u t
  | Some WOut => beq (firstn (length t) (outb s)) t
  | Some (WIn k) => beq (firstn (length t) (skipn k (inb s))) t
  | None => false
  end.

(** ** tests/unit_tests/test_unit_read_utils.c *)
Example read_echo_service : forallb (fun ch =>
  let t := if ceq ch CR then [CR; LF] else if ceq ch BS || ceq ch DEL then [BS; SP; BS] else if ceq ch NUL then [] else [ch] in
  holds (ush_read_echo_service ch zeroed) (fun s =>
    at_ (outb s) (length t) NUL && written t (if ceq ch CR || ceq ch LF then S_PARSE_PREPARE else S_READ_CHAR) s)) every_byte = true.
Proof. vm_compute. reflexivity. Qed.
Example read_char_by_escape_state_0 : forallb (fun ch =>
  holds (ush_read_char_by_escape_state ch (fresh 128 [DEL; DEL] [])) (fun '(r, s) => r && at_ (inb s) 0 ch && at_ (inb s) 1 NUL && (o_inpos s =? 1)) &&
  holds (ush_read_char_by_escape_state ch (set_inpos 127 (fresh 128 (repeat DEL 128) []))) (fun '(r, s) => r && at_ (inb s) 127 ch && at_ (inb s) 0 NUL && (o_inpos s =? 0))) every_byte = true.
Proof. vm_compute. reflexivity. Qed.
Example read_char_by_escape_state_1_2 : forallb (fun ch =>
  holds (ush_read_char_by_escape_state ch (set_esc 1 zeroed)) (fun '(r, s) => negb r && (o_esc s =? (if ceq ch "["%char || ceq ch "O"%char then 2 else 0))) &&
  holds (ush_read_char_by_escape_state ch (set_esc 2 zeroed)) (fun '(r, s) => negb r && (o_esc s =? 0))) every_byte = true.
Proof. vm_compute. reflexivity. Qed.
Example read_start : holds (ush_read_start (set_inpos 4 (set_esc 1 (fresh 128 ["001"%char] [])))) (fun s =>
  (o_inpos s =? 0) && (o_esc s =? 0) && fsm_eqb (o_state s) S_READ_CHAR && at_ (inb s) 0 NUL) = true.
Proof. vm_compute. reflexivity. Qed.

(** ** tests/unit_tests/test_unit_read_char.c *)
Example read_char_no_data : holds (ush_read_char (reads_ None) zeroed) (fun '(r, s) => negb r && (length (lg s) =? 0)) = true.
Proof. vm_compute. reflexivity. Qed.
Definition read_char_ok (pos : nat) (s0 : st) : bool := forallb (fun ch =>
  holds (ush_read_char (reads_ (Some ch)) s0) (fun '(r, s) => r &&
    if ceq ch ETX then written (lit "^C") S_RESET s && (o_esc s =? 0)
    else if ceq ch BS || ceq ch DEL then
      (o_esc s =? 0) && (o_inpos s =? 0) && at_ (inb s) 0 NUL &&
      match pos with 0 => fsm_eqb (o_state s) (o_state s0) | _ => written [BS; SP; BS] S_READ_CHAR s end
    else if ceq ch TAB then fsm_eqb (o_state s) S_AC_PREPARE && (o_esc s =? 0)
    else if ceq ch ESC then (o_esc s =? 1) && fsm_eqb (o_state s) (o_state s0)
    else (o_esc s =? 0) && fsm_eqb (o_state s) S_WRITE_CHAR && at_ (inb s) pos ch && (o_inpos s =? S pos))) every_byte.
Example read_char_buffer_full : read_char_ok 1 (set_inpos 1 (fresh 128 [DEL] [])) = true.
Proof. vm_compute. reflexivity. Qed.
Example read_char_buffer_empty : read_char_ok 0 zeroed = true.
Proof. vm_compute. reflexivity. Qed.

(** ** tests/unit_tests/test_unit_read.c, test_unit_write.c, test_unit_reset.c, test_unit_prompt.c: dispatch on the state *)
Definition dispatched {A} (r : res (bool * A)) : bool := match r with Ok (false, _) => false | _ => true end.
Definition one_of (l : list fsm) (x : fsm) : bool := existsb (fsm_eqb x) l.
Example read_service_states : forallb (fun x =>
  match ush_read_service (reads_ None) (set_state x zeroed) with
  | Ok ((p, busy), s) => Bool.eqb p (one_of [S_READ_PREPARE; S_READ_CHAR] x) && negb busy
  | Err _ => false
  end) every_state = true.
Proof. vm_compute. reflexivity. Qed.
Example write_service_states : forallb (fun x =>
  Bool.eqb (dispatched (ush_write_service (reads_ None) (set_state x zeroed))) (one_of [S_WRITE_CHAR] x)) every_state = true.
Proof. vm_compute. reflexivity. Qed.
Example write_pointer : forallb (fun x =>
  holds (ush_write_pointer (WStr (lit "test")) x zeroed) (written (lit "test") x)) every_state = true.
Proof. vm_compute. reflexivity. Qed.

(** ** tests/unit_tests/test_unit_write_utils.c *)
Example write_pointer_bin : forallb (fun x =>
  let s := ush_write_pointer_bin (WStr (lit "12345678")) 8 x (set_wpos 99 (set_state x zeroed)) in
  (o_wpos s =? 0) && (o_wsize s =? 8) && fsm_eqb (o_state s) S_WRITE_CHAR && fsm_eqb (o_wnext s) x && (length (lg s) =? 0)) every_state = true.
Proof. vm_compute. reflexivity. Qed.
Definition message_set : st := set_wbuf (Some (WStr (lit "test_message"))) zeroed.
Example write_char_states : forallb (fun x =>
  holds (ush_write_char true (set_wpos 1 (set_wsize 1 (set_wnext x message_set)))) (fun s =>
    fsm_eqb (o_state s) x && (o_wpos s =? 1) && (o_wsize s =? 1) && (length (lg s) =? 0))) every_state = true.
Proof. vm_compute. reflexivity. Qed.
Fixpoint times {A} (n : nat) (f : A -> res A) (a : A) : res A := match n with 0 => Ok a | S k => b <- f a ;; times k f b end.
Example write_char_ok : holds (times 4 (ush_write_char true) (set_wsize 4 message_set)) (fun s =>
  fsm_eqb (o_state s) S_RESET && (o_wpos s =? 4) && (o_wsize s =? 4) && beq (outs (lg s)) (lit "test")) = true.
Proof. vm_compute. reflexivity. Qed.
Example write_char_busy : holds (times 4 (ush_write_char false) (set_wsize 4 message_set)) (fun s =>
  fsm_eqb (o_state s) S_RESET && (o_wpos s =? 0) && (o_wsize s =? 4) && (length (lg s) =? 0)) = true.
Proof. vm_compute. reflexivity. Qed.

(** ** tests/unit_tests/test_unit_parse_utils.c *)
Example parse_start : forallb (fun x =>
  fsm_eqb (o_state (ush_parse_start (set_inpos 10 (set_outpos 5 (set_argc 2 (set_escf true (set_state x zeroed))))))) S_PARSE_SEARCH_ARG) every_state = true.
Proof. vm_compute. reflexivity. Qed.
Definition args_of (t : bytes) (n : nat) : res (list bytes) :=
  let s := set_argc n (fresh 128 t []) in l <- ush_parse_get_args s ;; arg_values (inb s) l.
Definition z (l : list string) : bytes := flat_map (fun w => lit w ++ [NUL]) l.
Example parse_get_args :
  args_of (z ["test"]%string) 1 = Ok (map lit ["test"]%string) /\
  args_of (z ["test"; "abc"]%string) 2 = Ok (map lit ["test"; "abc"]%string) /\
  args_of (z ["test"; "abc"; "qwerty"]%string) 3 = Ok (map lit ["test"; "abc"; "qwerty"]%string) /\
  args_of (z ["test"; "abc"; "qwerty"; "xyz"]%string) 4 = Ok (map lit ["test"; "abc"; "qwerty"; "xyz"]%string) /\
  args_of (z ["test abc"; "qwerty xyz"]%string) 2 = Ok (map lit ["test abc"; "qwerty xyz"]%string).
Proof. vm_compute. repeat split. Qed.
(** One character in the state [x], with the escape flag [e]; the byte at [out_pos] = 1 was ~ch.
    Expected: state, number of arguments, flag, [out_pos], and what stands from position 1 on. *)
Definition parsed (x : fsm) (e : bool) (want : byte -> fsm * nat * bool * nat * option bytes) : bool := forallb (fun ch =>
  let old := ascii_of_nat (255 - nat_of_ascii ch) in
  holds (ush_parse_char_standard ch (set_argc 1 (set_outpos 1 (set_state x (set_escf e (fresh 128 [NUL; old] [])))))) (fun s =>
    let '(x', n, e', o, t) := want ch in let t := match t with Some t => t | None => [old] end in
    fsm_eqb (o_state s) x' && (o_argc s =? n) && Bool.eqb (o_escf s) e' && (o_outpos s =? o) && beq (firstn (length t) (skipn 1 (inb s))) t)) every_byte.
Example parse_char_standard_search : parsed S_PARSE_SEARCH_ARG false (fun ch =>
  if ceq ch SP then (S_PARSE_SEARCH_ARG, 1, false, 1, None)
  else if ceq ch DQ then (S_PARSE_QUOTE_ARG, 2, false, 1, None)
  else if ceq ch BSL then (S_PARSE_STANDARD_ARG, 2, true, 1, None)
  else (S_PARSE_STANDARD_ARG, 2, false, 2, Some [ch])) = true.
Proof. vm_compute. reflexivity. Qed.
Example parse_char_standard_quote : parsed S_PARSE_QUOTE_ARG false (fun ch =>
  if ceq ch DQ then (S_PARSE_STANDARD_ARG, 1, false, 1, None)
  else if ceq ch BSL then (S_PARSE_QUOTE_ARG, 1, true, 1, None)
  else (S_PARSE_QUOTE_ARG, 1, false, 2, Some [ch])) = true.
Proof. vm_compute. reflexivity. Qed.
Example parse_char_standard_standard : parsed S_PARSE_STANDARD_ARG false (fun ch =>
  if ceq ch SP then (S_PARSE_SEARCH_ARG, 1, false, 2, Some [NUL])
  else if ceq ch DQ then (S_PARSE_QUOTE_ARG, 1, false, 1, None)
  else if ceq ch BSL then (S_PARSE_STANDARD_ARG, 1, true, 1, None)
  else (S_PARSE_STANDARD_ARG, 1, false, 2, Some [ch])) = true.
Proof. vm_compute. reflexivity. Qed.
Example parse_char_standard_escaped : forallb (fun x => parsed x true (fun ch =>
  if ceq ch "x"%char then (x, 1, false, 3, Some [BSL; ch]) else (x, 1, false, 2, Some [ch]))) [S_PARSE_QUOTE_ARG; S_PARSE_STANDARD_ARG] = true.
Proof. vm_compute. reflexivity. Qed.
Example parse_char_standard_states : forallb (fun x =>
  Bool.eqb (asserts (ush_parse_char_standard NUL (set_state x zeroed))) (negb (one_of [S_PARSE_SEARCH_ARG; S_PARSE_QUOTE_ARG; S_PARSE_STANDARD_ARG] x))) every_state = true.
Proof. vm_compute. reflexivity. Qed.

(** ** tests/unit_tests/test_unit_parse_char.c: the end of a line; no word has been found, so
    [ush_parse_finish] does nothing *)
Definition line_end (t : bytes) (i o : nat) (x : fsm) : res st := ush_parse_char no_env (set_inpos i (set_outpos o (set_state x (fresh 128 t [])))).
Example parse_char_end : forallb (fun x =>
  forallb (fun c => holds (line_end [c] 0 0 x) (fun s => fsm_eqb (o_state s) S_RESET_PROMPT && at_ (inb s) 0 NUL && (o_inpos s =? 1) && (o_outpos s =? 1))) [CR; LF] &&
  holds (line_end ["T"%char; CR] 1 1 x) (fun s => fsm_eqb (o_state s) S_RESET_PROMPT && at_ (inb s) 0 "T"%char && at_ (inb s) 1 NUL && (o_inpos s =? 2) && (o_outpos s =? 2)) &&
  holds (line_end ["T"%char; CR] 1 0 x) (fun s => fsm_eqb (o_state s) S_RESET_PROMPT && at_ (inb s) 0 NUL && at_ (inb s) 1 CR && (o_inpos s =? 2) && (o_outpos s =? 1))) every_state = true.
Proof. vm_compute. reflexivity. Qed.
Example parse_char_other : forallb (fun x => forallb (fun ch => ceq ch CR || ceq ch LF ||
  let s := set_state x (fresh 128 [ch] []) in
  match ush_parse_char no_env s, ush_parse_char_standard ch (set_inpos 1 s) with
  | Ok a, Ok b => fsm_eqb (o_state a) (o_state b) && beq (inb a) (inb b) && (o_inpos a =? 1)
  | Err EAssert, Err EAssert => true
  | _, _ => false
  end) every_byte) [S_PARSE_SEARCH_ARG; S_PARSE_QUOTE_ARG; S_PARSE_STANDARD_ARG; S_RESET; S_READ_CHAR] = true.
Proof. vm_compute. reflexivity. Qed.

(** ** tests/unit_tests/test_unit_autocomp_utils.c *)
Example autocomp_start : forallb (fun x => fsm_eqb (o_state (ush_autocomp_start (set_state x zeroed))) S_AC_PREPARE) every_state = true.
Proof. vm_compute. reflexivity. Qed.
Definition cleared (s : st) : bool := oeq Nat.eqb (o_pnode s) (o_cmds s) && (o_account s =? 0) && (o_pstage s =? 0) && (o_pidx s =? 0) && (o_pitem s =? 0).
Example autocomp_prepare_candidates : forallb (fun x =>
  let s := ush_autocomp_prepare_candidates (set_cmds (Some 7) (set_account 10 (set_pstage 10 (set_pidx 10 (set_pitem 10 (set_state x zeroed)))))) in
  cleared s && fsm_eqb (o_state s) x) every_state = true.
Proof. vm_compute. reflexivity. Qed.
(** The C test keeps the word apart from the buffer of 4 bytes; here it stands in it. *)
Example autocomp_optimize_continue :
  holds (ush_autocomp_optimize_continue (set_account 10 (set_acprevc 1 (set_acin (Some 0) (set_accand (Some (lit "test")) (fresh 8 (lit "test") [])))))) (fun s =>
    fsm_eqb (o_state s) S_AC_RECALL_SUFFIX && (o_account s =? 10) && (o_acprevc s =? 10)) = true /\
  holds (ush_autocomp_optimize_continue (set_cmds (Some 7) (set_account 10 (set_acprevc 1 (set_acin (Some 4) (set_accand (Some (lit "test")) (set_acsuf 5 (fresh 8 (z [""; ""; ""; ""; "tes"]%string) [])))))))) (fun s =>
    fsm_eqb (o_state s) S_AC_OPTIMISE && cleared s && (o_inpos s =? 1) && at_ (inb s) 0 "t"%char && at_ (inb s) 1 NUL && (o_acsuf s =? 6)) = true /\
  holds (ush_autocomp_optimize_continue (set_cmds (Some 7) (set_account 10 (set_acprevc 1 (set_acin (Some 0) (set_accand (Some (lit "test")) (set_acsuf 2 (set_inpos 3 (fresh 4 (lit "tes") []))))))))) (fun s =>
    fsm_eqb (o_state s) S_AC_OPTIMISE && cleared s && (o_inpos s =? 0) && at_ (inb s) 3 "t"%char && at_ (inb s) 0 NUL && at_ (inb s) 1 "e"%char && at_ (inb s) 2 "s"%char && (o_acsuf s =? 3)) = true.
Proof. vm_compute. repeat split. Qed.
(** Node 1 is "/", with the child 2 = "/test", which has the child 3; the current directory is 2. *)
Definition node_ (p : string) (fs : list file) (up down nx : option nat) : node := mkNode fs (Some (lit p)) up down nx.
Definition named (n : string) : file := mkFile (lit n) None None None None None None.
Definition three : list node := [node_zero; node_ "/" [] None (Some 2) None; node_ "/test" [] (Some 1) (Some 3) None; node_ "/test/x" [] (Some 2) None None].
Definition finishing (stage : nat) (t : string) : res st :=
  ush_autocomp_check_for_finish (set_root (Some 1) (set_cur (Some 2) (set_pstage stage (set_pidx 10 (set_pitem 20 (set_acin (Some 0) (fresh 128 (lit t) three))))))).
Example autocomp_check_for_finish :
  holds (finishing 0 "") (fun s => oeq Nat.eqb (o_pnode s) (Some 2) && (o_pidx s =? 0) && (o_pitem s =? 0) && (o_pstage s =? 1)) = true /\
  (* the parent of the word exists / the word is empty / the parent does not exist *)
  holds (finishing 1 "/te") (fun s => oeq Nat.eqb (o_pnode s) (Some 2) && (o_pidx s =? 0) && (o_pitem s =? 0) && (o_pstage s =? 2)) = true /\
  holds (finishing 1 "") (fun s => oeq Nat.eqb (o_pnode s) (Some 3) && (o_pidx s =? 0) && (o_pitem s =? 0) && (o_pstage s =? 2)) = true /\
  holds (finishing 1 "/no/te") (fun s => oeq Nat.eqb (o_pnode s) (Some 3) && (o_pidx s =? 0) && (o_pitem s =? 0) && (o_pstage s =? 2)) = true /\
  forallb (fun x => holds (ush_autocomp_check_for_finish (set_pstage 2 (set_state x zeroed))) (fun s => fsm_eqb (o_acprev s) x && fsm_eqb (o_state s) S_AC_FINISH)) every_state = true /\
  forallb (fun i => asserts (finishing i "")) (seq 3 7) = true.
Proof. vm_compute. repeat split. Qed.
Definition two_files : list node := [node_ "/abc/def" [named "test"; named "abcd"] None None (Some 7)].
Definition nexting (stage item : nat) : res (bool * st) := ush_autocomp_check_for_next (set_pstage stage (set_pitem item (set_pnode (Some 0) (fresh 128 [] two_files)))).
Example autocomp_check_for_next :
  forallb (fun i => holds (nexting i 0) (fun '(r, s) => negb r && (o_pitem s =? 0) && oeq Nat.eqb (o_pnode s) (Some 0))) [0; 1; 2] = true /\
  holds (nexting 0 2) (fun '(r, s) => r && (o_pitem s =? 0) && oeq Nat.eqb (o_pnode s) (Some 7)) = true /\
  holds (nexting 1 2) (fun '(r, s) => r && (o_pitem s =? 0) && oeq Nat.eqb (o_pnode s) None) = true /\
  forallb (fun i => asserts (nexting i 0)) (seq 3 7) = true.
Proof. vm_compute. repeat split. Qed.
Definition preparing (stage item : nat) (t : string) : res (bool * option file * st) :=
  ush_autocomp_process_file_prepare (set_pstage stage (set_pitem item (set_pidx 10 (set_pnode (Some 0) (set_acin (Some 0) (fresh 128 (lit t) two_files)))))).
Definition prepared (r : res (bool * option file * st)) (skip : bool) (name : option string) (item idx : nat) (node : option nat) : bool :=
  holds r (fun '(b, f, s) => Bool.eqb b skip && oeq beq (option_map f_name f) (option_map lit name) && (o_pitem s =? item) && (o_pidx s =? idx) && oeq Nat.eqb (o_pnode s) node).
Example autocomp_process_file_prepare :
  forallb (fun i =>
    prepared (preparing i 0 "test") false (Some "test"%string) 0 10 (Some 0) && prepared (preparing i 0 "t") false (Some "test"%string) 0 10 (Some 0) &&
    prepared (preparing i 0 "") false (Some "test"%string) 0 10 (Some 0) && prepared (preparing i 0 "tezt") true (Some "test"%string) 1 0 (Some 0) &&
    prepared (preparing i 1 "abcd") false (Some "abcd"%string) 1 10 (Some 0) && prepared (preparing i 1 "a") false (Some "abcd"%string) 1 10 (Some 0) &&
    prepared (preparing i 1 "") false (Some "abcd"%string) 1 10 (Some 0) && prepared (preparing i 1 "abcde") true (Some "abcd"%string) 2 0 (Some 0)) [0; 1] = true /\
  forallb (fun t => prepared (preparing 2 0 t) false None 0 10 (Some 0)) ["def"; "d"; ""]%string = true /\
  prepared (preparing 2 0 "defg") true None 0 0 (Some 7) = true /\
  forallb (fun i => asserts (preparing i 0 "")) (seq 3 7) = true.
Proof. vm_compute. repeat split. Qed.
Definition indexing (idx stage : nat) (x : fsm) : res st :=
  ush_autocomp_process_file_index (match stage with 2 => None | _ => Some (named "testabcd") end)
    (set_pidx idx (set_pstage stage (set_state x (set_account 5 (set_pitem 20 (set_acname (Some (lit "test")) (set_pnode (Some 0) (fresh 128 [] two_files)))))))).
Definition shown (x : fsm) (t : string) (s : st) : bool := if fsm_eqb x S_AC_PRINT then written (lit t) x s else fsm_eqb (o_state s) x.
Example autocomp_process_file_index :
  forallb (fun x =>
    forallb (fun n => holds (indexing 0 n x) (fun s => shown x "testabcd" s && (o_pidx s =? 1) && (o_account s =? 6) && oeq beq (o_accand s) (Some (lit "testabcd")))) [0; 1] &&
    holds (indexing 0 2 x) (fun s => shown x "test" s && (o_pidx s =? 1) && (o_account s =? 6) && oeq beq (o_accand s) (Some (lit "test"))) &&
    holds (indexing 1 0 x) (fun s => (if fsm_eqb x S_AC_PRINT then written CRLF x s else fsm_eqb (o_state s) x) && (o_pidx s =? 2)) &&
    forallb (fun n => holds (indexing 2 n x) (fun s => (o_pitem s =? 21) && (o_pidx s =? 0) && oeq Nat.eqb (o_pnode s) (Some 0))) [0; 1] &&
    holds (indexing 2 2 x) (fun s => (o_pidx s =? 0) && oeq Nat.eqb (o_pnode s) (Some 7)) &&
    forallb (fun n => asserts (indexing 0 n x) && asserts (indexing 2 n x)) (seq 3 7) &&
    forallb (fun i => asserts (indexing i 0 x)) (seq 3 7)) every_state = true.
Proof. vm_compute. reflexivity. Qed.

(** ** tests/unit_tests/test_unit_autocomp_state.c *)
Example autocomp_state_recall_suffix :
  holds (ush_autocomp_state_recall_suffix (set_acin (Some 0) (set_acsuf 3 (fresh 128 (lit "test") [])))) (written (lit "est") S_READ_CHAR) = true /\
  holds (ush_autocomp_state_recall_suffix (set_acin (Some 0) (set_acsuf 0 (fresh 128 (lit "test") [])))) (fun s => written CRLF S_AC_PRINT s && cleared s) = true.
Proof. vm_compute. repeat split. Qed.
Definition word_of (t : string) : res bytes := s <- ush_autocomp_state_prepare (fresh 128 (lit t) []) ;;
  if fsm_eqb (o_state s) S_AC_START then '(_, w) <- ac_input s ;; Ok w else Err EAssert.
Example autocomp_state_prepare : word_of "test abc qwerty   " = Ok (lit "") /\ word_of "test abc qwerty" = Ok (lit "qwerty").
Proof. vm_compute. repeat split. Qed.
Example autocomp_state_candidates_start :
  let s := ush_autocomp_state_candidates_start (set_acprevc 10 (set_acsuf 20 zeroed)) in (o_acprevc s =? 0) && (o_acsuf s =? 0) && fsm_eqb (o_state s) S_AC_COUNT && cleared s = true.
Proof. vm_compute. reflexivity. Qed.
Definition FF : byte := ascii_of_nat 255.
Example autocomp_state_candidates_finish :
  holds (ush_autocomp_state_candidates_finish (set_acprev S_AC_PRINT zeroed)) (fun s => fsm_eqb (o_state s) S_AC_PROMPT) = true /\
  holds (ush_autocomp_state_candidates_finish (set_acprev S_AC_COUNT zeroed)) (fun s => fsm_eqb (o_state s) S_READ_CHAR) = true /\
  holds (ush_autocomp_state_candidates_finish (set_acprev S_AC_COUNT (set_account 1 (set_acin (Some 2) (set_accand (Some (lit "abcd")) (fresh 128 (lit "test") []))))))
    (fun s => written (lit "cd") S_READ_CHAR s && (o_inpos s =? 6)) = true /\
  (* several candidates: goes on as ush_autocomp_optimize_continue does *)
  forallb (fun n =>
    let s := set_acprev S_AC_COUNT (set_account n (set_acin (Some 0) (set_accand (Some (lit "test")) (set_acsuf 10 (fresh 128 (lit "test") []))))) in
    holds (ush_autocomp_state_candidates_finish s) (fun s => fsm_eqb (o_state s) S_AC_RECALL_SUFFIX && (o_acprevc s =? n) && (o_acsuf s =? 0))) (seq 2 8) = true /\
  holds (ush_autocomp_state_candidates_finish (set_acprev S_AC_OPTIMISE (set_acin (Some 0) (set_accand (Some (lit "test")) (fresh 128 (lit "test") [])))))
    (fun s => fsm_eqb (o_state s) S_AC_RECALL_SUFFIX && (o_acprevc s =? 0)) = true /\
  holds (ush_autocomp_state_candidates_finish (set_acprev S_AC_OPTIMISE (set_inpos 2 (set_acprevc 1 (set_acsuf 2 (fresh 128 [FF; FF] []))))))
    (fun s => (o_acsuf s =? 1) && (o_inpos s =? 1) && at_ (inb s) 0 FF && at_ (inb s) 1 NUL && fsm_eqb (o_state s) S_AC_RECALL_SUFFIX) = true /\
  holds (ush_autocomp_state_candidates_finish (set_acprev S_AC_OPTIMISE (set_inpos 0 (set_acprevc 1 (set_acsuf 1 (fresh 128 [FF; FF] []))))))
    (fun s => (o_acsuf s =? 0) && (o_inpos s =? 0) && at_ (inb s) 0 NUL && at_ (inb s) 1 FF && fsm_eqb (o_state s) S_AC_RECALL_SUFFIX) = true /\
  forallb (fun x => one_of [S_AC_PRINT; S_AC_COUNT; S_AC_OPTIMISE] x || asserts (ush_autocomp_state_candidates_finish (set_acprev x zeroed))) every_state = true.
Proof. vm_compute. repeat split. Qed.

(** ** tests/unit_tests/test_unit_autocomp.c *)
Example autocomp_service_states :
  forallb (fun x => Bool.eqb (dispatched (ush_autocomp_service (set_state x zeroed)))
    (one_of [S_AC_PREPARE; S_AC_START; S_AC_COUNT; S_AC_OPTIMISE; S_AC_PRINT; S_AC_FINISH; S_AC_PROMPT_PREPARE; S_AC_PROMPT; S_AC_RECALL; S_AC_RECALL_SUFFIX] x)) every_state = true /\
  holds (ush_autocomp_service (set_state S_AC_PROMPT_PREPARE zeroed)) (fun '(r, s) => r && written CRLF S_AC_PROMPT s) = true /\
  holds (ush_autocomp_service (set_state S_AC_PROMPT zeroed)) (fun '(r, s) => r && fsm_eqb (o_pnext s) S_AC_RECALL) = true /\
  holds (ush_autocomp_service (set_state S_AC_RECALL (fresh 128 (lit "test") []))) (fun '(r, s) => r && written (lit "test") S_READ_CHAR s) = true.
Proof. vm_compute. repeat split. Qed.

(** ** tests/unit_tests/test_unit_prompt.c, test_unit_reset.c *)
Definition shown_in (p : string) : st := set_cur (Some 0) (set_pnext S_READ_CHAR (fresh 128 [] [node_ p [] None None None])).
Example prompt_start : forallb (fun x => let s := ush_prompt_start x (set_state x zeroed) in fsm_eqb (o_state s) S_PROMPT_PREFIX && fsm_eqb (o_pnext s) x) every_state = true.
Proof. vm_compute. reflexivity. Qed.
Example prompt_service : forallb (fun x =>
  holds (ush_prompt_service (set_state x (shown_in "/test_node_2"))) (fun '(r, s) =>
    match x with
    | S_PROMPT_PREFIX => r && written (sty_magenta cfg_test ++ lit "[") S_PROMPT_HOST s
    | S_PROMPT_HOST => r && written (lit "host") S_PROMPT_SPACE s
    | S_PROMPT_SPACE => r && written (lit " ") S_PROMPT_PATH s
    | S_PROMPT_PATH => r && written (lit "test_node_2") S_PROMPT_SUFFIX s
    | S_PROMPT_SUFFIX => r && written (lit "]$ " ++ sty_reset cfg_test) S_READ_CHAR s
    | _ => negb r && fsm_eqb (o_state s) x
    end)) every_state = true.
Proof. vm_compute. reflexivity. Qed.
Example reset : let s := ush_reset (set_root (Some 7) zeroed) in oeq Nat.eqb (o_cur s) (Some 7) && written (lit "uShell 0.1.0" ++ CRLF) S_RESET_PROMPT s = true.
Proof. vm_compute. reflexivity. Qed.
Example reset_service : forallb (fun x =>
  holds (ush_reset_service (set_state x zeroed)) (fun '(r, s) =>
    match x with
    | S_RESET => r && written CRLF S_RESET_PROMPT s
    | S_RESET_PROMPT => r && fsm_eqb (o_state s) S_PROMPT_PREFIX && fsm_eqb (o_pnext s) S_READ_PREPARE
    | _ => negb r && fsm_eqb (o_state s) x
    end)) every_state = true.
Proof. vm_compute. reflexivity. Qed.

(** ** tests/unit_tests/test_unit_process.c *)
Definition with_proc (p : option proc_cb) : file := mkFile (lit "p") None None None None None p.
Example process_start : forallb (fun x =>
  let s := ush_process_start (with_proc None) (set_state x zeroed) in fsm_eqb (o_state s) S_PROCESS_START && oeq beq (option_map f_name (o_pfile s)) (Some (lit "p")) && (length (lg s) =? 0)) every_state = true.
Proof. vm_compute. reflexivity. Qed.
Example process_service : forallb (fun x =>
  let own := one_of [S_PROCESS_START; S_PROCESS_SERVICE; S_PROCESS_FINISH] x in
  holds (ush_process_service (reads_ None) (set_pfile (Some (with_proc (Some (PUser 3)))) (set_state x zeroed))) (fun '(r, s) =>
    Bool.eqb r own && fsm_eqb (o_state s) x && match lg s with [EvProc 3 _] => own | [] => negb own | _ => false end) &&
  holds (ush_process_service (reads_ None) (set_pfile (Some (with_proc None)) (set_state x zeroed))) (fun '(r, s) =>
    Bool.eqb r own && fsm_eqb (o_state s) (if own then S_RESET else x) && (length (lg s) =? 0))) every_state = true.
Proof. vm_compute. reflexivity. Qed.

(** ** tests/unit_tests/test_unit_commands.c *)
Definition stat {A} (r : res (status * A)) (x : status) (p : A -> bool) : bool := match r with Ok (y, a) => status_eqb x y && p a | _ => false end.
Definition chain (l : list (option nat)) : list node := map (fun n => mkNode [] None None None n) l.
Definition nexts (s : st) : list (option nat) := map n_next (hp s).
Fixpoint same (a b : list (option nat)) : bool := match a, b with [], [] => true | x :: a, y :: b => oeq Nat.eqb x y && same a b | _, _ => false end.
Definition added (r : res (status * st)) (c : nat) (l : list (option nat)) : bool := stat r ST_OK (fun s => oeq Nat.eqb (o_cmds s) (Some c) && same (nexts s) l).
(** The list of no files trips an assertion, which the C test only counts. *)
Example commands_add :
  asserts (ush_commands_add 0 [] (fresh 128 [] (chain [None]))) = true /\
  forallb (fun i => stat (ush_commands_add 0 (repeat (named "f") i) (set_cmds (Some 7) (fresh 128 [] [node_ "test" [] None None None]))) ST_OK (fun s =>
    match hp s with [n] => (length (n_files n) =? i) && match n_path n with None => true | _ => false end && oeq Nat.eqb (n_next n) (Some 7) | _ => false end && oeq Nat.eqb (o_cmds s) (Some 0))) [1; 2; 3] = true /\
  added ('(_, s) <- ush_commands_add 0 [named "f"] (fresh 128 [] (chain [None; None; None])) ;; '(_, s) <- ush_commands_add 1 [named "f"] s ;; ush_commands_add 2 [named "f"] s) 2 [None; Some 0; Some 1] = true.
Proof. vm_compute. repeat split. Qed.
Definition three_sets : st := set_cmds (Some 0) (fresh 128 [] (chain [Some 1; Some 2; None])).
Definition removed (r : res (status * st)) (c : option nat) (i : nat) (n : option nat) : bool :=
  stat r ST_OK (fun s => oeq Nat.eqb (o_cmds s) c && match nth_error (hp s) i with Some x => oeq Nat.eqb (n_next x) n | None => false end).
Example commands_remove :
  stat (ush_commands_remove 0 (fresh 128 [] (chain [None]))) ST_NODE_NOT_FOUND (fun _ => true) = true /\
  stat (ush_commands_remove 0 (set_cmds (Some 1) (fresh 128 [] (chain [None; None])))) ST_NODE_NOT_FOUND (fun _ => true) = true /\
  removed (ush_commands_remove 0 (set_cmds (Some 0) (fresh 128 [] (chain [None])))) None 0 None = true /\
  removed (ush_commands_remove 0 three_sets) (Some 1) 1 (Some 2) = true /\
  removed (ush_commands_remove 1 three_sets) (Some 0) 0 (Some 2) = true /\
  removed (ush_commands_remove 2 three_sets) (Some 0) 1 None = true.
Proof. vm_compute. repeat split. Qed.

(** ** tests/unit_tests/test_unit_node.c *)
(** 0 = "/", 1 = "/1", 2 = "/2", 3 = "/3", 4 = "/1/1", 5 = "/1/2", 6 = "/1/2/1", 7 = "/2/1", 8 = "/3/1", 9 = "/3/1/1". *)
Definition test_tree : list node :=
  [node_ "/" [] None (Some 1) None; node_ "/1" [] (Some 0) (Some 4) (Some 2); node_ "/2" [] (Some 0) (Some 7) (Some 3); node_ "/3" [] (Some 0) (Some 8) None;
   node_ "/1/1" [] (Some 1) None (Some 5); node_ "/1/2" [] None (Some 6) None; node_ "/1/2/1" [] (Some 5) None None;
   node_ "/2/1" [] (Some 2) None None; node_ "/3/1" [] (Some 3) (Some 9) None; node_ "/3/1/1" [] (Some 8) None None].
Definition found (root : option nat) (p : string) : res (option nat) := ush_node_get_by_path 256 test_tree root (lit p).
Example node_get_by_path :
  found None "/1" = Ok None /\ found (Some 9) "/1" = Ok None /\
  forallb (fun '(p, i) => holds (found (Some 0) p) (oeq Nat.eqb (Some i)))
    [("", 0); ("/", 0); ("/1", 1); ("/2", 2); ("/3", 3); ("/1/1", 4); ("/1/2", 5); ("/1/2/1", 6); ("/2/1", 7); ("/3/1", 8); ("/3/1/1", 9)]%string = true /\
  forallb (fun p => holds (found (Some 0) p) (oeq Nat.eqb None)) ["/ 1"; "."; "test"; "/121"; "/1/2/3"; "/1/2/"]%string = true.
Proof. vm_compute. repeat split. Qed.
Definition absolute (cur : option nat) (l : list (string * string)) : bool :=
  forallb (fun '(i, o) => holds (out <- ush_node_get_absolute_path 256 test_tree cur (lit i) (repeat NUL 128) ;; c_str out 0) (beq (lit o))) l.
Example node_get_absolute_path :
  absolute None [("/", "/"); ("/.", "/"); ("/..", "/"); ("/../", "/"); ("/../1", "/1"); ("/../test", "/test"); ("/../3/1/1", "/3/1/1"); ("/2/1", "/2/1"); ("/./1/2/test", "/1/2/test"); ("/../../../../..", "/"); ("/../../../../../root", "/root"); ("/9/8/7", "/9/8/7")]%string = true /\
  absolute (Some 0) [("", "/"); (".", "/"); ("..", "/"); ("../", "/"); ("../1", "/1"); ("../test", "/test"); ("../3/1/1", "/3/1/1"); ("2/1", "/2/1"); ("./1/2/test", "/1/2/test"); ("../../../../..", "/"); ("../../../../../root", "/root"); ("9/8/7", "/9/8/7")]%string = true /\
  absolute (Some 9) [("", "/3/1/1"); (".", "/3/1/1"); ("..", "/3/1"); ("../", "/3/1"); ("../1", "/3/1/1"); ("../test", "/3/1/test"); ("../3/1/1", "/3/1/3/1/1"); ("2/1", "/3/1/1/2/1"); ("./1/2/test", "/3/1/1/1/2/test"); ("../../../../..", "/"); ("../../../../../root", "/root"); ("9/8/7", "/3/1/1/9/8/7")]%string = true /\
  absolute (Some 5) [("", "/1/2"); (".", "/1/2"); ("..", "/1"); ("../", "/1"); ("../1", "/1/1"); ("../test", "/1/test"); ("../3/1/1", "/1/3/1/1"); ("2/1", "/1/2/2/1"); ("./1/2/test", "/1/2/1/2/test"); ("../../../../..", "/"); ("../../../../../root", "/root"); ("9/8/7", "/1/2/9/8/7")]%string = true.
Proof. vm_compute. repeat split. Qed.
Example node_deinit_recursive : ush_node_deinit_recursive 7 [node_ "/a" [named "f"] (Some 9) None (Some 1); node_ "/b" [named "f"] (Some 9) (Some 2) None; node_ "/c" [named "f"] (Some 9) None None] (Some 0) = Ok [node_zero; node_zero; node_zero].
Proof. vm_compute. reflexivity. Qed.

(** ** tests/unit_tests/test_unit_node_mount.c: the paths are chosen so that the lookups stubbed there give the same answers *)
Definition mounting (root : option nat) (h : list node) (p : string) (id : nat) : res (status * st) := ush_node_mount (lit p) id [named "f"] (set_root root (fresh 128 [] h)).
Definition small : list node := [node_ "/" [] None (Some 1) None; node_ "/test2" [] (Some 0) None (Some 2); node_ "/test3" [] (Some 0) None None; node_ "/x" [] (Some 9) None (Some 9)].
Example node_mount :
  stat (mounting (Some 0) small "/test2" 1) ST_NODE_ALREADY_MOUNTED (fun s => oeq Nat.eqb (o_root s) (Some 0)) = true /\
  stat (mounting (Some 0) small "/test2" 3) ST_NODE_ALREADY_MOUNTED (fun s => oeq Nat.eqb (o_root s) (Some 0)) = true /\
  stat (mounting None small "test_some" 1) ST_NODE_WITHOUT_PARENT (fun s => oeq Nat.eqb (o_root s) None) = true /\
  stat (mounting None small "/test_some" 1) ST_NODE_WITHOUT_PARENT (fun s => oeq Nat.eqb (o_root s) None) = true /\
  stat (mounting None small "/" 3) ST_OK (fun s => oeq Nat.eqb (o_root s) (Some 3) && oeq Nat.eqb (o_cur s) (Some 3) &&
    match nth_error (hp s) 3 with Some n => same [n_parent n; n_next n; n_children n] [None; None; None] | None => false end) = true /\
  stat (mounting (Some 0) small "/new" 3) ST_OK (fun s => oeq Nat.eqb (o_root s) (Some 0) &&
    match hp s with [a; b; c; d] => same [n_children a; n_next d; n_next b; n_next c] [Some 3; Some 1; Some 2; None] | _ => false end) = true.
Proof. vm_compute. repeat split. Qed.
Definition unmounting (root : option nat) (h : list node) (p : string) : res (status * st) := ush_node_unmount (lit p) (set_root root (fresh 128 [] h)).
Definition busy_child : list node := [node_ "/" [] None (Some 1) None; node_ "/test2" [] (Some 0) (Some 2) None; node_ "/test2/y" [] (Some 1) None None].
Example node_unmount :
  stat (unmounting (Some 1) small "test") ST_NODE_NOT_FOUND (fun s => oeq Nat.eqb (o_root s) (Some 1)) = true /\
  stat (unmounting (Some 0) small "/test9") ST_NODE_NOT_FOUND (fun s => oeq Nat.eqb (o_root s) (Some 0)) = true /\
  stat (unmounting (Some 0) small "/") ST_NODE_WITH_CHILDS (fun s => oeq Nat.eqb (o_root s) (Some 0)) = true /\
  stat (unmounting (Some 0) busy_child "/test2") ST_NODE_WITH_CHILDS (fun s => oeq Nat.eqb (o_root s) (Some 0) && match hp s with a :: _ => oeq Nat.eqb (n_children a) (Some 1) | _ => false end) = true /\
  stat (unmounting (Some 0) [node_ "/" [] None None None] "/") ST_OK (fun s => oeq Nat.eqb (o_root s) None) = true /\
  stat (unmounting (Some 0) small "/test2") ST_OK (fun s => match hp s with a :: _ :: c :: _ => same [n_children a; n_next c] [Some 2; None] | _ => false end) = true /\
  stat (unmounting (Some 0) small "/test3") ST_OK (fun s => match hp s with a :: b :: _ => same [n_children a; n_next b] [Some 1; None] | _ => false end) = true.
Proof. vm_compute. repeat split. Qed.

(** ** tests/unit_tests/test_unit_file.c *)
Definition six : list node := [node_ "/" (map named ["test"; "xyz"; "qwerty"]%string) None (Some 1) None; node_ "/node2" (map named ["abc"; "def"; "ghi"]%string) (Some 0) None None].
Definition two_sets : list node := [mkNode (map named ["test"; "xyz"; "qwerty"]%string) None None None (Some 1); mkNode (map named ["abc"; "def"; "ghi"]%string) None None None None; node_ "/" [] None None None].
Definition named_ (s : st) (p : string) : res (option bytes) := f <- ush_file_find_by_name (lit p) s ;; Ok (option_map f_name f).
Definition as_commands : st := set_cmds (Some 0) (set_root (Some 2) (set_cur (Some 2) (fresh 128 [] two_sets))).
Definition as_files : st := set_root (Some 0) (set_cur (Some 0) (fresh 128 [] six)).
Example file_find_by_name :
  named_ as_commands "test_in" = Ok None /\ named_ as_files "test_in" = Ok None /\
  named_ as_commands "test" = Ok (Some (lit "test")) /\ named_ as_commands "qwerty" = Ok (Some (lit "qwerty")) /\ named_ as_commands "ghi" = Ok (Some (lit "ghi")) /\
  named_ as_files "test" = Ok (Some (lit "test")) /\ named_ as_files "qwerty" = Ok (Some (lit "qwerty")) /\ named_ as_files "node2/ghi" = Ok (Some (lit "ghi")).
Proof. vm_compute. repeat split. Qed.

(** ** tests/unit_tests/test_unit_parse.c *)
Definition hooked (h : option nat) (fs : list file) : st :=
  set_argc 1 (set_root (Some 0) (set_cur (Some 0)
    (st_zero (mkDesc 128 128 256 (lit "host") h cfg_test) 0 (lit "test" ++ repeat NUL 124) (repeat NUL 128) [node_ "/" fs None None None] []))).
Definition status_text (x : status) : bytes := ush_utils_get_status_string cfg_test x.
Definition ran (l : list event) : list (nat * option bytes * list bytes) := flat_map (fun e => match e with EvExec (XUser n) f a => [(n, f, a)] | _ => [] end) l.
Definition finished (s : st) : res (list (nat * option bytes * list bytes) * st) := s <- ush_parse_finish no_env s ;; Ok (ran (lg s), s).
Example parse_finish :
  holds (ush_parse_finish no_env (set_argc 0 (hooked (Some 1) []))) (fun s => fsm_eqb (o_state s) S_RESET && (length (lg s) =? 0)) = true /\
  holds (finished (hooked None [])) (fun '(l, s) => (length l =? 0) && written (status_text ST_COMMAND_SYNTAX_ERROR) S_RESET s) = true /\
  holds (finished (hooked (Some 1) [])) (fun '(l, s) => match l with [(1, None, [a])] => beq a (lit "test") | _ => false end && written (status_text ST_COMMAND_SYNTAX_ERROR) S_RESET s) = true /\
  holds (finished (hooked (Some 1) [named "test"])) (fun '(l, s) => match l with [(1, None, [a])] => beq a (lit "test") | _ => false end && written (status_text ST_FILE_NOT_EXECUTABLE) S_RESET s) = true /\
  holds (finished (hooked (Some 1) [mkFile (lit "test") None None (Some (XUser 2)) None None None])) (fun '(l, s) =>
    (length l =? 2) && existsb (fun x => match x with (1, None, [a]) => beq a (lit "test") | _ => false end) l && existsb (fun x => match x with (2, Some f, [a]) => beq f (lit "test") && beq a (lit "test") | _ => false end) l && fsm_eqb (o_state s) S_RESET) = true.
Proof. vm_compute. repeat split. Qed.
Example parse_service_states : forallb (fun x =>
  Bool.eqb (dispatched (ush_parse_service (reads_ None) (set_state x zeroed))) (one_of [S_PARSE_PREPARE; S_PARSE_SEARCH_ARG; S_PARSE_QUOTE_ARG; S_PARSE_STANDARD_ARG] x)) every_state = true.
Proof. vm_compute. reflexivity. Qed.

(** ** tests/unit_tests/test_unit_ush.c: printing *)
Definition every_status : list status := [ST_OK; ST_NODE_NOT_FOUND; ST_NODE_WITH_CHILDS; ST_NODE_WITHOUT_PARENT; ST_NODE_ALREADY_MOUNTED; ST_COMMAND_SYNTAX_ERROR; ST_COMMAND_WRONG_ARGUMENTS; ST_FILE_NOT_EXECUTABLE;
   ST_FILE_NOT_WRITABLE; ST_FILE_NOT_READABLE; ST_FILE_NO_HELP; ST_FILE_NOT_FOUND; ST_FILE_READ_ONLY].
Example printing : forallb (fun x => let s := set_state x zeroed in
  forallb (fun e => written (status_text e) S_RESET (ush_print_status e s)) every_status &&
  holds (ush_print (WStr (lit "test")) s) (written (lit "test") S_RESET) &&
  holds (ush_print_no_newline (WStr (lit "test")) s) (written (lit "test") S_RESET_PROMPT) &&
  holds (ush_flush (set_outb (lit "test" ++ repeat NUL 124) s)) (written (lit "test") S_RESET_PROMPT)) every_state = true.
Proof. vm_compute. reflexivity. Qed.

(** ** tests/unit_tests/test_unit_cmd.c *)
Definition is {A} (x : option A) : bool := match x with Some _ => true | None => false end.
Example buildin_table :
  map f_name (buildin_commands cfg_test) = map lit ["help"; "ls"; "cd"; "pwd"; "cat"; "xxd"; "echo"]%string /\
  forallb (fun f => is (f_desc f) && is (f_help f) && negb (is (f_get f)) && negb (is (f_set f))) (buildin_commands cfg_test) = true /\
  map f_exec (buildin_commands cfg_test) = map Some [XHelp; XLs; XCd; XPwd; XCat; XXxd; XEcho] /\
  map f_proc (buildin_commands cfg_test) = [Some PHelp; Some PLs; None; None; Some PCat; Some PXxd; None].
Proof. vm_compute. repeat split. Qed.

(** ** tests/unit_tests/test_unit_cmd_help.c, _ls.c, _cat.c, _xxd.c, _echo.c *)
Definition data_ (n : string) (g : option nat) : file := mkFile (lit n) None None None g None None.
Definition tree_with (fs : list file) : st := set_root (Some 0) (set_cur (Some 0) (fresh 128 [] [node_ "/" fs None None None])).
Definition words_ (l : list string) : list bytes := map lit l.
Definition starts (f : file) (s : st) : bool := fsm_eqb (o_state s) S_PROCESS_START && oeq beq (option_map f_name (o_pfile s)) (Some (f_name f)).
Definition says (x : status) (s : st) : bool := written (status_text x) S_RESET s.
Example cmd_help_callback :
  forallb (fun a => holds (help_callback cmd_help (words_ a) zeroed) (says ST_COMMAND_WRONG_ARGUMENTS)) [[]; ["a"; "b"; "c"]; ["a"; "b"; "c"; "d"]]%string = true /\
  holds (help_callback cmd_help (words_ ["help"]%string) (set_pidx 1 (set_pitem 1 (set_cmds (Some 7) zeroed)))) (fun s => starts cmd_help s && (o_pidx s =? 0) && (o_pitem s =? 0) && oeq Nat.eqb (o_pnode s) (Some 7)) = true /\
  holds (help_callback cmd_help (words_ ["help"; "test"]%string) (tree_with [])) (says ST_FILE_NOT_FOUND) = true /\
  holds (help_callback cmd_help (words_ ["help"; "test1"]%string) (tree_with [named "test1"])) (says ST_FILE_NO_HELP) = true /\
  holds (help_callback cmd_help (words_ ["help"; "test2"]%string) (tree_with [mkFile (lit "test2") None (Some (lit "help")) None None None None])) (written (lit "help") S_RESET_PROMPT) = true.
Proof. vm_compute. repeat split. Qed.
Definition described : file := mkFile (lit "abcd") (Some (lit "desc")) None None None None None.
Definition helping (item idx : nat) : res st := help_service (set_state S_PROCESS_START (set_pitem item (set_pidx idx (set_pnode (Some 0) (fresh 128 [] [mkNode [named "test"; described] None None None (Some 7)]))))).
Definition step_ (t : bytes) (x : fsm) (item idx : nat) (s : st) : bool := written t x s && (o_pitem s =? item) && (o_pidx s =? idx).
Example cmd_help_service :
  forallb (fun x => fsm_eqb x S_PROCESS_START || holds (help_service (set_state x zeroed)) (fun s => fsm_eqb (o_state s) x)) every_state = true /\
  holds (help_service (set_state S_PROCESS_START (set_pitem 10 (set_pidx 20 zeroed)))) (fun s => fsm_eqb (o_state s) S_RESET_PROMPT && (o_pitem s =? 10) && (o_pidx s =? 20)) = true /\
  holds (helping 10 20) (fun s => fsm_eqb (o_state s) S_PROCESS_START && oeq Nat.eqb (o_pnode s) (Some 7) && (o_pitem s =? 0) && (o_pidx s =? 0)) = true /\
  holds (helping 0 0) (step_ (lit "test") S_PROCESS_START 0 2) = true /\
  holds (helping 1 0) (step_ (lit "abcd             " ++ sty_yellow cfg_test ++ lit "- ") S_PROCESS_START 1 1) = true /\
  holds (helping 1 1) (step_ (lit "desc") S_PROCESS_START 1 2) = true /\
  holds (helping 0 2) (step_ CRLF S_PROCESS_START 1 0) = true /\
  holds (helping 1 2) (step_ (sty_reset cfg_test ++ CRLF) S_PROCESS_START 2 0) = true /\
  forallb (fun i => asserts (helping 0 i)) (seq 3 7) = true.
Proof. vm_compute. repeat split. Qed.
Definition listing_dirs (c : option nat) (idx : nat) : res st := ls_service (set_state S_PROCESS_SERVICE (set_pchild c (set_pidx idx (set_pitem 10 (fresh 128 [] [node_ "/test/abc" [] None None (Some 7)]))))).
Definition listing_files (fs : list file) (item idx : nat) : res st := ls_service (set_state S_PROCESS_FINISH (set_pnode (Some 0) (set_pidx idx (set_pitem item (fresh 128 [] [node_ "/" fs None None None]))))).
Definition flags_ (g w x h : bool) : file := mkFile (lit "test") (Some (lit "test_desc")) (if h then Some [] else None) (if x then Some XLs else None) (if g then Some 1 else None) (if w then Some 1 else None) None.
Definition listed_ : list file := [flags_ true true true true; named "qwerty"].
Example cmd_ls_service :
  forallb (fun i => holds (listing_dirs None i) (fun s => fsm_eqb (o_state s) S_PROCESS_FINISH && (o_pitem s =? 0) && (o_pidx s =? 0))) (seq 0 10) = true /\
  holds (listing_dirs (Some 0) 0) (step_ (lit "d---- " ++ sty_green cfg_test) S_PROCESS_SERVICE 10 1) = true /\
  holds (listing_dirs (Some 0) 1) (step_ (lit "abc") S_PROCESS_SERVICE 10 2) = true /\
  holds (listing_dirs (Some 0) 2) (step_ (lit "/" ++ sty_reset cfg_test ++ CRLF) S_PROCESS_SERVICE 10 3) = true /\
  holds (listing_dirs (Some 0) 3) (fun s => (o_pitem s =? 10) && (o_pidx s =? 0) && oeq Nat.eqb (o_pchild s) (Some 7)) = true /\
  forallb (fun i => asserts (listing_dirs (Some 0) i)) (seq 4 6) = true /\
  forallb (fun i => holds (listing_files listed_ 2 i) (fun s => fsm_eqb (o_state s) S_RESET_PROMPT && (o_pitem s =? 2) && (o_pidx s =? i))) (seq 0 10) = true /\
  forallb (fun '(f, t) => holds (listing_files [f] 0 0) (step_ (lit t) S_PROCESS_FINISH 0 1))
    [(flags_ true true true true, "-rwxh "); (flags_ false true true true, "--wxh "); (flags_ false false true true, "---xh "); (flags_ false false false true, "----h "); (flags_ false false false false, "----- ")]%string = true /\
  holds (listing_files listed_ 0 1) (step_ (lit "test             " ++ sty_yellow cfg_test ++ lit "- ") S_PROCESS_FINISH 0 2) = true /\
  holds (listing_files listed_ 1 1) (step_ (lit "qwerty") S_PROCESS_FINISH 1 3) = true /\
  holds (listing_files listed_ 0 2) (step_ (lit "test_desc") S_PROCESS_FINISH 0 3) = true /\
  holds (listing_files listed_ 0 3) (step_ (sty_reset cfg_test ++ CRLF) S_PROCESS_FINISH 1 0) = true /\
  holds (listing_files listed_ 1 3) (step_ CRLF S_PROCESS_FINISH 2 0) = true /\
  forallb (fun i => asserts (listing_files listed_ 0 i)) (seq 4 6) = true.
Proof. vm_compute. repeat split. Qed.
Example cmd_cat_callback :
  forallb (fun a => holds (cat_callback cmd_cat (words_ a) zeroed) (says ST_COMMAND_WRONG_ARGUMENTS)) [[]; ["cat"]]%string = true /\
  holds (cat_callback cmd_cat (words_ ["cat"; "test"]%string) (tree_with [])) (says ST_FILE_NOT_FOUND) = true /\
  holds (cat_callback cmd_cat (words_ ["cat"; "test"; "test2"]%string) (tree_with [data_ "test" (Some 1)])) (says ST_FILE_NOT_FOUND) = true /\
  holds (cat_callback cmd_cat (words_ ["cat"; "test"]%string) (tree_with [data_ "test" None])) (says ST_FILE_NOT_READABLE) = true /\
  holds (cat_callback cmd_cat (words_ ["cat"; "test"; "test2"]%string) (tree_with [data_ "test" (Some 1); data_ "test2" None])) (says ST_FILE_NOT_READABLE) = true /\
  holds (cat_callback cmd_cat (words_ ["cat"; "test"; "test2"]%string) (tree_with [data_ "test" (Some 1); data_ "test2" (Some 2)])) (starts cmd_cat) = true.
Proof. vm_compute. repeat split. Qed.
Definition delivers (l : list (nat * bytes)) : env :=
  mkEnv (fun _ _ _ => []) (fun n _ => match find (fun x => fst x =? n) l with Some x => mkGet (GData (snd x)) (length (snd x)) [] | None => mkGet GUnset 0 [] end) (fun _ _ _ => []) (fun _ _ => []).
Definition catting (item argc : nat) : res st :=
  cat_service (delivers [(1, lit "file_data"); (2, lit "file_data_abc")]) (set_state S_PROCESS_SERVICE (set_pitem item (set_argc argc
    (set_inb (z ["test"; "test2"]%string ++ repeat NUL 117) (tree_with [data_ "test" (Some 1); data_ "test2" (Some 2)]))))).
Example cmd_cat_service :
  forallb (fun x => holds (cat_service no_env (set_pitem 10 (set_argc 10 (set_state x zeroed)))) (fun s =>
    match x with
    | S_PROCESS_START => fsm_eqb (o_state s) S_PROCESS_SERVICE && (o_pitem s =? 1)
    | S_PROCESS_SERVICE => fsm_eqb (o_state s) S_PROCESS_FINISH
    | S_PROCESS_FINISH => fsm_eqb (o_state s) S_RESET_PROMPT
    | _ => fsm_eqb (o_state s) x
    end && (length (lg s) =? 0))) every_state = true /\
  holds (catting 0 1) (fun s => written (lit "file_data") S_PROCESS_SERVICE s && (o_pitem s =? 1)) = true /\
  holds (catting 1 2) (fun s => written (lit "file_data_abc") S_PROCESS_SERVICE s && (o_pitem s =? 2)) = true.
Proof. vm_compute. repeat split. Qed.
Example cmd_xxd_callback :
  forallb (fun n => (n =? 2) || holds (xxd_callback no_env cmd_xxd (repeat (lit "test") n) zeroed) (says ST_COMMAND_WRONG_ARGUMENTS)) (seq 0 10) = true /\
  holds (xxd_callback no_env cmd_xxd (words_ ["xxd"; "test"]%string) (tree_with [])) (says ST_FILE_NOT_FOUND) = true /\
  holds (xxd_callback no_env cmd_xxd (words_ ["xxd"; "test2"]%string) (tree_with [data_ "test2" None])) (says ST_FILE_NOT_READABLE) = true /\
  holds (xxd_callback (delivers [(1, lit "5678")]) cmd_xxd (words_ ["xxd"; "test3"]%string) (tree_with [data_ "test3" (Some 1)])) (fun s => starts cmd_xxd s && oeq beq (o_pdata s) (Some (lit "5678")) && (o_pdsize s =? 4)) = true.
Proof. vm_compute. repeat split. Qed.
Definition hexes (l : list nat) : bytes := map ascii_of_nat l.
Definition dumping (d : bytes) (size item idx : nat) : res st := xxd_service (set_state S_PROCESS_SERVICE (set_pdata (Some d) (set_pdsize size (set_pitem item (set_pidx idx zeroed))))).
(* the first column is tried with smaller offsets: 0x11223344 is out of reach of unary numbers *)
Example cmd_xxd_service :
  holds (xxd_service (set_state S_PROCESS_START (set_pidx 10 (set_pitem 20 zeroed)))) (fun s => fsm_eqb (o_state s) S_PROCESS_SERVICE && (o_pidx s =? 0) && (o_pitem s =? 0)) = true /\
  holds (xxd_service (set_state S_PROCESS_FINISH (set_pidx 10 (set_pitem 20 zeroed)))) (fun s => fsm_eqb (o_state s) S_RESET_PROMPT && (o_pidx s =? 10) && (o_pitem s =? 20)) = true /\
  forallb (fun x => one_of [S_PROCESS_START; S_PROCESS_SERVICE; S_PROCESS_FINISH] x || holds (xxd_service (set_state x zeroed)) (fun s => fsm_eqb (o_state s) x)) every_state = true /\
  fmt_hex 8 287454020%N = lit "11223344" /\ fmt_hex 8 11206417%N = lit "00AAFF11" /\
  holds (dumping [] 0 171 0) (step_ (lit "000000AB: ") S_PROCESS_SERVICE 171 1) = true /\
  holds (dumping (hexes [0; 17; 34; 51; 68; 85; 102; 119]) 8 0 1) (step_ (lit "00 11 22 33 44 55 66 77  ") S_PROCESS_SERVICE 0 2) = true /\
  holds (dumping (hexes [255; 170; 17]) 3 0 1) (step_ (lit "FF AA 11                 ") S_PROCESS_SERVICE 0 2) = true /\
  holds (dumping (lit "abcd") 4 0 2) (step_ (lit "abcd    ") S_PROCESS_SERVICE 8 3) = true /\
  holds (dumping (hexes [255; 32; 99; 100; 0; 19; 32; 49]) 8 0 2) (step_ (lit ". cd.. 1") S_PROCESS_SERVICE 8 3) = true /\
  holds (dumping [] 10 10 3) (step_ CRLF S_PROCESS_FINISH 10 3) = true /\
  holds (dumping [] 10 9 3) (step_ CRLF S_PROCESS_SERVICE 9 0) = true /\
  forallb (fun i => asserts (dumping [] 0 0 i)) (seq 4 6) = true.
Proof. vm_compute. repeat split. Qed.
(** The arguments stand one behind the other, as the parser leaves them. *)
Definition echoing (l : list bytes) (fs : list file) : res st :=
  let t := flat_map (fun w => w ++ [NUL]) l in
  let s := set_argc (length l) (set_inb (t ++ repeat NUL (128 - length t)) (tree_with fs)) in
  args <- ush_parse_get_args s ;; argv <- arg_values (inb s) args ;; echo_callback no_env args argv s.
Definition writable (n : string) : file := mkFile (lit n) None None None None (Some 1) None.
Definition stored (r : res st) (t : bytes) : bool := holds r (fun s => match lg s with [EvSet 1 _ d] => beq d t | _ => false end).
Example cmd_echo_callback :
  forallb (fun n => existsb (Nat.eqb n) [1; 2; 4] || holds (echoing (repeat (lit "a") n) []) (says ST_COMMAND_WRONG_ARGUMENTS)) (seq 0 6) = true /\
  forallb (fun c => ceq c ">"%char || holds (echo_callback no_env [0; 2; 4; 6] [lit "a"; lit "b"; (if ceq c NUL then [] else [c]); lit "d"] zeroed) (says ST_COMMAND_WRONG_ARGUMENTS)) every_byte = true /\
  holds (echoing (words_ ["echo"; "a"; ">"; "test"]%string) []) (says ST_FILE_NOT_FOUND) = true /\
  holds (echoing (words_ ["echo"; "a"; ">"; "test"]%string) [named "test"]) (says ST_FILE_NOT_WRITABLE) = true /\
  holds (echoing (words_ ["echo"]%string) []) (fun s => fsm_eqb (o_state s) S_RESET) = true /\
  holds (echoing (words_ ["echo"; "test"]%string) []) (written (lit "test") S_RESET) = true /\
  holds (echoing (words_ ["echo"; "abc\x00test"]%string) []) (written (lit "abc") S_RESET) = true /\
  stored (echoing (words_ ["echo"; "test2"; ">"; "test_file"]%string) [writable "test_file"]) (lit "test2") = true /\
  stored (echoing (words_ ["echo"; "a\xA1\x00b"; ">"; "test_file"]%string) [writable "test_file"]) (hexes [97; 161; 0; 98]) = true.
Proof. vm_compute. repeat split. Qed.

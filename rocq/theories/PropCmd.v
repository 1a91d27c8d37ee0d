(** * Properties C19 to C25, C44, C45: the built-in commands.

    Vocabulary: Cmds.v, in particular [asked e own w cwd l ws f s] (in world [w], the line [l]
    has been typed, reads as the words [ws], and its first word is the command [f]),
    [does e c s x f ws evs t cwd s'] (the end of line [c] calls the command with all the
    words, then exactly the events [evs] happen, the text [t] and a prompt for [cwd] are
    printed and the shell waits for the next line in state [s']), [denotes], [findable];
    [message] in Line.v; [dir_named], [dir_at] in Tree.v; [resolve_text] in Spec.v.
    In all theorems [core s' = core s] says that descriptor, commands, directories and
    current directory are unchanged. *)
From Coq Require Import Arith.
From Verif Require Import Shell Words Sched Line Spec Tree Cmds CmdProofs LineProofs Demo PropTree PropLine DemoCmd.

(** C19: if every name denotes a readable file, cat reads and prints them in order. *)
Theorem C19_cat : forall e own w cwd l n names s c evs, asked e own w cwd l (n :: names) cmd_cat s -> c = CR \/ c = LF -> names <> [] -> findable s w names ->
  reads e (denotes w) names evs ->
  exists s', does e c s XCat cmd_cat (n :: names) evs [] cwd s' /\ core s' = core s.
Proof. exact C19_proof. Qed.
Print Assumptions C19_cat.

(** C19: if some name does not, nothing at all is read: only the error of the first such
    name is printed. *)
Theorem C19_cat_nothing : forall e own w cwd l n pre bad post s c x, asked e own w cwd l (n :: pre ++ bad :: post) cmd_cat s -> c = CR \/ c = LF ->
  findable s w (pre ++ bad :: post) -> Forall (has_getter (denotes w)) pre ->
  match denotes w bad with None => x = ST_FILE_NOT_FOUND | Some f => f_get f = None /\ x = ST_FILE_NOT_READABLE end ->
  exists s', does e c s XCat cmd_cat (n :: pre ++ bad :: post) [] (message s x ++ CRLF) cwd s' /\ core s' = core s.
Proof. exact C19_bad_proof. Qed.
Print Assumptions C19_cat_nothing.

Example C19_example :
  asked demo_env demo_own demo_world [] (lit "cat dev/time /dev/./time") [lit "cat"; lit "dev/time"; lit "/dev/./time"] cmd_cat (demo_line "cat dev/time /dev/./time") /\
  findable (demo_line "cat dev/time /dev/./time") demo_world [lit "dev/time"; lit "/dev/./time"] /\
  reads demo_env (denotes demo_world) [lit "dev/time"; lit "/dev/./time"]
    (EvGet 0 (lit "time") :: map EvOut (lit "12:00") ++ EvGet 0 (lit "time") :: map EvOut (lit "12:00") ++ []) /\
  demo_said "cat dev/time /dev/./time" = CRLF ++ lit "12:0012:00" ++ demo_prompt /\
  asked demo_env demo_own demo_world [] (lit "cat dev/time run dev/time") [lit "cat"; lit "dev/time"; lit "run"; lit "dev/time"] cmd_cat (demo_line "cat dev/time run dev/time") /\
  findable (demo_line "cat dev/time run dev/time") demo_world [lit "dev/time"; lit "run"; lit "dev/time"] /\
  has_getter (denotes demo_world) (lit "dev/time") /\ denotes demo_world (lit "run") = Some f_run /\ f_get f_run = None /\ denotes demo_world (lit "dev/none") = None /\
  demo_said "cat dev/time run dev/time" = CRLF ++ lit "error: file not readable" ++ CRLF ++ demo_prompt.
Proof.
  split; [demo_ask|]. split; [apply demo_findable; vm_compute; reflexivity|].
  split; [repeat (apply (reads_cons demo_env (denotes demo_world) _ f_time 0 (lit "12:00")); [vm_compute; reflexivity|reflexivity|exists []; reflexivity|]); apply reads_nil|].
  split; [vm_compute; reflexivity|]. split; [demo_ask|]. split; [apply demo_findable; vm_compute; reflexivity|].
  split; [exists f_time, 0; split; vm_compute; reflexivity|]. split; [vm_compute; reflexivity|]. split; [reflexivity|]. split; vm_compute; reflexivity.
Qed.

(** C20: xxd reads the file once and prints the dump of its data. *)
Theorem C20_xxd : forall e own w cwd l n name s c g cb d, asked e own w cwd l [n; name] cmd_xxd s -> c = CR \/ c = LF -> findable s w [name] ->
  denotes w name = Some g -> f_get g = Some cb -> gives_or_none e cb g d -> dumpable (o_desc s) d ->
  exists s', does e c s XXxd cmd_xxd [n; name] [EvGet cb (f_name g)] (xxd_dump (cfg_cols (d_cfg (o_desc s))) d) cwd s' /\ core s' = core s.
Proof. exact C20_proof. Qed.
Print Assumptions C20_xxd.

Theorem C20_xxd_error : forall e own w cwd l n name s c x, asked e own w cwd l [n; name] cmd_xxd s -> c = CR \/ c = LF -> findable s w [name] ->
  match denotes w name with None => x = ST_FILE_NOT_FOUND | Some f => f_get f = None /\ x = ST_FILE_NOT_READABLE end ->
  exists s', does e c s XXxd cmd_xxd [n; name] [] (message s x ++ CRLF) cwd s' /\ core s' = core s.
Proof. exact C20_bad_proof. Qed.
Print Assumptions C20_xxd_error.

Example C20_example :
  asked demo_env demo_own demo_world [] (lit "xxd dev/time") [lit "xxd"; lit "dev/time"] cmd_xxd (demo_line "xxd dev/time") /\
  findable (demo_line "xxd dev/time") demo_world [lit "dev/time"] /\
  denotes demo_world (lit "dev/time") = Some f_time /\ gives_or_none demo_env 0 f_time (lit "12:00") /\ dumpable (o_desc (demo_line "xxd dev/time")) (lit "12:00") /\
  demo_said "xxd dev/time" = CRLF ++ lit "00000000: 31 32 3A 30 30           12:00   " ++ CRLF ++ demo_prompt /\
  xxd_dump 4 (lit "abcdef" ++ [NUL; ascii_of_nat 255]) =
    lit "00000000: 61 62 63 64  abcd" ++ CRLF ++ lit "00000004: 65 66 00 FF  ef.." ++ CRLF /\
  xxd_dump 4 [] = lit "00000000:                  " ++ CRLF.
Proof.
  split; [demo_ask|]. split; [apply demo_findable; vm_compute; reflexivity|]. split; [vm_compute; reflexivity|]. split; [exists (GData (lit "12:00")); split; [reflexivity|right; exists []; reflexivity]|].
  split; [|split; [vm_compute; reflexivity|split; vm_compute; reflexivity]].
  replace (o_desc (demo_line "xxd dev/time")) with demo_desc by (vm_compute; reflexivity).
  split; [apply Nat.ltb_lt; reflexivity|]. split; [vm_compute; discriminate|]. split; apply Nat.ltb_lt; reflexivity.
Qed.

(** C21: the data can be read back from the dump. *)
Theorem C21_undump : forall cols d, 0 < cols -> undump (length (xxd_dump cols d)) cols (xxd_dump cols d) = d.
Proof. exact C21_proof. Qed.
Print Assumptions C21_undump.

Theorem C21_injective : forall cols a b, 0 < cols -> xxd_dump cols a = xxd_dump cols b -> a = b.
Proof. exact C21_injective_proof. Qed.
Print Assumptions C21_injective.

Example C21_example : xxd_dump 4 [NUL] <> xxd_dump 4 [NUL; NUL] /\ undump 99 4 (xxd_dump 4 (lit "0123: 4")) = lit "0123: 4".
Proof. split; [vm_compute; discriminate|vm_compute; reflexivity]. Qed.

(** C22: ls lists the current directory. *)
Theorem C22_ls : forall e own w cwd l n s c d, asked e own w cwd l [n] cmd_ls s -> c = CR \/ c = LF -> dir_at cwd (w_fs w) = Some d ->
  Forall (listable (o_desc s)) (de_files d) -> 6 < d_outsize (o_desc s) \/ de_files d = [] ->
  exists s', does e c s XLs cmd_ls [n] [] (ls_dir (d_cfg (o_desc s)) d (w_fs w)) cwd s' /\ core s' = core s.
Proof. exact C22_here_proof. Qed.
Print Assumptions C22_ls.

(** C22: ls path lists the directory the path leads to, if it is mounted. *)
Theorem C22_ls_path : forall e own w cwd l n path s c, asked e own w cwd l [n; path] cmd_ls s -> c = CR \/ c = LF ->
  length (full_text cwd path) < d_pathmax (o_desc s) ->
  match dir_named (show (resolve_text cwd path)) (w_fs w) with
  | Some d => Forall (listable (o_desc s)) (de_files d) -> 6 < d_outsize (o_desc s) \/ de_files d = [] ->
      exists s', does e c s XLs cmd_ls [n; path] [] (ls_dir (d_cfg (o_desc s)) d (w_fs w)) cwd s' /\ core s' = core s
  | None =>
      exists s', does e c s XLs cmd_ls [n; path] [] (message s ST_NODE_NOT_FOUND ++ CRLF) cwd s' /\ core s' = core s
  end.
Proof. exact C22_path_proof. Qed.
Print Assumptions C22_ls_path.

Example C22_example :
  asked demo_env demo_own demo_world [] (lit "ls") [lit "ls"] cmd_ls (demo_line "ls") /\
  dir_at [] (w_fs demo_world) = Some (mkDir [] 1 [f_run]) /\ listable (o_desc (demo_line "ls")) f_run /\
  asked demo_env demo_own demo_world [] (lit "ls dev") [lit "ls"; lit "dev"] cmd_ls (demo_line "ls dev") /\
  dir_named (show (resolve_text [] (lit "dev"))) (w_fs demo_world) = Some (mkDir [lit "dev"] 2 [f_time; f_log]) /\
  Forall (listable (o_desc (demo_line "ls dev"))) [f_time; f_log] /\
  demo_said "ls dev" = CRLF ++ ls_dir cfg_posix (mkDir [lit "dev"] 2 [f_time; f_log]) (w_fs demo_world) ++ demo_prompt /\
  ls_dir cfg_test (mkDir [lit "dev"] 2 [f_time; f_log]) (w_fs demo_world) =
    lit "d---- ." ++ CRLF ++ lit "d---- .." ++ CRLF ++ lit "d---- a/" ++ CRLF ++ lit "-rw-- time             - clock" ++ CRLF ++ lit "----- log" ++ CRLF /\
  demo_said "ls nope" = CRLF ++ lit "error: directory not found" ++ CRLF ++ demo_prompt.
Proof.
  split; [demo_ask|]. split; [reflexivity|]. split.
  { replace (o_desc (demo_line "ls")) with demo_desc by (vm_compute; reflexivity). split; [apply Nat.ltb_lt; vm_compute; reflexivity|cbn; intuition discriminate]. }
  split; [demo_ask|]. split; [vm_compute; reflexivity|]. split.
  { replace (o_desc (demo_line "ls dev")) with demo_desc by (vm_compute; reflexivity).
    repeat constructor; try (apply Nat.ltb_lt; vm_compute; reflexivity); cbn; intuition discriminate. }
  split; [vm_compute; reflexivity|]. split; vm_compute; reflexivity.
Qed.

(** C23: help lists the commands, newest group first. *)
Theorem C23_help : forall e own w cwd l n s c, asked e own w cwd l [n] cmd_help s -> c = CR \/ c = LF ->
  Forall (listable (o_desc s)) (flat_map snd (w_groups w)) ->
  exists s', does e c s XHelp cmd_help [n] [] (help_text (d_cfg (o_desc s)) (flat_map snd (w_groups w))) cwd s' /\ core s' = core s.
Proof. exact C23_list_proof. Qed.
Print Assumptions C23_help.

(** C23: help name prints the help text of the file, or the reason why there is none. *)
Theorem C23_help_file : forall e own w cwd l n name s c, asked e own w cwd l [n; name] cmd_help s -> c = CR \/ c = LF -> findable s w [name] ->
  exists s', does e c s XHelp cmd_help [n; name] []
    (match denotes w name with
     | None => message s ST_FILE_NOT_FOUND ++ CRLF
     | Some g => match f_help g with None => message s ST_FILE_NO_HELP ++ CRLF | Some t => t end
     end) cwd s' /\ core s' = core s.
Proof. exact C23_file_proof. Qed.
Print Assumptions C23_help_file.

Example C23_example :
  asked demo_env demo_own demo_world [] (lit "help") [lit "help"] cmd_help (demo_line "help") /\
  Forall (listable (o_desc (demo_line "help"))) (flat_map snd (w_groups demo_world)) /\
  demo_said "help" = CRLF ++ help_text cfg_posix (buildin_commands cfg_posix) ++ demo_prompt /\
  length (help_text cfg_test (buildin_commands cfg_test)) = 299 /\
  asked demo_env demo_own demo_world [] (lit "help run") [lit "help"; lit "run"] cmd_help (demo_line "help run") /\
  findable (demo_line "help run") demo_world [lit "run"] /\ denotes demo_world (lit "run") = Some f_run /\
  demo_said "help run" = CRLF ++ lit "usage: run" ++ CRLF ++ demo_prompt /\
  demo_said "help dev/log" = CRLF ++ lit "error: no help available" ++ CRLF ++ demo_prompt.
Proof.
  split; [demo_ask|]. split.
  { replace (o_desc (demo_line "help")) with demo_desc by (vm_compute; reflexivity).
    repeat constructor; try (apply Nat.ltb_lt; vm_compute; reflexivity); cbn; intuition discriminate. }
  split; [vm_compute; reflexivity|]. split; [vm_compute; reflexivity|]. split; [demo_ask|]. split; [apply demo_findable; vm_compute; reflexivity|].
  split; [vm_compute; reflexivity|]. split; vm_compute; reflexivity.
Qed.

(** C24: echo text > file calls the setter once, with the decoded text; what the
    setter itself prints follows (after what an exec hook has printed). *)
Theorem C24_echo_file : forall e own w cwd l n text name s c g cb, asked e own w cwd l [n; text; lit ">"; name] cmd_echo s -> c = CR \/ c = LF -> findable s w [name] ->
  denotes w name = Some g -> f_set g = Some cb ->
  let calls := hook_calls e (o_desc s) [n; text; lit ">"; name] ++ e_set e cb (f_name g) (decode text) in
  Forall (printing_call []) calls -> room_for (o_desc s) calls ->
  exists s', does e c s XEcho cmd_echo [n; text; lit ">"; name] [EvSet cb (f_name g) (decode text)]
    (said (o_desc s) c [] calls) cwd s' /\ core s' = core s.
Proof. exact C24_proof. Qed.
Print Assumptions C24_echo_file.

(** C24: otherwise no setter is called. *)
Theorem C24_echo_error : forall e own w cwd l n text op name s c x, asked e own w cwd l [n; text; op; name] cmd_echo s -> c = CR \/ c = LF -> findable s w [name] ->
  (op <> lit ">" /\ x = ST_COMMAND_WRONG_ARGUMENTS \/
   op = lit ">" /\ match denotes w name with None => x = ST_FILE_NOT_FOUND | Some f => f_set f = None /\ x = ST_FILE_NOT_WRITABLE end) ->
  exists s', does e c s XEcho cmd_echo [n; text; op; name] [] (message s x ++ CRLF) cwd s' /\ core s' = core s.
Proof. exact C24_bad_proof. Qed.
Print Assumptions C24_echo_error.

Example C24_example :
  asked demo_env demo_own demo_world [] (lit "echo a\x00b > dev/time") [lit "echo"; lit "a\x00b"; lit ">"; lit "dev/time"] cmd_echo (demo_line "echo a\x00b > dev/time") /\
  findable (demo_line "echo a\x00b > dev/time") demo_world [lit "dev/time"] /\ denotes demo_world (lit "dev/time") = Some f_time /\ f_set f_time = Some 0 /\
  demo_events "echo a\x00b > dev/time" =
    [EvIn CR; EvExec XEcho (Some (lit "echo")) [lit "echo"; lit "a\x00b"; lit ">"; lit "dev/time"]; EvSet 0 (lit "time") (lit "a" ++ NUL :: lit "b")] /\
  demo_said "echo a > dev/log" = CRLF ++ lit "error: file not writable" ++ CRLF ++ demo_prompt /\
  demo_said "echo a >> dev/time" = CRLF ++ lit "error: wrong arguments" ++ CRLF ++ demo_prompt.
Proof.
  split; [demo_ask|]. split; [apply demo_findable; vm_compute; reflexivity|]. split; [vm_compute; reflexivity|]. split; [reflexivity|].
  split; [vm_compute; reflexivity|]. split; vm_compute; reflexivity.
Qed.

(** C25: echo prints a text without backslashes. *)
Theorem C25_echo : forall e own w cwd l n text s c, asked e own w cwd l [n; text] cmd_echo s -> c = CR \/ c = LF -> ~ In BSL text ->
  exists s', does e c s XEcho cmd_echo [n; text] [] (text ++ CRLF) cwd s' /\ core s' = core s.
Proof. exact C25_plain_proof. Qed.
Print Assumptions C25_echo.

Theorem C25_echo_alone : forall e own w cwd l n s c, asked e own w cwd l [n] cmd_echo s -> c = CR \/ c = LF ->
  exists s', does e c s XEcho cmd_echo [n] [] CRLF cwd s' /\ core s' = core s.
Proof. exact C25_alone_proof. Qed.
Print Assumptions C25_echo_alone.

(** C25: what echo prints for any text: the decoded text is followed by the part of the
    original text that decoding did not overwrite, up to a NUL. *)
Theorem C25_echo_any : forall e own w cwd l n text s c, asked e own w cwd l [n; text] cmd_echo s -> c = CR \/ c = LF ->
  exists s', does e c s XEcho cmd_echo [n; text] [] (until_nul (decode text ++ skipn (length (decode text)) text) ++ CRLF) cwd s' /\ core s' = core s.
Proof. exact C25_proof. Qed.
Print Assumptions C25_echo_any.

(** C25: so it is not true that echo prints the decoded text. *)
Theorem C25_echo_decoded_refuted : exists e own w cwd l n text s c, asked e own w cwd l [n; text] cmd_echo s /\ c = CR /\
  ~ In NUL (decode text) /\ ~ exists s', does e c s XEcho cmd_echo [n; text] [] (decode text ++ CRLF) cwd s'.
Proof.
  exists demo_env, demo_own, demo_world, [], (lit "echo a\x41"), (lit "echo"), (lit "a\x41"), (demo_line "echo a\x41"), CR.
  assert (A : asked demo_env demo_own demo_world [] (lit "echo a\x41") [lit "echo"; lit "a\x41"] cmd_echo (demo_line "echo a\x41")) by demo_ask.
  split; [exact A|]. split; [reflexivity|]. split; [vm_compute; intuition discriminate|].
  intros (s1 & F1 & _ & _ & L1). destruct (C25_echo_any demo_env _ _ _ _ _ _ _ CR A (or_introl eq_refl)) as (s2 & (F2 & _ & _ & L2) & _).
  rewrite (fed_det _ _ _ _ _ F1 F2), L2 in L1. apply app_inv_head in L1. revert L1. vm_compute. discriminate.
Qed.
Print Assumptions C25_echo_decoded_refuted.

Example C25_example :
  asked demo_env demo_own demo_world [] (lit "echo ""a  b""") [lit "echo"; lit "a  b"] cmd_echo (demo_line "echo ""a  b""") /\
  demo_said "echo ""a  b""" = CRLF ++ lit "a  b" ++ CRLF ++ demo_prompt /\
  demo_said "echo a\x41" = CRLF ++ lit "aAx41" ++ CRLF ++ demo_prompt /\
  demo_said "echo \x41\x00" = CRLF ++ lit "A" ++ CRLF ++ demo_prompt /\
  asked demo_env demo_own demo_world [] (lit "echo") [lit "echo"] cmd_echo (demo_line "echo").
Proof. split; [demo_ask|]. split; [vm_compute; reflexivity|]. split; [vm_compute; reflexivity|]. split; [vm_compute; reflexivity|demo_ask]. Qed.

(** C44: pwd prints the current directory. *)
Theorem C44_pwd : forall e own w cwd l n s c, asked e own w cwd l [n] cmd_pwd s -> c = CR \/ c = LF ->
  exists s', does e c s XPwd cmd_pwd [n] [] (show cwd ++ CRLF) cwd s' /\ core s' = core s.
Proof. exact C44_pwd_proof. Qed.
Print Assumptions C44_pwd.

(** C44: cd goes to the directory the path leads to, if it is mounted; the next prompt shows
    it and nothing else is printed (except by an exec hook).  Otherwise the current directory stays. *)
Theorem C44_cd : forall e own w cwd l n path s c, asked e own w cwd l [n; path] cmd_cd s -> c = CR \/ c = LF ->
  length (full_text cwd path) < d_pathmax (o_desc s) ->
  match (match path with [] => None | _ => dir_named (show (resolve_text cwd path)) (w_fs w) end) with
  | Some d => exists s', does e c s XCd cmd_cd [n; path] [] (said (o_desc s) c [n; path] (hook_calls e (o_desc s) [n; path])) (de_path d) s' /\ core s' = core (set_cur (Some (de_node d)) s) /\
       knows own s' (mkWorld (w_fs w) (w_groups w) (Some (de_path d)))
  | None => exists s', does e c s XCd cmd_cd [n; path] [] (message s ST_NODE_NOT_FOUND ++ CRLF) cwd s' /\ core s' = core s
  end.
Proof. exact C44_cd_proof. Qed.
Print Assumptions C44_cd.

Example C44_example :
  asked demo_env demo_own demo_world [] (lit "cd dev/a/../a") [lit "cd"; lit "dev/a/../a"] cmd_cd (demo_line "cd dev/a/../a") /\
  dir_named (show (resolve_text [] (lit "dev/a/../a"))) (w_fs demo_world) = Some (mkDir [lit "dev"; lit "a"] 3 []) /\
  demo_said "cd dev/a/../a" = CRLF ++ prompt demo_desc (lit "/dev/a") /\ o_cur (demo_next "cd dev/a/../a") = Some 3 /\
  demo_said "cd nope" = CRLF ++ lit "error: directory not found" ++ CRLF ++ demo_prompt /\
  asked demo_env demo_own demo_world [] (lit "pwd") [lit "pwd"] cmd_pwd (demo_line "pwd") /\
  demo_said "pwd" = CRLF ++ lit "/" ++ CRLF ++ demo_prompt.
Proof. split; [demo_ask|]. split; [vm_compute; reflexivity|]. split; [vm_compute; reflexivity|]. split; [vm_compute; reflexivity|]. split; [vm_compute; reflexivity|]. split; [demo_ask|vm_compute; reflexivity]. Qed.

(** C45: a number of arguments the command does not accept. *)
Theorem C45_wrong_arguments : forall e own w cwd l ws f s c x, asked e own w cwd l ws f s -> c = CR \/ c = LF -> f_exec f = Some x -> ws <> [] -> accepts x (length ws) = false ->
  exists s', does e c s x f ws [] (message s ST_COMMAND_WRONG_ARGUMENTS ++ CRLF) cwd s' /\ core s' = core s.
Proof. exact C45_proof. Qed.
Print Assumptions C45_wrong_arguments.

Example C45_example :
  asked demo_env demo_own demo_world [] (lit "pwd x") [lit "pwd"; lit "x"] cmd_pwd (demo_line "pwd x") /\ f_exec cmd_pwd = Some XPwd /\ accepts XPwd 2 = false /\
  asked demo_env demo_own demo_world [] (lit "echo a b") [lit "echo"; lit "a"; lit "b"] cmd_echo (demo_line "echo a b") /\ accepts XEcho 3 = false /\
  demo_said "echo a b" = CRLF ++ lit "error: wrong arguments" ++ CRLF ++ demo_prompt.
Proof. split; [demo_ask|]. split; [reflexivity|]. split; [reflexivity|]. split; [demo_ask|]. split; [reflexivity|vm_compute; reflexivity]. Qed.
